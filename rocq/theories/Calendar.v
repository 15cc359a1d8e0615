(** * Calendar: the calendar arithmetic RAMP relies on, and ramp/core/utils.py:185-216

    The first section models CPython's [datetime.date.toordinal] (Lib/datetime.py, functions
    [_is_leap], [_days_before_year], [_days_in_month], [_days_before_month], [_ymd2ord]), on which
    [weekday] and the pandas timestamps agree.  Simplifications: every year is representable
    (pandas stops at 1677 and 2262); [get_day_type] of a text (utils.py:188-189,
    date.fromisoformat) is in Dates.v. *)
From Verif Require Import Base Utils Appliance User UseCase.
Open Scope list_scope.
Open Scope Z_scope.

(** [_is_leap(year)] *)
Definition is_leap (y : Z) : bool := (y mod 4 =? 0) && (negb (y mod 100 =? 0) || (y mod 400 =? 0)).
(** [_days_before_year(year)]: number of days before January 1st of year *)
Definition days_before_year (y : Z) : Z :=
  let y := y - 1 in y * 365 + y / 4 - y / 100 + y / 400.
(** [_DAYS_IN_MONTH] and [_days_in_month(year, month)] *)
Definition days_in_month (y m : Z) : Z :=
  if (m =? 2) && is_leap y then 29
  else nth (Z.to_nat m) [-1; 31; 28; 31; 30; 31; 30; 31; 31; 30; 31; 30; 31] 0.
(** [_DAYS_BEFORE_MONTH] and [_days_before_month(year, month)] *)
Definition days_before_month (y m : Z) : Z :=
  nth (Z.to_nat m) [-1; 0; 31; 59; 90; 120; 151; 181; 212; 243; 273; 304; 334] 0
  + (if (m >? 2) && is_leap y then 1 else 0).
(** [_ymd2ord(year, month, day)]: 01-Jan-0001 is day 1 *)
Definition ymd2ord (y m d : Z) : Z := days_before_year y + days_before_month y m + d.
(** midnight of a date, in minutes since 0001-01-01 00:00 *)
Definition midnight (y m d : Z) : Z := 1440 * (ymd2ord y m d - 1).

(** utils.py:198-216 [yearly_pattern(year)].  With no year: [year_behaviour[5:365:7] = 1] and
    [year_behaviour[6:365:7] = 1] on zeros(365). *)
Definition set_every (l : list Z) (start step : Z) : list Z :=
  map (fun k => if (start <=? k) && ((k - start) mod step =? 0) then 1 else nth (Z.to_nat k) l 0) (arange 0 (zlen l)).
Definition yearly_pattern (year : option Z) : list Z :=
  match year with
  | None => set_every (set_every (repeat 0 (Z.to_nat 365)) 5 7) 6 7
  | Some y => map get_day_type (date_range_se (midnight y 1 1) (midnight y 12 31))
  end.
