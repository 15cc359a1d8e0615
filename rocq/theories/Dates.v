(** * Dates: dates given as text

    RAMP reads a date given as text with [datetime.datetime.fromisoformat] (the two dates of a use case) or
    [datetime.date.fromisoformat] (get_day_type and the command line).  Modelled, as CPython does it in every
    version RAMP supports: the text "YYYY-MM-DD", the text "YYYY-MM-DD?HH:MM" with any character between date
    and time, and the refusal of the texts of that shape that name no date.  The other ISO 8601 shapes (week
    dates, basic format, seconds, time zones), which only some versions accept, give [Unmodelled]. *)
From Verif Require Import Base Utils Appliance User UseCase Calendar Cli.
From Coq Require Import String Ascii.
Open Scope list_scope.
Open Scope Z_scope.

(** [_datetime.c parse_digits]: [k] decimal digits, and what follows *)
Fixpoint parse_digits (k : nat) (acc : Z) (s : string) : option (Z * string) :=
  match k with
  | O => Some (acc, s)
  | S k' =>
      match s with
      | EmptyString => None
      | String c s' => if is_digit c then parse_digits k' (acc * 10 + (Z.of_nat (nat_of_ascii c) - 48)) s' else None
      end
  end.

(** [check_date_args]: the year is 1 to 9999, the month 1 to 12 and the day exists in that month *)
Definition check_date (y m d : Z) : res ymd :=
  if (1 <=? y) && (y <=? 9999) && (1 <=? m) && (m <=? 12) && (1 <=? d) && (d <=? days_in_month y m)
  then Ok (y, m, d) else Err ValueError.

(** one expected character, and what follows *)
Definition expect (c : ascii) (s : string) : option string :=
  match s with
  | EmptyString => None
  | String c' s' => if Ascii.eqb c c' then Some s' else None
  end.

(** [parse_isoformat_date] on a text with "-" after the year and no week number *)
Definition parse_date (s : string) : option ((Z * Z * Z) * string) :=
  match parse_digits 4 0 s with
  | Some (y, s1) =>
      match expect "-" s1 with
      | Some s2 =>
          match parse_digits 2 0 s2 with
          | Some (m, s3) =>
              match expect "-" s3 with
              | Some s4 => match parse_digits 2 0 s4 with Some (d, rest) => Some ((y, m, d), rest) | None => None end
              | None => None
              end
          | None => None
          end
      | None => None
      end
  | None => None
  end.

(** "-" in fifth position, and not the W of a week date after it *)
Definition dashed (s : string) : bool :=
  match String.get 4 s, String.get 5 s with
  | Some c, Some c' => Ascii.eqb c "-" && negb (Ascii.eqb c' "W")
  | _, _ => false
  end.

(** [datetime.date.fromisoformat(s)] *)
Definition date_fromisoformat (s : string) : res ymd :=
  if (Nat.eqb (String.length s) 7) || (Nat.eqb (String.length s) 8) then Err Unmodelled
  else if negb (Nat.eqb (String.length s) 10) then Err ValueError
  else if negb (dashed s) then Err Unmodelled
  else match parse_date s with
       | Some ((y, m, d), _) => check_date y m d
       | None => Err ValueError
       end.

(** [parse_isoformat_time] on "HH:MM": minutes since midnight *)
Definition parse_time (s : string) : res Z :=
  match parse_digits 2 0 s with
  | Some (h, s1) =>
      match expect ":" s1 with
      | Some s2 =>
          match parse_digits 2 0 s2 with
          | Some (mi, _) =>
              if (h =? 24) && (mi =? 0) then Err Unmodelled
              else if (h <=? 23) && (mi <=? 59) then Ok (60 * h + mi) else Err ValueError
          | None => Err ValueError
          end
      | None => Err Unmodelled
      end
  | None => Err ValueError
  end.

(** [datetime.datetime.fromisoformat(s)], in minutes since 0001-01-01 00:00 *)
Definition datetime_fromisoformat (s : string) : res Z :=
  if Nat.ltb (String.length s) 7 then Err ValueError
  else if negb (Nat.eqb (String.length s) 10 || Nat.eqb (String.length s) 16) || negb (dashed s) then Err Unmodelled
  else match parse_date s with
       | None => Err ValueError
       | Some ((y, m, d), rest) =>
           match rest with
           | EmptyString => rbind (check_date y m d) (fun x => Ok (midnight_of x))
           | String _ time =>
               rbind (parse_time time) (fun t => rbind (check_date y m d) (fun x => Ok (midnight_of x + t)))
           end
       end.

(** a date as the caller gives it: nothing, a text, or a datetime *)
Inductive date_arg : Type := NoDate | TextDate (s : string) | Moment (t : Z).
(** core.py:82-91 [datetime.datetime.fromisoformat(d) if isinstance(d, str) else d] *)
Definition read_date (a : date_arg) : res (option Z) :=
  match a with
  | NoDate => Ok None
  | TextDate s => rbind (datetime_fromisoformat s) (fun t => Ok (Some t))
  | Moment t => Ok (Some t)
  end.

(** core.py:49-113 [UseCase(users, date_start, date_end, ...)]: the start is read before the end *)
Definition new_usecase_dates (F : fm) (w : world) (us : list user) (start stop : date_arg) (par : bool)
    (enl : Q) (seed : option Z) : prog usecase :=
  s <- lift (read_date start) ;; e <- lift (read_date stop) ;; new_usecase F w us s e par enl seed.

(** core.py:121-127 and 133-139, the setters; a text that cannot be read changes nothing *)
Definition assign_date_start (c : usecase) (a : date_arg) : usecase * option exc :=
  match read_date a with Ok x => (set_date_start c x, None) | Err e => (c, Some e) end.
Definition assign_date_end (c : usecase) (a : date_arg) : usecase * option exc :=
  match read_date a with Ok x => (set_date_end c x, None) | Err e => (c, Some e) end.

(** utils.py:185-195 [get_day_type(day)] of a text *)
Definition get_day_type_text (s : string) : res Z :=
  rbind (date_fromisoformat s) (fun x => Ok (get_day_type (midnight_of x))).
