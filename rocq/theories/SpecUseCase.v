(** * SpecUseCase: the vocabulary of the properties about use cases (models no code) *)
From Verif Require Import Base Utils Appliance User Spec SpecUser UseCase.
From Coq Require Permutation.
Import Permutation.

(** the [n] consecutive days that begin with [s] (dates are minutes) *)
Definition consecutive_days (s n : Z) (ds : list Z) : Prop :=
  zlen ds = n /\ forall k, 0 <= k < n -> nth (Z.to_nat k) ds 0 = s + 1440 * k.

(** consecutive minutes that begin with [s] *)
Definition consecutive_minutes (s n : Z) (l : list Z) : Prop :=
  zlen l = n /\ forall k, 0 <= k < n -> nth (Z.to_nat k) l 0 = s + k.

(** the use case is set up for [n] days beginning with [s]: days, num_days and datetimeindex agree *)
Definition set_up (c : usecase) (s n : Z) : Prop :=
  1 <= n /\ num_days_ c = Some n /\
  (exists ds, days c = Some ds /\ consecutive_days s n ds) /\
  (exists ix, datetimeindex_ c = Some ix /\ consecutive_minutes s (1440 * n) ix).

(** no days have been chosen yet *)
Definition not_set_up (c : usecase) : Prop := days c = None /\ datetimeindex_ c = None.

(** Saturdays and Sundays are day type 1, other days 0; 0001-01-01 was a Monday *)
Definition is_day_type (d dt : Z) : Prop :=
  let days_since_monday := (d / 1440) mod 7 in
  dt = (if 5 <=? days_since_monday then 1 else 0).

(** [l] is a load the user type can have on day [i] *)
Definition user_day (depth : nat) (F : fm) (i : Z) (peak : list Z) (dt : Z) (u : user) (l : list Q) : Prop :=
  exists u', may (generate_aggregated_load_profile depth F u i peak dt) (Ok u') /\ load u' = l.

(** [row] is a row day [i] (date [d]) of a use case with these users can have *)
Definition row_of_day (depth : nat) (F : fm) (us : list user) (peak : list Z) (i d : Z) (row : list Q) : Prop :=
  exists dt loads, is_day_type d dt /\ Forall2 (user_day depth F i peak dt) us loads /\
    row = sum_rows F loads.

Definition peak_of (c : usecase) : list Z := match peak_time_range c with Some p => p | None => [] end.

(** two lists of rows say the same about every minute *)
Definition same_rows (r r' : list (list Q)) : Prop := Forall2 (Forall2 Qeq) r r'.

(** one public call that changes a use case and raises nothing *)
Inductive call : usecase -> usecase -> Prop :=
| call_add_user c u : call c (add_user c u)
| call_date_start c x : call c (set_date_start c x)
| call_date_end c x : call c (set_date_end c x)
| call_collect c : call c (collect_appliances c)
| call_initialize F w c num_days enl force c' :
    may (initialize F w c num_days enl force) (Ok (c', None)) -> call c c'
| call_peak_enlarge F c x c' : may (set_peak_enlarge F c x) (Ok (c', None)) -> call c c'
| call_num_days F w c c' n : may (UseCase.num_days F w c) (Ok (c', n)) -> call c c'
| call_generate depth F w c c' rows :
    may (generate_sequential depth F w c None) (Ok (c', rows)) -> call c c'.

(** a use case obtained by its constructor and any number of such calls *)
Inductive built : usecase -> Prop :=
| built_new F w us start stop par enl seed c :
    may (new_usecase F w us start stop par enl seed) (Ok c) -> built c
| built_call c c' : built c -> call c c' -> built c'.

(** the minutes at which a daily profile is maximal, in increasing order *)
Definition maximal_minutes (p : list Q) (ms : list Z) : Prop :=
  (forall t, In t ms <-> 0 <= t < zlen p /\ forall t', 0 <= t' < zlen p -> (value_at p t' <= value_at p t)%Q) /\
  (forall i j, (i < j < List.length ms)%nat -> nth i ms 0 < nth j ms 0).
