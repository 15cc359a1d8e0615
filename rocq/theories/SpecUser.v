(** * SpecUser: the vocabulary of the properties about users and use cases (models no code) *)
From Verif Require Import Base Utils Appliance User Spec.

(** [l] is a daily profile appliance [a] can produce on day [i] when the preference is [pref] *)
Definition app_day (depth : nat) (F : fm) (i : Z) (peak : list Z) (dt : Z) (pref : Z)
    (a : appliance) (l : list Q) : Prop :=
  exists pw a', py_index (power a) i = Ok pw /\
    may (generate_load_profile depth F a pref i peak dt pw) (Ok a') /\ daily_use (st a') = l.

(** a preference the user can have on a day *)
Definition pref_of_day (u : user) (pref : Z) : Prop :=
  (user_preference u = 0 /\ pref = 0) \/ (user_preference u <> 0 /\ 1 <= pref <= user_preference u).

(** one member of the user type on one day: its preference and one profile per appliance *)
Definition member : Type := (Z * list (list Q))%type.
Definition member_day (depth : nat) (F : fm) (u : user) (i : Z) (peak : list Z) (dt : Z) (m : member) : Prop :=
  pref_of_day u (fst m) /\ Forall2 (app_day depth F i peak dt (fst m)) (app_list u) (snd m).

(** minute-wise sum of profiles, added one after the other *)
Definition sum_rows (F : fm) (rows : list (list Q)) : list Q := fold_left (vadd F) rows (zeros day_minutes).

(** exact sum of rationals *)
Definition Qsum (l : list Q) : Q := fold_right Qplus 0%Q l.
(** exact sum of what a list of profiles says about minute [t] *)
Definition minute_sum (t : Z) (rows : list (list Q)) : Q := Qsum (map (fun l => value_at l t) rows).

(** same declared appliance / user: only the run-time state may differ *)
Definition same_declared (a b : appliance) : Prop := exists d, b = set_st a d.
Definition same_user (u v : user) : Prop :=
  user_name v = user_name u /\ num_users v = num_users u /\ user_preference v = user_preference u /\
  Forall2 same_declared (app_list u) (app_list v).
