(** * SpecTabular: what saving and loading should preserve (C40) *)
From Verif Require Import Base Utils Appliance Attributes User Spec PropsReg.
Open Scope string_scope.
Open Scope list_scope.
Open Scope Z_scope.

(** windows inside the day, as many as declared, long enough for func_time *)
Definition valid_windows (a : appliance) : Prop :=
  Forall inside_day [window_1 (win a); window_2 (win a); window_3 (win a)] /\
  1 <= num_windows (par a) <= 3 /\
  func_time (par a) <= total_length (used_windows (num_windows (par a)) (win a)).

(** no negative duration in a duty cycle *)
Definition cycles_ok (a : appliance) : Prop :=
  0 <= ct1 (cyc1 a) /\ 0 <= ct2 (cyc1 a) /\ 0 <= ct1 (cyc2 a) /\ 0 <= ct2 (cyc2 a) /\ 0 <= ct1 (cyc3 a) /\ 0 <= ct2 (cyc3 a).

(** the power an appliance has after saving and loading: a constant comes back as a constant
    for the 366 days and one more; anything else as it was *)
Definition power_back (l : list Q) : list Q :=
  match l with
  | x :: l' => if forallb (fun y => Qeq_bool y x) l' then repeat x 367 else l
  | [] => []
  end.
Definition returned (a : appliance) : appliance := set_power a (power_back (power a)).

(** the powers that can be saved and loaded again: constants, and series of 366 values whose first and
    last value differ (in exact arithmetic) *)
Definition storable_power (F : fm) (l : list Q) : Prop :=
  exists x l', l = x :: l' /\
    (Forall (fun y => (y == x)%Q) l' \/ (exact F /\ zlen l = 366 /\ ~ (last l' x == x)%Q)).

(** all attributes listed in APPLIANCE_ATTRIBUTES are identical *)
Definition same_attributes (a b : appliance) : Prop := forall s, In s APPLIANCE_ATTRIBUTES -> getattr a s = getattr b s.

(** an appliance that can be stored: it has non-empty texts, valid windows and durations *)
Definition storable_app (F : fm) (a : appliance) : Prop :=
  name (par a) <> "" /\ fixed (par a) <> "" /\ flat (par a) <> "" /\ valid_windows a /\ cycles_ok a /\ storable_power F (power a).

(** a user that can be stored: named, with appliances which stay pairwise different *)
Definition storable_user (F : fm) (strict : bool) (u : user) : Prop :=
  user_name u <> "" /\ app_list u <> [] /\ Forall (storable_app F) (app_list u) /\
  ForallOrdPairs (fun a b => app_eq strict (returned a) (returned b) = Ok false) (app_list u).

Definition same_user (u u' : user) : Prop :=
  user_name u' = user_name u /\ num_users u' = num_users u /\ user_preference u' = user_preference u /\
  Forall2 (fun a a' => same_attributes a' (returned a)) (app_list u) (app_list u').

