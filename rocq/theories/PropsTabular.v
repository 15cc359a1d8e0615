(** * PropsTabular: theorems for C40, C41, C42, C43, C52 *)
From Verif Require Import Base Wp Utils ListLemmas Appliance Attributes User Tabular Spec SpecDay SpecTabular
  ProofsUtils ProofsAppliance ProofsEq PropsUser PropsReg ProofsTabular.
From Coq Require Import ZifyBool ZifyNat.
Open Scope string_scope.
Open Scope list_scope.
Open Scope Z_scope.

(** ** C40: saving and loading *)

(** A use case whose users can be stored (SpecTabular.v) is loaded as it was saved: the same users in the
    same order, each with the same appliances in the same order and the same attribute values. *)
Theorem C40_round_trip_partial F strict us :
  us <> [] -> NoDup (map user_name us) -> Forall (storable_user F strict) us ->
  exists us', save_and_load F strict us = Ok us' /\ Forall2 same_user us us'.
Proof. exact (round_trip F strict us). Qed.

(** [returned a] (the appliance as it comes back) differs from [a] at most in the number of values of a
    constant power: the value itself, and every other attribute, is kept *)
Theorem C40_returned_partial a :
  (forall s, In s APPLIANCE_ATTRIBUTES -> s <> "power" -> getattr (returned a) s = getattr a s) /\
  (forall x l, power a = x :: l -> ~ Forall (fun y => (y == x)%Q) l -> power (returned a) = power a) /\
  (forall x l, power a = x :: l -> Forall (fun y => (y == x)%Q) l -> power (returned a) = repeat x 367).
Proof.
  split; [|split].
  - intros s Hs Hp. unfold getattr. cbn [returned set_power par cyc1 cyc2 cyc3 win power].
    apply String.eqb_neq in Hp. rewrite Hp. reflexivity.
  - intros x l E H. cbn [returned set_power power]. rewrite E. cbn [power_back].
    destruct (forallb (fun y => Qeq_bool y x) l) eqn:G; [|reflexivity]. exfalso. apply H. apply Forall_forall.
    intros y Hy. apply Qeq_bool_iff. rewrite forallb_forall in G. apply G. exact Hy.
  - intros x l E H. cbn [returned set_power power]. rewrite E. cbn [power_back].
    replace (forallb (fun y => Qeq_bool y x) l) with true; [reflexivity|]. symmetry. apply forallb_forall.
    intros y Hy. apply Qeq_bool_iff. rewrite Forall_forall in H. apply H. exact Hy.
Qed.

(** two users, three appliances; one with a series of 366 different values and a duty cycle *)
Definition heater : appliance :=
  App (Params "heater" 1 2 60 (1 # 10) 5 "yes" 1 1 (1 # 2) "no" (1 # 5) 1 0) (map zq (arange 100 466)) false
    (Wins (300, 420) (1000, 1100) (0, 0) (1 # 4) 30 25 0) (Cycle 100 10 20 5 (1 # 10) (300, 400) (1000, 1100))
    default_cycle default_cycle default_dyn.
Definition workshop : user := User "workshop" 3 0 0 [] [heater].

Example C40_case : [household; workshop] <> [] /\ NoDup (map user_name [household; workshop]) /\
  Forall (storable_user exact_fm true) [household; workshop].
Proof.
  split; [discriminate|]. split.
  - repeat constructor; cbn; intuition discriminate.
  - repeat constructor; try discriminate; try (unfold inside_day; cbn; lia); try (cbn; lia).
    + exists 50%Q, []. split; [reflexivity|]. left. constructor.
    + exists 7%Q, []. split; [reflexivity|]. left. constructor.
    + exists 100%Q, (map zq (arange 101 466)). split; [reflexivity|]. right.
      split; [exact exact_exact_fm|]. split; [reflexivity|]. intros H. vm_compute in H. discriminate.
Qed.

(** the cases in which the model does not come back *)

(** users with the same name are merged *)
Theorem C40_same_name_refuted : exists u v w,
  Forall (storable_user exact_fm true) [u; v] /\ user_name u = user_name v /\
  save_and_load exact_fm true [u; v] = Ok [w] /\ zlen (app_list w) = 2.
Proof.
  exists (User "house" 2 3 0 [] [lamp]), (User "house" 2 3 0 [] [special]). eexists. split; [|split; [reflexivity|]].
  - repeat constructor; try discriminate; try (unfold inside_day; cbn; lia); try (cbn; lia).
    + exists 50%Q, []. split; [reflexivity|]. left. constructor.
    + exists 7%Q, []. split; [reflexivity|]. left. constructor.
  - split; [vm_compute; reflexivity|reflexivity].
Qed.

(** a user without a name (the default of User()) cannot be loaded *)
Theorem C40_no_name_refuted : exists u t,
  user_name u = "" /\ Forall (storable_app exact_fm) (app_list u) /\
  save exact_fm [u] = Ok t /\ save_and_load exact_fm true [u] = Err ValueError.
Proof.
  exists (User "" 2 3 0 [] [lamp]). eexists. split; [reflexivity|]. split.
  - repeat constructor; try discriminate; try (unfold inside_day; cbn; lia); try (cbn; lia).
    exists 50%Q, []. split; [reflexivity|]. left. constructor.
  - split; [vm_compute; reflexivity|vm_compute; reflexivity].
Qed.

(** nor can a power series of another length than 366, which a use case of other length accepts *)
Theorem C40_series_length_refuted : exists u t,
  storable_power exact_fm (map zq (arange 0 366)) /\
  app_list u = [set_power lamp (map zq (arange 0 400))] /\ user_name u = "house" /\
  save exact_fm [u] = Ok t /\ save_and_load exact_fm true [u] = Err ValueError.
Proof.
  exists (User "house" 2 3 0 [] [set_power lamp (map zq (arange 0 400))]). eexists. split.
  - exists 0%Q, (map zq (arange 1 366)). split; [reflexivity|]. right. split; [exact exact_exact_fm|].
    split; [reflexivity|]. intros H. vm_compute in H. discriminate.
  - split; [reflexivity|]. split; [reflexivity|]. split; vm_compute; reflexivity.
Qed.

(** nor can an appliance on which windows() was not called and that has a time of use *)
Theorem C40_no_windows_refuted : exists a t,
  new_appliance (par lamp) (PConst 50) 366 = Ok a /\
  save exact_fm [User "house" 2 3 0 [] [a]] = Ok t /\
  save_and_load exact_fm true [User "house" 2 3 0 [] [a]] = Err InvalidWindow.
Proof. eexists. eexists. split; [vm_compute; reflexivity|]. split; vm_compute; reflexivity. Qed.

(** ** C41: power series *)

(** what is written for a power, for every arithmetic, when it is constant *)
Theorem C41_constant_partial F x l : Forall (fun y => (y == x)%Q) l -> save_power F (x :: l) = Ok (CNum x).
Proof. exact (save_power_const F x l). Qed.

(** in exact arithmetic, a series whose first and last value differ is written in full *)
Theorem C41_series_partial F x l :
  exact F -> ~ (last l x == x)%Q -> save_power F (x :: l) = Ok (CArray (map (fun v => [v]) (x :: l))).
Proof.
  intros HF H. rewrite save_power_exact by exact HF.
  destruct (Qeq_bool (last l x) x) eqn:E; [apply Qeq_bool_iff in E; contradiction|reflexivity].
Qed.

(** any series that ends with its first value is written as that constant, whatever lies between *)
Theorem C41_series_refuted :
  (forall x l, (last l x == x)%Q -> save_power exact_fm (x :: l) = Ok (CNum x)) /\
  exists l u', ~ Forall (fun y => (y == hd 0%Q l)%Q) l /\ zlen l = 366 /\
    save_and_load exact_fm true [User "house" 2 3 0 [] [set_power lamp l]] = Ok [u'] /\
    map power (app_list u') = [repeat 1%Q 367].
Proof.
  split.
  - intros x l H. rewrite save_power_exact by exact exact_exact_fm. apply Qeq_bool_iff in H. rewrite H. reflexivity.
  - exists ([1%Q] ++ repeat 2%Q 364 ++ [1%Q]). eexists. split.
    + intros H. rewrite Forall_forall in H. specialize (H 2%Q). assert (C : (2 == 1)%Q); [|discriminate C].
      apply H. right. left. reflexivity.
    + split; [reflexivity|]. split; vm_compute; reflexivity.
Qed.

Example C41_case : ~ (last [5%Q; 7%Q] 1 == 1)%Q /\ Forall (fun y => (y == 3)%Q) [(6 # 2)%Q; 3%Q].
Proof. split; [intros H; discriminate H|repeat constructor]. Qed.
