(** * PropsUnused: parameters that are not in use have no influence (C99) *)
From Verif Require Import Base Wp Tape Utils ListLemmas Appliance User Sim UseCase Spec SpecDay SpecUser SpecUseCase ProofsEq ProofsUtils ProofsUseCase PropsUseCase PropsInit PropsPeak
  PropsPost PropsTotal PropsPopulation PropsHeap PropsSession PropsCoincidence SimScale PropsScale.
From Coq Require Import ZifyBool.
Open Scope string_scope.
Open Scope list_scope.
Open Scope Z_scope.

(** ** Specification *)

(** the appliance is switched on and off, piece by piece *)
Definition switched (a : appliance) : Prop := flat (par a) <> "yes".
(** duty cycle number i is one of those it runs *)
Definition runs_cycle (a : appliance) (i : Z) : Prop := switched a /\ i <= fixed_cycle (par a).
Definition has_cycles (a : appliance) : Prop := switched a /\ 1 <= fixed_cycle (par a).

(** the two powers, the two durations and the random variability of a duty cycle *)
Definition same_course (x y : cycle) : Prop := cp1 y = cp1 x /\ ct1 y = ct1 x /\ cp2 y = cp2 x /\ ct2 y = ct2 x /\ cr y = cr x.
Definition same_windows (x y : cycle) : Prop := cwa y = cwa x /\ cwb y = cwb x.

(** b is a, except for its name and for parameters that are not in use *)
Record same_in_use (a b : appliance) : Prop := SameInUse {
  su_number : number (par b) = number (par a);
  su_func_time : func_time (par b) = func_time (par a);
  su_time_var : time_var (par b) = time_var (par a);
  su_func_cycle : func_cycle (par b) = func_cycle (par a);
  su_occasional : occasional_use (par b) = occasional_use (par a);
  su_flat : flat (par b) = flat (par a);
  su_pref : pref_index (par b) = pref_index (par a);
  su_days : wd_we_type (par b) = wd_we_type (par a);
  su_power : power b = power a /\ constant_power b = constant_power a;
  su_windows : win b = win a;
  su_state : st b = st a;
  (* not used by a flat appliance *)
  su_fixed : switched a -> fixed (par b) = fixed (par a);
  su_thermal : switched a -> thermal_p_var (par b) = thermal_p_var (par a);
  su_fixed_cycle : switched a -> fixed_cycle (par b) = fixed_cycle (par a);
  (* used only with duty cycles *)
  su_continuous : has_cycles a -> continuous_duty_cycle (par b) = continuous_duty_cycle (par a);
  su_cycle_windows : has_cycles a -> same_windows (cyc1 a) (cyc1 b) /\ same_windows (cyc2 a) (cyc2 b) /\ same_windows (cyc3 a) (cyc3 b);
  (* used only if fixed_cycle is large enough *)
  su_cycle_1 : runs_cycle a 1 -> same_course (cyc1 a) (cyc1 b);
  su_cycle_2 : runs_cycle a 2 -> same_course (cyc2 a) (cyc2 b);
  su_cycle_3 : runs_cycle a 3 -> same_course (cyc3 a) (cyc3 b)
}.
Definition users_same_in_use (u v : user) : Prop :=
  num_users v = num_users u /\ user_preference v = user_preference u /\ Forall2 same_in_use (app_list u) (app_list v).

(** ** Proof *)

Lemma switched_ran a : ran (par a) -> switched a.
Proof. unfold ran, switched. intros H E. rewrite E in H. discriminate. Qed.

Lemma use_rel u v : users_same_in_use u v -> user_rel true eq (fun _ => eq) u v.
Proof.
  intros (H1 & H2 & H3). constructor; try assumption. eapply f2_mono; [|exact H3]. intros a b []. constructor; try assumption; try tauto.
  - constructor; try assumption; intros Hr; [apply su_fixed0|apply su_fixed_cycle0|apply su_thermal0|intros Hf; apply su_continuous0; split; [|exact Hf]];
      apply switched_ran; exact Hr.
  - destruct su_power0 as (-> & _). apply f2_same.
  - split; intros Hr Hf.
    + destruct su_cycle_4 as (E1 & E2 & E3 & E4 & E5); [split; [apply switched_ran; exact Hr|exact Hf]|]. repeat split; congruence.
    + destruct su_cycle_windows0 as (E & _); [split; [apply switched_ran; exact Hr|exact Hf]|]. exact E.
  - split; intros Hr Hf.
    + destruct su_cycle_5 as (E1 & E2 & E3 & E4 & E5); [split; [apply switched_ran; exact Hr|exact Hf]|]. repeat split; congruence.
    + destruct su_cycle_windows0 as (_ & E & _); [split; [apply switched_ran; exact Hr|exact Hf]|]. exact E.
  - split; intros Hr Hf.
    + destruct su_cycle_6 as (E1 & E2 & E3 & E4 & E5); [split; [apply switched_ran; exact Hr|exact Hf]|]. repeat split; congruence.
    + destruct su_cycle_windows0 as (_ & _ & E); [split; [apply switched_ran; exact Hr|exact Hf]|]. exact E.
  - rewrite su_state0. repeat split; apply f2_same.
  - left. reflexivity.
  - left. reflexivity.
Qed.

(** what the theoretical peak depends on *)
Definition same_peak (u v : user) : Prop :=
  num_users v = num_users u /\ Forall2 (fun a b => number (par b) = number (par a) /\ power b = power a /\ daily_use (st b) = daily_use (st a)) (app_list u) (app_list v).
Lemma use_same_peak u v : users_same_in_use u v -> same_peak u v.
Proof. intros (H1 & _ & H3). split; [exact H1|]. eapply f2_mono; [|exact H3]. intros a b []. destruct su_power0. rewrite su_state0. auto. Qed.
Lemma same_peak_grow n us us' : Forall2 same_peak us us' -> Forall2 same_peak (grow n us) (grow n us').
Proof.
  unfold grow. apply f2_map. intros u v (H1 & H3). split; [exact H1|]. cbn [set_apps app_list].
  apply (f2_map (fun a b => number (par b) = number (par a) /\ power b = power a /\ daily_use (st b) = daily_use (st a))); [|exact H3]. intros a b (E1 & E2 & E3).
  unfold grown. rewrite E2. destruct (_ <? n); [|auto]. destruct (power a) as [|p l] eqn:Ea; cbn; rewrite ?E2, ?Ea; auto.
Qed.
Lemma same_peak_window F c us' : Forall2 same_peak (users c) us' -> peak_window F (reuser us' c) = peak_window F c.
Proof.
  intros H. assert (E : total_max_profile F (reuser us' c) = total_max_profile F c).
  { unfold total_max_profile. change (users (reuser us' c)) with us'. generalize (zeros day_minutes). induction H as [|u v us vs Huv _ IH]; intros acc; [reflexivity|].
    cbn [fold_left]. destruct Huv as (H1 & H3).
    assert (E : user_maximum_profile F v = user_maximum_profile F u).
    { unfold user_maximum_profile. rewrite H1. f_equal. generalize (zeros day_minutes). clear H1. induction H3 as [|a b l l' (E1 & E2 & E3) _ IHl]; intros acc'; [reflexivity|].
      cbn [fold_left]. rewrite IHl. f_equal. f_equal. unfold app_maximum_profile. rewrite E1, E2, E3. reflexivity. }
    rewrite E. apply IH. }
  unfold peak_window. rewrite E. reflexivity.
Qed.

(** ** C99 *)

(** The whole script (constructor, initialize, profiles) draws the same random numbers and gives the
    same rows or the same exception. *)
Theorem C99_unused F depth w us us' start stop enl seed num pe : Forall2 users_same_in_use us us' ->
  same_run (fun x y => snd x = snd y)
    (PropsTotal.simulate depth F w us start stop enl seed num pe) (PropsTotal.simulate depth F w us' start stop enl seed num pe).
Proof.
  intros H. apply sim_same_run. eapply psimr_mono; [|apply (simulate_rel F true eq (fun _ => eq)) with (PK := Forall2 same_peak) (us := us) (us' := us')].
  - intros x y E. cbn in E. apply f2_eq. eapply f2_mono; [|exact E]. intros r r'. apply f2_eq.
  - intros v u x y _ _ ->. reflexivity.
  - intros k x y _ ->. reflexivity.
  - intros k x y _ ->. reflexivity.
  - intros x y E. exact E.
  - reflexivity.
  - reflexivity.
  - intros n k x y x' y' -> ->. reflexivity.
  - intros n k x y _ E. exact E.
  - intros n vs vs' _ _. apply same_peak_grow.
  - intros c vs. apply same_peak_window.
  - eapply f2_mono; [|exact H]. apply use_rel.
  - eapply f2_mono; [|exact H]. apply use_same_peak.
Qed.

(** One day of one appliance, on its own: the same load profile. *)
Theorem C99_day F depth a b pref i peak dt pw : same_in_use a b ->
  same_run (fun x y => daily_use (st x) = daily_use (st y))
    (generate_load_profile depth F a pref i peak dt pw) (generate_load_profile depth F b pref i peak dt pw).
Proof.
  intros H. apply sim_same_run.
  assert (Ha : app_rel true eq (fun _ => eq) a b).
  { assert (G : user_rel true eq (fun _ => eq) (new_user "" 1 1) (new_user "" 1 1)) by (apply use_rel; repeat split; constructor).
    pose proof (use_rel (set_apps (new_user "" 1 1) [a]) (set_apps (new_user "" 1 1) [b])) as R.
    assert (R' : user_rel true eq (fun _ => eq) (set_apps (new_user "" 1 1) [a]) (set_apps (new_user "" 1 1) [b])).
    { apply R. repeat split; constructor; [exact H|constructor]. }
    destruct R' as [_ _ R']. inversion R'. assumption. }
  eapply psimr_mono; [|apply (glp_rel F true eq (fun _ => eq)) with (pw := pw) (pw' := pw); try exact Ha].
  - intros x y Hxy. destruct Hxy as [_ _ _ _ _ _ _ (E & _) _ _]. apply f2_eq. exact E.
  - intros v u x y _ _ ->. reflexivity.
  - intros k x y _ ->. reflexivity.
  - intros k x y _ ->. reflexivity.
  - intros x y E. exact E.
  - reflexivity.
  - reflexivity.
  - intros n k x y x' y' -> ->. reflexivity.
  - intros n k x y _ E. exact E.
  - reflexivity.
Qed.

(** The declarations: what is said of a duty cycle of higher number than fixed_cycle, without windows,
    and all that is said of duty cycles if fixed_cycle is 0. *)
Theorem C99_calls a p1 t1 p2 t2 r wa wb w11 w12 w21 w22 w31 w32 :
  (fixed_cycle (par a) < 2 -> same_in_use a (set_cyc2 a (fst (specific_cycle (cyc2 a) p1 t1 p2 t2 r None None)))) /\
  (fixed_cycle (par a) < 3 -> same_in_use a (set_cyc3 a (fst (specific_cycle (cyc3 a) p1 t1 p2 t2 r None None)))) /\
  (fixed_cycle (par a) < 1 -> same_in_use a (set_cyc1 a (fst (specific_cycle (cyc1 a) p1 t1 p2 t2 r wa wb)))) /\
  (fixed_cycle (par a) < 1 -> same_in_use a (set_cyc2 a (fst (specific_cycle (cyc2 a) p1 t1 p2 t2 r wa wb)))) /\
  (fixed_cycle (par a) < 1 -> same_in_use a (set_cyc3 a (fst (specific_cycle (cyc3 a) p1 t1 p2 t2 r wa wb)))) /\
  (fixed_cycle (par a) < 1 -> same_in_use a (cycle_behaviour a w11 w12 w21 w22 w31 w32)).
Proof.
  repeat split; cbn; try reflexivity; intros; exfalso; unfold has_cycles, runs_cycle in *;
    repeat match goal with H : _ /\ _ |- _ => destruct H end; cbn [par set_cyc1 set_cyc2 set_cyc3 cycle_behaviour] in *; lia.
Qed.

(** ** Cases *)

(** a fridge without duty cycles, and the same fridge with all that it does not use changed *)
Definition plain_fridge (fc cont nw : Z) (n : string) (c1 c2 c3 : cycle) : appliance :=
  App (Params n 2 nw 60 0 30 "no" fc cont 1 "no" 0 0 2) (repeat 100%Q 3) true (Wins (100, 200) (0, 0) (0, 0) 0 0 0 0) c1 c2 c3 default_dyn.
Definition odd_cycle : cycle := Cycle 7 3 9 4 (1 # 2) (20, 30) (40, 50).
Definition lamp (fc cont : Z) (f : string) (v : Q) (c : cycle) : appliance :=
  App (Params "lamp" 2 1 60 0 30 f fc cont 1 "yes" v 0 2) (repeat 100%Q 3) true (Wins (100, 200) (0, 0) (0, 0) 0 0 0 0) c c c default_dyn.

Definition day_value (a : appliance) (t : Z) : option Q :=
  match fst (run PropsCoincidence.zero_gen (generate_load_profile 5 exact_fm a 0 0 (arange 700 720) 0 100%Q) tt) with
  | Ok x => Some (value_at (daily_use (st x)) t) | Err _ => None end.

Example C99_case :
  let a := plain_fridge 0 1 1 "fridge" default_cycle default_cycle default_cycle in
  let b := plain_fridge 0 0 3 "cooler" odd_cycle odd_cycle odd_cycle in
  let l := lamp 0 1 "no" 0 default_cycle in let m := lamp 2 0 "yes" (1 # 5) odd_cycle in
  Forall2 users_same_in_use [set_apps (new_user "u" 3 0) [a; l]] [set_apps (new_user "v" 3 0) [b; m]] /\
  same_in_use a b /\ same_in_use l m /\
  match day_value a 110, day_value b 110, day_value l 110, day_value m 110 with
  | Some w, Some x, Some y, Some z => Qeq_bool w x && Qeq_bool y z && Qltb 0 w && Qltb 0 y | _, _, _, _ => false end = true.
Proof.
  assert (H1 : same_in_use (plain_fridge 0 1 1 "fridge" default_cycle default_cycle default_cycle) (plain_fridge 0 0 3 "cooler" odd_cycle odd_cycle odd_cycle)).
  { unfold plain_fridge. constructor; cbn; try reflexivity; try (split; reflexivity); unfold has_cycles, runs_cycle; cbn; intros (_ & H); lia. }
  assert (H2 : same_in_use (lamp 0 1 "no" 0 default_cycle) (lamp 2 0 "yes" (1 # 5) odd_cycle)).
  { unfold lamp. constructor; cbn; try reflexivity; try (split; reflexivity); unfold has_cycles, runs_cycle, switched; cbn; intros H; exfalso; tauto. }
  cbv zeta. split; [|split; [exact H1|split; [exact H2|vm_compute; reflexivity]]].
  constructor; [|constructor]. split; [reflexivity|]. split; [reflexivity|]. cbn [set_apps app_list]. constructor; [exact H1|]. constructor; [exact H2|constructor].
Qed.

(** The windows of a duty cycle that does not run (fixed_cycle is 1) are read all the same: with
    the windows [0,0], which the constructor leaves, an event from minute 0 is accepted; with other windows it is refused. *)
Definition fridge_1 (w : Z * Z) : appliance :=
  App (Params "fridge" 1 1 50 0 50 "yes" 1 1 1 "no" 0 0 2) (repeat 100%Q 3) true (Wins (0, 60) (0, 0) (0, 0) 0 0 0 0)
    (Cycle 100 5 20 5 0 (100, 200) (100, 200)) (Cycle 0 0 0 0 0 w w) (Cycle 0 0 0 0 0 w w) default_dyn.
Theorem C99_windows_refuted : exists a b, fixed_cycle (par a) = 1 /\ par b = par a /\ power b = power a /\ win b = win a /\ st b = st a /\ cyc1 b = cyc1 a /\
  same_course (cyc2 a) (cyc2 b) /\ same_course (cyc3 a) (cyc3 b) /\
  exists F depth pref i peak dt pw,
    ~ same_run (fun x y => daily_use (st x) = daily_use (st y)) (generate_load_profile depth F a pref i peak dt pw) (generate_load_profile depth F b pref i peak dt pw).
Proof.
  exists (fridge_1 (0, 0)), (fridge_1 (700, 720)). do 6 (split; [reflexivity|]). split; [repeat split|]. split; [repeat split|].
  exists exact_fm, 5%nat, 0, 0, (arange 700 720), 0, 100%Q. intros H. specialize (H PropsCoincidence.zero_gen tt).
  destruct H as (_ & H). vm_compute in H. exact H.
Qed.
