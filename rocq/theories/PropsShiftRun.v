(** * PropsShiftRun: living [k] minutes later moves the load by [k] minutes, for the whole script (C97)
    The script of C31, C67: UseCase(...), initialize(...), generate_daily_load_profiles() (core.py:63-93, 203-320, 321-390, 460-510). *)
From Verif Require Import Base Wp Tape F64 Utils ListLemmas Appliance User Sim UseCase Spec SpecDay SpecUser SpecUseCase ProofsAppliance ProofsEvent
  ProofsDay ProofsEq ProofsUtils ProofsUseCase ProofsRun PropsBasic PropsUseCase PropsInit PropsPeak PropsPost PropsTotal PropsPopulation PropsHeap PropsSession PropsParallel
  PropsEnvelope PropsCoincidence PropsStandalone SimScale PropsScale SimShift PropsShift.
From Coq Require Import ZifyBool ZifyNat Lqa.
Open Scope list_scope.
Open Scope Z_scope.

(** the appliance as windows() and the rest declare it [k] minutes later (C97_declaration) *)
Definition app_later (k : Z) (a b : appliance) : Prop :=
  can_move k a /\ (exists d, b = set_st (move_app k a) d /\ state_like (st a) d) /\ moved k (daily_use (st a)) (daily_use (st b)).
Record same_user_later (k : Z) (u v : user) : Prop := UserLater {
  ul_n : num_users v = num_users u;
  ul_p : user_preference v = user_preference u;
  ul_apps : Forall2 (app_later k) (app_list u) (app_list v)
}.
Definition lives_later (k : Z) (us us' : list user) : Prop := Forall2 (same_user_later k) us us'.

(** no random enlargement of the peak time range, neither in the constructor nor in initialize *)
Definition no_enlargement (enl : Q) (pe : option enlarge_arg) : Prop := (enl == 0)%Q /\ forall q, pe = Some (EFloat q) -> (q == 0)%Q.

Section run.
Variables (F : fm) (k : Z).
Hypothesis HF : exact F.
Hypothesis Hk : Z.even k = true.

Lemma later_users us us' : lives_later k us us' -> Forall2 (later_user k) us us'.
Proof.
  apply f2_mono. intros u v [H1 H2 H3]. constructor; try assumption. revert H3. apply f2_mono. intros a b (G1 & G2 & _). split; assumption.
Qed.
Lemma declared_users us us' : lives_later k us us' -> Forall2 (user_declared_later k) us us'.
Proof.
  apply f2_mono. intros u v [H1 H2 H3]. split; [exact H1|]. revert H3. apply f2_mono. intros a b (G1 & (d & -> & _) & G3). split; [reflexivity|]. split; [reflexivity|exact G3].
Qed.

(** ** initialize *)

Lemma grown_later n a b : app_later k a b -> app_later k (grown n a) (grown n b).
Proof.
  intros (H1 & (d & -> & H2) & H3). unfold grown. change (power (set_st (move_app k a) d)) with (power a).
  destruct (zlen (power a) <? n).
  - destruct (power a) as [|p l] eqn:Ep.
    + split; [exact H1|]. split; [exists d; split; [reflexivity|exact H2]|exact H3].
    + split; [exact H1|]. split; [exists d; split; [reflexivity|exact H2]|exact H3].
  - split; [exact H1|]. split; [exists d; split; [reflexivity|exact H2]|exact H3].
Qed.
Lemma grow_later n us us' : lives_later k us us' -> lives_later k (grow n us) (grow n us').
Proof.
  unfold lives_later, grow. apply f2_map. intros u v [H1 H2 H3]. constructor; cbn; [exact H1|exact H2|]. apply (f2_map (app_later k)); [intros; apply grown_later; assumption|exact H3].
Qed.
Lemma check_err_later n a b : app_later k a b -> check_err n b = check_err n a.
Proof.
  intros (H1 & (d & -> & H2) & H3). unfold check_err, check_power_values. cbn [power constant_power set_st move_app].
  destruct (_ <? _); [|reflexivity]. destruct (constant_power a); [|reflexivity]. destruct (power a); reflexivity.
Qed.
Lemma first_err_later n us us' : lives_later k us us' -> first_err n (flat_map app_list us') = first_err n (flat_map app_list us).
Proof.
  intros H. assert (G : Forall2 (app_later k) (flat_map app_list us) (flat_map app_list us')).
  { induction H as [|u v us us' Hu _ IH]; cbn [flat_map]; [constructor|]. apply Forall2_app; [apply Hu|exact IH]. }
  clear H. induction G as [|a b l l' Ha _ IH]; [reflexivity|]. cbn [first_err]. rewrite (check_err_later n a b Ha), IH. reflexivity.
Qed.

(** the theoretical load: positive at some minute *)
Definition some_load (us : list user) : Prop := exists t, 0 <= t < 1440 /\ (0 < most F us t)%Q.

Definition pair_ok (us us' : list user) : Prop := lives_later k us us' /\ all_apps level us /\ all_apps whole_day us /\ some_load us.

Lemma grown_whole n a : whole_day a -> whole_day (grown n a).
Proof. unfold whole_day, grown. intros H. destruct (_ <? _); [|exact H]. destruct (power a); exact H. Qed.
Lemma pair_grow n us us' : all_apps (has_power n) us -> pair_ok us us' -> pair_ok (grow n us) (grow n us').
Proof.
  intros Hh (H1 & H2 & H3 & (t & Ht & Hp)). split; [apply grow_later, H1|]. split; [apply grow_all; [intros a; apply grown_level|exact H2]|].
  split; [apply grow_all; [intros a; apply grown_whole|exact H3]|]. exists t. split; [exact Ht|]. rewrite (grown_most F n us t HF Hh H2). exact Hp.
Qed.

(** two use cases that differ in the users and the peak time range only *)
Definition case_later (c c' : usecase) : Prop :=
  c' = set_peak (reuser (users c') c) (option_map (map (fun t => t + k)) (peak_time_range c)) /\
  collected c = positions_from 0 (users c) /\ (peak_enlarge c == 0)%Q /\ pair_ok (users c) (users c').

Lemma peak_later c c' : (peak_enlarge c == 0)%Q -> peak_enlarge c' = peak_enlarge c -> pair_ok (users c) (users c') ->
  psimd (fun x y => y = match x with Ok l => Ok (map (fun t => t + k) l) | Err e => Err e end) (calc_peak_time_range F c) (calc_peak_time_range F c').
Proof.
  intros He He' (H1 & _ & H3 & (t & Ht & Hp)). unfold calc_peak_time_range. rewrite He'.
  rewrite (C97_peak_minutes (total_max_profile F c) (total_max_profile F c') k (peak_window F c) (peak_window F c')).
  - apply draw_peak_later; assumption.
  - apply (total_later F k _ _ _ _ (declared_users _ _ H1) (moved_zeros k)).
  - exists t. split; [exact Ht|]. rewrite (total_most F c t HF H3 Ht). exact Hp.
  - apply peak_window_maximal.
  - apply peak_window_maximal.
Qed.

Definition both (r q : usecase * option exc) : Prop := snd q = snd r /\ (snd r = None -> case_later (fst r) (fst q)).

Lemma index_case c c' : case_later c c' -> case_later (init_index c) (init_index c').
Proof.
  intros (E & H1 & H2 & H3). rewrite E. unfold init_index. change (days (set_peak (reuser (users c') c) (option_map (map (fun t => t + k)) (peak_time_range c)))) with (days c).
  destruct (days c) as [[|x l]|].
  - split; [reflexivity|]. repeat split; assumption || apply H3.
  - split; [reflexivity|]. repeat split; assumption || apply H3.
  - split; [reflexivity|]. repeat split; assumption || apply H3.
Qed.

Lemma calc_case c c' : case_later c c' ->
  psimd both (x <- calc_peak_time_range F c ;; Ret (match x with Ok p => (set_peak c (Some p), None) | Err e => (c, Some e) end))
    (x <- calc_peak_time_range F c' ;; Ret (match x with Ok p => (set_peak c' (Some p), None) | Err e => (c', Some e) end)).
Proof.
  intros (E & H1 & H2 & H3). eapply psimd_bind; [apply (peak_later c c' H2); [rewrite E; reflexivity|exact H3]|].
  intros x y ->. destruct x as [p|e]; cbn [psimd]; (split; [reflexivity|]); [|discriminate]. intros _. cbn [fst].
  split; [|split; [exact H1|split; [exact H2|exact H3]]]. rewrite E. reflexivity.
Qed.

Lemma finish_case c c' pe : case_later c c' -> (forall q, pe = Some (EFloat q) -> (q == 0)%Q) ->
  psimd both (init_finish F c pe) (init_finish F c' pe).
Proof.
  intros (E & H1 & H2 & H3) Hpe. unfold init_finish. cbv zeta.
  assert (En : num_days_ c' = num_days_ c) by (rewrite E; reflexivity). rewrite En. set (n := match num_days_ c with Some n => n | None => 0 end).
  assert (Ec : collected c' = positions_from 0 (users c')) by (rewrite E; reflexivity). rewrite Ec, H1.
  rewrite (check_positions n (users c')), (check_positions n (users c)). rewrite (first_err_later n _ _ (proj1 H3)).
  destruct (first_err n (flat_map app_list (users c))) as [e|] eqn:Ee; [cbn; split; [reflexivity|discriminate]|].
  assert (P : forall us, first_err n (flat_map app_list us) = None -> all_apps (has_power n) us).
  { clear. intros us E. apply first_err_has in E. unfold all_apps. induction us as [|u us IH]; constructor.
    - cbn [flat_map] in E. apply Forall_app in E. apply E.
    - apply IH. cbn [flat_map] in E. apply Forall_app in E. apply E. }
  pose proof (P _ Ee) as Pu. assert (Pu' : all_apps (has_power n) (users c')) by (apply P; rewrite (first_err_later n _ _ (proj1 H3)); exact Ee).
  rewrite (proj2 (check_all n (users c) _ eq_refl) Pu), (proj2 (check_all n (users c') _ eq_refl) Pu'). cbn [fst].
  assert (K : case_later (set_users c (grow n (users c))) (set_users c' (grow n (users c')))).
  { split; [|split; [|split; [exact H2|exact (pair_grow n _ _ Pu H3)]]].
    - rewrite E at 1. change (users (set_users c' (grow n (users c')))) with (grow n (users c')). unfold reuser. rewrite grow_positions. reflexivity.
    - change (collected (set_users c (grow n (users c)))) with (collected c). change (users (set_users c (grow n (users c)))) with (grow n (users c)). rewrite grow_positions. exact H1. }
  revert K. generalize (set_users c (grow n (users c))) (set_users c' (grow n (users c'))). clear - HF Hk Hpe. intros c c' K.
  eapply psimd_bind with (R := both).
  - destruct pe as [[q|]|]; [| |exact (calc_case c c' K)].
    + unfold set_peak_enlarge. destruct (Qle_bool 0 q).
      * cbv zeta. apply calc_case. destruct K as (E & K1 & _ & K3). split; [rewrite E; reflexivity|]. split; [exact K1|]. split; [exact (Hpe q eq_refl)|exact K3].
      * cbn [psimd]. split; [reflexivity|discriminate].
    + cbn [psimd set_peak_enlarge]. split; [reflexivity|discriminate].
  - intros [c1 e1] [c2 e2] (R1 & R2). cbn [fst snd] in *. subst e2. destruct e1 as [e|]; cbn [psimd]; (split; [reflexivity|]); [discriminate|].
    intros _. cbn [fst]. apply index_case. exact (R2 eq_refl).
Qed.

Lemma dates_stage_peak w c x num : dates_stage w (set_peak c x) num false =
  (set_peak (fst (dates_stage w c num false)) x, snd (dates_stage w c num false)).
Proof.
  unfold dates_stage. rewrite !andb_false_r. rewrite init_num_days_arg_peak, init_both_dates_peak, init_prompt_peak.
  destruct (init_prompt w (init_both_dates (init_num_days_arg c num))) as [c1 [e|]]; cbn [fst snd]; [reflexivity|]. apply init_days_peak.
Qed.

Lemma initialize_case w c c' num pe : case_later c c' -> (forall q, pe = Some (EFloat q) -> (q == 0)%Q) ->
  psimd both (initialize F w c num pe false) (initialize F w c' num pe false).
Proof.
  intros K Hpe. pose proof K as (E & H1 & H2 & H3). rewrite !initialize_stages.
  assert (Ei : is_initialized c' = is_initialized c).
  { rewrite E. unfold is_initialized. cbn. destruct (num_days_ c), (datetimeindex_ c), (peak_time_range c); reflexivity. }
  rewrite Ei. destruct (is_initialized c && negb false); [cbn [psimd]; split; [reflexivity|intros _; exact K]|].
  destruct (dates_stage w c num false) as [c2 e] eqn:Es.
  pose proof (dates_stage_reuser (users c') w c num c2 e Es) as Er.
  rewrite E, dates_stage_peak, Er. cbn [fst snd].
  destruct e as [e|]; [cbn [psimd]; split; [reflexivity|discriminate]|].
  destruct (dates_stage_same w c num false c2 None Es) as (_ & _ & _ & D4 & D5 & _ & _ & D8 & D9).
  apply finish_case; [|exact Hpe]. split; [|split; [|split]].
  - cbn [users set_peak reuser set_collected set_users]. rewrite D5. reflexivity.
  - rewrite D9, D8. exact H1.
  - rewrite D4. exact H2.
  - rewrite D8. exact H3.
Qed.

(** ** The whole script *)

Lemma generate_case depth w c c' : case_later c c' ->
  psimd (fun x y => Forall2 (moved k) (snd x) (snd y)) (generate_sequential depth F w c None) (generate_sequential depth F w c' None).
Proof.
  intros K. unfold generate_sequential, choose_days. assert (Ed : days c' = days c) by (destruct K as (E & _); rewrite E; reflexivity). rewrite Ed.
  destruct (days c) as [ds0|]; [|reflexivity]. cbn [lift bind].
  eapply psimd_bind with (R := fun x y => snd y = snd x /\ case_later (fst x) (fst y)).
  - unfold UseCase.num_days. assert (En : num_days_ c' = num_days_ c) by (destruct K as (E & _); rewrite E; reflexivity). rewrite En.
    destruct (num_days_ c) as [n|]; [cbn; auto|].
    eapply psimd_bind; [apply (initialize_case w c c' None None K); discriminate|]. intros [c2 e2] [c3 e3] (R1 & R2). cbn [fst snd] in *. subst e3.
    destruct e2 as [e|]; [reflexivity|]. specialize (R2 eq_refl). assert (En2 : num_days_ c3 = num_days_ c2) by (destruct R2 as (E & _); rewrite E; reflexivity). rewrite En2.
    destruct (num_days_ c2); [|reflexivity]. cbn [psimd fst snd]. auto.
  - intros [c2 n] [c3 n'] (E1 & K2). cbn [fst snd] in *. subst n'. destruct (n <? 0); [reflexivity|].
    pose proof K2 as (E & _ & _ & (Hl & _)).
    assert (Ed2 : days c3 = days c2) by (rewrite E; reflexivity). rewrite Ed2.
    assert (Ep : match peak_time_range c3 with Some p => p | None => [] end = map (fun t => t + k) (match peak_time_range c2 with Some p => p | None => [] end)).
    { rewrite E. cbn. destruct (peak_time_range c2); reflexivity. }
    rewrite Ep. eapply psimd_bind; [apply days_later; [apply later_users, Hl|apply f2_repeat, moved_zeros]|]. intros x y H. exact H.
Qed.

Lemma script_later depth w us us' start stop enl seed num pe : lives_later k us us' -> all_apps level us -> all_apps whole_day us -> some_load us -> no_enlargement enl pe ->
  psimd (fun x y => Forall2 (moved k) (snd x) (snd y))
    (PropsTotal.simulate depth F w us start stop enl seed num pe) (PropsTotal.simulate depth F w us' start stop enl seed num pe).
Proof.
  intros Hl Hv Hw Hs (He & Hpe). unfold PropsTotal.simulate.
  eapply psimd_bind with (R := case_later).
  - unfold new_usecase. cbv zeta. set (b := blank start stop false enl seed us). set (b' := blank start stop false enl seed us').
    assert (K : case_later b b').
    { split; [reflexivity|]. split; [reflexivity|]. split; [exact He|]. repeat split; assumption. }
    eapply psimd_bind with (R := case_later).
    + destruct start as [sd|]; [destruct stop as [ed|]|]; try exact K.
      eapply psimd_bind; [apply (initialize_case w b b' None None K); discriminate|]. intros [c1 e1] [c2 e2] (R1 & R2). cbn [fst snd] in *. subst e2.
      destruct e1 as [e|]; [reflexivity|]. exact (R2 eq_refl).
    + intros c c' H. destruct (seed_of seed); cbn [psimd]; [split; [reflexivity|]|]; exact H.
  - intros c c' K. eapply psimd_bind; [apply (initialize_case w c c' num pe K Hpe)|]. intros [c1 e1] [c2 e2] (R1 & R2). cbn [fst snd] in *. subst e2.
    destruct e1 as [e|]; [reflexivity|]. apply generate_case. exact (R2 eq_refl).
Qed.
End run.

(** The whole script, in exact arithmetic, for an even [k] and without random enlargement of the peak time range: with the same random
    numbers, the profiles of the population that does everything [k] minutes later are the profiles, moved by [k] minutes. *)
Theorem C97_script_partial depth F w us us' start stop enl seed num pe k (G : generator) z : exact F -> Z.even k = true -> no_enlargement enl pe ->
  lives_later k us us' -> all_apps level us -> all_apps whole_day us -> some_load F us ->
  let r := run G (PropsTotal.simulate depth F w us start stop enl seed num pe) z in
  let r' := run G (PropsTotal.simulate depth F w us' start stop enl seed num pe) z in
  snd r' = snd r /\ same_but_later k (fst r) (fst r').
Proof.
  intros HF Hk Hn Hl Hv Hw Hs r r'.
  destruct (psimd_run _ _ _ G z (script_later F k HF Hk depth w us us' start stop enl seed num pe Hl Hv Hw Hs Hn)) as (E & M). fold r r' in E, M.
  split; [congruence|]. unfold same_but_later. destruct (fst r), (fst r'); try contradiction; exact M.
Qed.

(** So has every mean: the mean load of the later population at minute t + k of a day is that of the population at minute t. *)
Theorem C97_script_mean_partial L depth F w us us' start stop enl seed num pe k d t : exact F -> Z.even k = true -> no_enlargement enl pe ->
  lives_later k us us' -> all_apps level us -> all_apps whole_day us -> some_load F us ->
  (Prob.expect L (PropsTotal.simulate depth F w us' start stop enl seed num pe) (fun r => match r with Ok x => load_at (nth d (snd x) []) (t + k) | Err _ => 0 end) ==
   Prob.expect L (PropsTotal.simulate depth F w us start stop enl seed num pe) (fun r => match r with Ok x => load_at (nth d (snd x) []) t | Err _ => 0 end))%Q.
Proof.
  intros HF Hk Hn Hl Hv Hw Hs. symmetry.
  eapply expect_psimd; [exact (script_later F k HF Hk depth w us us' start stop enl seed num pe Hl Hv Hw Hs Hn)| |].
  - intros x y H. symmetry. apply f2_moved_nth, H.
  - intros e. reflexivity.
Qed.

(** the two lamps of a household, declared at 08:00 and at 18:00 *)
Definition evening : list user := [User "household" 2 0 0 [] [lamp_at (1080, 1200)]].
Definition morning : list user := [User "household" 2 0 0 [] [lamp_at (480, 600)]].
Lemma lamps_later : lives_later 600 morning evening.
Proof.
  destruct (lamp_movable 600 ltac:(lia)) as (b & E & M).
  assert (U : undeclared new_lamp) by (repeat (split; [reflexivity|]); repeat constructor).
  destruct (C97_declaration f64 new_lamp b 600 (480, 600) None None 0 U E M) as (b' & E' & Eb & Hst & D). cbn [option_map] in E'.
  assert (Ew : move_window 600 (480, 600) = (1080, 1200)) by reflexivity. rewrite Ew in E'.
  unfold morning, evening, lamp_at. rewrite E, E'. cbn [fst]. constructor; [|constructor]. constructor; [reflexivity|reflexivity|]. cbn [app_list]. constructor; [|constructor].
  split; [exact M|]. split; [exists (st b'); split; [exact Eb|exact Hst]|exact D].
Qed.
Example C97_script_case : exact exact_fm /\ no_enlargement 0 None /\ lives_later 600 morning evening /\ all_apps level morning /\ all_apps whole_day morning /\ some_load exact_fm morning /\
  match fst (run zero_gen (PropsTotal.simulate 5 exact_fm nobody evening None None 0 None (Some 1) None) tt) with
  | Ok (_, rows) => Qeq_bool (value_at (nth 0 rows []) 1100) 200 && Qeq_bool (value_at (nth 0 rows []) 500) 0
  | Err _ => false
  end = true.
Proof.
  split; [exact exact_exact_fm|]. split; [split; [reflexivity|discriminate]|]. split; [exact lamps_later|]. split; [|split; [|split]].
  - constructor; [|constructor]. cbn [app_list]. constructor; [|constructor]. intros _. exists 50%Q. constructor; [reflexivity|constructor].
  - constructor; [|constructor]. cbn [app_list]. constructor; [|constructor]. vm_compute. reflexivity.
  - exists 500. split; [lia|]. vm_compute. reflexivity.
  - vm_compute. reflexivity.
Qed.
