(** * PropsProb: how often an appliance is used; laws of the random choices (C86) *)
From Verif Require Import Base Wp F64 Utils ListLemmas Appliance User Sim Spec SpecUser SpecDay ProofsAppliance ProofsDay ProofsDay2 ProofsRun PropsBasic PropsDay PropsUser Prob.
From Coq Require Import ZifyBool ZifyNat.

(** ** Specification *)

(** every value random() can take is a float *)
Definition on_grid (F : fm) (L : law) : Prop := forall i, 0 <= i < steps L -> isfl F (zq i / zq (steps L))%Q.

(** the probability that a draw of random() is at most [occ] *)
Definition use_chance (L : law) (occ : Q) : Q :=
  (zq (Z.max 0 (Z.min (steps L) (Qfloor (occ * zq (steps L)) + 1))) / zq (steps L))%Q.

(** the same appliance, used every day: occasional_use 1, no preference, every type of day *)
Definition every_day (a : appliance) : appliance :=
  let p := par a in
  set_par a (Params (name p) (number p) (num_windows p) (func_time p) (time_var p) (func_cycle p)
    (fixed p) (fixed_cycle p) (continuous_duty_cycle p) 1 (flat p) (thermal_p_var p) 0 2).

(** the profile of the day *)
Definition profile_of (r : res appliance) : res (list Q) := rbind r (fun a => Ok (daily_use (st a))).

(** one member of a user type uses one of its appliances on a day *)
Definition member_use (depth : nat) (F : fm) (u : user) (a : appliance) (prof_i : Z) (peak : list Z) (day_type : Z) (pw : Q) : prog appliance :=
  pref <- draw_pref u ;; generate_load_profile depth F a pref prof_i peak day_type pw.

(** ** The grid *)

Lemma grid_exact F L : exact F -> on_grid F L.
Proof. intros H i _. apply H. Qed.

Lemma grid_53 F L : steps L = 2 ^ 53 -> on_grid F L.
Proof.
  intros E i Hi. unfold isfl. rewrite E in *.
  assert (Ex : (zq i / zq (2 ^ 53) == i # Z.to_pos (2 ^ 53))%Q).
  { rewrite Qmake_Qdiv. reflexivity. }
  pose proof (rnd_dyadic F i 53 ltac:(lia) ltac:(lia)) as H.
  assert (Hp : forall x y, (x == y)%Q -> (rnd F x == rnd F y)%Q).
  { intros x y Hxy. apply Qle_antisym; apply rnd_mono; rewrite Hxy; apply Qle_refl. }
  rewrite (Hp _ _ Ex), H, Ex. reflexivity.
Qed.

Lemma occ_draw_grid F u : isfl F u -> (occ_draw F u == u)%Q.
Proof.
  intros HF. unfold isfl in HF. unfold occ_draw, fadd, fmul, fsub.
  assert (E1 : (rnd F (1 - 0) == 1)%Q) by (setoid_replace (1 - 0)%Q with 1%Q by ring; apply rnd_1).
  assert (Hp : forall x y, (x == y)%Q -> (rnd F x == rnd F y)%Q).
  { intros x y Hxy. apply Qle_antisym; apply rnd_mono; rewrite Hxy; apply Qle_refl. }
  rewrite (Hp _ u); [exact HF|]. rewrite (Hp _ u); [rewrite HF; ring|]. rewrite E1. ring.
Qed.

(** ** use_chance *)

Lemma use_chance_count L occ :
  (average (steps L) (fun i => if Qle_bool (zq i / zq (steps L)) occ then 1%Q else 0%Q) == use_chance L occ)%Q.
Proof.
  pose proof (steps_pos L) as Hm. pose proof (zq_pos _ Hm) as Hq.
  rewrite (average_ext _ _ (fun i => if i <? Z.max 0 (Z.min (steps L) (Qfloor (occ * zq (steps L)) + 1)) then 1%Q else 0%Q)).
  { rewrite average_count, count_upto by lia. reflexivity. }
  intros i Hi. set (fl := Qfloor (occ * zq (steps L))).
  assert (E : Qle_bool (zq i / zq (steps L)) occ = (i <=? fl)).
  { apply eq_true_iff_eq. rewrite Qle_bool_iff, Z.leb_le. split; intros H.
    - assert (H' : (zq i <= occ * zq (steps L))%Q).
      { apply (Qmult_le_compat_r _ _ (zq (steps L))) in H; [|lra].
        setoid_replace (zq i / zq (steps L) * zq (steps L))%Q with (zq i) in H by (field; lra). exact H. }
      apply Qfloor_resp_le in H'. unfold zq in H' at 1. rewrite Qfloor_Z in H'. exact H'.
    - apply Qle_shift_div_r; [exact Hq|]. eapply Qle_trans; [|apply Qfloor_le]. fold fl. unfold zq. rewrite <- Zle_Qle. exact H. }
  rewrite E. replace (i <? Z.max 0 (Z.min (steps L) (fl + 1))) with (i <=? fl) by lia. reflexivity.
Qed.

(** the probability is the declared one to within one step of random() *)
Theorem C86_use_chance L occ :
  ((occ < 0)%Q -> (use_chance L occ == 0)%Q) /\
  ((1 <= occ)%Q -> (use_chance L occ == 1)%Q) /\
  ((0 <= occ)%Q -> (occ < 1)%Q -> (occ < use_chance L occ)%Q /\ (use_chance L occ <= occ + 1 / zq (steps L))%Q).
Proof.
  pose proof (steps_pos L) as Hm. pose proof (zq_pos _ Hm) as Hq. unfold use_chance.
  set (fl := Qfloor (occ * zq (steps L))).
  assert (F1 : (inject_Z fl <= occ * zq (steps L))%Q) by apply Qfloor_le.
  assert (F2 : (occ * zq (steps L) < inject_Z (fl + 1))%Q) by apply Qlt_floor.
  split; [|split].
  - intros H. assert (H' : (inject_Z fl < inject_Z 0)%Q).
    { eapply Qle_lt_trans; [exact F1|]. change (inject_Z 0) with 0%Q. nra. }
    rewrite <- Zlt_Qlt in H'. replace (Z.max 0 (Z.min (steps L) (fl + 1))) with 0 by lia.
    unfold zq at 1. change (inject_Z 0) with 0%Q. field. lra.
  - intros H. assert (H' : (zq (steps L) < inject_Z (fl + 1))%Q) by nra.
    unfold zq in H'. rewrite <- Zlt_Qlt in H'. replace (Z.max 0 (Z.min (steps L) (fl + 1))) with (steps L) by lia.
    field. lra.
  - intros H0 H1. assert (Ha : 0 <= fl).
    { assert (Hb : (inject_Z 0 < inject_Z (fl + 1))%Q) by (change (inject_Z 0) with 0%Q; nra). rewrite <- Zlt_Qlt in Hb. lia. }
    assert (Hc : fl < steps L).
    { assert (Hb : (inject_Z fl < inject_Z (steps L))%Q) by (unfold zq in *; nra). rewrite <- Zlt_Qlt in Hb. lia. }
    replace (Z.max 0 (Z.min (steps L) (fl + 1))) with (fl + 1) by lia. split.
    + apply Qlt_shift_div_l; [exact Hq|exact F2].
    + apply Qle_shift_div_r; [exact Hq|]. unfold zq at 1. rewrite inject_Z_plus. change (inject_Z 1) with 1%Q.
      setoid_replace ((occ + 1 / zq (steps L)) * zq (steps L))%Q with (occ * zq (steps L) + 1)%Q by (field; lra). lra.
Qed.

(** ** The part of the day after the skip rules *)

Definition day_in_use (depth : nat) (F : fm) (a : appliance) (prof_i : Z) (peak : list Z) (pw : Q) : prog (dyn * day_trace) :=
  rw1 <- calc_rand_window (window_1 (win a)) (random_var_1 (win a)) ;;
  rw2 <- calc_rand_window (window_2 (win a)) (random_var_2 (win a)) ;;
  rw3 <- calc_rand_window (window_3 (win a)) (random_var_3 (win a)) ;;
  let rws := [rw1; rw2; rw3] in
  rand_time <- rand_total_time_of_use F a rw1 rw2 rw3 ;;
  if String.eqb (flat (par a)) "yes" then
    p <- lift (py_index (power a) prof_i) ;;
    du <- lift (fill_windows (zeros day_minutes) rws (fmul F p (zq (number (par a))))) ;;
    Ret (set_daily_use (set_daily_use (st a) (zeros day_minutes)) du, FlatDay rws rand_time)
  else
    du <- lift (fill_windows (zeros day_minutes) rws (mask_value F)) ;;
    d1 <- assign_random_cycles F a (set_daily_use (set_daily_use (st a) (zeros day_minutes)) du) ;;
    r <- use_loop (Z.to_nat rand_time + 2) depth F a peak pw rand_time 0
           (set_free_spots d1 (nonempty rws)) [] ;;
    Ret (fst r, UsedDay rws rand_time (snd r)).

Lemma traced_split depth F a pref i peak dt pw :
  generate_load_profile_traced depth F a pref i peak dt pw =
  Random (fun u => if skip_day a pref dt (occ_draw F u)
                   then Ret (set_daily_use (st a) (zeros day_minutes), Skipped)
                   else day_in_use depth F a i peak pw).
Proof. reflexivity. Qed.

Lemma bp_in_use depth F a i peak pw : below_pos (day_in_use depth F a i peak pw).
Proof.
  unfold day_in_use. do 3 (apply below_pos_bind; [apply bp_window|intros ?]). cbv zeta. apply below_pos_bind; [apply bp_rtt|intros ?].
  destruct (String.eqb _ _).
  - do 2 (apply below_pos_bind; [apply below_pos_lift|intros ?]). exact I.
  - apply below_pos_bind; [apply below_pos_lift|intros ?]. apply below_pos_bind; [apply bp_cycles|intros ?].
    apply below_pos_bind; [apply bp_loop|intros ?]. exact I.
Qed.

(** the day in use does not depend on the skip rules *)
Lemma rsw_every F a rt : forall depth d, rand_switch_on_window depth F (every_day a) d rt = rand_switch_on_window depth F a d rt.
Proof. induction depth as [|depth IH]; intros d; [reflexivity|]. cbn [rand_switch_on_window]. rewrite IH. reflexivity. Qed.

Lemma loop_every depth F a peak pw rt : forall fuel tot d evs,
  psim eq (use_loop fuel depth F (every_day a) peak pw rt tot d evs) (use_loop fuel depth F a peak pw rt tot d evs).
Proof.
  induction fuel as [|fuel IH]; intros tot d evs; [reflexivity|].
  cbn [use_loop]. rewrite rsw_every. destruct (_ && _); [|reflexivity].
  eapply psim_bind; [apply psim_eq|]. intros x ? <-. destruct (fst x) as [ix|]; [|reflexivity].
  cbv zeta. destruct (_ >? rt); [destruct (_ >? 0); [|reflexivity]; apply psim_eq|].
  eapply psim_bind; [apply psim_eq|]. intros y ? <-. apply IH.
Qed.

Lemma in_use_every depth F a i peak pw :
  psim eq (day_in_use depth F (every_day a) i peak pw) (day_in_use depth F a i peak pw).
Proof.
  unfold day_in_use.
  change (win (every_day a)) with (win a). change (power (every_day a)) with (power a). change (st (every_day a)) with (st a).
  change (flat (par (every_day a))) with (flat (par a)). change (number (par (every_day a))) with (number (par a)).
  do 3 (eapply psim_bind; [apply psim_eq|]; intros ? ? <-). cbv zeta.
  eapply psim_bind; [apply (psim_eq (rand_total_time_of_use F a _ _ _))|]. intros rt ? <-.
  destruct (String.eqb (flat (par a)) "yes"); [apply psim_eq|].
  eapply psim_bind; [apply psim_eq|]. intros du ? <-.
  eapply psim_bind; [apply (psim_eq (assign_random_cycles F a _))|]. intros d1 ? <-.
  eapply psim_bind; [apply loop_every|]. intros x ? <-. reflexivity.
Qed.

(** ** C86 *)

(** the rules that do not depend on chance allow the appliance on this day *)
Definition allowed (a : appliance) (pref dt : Z) : Prop :=
  (pref_index (par a) = 0 \/ pref_index (par a) = pref) /\
  (wd_we_type (par a) = dt \/ wd_we_type (par a) = 2) /\ func_time (par a) <> 0.

Lemma skip_allowed a pref dt u : allowed a pref dt -> skip_day a pref dt u = negb (Qle_bool u (occasional_use (par a))).
Proof.
  intros (H1 & H2 & H3). unfold skip_day.
  replace (negb (pref_index (par a) =? 0) && negb (pref =? pref_index (par a))) with false by lia.
  replace (negb ((wd_we_type (par a) =? dt) || (wd_we_type (par a) =? 2))) with false by lia.
  replace (func_time (par a) =? 0) with false by lia. rewrite !orb_false_r. reflexivity.
Qed.

Lemma qle_bool_eq u v o : (u == v)%Q -> Qle_bool u o = Qle_bool v o.
Proof. intros H. apply eq_true_iff_eq. rewrite !Qle_bool_iff, H. tauto. Qed.

Lemma day_mix depth F L a pref i peak dt pw f : on_grid F L -> allowed a pref dt ->
  (expect L (generate_load_profile_traced depth F a pref i peak dt pw) f ==
   (1 - use_chance L (occasional_use (par a))) * f (Ok (set_daily_use (st a) (zeros day_minutes), Skipped)) +
   use_chance L (occasional_use (par a)) * expect L (day_in_use depth F a i peak pw) f)%Q.
Proof.
  intros HG HA. rewrite traced_split. cbn [expect].
  set (z := f (Ok (set_daily_use (st a) (zeros day_minutes), Skipped))).
  set (e := expect L (day_in_use depth F a i peak pw) f). set (o := occasional_use (par a)).
  rewrite (average_ext _ _ (fun j => z + (e - z) * (if Qle_bool (zq j / zq (steps L)) o then 1%Q else 0%Q))%Q).
  { rewrite average_add, average_const, average_scale, use_chance_count by apply steps_pos. ring. }
  intros j Hj. rewrite (skip_allowed a pref dt _ HA). fold o.
  rewrite (qle_bool_eq _ _ o (occ_draw_grid F _ (HG j Hj))).
  destruct (Qle_bool (zq j / zq (steps L)) o); cbn [negb expect]; fold z e; ring.
Qed.

Lemma never_forbidden a pref dt : allowed a pref dt -> skip_day a pref dt (occasional_use (par a)) = false.
Proof.
  intros HA. rewrite (skip_allowed a pref dt _ HA).
  destruct (Qle_bool _ _) eqn:E; [reflexivity|]. exfalso.
  assert (C : Qle_bool (occasional_use (par a)) (occasional_use (par a)) = true) by (apply Qle_bool_iff, Qle_refl). congruence.
Qed.

(** the probability that the appliance is used on a day that allows it *)
Theorem C86_occasional depth F L a pref i peak dt pw : on_grid F L -> allowed a pref dt ->
  (chance L (generate_load_profile_traced depth F a pref i peak dt pw)
     (fun r => match r with Ok (_, Skipped) => false | _ => true end) == use_chance L (occasional_use (par a)))%Q.
Proof.
  intros HG HA. unfold chance. rewrite (day_mix depth F L a pref i peak dt pw _ HG HA).
  rewrite (expect_sure L (day_in_use depth F a i peak pw) _ 1%Q); [ring|apply bp_in_use|].
  intros r Hr. destruct r as [[d tr]|e]; [|reflexivity]. destruct tr; try reflexivity.
  exfalso. apply (wp_elim _ _ _ (traced_not_skipped depth F a pref i peak dt pw (occasional_use (par a)) (never_forbidden a pref dt HA)) Hr d eq_refl).
Qed.

Lemma use_chance_1 L : (use_chance L 1 == 1)%Q.
Proof. apply C86_use_chance. apply Qle_refl. Qed.

(** Whatever is measured on the profile of the day: with the probability of use it is what it is for an appliance used every
    day, otherwise the profile is zero. *)
Theorem C86_as_if_every_day depth F L a pref i peak dt pw (f : res (list Q) -> Q) : on_grid F L -> allowed a pref dt ->
  (expect L (generate_load_profile depth F a pref i peak dt pw) (fun r => f (profile_of r)) ==
   use_chance L (occasional_use (par a)) *
     expect L (generate_load_profile depth F (every_day a) pref i peak dt pw) (fun r => f (profile_of r)) +
   (1 - use_chance L (occasional_use (par a))) * f (Ok (zeros day_minutes)))%Q.
Proof.
  intros HG HA. unfold generate_load_profile. rewrite !expect_bind.
  assert (HB : allowed (every_day a) pref dt).
  { destruct HA as (_ & _ & H). split; [left; reflexivity|]. split; [right; reflexivity|exact H]. }
  rewrite (day_mix depth F L a pref i peak dt pw _ HG HA), (day_mix depth F L (every_day a) pref i peak dt pw _ HG HB).
  change (occasional_use (par (every_day a))) with 1%Q. rewrite use_chance_1.
  rewrite (expect_psim eq L _ _ _ (onward L (fun r : dyn * day_trace => Ret (set_st a (fst r))) (fun r => f (profile_of r)))
    (in_use_every depth F a i peak pw)); [|intros x ? <-; reflexivity|intros e; reflexivity].
  cbn [onward expect profile_of rbind fst set_st st set_daily_use daily_use]. ring.
Qed.

(** the other days are always zero *)
Theorem C86_other_days depth F L a pref i peak dt pw (f : res (list Q) -> Q) : ~ allowed a pref dt ->
  (expect L (generate_load_profile depth F a pref i peak dt pw) (fun r => f (profile_of r)) == f (Ok (zeros day_minutes)))%Q.
Proof.
  intros HA. unfold generate_load_profile. rewrite expect_bind, traced_split. cbn [expect].
  rewrite (average_ext _ _ (fun _ => f (Ok (zeros day_minutes)))); [apply average_const, steps_pos|].
  intros j _. match goal with |- context [skip_day a pref dt ?u] => replace (skip_day a pref dt u) with true end; [reflexivity|].
  symmetry. apply skip_day_iff. unfold skipped_by, allowed in *. right. lia.
Qed.

(** The daily preference of a member: each of 1 .. user_preference has the same probability, so that an appliance with a
    pref_index in that range is used with the probability of use divided by user_preference. *)
Theorem C86_preference depth F L u a i peak dt pw (f : res (list Q) -> Q) : on_grid F L ->
  1 <= pref_index (par a) <= user_preference u ->
  wd_we_type (par a) = dt \/ wd_we_type (par a) = 2 -> func_time (par a) <> 0 ->
  let q := (use_chance L (occasional_use (par a)) / zq (user_preference u))%Q in
  (expect L (member_use depth F u a i peak dt pw) (fun r => f (profile_of r)) ==
   q * expect L (generate_load_profile depth F (every_day a) (pref_index (par a)) i peak dt pw) (fun r => f (profile_of r)) +
   (1 - q) * f (Ok (zeros day_minutes)))%Q.
Proof.
  intros HG Hp Hw Hf q. unfold member_use, draw_pref, py_randint.
  set (n := user_preference u) in *. replace (n =? 0) with false by lia. replace (n + 1 - 1) with n by lia.
  replace (n <=? 0) with false by lia. cbn [bind expect].
  set (E := expect L (generate_load_profile depth F (every_day a) (pref_index (par a)) i peak dt pw) (fun r => f (profile_of r))).
  set (z := f (Ok (zeros day_minutes))). set (c := use_chance L (occasional_use (par a))).
  assert (Hn : (0 < zq n)%Q) by (apply zq_pos; lia).
  rewrite (average_ext _ _ (fun j => z + (c * (E - z)) * (if j =? pref_index (par a) - 1 then 1%Q else 0%Q))%Q).
  { rewrite average_add, average_const, average_scale, average_count by lia.
    assert (Hc : count_below n (fun j => j =? pref_index (par a) - 1) = 1).
    { unfold count_below. set (k := pref_index (par a) - 1). assert (Hk : 0 <= k < n) by lia. clearbody k.
      rewrite (arange_app 0 k n), filter_app by lia. rewrite (arange_cons k n) by lia. cbn [filter]. rewrite Z.eqb_refl.
      rewrite (filter_none _ (arange 0 k)) by (intros x Hx; apply in_arange in Hx; lia).
      rewrite (filter_none _ (arange (k + 1) n)) by (intros x Hx; apply in_arange in Hx; lia). reflexivity. }
    rewrite Hc. subst q. fold c. unfold zq at 1. change (inject_Z 1) with 1%Q. field. lra. }
  intros j Hj. destruct (j =? pref_index (par a) - 1) eqn:Ej.
  - replace (1 + j) with (pref_index (par a)) by lia.
    rewrite (C86_as_if_every_day depth F L a (pref_index (par a)) i peak dt pw f HG); [|split; [right; reflexivity|tauto]].
    fold c E z. ring.
  - rewrite (C86_other_days depth F L a (1 + j) i peak dt pw f); [fold z; ring|].
    unfold allowed. lia.
Qed.

(** a television used one day in four: Python's probability is 1/4 + 2^-53 *)
Example C86_case : on_grid f64 py_law /\ allowed demo 0 1 /\ ~ allowed special 1 0 /\
  (use_chance py_law (1 # 4) == (1 # 4) + (1 # 2 ^ 53))%Q /\
  (1 <= pref_index (par special) <= user_preference household) /\
  (use_chance py_law (occasional_use (par special)) / zq (user_preference household) == 1 # 3)%Q.
Proof.
  split; [apply grid_53; reflexivity|]. split; [repeat split; [left|right|]; try reflexivity; discriminate|].
  split; [intros ([H|H] & _); discriminate H|]. split; [vm_compute; reflexivity|]. split; [cbn; lia|]. vm_compute. reflexivity.
Qed.
