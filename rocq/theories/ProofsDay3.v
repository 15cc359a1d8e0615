(** * ProofsDay3: consequences of the day specification (C12-C24) *)
From Verif Require Import Base Wp Utils ListLemmas Appliance Spec SpecDay ProofsUtils ProofsUtils2 ProofsAppliance
  ProofsEvent ProofsEvent2 ProofsDay ProofsDay2.
From Coq Require Import ZifyBool ZifyNat.

(** ** Counting minutes *)

Lemma filter_le {A} (f g : A -> bool) l :
  (forall x, In x l -> f x = true -> g x = true) -> zlen (filter f l) <= zlen (filter g l).
Proof.
  induction l as [|x l IH]; intros H; [cbn; lia|].
  cbn [filter]. specialize (IH (fun y Hy => H y (or_intror Hy))).
  pose proof (H x (or_introl eq_refl)) as Hx.
  destruct (f x); [rewrite (Hx eq_refl), !zlen_cons; lia|].
  destruct (g x); rewrite ?zlen_cons; lia.
Qed.

Lemma filter_or {A} (f g : A -> bool) l :
  zlen (filter (fun x => f x || g x) l) <= zlen (filter f l) + zlen (filter g l).
Proof.
  induction l as [|x l IH]; [cbn; lia|].
  cbn [filter]. destruct (f x), (g x); cbn [orb]; rewrite ?zlen_cons; lia.
Qed.

Lemma count_in (l l' : list Z) : NoDup l ->
  zlen (filter (fun t => existsb (Z.eqb t) l') l) <= zlen l'.
Proof.
  intros Hl. unfold zlen. apply inj_le. apply NoDup_incl_length; [now apply NoDup_filter|].
  intros x Hx. apply filter_In in Hx. destruct Hx as [_ Hx]. apply existsb_exists in Hx.
  destruct Hx as (y & Hy & E). apply Z.eqb_eq in E. now subst.
Qed.

Lemma on_minutes_le evs : zlen (minutes_on evs) <= ev_total evs.
Proof.
  unfold minutes_on. induction evs as [|e evs IH].
  - cbn [existsb]. assert (filter (fun _ : Z => false) (arange 0 1440) = []) as ->.
    { induction (arange 0 1440); auto. }
    cbn. lia.
  - cbn [existsb ev_total fold_right]. fold (ev_total evs).
    eapply Z.le_trans; [apply filter_or|].
    apply Z.add_le_mono; [|exact IH].
    eapply Z.le_trans; [|apply (count_in (arange 0 1440) (ev_indexes e)); apply NoDup_arange].
    apply filter_le. intros x _ H. unfold ev_covers in H. now apply andb_prop in H.
Qed.

(** ** A run of minutes inside separated ranges lies in one of them *)

Lemma run_in_one (spots : list (Z * Z)) s : forall n : nat,
  separated spots -> (0 < n)%nat ->
  (forall t, s <= t < s + Z.of_nat n -> minute_in_some t spots) ->
  exists w, In w spots /\ fst w <= s /\ s + Z.of_nat n <= snd w.
Proof.
  induction n as [|n IH]; intros Hsep Hn Hall; [lia|].
  destruct (Hall (s + Z.of_nat n) ltac:(lia)) as (w' & Hw' & M').
  destruct n as [|n].
  - exists w'. unfold minute_in in M'. split; [exact Hw'|lia].
  - destruct IH as (w & Hw & W1 & W2); [exact Hsep|lia|intros t Ht; apply Hall; lia|].
    destruct (ForallOrdPairs_In Hsep w w' Hw Hw') as [<-|[H|H]].
    + exists w. unfold minute_in in M'. split; [exact Hw|lia].
    + unfold apart, minute_in in *. lia.
    + unfold apart, minute_in in *. lia.
Qed.

Lemma no_room_iff rws d evs fc :
  1 <= fc -> inv_sep rws d evs -> no_room fc (free_spots d) -> forall s, ~ free_run rws evs s fc.
Proof.
  intros Hfc [S1 S2 S3] Hno s Hrun.
  destruct (run_in_one (free_spots d) s (Z.to_nat fc) S1 ltac:(lia)) as (w & Hw & W1 & W2).
  { intros t Ht. apply S2. apply Hrun. lia. }
  pose proof (Hno w Hw). lia.
Qed.

(** ** Generation never runs out of the model's loop fuel *)

Lemma rand_variation_not_fuel F v n : wp (random_variation F v n) (fun r => r <> Err OutOfFuel).
Proof. eapply wp_mono; [|apply random_variation_total]. intros r (x & ->). discriminate. Qed.

Lemma traced_general F depth a pref prof_i peak dt pw :
  wp (generate_load_profile_traced depth F a pref prof_i peak dt pw)
     (fun r => match r with
       | Ok (d, UsedDay rws rt evs) => Forall (fun e => 1 <= ev_dur e) evs /\ ev_total evs <= Z.max 0 rt
       | Ok _ => True
       | Err e => e <> OutOfFuel
       end).
Proof.
  unfold generate_load_profile_traced. cbv zeta.
  apply wp_bind_ok. apply wp_uniform. intros u Hu0 Hu1. cbn [wpk].
  destruct (skip_day a pref dt _); [exact I|].
  apply wp_bind_ok. eapply wp_mono; [|apply calc_rand_window_spec].
  intros r [[Hv ->]|(x0 & x1 & Hv1 & -> & X0 & X1)]; cbn [wpk]; [discriminate|].
  apply wp_bind_ok. eapply wp_mono; [|apply calc_rand_window_spec].
  intros r [[Hv ->]|(y0 & y1 & Hv2 & -> & Y0 & Y1)]; cbn [wpk]; [discriminate|].
  apply wp_bind_ok. eapply wp_mono; [|apply calc_rand_window_spec].
  intros r [[Hv ->]|(z0 & z1 & Hv3 & -> & Z0 & Z1)]; cbn [wpk]; [discriminate|].
  apply wp_bind_ok. eapply wp_mono; [|apply rtt_min]. intros r [->|(rt & -> & _)]; cbn [wpk]; [discriminate|].
  destruct (String.eqb (flat (par a)) "yes").
  - apply wp_bind_ok. rewrite wp_lift. destruct (py_index (power a) prof_i) as [p|e] eqn:Ep; cbn [wpk].
    2: { apply py_index_err in Ep. subst e. discriminate. }
    apply wp_bind_ok. rewrite wp_lift. destruct (fill_windows _ _ _) as [d'|e] eqn:E; cbn [wpk wp]; [exact I|].
    apply fill_windows_err in E. subst e. discriminate.
  - apply wp_bind_ok. rewrite wp_lift. destruct (fill_windows _ _ _) as [d'|e] eqn:E; cbn [wpk].
    2: { apply fill_windows_err in E. subst e. discriminate. }
    apply wp_bind_ok. eapply wp_mono; [|apply arc_spec].
    intros r [[-> Hbad]|(d1 & -> & _)]; cbn [wpk]; [discriminate|].
    apply wp_bind_ok. eapply wp_mono; [|apply use_loop_general; lia].
    intros [[d2 evs]|e] H; cbn [wpk wp]; [|exact H].
    destruct H as (new & Hn & H1 & H2). cbn in Hn. subst evs. rewrite Z.sub_0_r in H2. auto.
Qed.

Lemma ev_count evs : Forall (fun e => 1 <= ev_dur e) evs -> zlen evs <= ev_total evs.
Proof.
  induction 1 as [|e evs He Hevs IH]; [cbn; lia|].
  rewrite zlen_cons. cbn [ev_total fold_right]. fold (ev_total evs). lia.
Qed.

(** ** From the method to its trace *)

Lemma generate_traced depth F a pref i peak dt pw a' :
  may (generate_load_profile depth F a pref i peak dt pw) (Ok a') <->
  exists d tr, a' = set_st a d /\ may (generate_load_profile_traced depth F a pref i peak dt pw) (Ok (d, tr)).
Proof.
  unfold generate_load_profile. rewrite may_bind. split.
  - intros [([d tr] & H1 & H2)|(e & _ & H)]; [|discriminate].
    apply may_ret_inv in H2. injection H2 as ->. exists d, tr. auto.
  - intros (d & tr & -> & H). left. exists (d, tr). split; [exact H|apply may_ret].
Qed.

(** ** Power bounds of one event without duty cycle *)

Lemma coincidence_ok_range F a peak s n c :
  1 <= number (par a) -> coincidence_ok F a peak s n c -> 1 <= c <= number (par a).
Proof.
  intros Hn (p0 & pl & _ & _ & H).
  destruct (wp_elim _ _ _ (coincidence_range F a _ Hn) H) as (c' & E & Hc & _).
  injection E as ->. exact Hc.
Qed.

Lemma event_power_exact F a pw c v :
  exact F -> 1 <= c <= number (par a) -> (0 <= pw)%Q -> (0 <= thermal_p_var (par a) <= 1)%Q ->
  may (random_variation F (thermal_p_var (par a)) (fmul F (zq c) pw)) (Ok v) ->
  (pw * (1 - thermal_p_var (par a)) <= v <= zq (number (par a)) * pw * (1 + thermal_p_var (par a)))%Q.
Proof.
  intros HF Hc Hp [Ht0 Ht1] H.
  assert (E : (fmul F (zq c) pw == zq c * pw)%Q) by apply HF.
  assert (C1 : (1 <= zq c)%Q) by (apply (proj2 (zq_le 1 c)); lia).
  assert (C2 : (zq c <= zq (number (par a)))%Q) by (apply zq_le; lia).
  assert (Hn : (0 <= fmul F (zq c) pw)%Q) by (rewrite E; nra).
  destruct (wp_elim _ _ _ (random_variation_interval F _ _ HF Ht0 Hn) H) as (x & Ex & G1 & G2).
  injection Ex as ->. rewrite E in G1, G2.
  set (t := thermal_p_var (par a)) in *. set (N := zq (number (par a))) in *. set (C := zq c) in *.
  clearbody t N C. clear E H Hn.
  assert (pw <= C * pw)%Q by nra. assert (C * pw <= N * pw)%Q by nra.
  set (m := (C * pw)%Q) in *. set (k := (N * pw)%Q) in *. clearbody m k. split; nra.
Qed.

(** relative and absolute slack of the float bound, 2^-45 *)
Definition pw_slack : Q := 1 # 35184372088832.

Lemma event_power_float F a pw c v :
  1 <= c <= number (par a) -> (0 <= pw)%Q -> (0 <= thermal_p_var (par a) <= 1)%Q ->
  may (random_variation F (thermal_p_var (par a)) (fmul F (zq c) pw)) (Ok v) ->
  let top := (zq (number (par a)) * pw)%Q in
  (0 <= v)%Q /\
  (pw * (1 - thermal_p_var (par a)) - (top + 1) * pw_slack <= v
   <= top * (1 + thermal_p_var (par a)) + (top + 1) * pw_slack)%Q.
Proof.
  intros Hc Hp Ht H top.
  assert (C1 : (1 <= zq c)%Q) by (apply (proj2 (zq_le 1 c)); lia).
  assert (C2 : (zq c <= zq (number (par a)))%Q) by (apply zq_le; lia).
  assert (Hn : (0 <= fmul F (zq c) pw)%Q) by (apply rnd_nonneg; nra).
  destruct (wp_elim _ _ _ (random_variation_ge F _ _ Ht Hn) H) as (x & Ex & G0 & _). injection Ex as ->.
  destruct (wp_elim _ _ _ (random_variation_close F _ _ Ht Hn) H) as (y & Ey & G1 & G2). injection Ey as ->.
  split; [exact G0|].
  assert (Hb : (- (zq c * pw) <= zq c * pw <= zq c * pw)%Q) by (split; nra).
  destruct (rnd_err_bounds F (zq c * pw) (zq c * pw) Hb) as [E1 E2]. fold (fmul F (zq c) pw) in E1, E2.
  pose proof eps_bounds as (He & He' & Hh & Hh').
  unfold top. destruct Ht as [Ht0 Ht1].
  set (t := thermal_p_var (par a)) in *. set (N := zq (number (par a))) in *. set (C := zq c) in *.
  set (f := fmul F C pw) in *. clearbody t N C f. clear H G0 top Hb.
  assert (M1 : (pw <= C * pw)%Q) by nra. assert (M2 : (C * pw <= N * pw)%Q) by nra.
  set (m := (C * pw)%Q) in *. set (k := (N * pw)%Q) in *. clearbody m k.
  unfold rv_slack, pw_slack in *. set (e := (1 # 9007199254740992)%Q) in *.
  assert (S1 : (1 # 140737488355328 == 64 * e)%Q) by (vm_compute; reflexivity).
  assert (S2 : (1 # 35184372088832 == 256 * e)%Q) by (vm_compute; reflexivity).
  rewrite S1 in G1, G2. rewrite S2.
  assert (Pe : (e <= 1 # 1000000)%Q) by (vm_compute; congruence).
  assert (Pe0 : (0 < e)%Q) by (vm_compute; congruence).
  clearbody e. set (eps := eps53) in *. set (eta := eta64) in *. clearbody eps eta.
  assert (K1 : (m * eps <= m * e)%Q) by nra.
  assert (K2 : (m * e <= k * e)%Q) by nra.
  assert (F1 : (f <= m + k * e + e)%Q) by lra.
  assert (F2 : (m - k * e - e <= f)%Q) by lra.
  assert (Ke : (0 <= k * e)%Q) by nra.
  assert (kk : (k * e <= k)%Q) by nra.
  assert (fe : (f * e <= 2 * (k * e) + e)%Q) by nra.
  assert (SS : ((k + 1) * (256 * e) == 256 * (k * e) + 256 * e)%Q) by ring. rewrite SS. clear SS.
  set (ke := (k * e)%Q) in *. clearbody ke.
  split.
  - assert (X : (f * (1 - t - 64 * e) == f * (1 - t) - 64 * (f * e))%Q) by ring. rewrite X in G1.
    set (fe' := (f * e)%Q) in *. clearbody fe'.
    assert (Y : (pw * (1 - t) - ke - e <= f * (1 - t))%Q) by nra.
    nra.
  - assert (X : (f * (1 + t + 64 * e) == f * (1 + t) + 64 * (f * e))%Q) by ring. rewrite X in G2.
    set (fe' := (f * e)%Q) in *. clearbody fe'.
    assert (Y : (f * (1 + t) <= k * (1 + t) + 2 * ke + 2 * e)%Q) by nra.
    nra.
Qed.
