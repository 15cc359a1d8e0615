(** * PropsDay: theorems for C12-C24, one simulated day of one appliance

    [generate_load_profile] is the method of the API; [generate_load_profile_traced] is the same
    program that also reports (ghost) the randomised windows, the randomised total time of use
    and the switch-on events in booking order ([C12_trace] relates them). *)
From Verif Require Import Base Wp Tape Utils ListLemmas Appliance Spec SpecDay ProofsUtils ProofsUtils2
  ProofsAppliance ProofsEvent ProofsEvent2 PropsBasic ProofsDay ProofsDay2 ProofsDay3.
From Coq Require Import ZifyBool ZifyNat.

Notation day := generate_load_profile_traced.

Theorem C12_trace depth F a pref i peak dt pw a' :
  may (generate_load_profile depth F a pref i peak dt pw) (Ok a') <->
  exists d tr, a' = set_st a d /\ may (day depth F a pref i peak dt pw) (Ok (d, tr)).
Proof. exact (generate_traced depth F a pref i peak dt pw a'). Qed.

(** ** C12 *)

Lemma used_silent F depth a peak pw rws rt evs d t :
  used F depth a peak pw rws rt evs d -> 0 <= t < 1440 -> ~ minute_in_some t rws ->
  value_at (daily_use d) t = 0%Q.
Proof.
  intros [(cyc & HI & _) _ _ _ _] Ht Hout. rewrite value_at_minute.
  rewrite (inv_over _ _ _ _ _ _ _ _ _ _ _ HI t Ht). unfold overlay.
  destruct (last_event t evs) as [e|] eqn:El.
  - exfalso. unfold last_event in El. apply find_some in El. destruct El as [Hin Hcov].
    apply in_rev in Hin. pose proof (inv_ev _ _ _ _ _ _ _ _ _ _ _ HI) as Hev.
    rewrite Forall_forall in Hev. destruct (Hev e Hin) as (s & n & n0 & Hix & Hn & _ & _ & (rw & Hrw & R1 & R2) & _).
    unfold ev_covers in Hcov. apply andb_prop in Hcov. destruct Hcov as [Hcov _].
    rewrite Hix, existsb_arange in Hcov. apply in_nonempty in Hrw. destruct Hrw as [Hrw _].
    apply Hout. exists rw. split; [exact Hrw|]. unfold minute_in. lia.
  - destruct (existsb (in_win t) rws) eqn:E; [|reflexivity]. apply existsb_in_win in E. contradiction.
Qed.

Theorem C12_silent_outside_windows depth F a pref i peak dt pw a' :
  0 <= func_cycle (par a) ->
  may (generate_load_profile depth F a pref i peak dt pw) (Ok a') ->
  zlen (daily_use (st a')) = 1440 /\
  exists rws, (rws = [] \/ rand_windows a rws) /\ Forall inside_day rws /\
    forall t, 0 <= t < 1440 -> ~ minute_in_some t rws -> value_at (daily_use (st a')) t = 0%Q.
Proof.
  intros Hfc H. apply generate_traced in H. destruct H as (d & tr & -> & H). cbn [st set_st].
  pose proof (wp_elim _ _ _ (day_spec F depth a pref i peak dt pw Hfc) H) as G.
  destruct tr as [|rws rt|rws rt evs]; cbn in G.
  - destruct G as [G _]. rewrite G. split; [apply zlen_zeros|]. exists []. split; [left; reflexivity|].
    split; [constructor|]. intros t Ht _. rewrite value_at_minute. apply at_zeros.
  - destruct G as (_ & _ & Hrw & Hd & _ & _ & _ & Hlen & p & _ & Hv). split; [exact Hlen|].
    exists rws. split; [right; exact Hrw|]. split; [exact Hd|]. intros t Ht Hout.
    rewrite value_at_minute, Hv by exact Ht. destruct (existsb (in_win t) rws) eqn:E; [|reflexivity].
    apply existsb_in_win in E. contradiction.
  - destruct G as (_ & _ & Hrw & Hd & _ & _ & _ & HU). pose proof HU as [(cyc & HI & _) _ _ _ _].
    split; [exact (inv_len _ _ _ _ _ _ _ _ _ _ _ HI)|].
    exists rws. split; [right; exact Hrw|]. split; [exact Hd|].
    intros t Ht Hout. exact (used_silent _ _ _ _ _ _ _ _ _ _ HU Ht Hout).
Qed.

(** ** C13 *)

Theorem C13_overlay depth F a pref i peak dt pw d rws rt evs :
  0 <= func_cycle (par a) ->
  may (day depth F a pref i peak dt pw) (Ok (d, UsedDay rws rt evs)) ->
  rand_windows a rws /\ Forall inside_day rws /\
  (forall e, In e evs -> exists s n w, run_of_minutes (ev_indexes e) s n /\ 1 <= n /\
     In w rws /\ fst w <= s /\ s + n <= snd w) /\
  (forall t, 0 <= t < 1440 ->
     match last_event t evs with
     | Some e => value_at (daily_use d) t = ev_power e t
     | None => (minute_in_some t rws -> value_at (daily_use d) t = mask_value F) /\
               (~ minute_in_some t rws -> value_at (daily_use d) t = 0%Q)
     end).
Proof.
  intros Hfc H. pose proof (wp_elim _ _ _ (day_spec F depth a pref i peak dt pw Hfc) H) as G. cbn in G.
  destruct G as (_ & _ & Hrw & Hd & _ & _ & _ & [(cyc & HI & _) _ _ _ _]).
  split; [exact Hrw|]. split; [exact Hd|]. split.
  - intros e He. pose proof (inv_ev _ _ _ _ _ _ _ _ _ _ _ HI) as Hev.
    rewrite Forall_forall in Hev. destruct (Hev e He) as (s & n & n0 & Hix & Hn & _ & _ & (rw & Hr & R1 & R2) & _).
    exists s, n, rw. rewrite Hix. split; [apply run_arange; lia|]. split; [lia|].
    apply in_nonempty in Hr. split; [tauto|lia].
  - intros t Ht. pose proof (inv_over _ _ _ _ _ _ _ _ _ _ _ HI t Ht) as Ho. unfold overlay in Ho.
    rewrite value_at_minute. destruct (last_event t evs); [exact Ho|].
    rewrite Ho. destruct (existsb (in_win t) rws) eqn:E.
    + apply existsb_in_win in E. split; [reflexivity|contradiction].
    + split; [|reflexivity]. intros Hin. apply existsb_in_win in Hin. congruence.
Qed.

(** a non flat appliance that is not skipped has such a day *)
Theorem C13_non_flat_day depth F a pref i peak dt pw d tr :
  0 <= func_cycle (par a) -> flat (par a) <> "yes"%string ->
  may (day depth F a pref i peak dt pw) (Ok (d, tr)) ->
  (tr = Skipped /\ daily_use d = zeros day_minutes) \/ (exists rws rt evs, tr = UsedDay rws rt evs).
Proof.
  intros Hfc Hfl H. pose proof (wp_elim _ _ _ (day_spec F depth a pref i peak dt pw Hfc) H) as G.
  destruct tr as [|rws rt|rws rt evs]; cbn in G.
  - left. tauto.
  - destruct G as (_ & E & _). apply String.eqb_eq in E. contradiction.
  - right. eauto.
Qed.

(** ** C14 *)

Theorem C14_total_on_time depth F a pref i peak dt pw d rws rt evs :
  0 <= func_cycle (par a) ->
  may (day depth F a pref i peak dt pw) (Ok (d, UsedDay rws rt evs)) ->
  drawn_time F a rws rt /\
  ev_total evs <= rt /\ zlen (minutes_on evs) <= rt /\ 100 * rt <= 99 * total_length rws.
Proof.
  intros Hfc H. pose proof (wp_elim _ _ _ (day_spec F depth a pref i peak dt pw Hfc) H) as G. cbn in G.
  destruct G as (_ & _ & Hrw & Hd & Hdr & Hrt & H99 & [_ _ _ Htot _]).
  split; [exact Hdr|]. split; [exact Htot|]. split; [|exact H99].
  eapply Z.le_trans; [apply on_minutes_le|exact Htot].
Qed.

(** ** C15 *)

Theorem C15_exact_on_time depth F a pref i peak dt pw d rws rt evs :
  1 <= func_cycle (par a) -> separated (nonempty rws) ->
  may (day depth F a pref i peak dt pw) (Ok (d, UsedDay rws rt evs)) ->
  no_overlap evs /\
  (ev_total evs = rt \/ forall s, ~ free_run rws evs s (func_cycle (par a))).
Proof.
  intros Hfc Hsep H.
  pose proof (wp_elim _ _ _ (day_spec F depth a pref i peak dt pw ltac:(lia)) H) as G. cbn in G.
  destruct G as (_ & _ & Hrw & Hd & _ & Hrt & H99 & [_ HS _ Htot Hfull]).
  pose proof (HS Hsep) as HIS. split; [exact (is_dis _ _ _ HIS)|].
  destruct Hfull as [Hf|Hf]; [left; exact Hf|right].
  intros s Hrun. apply (no_room_iff (nonempty rws) d evs (func_cycle (par a)) Hfc HIS Hf s).
  intros t Ht. destruct (Hrun t Ht) as [(w & Hw & Hm) Hn]. split; [|exact Hn].
  exists w. split; [|exact Hm]. apply in_nonempty. split; [exact Hw|]. unfold minute_in in Hm. lia.
Qed.

(** without overlap the minutes of the day on which the appliance is on are exactly as many as
    the duration of the events *)
Lemma count_exact (l l' : list Z) : NoDup l -> NoDup l' -> (forall x, In x l' -> In x l) ->
  zlen (filter (fun t => existsb (Z.eqb t) l') l) = zlen l'.
Proof.
  intros Hl Hl' Hin. apply Z.le_antisymm; [apply count_in; exact Hl|].
  unfold zlen. apply inj_le. apply NoDup_incl_length; [exact Hl'|].
  intros x Hx. apply filter_In. split; [auto|]. apply existsb_exists. exists x. split; [exact Hx|apply Z.eqb_refl].
Qed.

Lemma filter_or_disj {A} (f g : A -> bool) l : (forall x, In x l -> f x = true -> g x = true -> False) ->
  zlen (filter (fun x => f x || g x) l) = zlen (filter f l) + zlen (filter g l).
Proof.
  induction l as [|x l IH]; intros H; [reflexivity|].
  cbn [filter]. specialize (IH (fun y Hy => H y (or_intror Hy))).
  pose proof (H x (or_introl eq_refl)) as Hx.
  destruct (f x), (g x); cbn [orb]; rewrite ?zlen_cons; try lia. 
Qed.

Theorem C15_minutes_on evs :
  no_overlap evs ->
  (forall e, In e evs -> ev_values e <> [] /\ exists s n, run_of_minutes (ev_indexes e) s n /\ 0 <= s /\ s + n <= 1440) ->
  zlen (minutes_on evs) = ev_total evs.
Proof.
  unfold minutes_on. induction 1 as [|e evs He Hevs IH]; intros Hall.
  - cbn [existsb]. assert (filter (fun _ : Z => false) (arange 0 1440) = []) as ->.
    { induction (arange 0 1440); auto. }
    reflexivity.
  - cbn [existsb ev_total fold_right]. fold (ev_total evs).
    rewrite filter_or_disj.
    + rewrite IH by (intros e' He'; apply Hall; right; exact He'). f_equal.
      destruct (Hall e (or_introl eq_refl)) as (Hv & s & n & Hrun & Hs & Hn).
      unfold ev_dur. rewrite <- (count_exact (arange 0 1440) (ev_indexes e)).
      * f_equal. apply filter_ext. intros t. unfold ev_covers.
        replace (zlen (ev_values e) =? 0) with false; [now rewrite andb_true_r|].
        destruct (ev_values e); [contradiction|]. rewrite zlen_cons. pose proof (zlen_nonneg l). lia.
      * apply NoDup_arange.
      * rewrite (run_of_minutes_arange _ _ _ Hrun). apply NoDup_arange.
      * intros x. rewrite (run_of_minutes_arange _ _ _ Hrun), !in_arange. lia.
    + intros t _ H1 H2. apply existsb_exists in H2. destruct H2 as (e' & He' & H2).
      rewrite Forall_forall in He. apply (He e' He' t).
      * unfold ev_covers in H1. apply andb_prop in H1. destruct H1 as [H1 _].
        apply existsb_exists in H1. destruct H1 as (x & Hx & Ex). apply Z.eqb_eq in Ex. now subst.
      * unfold ev_covers in H2. apply andb_prop in H2. destruct H2 as [H2 _].
        apply existsb_exists in H2. destruct H2 as (x & Hx & Ex). apply Z.eqb_eq in Ex. now subst.
Qed.

(** ** C16: true but for the last event, cut so that the total time is met *)

Theorem C16_minimum_duration_partial depth F a pref i peak dt pw d rws rt evs :
  0 <= func_cycle (par a) -> fixed_cycle (par a) <= 0 \/ continuous_duty_cycle (par a) <> 0 ->
  may (day depth F a pref i peak dt pw) (Ok (d, UsedDay rws rt evs)) ->
  Forall (fun e => func_cycle (par a) <= ev_dur e) evs \/
  (exists evs' e, evs = evs' ++ [e] /\ Forall (fun e => func_cycle (par a) <= ev_dur e) evs' /\
     1 <= ev_dur e /\ ev_total evs = rt).
Proof.
  intros Hfc Hc H.
  pose proof (wp_elim _ _ _ (day_spec F depth a pref i peak dt pw Hfc) H) as G. cbn in G.
  destruct G as (_ & _ & _ & _ & _ & _ & _ & [_ _ Hdur _ _]).
  pose proof (wp_elim _ _ _ (traced_general F depth a pref i peak dt pw) H) as G'. cbn in G'.
  destruct G' as [G' _].
  destruct (Hdur Hc) as [K|(evs' & e & -> & K1 & K2)]; [left; exact K|right].
  exists evs', e. split; [reflexivity|]. split; [exact K1|]. split; [|exact K2].
  apply Forall_app in G'. destruct G' as [_ G']. inversion G'; assumption.
Qed.

(** ** C17 *)

(** without duty cycle each event carries one constant value *)
Theorem C17_event_power depth F a pref i peak dt pw d rws rt evs e :
  0 <= func_cycle (par a) -> fixed_cycle (par a) <= 0 -> 1 <= number (par a) ->
  (0 <= pw)%Q -> (0 <= thermal_p_var (par a) <= 1)%Q ->
  may (day depth F a pref i peak dt pw) (Ok (d, UsedDay rws rt evs)) -> In e evs ->
  1 <= ev_coincidence e <= number (par a) /\
  exists v, ev_values e = [v] /\
    let top := (zq (number (par a)) * pw)%Q in
    (0 <= v)%Q /\
    (pw * (1 - thermal_p_var (par a)) - (top + 1) * pw_slack <= v
     <= top * (1 + thermal_p_var (par a)) + (top + 1) * pw_slack)%Q /\
    (exact F -> (pw * (1 - thermal_p_var (par a)) <= v <= top * (1 + thermal_p_var (par a)))%Q).
Proof.
  intros Hfc Hfx Hn Hp Ht H He.
  pose proof (wp_elim _ _ _ (day_spec F depth a pref i peak dt pw Hfc) H) as G. cbn in G.
  destruct G as (_ & _ & _ & _ & _ & _ & _ & [(cyc & HI & _) _ _ _ _]).
  pose proof (inv_ev _ _ _ _ _ _ _ _ _ _ _ HI) as Hev. rewrite Forall_forall in Hev.
  destruct (Hev e He) as (s & n & n0 & _ & _ & _ & _ & _ & Hco & Hval).
  replace (fixed_cycle (par a) >? 0) with false in Hval by lia.
  destruct Hval as (v & Ev & Hv).
  pose proof (coincidence_ok_range _ _ _ _ _ _ Hn Hco) as Hc.
  split; [exact Hc|]. exists v. split; [exact Ev|].
  destruct (event_power_float F a pw _ v Hc Hp Ht Hv) as [V0 V1]. cbv zeta in *.
  split; [exact V0|]. split; [exact V1|]. intros HF. exact (event_power_exact F a pw _ v HF Hc Hp Ht Hv).
Qed.

(** hence every minute of the profile *)
Theorem C17_profile_bounds depth F a pref i peak dt pw a' t :
  0 <= func_cycle (par a) -> fixed_cycle (par a) <= 0 -> flat (par a) <> "yes"%string -> 1 <= number (par a) ->
  (0 <= pw)%Q -> (0 <= thermal_p_var (par a) <= 1)%Q ->
  may (generate_load_profile depth F a pref i peak dt pw) (Ok a') -> 0 <= t < 1440 ->
  let x := value_at (daily_use (st a')) t in
  let top := (zq (number (par a)) * pw)%Q in
  (0 <= x)%Q /\
  (x == 0 \/ x == mask_value F \/
   pw * (1 - thermal_p_var (par a)) - (top + 1) * pw_slack <= x
   <= top * (1 + thermal_p_var (par a)) + (top + 1) * pw_slack)%Q.
Proof.
  intros Hfc Hfx Hfl Hn Hp Ht H Htr x top. apply generate_traced in H. destruct H as (d & tr & -> & H).
  cbn [st set_st] in x.
  assert (M0 : (0 <= mask_value F)%Q) by (apply rnd_nonneg; discriminate).
  destruct (C13_non_flat_day _ _ _ _ _ _ _ _ _ _ Hfc Hfl H) as [(-> & Hz)|(rws & rt & evs & ->)].
  - unfold x. rewrite Hz, value_at_minute, at_zeros. split; [apply Qle_refl|left; reflexivity].
  - destruct (C13_overlay _ _ _ _ _ _ _ _ _ _ _ _ Hfc H) as (_ & _ & Hruns & Hov).
    specialize (Hov t Htr). fold x in Hov.
    destruct (last_event t evs) as [e|] eqn:El.
    + unfold last_event in El. apply find_some in El. destruct El as [Hin _]. apply in_rev in Hin.
      destruct (C17_event_power _ _ _ _ _ _ _ _ _ _ _ _ e Hfc Hfx Hn Hp Ht H Hin) as (_ & v & Ev & V0 & V1 & _).
      assert (Ex : x = v).
      { rewrite Hov. unfold ev_power. rewrite Ev. change (zlen [v]) with 1. rewrite Z.mod_1_r. reflexivity. }
      rewrite Ex. split; [exact V0|]. right; right. exact V1.
    + destruct Hov as [O1 O2].
      destruct (existsb (in_win t) rws) eqn:E.
      * apply existsb_in_win in E. rewrite (O1 E). split; [exact M0|right; left; reflexivity].
      * assert (Hno : ~ minute_in_some t rws) by (intros Hc; apply existsb_in_win in Hc; congruence).
        rewrite (O2 Hno). split; [apply Qle_refl|left; reflexivity].
Qed.

(** ** C18 *)

Theorem C18_duty_cycle_events depth F a pref i peak dt pw d rws rt evs :
  0 <= func_cycle (par a) -> fixed_cycle (par a) > 0 ->
  may (day depth F a pref i peak dt pw) (Ok (d, UsedDay rws rt evs)) ->
  exists cyc : Z -> list Q,
    (* one randomised version of each declared cycle for the whole day *)
    (forall k, k = 1 \/ k = 2 \/ k = 3 -> cycle_drawn F a k (cyc k)) /\
    forall e, In e evs ->
      (ev_cycle e = 1 \/ ev_cycle e = 2 \/ ev_cycle e = 3) /\
      let c := cyc (ev_cycle e) in
      (c <> [] -> forall k, 0 <= k < ev_dur e ->
         ev_power e (ev_start e + k) =
         fmul F (nth (Z.to_nat (k mod zlen c)) c 0%Q) (zq (ev_coincidence e))) /\
      (continuous_duty_cycle (par a) = 0 -> ev_dur e <= zlen c).
Proof.
  intros Hfc Hfx H.
  pose proof (wp_elim _ _ _ (day_spec F depth a pref i peak dt pw Hfc) H) as G. cbn in G.
  destruct G as (_ & _ & _ & _ & _ & _ & _ & [(cyc & HI & Hcyc) _ _ _ _]).
  exists cyc. split; [exact (Hcyc Hfx)|]. intros e He.
  pose proof (inv_ev _ _ _ _ _ _ _ _ _ _ _ HI) as Hev. rewrite Forall_forall in Hev.
  destruct (Hev e He) as (s & n & n0 & Hix & Hn & _ & _ & _ & _ & Hval).
  replace (fixed_cycle (par a) >? 0) with true in Hval by lia.
  destruct Hval as (Hid & _ & Hvals & Hone). split; [exact Hid|]. cbv zeta.
  assert (Hdur : ev_dur e = n) by (unfold ev_dur; rewrite Hix, zlen_arange; lia).
  assert (Hst : ev_start e = s) by (unfold ev_start; rewrite Hix, arange_cons by lia; reflexivity).
  split.
  - intros Hc k Hk. unfold ev_power. rewrite Hst. replace (s + k - s) with k by lia.
    rewrite Hvals, zlen_map. set (f := fun x => fmul F x (zq (ev_coincidence e))).
    assert (Hlen : 0 < zlen (cyc (ev_cycle e))).
    { destruct (cyc (ev_cycle e)); [contradiction|]. rewrite zlen_cons. pose proof (zlen_nonneg l). lia. }
    assert (Hk2 : 0 <= k mod zlen (cyc (ev_cycle e)) < zlen (cyc (ev_cycle e))) by (apply Z.mod_pos_bound; exact Hlen).
    rewrite (nth_indep _ 0%Q (f 0%Q)) by (rewrite map_length; unfold zlen in *; lia).
    rewrite map_nth. reflexivity.
  - rewrite Hdur. exact Hone.
Qed.

(** ** C19: the lowest numbered cycle whose windows meet the drawn range that starts like the
    event (the range before it is cut to one cycle or to the remaining time) *)

Definition meets (lo hi : Z) (w : Z * Z) : Prop := exists m, lo <= m <= hi /\ fst w <= m <= snd w.
Definition declared_windows (a : appliance) (k : Z) : list (Z * Z) :=
  let c := if k =? 1 then cyc1 a else if k =? 2 then cyc2 a else cyc3 a in [cwa c; cwb c].

Lemma select_cycle_spec a lo hi k :
  lo <= hi -> (forall j w, In w (declared_windows a j) -> fst w <= snd w) ->
  select_cycle a lo hi = Some k ->
  (exists w, In w (declared_windows a k) /\ meets lo hi w) /\
  (forall j, 1 <= j < k -> forall w, In w (declared_windows a j) -> ~ meets lo hi w).
Proof.
  intros Hlo Hw. unfold select_cycle. cbv zeta.
  assert (Hhit : forall j c, c = (if j =? 1 then cyc1 a else if j =? 2 then cyc2 a else cyc3 a) ->
     range_within_window lo hi (cwa c) || range_within_window lo hi (cwb c) = true <->
     exists w, In w (declared_windows a j) /\ meets lo hi w).
  { intros j c Hc. assert (Hdw : declared_windows a j = [cwa c; cwb c]) by (unfold declared_windows; now rewrite <- Hc).
    rewrite Hdw. pose proof (Hw j (cwa c)) as W1. pose proof (Hw j (cwb c)) as W2. rewrite Hdw in W1, W2.
    specialize (W1 (or_introl eq_refl)). specialize (W2 (or_intror (or_introl eq_refl))).
    rewrite orb_true_iff, !range_within_iff by assumption. split.
    - intros [Hm|Hm]; [exists (cwa c)|exists (cwb c)]; (split; [cbn; auto|exact Hm]).
    - intros (w & [<-|[<-|[]]] & Hm); [left|right]; exact Hm. }
  assert (Hneg : forall j c, c = (if j =? 1 then cyc1 a else if j =? 2 then cyc2 a else cyc3 a) ->
     range_within_window lo hi (cwa c) || range_within_window lo hi (cwb c) = false ->
     forall w, In w (declared_windows a j) -> ~ meets lo hi w).
  { intros j c Hc E w Hin Hm. rewrite (proj2 (Hhit j c Hc)) in E by (exists w; auto). discriminate. }
  destruct (_ || _) eqn:E1 at 1.
  { intros H; injection H as <-. split; [apply (Hhit 1 (cyc1 a)); auto|lia]. }
  destruct (_ || _) eqn:E2 at 1.
  { intros H; injection H as <-. split; [apply (Hhit 2 (cyc2 a)); auto|].
    intros j Hj. replace j with 1 by lia. apply (Hneg 1 (cyc1 a)); auto. }
  destruct (_ || _) eqn:E3 at 1; [|discriminate].
  intros H; injection H as <-. split; [apply (Hhit 3 (cyc3 a)); auto|].
  intros j Hj. assert (j = 1 \/ j = 2) as [-> | ->] by lia.
  - apply (Hneg 1 (cyc1 a)); auto.
  - apply (Hneg 2 (cyc2 a)); auto.
Qed.

Theorem C19_cycle_selection_partial depth F a pref i peak dt pw d rws rt evs e :
  0 <= func_cycle (par a) -> fixed_cycle (par a) > 0 ->
  (forall j w, In w (declared_windows a j) -> fst w <= snd w) ->
  may (day depth F a pref i peak dt pw) (Ok (d, UsedDay rws rt evs)) -> In e evs ->
  exists n0, ev_dur e <= n0 /\ func_cycle (par a) <= n0 <= rt /\
    (* [lo, hi]: the drawn range, of which the event is a beginning *)
    let lo := ev_start e in let hi := ev_start e + n0 - 1 in
    (exists w, In w (declared_windows a (ev_cycle e)) /\ meets lo hi w) /\
    (forall j, 1 <= j < ev_cycle e -> forall w, In w (declared_windows a j) -> ~ meets lo hi w).
Proof.
  intros Hfc Hfx Hw H He.
  pose proof (wp_elim _ _ _ (day_spec F depth a pref i peak dt pw Hfc) H) as G. cbn in G.
  destruct G as (_ & _ & _ & _ & _ & _ & _ & [(cyc & HI & _) _ _ _ _]).
  pose proof (inv_ev _ _ _ _ _ _ _ _ _ _ _ HI) as Hev. rewrite Forall_forall in Hev.
  destruct (Hev e He) as (s & n & n0 & Hix & Hn & Hn0 & Hfn & _ & _ & Hval).
  replace (fixed_cycle (par a) >? 0) with true in Hval by lia.
  destruct Hval as (_ & Hsel & _ & _).
  assert (Hdur : ev_dur e = n) by (unfold ev_dur; rewrite Hix, zlen_arange; lia).
  assert (Hst : ev_start e = s) by (unfold ev_start; rewrite Hix, arange_cons by lia; reflexivity).
  exists n0. split; [lia|]. split; [lia|]. cbv zeta. rewrite Hst.
  apply (select_cycle_spec a s (s + n0 - 1)); [lia|exact Hw|exact Hsel].
Qed.

(** ** C20 *)

(** the rule of the documentation, [u] being the occasional-use draw of the day *)
Definition skipped_by (a : appliance) (pref dt : Z) (u : Q) : Prop :=
  (occasional_use (par a) < u)%Q \/
  (pref_index (par a) <> 0 /\ pref <> pref_index (par a)) \/
  (wd_we_type (par a) <> dt /\ wd_we_type (par a) <> 2) \/
  func_time (par a) = 0.

Lemma skip_day_iff a pref dt u : skip_day a pref dt u = true <-> skipped_by a pref dt u.
Proof.
  unfold skip_day, skipped_by. rewrite !orb_true_iff, Qltb_lt, andb_true_iff, !negb_true_iff, orb_false_iff.
  rewrite !Z.eqb_neq, Z.eqb_eq. tauto.
Qed.

Lemma traced_not_skipped depth F a pref i peak dt pw u :
  skip_day a pref dt u = false ->
  wp (rw1 <- calc_rand_window (window_1 (win a)) (random_var_1 (win a)) ;;
      rw2 <- calc_rand_window (window_2 (win a)) (random_var_2 (win a)) ;;
      rw3 <- calc_rand_window (window_3 (win a)) (random_var_3 (win a)) ;;
      let rws := [rw1; rw2; rw3] in
      rand_time <- rand_total_time_of_use F a rw1 rw2 rw3 ;;
      if String.eqb (flat (par a)) "yes" then
        p <- lift (py_index (power a) i) ;;
        du <- lift (fill_windows (zeros day_minutes) rws (fmul F p (zq (number (par a))))) ;;
        Ret (set_daily_use (set_daily_use (st a) (zeros day_minutes)) du, FlatDay rws rand_time)
      else
        du <- lift (fill_windows (zeros day_minutes) rws (mask_value F)) ;;
        d1 <- assign_random_cycles F a (set_daily_use (set_daily_use (st a) (zeros day_minutes)) du) ;;
        r <- use_loop (Z.to_nat rand_time + 2) depth F a peak pw rand_time 0
               (set_free_spots d1 (nonempty rws)) [] ;;
        Ret (fst r, UsedDay rws rand_time (snd r)))
     (fun r => forall d, r <> Ok (d, Skipped)).
Proof.
  intros _.
  do 3 (apply wp_bind_ok; apply wp_intro; intros [[? ?]|?] _; cbn [wpk]; [|discriminate]). cbv zeta.
  apply wp_bind_ok; apply wp_intro; intros [rt|?] _; cbn [wpk]; [|discriminate].
  destruct (String.eqb (flat (par a)) "yes").
  - do 2 (apply wp_bind_ok; apply wp_intro; intros [?|?] _; cbn [wpk]; [|discriminate]).
    cbn [wp]. discriminate.
  - do 3 (apply wp_bind_ok; apply wp_intro; intros [?|?] _; cbn [wpk]; [|discriminate]).
    cbn [wp]. discriminate.
Qed.

(** the day consumes one draw u in [0,1) first; it is skipped exactly when the rule says so,
    and then the profile is zero whatever the other parameters are *)
Theorem C20_skip_rules depth F a pref i peak dt pw :
  exists k : Q -> prog (dyn * day_trace),
    day depth F a pref i peak dt pw = Random k /\
    forall u0, (0 <= u0)%Q -> (u0 < 1)%Q ->
      exists u, (0 <= u <= 1)%Q /\ (isfl F u0 -> u == u0)%Q /\
        (skipped_by a pref dt u ->
           k u0 = Ret (set_daily_use (st a) (zeros day_minutes), Skipped)) /\
        (~ skipped_by a pref dt u -> forall d, ~ may (k u0) (Ok (d, Skipped))).
Proof.
  unfold generate_load_profile_traced. cbv zeta. unfold py_uniform at 1. cbn [bind].
  eexists. split; [reflexivity|]. intros u0 H0 H1. cbv beta.
  exists (occ_draw F u0). split; [apply occ_draw_range; assumption|]. split; [|split].
  - intros HF. unfold isfl in HF. unfold occ_draw, fadd, fmul, fsub.
    assert (E1 : (rnd F (1 - 0) == 1)%Q) by (setoid_replace (1 - 0)%Q with 1%Q by ring; apply rnd_1).
    rewrite E1. setoid_replace (1 * u0)%Q with u0 by ring. rewrite HF.
    setoid_replace (0 + u0)%Q with u0 by ring. exact HF.
  - intros Hs. apply skip_day_iff in Hs. unfold occ_draw in Hs. rewrite Hs. reflexivity.
  - intros Hs d Hm. unfold occ_draw in Hs.
    destruct (skip_day a pref dt (fadd F 0 (fmul F (fsub F 1 0) u0))) eqn:E; [apply skip_day_iff in E; contradiction|].
    exact (wp_elim _ _ _ (traced_not_skipped depth F a pref i peak dt pw _ E) Hm d eq_refl).
Qed.

Theorem C20_never_skipped depth F a pref i peak dt pw d :
  (1 <= occasional_use (par a))%Q -> pref_index (par a) = 0 -> wd_we_type (par a) = 2 -> func_time (par a) <> 0 ->
  ~ may (day depth F a pref i peak dt pw) (Ok (d, Skipped)).
Proof.
  intros H1 H2 H3 H4 H. destruct (C20_skip_rules depth F a pref i peak dt pw) as (k & Hk & Hall).
  rewrite Hk in H. inversion H as [| |u k' r' U0 U1 Hr| | |]; subst.
  destruct (Hall u U0 U1) as (v & Hv & _ & _ & Hns). apply (Hns) with (d := d); [|exact Hr].
  unfold skipped_by. intros [C|[[C _]|[[_ C]|C]]]; [lra|contradiction|contradiction|contradiction].
Qed.

(** an appliance that the rule skips for any draw always has a zero day *)
Theorem C20_always_skipped depth F a pref i peak dt pw a' :
  (pref_index (par a) <> 0 /\ pref <> pref_index (par a)) \/
  (wd_we_type (par a) <> dt /\ wd_we_type (par a) <> 2) \/ func_time (par a) = 0 ->
  may (generate_load_profile depth F a pref i peak dt pw) (Ok a') ->
  daily_use (st a') = zeros day_minutes.
Proof.
  intros Hs H. apply generate_traced in H. destruct H as (d & tr & -> & H).
  destruct (C20_skip_rules depth F a pref i peak dt pw) as (k & Hk & Hall).
  rewrite Hk in H. inversion H as [| |u k' r' U0 U1 Hr| | |]; subst.
  destruct (Hall u U0 U1) as (v & Hv & _ & Hz & _). rewrite Hz in Hr by (right; exact Hs).
  apply may_ret_inv in Hr. injection Hr as -> _. reflexivity.
Qed.

(** ** C21 *)

(** with occasional_use = 0 the appliance is skipped for every representable draw but 0 *)
Theorem C21_occasional_zero_partial depth F a pref i peak dt pw :
  (occasional_use (par a) == 0)%Q ->
  exists k, day depth F a pref i peak dt pw = Random k /\
    forall u0, isfl F u0 -> (0 < u0)%Q -> (u0 < 1)%Q ->
      k u0 = Ret (set_daily_use (st a) (zeros day_minutes), Skipped).
Proof.
  intros Ho. destruct (C20_skip_rules depth F a pref i peak dt pw) as (k & Hk & Hall).
  exists k. split; [exact Hk|]. intros u0 Hf H0 H1.
  destruct (Hall u0 ltac:(lra) H1) as (u & _ & E & Hz & _). apply Hz. left. specialize (E Hf). lra.
Qed.

(** ** C22 *)

Theorem C22_flat depth F a pref i peak dt pw d tr :
  0 <= func_cycle (par a) -> flat (par a) = "yes"%string ->
  may (day depth F a pref i peak dt pw) (Ok (d, tr)) -> tr <> Skipped ->
  exists rws rt p, tr = FlatDay rws rt /\ rand_windows a rws /\ Forall inside_day rws /\
    py_index (power a) i = Ok p /\ zlen (daily_use d) = 1440 /\
    forall t, 0 <= t < 1440 ->
      (minute_in_some t rws -> value_at (daily_use d) t = fmul F p (zq (number (par a)))) /\
      (~ minute_in_some t rws -> value_at (daily_use d) t = 0%Q).
Proof.
  intros Hfc Hfl H Hns. pose proof (wp_elim _ _ _ (day_spec F depth a pref i peak dt pw Hfc) H) as G.
  destruct tr as [|rws rt|rws rt evs]; cbn in G; [contradiction| |].
  - destruct G as (_ & _ & Hrw & Hd & _ & _ & _ & Hlen & p & Hp & Hv). exists rws, rt, p.
    split; [reflexivity|]. split; [exact Hrw|]. split; [exact Hd|]. split; [exact Hp|]. split; [exact Hlen|].
    intros t Ht. rewrite value_at_minute, Hv by exact Ht.
    destruct (existsb (in_win t) rws) eqn:E.
    + apply existsb_in_win in E. split; [reflexivity|contradiction].
    + split; [|reflexivity]. intros Hin. apply existsb_in_win in Hin. congruence.
  - destruct G as (_ & E & _). rewrite Hfl in E. discriminate.
Qed.

(** without window variability the randomised windows are the declared ones *)
Theorem C22_no_variability a rws :
  Forall inside_day [window_1 (win a); window_2 (win a); window_3 (win a)] ->
  random_var_1 (win a) = 0 -> random_var_2 (win a) = 0 -> random_var_3 (win a) = 0 ->
  rand_windows a rws -> rws = [window_1 (win a); window_2 (win a); window_3 (win a)].
Proof.
  intros Hd H1 H2 H3 (rw1 & rw2 & rw3 & -> & N1 & N2 & N3). rewrite H1 in N1. rewrite H2 in N2. rewrite H3 in N3.
  assert (K : forall w rw, inside_day w -> near w 0 rw -> rw = w).
  { intros [w0 w1] rw [I0 I1] (y0 & y1 & -> & Y0 & Y1). cbn in *. f_equal; lia. }
  inversion Hd as [|? ? D1 Hd1]; subst. inversion Hd1 as [|? ? D2 Hd2]; subst. inversion Hd2 as [|? ? D3 Hd3]; subst.
  rewrite (K _ _ D1 N1), (K _ _ D2 N2), (K _ _ D3 N3). reflexivity.
Qed.

(** ** C23 *)

(** whatever the parameters, the while loop of the model never exhausts its rand_time + 2
    rounds: every run returns or raises a Python exception, after at most rand_time events *)
Theorem C23_terminates depth F a pref i peak dt pw r :
  may (day depth F a pref i peak dt pw) r ->
  r <> Err OutOfFuel /\
  (forall d rws rt evs, r = Ok (d, UsedDay rws rt evs) -> zlen evs <= Z.max 0 rt).
Proof.
  intros H. pose proof (wp_elim _ _ _ (traced_general F depth a pref i peak dt pw) H) as G. split.
  - intros ->. exact (G eq_refl).
  - intros d rws rt evs ->. destruct G as [G1 G2]. pose proof (ev_count evs G1). lia.
Qed.

(** ** C24 *)

(** windows inside the day, random_var_i computed by windows() with random_var_w <= 1/2 *)
Definition well_declared (F : fm) (a : appliance) : Prop :=
  let W := win a in
  Forall inside_day [window_1 W; window_2 W; window_3 W] /\
  (0 <= random_var_w W <= 1 # 2)%Q /\
  random_var_1 W = py_int (fmul F (random_var_w W) (zq (length_of (window_1 W)))) /\
  random_var_2 W = py_int (fmul F (random_var_w W) (zq (length_of (window_2 W)))) /\
  random_var_3 W = py_int (fmul F (random_var_w W) (zq (length_of (window_3 W)))).

(** func_cycle fits in 99% of the narrowest randomised windows *)
Definition cycle_fits (a : appliance) : Prop :=
  let W := win a in
  100 * func_cycle (par a) <
  99 * ((length_of (window_1 W) - 2 * random_var_1 W) + (length_of (window_2 W) - 2 * random_var_2 W)
        + (length_of (window_3 W) - 2 * random_var_3 W)).

(** duty cycles that always apply: valid durations, every minute of the day in some cycle
    window, and at least one minute long (or repeated) *)
Definition duty_ok (a : appliance) : Prop :=
  (forall c, c = cyc1 a \/ c = cyc2 a \/ c = cyc3 a ->
     (0 <= cr c <= 1)%Q /\ 0 <= ct1 c <= 2 ^ 20 /\ 0 <= ct2 c <= 2 ^ 20 /\
     (continuous_duty_cycle (par a) <> 0 \/ (1001 # 1000 <= zq (ct1 c) * (1 - cr c))%Q)) /\
  (forall j w, In w (declared_windows a j) -> fst w <= snd w) /\
  (forall m, 0 <= m < 1440 -> exists j w, 1 <= j <= 3 /\ In w (declared_windows a j) /\ fst w <= m <= snd w).

Lemma select_cycle_hit a lo hi :
  lo <= hi -> (forall j w, In w (declared_windows a j) -> fst w <= snd w) ->
  (exists j w, 1 <= j <= 3 /\ In w (declared_windows a j) /\ fst w <= lo <= snd w) -> select_cycle a lo hi <> None.
Proof.
  intros Hlo Hw (j & w & Hj & Hin & Hm). unfold select_cycle. cbv zeta.
  assert (Hhit : range_within_window lo hi w = true) by (apply range_within_iff; [lia|eauto|exists lo; lia]).
  assert (j = 1 \/ j = 2 \/ j = 3) as [->|[->| ->]] by lia; cbn in Hin; destruct Hin as [<-|[<-|[]]];
    rewrite Hhit; rewrite ?orb_true_r; cbn [orb];
    repeat match goal with |- (if ?b then _ else _) <> None => destruct b end; discriminate.
Qed.

Lemma declared_cycle_cases a k : declared_cycle a k = cyc1 a \/ declared_cycle a k = cyc2 a \/ declared_cycle a k = cyc3 a.
Proof. unfold declared_cycle. repeat match goal with |- context [if ?b then _ else _] => destruct b end; auto. Qed.

Theorem C24_no_crash_partial depth F a pref i peak dt pw r :
  well_declared F a -> cycle_fits a ->
  1 <= func_cycle (par a) -> 1 <= number (par a) -> peak <> [] -> (0 < depth)%nat -> 0 <= i < zlen (power a) ->
  flat (par a) = "yes"%string \/ fixed_cycle (par a) <= 0 \/ duty_ok a ->
  may (day depth F a pref i peak dt pw) r -> exists d tr, r = Ok (d, tr).
Proof.
  intros (Hday & Hv & V1 & V2 & V3) Hfit Hfc Hnum Hpeak Hdepth Hi Hduty H.
  pose proof (wp_elim _ _ _ (day_spec F depth a pref i peak dt pw ltac:(lia)) H) as G.
  destruct r as [[d tr]|e]; [eauto|exfalso].
  inversion Hday as [|? ? D1 Hd1]; subst. inversion Hd1 as [|? ? D2 Hd2]; subst. inversion Hd2 as [|? ? D3 _]; subst.
  clear Hd1 Hd2.
  assert (K : forall w rv, inside_day w -> rv = py_int (fmul F (random_var_w (win a)) (zq (length_of w))) ->
     0 <= rv /\ forall rw, near w rv rw -> fst rw <= snd rw /\ length_of w - 2 * rv <= length_of rw).
  { intros w rv [I0 I1] Erv.
    destruct (random_var_half F (random_var_w (win a)) (length_of w) (proj1 Hv) (proj2 Hv)) as [R1 R2];
      [unfold length_of; lia|]. rewrite <- Erv in R1, R2.
    split; [exact R1|]. intros rw (y0 & y1 & -> & Y0 & Y1). unfold length_of in *. cbn [fst snd]. lia. }
  destruct (K _ _ D1 V1) as [P1 N1]. destruct (K _ _ D2 V2) as [P2 N2]. destruct (K _ _ D3 V3) as [P3 N3].
  assert (Hcyc : String.eqb (flat (par a)) "yes" = false -> fixed_cycle (par a) >= 1 -> duty_ok a).
  { intros Ef Hf. destruct Hduty as [Hd|[Hd|Hd]]; [|lia|exact Hd].
    rewrite Hd in Ef. discriminate. }
  assert (Hrange : forall c, duty_ok a -> c = cyc1 a \/ c = cyc2 a \/ c = cyc3 a ->
     (0 <= cr c <= 1)%Q /\ 0 <= ct1 c <= 2 ^ 20 /\ 0 <= ct2 c <= 2 ^ 20).
  { intros c [Hd _] Hc. destruct (Hd c Hc) as (? & ? & ? & _). auto. }
  destruct G as [(-> & [Hneg|[(rws & (rw1 & rw2 & rw3 & -> & M1 & M2 & M3) & Hcase)|(Ef & Hf & k & p1 & p2 & Hbad)]])
                |[(-> & Ef & Hidx)|(Ef & rws & d & (rw1 & rw2 & rw3 & -> & M1 & M2 & M3) & Hins & Hdr & Hloop)]].
  - destruct Hneg as [C|[C|C]]; lia.
  - destruct (N1 _ M1) as [O1 L1]. destruct (N2 _ M2) as [O2 L2]. destruct (N3 _ M3) as [O3 L3].
    destruct Hcase as [(rw & Hin & C)|[_ C]].
    + cbn in Hin. destruct Hin as [<-|[<-|[<-|[]]]]; lia.
    + unfold total_length in C. cbn [fold_right] in C. unfold cycle_fits in Hfit. cbv zeta in Hfit. lia.
  - specialize (Hcyc Ef Hf). set (c := declared_cycle a k) in *.
    destruct (Hrange c Hcyc (declared_cycle_cases a k)) as (R1 & R2 & R3).
    destruct Hbad as [Hb|[_ Hb]].
    + destruct (wp_elim _ _ _ (duty_cycle_close F (cr c) (ct1 c) p1 (ct2 c) p2 R1 R2 R3) Hb) as (? & ? & C & _). discriminate.
    + destruct (wp_elim _ _ _ (random_choice_close F (cr c) (ct1 c) p1 (ct2 c) p2 R1 R2 R3) Hb) as (? & ? & [C|C] & _); discriminate.
  - destruct (py_index_exists (power a) i Hi) as (x & Hx & _). congruence.
  - destruct Hloop as [(-> & [C|(Hf & rw & s & n & Hin & S1 & S2 & Hn & Hsel)])|[(-> & [C|[C|(Hf & Hcont & k & Hk & Hnil)]])|(-> & C)]];
      [lia| |contradiction|lia| |lia].
    + destruct (Hcyc Ef ltac:(lia)) as (_ & Hw & Hcov). apply in_nonempty in Hin. destruct Hin as [Hin _].
      rewrite Forall_forall in Hins. destruct (Hins rw Hin) as [I0 I1].
      apply (select_cycle_hit a s (s + n - 1)); [lia|exact Hw|apply Hcov; lia|exact Hsel].
    + pose proof (Hcyc Ef ltac:(lia)) as Hd. destruct (Hdr Hf k Hk) as (p1 & p2 & _ & _ & Hdc).
      cbv zeta in Hdc. rewrite Hnil in Hdc. set (c := declared_cycle a k) in *.
      pose proof (declared_cycle_cases a k) as Hc. fold c in Hc.
      destruct (Hrange c Hd Hc) as (R1 & R2 & R3). destruct (proj1 Hd c Hc) as (_ & _ & _ & [C|C]); [contradiction|].
      assert (Hpos : forall n1, half_length (cr c) (ct1 c) n1 -> 1 <= n1).
      { intros n1 [[L _] _]. assert (Hle : (1 <= zq (ct1 c) * (1 - cr c) - (1 # 1000))%Q) by lra.
        apply Qfloor_resp_le in Hle. change (Qfloor 1) with 1 in Hle. lia. }
      assert (Hnn : forall n1 (p q : Q) m, 1 <= n1 -> @nil Q = repeat p (Z.to_nat n1) ++ repeat q m -> False).
      { intros n1 p q m Hn E. apply (f_equal (@List.length Q)) in E. rewrite app_length, !repeat_length in E. cbn in E. lia. }
      assert (Hnn' : forall n1 (p q : Q) m, 1 <= n1 -> @nil Q = repeat q m ++ repeat p (Z.to_nat n1) -> False).
      { intros n1 p q m Hn E. apply (f_equal (@List.length Q)) in E. rewrite app_length, !repeat_length in E. cbn in E. lia. }
      destruct Hdc as [Hb|[_ Hb]].
      * destruct (wp_elim _ _ _ (duty_cycle_close F (cr c) (ct1 c) p1 (ct2 c) p2 R1 R2 R3) Hb) as (n1 & n2 & E & L1 & _).
        injection E as E. exact (Hnn n1 p1 p2 (Z.to_nat n2) (Hpos n1 L1) E).
      * destruct (wp_elim _ _ _ (random_choice_close F (cr c) (ct1 c) p1 (ct2 c) p2 R1 R2 R3) Hb) as (n1 & n2 & [E|E] & L1 & _);
          injection E as E;
          [exact (Hnn n1 p1 p2 (Z.to_nat n2) (Hpos n1 L1) E)|exact (Hnn' n1 p1 p2 (Z.to_nat n2) (Hpos n1 L1) E)].
Qed.

(** windows() produces well declared appliances *)
Theorem C24_windows_well_declared F a w1 w2 rvw w3 a' :
  windows F a w1 w2 rvw w3 = (a', None) -> (0 <= rvw <= 1 # 2)%Q ->
  inside_day (match w1 with Some x => x | None => (0, 1440) end) ->
  inside_day (match w2 with Some x => x | None => window_2 (win a) end) ->
  inside_day (match w3 with Some x => x | None => window_3 (win a) end) ->
  well_declared F a'.
Proof.
  intros H Hv D1 D2 D3. pose proof (windows_ok F a w1 w2 rvw w3 a' H) as G. cbv zeta in G.
  destruct G as (_ & _ & _ & _ & _ & _ & E1 & E2 & E3 & Ev & R1 & R2 & R3 & _).
  unfold well_declared. cbv zeta. rewrite E1, E2, E3, Ev in *. rewrite R1, R2, R3.
  split; [constructor; [exact D1|constructor; [exact D2|constructor; [exact D3|constructor]]]|].
  split; [exact Hv|]. auto.
Qed.
