(** * ProofsDay: the placement loop and one day of one appliance (C12-C24) *)
From Verif Require Import Base Wp Utils ListLemmas Appliance Spec SpecDay ProofsUtils ProofsAppliance
  ProofsEvent ProofsEvent2.
From Coq Require Import ZifyBool ZifyNat.

Lemma ev_total_app l l' : ev_total (l ++ l') = ev_total l + ev_total l'.
Proof. unfold ev_total. induction l; cbn [fold_right app]; lia. Qed.

Lemma last_event_snoc t evs e :
  last_event t (evs ++ [e]) = if ev_covers t e then Some e else last_event t evs.
Proof. unfold last_event. rewrite rev_app_distr. cbn. reflexivity. Qed.

Lemma existsb_arange t a b : existsb (Z.eqb t) (arange a b) = (a <=? t) && (t <? b).
Proof.
  apply eq_true_iff_eq. rewrite existsb_exists. split.
  - intros (x & Hx & E). apply in_arange in Hx. lia.
  - intros H. exists t. split; [apply in_arange; lia|lia].
Qed.

(** ** use_event *)

Definition same_cycles (d d' : dyn) : Prop :=
  random_cycle1 d' = random_cycle1 d /\ random_cycle2 d' = random_cycle2 d /\
  random_cycle3 d' = random_cycle3 d.

Lemma same_cycles_of d d' i : same_cycles d d' -> cycle_of d' i = cycle_of d i.
Proof. intros (H1 & H2 & H3). unfold cycle_of. now rewrite H1, H2, H3. Qed.

Definition values_ok (F : fm) (a : appliance) (d : dyn) (pw : Q) (c : Z) (vals : list Q) : Prop :=
  if fixed_cycle (par a) >? 0 then
    let i := current_duty_cycle_id d in
    vals = if (i =? 1) || (i =? 2) || (i =? 3)
           then map (fun x => fmul F x (zq c)) (cycle_of d i) else []
  else exists v, vals = [v] /\
         may (random_variation F (thermal_p_var (par a)) (fmul F (zq c) pw)) (Ok v).

Lemma coincidence_err F a inside :
  wp (calc_coincident_switch_on F a inside)
     (fun r => (exists c, r = Ok c) \/ (r = Err ZeroDivisionError /\ number (par a) = 0)).
Proof.
  unfold calc_coincident_switch_on.
  destruct inside; destruct (String.eqb (fixed (par a)) "no"); cbn [andb negb]; cbn; eauto.
  destruct (number (par a) =? 0) eqn:E; cbn; [right; split; [reflexivity|lia]|eauto].
Qed.

Lemma update_daily_use_spec F a d c pw s n :
  zlen (daily_use d) = 1440 -> 0 <= s -> 0 < n -> s + n <= 1440 ->
  wp (update_daily_use F a d c pw (arange s (s + n)))
     (fun r => exists d' vals, r = Ok (d', vals) /\ values_ok F a d pw c vals /\
        zlen (daily_use d') = 1440 /\
        (forall t, 0 <= t -> at_minute t (daily_use d') =
           if (s <=? t) && (t <? s + n) && negb (zlen vals =? 0)
           then nth (Z.to_nat ((t - s) mod zlen vals)) vals 0%Q else at_minute t (daily_use d)) /\
        free_spots d' = book_spot (free_spots d) s (s + n - 1) /\
        same_cycles d d' /\ current_duty_cycle_id d' = current_duty_cycle_id d).
Proof.
  intros Hd Hs Hn Hsn. unfold update_daily_use. apply wp_bind_ok.
  apply wp_mono with (Q := fun r => exists vals, r = Ok vals /\ values_ok F a d pw c vals).
  - intros r (vals & -> & Hv). cbn [wpk]. apply wp_bind_ok. rewrite wp_lift.
    assert (Hput : exists du, np_put (daily_use d) (arange s (s + n)) vals = Ok du /\ zlen du = 1440 /\
      forall t, 0 <= t -> at_minute t du =
           if (s <=? t) && (t <? s + n) && negb (zlen vals =? 0)
           then nth (Z.to_nat ((t - s) mod zlen vals)) vals 0%Q else at_minute t (daily_use d)).
    { destruct vals as [|v vs].
      - exists (daily_use d). split; [reflexivity|]. split; [exact Hd|]. intros t Ht.
        rewrite zlen_nil. cbn [Z.eqb negb]. now rewrite andb_false_r.
      - destruct (np_put_arange (daily_use d) s (s + n) (v :: vs)) as (du & H1 & H2 & H3); [lia|lia|discriminate|].
        exists du. split; [exact H1|]. split; [lia|]. intros t Ht. rewrite H3 by exact Ht.
        replace (negb (zlen (v :: vs) =? 0)) with true
          by (rewrite zlen_cons; pose proof (zlen_nonneg vs); lia).
        rewrite andb_true_r. destruct ((s <=? t) && (t <? s + n)) eqn:E; [|reflexivity].
        f_equal. unfold zlen. rewrite <- (Z2Nat.id (t - s)) at 2 by lia.
        rewrite <- Nat2Z.inj_mod. now rewrite Nat2Z.id. }
    destruct Hput as (du & -> & Hlen & Hat). cbn [wpk].
    assert (Hup : update_available_time (free_spots d) (arange s (s + n))
                  = Ok (book_spot (free_spots d) s (s + n - 1))).
    { unfold update_available_time. destruct (free_spots d) as [|f fs]; [reflexivity|].
      rewrite py_first_arange by lia. rewrite py_last_arange by lia. reflexivity. }
    apply wp_bind_ok. rewrite wp_lift. rewrite Hup. cbn [wpk wp].
    eexists; eexists; split; [reflexivity|].
    cbn [daily_use free_spots set_free_spots set_daily_use random_cycle1 random_cycle2 random_cycle3
         current_duty_cycle_id].
    split; [exact Hv|]. split; [exact Hlen|]. split; [exact Hat|]. split; [reflexivity|].
    split; [|reflexivity]. repeat split.
  - unfold values_ok. destruct (fixed_cycle (par a) >? 0).
    + cbv zeta. destruct (_ || _); cbn [wp]; eauto.
    + apply wp_bind_ok. apply wp_may. intros r Hr.
      pose proof (random_variation_total F (thermal_p_var (par a)) (fmul F (zq c) pw)) as Ht.
      destruct (wp_elim _ _ _ Ht Hr) as (v & ->). cbn [wpk wp]. eauto.
Qed.

Definition coincidence_ok (F : fm) (a : appliance) (peak : list Z) (s n c : Z) : Prop :=
  exists p0 pl, py_first peak = Ok p0 /\ py_last peak = Ok pl /\
    may (calc_coincident_switch_on F a (within_peak_time_window s (s + n - 1) p0 pl)) (Ok c).

Lemma use_event_spec F a d peak pw s n :
  zlen (daily_use d) = 1440 -> 0 <= s -> 0 < n -> s + n <= 1440 ->
  wp (use_event F a d peak pw (arange s (s + n)))
     (fun r =>
        (r = Err IndexError /\ peak = []) \/ (r = Err ZeroDivisionError /\ number (par a) = 0) \/
        exists d' c vals, r = Ok (d', Event (arange s (s + n)) c (current_duty_cycle_id d) vals) /\
        coincidence_ok F a peak s n c /\ values_ok F a d pw c vals /\
        zlen (daily_use d') = 1440 /\
        (forall t, 0 <= t -> at_minute t (daily_use d') =
           if (s <=? t) && (t <? s + n) && negb (zlen vals =? 0)
           then nth (Z.to_nat ((t - s) mod zlen vals)) vals 0%Q else at_minute t (daily_use d)) /\
        free_spots d' = book_spot (free_spots d) s (s + n - 1) /\
        same_cycles d d' /\ current_duty_cycle_id d' = current_duty_cycle_id d).
Proof.
  intros Hd Hs Hn Hsn. unfold use_event.
  rewrite py_first_arange by lia. rewrite py_last_arange by lia. cbn [lift bind].
  destruct (py_first peak) as [p0|e0] eqn:E0; cbn [lift bind wp].
  2: { left. destruct peak; [split; [|reflexivity]; cbn in E0; congruence|discriminate]. }
  destruct (py_last peak) as [pl|e1] eqn:E1; cbn [lift bind wp].
  2: { destruct peak; cbn in *; discriminate. }
  apply wp_bind_ok. apply wp_may. intros r Hr.
  destruct (wp_elim _ _ _ (coincidence_err F a _) Hr) as [(c & ->)|[-> Hz]]; cbn [wpk].
  2: { right; left; auto. }
  apply wp_bind_ok. eapply wp_mono; [|apply update_daily_use_spec; assumption].
  intros r (d' & vals & -> & H1 & H2 & H3 & H4 & H5 & H6). cbn [wpk wp fst snd].
  right; right. exists d', c, vals. split; [reflexivity|].
  split; [exists p0, pl; auto|]. auto 8.
Qed.

(** for any state and indexes: a successful use_event had at least one index *)
Lemma use_event_general F a d peak pw indexes :
  wp (use_event F a d peak pw indexes)
     (fun r => match r with
               | Ok (d', e) => ev_indexes e = indexes /\ 1 <= zlen indexes
               | Err e => e <> OutOfFuel
               end).
Proof.
  unfold use_event. destruct indexes as [|i0 rest]; [cbn; discriminate|].
  cbn [py_first py_last lift bind].
  destruct (py_first peak) as [p0|e0] eqn:E0; cbn [lift bind wp].
  2: { destruct peak; cbn in E0; congruence. }
  destruct (py_last peak) as [pl|e1] eqn:E1; cbn [lift bind wp].
  2: { destruct peak; cbn in E1; congruence. }
  apply wp_bind_ok. eapply wp_mono; [|apply coincidence_err].
  intros r [(c & ->)|[-> _]]; cbn [wpk]; [|discriminate].
  unfold update_daily_use. apply wp_bind_ok. apply wp_bind_ok.
  apply wp_mono with (Q := fun r => exists vals, r = Ok vals).
  - intros r (vals & ->). cbn [wpk]. apply wp_bind_ok. rewrite wp_lift.
    destruct (np_put _ _ vals) as [du|e] eqn:Ep; cbn [wpk].
    + apply wp_bind_ok. rewrite wp_lift.
      destruct (update_available_time _ _) as [fs|e] eqn:Eu; cbn [wp wpk ev_indexes fst snd].
      * split; [reflexivity|]. rewrite zlen_cons. pose proof (zlen_nonneg rest). lia.
      * unfold update_available_time in Eu. destruct (free_spots d); cbn in Eu; congruence.
    + assert (forall l j dd e', np_put_from j dd l vals = Err e' -> e' = IndexError) as Hput.
      { induction l as [|x l IH]; intros j dd e' Hl; cbn [np_put_from] in Hl; [discriminate|].
        match type of Hl with (if ?b then _ else _) = _ => destruct b end; [congruence|eauto]. }
      unfold np_put in Ep. destruct vals; [discriminate|]. apply Hput in Ep. subst e. discriminate.
  - destruct (fixed_cycle (par a) >? 0).
    + cbv zeta. destruct (_ || _); cbn [wp]; eauto.
    + apply wp_bind_ok. eapply wp_mono; [|apply random_variation_total]. intros r (v & ->); cbn; eauto.
Qed.

(** rand_switch_on_window never reports exhausted loop fuel *)
Lemma rsw_not_fuel depth F a d rand_time :
  wp (rand_switch_on_window depth F a d rand_time) (fun r => r <> Err OutOfFuel).
Proof.
  induction depth as [|depth IH]; [cbn; discriminate|].
  rewrite rsw_unfold. cbv zeta. destruct (_ >? 0); [|cbn; discriminate].
  apply wp_bind_ok. apply wp_randint; [intros; cbn; discriminate|]. intros j Hj. cbn [wpk].
  apply wp_bind_ok. rewrite wp_lift. destruct (py_index _ _) as [x|e] eqn:E; cbn [wpk].
  2: { apply py_index_err in E; subst; discriminate. }
  destruct (find_spot _ _ _) as [spot|]; [|cbn; discriminate].
  assert (Hc : forall ix, wp (choose_cycle depth F a d rand_time ix) (fun r => r <> Err OutOfFuel)).
  { intros ix. unfold choose_cycle. destruct (_ >? 0); [|cbn; discriminate].
    destruct (py_first ix) as [lo|e] eqn:E1; cbn [lift bind wp].
    2: { destruct ix; cbn in E1; congruence. }
    destruct (py_last ix) as [hi|e] eqn:E2; cbn [lift bind wp].
    2: { destruct ix; cbn in E2; congruence. }
    destruct (select_cycle a lo hi); [cbn; discriminate|exact IH]. }
  apply wp_bind_ok. unfold draw_indexes. destruct (_ >? _).
  - apply wp_bind_ok. apply wp_uniform. intros u H0 H1. cbn [wpk wp]. apply Hc.
  - destruct (_ =? _); cbn [wp wpk]; [apply Hc|discriminate].
Qed.

(** ** The loop, for any parameters (C23) *)

Lemma use_loop_general F depth a peak pw rand_time : forall fuel tot d evs,
  Z.max 0 (rand_time - tot + 1) + 1 <= Z.of_nat fuel ->
  wp (use_loop fuel depth F a peak pw rand_time tot d evs)
     (fun r => match r with
               | Ok (d', evs') => exists new, evs' = evs ++ new /\
                    Forall (fun e => 1 <= ev_dur e) new /\
                    ev_total new <= Z.max 0 (rand_time - tot)
               | Err e => e <> OutOfFuel
               end).
Proof.
  induction fuel as [|fuel IH]; intros tot d evs Hf; [lia|].
  cbn [use_loop].
  assert (Hnil : exists new, evs = evs ++ new /\ Forall (fun e => 1 <= ev_dur e) new /\
                    ev_total new <= Z.max 0 (rand_time - tot)).
  { exists []. rewrite app_nil_r. split; [reflexivity|]. split; [constructor|cbn; lia]. }
  destruct ((tot <=? rand_time) && negb (rand_time =? 0)) eqn:Ec; [|exact Hnil].
  apply wp_bind_ok. eapply wp_mono; [|apply rsw_not_fuel].
  intros [[[ix|] d1]|e] Hr; cbn [wpk fst snd]; [|exact Hnil|congruence].
  destruct (tot + zlen ix >? rand_time) eqn:Et.
  - set (adj := firstn _ ix). destruct (zlen adj >? 0) eqn:Ea; [|exact Hnil].
    apply wp_bind_ok. eapply wp_mono; [|apply use_event_general].
    intros [[d' e]|e] He; cbn [wpk wp fst snd]; [|exact He].
    destruct He as [He1 He2]. exists [e]. split; [reflexivity|]. split.
    + constructor; [unfold ev_dur; rewrite He1; lia|constructor].
    + cbn [ev_total fold_right]. unfold ev_dur. rewrite He1. unfold adj. rewrite zlen_firstn. lia.
  - apply wp_bind_ok. eapply wp_mono; [|apply use_event_general].
    intros [[d' e]|e] He; cbn [wpk wp fst snd]; [|exact He].
    destruct He as [He1 He2]. pose proof (zlen_nonneg ix).
    eapply wp_mono; [|apply IH; lia].
    intros [[d2 evs2]|e2] H2; [|exact H2].
    destruct H2 as (new & -> & H3 & H4). exists (e :: new). rewrite <- app_assoc.
    split; [reflexivity|]. split; [constructor; [unfold ev_dur; rewrite He1; lia|exact H3]|].
    cbn [ev_total fold_right]. fold (ev_total new). unfold ev_dur at 1. rewrite He1. lia.
Qed.

(** ** The loop invariant *)

(** one booked event: a run of minutes inside one randomised window, the number of appliances
    that are on, and the power values *)
Definition ev_ok (F : fm) (a : appliance) (peak : list Z) (pw : Q) (rws : list (Z * Z))
    (rand_time : Z) (cyc : Z -> list Q) (e : event) : Prop :=
  exists s n n0,
    ev_indexes e = arange s (s + n) /\ 1 <= n <= n0 /\ n0 <= rand_time /\ func_cycle (par a) <= n0 /\
    (exists rw, In rw rws /\ fst rw <= s /\ s + n0 <= snd rw) /\
    coincidence_ok F a peak s n (ev_coincidence e) /\
    (if fixed_cycle (par a) >? 0 then
       (ev_cycle e = 1 \/ ev_cycle e = 2 \/ ev_cycle e = 3) /\
       select_cycle a s (s + n0 - 1) = Some (ev_cycle e) /\
       ev_values e = map (fun x => fmul F x (zq (ev_coincidence e))) (cyc (ev_cycle e)) /\
       (continuous_duty_cycle (par a) = 0 -> n <= zlen (cyc (ev_cycle e)))
     else exists v, ev_values e = [v] /\
       may (random_variation F (thermal_p_var (par a)) (fmul F (zq (ev_coincidence e)) pw)) (Ok v)).

Record inv (F : fm) (a : appliance) (peak : list Z) (pw : Q) (rws : list (Z * Z)) (rand_time : Z)
    (cyc : Z -> list Q) (base : Z -> Q) (d : dyn) (evs : list event) (tot : Z) : Prop := Inv {
  inv_len : zlen (daily_use d) = 1440;
  inv_over : forall t, 0 <= t < 1440 -> at_minute t (daily_use d) = overlay base evs t;
  inv_cyc : forall i, cycle_of d i = cyc i;
  inv_spots : forall w, In w (free_spots d) -> exists rw, In rw rws /\ fst rw <= fst w /\ snd w <= snd rw;
  inv_ev : Forall (ev_ok F a peak pw rws rand_time cyc) evs;
  inv_tot : ev_total evs = tot
}.

Lemma select_cycle_range a lo hi i : select_cycle a lo hi = Some i -> i = 1 \/ i = 2 \/ i = 3.
Proof.
  unfold select_cycle. cbv zeta. destruct (_ || _); [intros H; injection H; lia|].
  destruct (_ || _); [intros H; injection H; lia|].
  destruct (_ || _); [intros H; injection H; lia|discriminate].
Qed.

(** one event preserves the invariant *)
Lemma inv_step F a peak pw rws rand_time cyc base d evs tot s n n0 d1 d' c vals spot :
  Forall inside_day rws ->
  inv F a peak pw rws rand_time cyc base d evs tot ->
  In spot (free_spots d) -> fst spot <= s -> s + n0 <= snd spot ->
  func_cycle (par a) <= n0 <= rand_time -> 1 <= n <= n0 ->
  (if fixed_cycle (par a) >? 0
   then exists i, select_cycle a s (s + n0 - 1) = Some i /\ d1 = set_duty_id d i /\
          (continuous_duty_cycle (par a) = 0 -> n <= zlen (cycle_of d i))
   else d1 = d) ->
  coincidence_ok F a peak s n c -> values_ok F a d1 pw c vals ->
  zlen (daily_use d') = 1440 ->
  (forall t, 0 <= t -> at_minute t (daily_use d') =
           if (s <=? t) && (t <? s + n) && negb (zlen vals =? 0)
           then nth (Z.to_nat ((t - s) mod zlen vals)) vals 0%Q else at_minute t (daily_use d1)) ->
  free_spots d' = book_spot (free_spots d1) s (s + n - 1) ->
  same_cycles d1 d' ->
  inv F a peak pw rws rand_time cyc base d'
      (evs ++ [Event (arange s (s + n)) c (current_duty_cycle_id d1) vals]) (tot + n).
Proof.
  intros Hday HI Hspot Hs1 Hs2 Hn0 Hn Hd1 Hco Hvals Hlen Hat Hfs Hcyc.
  destruct HI as [I1 I2 I3 I4 I5 I6].
  assert (Edu : daily_use d1 = daily_use d /\ free_spots d1 = free_spots d /\ same_cycles d d1).
  { destruct (fixed_cycle (par a) >? 0).
    - destruct Hd1 as (i & _ & -> & _). repeat split.
    - subst d1. repeat split. }
  destruct Edu as (Edu & Efs & Ecy).
  set (e := Event _ _ _ _).
  constructor.
  - exact Hlen.
  - intros t Ht. unfold overlay. rewrite last_event_snoc.
    assert (Ecov : ev_covers t e = (s <=? t) && (t <? s + n) && negb (zlen vals =? 0)).
    { unfold ev_covers, e; cbn [ev_indexes ev_values]. now rewrite existsb_arange. }
    rewrite Ecov. rewrite Hat by lia.
    destruct ((s <=? t) && (t <? s + n) && negb (zlen vals =? 0)).
    + unfold ev_power, ev_start, e; cbn [ev_indexes ev_values].
      rewrite arange_cons by lia. reflexivity.
    + rewrite Edu. apply I2; exact Ht.
  - intros i. rewrite (same_cycles_of _ _ i Hcyc), (same_cycles_of _ _ i Ecy). apply I3.
  - intros w Hw. rewrite Hfs, Efs in Hw.
    destruct (book_spot_inside (free_spots d) s (s + n - 1) w ltac:(lia) Hw) as (w0 & G0 & G1 & G2).
    destruct (I4 w0 G0) as (rw & R0 & R1 & R2). exists rw. split; [exact R0|lia].
  - apply Forall_app. split; [exact I5|]. constructor; [|constructor].
    destruct (I4 spot Hspot) as (rw & R0 & R1 & R2).
    exists s, n, n0. split; [reflexivity|]. split; [lia|]. split; [lia|]. split; [lia|].
    split; [exists rw; split; [exact R0|lia]|]. split; [exact Hco|].
    unfold values_ok in Hvals. unfold e; cbn [ev_cycle ev_values ev_coincidence].
    destruct (fixed_cycle (par a) >? 0).
    + destruct Hd1 as (i & Hi & -> & Hdur). cbn [set_duty_id current_duty_cycle_id] in *.
      pose proof (select_cycle_range _ _ _ _ Hi) as Hr.
      split; [exact Hr|]. split; [exact Hi|]. split.
      * rewrite Hvals. replace ((i =? 1) || (i =? 2) || (i =? 3)) with true by lia.
        f_equal. rewrite (same_cycles_of _ _ i Ecy). apply I3.
      * intros Hc. rewrite <- I3. auto.
    + exact Hvals.
  - rewrite ev_total_app, I6. unfold e. cbn [ev_total fold_right ev_indexes]. unfold ev_dur; cbn [ev_indexes].
    rewrite zlen_arange. lia.
Qed.

(** no free range of func_cycle minutes is left *)
Definition no_room (fc : Z) (spots : list (Z * Z)) : Prop := forall s, In s spots -> snd s - fst s < fc.

(** each event lasts at least func_cycle minutes, but for the last one when it was cut to reach
    rand_time; with duty cycles run once per event the bound is relaxed to 1 minute *)
Definition dur_ok (a : appliance) (rand_time : Z) (evs : list event) : Prop :=
  (fixed_cycle (par a) <= 0 \/ continuous_duty_cycle (par a) <> 0) ->
  Forall (fun e => func_cycle (par a) <= ev_dur e) evs \/
  exists evs' e, evs = evs' ++ [e] /\ Forall (fun e => func_cycle (par a) <= ev_dur e) evs' /\
    ev_total evs = rand_time.

(** extra invariant when the windows are apart *)
Record inv_sep (rws : list (Z * Z)) (d : dyn) (evs : list event) : Prop := InvSep {
  is_sep : separated (free_spots d);
  is_free : forall t, minute_in_some t (free_spots d) <->
              (minute_in_some t rws /\ forall e, In e evs -> ~ In t (ev_indexes e));
  is_dis : no_overlap evs
}.

Lemma ForallOrdPairs_snoc {A} (R : A -> A -> Prop) l x :
  ForallOrdPairs R l -> Forall (fun y => R y x) l -> ForallOrdPairs R (l ++ [x]).
Proof.
  induction 1 as [|y l Hy Hl IH]; intros Hx; cbn.
  - repeat constructor.
  - apply Forall_cons_iff in Hx. destruct Hx as [Hyx Hx]. constructor.
    + apply Forall_app. split; [exact Hy|]. constructor; [exact Hyx|constructor].
    + auto.
Qed.

Lemma inv_sep_step rws d evs s n n0 d' spot e :
  inv_sep rws d evs -> In spot (free_spots d) -> fst spot <= s -> s + n0 <= snd spot -> 1 <= n <= n0 ->
  ev_indexes e = arange s (s + n) ->
  free_spots d' = book_spot (free_spots d) s (s + n - 1) ->
  inv_sep rws d' (evs ++ [e]).
Proof.
  intros [S1 S2 S3] Hspot Hs1 Hs2 Hn He Hfs. constructor.
  - rewrite Hfs. apply book_spot_separated; [lia|exact S1].
  - intros t. rewrite Hfs.
    rewrite (book_spot_free (free_spots d) s (s + n - 1) ltac:(lia) S1); [|exists spot; split; [exact Hspot|lia]].
    rewrite S2. setoid_rewrite in_app_iff. split.
    + intros [[H1 H2] H3]. split; [exact H1|]. intros e' [H4|[<-|[]]]; [auto|].
      rewrite He, in_arange. lia.
    + intros [H1 H2]. split; [split; [exact H1|auto]|].
      intros Hc. apply (H2 e); [right; left; reflexivity|]. rewrite He, in_arange. lia.
  - apply ForallOrdPairs_snoc; [exact S3|]. apply Forall_forall. intros e' He' t Ht Ht'.
    rewrite He, in_arange in Ht'.
    assert (Hfree : minute_in_some t (free_spots d)).
    { exists spot. split; [exact Hspot|]. unfold minute_in. lia. }
    apply S2 in Hfree. destruct Hfree as [_ Hfree]. exact (Hfree e' He' Ht).
Qed.

Definition sane_loop (a : appliance) (rand_time : Z) : Prop :=
  0 <= func_cycle (par a) <= rand_time /\ rand_time <= 2 ^ 52.

(** errors the loop can produce, with their causes *)
Definition loop_err (depth : nat) (a : appliance) (peak : list Z) (rws : list (Z * Z)) (d : dyn) (e : exc) : Prop :=
  (e = RecursionError /\ (depth = O \/ cycle_miss a rws)) \/
  (e = IndexError /\ (peak = [] \/ func_cycle (par a) = 0 \/
     (fixed_cycle (par a) > 0 /\ continuous_duty_cycle (par a) = 0 /\
      exists i, (i = 1 \/ i = 2 \/ i = 3) /\ cycle_of d i = []))) \/
  (e = ZeroDivisionError /\ number (par a) = 0).

Lemma use_loop_inv F depth a peak pw rws rand_time cyc base (Psep : Prop) :
  Forall inside_day rws -> sane_loop a rand_time ->
  forall fuel tot d evs,
  inv F a peak pw rws rand_time cyc base d evs tot ->
  (Psep -> inv_sep rws d evs) ->
  Forall (fun e => func_cycle (par a) <= ev_dur e) evs \/
    (fixed_cycle (par a) > 0 /\ continuous_duty_cycle (par a) = 0) ->
  0 <= tot <= rand_time ->
  wp (use_loop fuel depth F a peak pw rand_time tot d evs)
     (fun r =>
        r = Err OutOfFuel \/
        (exists e, r = Err e /\ loop_err depth a peak rws d e) \/
        exists d' evs' tot', r = Ok (d', evs') /\
          inv F a peak pw rws rand_time cyc base d' evs' tot' /\
          (Psep -> inv_sep rws d' evs') /\
          dur_ok a rand_time evs' /\ 0 <= tot' <= rand_time /\
          (tot' = rand_time \/ no_room (func_cycle (par a)) (free_spots d'))).
Proof.
  intros Hday [Hfc Hrt]. induction fuel as [|fuel IH]; intros tot d evs HI HS Hdur Htot; [left; reflexivity|].
  assert (Hdur0 : dur_ok a rand_time evs).
  { intros Hc. destruct Hdur as [Hdur|[G1 G2]]; [left; exact Hdur|exfalso; lia]. }
  cbn [use_loop].
  destruct ((tot <=? rand_time) && negb (rand_time =? 0)) eqn:Ec.
  2: { cbn [wp]. right; right. exists d, evs, tot. split; [reflexivity|]. split; [exact HI|].
       split; [exact HS|]. split; [exact Hdur0|]. split; [lia|left; lia]. }
  apply wp_bind_ok. eapply wp_mono; [|apply rsw_spec; [exact Hfc|exact Hrt]].
  intros r [[-> Hr]|[[-> Hr]|[[-> Hr]|(ix & d1 & -> & Hr)]]]; cbn [wpk fst snd].
  { right; left. eexists; split; [reflexivity|]. left. split; [reflexivity|].
    destruct Hr as [Hr|(Hf & spot & s & n & G0 & G1 & G2 & G3 & G4)]; [left; exact Hr|right].
    split; [exact Hf|].
    destruct (inv_spots _ _ _ _ _ _ _ _ _ _ _ HI spot G0) as (rw & R0 & R1 & R2).
    exists rw, s, n. split; [exact R0|]. split; [lia|]. split; [lia|]. auto. }
  { right; left. eexists; split; [reflexivity|]. right; left. tauto. }
  { cbn [wp]. right; right. exists d, evs, tot. split; [reflexivity|]. split; [exact HI|].
    split; [exact HS|]. split; [exact Hdur0|]. split; [lia|right; exact Hr]. }
  destruct Hr as (spot & s & n & n0 & Hspot & Hs1 & Hs2 & Hn0 & -> & Hn & Hcase).
  destruct (inv_spots _ _ _ _ _ _ _ _ _ _ _ HI spot Hspot) as (rw & R0 & R1 & R2).
  rewrite Forall_forall in Hday. pose proof (Hday rw R0) as [D0 D1]. rewrite <- Forall_forall in Hday.
  assert (Edu : zlen (daily_use d1) = 1440 /\ free_spots d1 = free_spots d /\ same_cycles d d1).
  { pose proof (inv_len _ _ _ _ _ _ _ _ _ _ _ HI) as HL.
    destruct (fixed_cycle (par a) >? 0).
    - destruct Hcase as (i & _ & _ & -> & _). repeat split; exact HL.
    - destruct Hcase as [-> _]. repeat split; exact HL. }
  destruct Edu as (Edu & Efs & Ecy).
  rewrite zlen_arange. replace (Z.max 0 (s + n - s)) with n by lia.
  assert (Hstep : forall m d' c vals, 1 <= m <= n ->
    coincidence_ok F a peak s m c -> values_ok F a d1 pw c vals ->
    zlen (daily_use d') = 1440 ->
    (forall t, 0 <= t -> at_minute t (daily_use d') =
           if (s <=? t) && (t <? s + m) && negb (zlen vals =? 0)
           then nth (Z.to_nat ((t - s) mod zlen vals)) vals 0%Q else at_minute t (daily_use d1)) ->
    free_spots d' = book_spot (free_spots d1) s (s + m - 1) -> same_cycles d1 d' ->
    let e := Event (arange s (s + m)) c (current_duty_cycle_id d1) vals in
    inv F a peak pw rws rand_time cyc base d' (evs ++ [e]) (tot + m) /\
    (Psep -> inv_sep rws d' (evs ++ [e])) /\ ev_dur e = m).
  { intros m d' c vals Hm G1 G2 G3 G4 G5 G6 e. split; [|split].
    - apply (inv_step F a peak pw rws rand_time cyc base d evs tot s m n0 d1 d' c vals spot); auto; try lia.
      destruct (fixed_cycle (par a) >? 0).
      + destruct Hcase as (i & Hn0' & Hi & Hd1 & Hnn). exists i. split; [exact Hi|]. split; [exact Hd1|].
        intros Hc. rewrite Hnn in Hm.
        destruct ((n0 >? zlen (cycle_of d i)) && (continuous_duty_cycle (par a) =? 0)) eqn:Ez; lia.
      + tauto.
    - intros HP. apply (inv_sep_step rws d evs s m n0 d' spot e (HS HP)); auto; try lia.
      rewrite G5, Efs. reflexivity.
    - unfold e, ev_dur; cbn [ev_indexes]. rewrite zlen_arange. lia. }
  destruct (Z_lt_le_dec 0 n) as [Hnpos|Hnzero].
  - destruct (tot + n >? rand_time) eqn:Et.
    + rewrite firstn_arange.
      replace (Z.min (s + n) (s + Z.of_nat (Z.to_nat (n - (tot + n - rand_time)))))
        with (s + (rand_time - tot)) by lia.
      rewrite zlen_arange.
      destruct (Z.max 0 (s + (rand_time - tot) - s) >? 0) eqn:Ea.
      * apply wp_bind_ok. eapply wp_mono; [|apply use_event_spec; [exact Edu|lia|lia|lia]].
        intros r [[-> Hr]|[[-> Hr]|(d' & c & vals & -> & G1 & G2 & G3 & G4 & G5 & G6 & G7)]]; cbn [wpk wp fst snd].
        { right; left. eexists; split; [reflexivity|]. right; left; auto. }
        { right; left. eexists; split; [reflexivity|]. right; right; auto. }
        right; right.
        destruct (Hstep (rand_time - tot) d' c vals) as (J1 & J2 & J3); auto; [lia|].
        eexists; eexists; exists (tot + (rand_time - tot)). split; [reflexivity|].
        split; [exact J1|]. split; [exact J2|]. split; [|split; [lia|left; lia]].
        intros Hc. destruct Hdur as [Hdur|[Q1 Q2]]; [|exfalso; lia]. right.
        eexists; eexists; split; [reflexivity|]. split; [exact Hdur|].
        rewrite (inv_tot _ _ _ _ _ _ _ _ _ _ _ J1). lia.
      * cbn [wp]. right; right.
        assert (Hd1 : inv F a peak pw rws rand_time cyc base d1 evs tot).
        { destruct HI as [I1 I2 I3 I4 I5 I6]. constructor; auto.
          - intros t Ht. rewrite <- I2 by exact Ht.
            destruct (fixed_cycle (par a) >? 0); [destruct Hcase as (i & _ & _ & -> & _)|destruct Hcase as [-> _]]; reflexivity.
          - intros i. rewrite (same_cycles_of _ _ i Ecy). apply I3.
          - intros w Hw. rewrite Efs in Hw. auto. }
        eexists; eexists; exists tot. split; [reflexivity|]. split; [exact Hd1|].
        split; [|split; [exact Hdur0|split; [lia|left; lia]]].
        intros HP. destruct (HS HP) as [S1 S2 S3]. constructor; rewrite ?Efs; auto.
    + apply wp_bind_ok. eapply wp_mono; [|apply use_event_spec; [exact Edu|lia|lia|lia]].
      intros r [[-> Hr]|[[-> Hr]|(d' & c & vals & -> & G1 & G2 & G3 & G4 & G5 & G6 & G7)]]; cbn [wpk wp fst snd].
      { right; left. eexists; split; [reflexivity|]. right; left; auto. }
      { right; left. eexists; split; [reflexivity|]. right; right; auto. }
      destruct (Hstep n d' c vals) as (J1 & J2 & J3); auto; [lia|].
      eapply wp_mono; [|apply IH; [exact J1|exact J2| |lia]].
      * intros r [H|[(e & -> & H)|H]]; [left; exact H| |right; right; exact H].
        right; left. exists e. split; [reflexivity|]. unfold loop_err in *.
        destruct H as [H|[[-> H]|H]]; [left; exact H| |right; right; exact H].
        right; left. split; [reflexivity|]. destruct H as [H|[H|(H1 & H2 & i & H3 & H4)]]; auto.
        right; right. split; [exact H1|]. split; [exact H2|]. exists i. split; [exact H3|].
        rewrite (same_cycles_of _ _ i G6), (same_cycles_of _ _ i Ecy) in H4. exact H4.
      * destruct Hdur as [Hdur|Hdur]; [|right; exact Hdur].
        destruct (Z_le_gt_dec (fixed_cycle (par a)) 0) as [Hf|Hf];
          [|destruct (Z.eq_dec (continuous_duty_cycle (par a)) 0) as [Hz|Hz]; [right; lia|]];
          left; apply Forall_app; (split; [exact Hdur|]); constructor; try constructor;
          rewrite J3; destruct (fixed_cycle (par a) >? 0) eqn:Ef; try lia.
        destruct Hcase as (i & _ & _ & _ & Hnn).
        replace (continuous_duty_cycle (par a) =? 0) with false in Hnn by lia.
        rewrite andb_false_r in Hnn. lia.
  - (* an empty event: indexes[0] raises *)
    assert (n = 0) by lia. subst n. replace (s + 0) with s by lia. rewrite (arange_nil s s) by lia.
    replace (tot + 0 >? rand_time) with false by lia.
    cbn [use_event py_first lift bind wp]. right; left. eexists; split; [reflexivity|].
    right; left. split; [reflexivity|].
    destruct (fixed_cycle (par a) >? 0) eqn:Ef.
    + destruct Hcase as (i & Hn0' & Hi & _ & Hnn). pose proof (select_cycle_range _ _ _ _ Hi) as Hr.
      destruct ((n0 >? zlen (cycle_of d i)) && (continuous_duty_cycle (par a) =? 0)) eqn:Ez; [|lia].
      right; right. split; [lia|]. split; [lia|]. exists i. split; [exact Hr|]. apply zlen_0; lia.
    + right; left. lia.
Qed.
