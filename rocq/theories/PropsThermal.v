(** * PropsThermal: the mean power of an appliance is its declared power times the mean number of pieces in use (C90) *)
From Verif Require PropsDayCases.
From Verif Require Import Base Wp Tape F64 Utils ListLemmas Appliance User Sim Spec SpecUser SpecDay ProofsAppliance ProofsEvent ProofsDay ProofsDay2 ProofsUser ProofsRun PropsBasic PropsDay
  Prob PropsProb.
From Coq Require Import ZifyBool ZifyNat.

(** ** Specification *)

(** the mean of a draw of random.uniform(1 - v, 1 + v), for a random() of [steps] values *)
Definition mean_factor (L : law) (v : Q) : Q := (1 - v / zq (steps L))%Q.

(** the number of pieces that are on at minute [t]: those of the event that covers it *)
Definition pieces_at (t : Z) (evs : list event) : Z :=
  match last_event t evs with Some e => ev_coincidence e | None => 0 end.
Definition pieces_on (t : Z) (tr : day_trace) : Z :=
  match tr with UsedDay _ _ evs => pieces_at t evs | _ => 0 end.

(** minute [t] is in a window of the day, and no event covers it *)
Definition idle (t : Z) (tr : day_trace) : bool :=
  match tr with
  | UsedDay rws _ evs => existsb (in_win t) rws && match last_event t evs with Some _ => false | None => true end
  | _ => false
  end.

(** ** Means *)

Lemma sum_below n : 0 <= n -> (Qsum (map zq (arange 0 n)) == zq n * (zq n - 1) * (1 # 2))%Q.
Proof.
  intros Hn. rewrite <- (Z2Nat.id n Hn). generalize (Z.to_nat n) as k. clear.
  induction k as [|k IH]; [reflexivity|].
  rewrite Nat2Z.inj_succ, <- Z.add_1_r. rewrite (arange_app 0 (Z.of_nat k) (Z.of_nat k + 1)) by lia. rewrite (arange_cons (Z.of_nat k)), (arange_nil (Z.of_nat k + 1)) by lia. rewrite map_app.
  assert (Happ : forall l x, (Qsum (l ++ [x]) == Qsum l + x)%Q).
  { induction l as [|y l IHl]; intros x; cbn [List.app]; rewrite ?qsum_cons; [change (Qsum []) with 0%Q; ring|]. rewrite IHl. ring. }
  cbn [map]. rewrite Happ, IH. unfold zq. rewrite inject_Z_plus. change (inject_Z 1) with 1%Q. ring.
Qed.

Lemma average_affine L (p q : Q) : (average (steps L) (fun i => p + q * (zq i / zq (steps L))) == p + q * (1 - 1 / zq (steps L)) * (1 # 2))%Q.
Proof.
  pose proof (steps_pos L) as Hm. pose proof (zq_pos _ Hm) as Hq.
  rewrite average_add, average_const by exact Hm.
  rewrite (average_ext _ _ (fun i => (q / zq (steps L)) * zq i)%Q) by (intros; field; lra).
  rewrite average_scale. unfold average. rewrite sum_below by lia. field. lra.
Qed.

(** the mean of random_variation *)
Theorem C90_variation F L v x : exact F ->
  (expect L (random_variation F v x) (fun r => match r with Ok y => y | Err _ => 0%Q end) == x * mean_factor L v)%Q.
Proof.
  intros HF. unfold random_variation, py_uniform. cbn [bind expect]. pose proof (zq_pos _ (steps_pos L)) as Hq.
  rewrite (average_ext _ _ (fun i => x * (1 - v) + x * (2 * v) * (zq i / zq (steps L)))%Q).
  - rewrite average_affine. unfold mean_factor. field. lra.
  - intros i _. unfold fmul, fadd, fsub. rewrite !(HF _). ring.
Qed.

Lemma Qle_of_eq (x y : Q) : (x == y)%Q -> (x <= y)%Q.
Proof. intros ->. apply Qle_refl. Qed.

(** ** One event *)

Section loop.
Variables (L : law) (depth : nat) (F : fm) (a : appliance) (peak : list Z) (pw : Q) (rand_time t : Z).
Hypothesis HF : exact F.
Hypothesis Hfx : fixed_cycle (par a) <= 0.

(** what is left of the power of the minute after the mean was taken off *)
Definition excess (evs : list event) : Q :=
  match last_event t evs with Some e => (ev_power e t - mean_factor L (thermal_p_var (par a)) * (zq (ev_coincidence e) * pw))%Q | None => 0%Q end.

Definition hits (idx : list Z) : bool := existsb (Z.eqb t) idx.

Lemma excess_snoc evs idx c id v :
  excess (evs ++ [Event idx c id [v]]) =
  if hits idx then (v - mean_factor L (thermal_p_var (par a)) * (zq c * pw))%Q else excess evs.
Proof.
  unfold excess. rewrite last_event_snoc. unfold ev_covers, hits. cbn [ev_indexes ev_values ev_coincidence].
  change (zlen [v]) with 1. cbn [Z.eqb negb]. rewrite andb_true_r. destruct (existsb (Z.eqb t) idx); [|reflexivity].
  unfold ev_power. cbn [ev_values]. change (zlen [v]) with 1. rewrite Z.mod_1_r. reflexivity.
Qed.

Lemma put_same v v' : forall idx j du du', zlen du = zlen du' ->
  match np_put_from j du idx [v], np_put_from j du' idx [v'] with
  | Ok x, Ok y => zlen x = zlen du /\ zlen y = zlen du'
  | Err e, Err e' => e = e'
  | _, _ => False
  end.
Proof.
  induction idx as [|i idx IH]; intros j du du' H; cbn [np_put_from]; [split; reflexivity|].
  rewrite <- H. set (i' := if i <? 0 then i + zlen du else i). destruct ((i' <? 0) || (zlen du <=? i')); [reflexivity|].
  assert (Hl : forall (l : list Q) k x, zlen (list_set l k x) = zlen l) by (intros; unfold zlen; now rewrite list_set_length).
  pose proof (IH (S j) (list_set du (Z.to_nat i') (nth (j mod List.length [v]) [v] 0%Q)) (list_set du' (Z.to_nat i') (nth (j mod List.length [v']) [v'] 0%Q))) as G.
  rewrite !Hl, <- H in G. exact (G eq_refl).
Qed.

(** the chance that an event leaves minute [t] alone, weighted by [g] of the free ranges that remain *)
Definition survive (idx : list Z) (fs : list (Z * Z)) (g : list (Z * Z) -> Q) : Q :=
  expect L (i0 <- lift (py_first idx) ;; il <- lift (py_last idx) ;; p0 <- lift (py_first peak) ;; pl <- lift (py_last peak) ;;
            c <- calc_coincident_switch_on F a (within_peak_time_window i0 il p0 pl) ;;
            du <- lift (np_put (zeros day_minutes) idx [0%Q]) ;;
            lift (update_available_time fs idx))
    (fun r => match r with Ok fs' => if hits idx then 0%Q else g fs' | Err _ => 0%Q end).

Lemma survive_event idx g d evs : zlen (daily_use d) = 1440 ->
  (expect L (use_event F a d peak pw idx)
     (fun r => match r with Ok (d', e) => (g (free_spots d') * excess (evs ++ [e]))%Q | Err _ => 0%Q end) ==
   survive idx (free_spots d) g * excess evs)%Q.
Proof.
  intros Hd. unfold survive, use_event.
  destruct (py_first idx) as [i0|e]; cbn [lift bind]; [|cbn [expect]; ring].
  destruct (py_last idx) as [il|e]; cbn [lift bind]; [|cbn [expect]; ring].
  destruct (py_first peak) as [p0|e]; cbn [lift bind]; [|cbn [expect]; ring].
  destruct (py_last peak) as [pl|e]; cbn [lift bind]; [|cbn [expect]; ring].
  rewrite !expect_bind. rewrite (Qmult_comm _ (excess evs)), <- expect_scale. apply expect_ext. intros [c|e] _; cbn [onward]; [|ring].
  unfold update_daily_use. replace (fixed_cycle (par a) >? 0) with false by lia.
  unfold random_variation, py_uniform. cbn [bind expect np_put].
  assert (Hp : forall v, match np_put (daily_use d) idx [v], np_put (zeros day_minutes) idx [0%Q] with
               | Ok x, Ok y => True | Err e, Err e' => True | _, _ => False end).
  { intros v. pose proof (put_same v 0%Q idx 0 (daily_use d) (zeros day_minutes)) as H. unfold np_put.
    destruct (np_put_from 0 (daily_use d) idx [v]), (np_put_from 0 (zeros day_minutes) idx [0%Q]); try exact I; apply H; rewrite Hd; reflexivity. }
  set (fv := fun i : Z => fmul F (fmul F (zq c) pw) (fadd F (fsub F 1 (thermal_p_var (par a))) (fmul F (fsub F (fadd F 1 (thermal_p_var (par a))) (fsub F 1 (thermal_p_var (par a)))) (zq i / zq (steps L))))).
  fold (np_put (zeros day_minutes) idx [0%Q]).
  rewrite (average_ext _ _ (fun i => match np_put (zeros day_minutes) idx [0%Q], update_available_time (free_spots d) idx with
     | Ok _, Ok fs => (g fs * (if hits idx then fv i - mean_factor L (thermal_p_var (par a)) * (zq c * pw) else excess evs))%Q
     | _, _ => 0%Q end)).
  2: { intros i _. fold (fv i). specialize (Hp (fv i)). fold (np_put (daily_use d) idx [fv i]).
       destruct (np_put (daily_use d) idx [fv i]) as [du|e], (np_put (zeros day_minutes) idx [0%Q]) as [du'|e']; try contradiction; cbn [lift bind expect]; [|reflexivity].
       destruct (update_available_time (free_spots d) idx) as [fs|e]; cbn [lift bind expect]; [|reflexivity].
       cbn [fst snd set_free_spots free_spots]. rewrite excess_snoc. reflexivity. }
  destruct (np_put (zeros day_minutes) idx [0%Q]) as [du'|e'], (update_available_time (free_spots d) idx) as [fs|e]; cbn [lift bind expect];
    try (rewrite average_const by apply steps_pos; ring).
  rewrite average_scale. destruct (hits idx).
  - pose proof (zq_pos _ (steps_pos L)) as Hq. set (v := thermal_p_var (par a)) in *.
    rewrite (average_ext _ _ (fun i => (zq c * pw * (1 - v) - mean_factor L v * (zq c * pw)) + zq c * pw * (2 * v) * (zq i / zq (steps L)))%Q).
    + rewrite average_affine. unfold mean_factor. field. lra.
    + intros i _. unfold fv, fmul, fadd, fsub. rewrite !(HF _). ring.
  - rewrite average_const by apply steps_pos. ring.
Qed.

Lemma event_keeps d idx d' e : may (use_event F a d peak pw idx) (Ok (d', e)) -> zlen (daily_use d) = 1440 -> zlen (daily_use d') = 1440.
Proof.
  intros H Hd. unfold use_event in H.
  destruct (py_first idx) as [i0|]; cbn [lift bind] in H; [|apply may_raise_inv in H; discriminate].
  destruct (py_last idx) as [il|]; cbn [lift bind] in H; [|apply may_raise_inv in H; discriminate].
  destruct (py_first peak) as [p0|]; cbn [lift bind] in H; [|apply may_raise_inv in H; discriminate].
  destruct (py_last peak) as [pl|]; cbn [lift bind] in H; [|apply may_raise_inv in H; discriminate].
  apply may_bind in H as [(c & _ & H)|(x & _ & [=])].
  apply may_bind in H as [([d2 vals] & H1 & H)|(x & _ & [=])]. apply may_ret_inv in H. cbn [fst snd] in H. injection H as -> ->.
  unfold update_daily_use in H1. replace (fixed_cycle (par a) >? 0) with false in H1 by lia.
  apply may_bind in H1 as [(vs & H0 & H1)|(x & _ & [=])].
  apply may_bind in H0 as [(v & _ & H0)|(x & _ & [=])]. apply may_ret_inv in H0. injection H0 as ->.
  apply may_bind in H1 as [(du & H0 & H1)|(x & _ & [=])].
  apply may_bind in H1 as [(fs & _ & H1)|(x & _ & [=])]. apply may_ret_inv in H1. injection H1 as -> ->.
  cbn [set_free_spots set_daily_use daily_use]. apply may_lift in H0.
  pose proof (put_same v v idx 0 (daily_use d) (daily_use d) eq_refl) as G. cbn [np_put] in H0. rewrite <- H0 in G. lia.
Qed.

(** ** The loop *)

Definition plain (fs : list (Z * Z)) : dyn := set_free_spots default_dyn fs.

Lemma pick_plain d : psim (fun x y => fst x = fst y /\ snd x = d) (rand_switch_on_window depth F a d rand_time)
  (rand_switch_on_window depth F a (plain (free_spots d)) rand_time).
Proof.
  destruct depth as [|dp]; [reflexivity|]. rewrite !rsw_unfold. cbv zeta.
  change (free_spots (plain (free_spots d))) with (free_spots d).
  destruct (_ >? 0); [|split; reflexivity].
  apply psim_bind with (R := eq); [apply psim_eq|]. intros j ? <-.
  apply psim_bind with (R := eq); [apply psim_eq|]. intros x ? <-.
  destruct (find_spot _ _ _); [|reflexivity].
  apply psim_bind with (R := eq); [apply psim_eq|]. intros idx ? <-.
  unfold choose_cycle. replace (fixed_cycle (par a) >? 0) with false by lia. split; reflexivity.
Qed.

Definition end_excess (r : res (dyn * list event)) : Q := match r with Ok x => excess (snd x) | Err _ => 0%Q end.

Lemma loop_excess fuel : exists s : Z -> list (Z * Z) -> Q, forall tot d evs, zlen (daily_use d) = 1440 ->
  (expect L (use_loop fuel depth F a peak pw rand_time tot d evs) end_excess == s tot (free_spots d) * excess evs)%Q.
Proof.
  induction fuel as [|fuel [s IH]].
  { exists (fun _ _ => 0%Q). intros. cbn [use_loop expect end_excess]. ring. }
  exists (fun tot fs => if (tot <=? rand_time) && negb (rand_time =? 0) then
    expect L (rand_switch_on_window depth F a (plain fs) rand_time) (fun r => match r with
      | Ok (None, _) => 1%Q
      | Ok (Some idx, _) =>
        let tot' := tot + zlen idx in
        if tot' >? rand_time then
          let adj := firstn (Z.to_nat (zlen idx - (tot' - rand_time))) idx in
          if zlen adj >? 0 then survive adj fs (fun _ => 1%Q) else 1%Q
        else survive idx fs (s tot')
      | Err _ => 0%Q end) else 1%Q).
  intros tot d evs Hd. cbn [use_loop]. destruct ((tot <=? rand_time) && negb (rand_time =? 0)); [|cbn [expect end_excess snd]; ring].
  rewrite (Qmult_comm _ (excess evs)), <- expect_scale, expect_bind.
  apply (expect_psim _ L _ _ _ _ (pick_plain d)); [|intros e; cbn [onward end_excess]; ring].
  intros [o d1] [o' d2] [E1 E2]. cbn [fst snd] in E1, E2. subst o' d1. cbn [onward fst snd].
  destruct o as [idx|]; [|cbn [expect end_excess snd]; ring]. cbv zeta.
  set (tot' := tot + zlen idx). destruct (tot' >? rand_time).
  - set (adj := firstn _ idx). destruct (zlen adj >? 0); [|cbn [expect end_excess snd]; ring].
    rewrite expect_bind, (Qmult_comm (excess evs)), <- (survive_event adj (fun _ => 1%Q) d evs Hd). apply expect_ext.
    intros [[d' e]|e] _; cbn [onward expect end_excess fst snd]; ring.
  - rewrite expect_bind, (Qmult_comm (excess evs)), <- (survive_event idx (s tot') d evs Hd). apply expect_ext.
    intros [[d' e]|e] Hr; cbn [onward end_excess]; [|ring]. cbn [fst snd]. apply IH.
    exact (event_keeps _ _ _ _ Hr Hd).
Qed.

End loop.

(** ** The day *)

Definition profile_value (t : Z) (r : res appliance) : Q := match r with Ok a' => value_at (daily_use (st a')) t | Err _ => 0%Q end.
Definition trace_value (g : day_trace -> Q) (r : res (dyn * day_trace)) : Q := match r with Ok (_, tr) => g tr | Err _ => 0%Q end.

(** The mean load of a minute is the declared power, times the mean number of pieces in use, plus the mask of the minutes of the
    windows that are not in use. *)
Theorem C90_mean_power L depth F a pref i peak dt pw t :
  exact F -> fixed_cycle (par a) <= 0 -> flat (par a) <> "yes"%string -> 0 <= func_cycle (par a) -> 0 <= t < 1440 ->
  let day := generate_load_profile_traced depth F a pref i peak dt pw in
  (expect L (generate_load_profile depth F a pref i peak dt pw) (profile_value t) ==
   mask_value F * expect L day (trace_value (fun tr => if idle t tr then 1 else 0)) +
   mean_factor L (thermal_p_var (par a)) * pw * expect L day (trace_value (fun tr => zq (pieces_on t tr))))%Q.
Proof.
  intros HF Hfx Hfl Hfc Ht day. unfold generate_load_profile. rewrite expect_bind. fold day.
  set (k := mean_factor L (thermal_p_var (par a))).
  rewrite (expect_ext L day _ (fun r =>
     (trace_value (fun tr => match tr with UsedDay _ _ evs => excess L a pw t evs | _ => 0 end) r +
      mask_value F * trace_value (fun tr => if idle t tr then 1 else 0) r) +
     (k * pw) * trace_value (fun tr => zq (pieces_on t tr)) r)%Q).
  - rewrite !expect_add, !expect_scale.
    assert (E : (expect L day (trace_value (fun tr => match tr with UsedDay _ _ evs => excess L a pw t evs | _ => 0 end)) == 0)%Q); [|rewrite E; ring].
    unfold day, generate_load_profile_traced. rewrite expect_bind.
    assert (H0 : forall A (p : prog A) f, (forall r, may p r -> (f r == 0)%Q) -> (expect L p f == 0)%Q).
    { intros A p f H. rewrite (expect_ext L p f (fun _ => 0 * 0)%Q); [|intros r Hr; rewrite H by exact Hr; ring].
      rewrite expect_scale. ring. }
    apply H0. intros [u|e] _; [|reflexivity]. cbn [onward]. destruct (skip_day a pref dt u); [reflexivity|].
    rewrite expect_bind. apply H0. intros [rw1|e] _; [|reflexivity]. cbn [onward].
    rewrite expect_bind. apply H0. intros [rw2|e] _; [|reflexivity]. cbn [onward].
    rewrite expect_bind. apply H0. intros [rw3|e] _; [|reflexivity]. cbn [onward].
    rewrite expect_bind. apply H0. intros [rt|e] _; [|reflexivity]. cbn [onward].
    replace (String.eqb (flat (par a)) "yes") with false by (symmetry; apply String.eqb_neq; exact Hfl).
    rewrite expect_bind. apply H0. intros [du|e] Hdu; [|reflexivity]. cbn [onward].
    unfold assign_random_cycles. replace (fixed_cycle (par a) >=? 1) with false by lia. cbn [bind]. rewrite expect_bind.
    destruct (loop_excess L depth F a peak pw rt t HF Hfx (Z.to_nat rt + 2)) as [s Hs].
    match goal with |- (expect L (use_loop _ _ _ _ _ _ _ _ ?d _) _ == 0)%Q => specialize (Hs 0 d []) end.
    rewrite (expect_ext L _ _ (end_excess L a pw t)); [rewrite Hs; [unfold excess; cbn; ring|]|].
    + cbn [set_free_spots set_daily_use daily_use]. apply may_lift in Hdu. cbn [set_daily_use daily_use] in Hdu.
      pose proof (fill_windows_len _ _ _ _ (eq_sym Hdu)) as Hl. unfold zlen. rewrite Hl. reflexivity.
    + intros [[d evs]|e] _; reflexivity.
  - intros [[d tr]|e] Hr; [|cbn [onward profile_value trace_value]; ring].
    cbn [onward expect profile_value trace_value set_st st fst]. destruct tr as [|rws rt|rws rt evs].
    + destruct (C13_non_flat_day depth F a pref i peak dt pw d _ Hfc Hfl Hr) as [[_ ->]|(? & ? & ? & [=])].
      cbn [idle pieces_on]. unfold value_at, zeros. rewrite nth_repeat. unfold zq. change (inject_Z 0) with 0%Q. ring.
    + destruct (C13_non_flat_day depth F a pref i peak dt pw d _ Hfc Hfl Hr) as [[[=] _]|(? & ? & ? & [=])].
    + destruct (C13_overlay depth F a pref i peak dt pw d rws rt evs Hfc Hr) as (_ & _ & _ & Hv). specialize (Hv t Ht).
      cbn [idle pieces_on]. unfold pieces_at, excess. destruct (last_event t evs) as [e|].
      * rewrite Hv, andb_false_r. fold k. ring.
      * destruct Hv as [H1 H2]. rewrite andb_true_r. unfold zq. change (inject_Z 0) with 0%Q.
        destruct (existsb (in_win t) rws) eqn:E.
        -- apply existsb_in_win in E. rewrite (H1 E). ring.
        -- rewrite H2; [ring|]. intros Hin. apply existsb_in_win in Hin. congruence.
Qed.

(** ** Neither the power nor its variability changes when the appliance is in use *)

Definition with_thermal (a : appliance) (v : Q) : appliance :=
  let p := par a in
  set_par a (Params (name p) (number p) (num_windows p) (func_time p) (time_var p) (func_cycle p)
    (fixed p) (fixed_cycle p) (continuous_duty_cycle p) (occasional_use p) (flat p) v (pref_index p) (wd_we_type p)).

Definition same_event (e e' : event) : Prop :=
  ev_indexes e = ev_indexes e' /\ ev_coincidence e = ev_coincidence e' /\ zlen (ev_values e) = zlen (ev_values e').

Lemma same_last t evs evs' : Forall2 same_event evs evs' ->
  match last_event t evs, last_event t evs' with Some e, Some e' => same_event e e' | None, None => True | _, _ => False end.
Proof.
  intros H. unfold last_event. assert (H' : Forall2 same_event (rev evs) (rev evs')).
  { induction H; [constructor|]. cbn [rev]. apply Forall2_app; [assumption|]. constructor; [assumption|constructor]. }
  clear H. induction H' as [|e e' l l' He Hl IH]; cbn [find]; [exact I|].
  assert (E : ev_covers t e = ev_covers t e') by (destruct He as (E1 & _ & E3); unfold ev_covers; rewrite E1, E3; reflexivity).
  rewrite <- E. destruct (ev_covers t e); [exact He|exact IH].
Qed.

Section two.
Variables (L : law) (depth : nat) (F : fm) (a : appliance) (peak : list Z) (v v' pw pw' : Q).
Hypothesis Hfx : fixed_cycle (par a) <= 0.
Let b := with_thermal a v.
Let b' := with_thermal a v'.

Definition alike (d d' : dyn) : Prop := zlen (daily_use d) = 1440 /\ zlen (daily_use d') = 1440 /\ free_spots d = free_spots d'.

Lemma event_alike d d' idx : alike d d' ->
  psim (fun x y => alike (fst x) (fst y) /\ same_event (snd x) (snd y)) (use_event F b d peak pw idx) (use_event F b' d' peak pw' idx).
Proof.
  intros (H1 & H2 & H3). unfold use_event.
  apply psim_bind with (R := eq); [apply psim_eq|]. intros i0 ? <-.
  apply psim_bind with (R := eq); [apply psim_eq|]. intros il ? <-.
  apply psim_bind with (R := eq); [apply psim_eq|]. intros p0 ? <-.
  apply psim_bind with (R := eq); [apply psim_eq|]. intros pl ? <-.
  apply psim_bind with (R := eq); [apply psim_eq|]. intros c ? <-.
  apply psim_bind with (R := fun x y : dyn * list Q => alike (fst x) (fst y) /\ zlen (snd x) = zlen (snd y)).
  - unfold update_daily_use. change (fixed_cycle (par b)) with (fixed_cycle (par a)). change (fixed_cycle (par b')) with (fixed_cycle (par a)).
    replace (fixed_cycle (par a) >? 0) with false by lia. unfold random_variation, py_uniform. cbn [bind psim]. intros u. cbn [np_put].
    match goal with |- context [np_put_from 0 (daily_use d) idx [?x]] => set (x1 := x) end.
    match goal with |- context [np_put_from 0 (daily_use d') idx [?x]] => set (x2 := x) end.
    pose proof (put_same x1 x2 idx 0 (daily_use d) (daily_use d') ltac:(lia)) as G.
    destruct (np_put_from 0 (daily_use d) idx [x1]), (np_put_from 0 (daily_use d') idx [x2]); try contradiction; cbn [lift bind psim]; [|exact G].
    rewrite <- H3. destruct (update_available_time (free_spots d) idx); cbn [lift bind psim]; [|reflexivity].
    split; [|reflexivity]. destruct G as [G1 G2]. unfold alike. cbn [fst set_free_spots set_daily_use daily_use free_spots]. rewrite G1, G2. repeat split; assumption.
  - intros [d1 x1] [d2 x2] [A1 A2]. cbn [fst snd] in *. split; [exact A1|]. split; [reflexivity|]. split; [reflexivity|exact A2].
Qed.

Lemma loop_alike rt : forall fuel tot d d' evs evs', alike d d' -> Forall2 same_event evs evs' ->
  psim (fun x y => Forall2 same_event (snd x) (snd y)) (use_loop fuel depth F b peak pw rt tot d evs) (use_loop fuel depth F b' peak pw' rt tot d' evs').
Proof.
  induction fuel as [|fuel IH]; intros tot d d' evs evs' Hd He; cbn [use_loop]; [reflexivity|].
  destruct ((tot <=? rt) && negb (rt =? 0)); [|exact He].
  apply psim_bind with (R := fun x y => fst x = fst y /\ snd x = d /\ snd y = d').
  - destruct depth as [|dp]; [reflexivity|]. rewrite !rsw_unfold. cbv zeta. destruct Hd as (_ & _ & Hf). rewrite <- Hf.
    change (func_cycle (par b)) with (func_cycle (par a)). change (func_cycle (par b')) with (func_cycle (par a)).
    destruct (_ >? 0); [|repeat split; reflexivity].
    apply psim_bind with (R := eq); [apply psim_eq|]. intros j ? <-.
    apply psim_bind with (R := eq); [apply psim_eq|]. intros x ? <-.
    destruct (find_spot _ _ _); [|reflexivity].
    apply psim_bind with (R := eq); [apply psim_eq|]. intros idx ? <-.
    unfold choose_cycle. change (fixed_cycle (par b)) with (fixed_cycle (par a)). change (fixed_cycle (par b')) with (fixed_cycle (par a)).
    replace (fixed_cycle (par a) >? 0) with false by lia. repeat split; reflexivity.
  - intros [o d1] [o' d2] (E1 & E2 & E3). cbn [fst snd] in *. subst o' d1 d2. destruct o as [idx|]; [|exact He]. cbv zeta.
    destruct (_ >? rt).
    + destruct (_ >? 0); [|exact He]. eapply psim_bind; [apply event_alike; exact Hd|]. intros x y [_ H2]. cbn [psim snd].
      apply Forall2_app; [exact He|]. constructor; [exact H2|constructor].
    + eapply psim_bind; [apply event_alike; exact Hd|]. intros x y [H1 H2]. apply IH; [exact H1|].
      apply Forall2_app; [exact He|]. constructor; [exact H2|constructor].
Qed.

Definition same_trace (x y : dyn * day_trace) : Prop :=
  match snd x, snd y with
  | Skipped, Skipped => True
  | FlatDay r t, FlatDay r' t' => r = r' /\ t = t'
  | UsedDay r t e, UsedDay r' t' e' => r = r' /\ t = t' /\ Forall2 same_event e e'
  | _, _ => False
  end.

Lemma day_alike pref i dt : psim same_trace (generate_load_profile_traced depth F b pref i peak dt pw) (generate_load_profile_traced depth F b' pref i peak dt pw').
Proof.
  unfold generate_load_profile_traced. apply psim_bind with (R := eq); [apply psim_eq|]. intros u ? <-.
  change (skip_day b' pref dt u) with (skip_day b pref dt u). destruct (skip_day b pref dt u); [exact I|].
  change (win b') with (win b).
  apply psim_bind with (R := eq); [apply psim_eq|]. intros rw1 ? <-.
  apply psim_bind with (R := eq); [apply psim_eq|]. intros rw2 ? <-.
  apply psim_bind with (R := eq); [apply psim_eq|]. intros rw3 ? <-.
  apply psim_bind with (R := eq); [apply psim_eq|]. intros rt ? <-.
  change (flat (par b')) with (flat (par b)). destruct (String.eqb (flat (par b)) "yes").
  { apply psim_bind with (R := eq); [apply psim_eq|]. intros p ? <-.
    apply psim_bind with (R := eq); [apply psim_eq|]. intros du ? <-. split; reflexivity. }
  change (st b') with (st b).
  destruct (fill_windows (daily_use (set_daily_use (st b) (zeros day_minutes))) [rw1; rw2; rw3] (mask_value F)) as [du|e] eqn:Edu; cbn [lift bind psim]; [|reflexivity].
  unfold assign_random_cycles. change (fixed_cycle (par b)) with (fixed_cycle (par a)). change (fixed_cycle (par b')) with (fixed_cycle (par a)).
  replace (fixed_cycle (par a) >=? 1) with false by lia. cbn [bind].
  eapply psim_bind.
  - apply loop_alike; [|constructor]. apply fill_windows_len in Edu. unfold alike, zlen. cbn [set_free_spots set_daily_use daily_use free_spots].
    rewrite Edu. cbn [set_daily_use daily_use]. repeat split; reflexivity.
  - intros x y H. cbn [psim same_trace]. unfold same_trace. cbn [snd]. repeat split; try reflexivity. exact H.
Qed.

End two.

(** One function of the minute for every power and every thermal_p_var: the mean load is [idle] mW plus the power times the mean
    number of pieces, whatever the variability -- but for a factor 1 - thermal_p_var / 2^53 that comes from random() never being 1. *)
Theorem C90_unbiased L depth F a pref i peak dt t :
  exact F -> fixed_cycle (par a) <= 0 -> flat (par a) <> "yes"%string -> 0 <= func_cycle (par a) -> 1 <= number (par a) -> 0 <= t < 1440 ->
  exists standby pieces : Q, (0 <= standby <= 1 # 1000)%Q /\ (0 <= pieces <= zq (number (par a)))%Q /\ forall v pw,
    (expect L (generate_load_profile depth F (with_thermal a v) pref i peak dt pw) (profile_value t) ==
     standby + pw * (1 - v / zq (steps L)) * pieces)%Q.
Proof.
  intros HF Hfx Hfl Hfc Hn Ht.
  exists (mask_value F * expect L (generate_load_profile_traced depth F (with_thermal a 0) pref i peak dt 0) (trace_value (fun tr => if idle t tr then 1 else 0)))%Q.
  exists (expect L (generate_load_profile_traced depth F (with_thermal a 0) pref i peak dt 0) (trace_value (fun tr => zq (pieces_on t tr)))).
  assert (Hm : (mask_value F == 1 # 1000)%Q) by (unfold mask_value, flit; apply HF).
  assert (H01 : forall (x : Q), (0 <= x <= 1)%Q -> (0 <= (1 # 1000) * x <= 1 # 1000)%Q) by (intros x Hx; lra).
  split; [rewrite Hm; apply H01|split].
  { split.
    - eapply Qle_trans; [apply Qle_of_eq; symmetry; apply (expect_const L (generate_load_profile_traced depth F (with_thermal a 0) pref i peak dt 0) 0%Q); apply bp_day|].
      apply expect_le; [apply bp_day|]. intros [[d tr]|e] _; cbn [trace_value]; [destruct (idle t tr)|]; discriminate.
    - eapply Qle_trans; [|apply Qle_of_eq; apply (expect_const L (generate_load_profile_traced depth F (with_thermal a 0) pref i peak dt 0) 1%Q); apply bp_day].
      apply expect_le; [apply bp_day|]. intros [[d tr]|e] _; cbn [trace_value]; [destruct (idle t tr)|]; discriminate. }
  { assert (B : forall r, may (generate_load_profile_traced depth F (with_thermal a 0) pref i peak dt 0) r ->
      (0 <= trace_value (fun tr => zq (pieces_on t tr)) r <= zq (number (par a)))%Q).
    { assert (N0 : (0 <= zq (number (par a)))%Q) by (change 0%Q with (zq 0); apply zq_le; lia).
      intros [[d tr]|e] Hr; cbn [trace_value]; [|split; [apply Qle_refl|exact N0]].
      destruct tr as [|rws rt|rws rt evs]; cbn [pieces_on]; try (split; [apply Qle_refl|exact N0]).
      unfold pieces_at. destruct (last_event t evs) as [e|] eqn:El; [|split; [apply Qle_refl|exact N0]].
      unfold last_event in El. apply find_some in El as [Hin _]. apply in_rev in Hin.
      destruct (C17_event_power depth F (with_thermal a 0) pref i peak dt 0%Q d rws rt evs e Hfc Hfx Hn (Qle_refl 0) ltac:(split; discriminate) Hr Hin) as [Hc _].
      change (number (par (with_thermal a 0))) with (number (par a)) in Hc. change 0%Q with (zq 0). split; apply zq_le; lia. }
    split.
    - eapply Qle_trans; [apply Qle_of_eq; symmetry; apply (expect_const L (generate_load_profile_traced depth F (with_thermal a 0) pref i peak dt 0) 0%Q); apply bp_day|].
      apply expect_le; [apply bp_day|]. intros r Hr. apply (B r Hr).
    - eapply Qle_trans; [|apply Qle_of_eq; apply (expect_const L (generate_load_profile_traced depth F (with_thermal a 0) pref i peak dt 0) (zq (number (par a)))); apply bp_day].
      apply expect_le; [apply bp_day|]. intros r Hr. apply (B r Hr). }
  intros v pw. rewrite (C90_mean_power L depth F (with_thermal a v) pref i peak dt pw t HF Hfx Hfl Hfc Ht). cbv zeta.
  assert (G : forall g, (forall x y, same_trace x y -> (g (snd x) == g (snd y))%Q) ->
     (expect L (generate_load_profile_traced depth F (with_thermal a v) pref i peak dt pw) (trace_value g) ==
      expect L (generate_load_profile_traced depth F (with_thermal a 0) pref i peak dt 0) (trace_value g))%Q).
  { intros g Hg. apply (expect_psim _ L _ _ _ _ (day_alike depth F a peak v 0 pw 0 Hfx pref i dt)); [|reflexivity].
    intros [d tr] [d' tr'] H. exact (Hg (d, tr) (d', tr') H). }
  rewrite (G (fun tr => if idle t tr then 1 else 0)%Q), (G (fun tr => zq (pieces_on t tr))).
  - change (thermal_p_var (par (with_thermal a v))) with v. unfold mean_factor. ring.
  - intros [d tr] [d' tr'] H. unfold same_trace in H. cbn [snd] in *. destruct tr, tr'; try contradiction; try reflexivity.
    destruct H as (_ & _ & H). cbn [pieces_on]. unfold pieces_at. pose proof (same_last t _ _ H) as G1.
    destruct (last_event t events), (last_event t events0); try contradiction; [|reflexivity]. destruct G1 as (_ & -> & _). reflexivity.
  - intros [d tr] [d' tr'] H. unfold same_trace in H. cbn [snd] in *. destruct tr, tr'; try contradiction; try reflexivity.
    destruct H as (-> & _ & H). cbn [idle]. pose proof (same_last t _ _ H) as G1.
    destruct (last_event t events), (last_event t events0); try contradiction; reflexivity.
Qed.

Example C90_case : exact exact_fm /\ fixed_cycle (par demo) <= 0 /\ flat (par demo) <> "yes"%string /\ 0 <= func_cycle (par demo) /\ 1 <= number (par demo) /\
  with_thermal demo (1 # 10) = demo /\ (mean_factor py_law (1 # 10) == 1 - (1 # 10) / zq (2 ^ 53))%Q /\
  (exists d rws rt evs, may (generate_load_profile_traced 5 exact_fm demo 0 0 (arange 700 720) 0 50) (Ok (d, UsedDay rws rt evs)) /\ pieces_on 590 (UsedDay rws rt evs) = 2).
Proof.
  split; [exact exact_exact_fm|]. split; [cbn; lia|]. split; [discriminate|]. split; [cbn; lia|]. split; [cbn; lia|]. split; [reflexivity|]. split; [reflexivity|].
  change (generate_load_profile_traced 5 exact_fm demo 0 0 (arange 700 720) 0 50) with PropsDayCases.demo_day.
  destruct (follow PropsDayCases.demo_day PropsDayCases.demo_tape) as [[[d tr]|]|] eqn:E; [|vm_compute in E; discriminate|vm_compute in E; discriminate].
  pose proof (follow_may _ _ _ E) as H. vm_compute in E.
  injection E as <- <-. eexists. eexists. eexists. eexists. split; [exact H|]. vm_compute. reflexivity.
Qed.
