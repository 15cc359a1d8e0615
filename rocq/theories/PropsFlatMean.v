(** * PropsFlatMean: the mean profile of an appliance with flat = "yes" (C91) *)
From Verif Require Import Base Wp F64 Utils ListLemmas Appliance User Sim Spec SpecUser SpecDay ProofsAppliance ProofsEvent ProofsDay ProofsDay2 ProofsUser ProofsRun PropsBasic PropsDay
  PropsUser Prob PropsProb PropsLaw.
From Coq Require Import ZifyBool ZifyNat.

(** ** Specification *)

(** how many of [n] consecutive values, the first of which is ahead of the mark by [k] places, have passed it *)
Definition clamp (n k : Z) : Z := Z.max 0 (Z.min n k).

(** the chance that minute [t] is in the randomised window: the begin, uniform on fst w -rv .. fst w + rv, is at most [t], and the
    end, uniform on snd w - rv .. snd w + rv, is after [t] *)
Definition window_chance (w : Z * Z) (rv t : Z) : Q :=
  (zq (clamp (2 * rv + 1) (t - (fst w - rv) + 1)) / zq (2 * rv + 1) * (zq (clamp (2 * rv + 1) (snd w + rv - t)) / zq (2 * rv + 1)))%Q.

(** the chance that it is in at least one of the three windows of the appliance, which are drawn independently *)
Definition covered_chance (W : wins) (t : Z) : Q :=
  (1 - (1 - window_chance (window_1 W) (random_var_1 W) t) * (1 - window_chance (window_2 W) (random_var_2 W) t)
       * (1 - window_chance (window_3 W) (random_var_3 W) t))%Q.

(** ** Lemmas *)

Definition mark (b : bool) : Q := if b then 1%Q else 0%Q.

Lemma average_upto n k : 0 < n -> (average n (fun i => mark (i <? k)) == zq (clamp n k) / zq n)%Q.
Proof.
  intros Hn. unfold mark. rewrite (average_ext _ _ (fun i => if i <? clamp n k then 1%Q else 0%Q)).
  - rewrite average_count, count_upto by (unfold clamp; lia). reflexivity.
  - intros i Hi. replace (i <? clamp n k) with (i <? k) by (unfold clamp; lia). reflexivity.
Qed.

Lemma average_from n k : 0 < n -> (average n (fun j => mark (k <? j)) == zq (clamp n (n - 1 - k)) / zq n)%Q.
Proof.
  intros Hn. pose proof (zq_pos n Hn) as Hq.
  rewrite (average_ext _ _ (fun j => 1 + (-1) * mark (j <? k + 1))%Q).
  - rewrite average_add, average_const, average_scale, average_upto by exact Hn.
    assert (E : (zq (clamp n (n - 1 - k)) == zq n - zq (clamp n (k + 1)))%Q).
    { unfold Qminus. rewrite <- zq_opp, <- zq_add. f_equiv. unfold clamp. lia. }
    rewrite E. field. lra.
  - intros j _. unfold mark. destruct (k <? j) eqn:E1, (j <? k + 1) eqn:E2; try lia; reflexivity.
Qed.

Lemma window_mean L w rv t (p q : Q) : 0 <= rv -> 0 <= t < 1440 ->
  (expect L (calc_rand_window w rv) (fun r => match r with Ok v => (p + q * mark (in_win t v))%Q | Err _ => 0%Q end) == p + q * window_chance w rv t)%Q.
Proof.
  intros Hrv Ht. rewrite C87_window by exact Hrv.
  rewrite (average_ext _ _ (fun i => p + (q * (zq (clamp (2 * rv + 1) (snd w + rv - t)) / zq (2 * rv + 1))) * mark (i <? t - (fst w - rv) + 1))%Q).
  - rewrite average_add, average_const, average_scale, average_upto by lia. unfold window_chance. ring.
  - intros i Hi. cbn [fst snd].
    rewrite (average_ext _ _ (fun j => p + (q * mark (i <? t - (fst w - rv) + 1)) * mark (t - (snd w - rv) <? j))%Q).
    + rewrite average_add, average_const, average_scale, average_from by lia.
      replace (2 * rv + 1 - 1 - (t - (snd w - rv))) with (snd w + rv - t) by lia. ring.
    + intros j Hj. unfold in_win. cbn [fst snd].
      replace (Z.max 0 (fst w - rv + i) <=? t) with (i <? t - (fst w - rv) + 1) by lia.
      replace (t <? Z.min 1440 (snd w - rv + j)) with (t - (snd w - rv) <? j) by lia.
      destruct (i <? _), (_ <? j); cbn [andb mark]; ring.
Qed.

(** ** C91 *)

Definition day_value (t : Z) (r : res (dyn * day_trace)) : Q := match r with Ok (d, _) => value_at (daily_use d) t | Err _ => 0%Q end.

Lemma flat_tail L F a i p rw1 rw2 rw3 t :
  flat (par a) = "yes"%string -> py_index (power a) i = Ok p -> 1 <= func_cycle (par a) -> 0 <= t < 1440 ->
  Forall (fun w => 0 <= fst w <= snd w /\ snd w <= 1440) [rw1; rw2; rw3] ->
  100 * func_cycle (par a) < 99 * (diff rw1 + diff rw2 + diff rw3) ->
  (expect L (rand_time <- rand_total_time_of_use F a rw1 rw2 rw3 ;;
    if String.eqb (flat (par a)) "yes" then
      p <- lift (py_index (power a) i) ;;
      du <- lift (fill_windows (zeros day_minutes) [rw1; rw2; rw3] (fmul F p (zq (number (par a))))) ;;
      Ret (set_daily_use (set_daily_use (st a) (zeros day_minutes)) du, FlatDay [rw1; rw2; rw3] rand_time)
    else Raise OutOfFuel) (day_value t) ==
   fmul F p (zq (number (par a))) * (1 - (1 - mark (in_win t rw1)) * (1 - mark (in_win t rw2)) * (1 - mark (in_win t rw3))))%Q.
Proof.
  intros Hfl Hp Hfc Ht Hw Hfit. rewrite expect_bind. apply expect_sure; [apply bp_rtt|].
  intros r Hr.
  assert (HT : Z.abs (diff rw1 + diff rw2 + diff rw3) <= 2 ^ 40).
  { rewrite !Forall_cons_iff in Hw. unfold diff. lia. }
  pose proof (wp_elim _ _ _ (rtt_spec F a rw1 rw2 rw3 HT ltac:(lia) ltac:(lia)) Hr) as [(_ & C & _)|(rt & -> & _)]; [lia|]. clear Hr.
  cbn [onward]. rewrite Hfl, Hp. cbn [String.eqb Ascii.eqb Bool.eqb lift bind].
  destruct (fill_windows_ok [rw1; rw2; rw3] (fmul F p (zq (number (par a)))) (zeros day_minutes) eq_refl Hw) as [du Hdu].
  rewrite Hdu. cbn [lift bind expect day_value set_daily_use daily_use].
  assert (Hb : Forall (fun w => 0 <= fst w /\ snd w <= 1440) [rw1; rw2; rw3]) by (eapply Forall_impl; [|exact Hw]; cbv beta; intros w' Hw'; lia).
  destruct (fill_windows_spec _ _ _ _ zlen_zeros Hb Hdu) as (_ & _ & Hv). rewrite value_at_minute, (Hv t Ht).
  cbn [existsb]. rewrite orb_false_r.
  assert (Ez : (at_minute t (zeros day_minutes) == 0)%Q) by (rewrite <- value_at_minute; unfold value_at, zeros; rewrite nth_repeat; reflexivity).
  destruct (in_win t rw1), (in_win t rw2), (in_win t rw3); cbn [orb mark]; rewrite ?Ez; ring.
Qed.

(** The mean profile of a flat appliance: power times number times the chance that it is used, in closed form. *)
Theorem C91_flat_mean L depth F a pref i peak dt pw p t :
  on_grid F L -> allowed a pref dt -> flat (par a) = "yes"%string -> py_index (power a) i = Ok p ->
  well_declared F a -> cycle_fits a -> 1 <= func_cycle (par a) -> 0 <= t < 1440 ->
  (expect L (generate_load_profile depth F a pref i peak dt pw) (fun r => match r with Ok a' => value_at (daily_use (st a')) t | Err _ => 0 end) ==
   fmul F p (zq (number (par a))) * use_chance L (occasional_use (par a)) * covered_chance (win a) t)%Q.
Proof.
  intros HG HA Hfl Hp (Hday & Hv & V1 & V2 & V3) Hfit Hfc Ht.
  inversion Hday as [|? ? D1 Hd1]; subst. inversion Hd1 as [|? ? D2 Hd2]; subst. inversion Hd2 as [|? ? D3 _]; subst. clear Hd1 Hd2.
  assert (K : forall w rv, inside_day w -> rv = py_int (fmul F (random_var_w (win a)) (zq (length_of w))) ->
     0 <= rv /\ forall r, may (calc_rand_window w rv) r -> exists rw, r = Ok rw /\ (0 <= fst rw <= snd rw /\ snd rw <= 1440) /\ length_of w - 2 * rv <= diff rw).
  { intros w rv [I0 I1] Erv.
    destruct (random_var_half F (random_var_w (win a)) (length_of w) (proj1 Hv) (proj2 Hv)) as [R1 R2];
      [unfold length_of; lia|]. rewrite <- Erv in R1, R2.
    split; [exact R1|]. intros r Hr. pose proof (wp_elim _ _ _ (calc_rand_window_spec w rv) Hr) as [[C _]|(y0 & y1 & _ & -> & Y0 & Y1)]; [lia|].
    eexists. split; [reflexivity|]. unfold length_of, diff in *. cbn [fst snd]. lia. }
  destruct (K _ _ D1 V1) as [P1 N1]. destruct (K _ _ D2 V2) as [P2 N2]. destruct (K _ _ D3 V3) as [P3 N3]. clear K.
  unfold generate_load_profile. rewrite expect_bind.
  rewrite (expect_ext L _ _ (day_value t)) by (intros [[d tr]|e] _; reflexivity).
  rewrite (day_mix depth F L a pref i peak dt pw _ HG HA).
  assert (Ez : (day_value t (Ok (set_daily_use (st a) (zeros day_minutes), Skipped)) == 0)%Q).
  { cbn [day_value set_daily_use daily_use]. unfold value_at, zeros. rewrite nth_repeat. reflexivity. }
  rewrite Ez. clear Ez. set (V := fmul F p (zq (number (par a)))).
  assert (E : (expect L (day_in_use depth F a i peak pw) (day_value t) == V * covered_chance (win a) t)%Q); [|rewrite E; ring].
  unfold day_in_use, covered_chance. set (W := win a) in *.
  set (c2 := window_chance (window_2 W) (random_var_2 W) t). set (c3 := window_chance (window_3 W) (random_var_3 W) t).
  rewrite expect_bind, (expect_ext L _ _ (fun r => match r with Ok v => (V * (1 - (1 - c2) * (1 - c3)) + V * ((1 - c2) * (1 - c3)) * mark (in_win t v))%Q | Err _ => 0%Q end)).
  { rewrite window_mean by assumption. ring. }
  intros r1 Hr1. destruct (N1 r1 Hr1) as (rw1 & -> & B1 & L1). cbn [onward].
  rewrite expect_bind, (expect_ext L _ _ (fun r => match r with Ok v =>
     (V * (1 - (1 - mark (in_win t rw1)) * (1 - c3)) + V * ((1 - mark (in_win t rw1)) * (1 - c3)) * mark (in_win t v))%Q | Err _ => 0%Q end)).
  { rewrite window_mean by assumption. fold c2. ring. }
  intros r2 Hr2. destruct (N2 r2 Hr2) as (rw2 & -> & B2 & L2). cbn [onward].
  rewrite expect_bind, (expect_ext L _ _ (fun r => match r with Ok v =>
     (V * (1 - (1 - mark (in_win t rw1)) * (1 - mark (in_win t rw2))) + V * ((1 - mark (in_win t rw1)) * (1 - mark (in_win t rw2))) * mark (in_win t v))%Q | Err _ => 0%Q end)).
  { rewrite window_mean by assumption. fold c3. ring. }
  intros r3 Hr3. destruct (N3 r3 Hr3) as (rw3 & -> & B3 & L3). cbn [onward].
  assert (Hfit' : 100 * func_cycle (par a) < 99 * (diff rw1 + diff rw2 + diff rw3)).
  { unfold cycle_fits in Hfit. cbv zeta in Hfit. fold W in Hfit. lia. }
  pose proof (flat_tail L F a i p rw1 rw2 rw3 t Hfl Hp Hfc Ht ltac:(repeat constructor; lia) Hfit') as G.
  rewrite Hfl in *. cbn [String.eqb Ascii.eqb Bool.eqb] in *. rewrite G. fold V. ring.
Qed.

(** two lamps of 50 W between 8:00 and 10:00, 12 minutes more or less: at 8:00 in 13 of 25 cases *)
Definition dim_lamp : appliance :=
  App (Params "lamp" 2 1 100 0 10 "no" 0 1 (1 # 2) "yes" 0 0 2) [50%Q] false
    (Wins (480, 600) (0, 0) (0, 0) (1 # 10) 12 0 0) default_cycle default_cycle default_cycle default_dyn.

Example C91_case : on_grid exact_fm small_law /\ allowed dim_lamp 0 0 /\ well_declared exact_fm dim_lamp /\ cycle_fits dim_lamp /\
  (covered_chance (win dim_lamp) 467 == 0)%Q /\ (covered_chance (win dim_lamp) 480 == 13 # 25)%Q /\ (covered_chance (win dim_lamp) 500 == 1)%Q /\
  (expect small_law (generate_load_profile 1 exact_fm dim_lamp 0 0 (arange 700 720) 0 50) (fun r => match r with Ok a' => value_at (daily_use (st a')) 480 | Err _ => 0 end) == 65 # 2)%Q.
Proof.
  assert (H1 : on_grid exact_fm small_law) by (apply grid_exact, exact_exact_fm).
  assert (H2 : allowed dim_lamp 0 0) by (repeat split; [left|right|]; try reflexivity; discriminate).
  assert (H3 : well_declared exact_fm dim_lamp).
  { unfold well_declared. cbn [dim_lamp win window_1 window_2 window_3 random_var_w random_var_1 random_var_2 random_var_3].
    split; [repeat constructor; unfold inside_day; cbn; lia|]. split; [split; discriminate|]. vm_compute. repeat split; reflexivity. }
  assert (H4 : cycle_fits dim_lamp) by (vm_compute; reflexivity).
  split; [exact H1|]. split; [exact H2|]. split; [exact H3|]. split; [exact H4|].
  split; [vm_compute; reflexivity|]. split; [vm_compute; reflexivity|]. split; [vm_compute; reflexivity|].
  etransitivity; [apply (C91_flat_mean small_law 1 exact_fm dim_lamp 0 0 (arange 700 720) 0 50%Q 50%Q 480 H1 H2 eq_refl eq_refl H3 H4); cbn; lia|].
  vm_compute. reflexivity.
Qed.
