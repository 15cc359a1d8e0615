(** * ProofsAppliance: proofs about the pieces of one switch-on event (C05-C11) *)
From Verif Require Import Base Wp Utils ListLemmas Appliance Spec ProofsUtils.
From Coq Require Import ZifyBool ZifyNat.

Lemma run_arange s n : 0 <= n -> run_of_minutes (arange s (s + n)) s n.
Proof.
  intros H. split; [rewrite zlen_arange; lia|].
  intros k Hk. rewrite (nth_error_nth' _ 0) by (rewrite arange_length; lia).
  rewrite nth_arange by lia. f_equal. lia.
Qed.

Lemma run_of_minutes_arange l s n : run_of_minutes l s n -> l = arange s (s + n).
Proof.
  intros [Hl Hk]. pose proof (zlen_nonneg l) as Hn.
  apply nth_ext with (d := 0) (d' := 0).
  - rewrite arange_length. unfold zlen in Hl. lia.
  - intros k Hlt. rewrite nth_arange by (unfold zlen in *; lia).
    specialize (Hk (Z.of_nat k)). rewrite Nat2Z.id in Hk.
    apply nth_error_nth. apply Hk. unfold zlen in *; lia.
Qed.

Lemma value_at_minute d t : value_at d t = at_minute t d.
Proof. reflexivity. Qed.

(** ** windows (C05) *)

Lemma window_time_val w n v :
  window_time w n = Ok v ->
  n <= 3 /\
  v = (if 1 <=? n then diff (window_1 w) else 0) + (if 2 <=? n then diff (window_2 w) else 0)
      + (if 3 <=? n then diff (window_3 w) else 0).
Proof.
  unfold window_time. intros H.
  destruct (Z_le_gt_dec n 3) as [Hn|Hn].
  - split; [lia|].
    destruct (Z_le_gt_dec n 0) as [H0|H0].
    + rewrite arange_nil in H by lia. cbn in H. injection H as <-.
      destruct (Z.leb_spec 1 n); destruct (Z.leb_spec 2 n); destruct (Z.leb_spec 3 n); lia.
    + assert (n = 1 \/ n = 2 \/ n = 3) as [->|[->| ->]] by lia; cbn in H; injection H as <-; cbn; lia.
  - exfalso. rewrite (arange_app 1 5 (n + 1)) in H by lia. cbn in H. discriminate.
Qed.

Lemma window_time_ok w n :
  1 <= n <= 3 ->
  window_time w n =
    Ok ((if 1 <=? n then diff (window_1 w) else 0) + (if 2 <=? n then diff (window_2 w) else 0)
        + (if 3 <=? n then diff (window_3 w) else 0)).
Proof.
  intros H. assert (n = 1 \/ n = 2 \/ n = 3) as [->|[->| ->]] by lia; unfold window_time;
    [change (arange 1 (1 + 1)) with [1]|change (arange 1 (2 + 1)) with [1; 2]|change (arange 1 (3 + 1)) with [1; 2; 3]];
    cbn -[Z.add diff]; f_equal; lia.
Qed.

Lemma fill_window_le d w v d' : fill_window d w v = Ok d' -> fst w <= snd w.
Proof.
  unfold fill_window, np_fill_slice, diff. destruct (Z.ltb_spec (snd w - fst w) 0); [discriminate|lia].
Qed.

Lemma fill_window_spec d w v d' :
  0 <= fst w -> snd w <= zlen d -> fill_window d w v = Ok d' ->
  fst w <= snd w /\ zlen d' = zlen d /\
  forall t, 0 <= t < zlen d -> at_minute t d' = if in_win t w then v else at_minute t d.
Proof. intros H0 H1 H. apply (np_fill_slice_inv d (fst w) (snd w) v d' H0 H1 H). Qed.

Lemma fill_window_ok d w v :
  inside_day w -> zlen d = 1440 -> exists d', fill_window d w v = Ok d'.
Proof. intros [H0 H1] Hd. apply np_fill_slice_ok; lia. Qed.

Lemma zlen_zeros : zlen (zeros day_minutes) = 1440.
Proof. unfold zlen, zeros. rewrite repeat_length. reflexivity. Qed.

(** everything a normal return of windows() guarantees *)
Lemma windows_ok (F : fm) a w1 w2 rvw w3 a' :
  windows F a w1 w2 rvw w3 = (a', None) ->
  let n := num_windows (par a) in
  let W := win a' in
  par a' = par a /\ power a' = power a /\ constant_power a' = constant_power a /\
  n <= 3 /\
  (2 <= n -> w2 <> None) /\ (3 <= n -> w3 <> None) /\
  window_1 W = match w1 with Some x => x | None => (0, 1440) end /\
  window_2 W = match w2 with Some x => x | None => window_2 (win a) end /\
  window_3 W = match w3 with Some x => x | None => window_3 (win a) end /\
  random_var_w W = rvw /\
  random_var_1 W = py_int (fmul F rvw (zq (diff (window_1 W)))) /\
  random_var_2 W = py_int (fmul F rvw (zq (diff (window_2 W)))) /\
  random_var_3 W = py_int (fmul F rvw (zq (diff (window_3 W)))) /\
  fst (window_1 W) <= snd (window_1 W) /\ fst (window_2 W) <= snd (window_2 W) /\
  fst (window_3 W) <= snd (window_3 W) /\
  func_time (par a) <=
    (if 1 <=? n then diff (window_1 W) else 0) + (if 2 <=? n then diff (window_2 W) else 0)
    + (if 3 <=? n then diff (window_3 W) else 0) /\
  fill_windows (zeros day_minutes) [window_1 W; window_2 W; window_3 W] (mask_value F)
    = Ok (daily_use (st a')) /\
  cyc1 a' = (if fixed_cycle (par a) =? 1
             then Cycle (cp1 (cyc1 a)) (ct1 (cyc1 a)) (cp2 (cyc1 a)) (ct2 (cyc1 a)) (cr (cyc1 a))
                        (window_1 W) (window_2 W)
             else cyc1 a) /\ cyc2 a' = cyc2 a /\ cyc3 a' = cyc3 a.
Proof.
  intros H n W. subst n. unfold windows in H.
  destruct (match w2 with None => num_windows (par a) >=? 2 | Some _ => false end) eqn:E2;
    [congruence|].
  destruct (match w3 with None => num_windows (par a) =? 3 | Some _ => false end) eqn:E3;
    [congruence|].
  cbn [window_1 window_2 window_3 random_var_w random_var_1 random_var_2 random_var_3] in H.
  match type of H with context [window_time ?w ?n] =>
    destruct (window_time w n) as [wt|e] eqn:Ewt; [|congruence]; set (W0 := w) in * end.
  apply window_time_val in Ewt. destruct Ewt as [Hn Hwt].
  destruct (wt <? func_time (par a)) eqn:Eft; [congruence|].
  destruct (fill_window _ _ _) as [d1|] eqn:Ef1 in H; [|congruence].
  destruct (fill_window _ _ _) as [d2|] eqn:Ef2 in H; [|congruence].
  destruct (fill_window _ _ _) as [d3|] eqn:Ef3 in H; [|congruence].
  cbv zeta in H.
  pose proof (fill_window_le _ _ _ _ Ef1) as L1.
  pose proof (fill_window_le _ _ _ _ Ef2) as L2.
  pose proof (fill_window_le _ _ _ _ Ef3) as L3.
  cbn [window_1 window_2 window_3] in L1, L2, L3.
  subst W0. cbn [window_1 window_2 window_3] in Hwt.
  assert (Hfill : forall x1 x2 x3, fill_window (zeros day_minutes) x1 (mask_value F) = Ok d1 ->
      fill_window d1 x2 (mask_value F) = Ok d2 -> fill_window d2 x3 (mask_value F) = Ok d3 ->
      fill_windows (zeros day_minutes) [x1; x2; x3] (mask_value F) = Ok d3).
  { intros x1 x2 x3 G1 G2 G3. cbn [fill_windows]. rewrite G1; cbn [rbind]. rewrite G2; cbn [rbind].
    rewrite G3; reflexivity. }
  specialize (Hfill _ _ _ Ef1 Ef2 Ef3).
  destruct (fixed_cycle _ =? 1) eqn:Efc in H; injection H as <-; subst W;
    cbn [par power constant_power win st cyc1 cyc2 cyc3 set_win set_daily set_st set_cyc1 set_daily_use
         window_1 window_2 window_3 random_var_w random_var_1 random_var_2 random_var_3 daily_use] in *;
    rewrite ?Efc;
    repeat (match goal with |- _ /\ _ => split end); auto; try lia.
  - intros Hn2. destruct w2; [discriminate|lia].
  - intros Hn3. destruct w3; [discriminate|lia].
  - intros Hn2. destruct w2; [discriminate|lia].
  - intros Hn3. destruct w3; [discriminate|lia].
Qed.

Lemma windows_missing_2 (F : fm) a w1 rvw w3 :
  2 <= num_windows (par a) -> snd (windows F a w1 None rvw w3) = Some InvalidWindow.
Proof.
  intros H. unfold windows. replace (num_windows (par a) >=? 2) with true by lia. reflexivity.
Qed.

Lemma windows_missing_3 (F : fm) a w1 w2 rvw :
  num_windows (par a) = 3 -> snd (windows F a w1 w2 rvw None) = Some InvalidWindow.
Proof.
  intros H. unfold windows. rewrite H. destruct w2; reflexivity.
Qed.

Lemma windows_too_short (F : fm) a w1 w2 rvw w3 v :
  (2 <= num_windows (par a) -> w2 <> None) -> (num_windows (par a) = 3 -> w3 <> None) ->
  1 <= num_windows (par a) <= 3 ->
  let pick o d := match o with Some x => x | None => d end in
  v = diff (pick w1 (0, 1440))
      + (if 2 <=? num_windows (par a) then diff (pick w2 (window_2 (win a))) else 0)
      + (if 3 <=? num_windows (par a) then diff (pick w3 (window_3 (win a))) else 0) ->
  v < func_time (par a) -> snd (windows F a w1 w2 rvw w3) = Some InvalidWindow.
Proof.
  intros H2 H3 Hn pick Hv Hlt. unfold windows.
  assert (E2 : match w2 with None => num_windows (par a) >=? 2 | Some _ => false end = false).
  { destruct w2; [reflexivity|]. destruct (num_windows (par a) >=? 2) eqn:E; [|reflexivity].
    exfalso; apply H2; [lia|reflexivity]. }
  assert (E3 : match w3 with None => num_windows (par a) =? 3 | Some _ => false end = false).
  { destruct w3; [reflexivity|]. destruct (num_windows (par a) =? 3) eqn:E; [|reflexivity].
    exfalso; apply H3; [lia|reflexivity]. }
  rewrite E2, E3.
  cbn [window_1 window_2 window_3 random_var_w random_var_1 random_var_2 random_var_3].
  rewrite window_time_ok by exact Hn. cbn [window_1 window_2 window_3].
  subst pick. cbv beta in Hv.
  match goal with |- context [?x <? func_time (par a)] =>
    assert (Hx : x = v) by (rewrite Hv; replace (1 <=? num_windows (par a)) with true by lia; reflexivity);
    rewrite Hx end.
  replace (v <? func_time (par a)) with true by lia. reflexivity.
Qed.

(** three windows inside the day: which minutes carry [v] after fill_windows *)
Lemma fill_windows_spec ws v : forall d d',
  zlen d = 1440 -> Forall (fun w => 0 <= fst w /\ snd w <= 1440) ws ->
  fill_windows d ws v = Ok d' ->
  zlen d' = 1440 /\ Forall (fun w => fst w <= snd w) ws /\
  forall t, 0 <= t < 1440 ->
    at_minute t d' = if existsb (in_win t) ws then v else at_minute t d.
Proof.
  induction ws as [|w ws IH]; intros d d' Hd Hw H; cbn [fill_windows] in H.
  - injection H as <-. split; [exact Hd|]. split; [constructor|]. reflexivity.
  - apply Forall_cons_iff in Hw. destruct Hw as [[H0 H1] Hw].
    destruct (fill_window d w v) as [d1|] eqn:E; [|discriminate]. cbn [rbind] in H.
    destruct (fill_window_spec d w v d1 H0 ltac:(lia) E) as (HL & Hlen & Hat).
    destruct (IH d1 d' ltac:(lia) Hw H) as (G1 & G2 & G3).
    split; [exact G1|]. split; [constructor; assumption|].
    intros t Ht. rewrite G3 by exact Ht. rewrite Hat by lia. cbn [existsb].
    destruct (in_win t w); cbn [orb]; destruct (existsb (in_win t) ws); reflexivity.
Qed.

Lemma fill_windows_ok ws v : forall d,
  zlen d = 1440 -> Forall inside_day ws -> exists d', fill_windows d ws v = Ok d'.
Proof.
  induction ws as [|w ws IH]; intros d Hd Hw; cbn [fill_windows]; [eauto|].
  apply Forall_cons_iff in Hw. destruct Hw as [Hi Hw].
  destruct (fill_window_ok d w v Hi Hd) as [d1 E]. rewrite E. cbn [rbind].
  destruct Hi as [Hi0 Hi1].
  destruct (fill_window_spec d w v d1 ltac:(lia) ltac:(lia) E) as (_ & Hlen & _).
  apply IH; [lia|assumption].
Qed.

Lemma fill_windows_err ws v e : forall d, fill_windows d ws v = Err e -> e = ValueError.
Proof.
  induction ws as [|w ws IH]; intros d H; cbn [fill_windows] in H; [discriminate|].
  destruct (fill_window d w v) as [d1|] eqn:E; cbn [rbind] in H; [eauto|].
  injection H as <-. eapply np_fill_slice_err; exact E.
Qed.

Lemma in_win_iff t w : in_win t w = true <-> minute_in t w.
Proof. unfold in_win, minute_in. lia. Qed.

Lemma existsb_in_win t ws : existsb (in_win t) ws = true <-> minute_in_some t ws.
Proof.
  rewrite existsb_exists. unfold minute_in_some. setoid_rewrite in_win_iff. reflexivity.
Qed.

Lemma zq_add a b : (zq (a + b) == zq a + zq b)%Q.
Proof. unfold zq. rewrite inject_Z_plus. reflexivity. Qed.
Lemma zq_mul a b : (zq (a * b) == zq a * zq b)%Q.
Proof. unfold zq. rewrite inject_Z_mult. reflexivity. Qed.
Lemma zq_opp a : (zq (- a) == - zq a)%Q.
Proof. unfold zq. rewrite inject_Z_opp. reflexivity. Qed.
Lemma zq_half n : (n # 2 == (1 # 2) * zq n)%Q.
Proof. rewrite Qmake_Qdiv. unfold zq. change (inject_Z 2) with 2%Q. field. Qed.

(** ** calc_rand_window (C06) *)

Lemma calc_rand_window_spec w rv :
  wp (calc_rand_window w rv)
     (fun r => (rv < 0 /\ r = Err ValueError) \/
        exists y0 y1, 0 <= rv /\ r = Ok (Z.max 0 y0, Z.min 1440 y1) /\
          fst w - rv <= y0 <= fst w + rv /\ snd w - rv <= y1 <= snd w + rv).
Proof.
  unfold calc_rand_window. apply wp_bind_ok. apply wp_randint.
  - intros H. left. split; [lia|reflexivity].
  - intros y0 H0. cbn [wpk]. apply wp_bind_ok. apply wp_randint.
    + intros H. left. split; [lia|reflexivity].
    + intros y1 H1. cbn [wpk wp]. right. exists y0, y1. split; [lia|]. split; [|lia].
      f_equal. f_equal.
      * destruct (Z.ltb_spec y0 0); lia.
      * destruct (y1 >? 1440) eqn:E; lia.
Qed.

Lemma calc_rand_window_in_day w rv :
  inside_day w -> 0 <= rv ->
  wp (calc_rand_window w rv)
     (fun r => exists x0 x1, r = Ok (x0, x1) /\ 0 <= x0 /\ x1 <= 1440 /\
        Z.abs (x0 - fst w) <= rv /\ Z.abs (x1 - snd w) <= rv).
Proof.
  intros [H0 H1] Hr. eapply wp_mono; [|apply calc_rand_window_spec].
  intros r [[H _]|(y0 & y1 & _ & -> & Hy0 & Hy1)]; [lia|].
  eexists; eexists; split; [reflexivity|]. lia.
Qed.

(** the variability declared by windows(): at most half the window when random_var_w <= 1/2,
    for any rounding *)
Lemma random_var_half (F : fm) rvw n :
  (0 <= rvw)%Q -> (rvw <= 1 # 2)%Q -> 0 <= n <= 2 ^ 53 ->
  0 <= py_int (fmul F rvw (zq n)) /\ 2 * py_int (fmul F rvw (zq n)) <= n.
Proof.
  intros H0 H1 Hn.
  assert (Hq : (0 <= zq n)%Q) by (change 0%Q with (zq 0); apply zq_le; lia).
  assert (Hlo : (0 <= fmul F rvw (zq n))%Q) by (apply rnd_nonneg; nra).
  assert (Hhi : (fmul F rvw (zq n) <= n # 2)%Q).
  { unfold fmul. apply rnd_le_fl.
    - unfold isfl. change (n # 2)%Q with (n # Z.to_pos (2 ^ 1)). apply rnd_dyadic; lia.
    - rewrite zq_half. nra. }
  pose proof (py_int_below _ Hlo) as Hb.
  split.
  - rewrite py_int_floor by exact Hlo. change 0 with (Qfloor 0). now apply Qfloor_resp_le.
  - set (k := py_int (fmul F rvw (zq n))) in *. clearbody k.
    assert (Hk : (zq k <= n # 2)%Q) by lra.
    rewrite zq_half in Hk. apply zq_le. rewrite zq_mul. change (zq 2) with 2%Q. lra.
Qed.

(** general bound: |random_var_i| <= int(random_var_w * length) is the definition; with
    0 <= random_var_w <= 1 it is between 0 and the length *)
Lemma random_var_range (F : fm) rvw n :
  (0 <= rvw <= 1)%Q -> 0 <= n <= 2 ^ 53 -> 0 <= py_int (fmul F rvw (zq n)) <= n.
Proof.
  intros [H0 H1] Hn.
  assert (Hq : (0 <= zq n)%Q) by (change 0%Q with (zq 0); apply zq_le; lia).
  apply (py_int_range 0 n). split.
  - change (zq 0) with 0%Q. apply rnd_nonneg. nra.
  - apply rnd_le_fl; [apply isfl_int; lia|]. nra.
Qed.

(** ** rand_total_time_of_use (C07) *)

(** 0.99 * total_time in floats is within 1/100 of the exact value *)
Lemma limit99_close (F : fm) T :
  Z.abs T <= 2 ^ 40 ->
  ((99 # 100) * zq T - (1 # 1000) <= fmul F (flit F (99 # 100)) (zq T) <= (99 # 100) * zq T + (1 # 1000))%Q.
Proof.
  intros HT. pose proof eps_bounds as (He & He' & Hh & Hh').
  set (B := zq (2 ^ 40)).
  assert (HB : (B == 1099511627776)%Q) by reflexivity.
  assert (HT' : (- B <= zq T <= B)%Q).
  { unfold B. split.
    - unfold zq. rewrite <- inject_Z_opp. apply zq_le. lia.
    - apply zq_le. lia. }
  clearbody B. set (t := zq T) in *. clearbody t.
  unfold fmul, flit. set (c := rnd F (99 # 100)).
  assert (Hc : ((99 # 100) - eps53 - eta64 <= c <= (99 # 100) + eps53 + eta64)%Q).
  { pose proof (rnd_err_bounds F (99 # 100) 1) as Hb. fold c in Hb.
    assert (Hb' : (-(1) <= 99 # 100 <= 1)%Q) by (split; vm_compute; congruence).
    destruct (Hb Hb') as [Hb1 Hb2]. setoid_replace (1 * eps53)%Q with eps53 in Hb1 by ring.
    setoid_replace (1 * eps53)%Q with eps53 in Hb2 by ring. split; lra. }
  clearbody c.
  assert (Hd : (- (2 # 9007199254740992) <= c - (99 # 100) <= (2 # 9007199254740992))%Q) by (destruct Hc; split; lra).
  set (dlt := (c - (99 # 100))%Q) in *.
  assert (Ec : (c == (99 # 100) + dlt)%Q) by (unfold dlt; ring).
  clearbody dlt.
  assert (Hp : (- ((2 # 9007199254740992) * B) <= dlt * t <= (2 # 9007199254740992) * B)%Q).
  { split; nra. }
  assert (Hct : (c * t == (99 # 100) * t + dlt * t)%Q) by (rewrite Ec; ring).
  assert (Hb : (- (2 * B) <= c * t <= 2 * B)%Q).
  { rewrite Hct. destruct Hp, HT'. split; lra. }
  pose proof (rnd_err_bounds F (c * t) (2 * B) Hb) as [G1 G2].
  assert (Hbe : (2 * B * eps53 <= 2 * B * (1 # 9007199254740992))%Q).
  { setoid_rewrite (Qmult_comm (2 * B)). apply Qmult_le_compat_r; lra. }
  set (be := (2 * B * eps53)%Q) in *. clearbody be.
  destruct Hp as [Hp1 Hp2].
  split; lra.
Qed.

Lemma limit99_int_le (F : fm) T z :
  Z.abs T <= 2 ^ 40 -> (zq z <= fmul F (flit F (99 # 100)) (zq T))%Q -> 100 * z <= 99 * T.
Proof.
  intros HT H. pose proof (limit99_close F T HT) as [_ H1].
  assert (H2 : (zq z <= (99 # 100) * zq T + (1 # 1000))%Q) by lra.
  assert (H3 : (zq (100 * z) < zq (99 * T + 1))%Q).
  { rewrite zq_add, !zq_mul. change (zq 100) with 100%Q. change (zq 99) with 99%Q. change (zq 1) with 1%Q. lra. }
  apply (proj1 (zq_lt _ _)) in H3. lia.
Qed.

Lemma limit99_int_lt (F : fm) T z :
  Z.abs T <= 2 ^ 40 -> (fmul F (flit F (99 # 100)) (zq T) < zq z)%Q -> 99 * T <= 100 * z.
Proof.
  intros HT H. pose proof (limit99_close F T HT) as [H1 _].
  assert (H2 : ((99 # 100) * zq T - (1 # 1000) < zq z)%Q) by lra.
  assert (H3 : (zq (99 * T) < zq (100 * z + 1))%Q).
  { rewrite zq_add, !zq_mul. change (zq 100) with 100%Q. change (zq 99) with 99%Q. change (zq 1) with 1%Q. lra. }
  apply (proj1 (zq_lt _ _)) in H3. lia.
Qed.
