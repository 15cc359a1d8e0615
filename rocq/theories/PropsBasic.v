(** * PropsBasic: theorems for C01-C03 and C06-C11

    Each theorem is the formal statement of the property of the same number in
    properties.jsonl; the [Example]s show that its hypotheses can be met. *)
From Verif Require Import Base Wp Tape Utils ListLemmas Appliance Spec SpecDay ProofsUtils ProofsUtils2
  ProofsAppliance ProofsEvent ProofsEvent2.
From Coq Require Import ZifyBool ZifyNat.

(** ** C01 *)

Theorem C01_peak_overlap s e ps pe :
  s <= e -> ps <= pe ->
  within_peak_time_window s e ps pe = true <-> exists m, s <= m <= e /\ ps <= m <= pe.
Proof. exact (within_peak_iff s e ps pe). Qed.

Theorem C01_cycle_window_overlap lo hi w :
  lo <= hi -> fst w <= snd w ->
  range_within_window lo hi w = true <-> exists m, lo <= m <= hi /\ fst w <= m <= snd w.
Proof. exact (range_within_iff lo hi w). Qed.

Example C01_case : within_peak_time_window 10 20 20 30 = true /\ within_peak_time_window 10 19 20 30 = false
  /\ range_within_window 5 6 (6, 9) = true /\ range_within_window 10 12 (6, 9) = false.
Proof. repeat split. Qed.

(** ** C02: any float rounding, deviation from the interval at most 2^-47 relative *)

Theorem C02_variation_bounds (F : fm) var norm x :
  (0 <= var <= 1)%Q -> (0 <= norm)%Q -> may (random_variation F var norm) (Ok x) ->
  (0 <= x)%Q /\
  (norm * (1 - var - rv_slack) - eta64 <= x <= norm * (1 + var + rv_slack) + eta64)%Q.
Proof.
  intros Hv Hn H.
  destruct (wp_elim _ _ _ (random_variation_ge F var norm Hv Hn) H) as (y & E & G & _). injection E as ->.
  destruct (wp_elim _ _ _ (random_variation_close F var norm Hv Hn) H) as (z & E & G'). injection E as ->.
  auto.
Qed.

(** in exact arithmetic the interval itself *)
Theorem C02_variation_interval (F : fm) var norm x :
  exact F -> (0 <= var)%Q -> (0 <= norm)%Q -> may (random_variation F var norm) (Ok x) ->
  (norm * (1 - var) <= x <= norm * (1 + var))%Q.
Proof.
  intros HF Hv Hn H.
  destruct (wp_elim _ _ _ (random_variation_interval F var norm HF Hv Hn) H) as (y & E & G). injection E as ->.
  exact G.
Qed.

(** the interval cannot be made smaller *)
Theorem C02_variation_tight (F : fm) var norm x :
  exact F -> (0 < var)%Q -> (0 < norm)%Q -> (norm * (1 - var) <= x)%Q -> (x < norm * (1 + var))%Q ->
  exists y, (y == x)%Q /\ may (random_variation F var norm) (Ok y).
Proof. exact (random_variation_attains F var norm x). Qed.

Theorem C02_no_variation (F : fm) norm x :
  isfl F norm -> may (random_variation F 0 norm) (Ok x) -> (x == norm)%Q.
Proof.
  intros Hn H. destruct (wp_elim _ _ _ (random_variation_0 F norm Hn) H) as (y & E & G).
  injection E as ->. exact G.
Qed.

(** it never raises *)
Theorem C02_variation_total (F : fm) var norm r :
  may (random_variation F var norm) r -> exists x, r = Ok x.
Proof. intros H. exact (wp_elim _ _ _ (random_variation_total F var norm) H). Qed.

Example C02_case : may (random_variation exact_fm (1 # 10) 50) (Ok (45 # 1)).
Proof. apply (follow_may _ [DQ 0]). vm_compute. reflexivity. Qed.

(** ** C03 *)

Theorem C03_duty_cycle (F : fm) var t1 p1 t2 p2 r :
  (0 <= var <= 1)%Q -> 0 <= t1 <= 2 ^ 20 -> 0 <= t2 <= 2 ^ 20 ->
  may (duty_cycle F var t1 p1 t2 p2) r ->
  exists n1 n2 : Z, r = Ok (repeat p1 (Z.to_nat n1) ++ repeat p2 (Z.to_nat n2)) /\
    half_length var t1 n1 /\ half_length var t2 n2.
Proof. intros Hv H1 H2 H. exact (wp_elim _ _ _ (duty_cycle_close F var t1 p1 t2 p2 Hv H1 H2) H). Qed.

(** exact arithmetic: exactly the bounds int(t*(1-var)) and int(t*(1+var)) *)
Theorem C03_duty_cycle_exact (F : fm) var t1 p1 t2 p2 r :
  exact F -> (0 <= var <= 1)%Q -> 0 <= t1 -> 0 <= t2 ->
  may (duty_cycle F var t1 p1 t2 p2) r ->
  exists n1 n2 : Z, r = Ok (repeat p1 (Z.to_nat n1) ++ repeat p2 (Z.to_nat n2)) /\
    Qfloor (zq t1 * (1 - var)) <= n1 <= Qfloor (zq t1 * (1 + var)) /\
    Qfloor (zq t2 * (1 - var)) <= n2 <= Qfloor (zq t2 * (1 + var)).
Proof. intros HF Hv H1 H2 H. exact (wp_elim _ _ _ (duty_cycle_bounds F var t1 p1 t2 p2 HF Hv H1 H2) H). Qed.

Theorem C03_duty_cycle_fixed (F : fm) t1 p1 t2 p2 r :
  0 <= t1 <= 2 ^ 53 -> 0 <= t2 <= 2 ^ 53 -> may (duty_cycle F 0 t1 p1 t2 p2) r ->
  r = Ok (repeat p1 (Z.to_nat t1) ++ repeat p2 (Z.to_nat t2)).
Proof. intros H1 H2 H. exact (wp_elim _ _ _ (duty_cycle_novar F t1 p1 t2 p2 H1 H2) H). Qed.

Theorem C03_random_choice (F : fm) var t1 p1 t2 p2 r :
  (0 <= var <= 1)%Q -> 0 <= t1 <= 2 ^ 20 -> 0 <= t2 <= 2 ^ 20 ->
  may (random_choice F var t1 p1 t2 p2) r ->
  exists n1 n2 : Z,
    (r = Ok (repeat p1 (Z.to_nat n1) ++ repeat p2 (Z.to_nat n2)) \/
     r = Ok (repeat p2 (Z.to_nat n2) ++ repeat p1 (Z.to_nat n1))) /\
    half_length var t1 n1 /\ half_length var t2 n2.
Proof. intros Hv H1 H2 H. exact (wp_elim _ _ _ (random_choice_close F var t1 p1 t2 p2 Hv H1 H2) H). Qed.

Example C03_case :
  may (random_choice exact_fm (1 # 2) 4 100 2 7) (Ok (repeat 7%Q 1 ++ repeat 100%Q 2)).
Proof. apply (follow_may _ [DQ 0; DQ 0; DQ (9 # 10); DQ (9 # 10); DZ 1]). vm_compute. reflexivity. Qed.

(** ** C06 *)

(** random_var_i as computed by windows(): int(random_var_w * length) *)
Theorem C06_randomised_window (F : fm) w rvw rw :
  inside_day w -> (0 <= rvw <= 1)%Q ->
  let rv := py_int (fmul F rvw (zq (length_of w))) in
  may (calc_rand_window w rv) (Ok rw) ->
  near w rv rw /\ Z.abs (fst rw - fst w) <= rv /\ Z.abs (snd rw - snd w) <= rv /\
  0 <= rv <= length_of w /\ 0 <= fst rw /\ snd rw <= 1440 /\
  ((rvw <= 1 # 2)%Q -> inside_day rw).
Proof.
  intros Hw Hv rv H.
  assert (Hlen : 0 <= length_of w <= 2 ^ 53) by (destruct Hw; unfold length_of; lia).
  pose proof (random_var_range F rvw (length_of w) Hv Hlen) as Hrv. fold rv in Hrv.
  destruct (wp_elim _ _ _ (calc_rand_window_spec w rv) H) as [[? _]|(y0 & y1 & _ & E & Y0 & Y1)]; [lia|].
  injection E as ->. destruct Hw as [Hw0 Hw1].
  split; [exists y0, y1; auto|]. cbn [fst snd].
  split; [lia|]. split; [lia|]. split; [lia|]. split; [lia|]. split; [lia|].
  intros Hh. destruct (random_var_half F rvw (length_of w) (proj1 Hv) Hh Hlen) as [_ H2]. fold rv in H2.
  unfold inside_day, length_of in *. cbn [fst snd]. lia.
Qed.

(** it never raises (given a non-negative variability) *)
Theorem C06_randomised_window_total w rv r :
  0 <= rv -> may (calc_rand_window w rv) r -> exists rw, r = Ok rw.
Proof.
  intros Hrv H. destruct (wp_elim _ _ _ (calc_rand_window_spec w rv) H) as [[? _]|(y0 & y1 & _ & -> & _)]; [lia|eauto].
Qed.

Example C06_case : inside_day (480, 540) /\ may (calc_rand_window (480, 540) 6) (Ok (474, 546)).
Proof. split; [unfold inside_day; cbn; lia|]. apply (follow_may _ [DZ 0; DZ 12]). vm_compute. reflexivity. Qed.

(** ** C07 *)

(** the three randomised windows are inside the day, so 0 <= T <= 4320 *)
Theorem C07_total_time (F : fm) a rw1 rw2 rw3 r :
  Forall inside_day [rw1; rw2; rw3] -> 0 <= func_cycle (par a) ->
  may (rand_total_time_of_use F a rw1 rw2 rw3) r ->
  let T := total_length [rw1; rw2; rw3] in
  (r = Err ValueError /\ 99 * T <= 100 * func_cycle (par a) /\ (exact F -> 99 * T < 100 * func_cycle (par a))) \/
  (exists t, r = Ok t /\ func_cycle (par a) <= t /\ 100 * t <= 99 * T).
Proof.
  intros Hd Hfc H T.
  assert (HT : 0 <= diff rw1 + diff rw2 + diff rw3 <= 4320).
  { unfold diff. repeat match goal with H : Forall inside_day (_ :: _) |- _ => apply Forall_cons_iff in H; destruct H as [[? ?] ?] end. lia. }
  assert (ET : diff rw1 + diff rw2 + diff rw3 = T).
  { unfold T, total_length, length_of, diff. cbn. lia. }
  pose proof (wp_elim _ _ _ (rtt_spec F a rw1 rw2 rw3 ltac:(lia) Hfc ltac:(lia)) H) as G.
  rewrite ET in G. exact G.
Qed.

(** ValueError exactly when func_cycle does not fit: the other direction *)
Theorem C07_raises_iff (F : fm) a rw1 rw2 rw3 r :
  Forall inside_day [rw1; rw2; rw3] -> 0 <= func_cycle (par a) -> exact F ->
  may (rand_total_time_of_use F a rw1 rw2 rw3) r ->
  r = Err ValueError <-> 99 * total_length [rw1; rw2; rw3] < 100 * func_cycle (par a).
Proof.
  intros Hd Hfc HF H. destruct (C07_total_time F a rw1 rw2 rw3 r Hd Hfc H) as [(-> & _ & H1)|(t & -> & H1 & H2)].
  - split; auto.
  - split; [discriminate|lia].
Qed.

Theorem C07_upper_bound (F : fm) a rw1 rw2 rw3 t :
  Forall inside_day [rw1; rw2; rw3] -> 0 <= func_cycle (par a) -> 0 <= func_time (par a) <= 1440 ->
  (0 <= time_var (par a) <= 1)%Q ->
  may (rand_total_time_of_use F a rw1 rw2 rw3) (Ok t) ->
  t <= Z.max (func_cycle (par a)) (Qfloor (zq (func_time (par a)) * (1 + time_var (par a)) + (1 # 1000))).
Proof.
  intros Hd Hfc Hft Hv H.
  assert (HT : 0 <= diff rw1 + diff rw2 + diff rw3 <= 4320).
  { unfold diff. repeat match goal with H : Forall inside_day (_ :: _) |- _ => apply Forall_cons_iff in H; destruct H as [[? ?] ?] end. lia. }
  exact (wp_elim _ _ _ (rtt_upper F a rw1 rw2 rw3 ltac:(lia) Hfc ltac:(lia) ltac:(lia) Hv) H t eq_refl).
Qed.

(** without variability: exactly func_time, raised to func_cycle and capped by the 99% limit *)
Theorem C07_no_variation (F : fm) a rw1 rw2 rw3 t :
  Forall inside_day [rw1; rw2; rw3] -> 0 <= func_cycle (par a) -> 0 <= func_time (par a) <= 1440 ->
  (time_var (par a) == 0)%Q ->
  may (rand_total_time_of_use F a rw1 rw2 rw3) (Ok t) ->
  t = Z.max (func_cycle (par a)) (func_time (par a)) \/
  (t < Z.max (func_cycle (par a)) (func_time (par a)) /\
   99 * total_length [rw1; rw2; rw3] <= 100 * Z.max (func_cycle (par a)) (func_time (par a)) /\
   99 * total_length [rw1; rw2; rw3] < 100 * (t + 1) + 1).
Proof.
  intros Hd Hfc Hft Hv H.
  assert (HT : 0 <= diff rw1 + diff rw2 + diff rw3 <= 4320).
  { unfold diff. repeat match goal with H : Forall inside_day (_ :: _) |- _ => apply Forall_cons_iff in H; destruct H as [[? ?] ?] end. lia. }
  assert (ET : diff rw1 + diff rw2 + diff rw3 = total_length [rw1; rw2; rw3]).
  { unfold total_length, length_of, diff. cbn. lia. }
  apply (wp_elim _ _ _ (rtt_novar F a rw1 rw2 rw3 Hv ltac:(lia)) H
    (fun r => forall t, r = Ok t ->
       t = Z.max (func_cycle (par a)) (func_time (par a)) \/
       (t < Z.max (func_cycle (par a)) (func_time (par a)) /\
        99 * total_length [rw1; rw2; rw3] <= 100 * Z.max (func_cycle (par a)) (func_time (par a)) /\
        99 * total_length [rw1; rw2; rw3] < 100 * (t + 1) + 1))); [|reflexivity].
  clear H t. rewrite ET in *. set (T := total_length [rw1; rw2; rw3]) in *.
  set (fc := func_cycle (par a)) in *. set (ft := func_time (par a)) in *.
  unfold cap_time.
  set (r0 := if ft <? fc then fc else ft). assert (E0 : r0 = Z.max fc ft) by (unfold r0; destruct (ft <? fc) eqn:E; lia).
  clearbody r0. set (L := fmul F (flit F (99 # 100)) (zq T)).
  pose proof (limit99_close F T ltac:(lia)) as HL. fold L in HL.
  destruct (Qltb L (zq r0)) eqn:EL.
  - apply Qltb_lt in EL. destruct (py_int L <? fc) eqn:E2; cbn [wp]; [discriminate|].
    intros t Ht. injection Ht as <-.
    assert (G1 : 99 * T <= 100 * r0) by (apply (limit99_int_lt F T r0 ltac:(lia)); exact EL).
    assert (HL0 : (0 <= L)%Q).
    { unfold L, fmul, flit. apply rnd_nonneg. apply Qmult_le_0_compat; [apply rnd_nonneg; discriminate|].
      apply (proj2 (zq_le 0 T)); lia. }
    destruct (py_int_cases L) as [(_ & P1 & P2)|(N & _)]; [|lra].
    assert (G2 : py_int L < r0) by (apply zq_lt; lra).
    right. split; [lia|]. split; [lia|].
    assert (G3 : (zq (99 * T) < zq (100 * (py_int L + 1) + 1))%Q).
    { rewrite !zq_add, !zq_mul, zq_add. change (zq 99) with 99%Q. change (zq 100) with 100%Q. change (zq 1) with 1%Q. lra. }
    exact (proj1 (zq_lt _ _) G3).
  - destruct (r0 <? fc) eqn:E2; cbn [wp]; [discriminate|]. intros t Ht. injection Ht as <-. left. exact E0.
Qed.

(** a concrete appliance: 3 units, 120 minutes a day, cycles of 10 minutes, two windows *)
Definition demo_params : params :=
  Params "tv" 3 2 120 (1 # 10) 10 "no" 0 1 1 "no" (1 # 10) 0 2.
Definition demo_wins : wins := Wins (480, 600) (1080, 1320) (0, 0) (1 # 10) 12 24 0.
Definition demo : appliance :=
  App demo_params [50%Q; 60%Q] false demo_wins default_cycle default_cycle default_cycle default_dyn.

Example C07_case :
  Forall inside_day [(480, 600); (1080, 1320); (0, 0)] /\
  may (rand_total_time_of_use exact_fm demo (480, 600) (1080, 1320) (0, 0)) (Ok 126).
Proof.
  split; [repeat constructor; unfold inside_day; cbn; lia|].
  apply (follow_may _ [DQ (99 # 100); DQ (1 # 2)]). vm_compute. reflexivity.
Qed.

(** ** C08 *)

Theorem C08_switch_on_event (F : fm) depth a d rand_time r :
  fixed_cycle (par a) <= 0 -> 1 <= func_cycle (par a) <= rand_time -> rand_time <= 2 ^ 52 ->
  may (rand_switch_on_window (S depth) F a d rand_time) r ->
  (* either no free range is long enough *)
  (r = Ok (None, d) /\ forall w, In w (free_spots d) -> length_of w < func_cycle (par a)) \/
  (* or the event is a run of consecutive minutes inside one free range *)
  ((exists w, In w (free_spots d) /\ func_cycle (par a) <= length_of w) /\
   exists indexes w s n, r = Ok (Some indexes, d) /\ run_of_minutes indexes s n /\
     In w (free_spots d) /\ fst w <= s /\ s + n <= snd w /\ func_cycle (par a) <= n <= rand_time).
Proof.
  intros Hfx Hfc Hrt H.
  destruct (wp_elim _ _ _ (rsw_spec (S depth) F a d rand_time ltac:(lia) Hrt) H)
    as [(-> & [Hd|(Hf & _)])|[(-> & Hf & _)|[(-> & Hno)|(ix & d' & -> & spot & s & n & n0 & Hs & H1 & H2 & H3 & -> & H4 & Hc)]]];
    [lia|lia|lia| |].
  - left. split; [reflexivity|]. exact Hno.
  - replace (fixed_cycle (par a) >? 0) with false in Hc by lia. destruct Hc as [-> ->].
    right. split; [exists spot; split; [exact Hs|unfold length_of; lia]|].
    exists (arange s (s + n0)), spot, s, n0. split; [reflexivity|]. split; [apply run_arange; lia|]. auto.
Qed.

Definition demo_state : dyn := Dyn (zeros day_minutes) [(480, 600); (1080, 1320)] [] [] [] 0.

Example C08_case :
  may (rand_switch_on_window 1 exact_fm demo demo_state 120) (Ok (Some (arange 590 600), demo_state)).
Proof. apply (follow_may _ [DZ 110]). vm_compute. reflexivity. Qed.

(** ** C09: the start is element number j of a duplicate free list of exactly the feasible
    starts, where j is one equiprobable draw *)

Theorem C09_uniform_start (F : fm) depth a d rand_time :
  fixed_cycle (par a) <= 0 -> 1 <= func_cycle (par a) <= rand_time -> rand_time <= 2 ^ 52 ->
  pairwise_disjoint (free_spots d) ->
  (exists w, In w (free_spots d) /\ func_cycle (par a) <= length_of w) ->
  exists (starts : list Z) (k : Z -> prog (option (list Z) * dyn)),
    NoDup starts /\
    (forall m, In m starts <-> exists w, In w (free_spots d) /\ fst w <= m /\ m + func_cycle (par a) <= snd w) /\
    rand_switch_on_window (S depth) F a d rand_time = RandBelow (zlen starts) k /\
    forall j, 0 <= j < zlen starts -> forall r, may (k j) r ->
      exists indexes, r = Ok (Some indexes, d) /\ indexes <> [] /\
        hd_error indexes = nth_error starts (Z.to_nat j).
Proof.
  intros Hfx Hfc Hrt Hdis Hex.
  destruct (rsw_uniform depth F a d rand_time Hfx Hfc Hrt Hex) as (k & Hk & Hj).
  exists (indexes_choice (free_spots d) (func_cycle (par a))), k.
  split; [apply NoDup_indexes_choice; [lia|exact Hdis]|].
  split; [intros m; apply in_indexes_choice|]. split; [exact Hk|].
  intros j Hjr r Hr. destruct (Hj j Hjr) as (m & Hm & Hall).
  destruct (Hall r Hr) as (ix & rest & -> & ->). exists (m :: rest).
  split; [reflexivity|]. split; [discriminate|]. now rewrite Hm.
Qed.

Example C09_case : fixed_cycle (par demo) <= 0 /\ 1 <= func_cycle (par demo) <= 120 /\
  pairwise_disjoint (free_spots demo_state) /\
  exists w, In w (free_spots demo_state) /\ func_cycle (par demo) <= length_of w.
Proof.
  split; [cbn; lia|]. split; [cbn; lia|]. split.
  - repeat constructor; cbn; lia.
  - exists (480, 600). split; [left; reflexivity|cbn; lia].
Qed.

(** ** C10 *)

Theorem C10_coincidence (F : fm) a inside r :
  1 <= number (par a) -> may (calc_coincident_switch_on F a inside) r ->
  exists c, r = Ok c /\ 1 <= c <= number (par a) /\
    (fixed (par a) <> "no"%string -> c = number (par a)).
Proof. intros Hn H. exact (wp_elim _ _ _ (coincidence_range F a inside Hn) H). Qed.

(** off peak, in exact arithmetic: one more than the fraction of appliances drawn *)
Theorem C10_off_peak_value (F : fm) n prob :
  exact F -> 1 <= n -> (0 <= prob)%Q -> (prob < 1)%Q ->
  on_number F n prob = Qfloor (prob * zq n) + 1.
Proof. exact (on_number_exact F n prob). Qed.

Example C10_case : may (calc_coincident_switch_on exact_fm demo false) (Ok 2).
Proof. apply (follow_may _ [DQ (1 # 2)]). vm_compute. reflexivity. Qed.
Example C10_case_peak : may (calc_coincident_switch_on exact_fm demo true) (Ok 3).
Proof. apply (follow_may _ [DQ 100]). vm_compute. reflexivity. Qed.

(** ** C11 *)

Theorem C11_booking (spots : list (Z * Z)) (indexes : list Z) s n w spots' :
  separated spots -> In w spots -> run_of_minutes indexes s n -> 1 <= n -> fst w <= s -> s + n <= snd w ->
  update_available_time spots indexes = Ok spots' ->
  separated spots' /\
  forall t, minute_in_some t spots' <-> (minute_in_some t spots /\ ~ In t indexes).
Proof.
  intros Hsep Hw Hrun Hn H1 H2 Hup.
  pose proof (run_of_minutes_arange _ _ _ Hrun) as ->.
  assert (E : update_available_time spots (arange s (s + n)) = Ok (book_spot spots s (s + n - 1))).
  { unfold update_available_time. destruct spots as [|w0 spots]; [contradiction|].
    rewrite py_first_arange, py_last_arange by lia. reflexivity. }
  rewrite E in Hup. injection Hup as <-. split; [apply book_spot_separated; [lia|exact Hsep]|].
  intros t. rewrite book_spot_free; [|lia|exact Hsep|exists w; split; [exact Hw|lia]].
  rewrite in_arange. split; intros [G1 G2]; (split; [exact G1|lia]).
Qed.

(** booking an event never fails *)
Theorem C11_booking_total spots indexes :
  indexes <> [] -> exists spots', update_available_time spots indexes = Ok spots'.
Proof.
  intros H. unfold update_available_time. destruct spots; [eauto|].
  destruct indexes; [contradiction|]. cbn. eauto.
Qed.

Example C11_case : separated [(480, 600); (1080, 1320)] /\
  update_available_time [(480, 600); (1080, 1320)] (arange 500 520) = Ok [(480, 500); (520, 600); (1080, 1320)].
Proof. split; [repeat constructor; cbn; lia|vm_compute; reflexivity]. Qed.
