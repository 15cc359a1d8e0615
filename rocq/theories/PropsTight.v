(** * PropsTight: converses and laws of the random draws (C02, C03, C06, C07, C10)

    The theorems of PropsBasic bound what a draw can give.  Here: every value inside the bounds
    can be drawn, and the value is the stated function of the numbers the generator hands out
    ([run] with an arbitrary generator).  So a program that draws less, or draws from another
    distribution, does not satisfy these. *)
From Verif Require Import Base Wp Tape Utils ListLemmas Appliance Spec SpecDay ProofsUtils ProofsUtils2
  ProofsAppliance ProofsEvent ProofsEvent2 PropsBasic.
From Coq Require Import ZifyBool ZifyNat.

(** ** Laws: the result as a function of the draws of any generator *)

(** C02: uniform between norm*(1-var) and norm*(1+var) *)
Theorem C02_variation_law (F : fm) (G : generator) var norm s :
  exact F ->
  exists x, run G (random_variation F var norm) s = (Ok x, snd (g_random G s)) /\
    (x == norm * ((1 - var) + 2 * var * fst (g_random G s)))%Q.
Proof.
  intros HF. unfold random_variation, py_uniform. cbn [bind run].
  destruct (g_random G s) as [u s']. cbn [fst snd run]. eexists. split; [reflexivity|].
  unfold fmul, fadd, fsub. rewrite !(HF _). ring.
Qed.

(** C06: both ends are moved by a number drawn uniformly among the 2*rv+1 integers -rv..rv *)
Theorem C06_window_law (G : generator) w rv s :
  0 <= rv ->
  let '(i, s1) := g_below G (2 * rv + 1) s in
  let '(j, s2) := g_below G (2 * rv + 1) s1 in
  run G (calc_rand_window w rv) s =
    (Ok (Z.max 0 (fst w - rv + i), Z.min 1440 (snd w - rv + j)), s2).
Proof.
  intros Hrv. unfold calc_rand_window, py_randint.
  replace (fst w + rv + 1 - (fst w - rv)) with (2 * rv + 1) by ring.
  replace (snd w + rv + 1 - (snd w - rv)) with (2 * rv + 1) by ring.
  replace (2 * rv + 1 <=? 0) with false by lia. cbn [bind run].
  destruct (g_below G (2 * rv + 1) s) as [i s1]. cbn [run].
  destruct (g_below G (2 * rv + 1) s1) as [j s2]. cbn [run].
  f_equal. f_equal. f_equal.
  - destruct (fst w - rv + i <? 0) eqn:E; lia.
  - destruct (snd w - rv + j >? 1440) eqn:E; lia.
Qed.

(** C10, event inside the peak: the normal law of mean n/2 and deviation n/4, rounded up and clipped
    to 1..n *)
Theorem C10_peak_law (F : fm) (G : generator) a s :
  exact F -> fixed (par a) = "no"%string ->
  let n := number (par a) in
  run G (calc_coincident_switch_on F a true) s =
    (Ok (Z.min n (Z.max 1 (Qceiling (zq n / 2 + fst (g_normal G true s) * (zq n / 4))))),
     snd (g_normal G true s)).
Proof.
  intros HF Hfx n. unfold calc_coincident_switch_on. rewrite Hfx. cbn [String.eqb Ascii.eqb Bool.eqb andb].
  cbn [bind py_gauss run]. destruct (g_normal G true s) as [z s']. cbn [run fst snd].
  f_equal. f_equal. f_equal. f_equal. unfold py_ceil. apply Qceiling_comp.
  unfold fmul, fadd, half. rewrite !(HF _). fold n. field.
Qed.

(** C10, event outside the peak: floor(u*(n - 1/2)) + 1 for a uniform u, so each of 1..n-1 has the
    probability 1/(n - 1/2) and n half of it *)
Theorem C10_off_peak_law (F : fm) (G : generator) a s :
  exact F -> fixed (par a) = "no"%string -> 1 <= number (par a) ->
  let n := number (par a) in
  run G (calc_coincident_switch_on F a false) s =
    (Ok (Qfloor (fst (g_random G s) * (zq n - (1 # 2))) + 1), snd (g_random G s)).
Proof.
  intros HF Hfx Hn n. unfold calc_coincident_switch_on. rewrite Hfx.
  cbn [String.eqb Ascii.eqb Bool.eqb andb negb].
  replace (number (par a) =? 0) with false by lia. cbn [bind py_uniform run].
  pose proof (g_random_range G s) as [U0 U1]. destruct (g_random G s) as [u s']. cbn [run fst snd] in *.
  f_equal. f_equal. fold n.
  assert (N1 : (1 <= zq n)%Q) by (apply (proj2 (zq_le 1 n)); unfold n; lia).
  set (prob := fadd F 0 _).
  assert (E : (prob * zq n == u * (zq n - (1 # 2)))%Q).
  { unfold prob, fadd, fmul, fdiv, fsub, half. rewrite !(HF _). field. lra. }
  assert (P0 : (0 <= prob)%Q).
  { destruct (Qlt_le_dec prob 0) as [H|H]; [|exact H]. exfalso.
    assert (prob * zq n < 0)%Q by nra. rewrite E in H0. nra. }
  assert (P1 : (prob < 1)%Q).
  { destruct (Qlt_le_dec prob 1) as [H|H]; [exact H|]. exfalso.
    assert (zq n <= prob * zq n)%Q by nra. rewrite E in H0. nra. }
  rewrite (on_number_exact F n prob HF Hn P0 P1). f_equal. apply Qfloor_comp. exact E.
Qed.

Theorem C10_fixed_law (F : fm) (G : generator) a inside s :
  fixed (par a) <> "no"%string ->
  run G (calc_coincident_switch_on F a inside) s = (Ok (number (par a)), s).
Proof.
  intros H. unfold calc_coincident_switch_on.
  destruct (String.eqb_spec (fixed (par a)) "no"); [contradiction|].
  rewrite !andb_false_r. reflexivity.
Qed.

(** every number from 1 to n can be on at the same time, in and off the peak *)
Theorem C10_all_numbers (F : fm) a inside c :
  exact F -> fixed (par a) = "no"%string -> 1 <= c <= number (par a) ->
  may (calc_coincident_switch_on F a inside) (Ok c).
Proof.
  intros HF Hfx Hc. unfold calc_coincident_switch_on. rewrite Hfx.
  cbn [String.eqb Ascii.eqb Bool.eqb]. set (n := number (par a)) in *.
  assert (N1 : (1 <= zq n)%Q) by (apply (proj2 (zq_le 1 n)); lia).
  assert (C1 : (1 <= zq c)%Q) by (apply (proj2 (zq_le 1 c)); lia).
  assert (C2 : (zq c <= zq n)%Q) by (apply zq_le; lia).
  destruct inside; cbn [andb negb].
  - cbn [bind py_gauss]. apply may_normal with (z := ((4 * zq c - 2 * zq n) / zq n)%Q).
    match goal with |- may (Ret ?v) (Ok ?c) => replace v with c; [constructor|] end.
    assert (E : py_ceil (fadd F (fmul F (zq n) half)
        (fmul F ((4 * zq c - 2 * zq n) / zq n) (fmul F (fmul F half (zq n)) half))) = c).
    { unfold py_ceil. transitivity (Qceiling (zq c)); [|apply Qceiling_Z]. apply Qceiling_comp.
      unfold fmul, fadd, half. rewrite !(HF _). clearbody n. field. lra. }
    rewrite E. lia.
  - replace (n =? 0) with false by lia. cbn [bind py_uniform].
    apply may_random with (u := ((zq c - 1) / (zq n - (1 # 2)))%Q).
    + apply Qle_shift_div_l; lra.
    + apply Qlt_shift_div_r; lra.
    + match goal with |- may (Ret ?v) (Ok ?c) => replace v with c; [constructor|] end.
      set (prob := fadd F 0 _).
      assert (Ec : (zq (c - 1) == zq c - 1)%Q).
      { unfold zq. change (c - 1) with (c + - (1)). rewrite inject_Z_plus. reflexivity. }
      assert (E : (prob * zq n == zq c - 1)%Q).
      { unfold prob, fadd, fmul, fdiv, fsub, half. rewrite !(HF _). clearbody n. field. lra. }
      assert (P0 : (0 <= prob)%Q).
      { destruct (Qlt_le_dec prob 0) as [H|H]; [|exact H]. exfalso.
        assert (prob * zq n < 0)%Q by nra. rewrite E in H0. lra. }
      assert (P1 : (prob < 1)%Q).
      { destruct (Qlt_le_dec prob 1) as [H|H]; [exact H|]. exfalso.
        assert (zq n <= prob * zq n)%Q by nra. rewrite E in H0. lra. }
      rewrite (on_number_exact F n prob HF ltac:(lia) P0 P1).
      rewrite <- Ec in E. rewrite (Qfloor_comp _ _ E). unfold zq. rewrite Qfloor_Z. lia.
Qed.

(** ** C06: every window within rv of the declared one (clipped to the day) can be drawn *)

Theorem C06_window_tight w rv rw :
  near w rv rw -> may (calc_rand_window w rv) (Ok rw).
Proof.
  intros (y0 & y1 & -> & H0 & H1). unfold calc_rand_window.
  apply may_bind. left. exists y0. split.
  - apply may_randint. right. exists y0. split; [lia|reflexivity].
  - apply may_bind. left. exists y1. split.
    + apply may_randint. right. exists y1. split; [lia|reflexivity].
    + match goal with |- may (Ret ?v) (Ok ?c) => replace v with c; [constructor|] end.
      f_equal; [destruct (y0 <? 0) eqn:E; lia|destruct (y1 >? 1440) eqn:E; lia].
Qed.

(** ** C03: exactly which duty cycles can be drawn *)

(** [n] minutes is the integer part of [t] times a factor between 1-var (not included) and 1+var *)
Definition can_last (var : Q) (t n : Z) : Prop :=
  exists f, ((1 - var < f)%Q \/ (var == 0)%Q) /\ (1 - var <= f <= 1 + var)%Q /\ n = Qfloor (zq t * f).

Lemma variation_neg_may (F : fm) var t n :
  exact F -> (0 <= var <= 1)%Q -> 0 <= t ->
  (exists x, may (random_variation F (- var) (zq t)) (Ok x) /\ py_int x = n) <-> can_last var t n.
Proof.
  intros HF [V0 V1] Ht. assert (T0 : (0 <= zq t)%Q) by (apply (proj2 (zq_le 0 t)); lia).
  unfold random_variation, py_uniform. cbn [bind]. split.
  - intros (x & H & <-).
    inversion H as [| |u k r U0 U1 Hr| | |]; subst. inversion Hr; subst. clear H Hr.
    exists (1 + var - 2 * var * u)%Q. split; [|split].
    + destruct (Qlt_le_dec 0 var) as [Hv|Hv]; [left; nra|right; lra].
    + split; nra.
    + unfold fmul, fadd, fsub.
      match goal with |- py_int ?y = _ => assert (E : (y == zq t * (1 + var - 2 * var * u))%Q) end.
      { rewrite !(HF _). ring. }
      unfold py_int. match goal with |- (if Qle_bool 0 ?y then _ else _) = _ =>
        replace (Qle_bool 0 y) with true end.
      * apply Qfloor_comp. exact E.
      * symmetry. apply Qle_bool_iff. rewrite E. apply Qmult_le_0_compat; [exact T0|nra].
  - intros (f & Hs & Hf & ->).
    assert (exists u, (0 <= u)%Q /\ (u < 1)%Q /\ (1 + var - 2 * var * u == f)%Q) as (u & U0 & U1 & Eu).
    { destruct (Qlt_le_dec 0 var) as [Hv|Hv].
      - exists ((1 + var - f) / (2 * var))%Q. split; [|split].
        + apply Qle_shift_div_l; lra.
        + apply Qlt_shift_div_r; [lra|]. destruct Hs as [Hs|Hs]; lra.
        + field. lra.
      - exists 0%Q. split; [lra|]. split; [lra|]. assert (Ev : (var == 0)%Q) by lra.
        rewrite Ev in *. lra. }
    eexists. split; [apply may_random with (u := u); [exact U0|exact U1|constructor]|].
    match goal with |- py_int ?y = _ => assert (E : (y == zq t * f)%Q) end.
    { unfold fmul, fadd, fsub. rewrite !(HF _). rewrite <- Eu. ring. }
    unfold py_int. match goal with |- (if Qle_bool 0 ?y then _ else _) = _ =>
      replace (Qle_bool 0 y) with true end.
    + apply Qfloor_comp. exact E.
    + symmetry. apply Qle_bool_iff. rewrite E. apply Qmult_le_0_compat; [exact T0|lra].
Qed.

Lemma can_last_nonneg var t n : (0 <= var <= 1)%Q -> 0 <= t -> can_last var t n -> 0 <= n.
Proof.
  intros [V0 V1] Ht (f & _ & [F0 F1] & ->).
  assert (T0 : (0 <= zq t)%Q) by (apply (proj2 (zq_le 0 t)); lia).
  change 0 with (Qfloor 0). apply Qfloor_resp_le. apply Qmult_le_0_compat; lra.
Qed.

Theorem C03_duty_cycle_tight (F : fm) var t1 p1 t2 p2 l :
  exact F -> (0 <= var <= 1)%Q -> 0 <= t1 -> 0 <= t2 ->
  may (duty_cycle F var t1 p1 t2 p2) (Ok l) <->
  exists n1 n2, l = repeat p1 (Z.to_nat n1) ++ repeat p2 (Z.to_nat n2) /\ can_last var t1 n1 /\ can_last var t2 n2.
Proof.
  intros HF Hv H1 H2. unfold duty_cycle. split.
  - intros H. apply may_bind in H. destruct H as [(x1 & M1 & H)|(e & _ & E)]; [|discriminate].
    assert (L1 : can_last var t1 (py_int x1)) by (apply (variation_neg_may F); eauto).
    pose proof (can_last_nonneg _ _ _ Hv H1 L1) as N1.
    unfold np_ones_times in H. replace (py_int x1 <? 0) with false in H by lia. cbn [lift bind] in H.
    apply may_bind in H. destruct H as [(x2 & M2 & H)|(e & _ & E)]; [|discriminate].
    assert (L2 : can_last var t2 (py_int x2)) by (apply (variation_neg_may F); eauto).
    pose proof (can_last_nonneg _ _ _ Hv H2 L2) as N2.
    replace (py_int x2 <? 0) with false in H by lia. cbn [lift bind] in H.
    apply may_ret_inv in H. injection H as ->. exists (py_int x1), (py_int x2). auto.
  - intros (n1 & n2 & -> & L1 & L2).
    pose proof (can_last_nonneg _ _ _ Hv H1 L1) as N1. pose proof (can_last_nonneg _ _ _ Hv H2 L2) as N2.
    apply (variation_neg_may F) in L1; [|assumption..]. apply (variation_neg_may F) in L2; [|assumption..].
    destruct L1 as (x1 & M1 & E1). destruct L2 as (x2 & M2 & E2).
    apply may_bind. left. exists x1. split; [exact M1|].
    unfold np_ones_times. rewrite E1. replace (n1 <? 0) with false by lia. cbn [lift bind].
    apply may_bind. left. exists x2. split; [exact M2|].
    rewrite E2. replace (n2 <? 0) with false by lia. cbn [lift bind]. constructor.
Qed.

(** the two orders of the two halves, and nothing else *)
Theorem C03_random_choice_tight (F : fm) var t1 p1 t2 p2 l :
  exact F -> (0 <= var <= 1)%Q -> 0 <= t1 -> 0 <= t2 ->
  may (random_choice F var t1 p1 t2 p2) (Ok l) <->
  exists n1 n2, can_last var t1 n1 /\ can_last var t2 n2 /\
    (l = repeat p1 (Z.to_nat n1) ++ repeat p2 (Z.to_nat n2) \/
     l = repeat p2 (Z.to_nat n2) ++ repeat p1 (Z.to_nat n1)).
Proof.
  intros HF Hv H1 H2. unfold random_choice. split.
  - intros H. apply may_bind in H. destruct H as [(d1 & M1 & H)|(e & _ & E)]; [|discriminate].
    apply may_bind in H. destruct H as [(d2 & M2 & H)|(e & _ & E)]; [|discriminate].
    apply (C03_duty_cycle_tight F) in M1; [|assumption..]. apply (C03_duty_cycle_tight F) in M2; [|assumption..].
    destruct M1 as (n1 & n2 & -> & L1 & L2). destruct M2 as (m2 & m1 & -> & K2 & K1).
    unfold py_choice2 in H. inversion H as [| | |nn i k r Hi Hr| |]; subst.
    apply may_ret_inv in Hr. injection Hr as Hr. destruct (i =? 0); subst l.
    + exists n1, n2. auto.
    + exists m1, m2. auto.
  - assert (Hself : forall t, 0 <= t -> exists n, can_last var t n).
    { intros t _. exists (Qfloor (zq t * (1 + var))), (1 + var)%Q. split; [|split; [lra|reflexivity]].
      destruct (Qlt_le_dec 0 var); [left; lra|right; lra]. }
    intros (n1 & n2 & L1 & L2 & Hl).
    destruct (Hself t1 H1) as (k1 & K1). destruct (Hself t2 H2) as (k2 & K2).
    destruct Hl as [->| ->].
    + apply may_bind. left. eexists. split; [apply C03_duty_cycle_tight; [assumption..|exists n1, n2; split; [reflexivity|split; assumption]]|].
      apply may_bind. left. eexists. split; [apply C03_duty_cycle_tight; [assumption..|exists k2, k1; split; [reflexivity|split; assumption]]|].
      unfold py_choice2. apply may_below with (i := 0); [lia|constructor].
    + apply may_bind. left. eexists. split; [apply C03_duty_cycle_tight; [assumption..|exists k1, k2; split; [reflexivity|split; assumption]]|].
      apply may_bind. left. eexists. split; [apply C03_duty_cycle_tight; [assumption..|exists n2, n1; split; [reflexivity|split; assumption]]|].
      unfold py_choice2. apply may_below with (i := 1); [lia|constructor].
Qed.

(** both orders have the same chance: the order is decided by one draw of 0 or 1 *)
Theorem C03_order_law (F : fm) (G : generator) var t1 p1 t2 p2 s l s3 :
  run G (random_choice F var t1 p1 t2 p2) s = (Ok l, s3) ->
  exists d1 s1 d2 s2,
    run G (duty_cycle F var t1 p1 t2 p2) s = (Ok d1, s1) /\
    run G (duty_cycle F var t2 p2 t1 p1) s1 = (Ok d2, s2) /\
    s3 = snd (g_below G 2 s2) /\ l = (if fst (g_below G 2 s2) =? 0 then d1 else d2).
Proof.
  unfold random_choice. rewrite run_bind. destruct (run G (duty_cycle F var t1 p1 t2 p2) s) as [[d1|e] s1]; [|discriminate].
  rewrite run_bind. destruct (run G (duty_cycle F var t2 p2 t1 p1) s1) as [[d2|e] s2] eqn:E2; [|discriminate].
  unfold py_choice2. cbn [run]. destruct (g_below G 2 s2) as [i s'] eqn:E. cbn [run].
  intros H. injection H as <- <-. exists d1, s1, d2, s2. rewrite E. auto.
Qed.

(** ** C07: lower bound and converse *)

Lemma cap_time_low (F : fm) fc T r0 t :
  0 <= T <= 2 ^ 40 -> may (cap_time F fc T r0) (Ok t) ->
  t = Z.max fc r0 \/ (t < Z.max fc r0 /\ 99 * T < 100 * (t + 1) + 1).
Proof.
  intros HT. unfold cap_time.
  set (r1 := if r0 <? fc then fc else r0). assert (E0 : r1 = Z.max fc r0) by (unfold r1; destruct (r0 <? fc) eqn:E; lia).
  clearbody r1. set (L := fmul F (flit F (99 # 100)) (zq T)).
  pose proof (limit99_close F T ltac:(lia)) as HL. fold L in HL.
  assert (HL0 : (0 <= L)%Q).
  { unfold L, fmul, flit. apply rnd_nonneg. apply Qmult_le_0_compat; [apply rnd_nonneg; discriminate|].
    apply (proj2 (zq_le 0 T)); lia. }
  clearbody L.
  destruct (Qltb L (zq r1)) eqn:EL.
  - apply Qltb_lt in EL. destruct (py_int L <? fc) eqn:E2; intros H;
      [apply may_raise_inv in H; discriminate|].
    apply may_ret_inv in H. injection H as ->.
    destruct (py_int_cases L) as [(_ & P1 & P2)|(N & _)]; [|lra].
    assert (G2 : py_int L < r1) by (apply zq_lt; lra).
    right. split; [lia|].
    assert (G3 : (zq (99 * T) < zq (100 * (py_int L + 1) + 1))%Q).
    { rewrite !zq_add, !zq_mul, zq_add. change (zq 99) with 99%Q. change (zq 100) with 100%Q. change (zq 1) with 1%Q. lra. }
    exact (proj1 (zq_lt _ _) G3).
  - destruct (r1 <? fc) eqn:E2; intros H; [apply may_raise_inv in H; discriminate|].
    apply may_ret_inv in H. injection H as ->. left. exact E0.
Qed.

(** the total time is not below func_time*(1-var), unless the windows are too short for it: then it is
    within one minute of 99% of the windows *)
Theorem C07_lower_bound (F : fm) a rw1 rw2 rw3 t :
  Forall inside_day [rw1; rw2; rw3] -> 0 <= func_cycle (par a) -> 0 <= func_time (par a) <= 1440 ->
  (0 <= time_var (par a) <= 1)%Q ->
  may (rand_total_time_of_use F a rw1 rw2 rw3) (Ok t) ->
  Z.max (func_cycle (par a)) (Qfloor (zq (func_time (par a)) * (1 - time_var (par a)) - (1 # 1000))) <= t \/
  99 * total_length [rw1; rw2; rw3] < 100 * (t + 1) + 1.
Proof.
  intros Hd Hfc Hft Hv H. set (fc := func_cycle (par a)) in *. set (ft := func_time (par a)) in *.
  set (v := time_var (par a)) in *.
  assert (HT : 0 <= diff rw1 + diff rw2 + diff rw3 <= 4320).
  { unfold diff. repeat match goal with H : Forall inside_day (_ :: _) |- _ => apply Forall_cons_iff in H; destruct H as [[? ?] ?] end. lia. }
  assert (ET : diff rw1 + diff rw2 + diff rw3 = total_length [rw1; rw2; rw3]).
  { unfold total_length, length_of, diff. cbn. lia. }
  rewrite rtt_unfold in H. fold fc ft v in H.
  apply may_bind in H. destruct H as [(x & Mx & H)|(e & _ & E)]; [|discriminate].
  destruct (wp_elim _ _ _ (random_variation_close F v 1 Hv ltac:(lra)) Mx) as (x' & Ex & Hx1 & Hx2).
  injection Ex as <-.
  apply may_bind in H. destruct H as [(u & Mu & H)|(e & _ & E)]; [|discriminate].
  inversion Mu as [| |w k r U0 U1 Hr| | |]; subst. apply may_ret_inv in Hr. injection Hr as ->.
  rewrite ET in H, HT. assert (HT' : 0 <= total_length [rw1; rw2; rw3] <= 2 ^ 40) by lia.
  destruct (cap_time_low F fc _ _ _ HT' H) as [->|[_ Hlim]]; [left|right; exact Hlim].
  apply Z.max_le_compat_l.
  set (y := fmul F (zq ft) x) in *. set (Lo := Qfloor (zq ft * (1 - v) - (1 # 1000))).
  assert (Hq0 : (0 <= zq ft)%Q) by (change 0%Q with (zq 0); apply zq_le; lia).
  assert (Hq1 : (zq ft <= 1440)%Q) by (change 1440%Q with (zq 1440); apply zq_le; lia).
  pose proof eps_bounds as (He & He' & Hh & Hh').
  assert (Hs : (rv_slack == 1 # 140737488355328)%Q) by reflexivity.
  rewrite Hs in Hx1, Hx2. clear Hs. destruct Hv as [Hv0 Hv1].
  assert (Hy : (zq ft * (1 - v) - (1 # 1000) <= y <= 5000)%Q).
  { unfold y, fmul.
    assert (Hxb : (- (1) <= x <= 3)%Q) by (split; lra).
    assert (Hb : (- (4320) <= zq ft * x <= 4320)%Q) by (destruct Hxb; split; nra).
    destruct (rnd_err_bounds F (zq ft * x) 4320 Hb) as [G1 G2].
    assert (Hlo : (zq ft * (1 - v) - (1 # 100000) <= zq ft * x)%Q).
    { apply Qle_trans with (zq ft * (1 - v - (1 # 70368744177664)))%Q; [nra|].
      setoid_rewrite (Qmult_comm (zq ft)). apply Qmult_le_compat_r; [lra|exact Hq0]. }
    assert (G3 : (4320 * eps53 <= 1 # 100000)%Q) by lra.
    assert (G4 : (eta64 <= 1 # 100000)%Q) by lra.
    split; lra. }
  assert (HLft : Lo <= ft).
  { unfold Lo. rewrite <- (Qfloor_Z ft) at 2. apply Qfloor_resp_le. fold (zq ft). nra. }
  assert (HLy : Lo <= py_int y).
  { destruct (py_int_cases y) as [(P0 & P1 & P2)|(N0 & N1 & N2)].
    - rewrite py_int_floor by exact P0. apply Qfloor_resp_le. lra.
    - assert (N3 : -1 < py_int y \/ py_int y <= -1) by lia. destruct N3 as [N3|N3].
      + apply Z.le_trans with (Qfloor (zq (py_int y))); [apply Qfloor_resp_le; lra|].
        unfold zq. rewrite Qfloor_Z. lia.
      + apply Z.le_trans with (Qfloor (zq (py_int y))); [apply Qfloor_resp_le; lra|].
        unfold zq. rewrite Qfloor_Z. lia. }
  assert (HyU : Z.abs (py_int y) <= 5001).
  { assert (A : py_int y <= 5000) by (rewrite <- (py_int_zq 5000); apply py_int_mono; apply Hy).
    assert (B : -1 <= py_int y).
    { rewrite <- (py_int_zq (-1)). apply py_int_mono. change (zq (-1)) with (-(1))%Q. nra. }
    lia. }
  pose proof (uniform_range_int F ft (py_int y) w ltac:(lia) ltac:(lia) U0 U1) as Hr. cbv zeta in Hr.
  apply py_round_range in Hr. unfold Lo in *. lia.
Qed.

Lemma py_round_near t x : (zq t - (1 # 4) <= x <= zq t + (1 # 4))%Q -> py_round x = t.
Proof.
  intros [H0 H1]. unfold py_round.
  pose proof (Qfloor_le x) as Hf. pose proof (Qlt_floor x) as Hg.
  rewrite inject_Z_plus in Hg. change (inject_Z 1) with 1%Q in Hg. fold (zq (Qfloor x)) in *.
  assert (Ha : t - 1 <= Qfloor x).
  { apply Z.lt_succ_r. apply zq_lt. replace (Z.succ (Qfloor x)) with (Qfloor x + 1) by lia.
    rewrite zq_add. change (t - 1) with (t + - (1)). rewrite zq_add. change (zq 1) with 1%Q. change (zq (-(1))) with (-(1))%Q. lra. }
  assert (Hb : Qfloor x <= t).
  { apply Z.lt_succ_r. apply zq_lt. replace (Z.succ t) with (t + 1) by lia.
    rewrite zq_add. change (zq 1) with 1%Q. lra. }
  assert (Hc : Qfloor x = t \/ Qfloor x + 1 = t) by lia. destruct Hc as [Hc|Hc].
  - rewrite Hc in *. replace (Qltb (x - zq t) (1 # 2)) with true; [reflexivity|].
    symmetry. apply Qltb_lt. lra.
  - assert (Et : (zq t == zq (Qfloor x) + 1)%Q) by (rewrite <- Hc, zq_add; reflexivity).
    replace (Qltb (x - zq (Qfloor x)) (1 # 2)) with false by (symmetry; apply Qltb_ge; lra).
    replace (Qltb (1 # 2) (x - zq (Qfloor x))) with true; [exact Hc|]. symmetry. apply Qltb_lt. lra.
Qed.

(** every whole number of minutes from func_time*(1-var) up to func_time*(1+var) can be drawn, if it is
    at least func_cycle and at most 99% of the windows *)
Theorem C07_tight (F : fm) a rw1 rw2 rw3 t :
  exact F -> 0 <= func_time (par a) -> (0 <= time_var (par a))%Q ->
  t = func_time (par a) \/
    (zq (func_time (par a)) * (1 - time_var (par a)) <= zq t < zq (func_time (par a)) * (1 + time_var (par a)))%Q ->
  func_cycle (par a) <= t -> 0 <= t -> 100 * t <= 99 * total_length [rw1; rw2; rw3] ->
  may (rand_total_time_of_use F a rw1 rw2 rw3) (Ok t).
Proof.
  intros HF Hft Hv Ht Hfc Ht0 Hlim. rewrite rtt_unfold.
  set (fc := func_cycle (par a)) in *. set (ft := func_time (par a)) in *. set (v := time_var (par a)) in *.
  assert (ET : diff rw1 + diff rw2 + diff rw3 = total_length [rw1; rw2; rw3]).
  { unfold total_length, length_of, diff. cbn. lia. }
  rewrite ET. set (T := total_length [rw1; rw2; rw3]) in *.
  assert (Hcap : may (cap_time F fc T t) (Ok t)).
  { unfold cap_time. replace (t <? fc) with false by lia.
    replace (Qltb (fmul F (flit F (99 # 100)) (zq T)) (zq t)) with false.
    - replace (t <? fc) with false by lia. constructor.
    - symmetry. apply Qltb_ge. unfold fmul, flit. rewrite !(HF _).
      assert (G : (zq (100 * t) <= zq (99 * T))%Q) by (apply zq_le; exact Hlim).
      rewrite !zq_mul in G. change (zq 100) with 100%Q in G. change (zq 99) with 99%Q in G. lra. }
  destruct (Z.eq_dec t ft) as [Et|Nt].
  - assert (exists x, may (random_variation F v 1) (Ok x)) as (x & Mx).
    { eexists. unfold random_variation, py_uniform. cbn [bind].
      apply may_random with (u := 0%Q); [lra|lra|constructor]. }
    apply may_bind. left. exists x. split; [exact Mx|].
    apply may_bind. left. eexists. split; [apply may_random with (u := 0%Q); [lra|lra|constructor]|].
    match goal with |- may (cap_time F fc T (py_round ?z)) _ => replace (py_round z) with t; [exact Hcap|] end.
    transitivity (py_round (zq ft)); [rewrite py_round_zq; exact Et|]. apply py_round_proper.
    unfold fadd, fmul, fsub. rewrite !(HF _). ring.
  - destruct Ht as [Ht|[Ht1 Ht2]]; [contradiction|].
    assert (Hft1 : 1 <= ft).
    { destruct (Z.eq_dec ft 0) as [E|]; [|lia]. rewrite E in Ht2. change (zq 0) with 0%Q in Ht2.
      assert (zq t < zq 0)%Q by (change (zq 0) with 0%Q; lra). apply (proj1 (zq_lt _ _)) in H. lia. }
    assert (Q1 : (1 <= zq ft)%Q) by (apply (proj2 (zq_le 1 ft)); lia).
    assert (Hv0 : (0 < v)%Q).
    { destruct (Qlt_le_dec 0 v) as [Hv0|Hv0]; [exact Hv0|]. exfalso. assert (E : (v == 0)%Q) by lra.
      rewrite E in Ht1, Ht2. apply Nt. apply Z.le_antisymm; apply zq_le; lra. }
    assert (Ex : (zq t / zq ft * zq ft == zq t)%Q) by (field; lra).
    destruct (random_variation_attains F v 1 (zq t / zq ft) HF Hv0 ltac:(lra)) as (x & Hx & Mx).
    { setoid_replace (1 * (1 - v))%Q with (1 - v)%Q by ring. apply Qle_shift_div_l; lra. }
    { setoid_replace (1 * (1 + v))%Q with (1 + v)%Q by ring. apply Qlt_shift_div_r; lra. }
    apply may_bind. left. exists x. split; [exact Mx|].
    assert (Ei : py_int (fmul F (zq ft) x) = t).
    { rewrite <- (py_int_zq t). apply py_int_proper. unfold fmul. rewrite (HF _), Hx. field. lra. }
    rewrite Ei. set (D := zq (Z.abs (t - ft))).
    assert (D1 : (1 <= D)%Q) by (apply (proj2 (zq_le 1 _)); lia).
    assert (HD : ((zq t - zq ft == D)%Q \/ (zq t - zq ft == - D)%Q)).
    { assert (Em : (zq (t - ft) == zq t - zq ft)%Q).
      { change (t - ft) with (t + - ft). rewrite zq_add. unfold zq. rewrite inject_Z_opp. reflexivity. }
      unfold D. destruct (Z.le_gt_cases 0 (t - ft)).
      - left. rewrite Z.abs_eq by lia. lra.
      - right. rewrite Z.abs_neq by lia. unfold zq at 3. rewrite inject_Z_opp. fold (zq (t - ft)). lra. }
    assert (Hid : (0 < / (4 * D) <= 1 # 4)%Q).
    { split; [apply Qinv_lt_0_compat; lra|]. setoid_replace (/ (4 * D))%Q with (1 / (4 * D))%Q by (field; lra).
      apply Qle_shift_div_r; lra. }
    assert (Hi2 : (D * / (4 * D) == 1 # 4)%Q) by (field; lra).
    apply may_bind. left. eexists. split; [apply may_random with (u := (1 - / (4 * D))%Q); [lra|lra|constructor]|].
    match goal with |- may (cap_time F fc T (py_round ?z)) _ => replace (py_round z) with t; [exact Hcap|] end.
    symmetry. apply py_round_near. unfold fadd, fmul, fsub. rewrite !(HF _).
    set (i := (/ (4 * D))%Q) in *. clearbody i D.
    assert (E : (zq ft + (zq t - zq ft) * (1 - i) == zq t - (zq t - zq ft) * i)%Q) by ring.
    rewrite E. destruct HD as [HD|HD]; rewrite HD; split; nra.
Qed.

(** ** C08: exactly which events can be drawn (no duty cycle, exact arithmetic) *)

Lemma find_spot_disjoint spots fc s w :
  1 <= fc -> pairwise_disjoint spots -> In w spots -> fst w <= s -> s + fc <= snd w ->
  find_spot spots fc s = Some w.
Proof.
  intros Hfc Hdis Hw H1 H2. unfold find_spot. induction Hdis as [|x l Hx Hl IH]; [destruct Hw|].
  cbn [find]. destruct Hw as [->|Hw].
  - replace (fst w <=? s) with true by lia. replace (s <=? snd w - fc) with true by lia. reflexivity.
  - rewrite Forall_forall in Hx. destruct (Hx w Hw) as [D|D].
    + replace (s <=? snd x - fc) with false by lia. rewrite andb_false_r. auto.
    + replace (fst x <=? s) with false by lia. auto.
Qed.

Theorem C08_events_exact (F : fm) depth a d rand_time ix d' :
  exact F -> fixed_cycle (par a) <= 0 -> 1 <= func_cycle (par a) <= rand_time -> rand_time <= 2 ^ 52 ->
  pairwise_disjoint (free_spots d) ->
  may (rand_switch_on_window (S depth) F a d rand_time) (Ok (Some ix, d')) <->
  d' = d /\ exists w s n, In w (free_spots d) /\ fst w <= s /\ s + func_cycle (par a) <= snd w /\
    run_of_minutes ix s n /\ func_cycle (par a) <= n /\
    (n = func_cycle (par a) \/ n < Z.min rand_time (snd w - s)).
Proof.
  intros HF Hfx Hfc Hrt Hdis. rewrite rsw_unfold. cbv zeta. set (fc := func_cycle (par a)) in *.
  set (ch := indexes_choice (free_spots d) fc).
  assert (Hcc : forall ix, choose_cycle depth F a d rand_time ix = Ret (Some ix, d)).
  { intros ix'. unfold choose_cycle. replace (fixed_cycle (par a) >? 0) with false by lia. reflexivity. }
  split.
  - destruct (zlen ch >? 0) eqn:En; [|intros H; apply may_ret_inv in H; discriminate].
    intros H. apply may_bind in H. destruct H as [(j & Mj & H)|(e & _ & E)]; [|discriminate].
    apply may_randint in Mj. destruct Mj as [(_ & E)|(j' & Hj & E)]; [discriminate|]. injection E as <-.
    apply may_bind in H. destruct H as [(s & Ms & H)|(e & _ & E)]; [|discriminate].
    apply may_lift in Ms. symmetry in Ms. apply py_index_ok in Ms; [|lia].
    assert (Hs : In s ch) by (eapply nth_error_In; exact Ms).
    destruct (find_spot_some _ _ _ Hs) as (w & Hf & Hw & H1 & H2). rewrite Hf in H.
    apply may_bind in H. destruct H as [(ix' & Mi & H)|(e & _ & E)]; [|discriminate].
    rewrite Hcc in H. apply may_ret_inv in H. injection H as -> ->. split; [reflexivity|].
    exists w, s. unfold draw_indexes in Mi.
    destruct (Z.min rand_time (snd w - s) >? fc) eqn:El.
    + apply may_bind in Mi. destruct Mi as [(x & Mx & Mi)|(e & _ & E)]; [|discriminate].
      apply may_ret_inv in Mi. injection Mi as ->.
      inversion Mx as [| |u k r U0 U1 Hr| | |]; subst. apply may_ret_inv in Hr. injection Hr as ->.
      set (L := Z.min rand_time (snd w - s)) in *.
      assert (F1 : (1 <= zq fc)%Q) by (apply (proj2 (zq_le 1 fc)); lia).
      assert (L1 : (zq fc + 1 <= zq L)%Q).
      { change 1%Q with (zq 1). rewrite <- zq_add. apply zq_le. lia. }
      set (x := fadd F _ _).
      assert (Ex : (x == zq fc + (zq L - zq fc) * u)%Q).
      { unfold x, fadd, fmul, fsub. rewrite !(HF _). reflexivity. }
      assert (X0 : (zq fc <= x)%Q) by (rewrite Ex; nra). assert (X1 : (x < zq L)%Q) by (rewrite Ex; nra).
      clearbody x.
      assert (N0 : fc <= py_int x) by (rewrite <- (py_int_zq fc); apply py_int_mono; exact X0).
      assert (N1 : py_int x < L).
      { apply zq_lt. eapply Qle_lt_trans; [apply py_int_below; lra|exact X1]. }
      exists (py_int x). split; [exact Hw|]. split; [exact H1|]. split; [lia|].
      split; [apply run_arange; lia|]. split; [exact N0|right; exact N1].
    + destruct (Z.min rand_time (snd w - s) =? fc) eqn:E2; [|apply may_raise_inv in Mi; discriminate].
      apply may_ret_inv in Mi. injection Mi as ->. replace (Z.min rand_time (snd w - s)) with fc by lia.
      exists fc. split; [exact Hw|]. split; [exact H1|]. split; [lia|]. split; [apply run_arange; lia|]. split; [lia|left; reflexivity].
  - intros (-> & w & s & n & Hw & H1 & H2 & Hrun & Hn & Hor).
    assert (Hs : In s ch) by (apply in_indexes_choice; exists w; auto).
    destruct (In_nth_error _ _ Hs) as (j & Hj).
    assert (Hjl : (j < List.length ch)%nat) by (apply nth_error_Some; congruence).
    replace (zlen ch >? 0) with true by (unfold zlen; lia).
    apply may_bind. left. exists (Z.of_nat j). split.
    { apply may_randint. right. exists (Z.of_nat j). split; [unfold zlen; lia|reflexivity]. }
    apply may_bind. left. exists s. split.
    { apply may_lift. symmetry. apply py_index_ok; [unfold zlen; lia|]. rewrite Nat2Z.id. exact Hj. }
    rewrite (find_spot_disjoint _ fc s w ltac:(lia) Hdis Hw H1 H2).
    apply may_bind. left. exists ix. split; [|rewrite Hcc; constructor].
    rewrite (run_of_minutes_arange _ _ _ Hrun). unfold draw_indexes.
    set (L := Z.min rand_time (snd w - s)) in *.
    destruct (L >? fc) eqn:El.
    + assert (L1 : (zq fc + 1 <= zq L)%Q).
      { change 1%Q with (zq 1). rewrite <- zq_add. apply zq_le. lia. }
      assert (N1 : (zq fc <= zq n)%Q) by (apply zq_le; exact Hn).
      assert (N2 : (zq n < zq L)%Q) by (apply zq_lt; lia).
      apply may_bind. left. exists (fadd F (zq fc) (fmul F (fsub F (zq L) (zq fc)) ((zq n - zq fc) / (zq L - zq fc)))).
      split; [apply may_random with (u := ((zq n - zq fc) / (zq L - zq fc))%Q)|].
      * apply Qle_shift_div_l; lra.
      * apply Qlt_shift_div_r; lra.
      * constructor.
      * replace (py_int _) with n; [constructor|]. transitivity (py_int (zq n)); [symmetry; apply py_int_zq|]. apply py_int_proper. symmetry.
        unfold fadd, fmul, fsub. rewrite !(HF _). clearbody L fc. field. lra.
    + replace (L =? fc) with true by lia. replace n with L by lia. constructor.
Qed.

(** concrete cases *)
Example C07_tight_case : may (rand_total_time_of_use exact_fm demo (480, 600) (1080, 1320) (0, 0)) (Ok 111).
Proof.
  apply C07_tight; [exact exact_exact_fm|cbn; lia|discriminate|right; split; vm_compute; congruence
    |cbn; lia|lia|vm_compute; congruence].
Qed.
Example C08_events_case : may (rand_switch_on_window 1 exact_fm demo demo_state 120) (Ok (Some (arange 500 577), demo_state)).
Proof.
  apply C08_events_exact; [exact exact_exact_fm|cbn; lia|cbn; lia|lia|repeat constructor; cbn; lia|].
  split; [reflexivity|]. exists (480, 600), 500, 77. split; [left; reflexivity|]. cbn [fst snd].
  split; [lia|]. split; [cbn; lia|]. split; [apply (run_arange 500 77); lia|]. split; [cbn; lia|right; lia].
Qed.
Example C03_tight_case : may (random_choice exact_fm (1 # 10) 20 50 10 5) (Ok (repeat 5%Q 9 ++ repeat 50%Q 22)).
Proof.
  apply C03_random_choice_tight; [exact exact_exact_fm|split; discriminate|lia|lia|].
  exists 22, 9. split.
  - exists (11 # 10)%Q. split; [left; reflexivity|]. split; [split; discriminate|reflexivity].
  - split; [|right; reflexivity]. exists (95 # 100)%Q. split; [left; reflexivity|]. split; [split; discriminate|reflexivity].
Qed.
Example C06_tight_case : near (480, 600) 12 (468, 605) /\ may (calc_rand_window (480, 600) 12) (Ok (468, 605)).
Proof.
  assert (H : near (480, 600) 12 (468, 605)) by (exists 468, 605; cbn; split; [reflexivity|lia]).
  split; [exact H|apply C06_window_tight; exact H].
Qed.
