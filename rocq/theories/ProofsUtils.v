(** * ProofsUtils: proofs about Utils.v (C01, C02, C03) *)
From Verif Require Import Base Wp Utils ListLemmas.
From Coq Require Import ZifyBool ZifyNat.

Lemma within_peak_iff s e ps pe :
  s <= e -> ps <= pe ->
  within_peak_time_window s e ps pe = true <-> exists m, s <= m <= e /\ ps <= m <= pe.
Proof.
  intros H1 H2. unfold within_peak_time_window.
  destruct ((s <? ps) && (e <? ps)) eqn:E1; destruct ((s >? pe) && (e >? pe)) eqn:E2.
  - split; [discriminate|]. intros (m & Hm); lia.
  - split; [discriminate|]. intros (m & Hm); lia.
  - split; [discriminate|]. intros (m & Hm); lia.
  - split; [|reflexivity]. intros _. exists (Z.max s ps). lia.
Qed.

Lemma range_within_iff lo hi w :
  lo <= hi -> fst w <= snd w ->
  range_within_window lo hi w = true <-> exists m, lo <= m <= hi /\ fst w <= m <= snd w.
Proof.
  intros H1 H2. unfold range_within_window. split.
  - intros H. exists (Z.max lo (fst w)). lia.
  - intros (m & Hm). lia.
Qed.

(** ** random_variation *)

Lemma random_variation_ge (F : fm) var norm :
  (0 <= var <= 1)%Q -> (0 <= norm)%Q ->
  wp (random_variation F var norm)
     (fun r => exists x, r = Ok x /\ (0 <= x)%Q /\ (fmul F norm (fsub F 1 var) <= x)%Q).
Proof.
  intros [Hv0 Hv1] Hn. unfold random_variation. apply wp_bind_ok. apply wp_uniform.
  intros u H0 H1. cbn [wpk wp].
  set (a := fsub F 1 var). set (b := fadd F 1 var).
  assert (Ha : (0 <= a)%Q) by (apply rnd_nonneg; lra).
  assert (Hab : (a <= b)%Q) by (apply rnd_mono; lra).
  assert (Hd : (0 <= fsub F b a)%Q) by (apply rnd_nonneg; lra).
  assert (Hm : (0 <= fmul F (fsub F b a) u)%Q) by (apply rnd_nonneg; nra).
  assert (Hx : (a <= fadd F a (fmul F (fsub F b a) u))%Q).
  { apply rnd_ge_fl; [apply isfl_rnd|lra]. }
  eexists; split; [reflexivity|]. split.
  - apply rnd_nonneg. nra.
  - apply rnd_mono. nra.
Qed.

Lemma random_variation_interval (F : fm) var norm :
  exact F -> (0 <= var)%Q -> (0 <= norm)%Q ->
  wp (random_variation F var norm)
     (fun r => exists x, r = Ok x /\ (norm * (1 - var) <= x <= norm * (1 + var))%Q).
Proof.
  intros HF Hv Hn. unfold random_variation. apply wp_bind_ok. apply wp_uniform.
  intros u H0 H1. cbn [wpk wp]. eexists; split; [reflexivity|].
  unfold fmul, fadd, fsub. rewrite !(HF _).
  match goal with |- context [(norm * ?e)%Q] =>
    match e with context [u] =>
      assert (H2 : (1 - var <= e)%Q) by nra; assert (H3 : (e <= 1 + var)%Q) by nra;
      set (v := e) in *; clearbody v end end.
  split; nra.
Qed.

Lemma random_variation_attains (F : fm) var norm x :
  exact F -> (0 < var)%Q -> (0 < norm)%Q ->
  (norm * (1 - var) <= x)%Q -> (x < norm * (1 + var))%Q ->
  exists y, (y == x)%Q /\ may (random_variation F var norm) (Ok y).
Proof.
  intros HF Hv Hn Hlo Hhi. unfold random_variation, py_uniform. cbn [bind].
  set (u := ((x / norm - (1 - var)) / (2 * var))%Q).
  assert (Hu : (u * (2 * var) == x / norm - (1 - var))%Q) by (unfold u; field; lra).
  assert (Hxn : (x / norm * norm == x)%Q) by (field; lra).
  assert (H0 : (1 - var <= x / norm)%Q) by (apply Qle_shift_div_l; lra).
  assert (H1 : (x / norm < 1 + var)%Q) by (apply Qlt_shift_div_r; lra).
  eexists. split; [|apply (may_random u)].
  2: { apply Qle_shift_div_l; lra. }
  2: { apply Qlt_shift_div_r; lra. }
  2: { apply may_ret. }
  unfold fmul, fadd, fsub. rewrite !(HF _).
  rewrite <- Hxn at 1. setoid_replace (1 + var - (1 - var))%Q with (2 * var)%Q by ring.
  rewrite (Qmult_comm (2 * var) u), Hu. ring.
Qed.

Lemma random_variation_0 (F : fm) norm :
  isfl F norm ->
  wp (random_variation F 0 norm) (fun r => exists x, r = Ok x /\ (x == norm)%Q).
Proof.
  intros Hn. unfold random_variation. apply wp_bind_ok. apply wp_uniform.
  intros u H0 H1. cbn [wpk wp]. eexists; split; [reflexivity|].
  assert (Ea : (fsub F 1 0 == 1)%Q).
  { unfold fsub. setoid_replace (1 - 0)%Q with 1%Q by ring. apply rnd_1. }
  assert (Eb : (fadd F 1 0 == 1)%Q).
  { unfold fadd. setoid_replace (1 + 0)%Q with 1%Q by ring. apply rnd_1. }
  assert (Ed : (fsub F (fadd F 1 0) (fsub F 1 0) == 0)%Q).
  { unfold fsub at 1. rewrite Ea, Eb. setoid_replace (1 - 1)%Q with 0%Q by ring. apply rnd_0. }
  assert (Em : (fmul F (fsub F (fadd F 1 0) (fsub F 1 0)) u == 0)%Q).
  { unfold fmul. rewrite Ed. setoid_replace (0 * u)%Q with 0%Q by ring. apply rnd_0. }
  assert (Ex : (fadd F (fsub F 1 0) (fmul F (fsub F (fadd F 1 0) (fsub F 1 0)) u) == 1)%Q).
  { unfold fadd at 1. rewrite Em, Ea. setoid_replace (1 + 0)%Q with 1%Q by ring. apply rnd_1. }
  unfold fmul at 1. rewrite Ex. setoid_replace (norm * 1)%Q with norm by ring. exact Hn.
Qed.

Lemma random_variation_total (F : fm) var norm :
  wp (random_variation F var norm) (fun r => exists x, r = Ok x).
Proof. unfold random_variation. apply wp_bind_ok, wp_uniform. intros; cbn. eauto. Qed.

(** *** rounding error *)

Lemma eps_bounds : (0 < eps53)%Q /\ (eps53 <= 1 # 9007199254740992)%Q /\ (0 < eta64)%Q /\ (eta64 <= 1 # 9007199254740992)%Q.
Proof. repeat split; vm_compute; congruence. Qed.

Lemma rnd_err_bounds (F : fm) x b :
  (- b <= x <= b)%Q -> (x - b * eps53 - eta64 <= rnd F x <= x + b * eps53 + eta64)%Q.
Proof.
  intros [H0 H1]. pose proof (rnd_err F x) as H.
  assert (Hab : (Qabs x <= b)%Q) by (apply Qabs_Qle_condition; split; assumption).
  pose proof eps_bounds as (He & _ & _ & _).
  assert (Hm : (Qabs x * eps53 <= b * eps53)%Q) by (apply Qmult_le_compat_r; [exact Hab|lra]).
  assert (H2 : (Qabs (rnd F x - x) <= b * eps53 + eta64)%Q) by lra.
  apply Qabs_Qle_condition in H2. destruct H2 as [H2 H3]. split; lra.
Qed.

(** the factor drawn by random_variation, within 2^-48 of [1-var, 1+var] *)
Lemma uniform_factor_close (F : fm) var u :
  (0 <= var <= 1)%Q -> (0 <= u)%Q -> (u < 1)%Q ->
  let e := (1 # 9007199254740992)%Q in
  let x := fadd F (fsub F 1 var) (fmul F (fsub F (fadd F 1 var) (fsub F 1 var)) u) in
  (1 - var - 32 * e <= x <= 1 + var + 32 * e)%Q.
Proof.
  intros [Hv0 Hv1] H0 H1 e x. unfold x, fadd, fsub, fmul. clear x.
  pose proof eps_bounds as (He & He' & Hh & Hh'). fold e in He', Hh'.
  assert (Pe : (e <= 1 # 1000000)%Q) by (vm_compute; congruence).
  assert (Pe0 : (0 < e)%Q) by (vm_compute; congruence).
  clearbody e.
  assert (K : forall y b, (0 <= b)%Q -> (b <= 8)%Q -> (- b <= y)%Q -> (y <= b)%Q ->
      (y - (b + 1) * e <= rnd F y)%Q /\ (rnd F y <= y + (b + 1) * e)%Q).
  { intros y b Hb0 Hb Hy0 Hy1.
    destruct (rnd_err_bounds F y b (conj Hy0 Hy1)) as [G1 G2].
    assert (b * eps53 <= b * e)%Q by nra. split; lra. }
  destruct (K (1 - var)%Q 1%Q) as [A1 A2]; try lra. set (a := rnd F (1 - var)) in *. clearbody a.
  destruct (K (1 + var)%Q 2%Q) as [B1 B2]; try lra. set (b := rnd F (1 + var)) in *. clearbody b.
  assert (Hab : (- (0) <= b - a + 5 * e)%Q) by lra.
  destruct (K (b - a)%Q 3%Q) as [D1 D2]; try lra. set (d := rnd F (b - a)) in *. clearbody d.
  assert (Q1 : (d * u <= 2 * var + 9 * e)%Q) by nra.
  assert (Q2 : (- (9 * e) <= d * u)%Q) by nra.
  set (w := (d * u)%Q) in *. clearbody w.
  destruct (K w 3%Q) as [M1 M2]; try lra. set (m := rnd F w) in *. clearbody m.
  destruct (K (a + m)%Q 4%Q) as [N1 N2]; try lra.
Qed.

(** relative deviation 2^-47 of a float random_variation from its nominal interval *)
Definition rv_slack : Q := 1 # 140737488355328.

Lemma random_variation_close (F : fm) var norm :
  (0 <= var <= 1)%Q -> (0 <= norm)%Q ->
  wp (random_variation F var norm)
     (fun r => exists x, r = Ok x /\
        (norm * (1 - var - rv_slack) - eta64 <= x <= norm * (1 + var + rv_slack) + eta64)%Q).
Proof.
  intros Hv Hn. unfold random_variation. apply wp_bind_ok. apply wp_uniform.
  intros u H0 H1. cbn [wpk wp]. eexists; split; [reflexivity|].
  pose proof (uniform_factor_close F var u Hv H0 H1) as Hx. cbv zeta in Hx.
  set (x := fadd F (fsub F 1 var) (fmul F (fsub F (fadd F 1 var) (fsub F 1 var)) u)) in *.
  clearbody x. destruct Hx as [Hx1 Hx2].
  unfold rv_slack. set (e := (1 # 9007199254740992)%Q) in *.
  pose proof eps_bounds as (He & He' & Hh & Hh'). fold e in He', Hh'.
  assert (Es : (1 # 140737488355328 == 64 * e)%Q) by (vm_compute; reflexivity).
  rewrite Es.
  assert (Pe : (e <= 1 # 1000000)%Q) by (vm_compute; congruence).
  assert (Pe0 : (0 < e)%Q) by (vm_compute; congruence).
  clearbody e.
  assert (Hb : (- (3 * norm) <= norm * x <= 3 * norm)%Q) by (split; nra).
  destruct (rnd_err_bounds F (norm * x) (3 * norm) Hb) as [G1 G2].
  assert (G3 : (3 * norm * eps53 <= 3 * norm * e)%Q) by nra.
  unfold fmul. destruct Hv as [Hv0 Hv1].
  assert (G4 : (norm * x <= norm * (1 + var + 32 * e))%Q) by nra.
  assert (G5 : (norm * (1 - var - 32 * e) <= norm * x)%Q) by nra.
  assert (G6 : (0 <= norm * e)%Q) by nra.
  set (y := (norm * x)%Q) in *. clearbody y. set (z := rnd F y) in *. clearbody z.
  set (w := (3 * norm * eps53)%Q) in *. clearbody w.
  split; nra.
Qed.

(** ** duty_cycle *)

(** the duration of one half, as drawn by duty_cycle (note the negated variability) *)
Lemma random_variation_neg_interval (F : fm) var norm :
  exact F -> (0 <= var)%Q -> (0 <= norm)%Q ->
  wp (random_variation F (- var) norm)
     (fun r => exists x, r = Ok x /\ (norm * (1 - var) <= x <= norm * (1 + var))%Q).
Proof.
  intros HF Hv Hn. unfold random_variation. apply wp_bind_ok. apply wp_uniform.
  intros u H0 H1. cbn [wpk wp]. eexists; split; [reflexivity|].
  unfold fmul, fadd, fsub. rewrite !(HF _).
  match goal with |- context [(norm * ?e)%Q] =>
    match e with context [u] =>
      assert (H2 : (1 - var <= e)%Q) by nra; assert (H3 : (e <= 1 + var)%Q) by nra;
      set (v := e) in *; clearbody v end end.
  split; nra.
Qed.

Lemma py_int_floor x : (0 <= x)%Q -> py_int x = Qfloor x.
Proof. intros H. unfold py_int. now rewrite (proj2 (Qle_bool_iff 0 x) H). Qed.

(** shape, for any rounding and any parameters *)
Lemma duty_cycle_shape (F : fm) var t1 p1 t2 p2 :
  wp (duty_cycle F var t1 p1 t2 p2)
     (fun r => r = Err ValueError \/ exists n1 n2, r = Ok (repeat p1 n1 ++ repeat p2 n2)).
Proof.
  unfold duty_cycle. apply wp_bind_ok. eapply wp_mono; [|apply random_variation_total].
  intros r (x & ->); cbn [wpk]. apply wp_bind_ok. rewrite wp_lift. unfold np_ones_times.
  destruct (py_int x <? 0); cbn [wpk]; [auto|].
  apply wp_bind_ok. eapply wp_mono; [|apply random_variation_total].
  intros r (y & ->); cbn [wpk]. apply wp_bind_ok. rewrite wp_lift. unfold np_ones_times.
  destruct (py_int y <? 0); cbn [wpk wp]; [auto|]. right; eauto.
Qed.

Lemma duty_cycle_bounds (F : fm) var t1 p1 t2 p2 :
  exact F -> (0 <= var <= 1)%Q -> 0 <= t1 -> 0 <= t2 ->
  wp (duty_cycle F var t1 p1 t2 p2)
     (fun r => exists n1 n2 : Z,
        r = Ok (repeat p1 (Z.to_nat n1) ++ repeat p2 (Z.to_nat n2)) /\
        Qfloor (zq t1 * (1 - var)) <= n1 <= Qfloor (zq t1 * (1 + var)) /\
        Qfloor (zq t2 * (1 - var)) <= n2 <= Qfloor (zq t2 * (1 + var))).
Proof.
  intros HF [Hv0 Hv1] Ht1 Ht2.
  assert (Hq1 : (0 <= zq t1)%Q) by (change 0%Q with (zq 0); apply zq_le; lia).
  assert (Hq2 : (0 <= zq t2)%Q) by (change 0%Q with (zq 0); apply zq_le; lia).
  unfold duty_cycle. apply wp_bind_ok.
  eapply wp_mono; [|apply random_variation_neg_interval; [exact HF|exact Hv0|exact Hq1]].
  intros r (x & -> & Hx); cbn [wpk]. apply wp_bind_ok. rewrite wp_lift. unfold np_ones_times.
  assert (Hx0 : (0 <= x)%Q) by nra.
  rewrite (py_int_floor x Hx0).
  assert (Hfx : 0 <= Qfloor x) by (change 0 with (Qfloor 0); apply Qfloor_resp_le; exact Hx0).
  destruct (Z.ltb_spec (Qfloor x) 0); [lia|]. cbn [wpk].
  apply wp_bind_ok.
  eapply wp_mono; [|apply random_variation_neg_interval; [exact HF|exact Hv0|exact Hq2]].
  intros r (y & -> & Hy); cbn [wpk]. apply wp_bind_ok. rewrite wp_lift. unfold np_ones_times.
  assert (Hy0 : (0 <= y)%Q) by nra.
  rewrite (py_int_floor y Hy0).
  assert (Hfy : 0 <= Qfloor y) by (change 0 with (Qfloor 0); apply Qfloor_resp_le; exact Hy0).
  destruct (Z.ltb_spec (Qfloor y) 0); [lia|]. cbn [wpk wp].
  exists (Qfloor x), (Qfloor y). split; [reflexivity|].
  repeat split; apply Qfloor_resp_le; tauto.
Qed.

Lemma random_variation_m0 (F : fm) norm :
  isfl F norm ->
  wp (random_variation F (- 0) norm) (fun r => exists x, r = Ok x /\ (x == norm)%Q).
Proof. exact (random_variation_0 F norm). Qed.

Lemma duty_cycle_novar (F : fm) t1 p1 t2 p2 :
  0 <= t1 <= 2 ^ 53 -> 0 <= t2 <= 2 ^ 53 ->
  wp (duty_cycle F 0 t1 p1 t2 p2)
     (fun r => r = Ok (repeat p1 (Z.to_nat t1) ++ repeat p2 (Z.to_nat t2))).
Proof.
  intros Ht1 Ht2. unfold duty_cycle. apply wp_bind_ok.
  eapply wp_mono; [|apply random_variation_m0; apply isfl_int; lia].
  intros r (x & -> & Hx); cbn [wpk]. apply wp_bind_ok. rewrite wp_lift. unfold np_ones_times.
  assert (Ex : py_int x = t1) by (rewrite Hx; apply py_int_zq). rewrite Ex. destruct (Z.ltb_spec t1 0); [lia|]. cbn [wpk].
  apply wp_bind_ok.
  eapply wp_mono; [|apply random_variation_m0; apply isfl_int; lia].
  intros r (y & -> & Hy); cbn [wpk]. apply wp_bind_ok. rewrite wp_lift. unfold np_ones_times.
  assert (Ey : py_int y = t2) by (rewrite Hy; apply py_int_zq). rewrite Ey. destruct (Z.ltb_spec t2 0); [lia|]. cbn [wpk wp]. reflexivity.
Qed.

Lemma random_choice_bounds (F : fm) var t1 p1 t2 p2 :
  exact F -> (0 <= var <= 1)%Q -> 0 <= t1 -> 0 <= t2 ->
  wp (random_choice F var t1 p1 t2 p2)
     (fun r => exists n1 n2 : Z,
        (r = Ok (repeat p1 (Z.to_nat n1) ++ repeat p2 (Z.to_nat n2)) \/
         r = Ok (repeat p2 (Z.to_nat n2) ++ repeat p1 (Z.to_nat n1))) /\
        Qfloor (zq t1 * (1 - var)) <= n1 <= Qfloor (zq t1 * (1 + var)) /\
        Qfloor (zq t2 * (1 - var)) <= n2 <= Qfloor (zq t2 * (1 + var))).
Proof.
  intros HF Hv Ht1 Ht2. unfold random_choice. apply wp_bind_ok.
  eapply wp_mono; [|apply duty_cycle_bounds; assumption].
  intros r (n1 & n2 & -> & H1 & H2); cbn [wpk]. apply wp_bind_ok.
  eapply wp_mono; [|apply duty_cycle_bounds; assumption].
  intros r (m2 & m1 & -> & H3 & H4); cbn [wpk]. apply wp_choice2.
  - exists n1, n2. auto.
  - exists m1, m2. auto.
Qed.

Lemma random_choice_shape (F : fm) var t1 p1 t2 p2 :
  wp (random_choice F var t1 p1 t2 p2)
     (fun r => r = Err ValueError \/
        exists n1 n2, r = Ok (repeat p1 n1 ++ repeat p2 n2) \/ r = Ok (repeat p2 n1 ++ repeat p1 n2)).
Proof.
  unfold random_choice. apply wp_bind_ok.
  eapply wp_mono; [|apply duty_cycle_shape].
  intros r [->|(n1 & n2 & ->)]; cbn [wpk]; [auto|]. apply wp_bind_ok.
  eapply wp_mono; [|apply duty_cycle_shape].
  intros r [->|(m1 & m2 & ->)]; cbn [wpk]; [auto|].
  apply wp_choice2; right; eauto.
Qed.
