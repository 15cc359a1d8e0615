(** * ProofsUtils2: duty cycles under any float rounding (C03) *)
From Verif Require Import Base Wp Utils ListLemmas Spec ProofsUtils.
From Coq Require Import ZifyBool ZifyNat.

Lemma uniform_factor_close_neg (F : fm) var u :
  (0 <= var <= 1)%Q -> (0 <= u)%Q -> (u < 1)%Q ->
  let e := (1 # 9007199254740992)%Q in
  let x := fadd F (fsub F 1 (- var)) (fmul F (fsub F (fadd F 1 (- var)) (fsub F 1 (- var))) u) in
  (1 - var - 32 * e <= x <= 1 + var + 32 * e)%Q.
Proof.
  intros [Hv0 Hv1] H0 H1 e x. unfold x, fadd, fsub, fmul. clear x.
  pose proof eps_bounds as (He & He' & Hh & Hh'). fold e in He', Hh'.
  assert (Pe : (e <= 1 # 1000000)%Q) by (vm_compute; congruence).
  assert (Pe0 : (0 < e)%Q) by (vm_compute; congruence).
  clearbody e.
  assert (K : forall y b, (0 <= b)%Q -> (b <= 8)%Q -> (- b <= y)%Q -> (y <= b)%Q ->
      (y - (b + 1) * e <= rnd F y)%Q /\ (rnd F y <= y + (b + 1) * e)%Q).
  { intros y b Hb0 Hb Hy0 Hy1.
    destruct (rnd_err_bounds F y b (conj Hy0 Hy1)) as [G1 G2].
    assert (b * eps53 <= b * e)%Q by nra. split; lra. }
  destruct (K (1 - - var)%Q 2%Q) as [A1 A2]; try lra. set (a := rnd F (1 - - var)) in *. clearbody a.
  destruct (K (1 + - var)%Q 1%Q) as [B1 B2]; try lra. set (b := rnd F (1 + - var)) in *. clearbody b.
  destruct (K (b - a)%Q 3%Q) as [D1 D2]; try lra. set (d := rnd F (b - a)) in *. clearbody d.
  assert (Q1 : (- (2 * var + 9 * e) <= d * u)%Q) by nra.
  assert (Q2 : (d * u <= 9 * e)%Q) by nra.
  set (w := (d * u)%Q) in *. clearbody w.
  destruct (K w 3%Q) as [M1 M2]; try lra. set (m := rnd F w) in *. clearbody m.
  destruct (K (a + m)%Q 4%Q) as [N1 N2]; try lra.
Qed.

Lemma random_variation_close_neg (F : fm) var norm :
  (0 <= var <= 1)%Q -> (0 <= norm)%Q ->
  wp (random_variation F (- var) norm)
     (fun r => exists x, r = Ok x /\
        (norm * (1 - var - rv_slack) - eta64 <= x <= norm * (1 + var + rv_slack) + eta64)%Q).
Proof.
  intros Hv Hn. unfold random_variation. apply wp_bind_ok. apply wp_uniform.
  intros u H0 H1. cbn [wpk wp]. eexists; split; [reflexivity|].
  pose proof (uniform_factor_close_neg F var u Hv H0 H1) as Hx. cbv zeta in Hx.
  set (x := fadd F (fsub F 1 (- var)) (fmul F (fsub F (fadd F 1 (- var)) (fsub F 1 (- var))) u)) in *.
  clearbody x. destruct Hx as [Hx1 Hx2].
  unfold rv_slack. set (e := (1 # 9007199254740992)%Q) in *.
  pose proof eps_bounds as (He & He' & Hh & Hh'). fold e in He', Hh'.
  assert (Es : (1 # 140737488355328 == 64 * e)%Q) by (vm_compute; reflexivity).
  rewrite Es.
  assert (Pe : (e <= 1 # 1000000)%Q) by (vm_compute; congruence).
  assert (Pe0 : (0 < e)%Q) by (vm_compute; congruence).
  clearbody e.
  assert (Hb : (- (3 * norm) <= norm * x <= 3 * norm)%Q) by (split; nra).
  destruct (rnd_err_bounds F (norm * x) (3 * norm) Hb) as [G1 G2].
  assert (G3 : (3 * norm * eps53 <= 3 * norm * e)%Q) by nra.
  unfold fmul. destruct Hv as [Hv0 Hv1].
  assert (G4 : (norm * x <= norm * (1 + var + 32 * e))%Q) by nra.
  assert (G5 : (norm * (1 - var - 32 * e) <= norm * x)%Q) by nra.
  assert (G6 : (0 <= norm * e)%Q) by nra.
  set (y := (norm * x)%Q) in *. clearbody y. set (z := rnd F y) in *. clearbody z.
  set (w := (3 * norm * eps53)%Q) in *. clearbody w.
  split; nra.
Qed.

(** admissible number of minutes of one half of a duty cycle declared for [t] minutes *)
Definition half_length (var : Q) (t n : Z) : Prop :=
  Qfloor (zq t * (1 - var) - (1 # 1000)) <= n <= Qfloor (zq t * (1 + var) + (1 # 1000)) /\ 0 <= n.

Lemma duration_close (F : fm) var t :
  (0 <= var <= 1)%Q -> 0 <= t <= 2 ^ 20 ->
  wp (random_variation F (- var) (zq t))
     (fun r => exists x, r = Ok x /\ half_length var t (py_int x)).
Proof.
  intros Hv Ht. eapply wp_mono; [|apply random_variation_close_neg; [exact Hv|apply (proj2 (zq_le 0 t)); lia]].
  intros r (x & -> & H1 & H2). exists x. split; [reflexivity|]. unfold half_length.
  assert (Hz0 : (0 <= zq t)%Q) by (apply (proj2 (zq_le 0 t)); lia).
  assert (Hz1 : (zq t <= 1048576)%Q) by (apply (proj2 (zq_le t 1048576)); lia).
  set (T := zq t) in *. clearbody T.
  pose proof eps_bounds as (_ & _ & Hh & Hh').
  assert (Hh2 : (eta64 <= 1 # 1000000)%Q).
  { eapply Qle_trans; [exact Hh'|]. vm_compute. congruence. }
  unfold rv_slack in *.
  assert (A : (T * (1 - var) - (1 # 1000) <= x)%Q).
  { assert (T * (1 # 140737488355328) <= 1 # 10000)%Q by lra. nra. }
  assert (B : (x <= T * (1 + var) + (1 # 1000))%Q).
  { assert (T * (1 # 140737488355328) <= 1 # 10000)%Q by lra. nra. }
  destruct Hv as [Hv0 Hv1].
  assert (C : (- (1 # 1000) <= x)%Q) by nra.
  destruct (py_int_cases x) as [[P0 [P1 P2]]|[N0 [N1 N2]]].
  - assert (0 <= py_int x) by (rewrite py_int_floor by exact P0; apply (Qfloor_resp_le 0 x) in P0; exact P0).
    split; [|assumption]. rewrite py_int_floor by exact P0.
    split; apply Qfloor_resp_le; assumption.
  - assert (py_int x = 0) as ->.
    { assert (py_int x < 1) by (apply (proj1 (zq_lt _ _)); change (zq 1) with 1%Q; lra).
      assert (-1 < py_int x) by (apply (proj1 (zq_lt _ _)); change (zq (-1)) with (-1)%Q; lra). lia. }
    split; [|lia]. split.
    + change 0 with (Qfloor 0). apply Qfloor_resp_le. lra.
    + change 0 with (Qfloor 0). apply Qfloor_resp_le. nra.
Qed.

Lemma duty_cycle_close (F : fm) var t1 p1 t2 p2 :
  (0 <= var <= 1)%Q -> 0 <= t1 <= 2 ^ 20 -> 0 <= t2 <= 2 ^ 20 ->
  wp (duty_cycle F var t1 p1 t2 p2)
     (fun r => exists n1 n2 : Z,
        r = Ok (repeat p1 (Z.to_nat n1) ++ repeat p2 (Z.to_nat n2)) /\
        half_length var t1 n1 /\ half_length var t2 n2).
Proof.
  intros Hv H1 H2. unfold duty_cycle.
  apply wp_bind_ok. eapply wp_mono; [|apply duration_close; [exact Hv|exact H1]].
  intros r (x1 & -> & L1). cbn [wpk]. unfold np_ones_times.
  replace (py_int x1 <? 0) with false by (destruct L1; lia). cbn [lift bind].
  apply wp_bind_ok. eapply wp_mono; [|apply duration_close; [exact Hv|exact H2]].
  intros r (x2 & -> & L2). cbn [wpk].
  replace (py_int x2 <? 0) with false by (destruct L2; lia). cbn [lift bind wp].
  exists (py_int x1), (py_int x2). auto.
Qed.

Lemma random_choice_close (F : fm) var t1 p1 t2 p2 :
  (0 <= var <= 1)%Q -> 0 <= t1 <= 2 ^ 20 -> 0 <= t2 <= 2 ^ 20 ->
  wp (random_choice F var t1 p1 t2 p2)
     (fun r => exists n1 n2 : Z,
        (r = Ok (repeat p1 (Z.to_nat n1) ++ repeat p2 (Z.to_nat n2)) \/
         r = Ok (repeat p2 (Z.to_nat n2) ++ repeat p1 (Z.to_nat n1))) /\
        half_length var t1 n1 /\ half_length var t2 n2).
Proof.
  intros Hv H1 H2. unfold random_choice.
  apply wp_bind_ok. eapply wp_mono; [|apply duty_cycle_close; eassumption].
  intros r (n1 & n2 & -> & L1 & L2). cbn [wpk].
  apply wp_bind_ok. eapply wp_mono; [|apply duty_cycle_close; eassumption].
  intros r (m2 & m1 & -> & M2 & M1). cbn [wpk].
  apply wp_choice2.
  - exists n1, n2. auto.
  - exists m1, m2. auto.
Qed.
