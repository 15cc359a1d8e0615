(** * FloatSum: rounding errors of nested float sums *)
From Verif Require Import Base ListLemmas Spec SpecUser ProofsUtils.
From Coq Require Import Qabs.
Open Scope list_scope.
Open Scope Z_scope.

(** (1 + 2^-53)^J - 1 *)
Fixpoint growth (J : nat) : Q := match J with O => 0%Q | S j => (growth j * (1 + eps53) + eps53)%Q end.

Lemma eps53_pos : (0 < eps53)%Q. Proof. reflexivity. Qed.
Lemma eta_le_eps : (eta64 <= eps53)%Q. Proof. discriminate. Qed.
Lemma eta_pos : (0 < eta64)%Q. Proof. reflexivity. Qed.

Lemma growth_nonneg J : (0 <= growth J)%Q.
Proof. induction J as [|j IH]; [apply Qle_refl|]. cbn [growth]. pose proof eps53_pos. nra. Qed.
Lemma growth_step J : (growth J <= growth (S J))%Q.
Proof. cbn [growth]. pose proof eps53_pos. pose proof (growth_nonneg J). nra. Qed.
Lemma growth_mono J K : (J <= K)%nat -> (growth J <= growth K)%Q.
Proof. induction 1 as [|K _ IH]; [apply Qle_refl|]. eapply Qle_trans; [exact IH|apply growth_step]. Qed.

(** 2 J 2^-53 while J is at most 2^52 *)
Lemma growth_linear J : Z.of_nat J <= 2 ^ 52 -> (growth J <= zq (Z.of_nat J) * (1 # 2 ^ 52))%Q.
Proof.
  induction J as [|j IH]; intros H; [discriminate|]. cbn [growth].
  assert (Hj : Z.of_nat j <= 2 ^ 52) by lia. specialize (IH Hj).
  assert (E : (1 # 2 ^ 52 == 2 * eps53)%Q) by reflexivity.
  rewrite Nat2Z.inj_succ. unfold Z.succ, zq in *. rewrite inject_Z_plus. rewrite E in IH |- *.
  assert (Hq : (inject_Z (Z.of_nat j) * (2 * eps53) <= 1)%Q).
  { apply Qle_trans with (inject_Z (2 ^ 52) * (2 * eps53))%Q; [|discriminate].
    apply Qmult_le_compat_r; [rewrite <- Zle_Qle; lia|discriminate]. }
  assert (E2 : inject_Z 1 = 1%Q) by reflexivity. rewrite E2.
  pose proof eps53_pos as He. pose proof (growth_nonneg j) as Hg.
  set (g := growth j) in *. set (n := inject_Z (Z.of_nat j)) in *. set (e := eps53) in *. clearbody g n e.
  assert (g * e <= 1 * e)%Q by (apply Qmult_le_compat_r; lra). lra.
Qed.

(** [x] is [S] up to the rounding of [J] operations on numbers of absolute sum [B] *)
Definition close (J : nat) (S B x : Q) : Prop := (Qabs S <= B)%Q /\ (Qabs (x - S) <= (B + zq (Z.of_nat J)) * growth J)%Q.

Lemma close_exact x : close 0 x (Qabs x) x.
Proof. split; [apply Qle_refl|]. setoid_replace (x - x)%Q with 0%Q by ring. cbn [growth]. rewrite Qmult_0_r. discriminate. Qed.

Lemma zq_nat_nonneg n : (0 <= zq (Z.of_nat n))%Q.
Proof. unfold zq. change 0%Q with (inject_Z 0). rewrite <- Zle_Qle. lia. Qed.

Lemma close_add F J1 J2 S1 S2 B1 B2 x y : close J1 S1 B1 x -> close J2 S2 B2 y -> close (S (J1 + J2)) (S1 + S2) (B1 + B2) (fadd F x y).
Proof.
  intros [H1 H2] [H3 H4]. split; [eapply Qle_trans; [apply Qabs_triangle|]; lra|].
  unfold fadd. pose proof (rnd_err F (x + y)) as R.
  assert (G1 : (growth J1 <= growth (J1 + J2))%Q) by (apply growth_mono; lia).
  assert (G2 : (growth J2 <= growth (J1 + J2))%Q) by (apply growth_mono; lia).
  pose proof (growth_nonneg J1) as N1. pose proof (growth_nonneg J2) as N2.
  pose proof eps53_pos as He. pose proof eta_le_eps as Ht.
  cbn [growth]. rewrite Nat2Z.inj_succ, Nat2Z.inj_add. unfold Z.succ, zq in *. rewrite !inject_Z_plus. change (inject_Z 1) with 1%Q.
  pose proof (zq_nat_nonneg J1) as P1. pose proof (zq_nat_nonneg J2) as P2. unfold zq in *.
  set (g := growth (J1 + J2)) in *. set (g1 := growth J1) in *. set (g2 := growth J2) in *.
  set (n1 := inject_Z (Z.of_nat J1)) in *. set (n2 := inject_Z (Z.of_nat J2)) in *. set (e := eps53) in *. set (h := eta64) in *.
  assert (B1p : (0 <= B1)%Q) by (eapply Qle_trans; [apply Qabs_nonneg|exact H1]).
  assert (B2p : (0 <= B2)%Q) by (eapply Qle_trans; [apply Qabs_nonneg|exact H3]).
  assert (D : (Qabs (x + y - (S1 + S2)) <= (B1 + B2 + (n1 + n2)) * g)%Q).
  { setoid_replace (x + y - (S1 + S2))%Q with ((x - S1) + (y - S2))%Q by ring. eapply Qle_trans; [apply Qabs_triangle|].
    assert ((B1 + n1) * g1 <= (B1 + n1) * g)%Q by (rewrite !(Qmult_comm (B1 + n1)); apply Qmult_le_compat_r; lra).
    assert ((B2 + n2) * g2 <= (B2 + n2) * g)%Q by (rewrite !(Qmult_comm (B2 + n2)); apply Qmult_le_compat_r; lra). lra. }
  assert (A : (Qabs (x + y) <= (B1 + B2) + (B1 + B2 + (n1 + n2)) * g)%Q).
  { setoid_replace (x + y)%Q with ((S1 + S2) + (x + y - (S1 + S2)))%Q by ring. eapply Qle_trans; [apply Qabs_triangle|].
    pose proof (Qabs_triangle S1 S2). lra. }
  setoid_replace (rnd F (x + y) - (S1 + S2))%Q with ((rnd F (x + y) - (x + y)) + (x + y - (S1 + S2)))%Q by ring.
  eapply Qle_trans; [apply Qabs_triangle|].
  assert (A' : (Qabs (x + y) * e <= ((B1 + B2) + (B1 + B2 + (n1 + n2)) * g) * e)%Q) by (apply Qmult_le_compat_r; lra).
  assert (Gp : (0 <= g)%Q) by lra.
  set (q := Qabs (x + y)) in *. set (W := (B1 + B2 + (n1 + n2))%Q) in *.
  assert (W0 : (0 <= W)%Q) by (unfold W; lra). assert (WB : (B1 + B2 <= W)%Q) by (unfold W; lra).
  assert (T : ((B1 + B2 + (n1 + n2 + 1)) * (g * (1 + e) + e) == (W + 1) * (g * (1 + e) + e))%Q) by (unfold W; ring). rewrite T. clear T.
  set (d := Qabs (x + y - (S1 + S2))) in *. set (r := Qabs (rnd F (x + y) - (x + y))) in *. clearbody q d r. set (b := (B1 + B2)%Q) in *. clearbody b W g e h.
  assert (K1 : (b * e <= W * e)%Q) by (apply Qmult_le_compat_r; lra).
  assert (K2 : (0 <= g * (1 + e))%Q) by (apply Qmult_le_0_compat; lra).
  assert (K3 : ((W + 1) * (g * (1 + e) + e) == W * g + W * g * e + W * e + g * (1 + e) + e)%Q) by ring. rewrite K3.
  assert (K4 : ((b + W * g) * e == b * e + W * g * e)%Q) by ring. rewrite K4 in A'. lra.
Qed.

Lemma close_weaken J K S B C x : close J S B x -> (J <= K)%nat -> (B <= C)%Q -> close K S C x.
Proof.
  intros [H1 H2] HJ HB. split; [lra|]. eapply Qle_trans; [exact H2|].
  assert (P : (zq (Z.of_nat J) <= zq (Z.of_nat K))%Q) by (unfold zq; rewrite <- Zle_Qle; lia).
  pose proof (growth_mono J K HJ). pose proof (growth_nonneg J). pose proof (zq_nat_nonneg J).
  assert (0 <= B)%Q by (eapply Qle_trans; [apply Qabs_nonneg|exact H1]).
  apply Qle_trans with ((C + zq (Z.of_nat K)) * growth J)%Q; [apply Qmult_le_compat_r; lra|].
  rewrite !(Qmult_comm (C + _)). apply Qmult_le_compat_r; lra.
Qed.

Lemma close_eq J S S' B B' x x' : (S == S')%Q -> (B == B')%Q -> (x == x')%Q -> close J S B x -> close J S' B' x'.
Proof. intros E1 E2 E3 [H1 H2]. split; [rewrite <- E1, <- E2; exact H1|rewrite <- E1, <- E2, <- E3; exact H2]. Qed.

(** one item of a sum: the number of operations behind it, what it stands for, its absolute size, the float *)
Record term : Type := Term { t_ops : nat; t_sum : Q; t_abs : Q; t_val : Q }.
Definition good_term (t : term) : Prop := close (t_ops t) (t_sum t) (t_abs t) (t_val t).
Definition ops (l : list term) : nat := fold_right (fun t n => S (t_ops t + n)) 0%nat l.

Lemma close_fold F l : Forall good_term l -> forall J S B x, close J S B x ->
  close (J + ops l) (S + Qsum (map t_sum l)) (B + Qsum (map t_abs l)) (fold_left (fadd F) (map t_val l) x).
Proof.
  induction 1 as [|t l Ht _ IH]; intros J S B x Hx.
  - cbn. rewrite Nat.add_0_r. eapply close_eq; [| | |exact Hx]; ring.
  - cbn [map fold_left ops fold_right]. fold (ops l). pose proof (IH _ _ _ _ (close_add F _ _ _ _ _ _ _ _ Hx Ht)) as H.
    replace (J + Datatypes.S (t_ops t + ops l))%nat with (Datatypes.S (J + t_ops t) + ops l)%nat by lia.
    eapply close_eq; [| | |exact H]; [cbn [Qsum fold_right]; fold (Qsum (map t_sum l)); ring|cbn [Qsum fold_right]; fold (Qsum (map t_abs l)); ring|reflexivity].
Qed.

(** the bound in plain numbers *)
Lemma close_bound J S B x : close J S B x -> Z.of_nat J <= 2 ^ 52 -> (0 <= B)%Q ->
  (Qabs (x - S) <= (B + zq (Z.of_nat J)) * (zq (Z.of_nat J) * (1 # 2 ^ 52)))%Q.
Proof.
  intros [_ H] HJ HB. eapply Qle_trans; [exact H|]. rewrite !(Qmult_comm (B + _)). apply Qmult_le_compat_r; [apply growth_linear; exact HJ|].
  pose proof (zq_nat_nonneg J). lra.
Qed.
