(** * F64: IEEE-754 binary64 as an instance of [fm]

    Rounding to nearest, ties to even, 53 bit significand, subnormal numbers down to 2^-1074.
    Simplification: no largest number (a value that overflows in binary64 is kept).  No signed
    zero, infinity or NaN.  Every theorem quantified over [F : fm] holds for this instance. *)
From Coq Require Import Qpower.
From Verif Require Import Base Wp.
Open Scope Q_scope.

Lemma two_nz : ~ 2 == 0. Proof. discriminate. Qed.

(** [2 ^ k <= x < 2 ^ (k+1)] for [0 < x] *)
Definition qlog2 (x : Q) : Z :=
  let k := (Z.log2 (Qnum x) - Z.log2 (Zpos (Qden x)))%Z in
  if Qle_bool (2 ^ k) x then k else (k - 1)%Z.

(** exponent of the last bit of the significand *)
Definition expo (x : Q) : Z := Z.max (-1074) (qlog2 x - 52).

(** rounding of a positive number: the nearest multiple of that bit, ties to even *)
Definition rpos (x : Q) : Q := inject_Z (py_round (x / 2 ^ expo x)) * 2 ^ expo x.
Definition rnd64 (x : Q) : Q :=
  let x := Qred x in
  match Qnum x with
  | Z0 => 0
  | Zpos _ => Qred (rpos x)
  | Zneg _ => - Qred (rpos (- x))
  end.

(** ** Powers of two *)

Lemma p2_pos k : 0 < 2 ^ k.
Proof. apply Qpower_0_lt. reflexivity. Qed.
Lemma p2_nz k : ~ 2 ^ k == 0.
Proof. pose proof (p2_pos k). lra. Qed.
Lemma p2_plus j k : 2 ^ (j + k) == 2 ^ j * 2 ^ k.
Proof. apply Qpower_plus, two_nz. Qed.
Lemma p2_mono j k : (j <= k)%Z -> 2 ^ j <= 2 ^ k.
Proof. intros H. apply Qpower_le_compat_l; [exact H|discriminate]. Qed.
Lemma p2_Z k : (0 <= k)%Z -> 2 ^ k == inject_Z (2 ^ k).
Proof. intros H. symmetry. exact (Zpower_Qpower 2 k H). Qed.

Lemma qlog2_spec x : 0 < x -> 2 ^ qlog2 x <= x < 2 ^ (qlog2 x + 1).
Proof.
  intros Hx. destruct x as [n d]. unfold qlog2. cbn [Qnum Qden].
  assert (Hn : (0 < n)%Z) by (unfold Qlt in Hx; cbn in Hx; lia).
  pose proof (Z.log2_spec n Hn) as [N1 N2]. pose proof (Z.log2_spec (Zpos d) eq_refl) as [D1 D2].
  pose proof (Z.log2_nonneg n). pose proof (Z.log2_nonneg (Zpos d)).
  set (a := Z.log2 n) in *. set (b := Z.log2 (Zpos d)) in *.
  assert (Ex : n # d == inject_Z n / inject_Z (Zpos d)) by (rewrite (Qmake_Qdiv n d); reflexivity).
  assert (Hd : 0 < inject_Z (Zpos d)) by reflexivity.
  assert (Up : n # d < 2 ^ (a - b + 1)).
  { rewrite Ex. apply Qlt_shift_div_r; [exact Hd|].
    apply Qlt_le_trans with (2 ^ (a + 1)).
    - rewrite p2_Z by lia. rewrite <- Zlt_Qlt. unfold Z.succ in N2. exact N2.
    - replace (a + 1)%Z with ((a - b + 1) + b)%Z by lia. rewrite p2_plus. apply Qmult_le_l; [apply p2_pos|].
      rewrite p2_Z by lia. rewrite <- Zle_Qle. exact D1. }
  assert (Lo : 2 ^ (a - b - 1) <= n # d).
  { rewrite Ex. apply Qle_shift_div_l; [exact Hd|].
    apply Qle_trans with (2 ^ a).
    - replace a with ((a - b - 1) + Z.succ b)%Z at 2 by lia. rewrite p2_plus. apply Qmult_le_l; [apply p2_pos|].
      rewrite p2_Z by lia. rewrite <- Zle_Qle. lia.
    - rewrite p2_Z by lia. rewrite <- Zle_Qle. exact N1. }
  destruct (Qle_bool (2 ^ (a - b)) (n # d)) eqn:E.
  - apply Qle_bool_iff in E. split; [exact E|exact Up].
  - assert (n # d < 2 ^ (a - b)) by (apply Qnot_le_lt; intros H'; apply Qle_bool_iff in H'; congruence).
    split; [exact Lo|]. replace (a - b - 1 + 1)%Z with (a - b)%Z by lia. assumption.
Qed.

Lemma qlog2_unique x k : 2 ^ k <= x < 2 ^ (k + 1) -> qlog2 x = k.
Proof.
  intros [H1 H2]. assert (Hx : 0 < x) by (pose proof (p2_pos k); lra).
  destruct (qlog2_spec x Hx) as [L1 L2].
  assert (k < qlog2 x + 1)%Z by (apply (Qpower_lt_compat_l_inv 2); [lra|reflexivity]).
  assert (qlog2 x < k + 1)%Z by (apply (Qpower_lt_compat_l_inv 2); [lra|reflexivity]).
  lia.
Qed.
Lemma qlog2_comp x y : 0 < x -> x == y -> qlog2 x = qlog2 y.
Proof. intros Hx E. apply qlog2_unique. rewrite E. apply qlog2_spec. lra. Qed.
Lemma qlog2_mono x y : 0 < x -> x <= y -> (qlog2 x <= qlog2 y)%Z.
Proof.
  intros Hx Hy. destruct (qlog2_spec x Hx), (qlog2_spec y ltac:(lra)).
  assert (qlog2 x < qlog2 y + 1)%Z by (apply (Qpower_lt_compat_l_inv 2); [lra|reflexivity]). lia.
Qed.

(** ** Rounding to the nearest integer *)

Lemma round_comp x y : x == y -> py_round x = py_round y.
Proof.
  intros H. unfold py_round. rewrite (Qfloor_comp x y H).
  assert (E : x - inject_Z (Qfloor y) == y - inject_Z (Qfloor y)) by (rewrite H; reflexivity).
  assert (L : forall a b c d, a == b -> c == d -> Qltb a c = Qltb b d).
  { intros a b c d H1 H2. destruct (Qltb a c) eqn:E'.
    - symmetry. apply Qltb_lt. apply Qltb_lt in E'. rewrite <- H1, <- H2. exact E'.
    - symmetry. apply Qltb_ge. apply Qltb_ge in E'. rewrite <- H1, <- H2. exact E'. }
  rewrite (L _ _ _ _ E (Qeq_refl (1 # 2))), (L _ _ _ _ (Qeq_refl (1 # 2)) E). reflexivity.
Qed.
Lemma round_near x : Qabs (inject_Z (py_round x) - x) <= 1 # 2.
Proof.
  unfold py_round. pose proof (Qfloor_le x) as L. pose proof (Qlt_floor x) as U. rewrite inject_Z_plus in U.
  change (inject_Z 1) with 1 in U.
  apply Qabs_Qle_condition.
  destruct (Qltb (x - inject_Z (Qfloor x)) (1 # 2)) eqn:E1; [apply Qltb_lt in E1; lra|].
  apply Qltb_ge in E1.
  destruct (Qltb (1 # 2) (x - inject_Z (Qfloor x))) eqn:E2.
  - rewrite inject_Z_plus. change (inject_Z 1) with 1. lra.
  - apply Qltb_ge in E2. destruct (Z.even (Qfloor x)); [lra|rewrite inject_Z_plus; change (inject_Z 1) with 1; lra].
Qed.
Lemma round_mono x y : x <= y -> (py_round x <= py_round y)%Z.
Proof.
  intros H. pose proof (Qfloor_resp_le x y H) as Hf.
  destruct (Z.eq_dec (Qfloor x) (Qfloor y)) as [E|NE].
  - unfold py_round. rewrite E.
    destruct (Qltb (x - inject_Z (Qfloor y)) (1 # 2)) eqn:X1.
    + destruct (Qltb (y - _) _); [lia|]. destruct (Qltb (1 # 2) _); [lia|]. destruct (Z.even _); lia.
    + apply Qltb_ge in X1. destruct (Qltb (y - inject_Z (Qfloor y)) (1 # 2)) eqn:Y1; [apply Qltb_lt in Y1; lra|].
      destruct (Qltb (1 # 2) (x - inject_Z (Qfloor y))) eqn:X2.
      * apply Qltb_lt in X2. replace (Qltb (1 # 2) (y - inject_Z (Qfloor y))) with true by (symmetry; apply Qltb_lt; lra). lia.
      * destruct (Qltb (1 # 2) (y - _)); destruct (Z.even _); lia.
  - assert (R : forall z, (Qfloor z <= py_round z <= Qfloor z + 1)%Z).
    { intros z. unfold py_round. destruct (Qltb _ _); [lia|]. destruct (Qltb _ _); [lia|]. destruct (Z.even _); lia. }
    pose proof (R x). pose proof (R y). lia.
Qed.

(** ** The rounding of positive numbers *)

(** representable: an integer of at most 53 bits times a power of two not below 2^-1074 *)
Definition repr (x : Q) : Prop := exists m e, (0 < m <= 2 ^ 53)%Z /\ (-1074 <= e)%Z /\ x == inject_Z m * 2 ^ e.

Lemma expo_comp x y : 0 < x -> x == y -> expo x = expo y.
Proof. intros Hx E. unfold expo. now rewrite (qlog2_comp x y Hx E). Qed.
Lemma rpos_comp x y : 0 < x -> x == y -> rpos x == rpos y.
Proof.
  intros Hx E. unfold rpos. rewrite (expo_comp x y Hx E).
  rewrite (round_comp (x / 2 ^ expo y) (y / 2 ^ expo y)); [reflexivity|]. now rewrite E.
Qed.

Lemma scaled_le x y k : x <= y * 2 ^ k -> x / 2 ^ k <= y.
Proof. intros H. apply Qle_shift_div_r; [apply p2_pos|exact H]. Qed.

(** the rounded number is at most the next power of two *)
Lemma scaled_bound x : 0 < x -> x / 2 ^ expo x <= inject_Z (2 ^ 53).
Proof.
  intros Hx. apply scaled_le. destruct (qlog2_spec x Hx) as [_ U].
  rewrite <- (p2_Z 53) by lia. rewrite <- p2_plus. apply Qle_trans with (2 ^ (qlog2 x + 1)); [lra|].
  apply p2_mono. unfold expo. lia.
Qed.
Lemma int_range a b x : inject_Z a <= x <= inject_Z b -> (a <= py_round x <= b)%Z.
Proof. apply py_round_range. Qed.
Lemma rpos_nonneg x : 0 < x -> 0 <= rpos x.
Proof.
  intros Hx. unfold rpos. apply Qmult_le_0_compat; [|apply Qlt_le_weak, p2_pos].
  change 0 with (inject_Z 0). rewrite <- Zle_Qle. change 0%Z with (py_round (inject_Z 0)) at 1.
  apply round_mono. apply Qle_shift_div_l; [apply p2_pos|]. change (inject_Z 0) with 0. lra.
Qed.
Lemma rpos_repr x : 0 < x -> rpos x == 0 \/ repr (rpos x).
Proof.
  intros Hx. pose proof (rpos_nonneg x Hx) as H0. unfold rpos in *.
  pose proof (scaled_bound x Hx) as B.
  assert (R : (0 <= py_round (x / 2 ^ expo x) <= 2 ^ 53)%Z).
  { apply int_range. split; [|exact B]. apply Qle_shift_div_l; [apply p2_pos|]. change (inject_Z 0) with 0. lra. }
  destruct (Z.eq_dec (py_round (x / 2 ^ expo x)) 0) as [E|NE]; [left; rewrite E; change (inject_Z 0) with 0; ring|].
  right. exists (py_round (x / 2 ^ expo x)), (expo x). split; [lia|]. split; [unfold expo; lia|reflexivity].
Qed.

Lemma repr_fixed x : repr x -> rpos x == x.
Proof.
  intros (m & e & Hm & He & Ex).
  assert (Hx : 0 < x).
  { rewrite Ex. apply Qmult_lt_0_compat; [|apply p2_pos]. change 0 with (inject_Z 0). rewrite <- Zlt_Qlt. lia. }
  assert (I : exists j, x == inject_Z j * 2 ^ expo x).
  { destruct (Z.eq_dec m (2 ^ 53)) as [->|Hlt].
    - assert (L : qlog2 x = (e + 53)%Z).
      { apply qlog2_unique. rewrite Ex. rewrite <- (p2_Z 53) by lia. rewrite <- p2_plus.
        replace (53 + e)%Z with (e + 53)%Z by lia. split; [apply Qle_refl|]. apply Qpower_lt_compat_l; [lia|reflexivity]. }
      assert (Ee : expo x = (e + 1)%Z) by (unfold expo; lia).
      exists (2 ^ 52)%Z. rewrite Ee, Ex. rewrite <- (p2_Z 53), <- (p2_Z 52) by lia. rewrite <- !p2_plus.
      replace (53 + e)%Z with (52 + (e + 1))%Z by lia. reflexivity.
    - assert (L : (qlog2 x < e + 53)%Z).
      { apply (Qpower_lt_compat_l_inv 2); [|reflexivity]. destruct (qlog2_spec x Hx) as [L _].
        apply Qle_lt_trans with x; [exact L|]. rewrite Ex. replace (e + 53)%Z with (53 + e)%Z by lia. rewrite p2_plus.
        rewrite (p2_Z 53) by lia. apply Qmult_lt_compat_r; [apply p2_pos|]. rewrite <- Zlt_Qlt. lia. }
      assert (Ee : (expo x <= e)%Z) by (unfold expo; lia).
      exists (m * 2 ^ (e - expo x))%Z. rewrite inject_Z_mult, <- (p2_Z (e - expo x)) by lia.
      rewrite <- Qmult_assoc, <- p2_plus. replace (e - expo x + expo x)%Z with e by lia. exact Ex. }
  destruct I as (j & Hj). unfold rpos.
  rewrite (round_comp (x / 2 ^ expo x) (inject_Z j)).
  - change (inject_Z j) with (zq j) at 1. rewrite (py_round_zq j). symmetry. exact Hj.
  - rewrite Hj at 1. apply Qdiv_mult_l. apply p2_nz.
Qed.

Lemma rpos_mono x y : 0 < x -> x <= y -> rpos x <= rpos y.
Proof.
  intros Hx Hxy. assert (Hy : 0 < y) by lra.
  assert (He : (expo x <= expo y)%Z) by (unfold expo; pose proof (qlog2_mono x y Hx Hxy); lia).
  destruct (Z.eq_dec (expo x) (expo y)) as [E|NE].
  - unfold rpos. rewrite E. apply Qmult_le_compat_r; [|apply Qlt_le_weak, p2_pos]. rewrite <- Zle_Qle.
    apply round_mono. unfold Qdiv. apply Qmult_le_compat_r; [exact Hxy|]. apply Qlt_le_weak, Qinv_lt_0_compat, p2_pos.
  - assert (Ey : expo y = (qlog2 y - 52)%Z) by (unfold expo in *; lia).
    apply Qle_trans with (2 ^ (expo x + 53)).
    + unfold rpos. replace (expo x + 53)%Z with (53 + expo x)%Z by lia. rewrite p2_plus, (p2_Z 53) by lia.
      apply Qmult_le_compat_r; [|apply Qlt_le_weak, p2_pos]. rewrite <- Zle_Qle.
      rewrite <- (py_round_zq (2 ^ 53)). apply round_mono. apply scaled_bound, Hx.
    + apply Qle_trans with (2 ^ (52 + expo y)); [apply p2_mono; lia|].
      unfold rpos. rewrite p2_plus, (p2_Z 52) by lia.
      apply Qmult_le_compat_r; [|apply Qlt_le_weak, p2_pos]. rewrite <- Zle_Qle.
      rewrite <- (py_round_zq (2 ^ 52)). apply round_mono. apply Qle_shift_div_l; [apply p2_pos|].
      change (zq (2 ^ 52)) with (inject_Z (2 ^ 52)). rewrite <- (p2_Z 52) by lia. rewrite <- p2_plus.
      replace (52 + expo y)%Z with (qlog2 y) by lia. apply qlog2_spec, Hy.
Qed.

Lemma rpos_err x : 0 < x -> Qabs (rpos x - x) <= x * eps53 + eta64.
Proof.
  intros Hx. set (u := 2 ^ expo x).
  assert (Hu : 0 < u) by apply p2_pos.
  assert (E : rpos x - x == (inject_Z (py_round (x / u)) - x / u) * u).
  { unfold rpos. fold u. field. intros H. rewrite H in Hu. discriminate. }
  rewrite E, Qabs_Qmult. rewrite (Qabs_pos u) by lra.
  apply Qle_trans with ((1 # 2) * u); [apply Qmult_le_compat_r; [apply round_near|lra]|].
  assert (Heps : eps53 == 2 ^ (-53)) by (vm_compute; reflexivity).
  assert (Heta : eta64 == 2 ^ (-1074)) by (vm_compute; reflexivity).
  unfold expo in u. destruct (Z.max_spec (-1074) (qlog2 x - 52)) as [[Hl Hm]|[Hl Hm]].
  - assert (Hb : u <= x * 2 ^ (-52)).
    { unfold u. rewrite Hm. replace (qlog2 x - 52)%Z with (qlog2 x + (-52))%Z by lia. rewrite p2_plus.
      apply Qmult_le_compat_r; [apply qlog2_spec, Hx|apply Qlt_le_weak, p2_pos]. }
    assert (Heq : 2 ^ (-53) == (1 # 2) * 2 ^ (-52)) by (vm_compute; reflexivity).
    assert (0 < eta64) by reflexivity. rewrite Heps, Heq.
    setoid_replace (x * ((1 # 2) * 2 ^ (-52))) with ((1 # 2) * (x * 2 ^ (-52))) by ring. lra.
  - assert (Hu' : u == eta64) by (unfold u; rewrite Hm, Heta; reflexivity).
    rewrite Hu'. assert (0 < eta64) by reflexivity. assert (0 <= x * eps53) by (apply Qmult_le_0_compat; [lra|discriminate]). lra.
Qed.

(** ** The rounding of all numbers *)

Lemma rnd64_zero x : x == 0 -> rnd64 x == 0.
Proof.
  intros H. unfold rnd64. rewrite <- (Qred_correct x) in H. unfold Qeq in H. cbn in H.
  destruct (Qnum (Qred x)); [reflexivity|lia|lia].
Qed.
Lemma rnd64_pos x : 0 < x -> rnd64 x == rpos x.
Proof.
  intros H. unfold rnd64. pose proof (Qred_correct x) as E. pose proof H as H'. rewrite <- E in H'. unfold Qlt in H'. cbn in H'.
  destruct (Qnum (Qred x)); [lia| |lia]. rewrite Qred_correct. symmetry. apply rpos_comp; [exact H|]. symmetry; exact E.
Qed.
Lemma rnd64_neg x : x < 0 -> rnd64 x == - rpos (- x).
Proof.
  intros H. unfold rnd64. pose proof (Qred_correct x) as E. pose proof H as H'. rewrite <- E in H'. unfold Qlt in H'. cbn in H'.
  destruct (Qnum (Qred x)); [lia|lia|]. rewrite Qred_correct. apply Qopp_comp. symmetry. apply rpos_comp; [lra|]. now rewrite E.
Qed.

Lemma sign_cases x : x < 0 \/ x == 0 \/ 0 < x.
Proof. destruct (Q_dec x 0) as [[H|H]|H]; auto. Qed.

Lemma rnd64_comp x y : x == y -> rnd64 x == rnd64 y.
Proof.
  intros E. destruct (sign_cases x) as [H|[H|H]].
  - rewrite (rnd64_neg x H), (rnd64_neg y) by lra. apply Qopp_comp, rpos_comp; [lra|now rewrite E].
  - rewrite (rnd64_zero x H), (rnd64_zero y) by lra. reflexivity.
  - rewrite (rnd64_pos x H), (rnd64_pos y) by lra. now apply rpos_comp.
Qed.

Lemma rnd64_repr x : repr x -> rnd64 x == x.
Proof.
  intros H. assert (Hx : 0 < x).
  { destruct H as (m & e & Hm & He & Ex). rewrite Ex. apply Qmult_lt_0_compat; [|apply p2_pos].
    change 0 with (inject_Z 0). rewrite <- Zlt_Qlt. lia. }
  rewrite (rnd64_pos x Hx). now apply repr_fixed.
Qed.
Lemma rnd64_repr_neg x : repr (- x) -> rnd64 x == x.
Proof.
  intros H. assert (Hx : 0 < - x).
  { destruct H as (m & e & Hm & He & Ex). rewrite Ex. apply Qmult_lt_0_compat; [|apply p2_pos].
    change 0 with (inject_Z 0). rewrite <- Zlt_Qlt. lia. }
  rewrite (rnd64_neg x) by lra. rewrite (repr_fixed _ H). ring.
Qed.
Lemma repr_comp x y : x == y -> repr x -> repr y.
Proof. intros E (m & e & Hm & He & Ex). exists m, e. split; [exact Hm|]. split; [exact He|]. now rewrite <- E. Qed.

Lemma rnd64_mono x y : x <= y -> rnd64 x <= rnd64 y.
Proof.
  intros H. destruct (sign_cases x) as [Hx|[Hx|Hx]], (sign_cases y) as [Hy|[Hy|Hy]]; try lra.
  - rewrite (rnd64_neg x Hx), (rnd64_neg y Hy). pose proof (rpos_mono (- y) (- x) ltac:(lra) ltac:(lra)). lra.
  - rewrite (rnd64_neg x Hx), (rnd64_zero y Hy). pose proof (rpos_nonneg (- x) ltac:(lra)). lra.
  - rewrite (rnd64_neg x Hx), (rnd64_pos y Hy). pose proof (rpos_nonneg (- x) ltac:(lra)). pose proof (rpos_nonneg y Hy). lra.
  - rewrite (rnd64_zero x Hx), (rnd64_zero y Hy). lra.
  - rewrite (rnd64_zero x Hx), (rnd64_pos y Hy). apply rpos_nonneg, Hy.
  - rewrite (rnd64_pos x Hx), (rnd64_pos y Hy). now apply rpos_mono.
Qed.
Lemma rnd64_idem x : rnd64 (rnd64 x) == rnd64 x.
Proof.
  destruct (sign_cases x) as [Hx|[Hx|Hx]].
  - pose proof (rnd64_neg x Hx) as E. destruct (rpos_repr (- x) ltac:(lra)) as [Hz|Hr].
    + rewrite (rnd64_zero (rnd64 x)) by (rewrite E, Hz; reflexivity). rewrite E, Hz. reflexivity.
    + apply rnd64_repr_neg. apply (repr_comp (rpos (- x))); [rewrite E; ring|exact Hr].
  - rewrite (rnd64_zero (rnd64 x)); [symmetry|]; apply rnd64_zero; exact Hx.
  - pose proof (rnd64_pos x Hx) as E. destruct (rpos_repr x Hx) as [Hz|Hr].
    + rewrite (rnd64_zero (rnd64 x)) by (rewrite E, Hz; reflexivity). rewrite E, Hz. reflexivity.
    + apply rnd64_repr. apply (repr_comp (rpos x)); [rewrite E; reflexivity|exact Hr].
Qed.

Lemma dyadic_value z k : (0 <= k)%Z -> z # Z.to_pos (2 ^ k) == inject_Z z * 2 ^ (- k).
Proof.
  intros Hk. rewrite Qmake_Qdiv. unfold Qdiv. apply Qmult_comp; [reflexivity|].
  rewrite Z2Pos.id by (apply Z.pow_pos_nonneg; lia). rewrite Qpower_opp, (p2_Z k) by lia. reflexivity.
Qed.

Lemma rnd64_dyadic z k : (Z.abs z <= 2 ^ 53)%Z -> (0 <= k <= 1000)%Z -> rnd64 (z # Z.to_pos (2 ^ k)) == z # Z.to_pos (2 ^ k).
Proof.
  intros Hz Hk. pose proof (dyadic_value z k ltac:(lia)) as E.
  destruct (Ztrichotomy z 0) as [Hn|[->|Hp]].
  - apply rnd64_repr_neg. exists (- z)%Z, (- k)%Z. split; [lia|]. split; [lia|]. rewrite E, inject_Z_opp. ring.
  - rewrite rnd64_zero; [reflexivity|reflexivity]. 
  - apply rnd64_repr. exists z, (- k)%Z. split; [lia|]. split; [lia|]. exact E.
Qed.

Lemma rnd64_err x : Qabs (rnd64 x - x) <= Qabs x * eps53 + eta64.
Proof.
  destruct (sign_cases x) as [Hx|[Hx|Hx]].
  - rewrite (rnd64_neg x Hx), (Qabs_neg x) by lra.
    setoid_replace (- rpos (- x) - x) with (- (rpos (- x) - (- x))) by ring. rewrite Qabs_opp. apply rpos_err. lra.
  - rewrite (rnd64_zero x Hx), Hx. vm_compute. discriminate.
  - rewrite (rnd64_pos x Hx), (Qabs_pos x) by lra. now apply rpos_err.
Qed.

(** binary64 *)
Definition f64 : fm := FM rnd64 rnd64_mono rnd64_idem rnd64_dyadic rnd64_err.

(** nearest: no representable number is closer *)
Lemma rpos_nearest x y : 0 < x -> repr y -> Qabs (rpos x - x) <= Qabs (y - x).
Proof.
  intros Hx (m & e & Hm & He & Ey). set (u := 2 ^ expo x). assert (Hu : 0 < u) by apply p2_pos.
  assert (E : rpos x - x == (inject_Z (py_round (x / u)) - x / u) * u).
  { unfold rpos. fold u. field. intros H. rewrite H in Hu. discriminate. }
  assert (Near : forall j, Qabs (inject_Z (py_round (x / u)) - x / u) <= Qabs (inject_Z j - x / u)).
  { intros j. pose proof (round_near (x / u)) as N.
    destruct (Z.eq_dec j (py_round (x / u))) as [->|NE]; [apply Qle_refl|].
    apply Qabs_Qle_condition in N.
    assert (1 <= Qabs (inject_Z j - inject_Z (py_round (x / u)))).
    { unfold Qminus. rewrite <- inject_Z_opp, <- inject_Z_plus. change (Qabs (inject_Z (j + - py_round (x / u)))) with (inject_Z (Z.abs (j + - py_round (x / u)))).
      change 1 with (inject_Z 1). rewrite <- Zle_Qle. lia. }
    apply Qle_trans with (1 # 2); [apply round_near|].
    destruct (Qlt_le_dec (inject_Z j) (inject_Z (py_round (x / u)))) as [H1|H1].
    - rewrite Qabs_neg in H by lra. rewrite Qabs_neg by lra. lra.
    - rewrite Qabs_pos in H by lra. rewrite Qabs_pos by lra. lra. }
  assert (Mult : (exists j, y == inject_Z j * u) -> Qabs (rpos x - x) <= Qabs (y - x)).
  { intros (j & Hj). rewrite E, Hj. setoid_replace (inject_Z j * u - x) with ((inject_Z j - x / u) * u) by (field; lra).
    rewrite !Qabs_Qmult. apply Qmult_le_compat_r; [apply Near|apply Qabs_nonneg]. }
  destruct (Z_le_gt_dec (expo x) e) as [Hle|Hgt].
  - apply Mult. exists (m * 2 ^ (e - expo x))%Z. unfold u. rewrite inject_Z_mult, <- (p2_Z (e - expo x)) by lia.
    rewrite <- Qmult_assoc, <- p2_plus. replace (e - expo x + expo x)%Z with e by lia. exact Ey.
  - (* y below the binade of x: y <= 2^(53+e) <= 2^(52+expo x) <= x, and 2^(52 + expo x) is nearer *)
    assert (Ee : expo x = (qlog2 x - 52)%Z) by (unfold expo in *; lia).
    assert (Hy : y <= 2 ^ (52 + expo x)).
    { rewrite Ey. apply Qle_trans with (2 ^ (53 + e)); [|apply p2_mono; lia]. rewrite p2_plus, (p2_Z 53) by lia.
      apply Qmult_le_compat_r; [|apply Qlt_le_weak, p2_pos]. rewrite <- Zle_Qle. lia. }
    assert (Hb : 2 ^ (52 + expo x) <= x).
    { replace (52 + expo x)%Z with (qlog2 x) by lia. apply qlog2_spec, Hx. }
    apply Qle_trans with (Qabs (2 ^ (52 + expo x) - x)).
    + rewrite E. rewrite p2_plus, (p2_Z 52) by lia. fold u.
      setoid_replace (inject_Z (2 ^ 52) * u - x) with ((inject_Z (2 ^ 52) - x / u) * u) by (field; lra).
      rewrite !Qabs_Qmult. apply Qmult_le_compat_r; [apply Near|apply Qabs_nonneg].
    + rewrite !Qabs_neg by lra. lra.
Qed.

(** 0.1, 0.2 and 0.1 + 0.2 of any Python prompt: 0x1.999999999999ap-4, 0x1.999999999999ap-3, 0x1.3333333333334p-2 *)
Example f64_tenth : rnd64 (1 # 10) = 3602879701896397 # 36028797018963968 /\
  fadd f64 (flit f64 (1 # 10)) (flit f64 (2 # 10)) = 1351079888211149 # 4503599627370496 /\
  ~ fadd f64 (flit f64 (1 # 10)) (flit f64 (2 # 10)) == flit f64 (3 # 10).
Proof. split; [vm_compute; reflexivity|]. split; [vm_compute; reflexivity|]. vm_compute. discriminate. Qed.
(** the smallest number, and half of it *)
Example f64_small : rnd64 (3 # 2 ^ 1075) = 1 # 2 ^ 1073 /\ rnd64 (1 # 2 ^ 1075) = 0.
Proof. split; vm_compute; reflexivity. Qed.
Lemma f64_not_exact : ~ exact f64.
Proof. intros H. specialize (H (1 # 10)). vm_compute in H. discriminate. Qed.
