(** * Wp: reasoning about draw programs

    [wp p Q]: whatever the draws, the outcome of [p] satisfies [Q].  Proof machinery only (no
    RAMP code is modelled here). *)
From Verif Require Import Base.

Fixpoint wp {A} (p : prog A) (Q : res A -> Prop) : Prop :=
  match p with
  | Ret a => Q (Ok a)
  | Raise e => Q (Err e)
  | Random k => forall u, (0 <= u)%Q -> (u < 1)%Q -> wp (k u) Q
  | RandBelow n k => forall i, 0 <= i < n -> wp (k i) Q
  | Normal _ k => forall z, wp (k z) Q
  | Seed _ k => wp k Q
  end.

Lemma wp_may {A} (p : prog A) (Q : res A -> Prop) :
  wp p Q <-> (forall r, may p r -> Q r).
Proof.
  induction p as [a|e|k IH|n k IH|c k IH|s k IH]; cbn [wp].
  - split; [intros H r Hr; inversion Hr; subst; exact H | intros H; apply H; constructor].
  - split; [intros H r Hr; inversion Hr; subst; exact H | intros H; apply H; constructor].
  - split.
    + intros H r Hr; inversion Hr as [| |u k' r' H0 H1 H2| | |]; subst.
      apply (proj1 (IH u) (H u H0 H1)); exact H2.
    + intros H u H0 H1; apply IH; intros r Hr; apply H; econstructor; eauto.
  - split.
    + intros H r Hr; inversion Hr as [| | |n' i k' r' H0 H1| |]; subst.
      apply (proj1 (IH i) (H i H0)); exact H1.
    + intros H i H0; apply IH; intros r Hr; apply H; econstructor; eauto.
  - split.
    + intros H r Hr; inversion Hr as [| | | |c' z k' r' H0|]; subst.
      apply (proj1 (IH z) (H z)); exact H0.
    + intros H z; apply IH; intros r Hr; apply H; econstructor; eauto.
  - rewrite IH; split; intros H r Hr; apply H.
    + inversion Hr; subst; assumption.
    + constructor; assumption.
Qed.

Lemma wp_elim {A} (p : prog A) (Q : res A -> Prop) r : wp p Q -> may p r -> Q r.
Proof. intros H; exact (proj1 (wp_may p Q) H r). Qed.

Lemma wp_intro {A} (p : prog A) (Q : res A -> Prop) : (forall r, may p r -> Q r) -> wp p Q.
Proof. apply wp_may. Qed.

Lemma wp_mono {A} (p : prog A) (Q R : res A -> Prop) :
  (forall r, Q r -> R r) -> wp p Q -> wp p R.
Proof. intros HQR H; apply wp_may; intros r Hr; apply HQR; eapply wp_elim; eauto. Qed.

Lemma wp_and {A} (p : prog A) (Q R : res A -> Prop) :
  wp p Q -> wp p R -> wp p (fun r => Q r /\ R r).
Proof. intros H1 H2; apply wp_may; intros r Hr; split; eapply wp_elim; eauto. Qed.

Definition wpk {A B} (f : A -> prog B) (Q : res B -> Prop) (r : res A) : Prop :=
  match r with Ok a => wp (f a) Q | Err e => Q (Err e) end.

Lemma wp_bind {A B} (m : prog A) (f : A -> prog B) (Q : res B -> Prop) :
  wp (bind m f) Q <-> wp m (wpk f Q).
Proof.
  induction m as [a|e|k IH|n k IH|c k IH|s k IH]; cbn [wp bind wpk]; try tauto.
  - split; intros H u H0 H1; apply IH; auto.
  - split; intros H i H0; apply IH; auto.
  - split; intros H z; apply IH; auto.
Qed.

Lemma wp_bind_ok {A B} (m : prog A) (f : A -> prog B) (Q : res B -> Prop) :
  wp m (wpk f Q) -> wp (bind m f) Q.
Proof. apply wp_bind. Qed.

Lemma may_bind {A B} (m : prog A) (f : A -> prog B) r :
  may (bind m f) r <->
  ((exists a, may m (Ok a) /\ may (f a) r) \/ (exists e, may m (Err e) /\ r = Err e)).
Proof.
  split.
  - revert r; induction m as [a|e|k IH|n k IH|c k IH|s k IH]; cbn [bind]; intros r H.
    + left; exists a; split; [constructor|exact H].
    + right; exists e; split; [constructor|]. inversion H; reflexivity.
    + inversion H as [| |u k' r' H0 H1 H2| | |]; subst.
      destruct (IH u r H2) as [(a & Ha & Hb)|(e & He & Hr)].
      * left; exists a; split; [econstructor; eauto|exact Hb].
      * right; exists e; split; [econstructor; eauto|exact Hr].
    + inversion H as [| | |n' i k' r' H0 H1| |]; subst.
      destruct (IH i r H1) as [(a & Ha & Hb)|(e & He & Hr)].
      * left; exists a; split; [econstructor; eauto|exact Hb].
      * right; exists e; split; [econstructor; eauto|exact Hr].
    + inversion H as [| | | |c' z k' r' H0|]; subst.
      destruct (IH z r H0) as [(a & Ha & Hb)|(e & He & Hr)].
      * left; exists a; split; [econstructor; eauto|exact Hb].
      * right; exists e; split; [econstructor; eauto|exact Hr].
    + inversion H; subst.
      match goal with Hk : may (bind k f) r |- _ => destruct (IH r Hk) as [(a & Ha & Hb)|(e & He & Hr)] end.
      * left; exists a; split; [constructor; eauto|exact Hb].
      * right; exists e; split; [constructor; eauto|exact Hr].
  - intros [(a & Ha & Hb)|(e & He & ->)].
    + revert Ha; induction m as [a0|e|k IH|n k IH|c k IH|s k IH]; cbn [bind]; intros Ha;
        inversion Ha; subst; try (econstructor; eauto; fail). exact Hb.
    + revert He; induction m as [a0|e0|k IH|n k IH|c k IH|s k IH]; cbn [bind]; intros He;
        inversion He; subst; econstructor; eauto.
Qed.

Lemma may_ret_inv {A} (a : A) r : may (Ret a) r <-> r = Ok a.
Proof. split; intros H; [inversion H; reflexivity|subst; constructor]. Qed.

Lemma may_raise_inv {A} e (r : res A) : may (Raise e) r <-> r = Err e.
Proof. split; intros H; [inversion H; reflexivity|subst; constructor]. Qed.

Lemma may_lift {A} (x r : res A) : may (lift x) r <-> r = x.
Proof. destruct x; cbn [lift]; [apply may_ret_inv|apply may_raise_inv]. Qed.

Lemma wp_lift {A} (x : res A) Q : wp (lift x) Q <-> Q x.
Proof. destruct x; cbn; tauto. Qed.

Lemma bind_ret_r {A B} (m : prog A) (g : A -> B) (Q : res B -> Prop) :
  wp (bind m (fun x => Ret (g x))) Q <->
  wp m (fun r => Q (match r with Ok a => Ok (g a) | Err e => Err e end)).
Proof.
  rewrite wp_bind; split; apply wp_mono; intros [a|e]; cbn; auto.
Qed.

(** A run with a concrete generator is a possible outcome, provided every [RandBelow] asks for
    a positive range. *)
Fixpoint below_pos {A} (p : prog A) : Prop :=
  match p with
  | Ret _ | Raise _ => True
  | Random k => forall u, below_pos (k u)
  | RandBelow n k => 0 < n /\ forall i, below_pos (k i)
  | Normal _ k => forall z, below_pos (k z)
  | Seed _ k => below_pos k
  end.

Lemma below_pos_bind {A B} (m : prog A) (f : A -> prog B) :
  below_pos m -> (forall a, below_pos (f a)) -> below_pos (bind m f).
Proof.
  induction m as [a|e|k IH|n k IH|c k IH|s k IH]; cbn; intros H Hf; auto.
  destruct H as [H0 H1]; split; auto.
Qed.

Lemma below_pos_lift {A} (x : res A) : below_pos (lift x).
Proof. destruct x; exact I. Qed.

Lemma run_may {A} (G : generator) (p : prog A) (s : gstate G) :
  below_pos p -> may p (fst (run G p s)).
Proof.
  revert s; induction p as [a|e|k IH|n k IH|c k IH|z k IH]; intros s Hp; cbn [run below_pos] in *.
  - constructor.
  - constructor.
  - pose proof (g_random_range G s) as Hr. destruct (g_random G s) as [u s'] eqn:E.
    cbn in Hr. econstructor; try apply Hr. apply IH; auto.
  - destruct Hp as [Hn Hk]. pose proof (g_below_range G n s Hn) as Hr.
    destruct (g_below G n s) as [i s'] eqn:E. cbn in Hr. econstructor; [exact Hr|]. apply IH; auto.
  - destruct (g_normal G c s) as [u s'] eqn:E. econstructor. apply IH; auto.
  - constructor. apply IH; auto.
Qed.

Lemma run_bind {A B} (G : generator) (m : prog A) (f : A -> prog B) s :
  run G (bind m f) s =
  match run G m s with
  | (Ok a, s') => run G (f a) s'
  | (Err e, s') => (Err e, s')
  end.
Proof.
  revert s; induction m as [a|e|k IH|n k IH|c k IH|z k IH]; intros s; cbn [run bind]; auto.
  - destruct (g_random G s) as [u s']; auto.
  - destruct (g_below G n s) as [u s']; auto.
  - destruct (g_normal G c s) as [u s']; auto.
Qed.

(** ** The draw primitives *)

Lemma wp_randint a b (Q : res Z -> Prop) :
  (b < a -> Q (Err ValueError)) -> (forall x, a <= x <= b -> Q (Ok x)) -> wp (py_randint a b) Q.
Proof.
  intros He Ho; unfold py_randint. destruct (Z.leb_spec (b + 1 - a) 0); cbn.
  - apply He; lia.
  - intros i Hi; apply Ho; lia.
Qed.

Lemma may_randint a b r :
  may (py_randint a b) r <-> ((b < a /\ r = Err ValueError) \/ (exists x, a <= x <= b /\ r = Ok x)).
Proof.
  split.
  - intros H. pattern r. refine (wp_elim _ _ r _ H).
    apply wp_randint; [intros; left; auto|intros x Hx; right; eauto].
  - unfold py_randint. destruct (Z.leb_spec (b + 1 - a) 0).
    + intros [[_ ->]|(x & Hx & _)]; [constructor|lia].
    + intros [[H0 _]|(x & Hx & ->)]; [lia|].
      apply may_below with (i := x - a); [lia|]. replace (a + (x - a)) with x by lia. constructor.
Qed.

Lemma below_pos_randint a b : below_pos (py_randint a b).
Proof. unfold py_randint. destruct (Z.leb_spec (b + 1 - a) 0); cbn; auto with zarith. Qed.

Lemma wp_choice2 {A} (x y : A) (Q : res A -> Prop) : Q (Ok x) -> Q (Ok y) -> wp (py_choice2 x y) Q.
Proof. intros Hx Hy; unfold py_choice2; cbn; intros i Hi. destruct (Z.eqb_spec i 0); auto. Qed.

(** ** Rounding facts *)

#[export] Instance rnd_proper (F : fm) : Proper (Qeq ==> Qeq) (rnd F).
Proof.
  intros x y H. apply Qle_antisym; apply rnd_mono; rewrite H; apply Qle_refl.
Qed.

Lemma isfl_rnd F x : isfl F (rnd F x).
Proof. apply rnd_idem. Qed.

Lemma isfl_int F z : Z.abs z <= 2 ^ 53 -> isfl F (zq z).
Proof. apply rnd_int. Qed.

Lemma rnd_0 F : (rnd F 0 == 0)%Q.
Proof. apply (rnd_int F 0). vm_compute. discriminate. Qed.

Lemma rnd_1 F : (rnd F 1 == 1)%Q.
Proof. apply (rnd_int F 1). vm_compute. discriminate. Qed.

Lemma rnd_nonneg F x : (0 <= x)%Q -> (0 <= rnd F x)%Q.
Proof. intros H. rewrite <- (rnd_0 F). now apply rnd_mono. Qed.

Lemma rnd_le_fl F x y : isfl F y -> (x <= y)%Q -> (rnd F x <= y)%Q.
Proof. intros Hy H. unfold isfl in Hy. rewrite <- Hy. now apply rnd_mono. Qed.

Lemma rnd_ge_fl F x y : isfl F x -> (x <= y)%Q -> (x <= rnd F y)%Q.
Proof. intros Hy H. unfold isfl in Hy. rewrite <- Hy. now apply rnd_mono. Qed.

Lemma exact_rnd F x : exact F -> (rnd F x == x)%Q.
Proof. intros H; apply H. Qed.

Lemma exact_exact_fm : exact exact_fm.
Proof. intros x; cbn. apply Qred_correct. Qed.

(** [uniform] with [a <= b]: never below [a]; never above [b] when b-a is computed exactly. *)
Lemma wp_uniform (F : fm) a b (Q : res _ -> Prop) :
  (forall u, (0 <= u)%Q -> (u < 1)%Q -> Q (Ok (fadd F a (fmul F (fsub F b a) u)))) ->
  wp (py_uniform F a b) Q.
Proof. intros H; exact H. Qed.

Lemma uniform_range_int (F : fm) (a b : Z) (u : Q) :
  Z.abs a <= 2 ^ 52 -> Z.abs b <= 2 ^ 52 -> (0 <= u)%Q -> (u < 1)%Q ->
  let x := fadd F (zq a) (fmul F (fsub F (zq b) (zq a)) u) in
  (zq (Z.min a b) <= x <= zq (Z.max a b))%Q.
Proof.
  intros Ha Hb H0 H1.
  assert (Hd : (fsub F (zq b) (zq a) == zq (b - a))%Q).
  { unfold fsub. replace (zq b - zq a)%Q with (zq b + - zq a)%Q by reflexivity.
    unfold zq. rewrite <- inject_Z_opp, <- inject_Z_plus. apply rnd_int. lia. }
  assert (Hlo : (zq (Z.min 0 (b - a)) <= fmul F (fsub F (zq b) (zq a)) u)%Q).
  { unfold fmul. apply rnd_ge_fl; [apply isfl_int; lia|]. rewrite Hd.
    unfold zq. destruct (Z.le_gt_cases 0 (b - a)) as [Hs|Hs].
    - rewrite Z.min_l by lia. apply Qmult_le_0_compat; [|exact H0]. unfold zq, inject_Z, Qle; cbn; lia.
    - rewrite Z.min_r by lia.
      assert (Hq : (inject_Z (b - a) <= 0)%Q) by (unfold inject_Z, Qle; cbn; lia). nra. }
  assert (Hhi : (fmul F (fsub F (zq b) (zq a)) u <= zq (Z.max 0 (b - a)))%Q).
  { unfold fmul. apply rnd_le_fl; [apply isfl_int; lia|]. rewrite Hd.
    unfold zq. destruct (Z.le_gt_cases 0 (b - a)) as [Hs|Hs].
    - rewrite Z.max_r by lia.
      assert (Hq : (0 <= inject_Z (b - a))%Q) by (unfold inject_Z, Qle; cbn; lia). nra.
    - rewrite Z.max_l by lia.
      assert (Hq : (inject_Z (b - a) <= 0)%Q) by (unfold inject_Z, Qle; cbn; lia).
      change (inject_Z 0) with 0%Q. nra. }
  assert (P : forall p q, (zq p + zq q == zq (p + q))%Q).
  { intros p q. unfold zq. rewrite inject_Z_plus. reflexivity. }
  cbv zeta. unfold fadd. split.
  - apply rnd_ge_fl; [apply isfl_int; lia|].
    replace (Z.min a b) with (a + Z.min 0 (b - a)) by lia. rewrite <- P.
    apply Qplus_le_compat; [apply Qle_refl|exact Hlo].
  - apply rnd_le_fl; [apply isfl_int; lia|].
    replace (Z.max a b) with (a + Z.max 0 (b - a)) by lia. rewrite <- P.
    apply Qplus_le_compat; [apply Qle_refl|exact Hhi].
Qed.

(** ** int() and round() *)

Lemma Qltb_lt x y : Qltb x y = true <-> (x < y)%Q.
Proof.
  unfold Qltb. rewrite negb_true_iff. split.
  - intros H. apply Qnot_le_lt. intros Hc. apply Qle_bool_iff in Hc. congruence.
  - intros H. destruct (Qle_bool y x) eqn:E; auto. apply Qle_bool_iff in E. lra.
Qed.
Lemma Qltb_ge x y : Qltb x y = false <-> (y <= x)%Q.
Proof. unfold Qltb. rewrite negb_false_iff. apply Qle_bool_iff. Qed.
Lemma Qle_bool_false x y : Qle_bool x y = false <-> (y < x)%Q.
Proof.
  split.
  - intros H. apply Qnot_le_lt. intros Hc. apply Qle_bool_iff in Hc. congruence.
  - intros H. destruct (Qle_bool x y) eqn:E; auto. apply Qle_bool_iff in E. lra.
Qed.

Lemma zq_le a b : (zq a <= zq b)%Q <-> a <= b.
Proof. unfold zq. rewrite Zle_Qle. tauto. Qed.
Lemma zq_lt a b : (zq a < zq b)%Q <-> a < b.
Proof. unfold zq. rewrite Zlt_Qlt. tauto. Qed.

Lemma py_int_le_of x z : (0 <= x)%Q -> (x <= zq z)%Q -> 0 <= py_int x <= z.
Proof.
  intros H0 H1. unfold py_int. rewrite (proj2 (Qle_bool_iff 0 x) H0).
  pose proof (Qfloor_le x) as Hf. pose proof (Qlt_floor x) as Hg.
  split.
  - change 0 with (Qfloor 0). apply Qfloor_resp_le; exact H0.
  - apply zq_le. unfold zq in *. lra.
Qed.

Lemma py_int_mono x y : (x <= y)%Q -> py_int x <= py_int y.
Proof.
  intros H. unfold py_int.
  destruct (Qle_bool 0 x) eqn:Ex; destruct (Qle_bool 0 y) eqn:Ey.
  - now apply Qfloor_resp_le.
  - apply Qle_bool_iff in Ex. apply Qle_bool_false in Ey. lra.
  - apply Qle_bool_false in Ex. apply Qle_bool_iff in Ey.
    apply Z.le_trans with 0.
    + change 0 with (Qceiling 0). apply Qceiling_resp_le; lra.
    + change 0 with (Qfloor 0). apply Qfloor_resp_le; lra.
  - now apply Qceiling_resp_le.
Qed.

Lemma py_int_zq z : py_int (zq z) = z.
Proof.
  unfold py_int. destruct (Qle_bool 0 (zq z)); [apply Qfloor_Z|apply Qceiling_Z].
Qed.

Lemma py_int_range a b x : (zq a <= x <= zq b)%Q -> a <= py_int x <= b.
Proof.
  intros [H0 H1]. split.
  - rewrite <- (py_int_zq a). now apply py_int_mono.
  - rewrite <- (py_int_zq b). now apply py_int_mono.
Qed.

Lemma py_int_below x : (0 <= x)%Q -> (zq (py_int x) <= x)%Q.
Proof.
  intros H. unfold py_int. rewrite (proj2 (Qle_bool_iff 0 x) H). apply Qfloor_le.
Qed.

Lemma py_round_range a b x : (zq a <= x <= zq b)%Q -> a <= py_round x <= b.
Proof.
  intros [H0 H1]. unfold py_round.
  pose proof (Qfloor_le x) as Hf. pose proof (Qlt_floor x) as Hg.
  rewrite inject_Z_plus in Hg. change (inject_Z 1) with 1%Q in Hg.
  assert (Ha : a <= Qfloor x) by (rewrite <- (Qfloor_Z a); now apply Qfloor_resp_le).
  assert (Hb : Qfloor x <= b) by (apply zq_le; unfold zq in *; lra).
  assert (Hb' : (0 < x - inject_Z (Qfloor x))%Q -> Qfloor x + 1 <= b).
  { intros Hd. apply Zlt_le_succ. apply zq_lt. unfold zq in *. lra. }
  destruct (Qltb (x - inject_Z (Qfloor x)) (1 # 2)) eqn:E1; [lia|].
  apply Qltb_ge in E1.
  assert (Qfloor x + 1 <= b) by (apply Hb'; lra).
  destruct (Qltb (1 # 2) (x - inject_Z (Qfloor x))) eqn:E2; [lia|].
  destruct (Z.even (Qfloor x)); lia.
Qed.

Lemma py_round_zq z : py_round (zq z) = z.
Proof. pose proof (py_round_range z z (zq z) (conj (Qle_refl _) (Qle_refl _))). lia. Qed.

#[export] Instance Qltb_proper : Proper (Qeq ==> Qeq ==> eq) Qltb.
Proof. intros x y H x' y' H'. unfold Qltb. now rewrite H, H'. Qed.
#[export] Instance py_int_proper : Proper (Qeq ==> eq) py_int.
Proof. intros x y H. apply Z.le_antisymm; apply py_int_mono; rewrite H; apply Qle_refl. Qed.
#[export] Instance py_round_proper : Proper (Qeq ==> eq) py_round.
Proof.
  intros x y H. unfold py_round. rewrite (Qfloor_comp _ _ H).
  assert (E : (x - inject_Z (Qfloor y) == y - inject_Z (Qfloor y))%Q) by (rewrite H; reflexivity).
  rewrite !E. reflexivity.
Qed.

Lemma py_int_cases x :
  ((0 <= x)%Q /\ (zq (py_int x) <= x < zq (py_int x) + 1)%Q) \/
  ((x < 0)%Q /\ (x <= zq (py_int x))%Q /\ (zq (py_int x) < x + 1)%Q).
Proof.
  unfold py_int. destruct (Qle_bool 0 x) eqn:E.
  - left. apply Qle_bool_iff in E. split; [exact E|]. split; [apply Qfloor_le|].
    pose proof (Qlt_floor x) as Hg. rewrite inject_Z_plus in Hg. exact Hg.
  - right. apply Qle_bool_false in E. split; [exact E|]. split; [apply Qle_ceiling|].
    pose proof (Qceiling_lt x) as Hg. unfold zq.
    replace (Qceiling x - 1) with (Qceiling x + -1) in Hg by lia.
    rewrite inject_Z_plus in Hg. change (inject_Z (-1)) with (-1)%Q in Hg. lra.
Qed.
