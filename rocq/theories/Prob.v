(** * Prob: probabilities and mean values of draw programs

    Model of the *runtime* again (no RAMP code): the law of the draws of Python's [random] module.
    [random.random()] returns i/m with m = 2^53 (_randommodule.c, random_random), every i below m
    equally likely; [random._randbelow(n)] returns every number below n equally likely
    (Lib/random.py, _randbelow_with_getrandbits rejects and draws again).  The draws are
    independent of each other.  Simplifications: the deviates of gauss and normalvariate are
    replaced by any finite law (a list of values with weights); [random.seed] does not change the
    law of the draws that follow. *)
From Verif Require Import Base Wp ListLemmas Sim SpecUser.
From Coq Require Import ZifyBool ZifyNat.

Record law : Type := Law {
  steps : Z;                                  (* random() is one of 0/steps .. (steps-1)/steps *)
  bell : list (Q * Q);                        (* deviate, weight *)
  steps_pos : 0 < steps;
  bell_nonneg : Forall (fun x => (0 <= snd x)%Q) bell;
  bell_total : (Qsum (map snd bell) == 1)%Q
}.

(** the mean of g 0 .. g (n-1) *)
Definition average (n : Z) (g : Z -> Q) : Q := (Qsum (map g (arange 0 n)) / zq n)%Q.
Definition weighted (l : list (Q * Q)) (g : Q -> Q) : Q :=
  Qsum (map (fun x => (snd x * g (fst x))%Q) l).

(** the mean value of [f] over the outcomes of [p] *)
Fixpoint expect {A} (L : law) (p : prog A) (f : res A -> Q) : Q :=
  match p with
  | Ret a => f (Ok a)
  | Raise e => f (Err e)
  | Random k => average (steps L) (fun i => expect L (k (zq i / zq (steps L))%Q) f)
  | RandBelow n k => average n (fun i => expect L (k i) f)
  | Normal _ k => weighted (bell L) (fun z => expect L (k z) f)
  | Seed _ k => expect L k f
  end.

(** the probability of an event *)
Definition chance {A} (L : law) (p : prog A) (E : res A -> bool) : Q :=
  expect L p (fun r => if E r then 1%Q else 0%Q).

(** ** Sums *)

Lemma qsum_cons x l : Qsum (x :: l) = (x + Qsum l)%Q.
Proof. reflexivity. Qed.

Lemma qsum_ext {A} (g h : A -> Q) l : (forall x, In x l -> (g x == h x)%Q) -> (Qsum (map g l) == Qsum (map h l))%Q.
Proof.
  induction l as [|x l IH]; intros H; [reflexivity|]. cbn [map]. rewrite !qsum_cons.
  rewrite (H x) by now left. rewrite IH; [reflexivity|]. intros y Hy. apply H. now right.
Qed.

Lemma qsum_add {A} (g h : A -> Q) l : (Qsum (map (fun x => g x + h x)%Q l) == Qsum (map g l) + Qsum (map h l))%Q.
Proof.
  induction l as [|x l IH]; [reflexivity|]. cbn [map]. rewrite !qsum_cons, IH. ring.
Qed.

Lemma qsum_scale {A} (c : Q) (g : A -> Q) l : (Qsum (map (fun x => c * g x)%Q l) == c * Qsum (map g l))%Q.
Proof.
  induction l as [|x l IH]; [cbn; ring|]. cbn [map]. rewrite !qsum_cons, IH. ring.
Qed.

Lemma qsum_le {A} (g h : A -> Q) l : (forall x, In x l -> (g x <= h x)%Q) -> (Qsum (map g l) <= Qsum (map h l))%Q.
Proof.
  induction l as [|x l IH]; intros H; [apply Qle_refl|]. cbn [map]. rewrite !qsum_cons.
  apply Qplus_le_compat; [apply H; now left|]. apply IH. intros y Hy. apply H. now right.
Qed.

Lemma qsum_const {A} (c : Q) (l : list A) : (Qsum (map (fun _ => c) l) == c * zq (zlen l))%Q.
Proof.
  induction l as [|x l IH]; [unfold zlen, zq; cbn; ring|]. cbn [map]. rewrite qsum_cons, IH.
  unfold zlen. cbn [List.length]. rewrite Nat2Z.inj_succ. unfold zq. rewrite <- Z.add_1_r, inject_Z_plus. ring.
Qed.

Lemma zq_pos n : 0 < n -> (0 < zq n)%Q.
Proof. intros H. unfold zq. change 0%Q with (inject_Z 0). rewrite <- Zlt_Qlt. exact H. Qed.

Lemma average_ext n g h : (forall i, 0 <= i < n -> (g i == h i)%Q) -> (average n g == average n h)%Q.
Proof.
  intros H. unfold average. rewrite (qsum_ext g h); [reflexivity|].
  intros i Hi. apply H. apply in_arange in Hi. lia.
Qed.

Lemma average_add n g h : (average n (fun i => g i + h i) == average n g + average n h)%Q.
Proof. unfold average. rewrite qsum_add. unfold Qdiv. ring. Qed.

Lemma average_scale n c g : (average n (fun i => c * g i) == c * average n g)%Q.
Proof. unfold average. rewrite qsum_scale. unfold Qdiv. ring. Qed.

Lemma average_const n c : 0 < n -> (average n (fun _ => c) == c)%Q.
Proof.
  intros H. unfold average. rewrite qsum_const, zlen_arange. replace (Z.max 0 (n - 0)) with n by lia.
  apply zq_pos in H. field. lra.
Qed.

Lemma average_le n g h : 0 <= n -> (forall i, 0 <= i < n -> (g i <= h i)%Q) -> (average n g <= average n h)%Q.
Proof.
  intros Hn H. unfold average, Qdiv. apply Qmult_le_compat_r.
  - apply qsum_le. intros i Hi. apply H. apply in_arange in Hi. lia.
  - apply Qinv_le_0_compat. unfold zq. change 0%Q with (inject_Z 0). rewrite <- Zle_Qle. exact Hn.
Qed.

Lemma weighted_ext l g h : (forall z, (g z == h z)%Q) -> (weighted l g == weighted l h)%Q.
Proof. intros H. apply qsum_ext. intros x _. rewrite H. reflexivity. Qed.

Lemma weighted_add l g h : (weighted l (fun z => g z + h z) == weighted l g + weighted l h)%Q.
Proof.
  unfold weighted. rewrite <- qsum_add. apply qsum_ext. intros x _. ring.
Qed.

Lemma weighted_scale l c g : (weighted l (fun z => c * g z) == c * weighted l g)%Q.
Proof.
  unfold weighted. rewrite <- qsum_scale. apply qsum_ext. intros x _. ring.
Qed.

Lemma weighted_const L c : (weighted (bell L) (fun _ => c) == c)%Q.
Proof.
  unfold weighted. rewrite (qsum_ext _ (fun x => c * snd x)%Q) by (intros; ring).
  rewrite qsum_scale, bell_total. ring.
Qed.

Lemma weighted_le L g h : (forall z, (g z <= h z)%Q) -> (weighted (bell L) g <= weighted (bell L) h)%Q.
Proof.
  intros H. unfold weighted. apply qsum_le. intros x Hx.
  pose proof (bell_nonneg L) as Hb. rewrite Forall_forall in Hb. specialize (Hb x Hx).
  rewrite !(Qmult_comm (snd x)). apply Qmult_le_compat_r; auto.
Qed.

(** ** Mean values *)

Lemma draw_in L i : 0 <= i < steps L -> (0 <= zq i / zq (steps L))%Q /\ (zq i / zq (steps L) < 1)%Q.
Proof.
  intros H. pose proof (steps_pos L) as Hm. apply zq_pos in Hm. split.
  - apply Qle_shift_div_l; [exact Hm|]. rewrite Qmult_0_l. unfold zq. change 0%Q with (inject_Z 0). rewrite <- Zle_Qle. lia.
  - apply Qlt_shift_div_r; [exact Hm|]. rewrite Qmult_1_l. unfold zq. rewrite <- Zlt_Qlt. lia.
Qed.

Lemma expect_ext {A} L (p : prog A) f g :
  (forall r, may p r -> (f r == g r)%Q) -> (expect L p f == expect L p g)%Q.
Proof.
  induction p as [a|e|k IH|n k IH|c k IH|s k IH]; intros H; cbn [expect].
  - apply H. constructor.
  - apply H. constructor.
  - apply average_ext. intros i Hi. apply IH. intros r Hr. apply H. destruct (draw_in L i Hi). econstructor; eauto.
  - apply average_ext. intros i Hi. apply IH. intros r Hr. apply H. econstructor; eauto.
  - apply weighted_ext. intros z. apply IH. intros r Hr. apply H. econstructor; eauto.
  - apply IH. intros r Hr. apply H. econstructor; eauto.
Qed.

(** what is left to average once the first part of a program has run *)
Definition onward {A B} (L : law) (k : A -> prog B) (f : res B -> Q) (r : res A) : Q :=
  match r with Ok a => expect L (k a) f | Err e => f (Err e) end.

Lemma expect_bind {A B} L (p : prog A) (k : A -> prog B) f :
  (expect L (bind p k) f == expect L p (onward L k f))%Q.
Proof.
  induction p as [a|e|k' IH|n k' IH|c k' IH|s k' IH]; cbn [expect bind onward].
  - reflexivity.
  - reflexivity.
  - apply average_ext. intros i _. apply IH.
  - apply average_ext. intros i _. apply IH.
  - apply weighted_ext. intros z. apply IH.
  - apply IH.
Qed.

Lemma expect_add {A} L (p : prog A) f g : (expect L p (fun r => f r + g r) == expect L p f + expect L p g)%Q.
Proof.
  induction p as [a|e|k IH|n k IH|c k IH|s k IH]; cbn [expect]; try reflexivity.
  - rewrite <- average_add. apply average_ext. intros i _. apply IH.
  - rewrite <- average_add. apply average_ext. intros i _. apply IH.
  - rewrite <- weighted_add. apply weighted_ext. intros z. apply IH.
  - apply IH.
Qed.

Lemma expect_scale {A} L (p : prog A) c f : (expect L p (fun r => c * f r) == c * expect L p f)%Q.
Proof.
  induction p as [a|e|k IH|n k IH|b k IH|s k IH]; cbn [expect]; try reflexivity.
  - rewrite <- average_scale. apply average_ext. intros i _. apply IH.
  - rewrite <- average_scale. apply average_ext. intros i _. apply IH.
  - rewrite <- weighted_scale. apply weighted_ext. intros z. apply IH.
  - apply IH.
Qed.

Lemma expect_const {A} L (p : prog A) c : below_pos p -> (expect L p (fun _ => c) == c)%Q.
Proof.
  induction p as [a|e|k IH|n k IH|b k IH|s k IH]; cbn [expect below_pos]; intros H; try reflexivity.
  - rewrite (average_ext _ _ (fun _ => c)) by (intros; apply IH, H). apply average_const, steps_pos.
  - destruct H as [Hn H]. rewrite (average_ext _ _ (fun _ => c)) by (intros; apply IH, H). apply average_const, Hn.
  - rewrite (weighted_ext _ _ (fun _ => c)) by (intros; apply IH, H). apply weighted_const.
  - apply IH, H.
Qed.

Lemma expect_le {A} L (p : prog A) f g : below_pos p ->
  (forall r, may p r -> (f r <= g r)%Q) -> (expect L p f <= expect L p g)%Q.
Proof.
  induction p as [a|e|k IH|n k IH|c k IH|s k IH]; intros Hf H; cbn [expect below_pos] in *.
  - apply H. constructor.
  - apply H. constructor.
  - apply average_le; [pose proof (steps_pos L); lia|]. intros i Hi. apply IH; [apply Hf|]. intros r Hr. apply H.
    destruct (draw_in L i Hi). econstructor; eauto.
  - destruct Hf as [Hn Hf]. apply average_le; [lia|]. intros i Hi. apply IH; [apply Hf|]. intros r Hr. apply H. econstructor; eauto.
  - apply weighted_le. intros z. apply IH; [apply Hf|]. intros r Hr. apply H. econstructor; eauto.
  - apply IH; [exact Hf|]. intros r Hr. apply H. econstructor; eauto.
Qed.

(** when every outcome is the same *)
Lemma expect_sure {A} L (p : prog A) f c : below_pos p ->
  (forall r, may p r -> (f r == c)%Q) -> (expect L p f == c)%Q.
Proof. intros Hf H. rewrite (expect_ext L p f (fun _ => c) H). apply expect_const, Hf. Qed.

(** programs that ask for the same draws and give related results have the same means *)
Lemma expect_psim {A B} (R : A -> B -> Prop) L (p : prog A) (q : prog B) f g :
  psim R p q -> (forall a b, R a b -> (f (Ok a) == g (Ok b))%Q) -> (forall e, (f (Err e) == g (Err e))%Q) ->
  (expect L p f == expect L q g)%Q.
Proof.
  intros H HR HE. revert q H.
  induction p as [a|e|k IH|n k IH|c k IH|s k IH]; intros [b|e'|k'|n' k'|c' k'|s' k'] H; cbn [psim expect] in *; try contradiction.
  - auto.
  - subst. auto.
  - apply average_ext. intros i _. apply IH, H.
  - destruct H as [-> H]. apply average_ext. intros i _. apply IH, H.
  - destruct H as [-> H]. apply weighted_ext. intros z. apply IH, H.
  - destruct H as [-> H]. apply IH, H.
Qed.

(** ** Counting *)

(** the number of i in [0, n) with property b *)
Definition count_below (n : Z) (b : Z -> bool) : Z := zlen (filter b (arange 0 n)).

Lemma qsum_count {A} (b : A -> bool) (l : list A) :
  (Qsum (map (fun x => if b x then 1 else 0)%Q l) == zq (zlen (filter b l)))%Q.
Proof.
  induction l as [|x l IH]; [reflexivity|]. cbn [map filter]. rewrite qsum_cons, IH.
  destruct (b x); [|ring]. unfold zlen. cbn [List.length]. rewrite Nat2Z.inj_succ. unfold zq.
  rewrite <- Z.add_1_r, inject_Z_plus. ring.
Qed.

Lemma average_count n (b : Z -> bool) : (average n (fun i : Z => if b i then 1%Q else 0%Q) == zq (count_below n b) / zq n)%Q.
Proof. unfold average. rewrite (qsum_count b (arange 0 n)). reflexivity. Qed.

Lemma filter_every {A} (b : A -> bool) l : (forall x, In x l -> b x = true) -> filter b l = l.
Proof.
  induction l as [|x l IH]; intros H; cbn [filter]; [reflexivity|]. rewrite (H x) by now left.
  rewrite IH; [reflexivity|]. intros y Hy. apply H. now right.
Qed.
Lemma filter_none {A} (b : A -> bool) l : (forall x, In x l -> b x = false) -> filter b l = [].
Proof.
  induction l as [|x l IH]; intros H; cbn [filter]; [reflexivity|]. rewrite (H x) by now left.
  apply IH. intros y Hy. apply H. now right.
Qed.

Lemma count_upto n m : 0 <= m <= n -> count_below n (fun i => i <? m) = m.
Proof.
  intros H. unfold count_below. rewrite (arange_app 0 m n) by lia.
  rewrite filter_app. unfold zlen. rewrite app_length.
  rewrite (filter_every (fun i => i <? m) (arange 0 m)) by (intros i Hi; apply in_arange in Hi; lia).
  rewrite (filter_none (fun i => i <? m) (arange m n)) by (intros i Hi; apply in_arange in Hi; lia).
  pose proof (arange_length 0 m). unfold zlen in *. cbn [List.length]. lia.
Qed.

(** ** Python's law: 2^53 steps; the deviates replaced by -1 and 1 with the same weight *)
Lemma py_bell_nonneg : Forall (fun x : Q * Q => (0 <= snd x)%Q) [((-1)%Q, 1 # 2); (1%Q, 1 # 2)]%Q.
Proof. repeat constructor; cbn; discriminate. Qed.
Lemma py_bell_total : (Qsum (map snd [((-1)%Q, 1 # 2); (1%Q, 1 # 2)]%Q) == 1)%Q.
Proof. reflexivity. Qed.
Definition py_law : law := Law (2 ^ 53) [((-1)%Q, 1 # 2); (1%Q, 1 # 2)]%Q ltac:(reflexivity) py_bell_nonneg py_bell_total.
(** a small generator, to compute probabilities with *)
Definition small_law : law := Law 8 [((-1)%Q, 1 # 2); (1%Q, 1 # 2)]%Q ltac:(reflexivity) py_bell_nonneg py_bell_total.
