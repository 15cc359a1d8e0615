(** * ListLemmas: facts about the numpy/list primitives of Base.v (no RAMP code modelled) *)
From Verif Require Import Base.
From Coq Require Import ZifyBool ZifyNat FinFun.

Lemma zlen_nonneg {A} (l : list A) : 0 <= zlen l.
Proof. unfold zlen; lia. Qed.
Lemma zlen_nil {A} : zlen (@nil A) = 0.
Proof. reflexivity. Qed.
Lemma zlen_cons {A} (x : A) l : zlen (x :: l) = zlen l + 1.
Proof. unfold zlen; cbn [List.length]; lia. Qed.
Lemma zlen_app {A} (l l' : list A) : zlen (l ++ l') = zlen l + zlen l'.
Proof. unfold zlen; rewrite app_length; lia. Qed.
Lemma zlen_map {A B} (f : A -> B) l : zlen (map f l) = zlen l.
Proof. unfold zlen; now rewrite map_length. Qed.
Lemma zlen_0 {A} (l : list A) : zlen l = 0 -> l = [].
Proof. destruct l; [reflexivity|rewrite zlen_cons; pose proof (zlen_nonneg l); lia]. Qed.
Lemma zlen_repeat {A} (x : A) n : zlen (repeat x n) = Z.of_nat n.
Proof. unfold zlen; now rewrite repeat_length. Qed.
Lemma zlen_firstn {A} (l : list A) n : zlen (firstn n l) = Z.min (Z.of_nat n) (zlen l).
Proof. unfold zlen; rewrite firstn_length; lia. Qed.

(** ** arange *)
Lemma arange_length a b : List.length (arange a b) = Z.to_nat (b - a).
Proof. unfold arange. now rewrite map_length, seq_length. Qed.

Lemma zlen_arange a b : zlen (arange a b) = Z.max 0 (b - a).
Proof. unfold zlen; rewrite arange_length; lia. Qed.

Lemma in_arange x a b : In x (arange a b) <-> a <= x < b.
Proof.
  unfold arange. rewrite in_map_iff. split.
  - intros (k & <- & Hk). apply in_seq in Hk. lia.
  - intros H. exists (Z.to_nat (x - a)). split; [lia|]. apply in_seq. lia.
Qed.

Lemma arange_nil a b : b <= a -> arange a b = [].
Proof. intros H. unfold arange. replace (Z.to_nat (b - a)) with O by lia. reflexivity. Qed.

Lemma arange_cons a b : a < b -> arange a b = a :: arange (a + 1) b.
Proof.
  intros H. unfold arange. replace (Z.to_nat (b - a)) with (S (Z.to_nat (b - (a + 1)))) by lia.
  cbn [seq map]. f_equal; [lia|]. rewrite <- seq_shift, map_map. apply map_ext. intros k; lia.
Qed.

Lemma nth_arange a b k d : (k < Z.to_nat (b - a))%nat -> nth k (arange a b) d = a + Z.of_nat k.
Proof.
  intros H. unfold arange.
  rewrite nth_indep with (d' := a + Z.of_nat 0) by (rewrite map_length, seq_length; exact H).
  rewrite (map_nth (fun k => a + Z.of_nat k)). rewrite seq_nth by exact H. lia.
Qed.

Lemma NoDup_arange a b : NoDup (arange a b).
Proof.
  unfold arange. apply Injective_map_NoDup; [|apply seq_NoDup].
  intros x y H; lia.
Qed.

Lemma py_first_arange a b : a < b -> py_first (arange a b) = Ok a.
Proof. intros H. now rewrite arange_cons. Qed.

Lemma last_arange a b x : a < b -> last (arange a b) x = b - 1.
Proof.
  intros H. remember (Z.to_nat (b - a)) as n eqn:En.
  revert a x H En; induction n as [|n IH]; intros a x H En; [lia|].
  rewrite arange_cons by lia. destruct (Z.eq_dec (a + 1) b) as [E|E].
  - rewrite arange_nil by lia. cbn. lia.
  - rewrite arange_cons by lia. cbn [last].
    rewrite <- (IH (a + 1) x) by lia. rewrite (arange_cons (a + 1)) by lia. reflexivity.
Qed.

Lemma py_last_arange a b : a < b -> py_last (arange a b) = Ok (b - 1).
Proof.
  intros H. rewrite arange_cons by lia. cbn [py_last]. f_equal.
  destruct (Z.eq_dec (a + 1) b) as [E|E].
  - rewrite arange_nil by lia. cbn. lia.
  - apply last_arange; lia.
Qed.

Lemma py_first_err l : py_first l = Err IndexError <-> l = [].
Proof. destruct l; cbn; split; intros; congruence. Qed.

Lemma firstn_arange n a b : firstn n (arange a b) = arange a (Z.min b (a + Z.of_nat n)).
Proof.
  revert a; induction n as [|n IH]; intros a.
  - cbn. symmetry. apply arange_nil. lia.
  - destruct (Z_lt_le_dec a b) as [H|H].
    + rewrite arange_cons by lia. cbn [firstn]. rewrite IH.
      symmetry. rewrite arange_cons by lia. f_equal. f_equal. lia.
    + rewrite !arange_nil by lia. reflexivity.
Qed.

Lemma arange_app a b c : a <= b -> b <= c -> arange a c = arange a b ++ arange b c.
Proof.
  intros H1 H2. remember (Z.to_nat (b - a)) as n eqn:En.
  revert a H1 En; induction n as [|n IH]; intros a H1 En.
  - assert (a = b) by lia. subst. now rewrite (arange_nil b b) by lia.
  - rewrite (arange_cons a c), (arange_cons a b) by lia. cbn [app]. f_equal. apply IH; lia.
Qed.

(** ** reading a day *)
Definition at_minute (t : Z) (d : list Q) : Q := nth (Z.to_nat t) d 0%Q.

Lemma at_zeros t n : at_minute t (zeros n) = 0%Q.
Proof.
  unfold at_minute, zeros. destruct (Nat.lt_ge_cases (Z.to_nat t) n) as [H|H].
  - now rewrite nth_repeat.
  - apply nth_overflow. now rewrite repeat_length.
Qed.

Lemma day_ext (d d' : list Q) n :
  zlen d = n -> zlen d' = n -> (forall t, 0 <= t < n -> at_minute t d = at_minute t d') -> d = d'.
Proof.
  intros H H' He. apply nth_ext with (d := 0%Q) (d' := 0%Q).
  - unfold zlen in *; lia.
  - intros k Hk. specialize (He (Z.of_nat k)). unfold at_minute in He.
    rewrite Nat2Z.id in He. apply He. unfold zlen in *; lia.
Qed.

(** ** slice assignment *)
Lemma write_from_length pos d inside v : List.length (write_from pos d inside v) = List.length d.
Proof. revert pos; induction d as [|x d IH]; intros pos; cbn; auto. Qed.

Lemma write_from_nth pos d inside v k :
  (k < List.length d)%nat ->
  nth k (write_from pos d inside v) 0%Q = if inside (pos + Z.of_nat k) then v else nth k d 0%Q.
Proof.
  revert pos k; induction d as [|x d IH]; intros pos k Hk; cbn in Hk; [lia|].
  destruct k as [|k]; cbn.
  - now rewrite Z.add_0_r.
  - rewrite IH by lia. replace (pos + 1 + Z.of_nat k) with (pos + Z.pos (Pos.of_succ_nat k)) by lia. reflexivity.
Qed.

Definition in_win (t : Z) (w : Z * Z) : bool := (fst w <=? t) && (t <? snd w).

Lemma np_fill_slice_inv d a b v d' :
  0 <= a -> b <= zlen d ->
  np_fill_slice d a b (b - a) v = Ok d' ->
  a <= b /\ zlen d' = zlen d /\
  forall t, 0 <= t < zlen d -> at_minute t d' = if (a <=? t) && (t <? b) then v else at_minute t d.
Proof.
  intros Ha Hb. unfold np_fill_slice.
  destruct (Z.ltb_spec (b - a) 0) as [Hn|Hn]; [discriminate|].
  unfold slice_bound. destruct (Z.ltb_spec a 0); [lia|]. destruct (Z.ltb_spec b 0); [lia|].
  rewrite (Z.min_l b) by lia. rewrite (Z.min_l a) by lia.
  destruct ((b - a =? Z.max 0 (b - a)) || (b - a =? 1)) eqn:E; [|discriminate].
  intros H2; injection H2 as <-.
  split; [lia|]. split; [unfold zlen; now rewrite write_from_length|].
  intros t Ht. unfold at_minute. rewrite write_from_nth by (unfold zlen in *; lia).
  rewrite Z2Nat.id by lia. reflexivity.
Qed.

Lemma np_fill_slice_ok d a b v :
  0 <= a <= b -> b <= zlen d -> exists d', np_fill_slice d a b (b - a) v = Ok d'.
Proof.
  intros Ha Hb. unfold np_fill_slice.
  destruct (Z.ltb_spec (b - a) 0) as [Hn|Hn]; [lia|].
  unfold slice_bound. destruct (Z.ltb_spec a 0); [lia|]. destruct (Z.ltb_spec b 0); [lia|].
  rewrite (Z.min_l b) by lia. rewrite (Z.min_l a) by lia.
  rewrite Z.max_r by lia. rewrite Z.eqb_refl. cbn [orb]. eauto.
Qed.

Lemma np_fill_slice_err d a b n v e : np_fill_slice d a b n v = Err e -> e = ValueError.
Proof.
  unfold np_fill_slice. destruct (n <? 0); [congruence|].
  destruct (_ || _); congruence.
Qed.

(** ** np.put *)
Lemma list_set_length {A} (l : list A) n v : List.length (list_set l n v) = List.length l.
Proof. revert n; induction l as [|x l IH]; intros [|n]; cbn; auto. Qed.

Lemma list_set_nth {A} (l : list A) n v k d :
  (n < List.length l)%nat -> nth k (list_set l n v) d = if Nat.eqb k n then v else nth k l d.
Proof.
  revert n k; induction l as [|x l IH]; intros n k Hn; cbn in Hn; [lia|].
  destruct n as [|n]; destruct k as [|k]; cbn; auto. apply IH; lia.
Qed.

Lemma np_put_from_arange j d a b vals :
  0 <= a -> b <= zlen d -> vals <> [] ->
  exists d', np_put_from j d (arange a b) vals = Ok d' /\ zlen d' = zlen d /\
  forall t, 0 <= t ->
    at_minute t d' =
    if (a <=? t) && (t <? b)
    then nth (Nat.modulo (j + Z.to_nat (t - a)) (List.length vals)) vals 0%Q
    else at_minute t d.
Proof.
  intros Ha Hb Hv.
  remember (Z.to_nat (b - a)) as n eqn:En. revert j d a Ha Hb En.
  induction n as [|n IH]; intros j d a Ha Hb En.
  - rewrite arange_nil by lia. exists d. cbn [np_put_from]. split; [reflexivity|]. split; [reflexivity|].
    intros t Ht. destruct ((a <=? t) && (t <? b)) eqn:E; [lia|reflexivity].
  - rewrite arange_cons by lia. cbn [np_put_from].
    destruct (Z.ltb_spec a 0); [lia|].
    destruct ((a <? 0) || (zlen d <=? a)) eqn:E; [lia|].
    set (v := nth (Nat.modulo j (List.length vals)) vals 0%Q).
    destruct (IH (S j) (list_set d (Z.to_nat a) v) (a + 1)) as (d' & H1 & H2 & H3).
    + lia.
    + unfold zlen; rewrite list_set_length; exact Hb.
    + lia.
    + exists d'. split; [exact H1|]. split; [rewrite H2; unfold zlen; now rewrite list_set_length|].
      intros t Ht. rewrite H3 by exact Ht.
      unfold at_minute. rewrite list_set_nth by (unfold zlen in *; lia).
      destruct ((a + 1 <=? t) && (t <? b)) eqn:E1.
      * replace ((a <=? t) && (t <? b)) with true by lia.
        f_equal. f_equal. lia.
      * destruct (Z.eq_dec t a) as [->|Hne].
        -- replace ((a <=? a) && (a <? b)) with true by lia. rewrite Nat.eqb_refl.
           unfold v. f_equal. f_equal. lia.
        -- replace ((a <=? t) && (t <? b)) with false by lia.
           destruct (Nat.eqb_spec (Z.to_nat t) (Z.to_nat a)); [lia|reflexivity].
Qed.

Lemma np_put_arange d a b vals :
  0 <= a -> b <= zlen d -> vals <> [] ->
  exists d', np_put d (arange a b) vals = Ok d' /\ zlen d' = zlen d /\
  forall t, 0 <= t ->
    at_minute t d' =
    if (a <=? t) && (t <? b)
    then nth (Nat.modulo (Z.to_nat (t - a)) (List.length vals)) vals 0%Q
    else at_minute t d.
Proof.
  intros Ha Hb Hv. destruct (np_put_from_arange 0 d a b vals Ha Hb Hv) as (d' & H).
  exists d'. unfold np_put. destruct vals; [congruence|]. exact H.
Qed.

(** ** indexing *)
Lemma py_index_ok {A} (l : list A) i x :
  0 <= i < zlen l -> py_index l i = Ok x <-> nth_error l (Z.to_nat i) = Some x.
Proof.
  intros Hi. unfold py_index. destruct (Z.ltb_spec i 0); [lia|].
  destruct ((i <? 0) || (zlen l <=? i)) eqn:E; [lia|].
  destruct (nth_error l (Z.to_nat i)); split; intros; congruence.
Qed.

Lemma py_index_exists {A} (l : list A) i :
  0 <= i < zlen l -> exists x, py_index l i = Ok x /\ In x l.
Proof.
  intros Hi. destruct (nth_error l (Z.to_nat i)) as [x|] eqn:E.
  - exists x. split; [now apply py_index_ok|]. eapply nth_error_In; eauto.
  - apply nth_error_None in E. unfold zlen in *; lia.
Qed.

Lemma py_index_err {A} (l : list A) i e : py_index l i = Err e -> e = IndexError.
Proof.
  unfold py_index. destruct (_ || _); [congruence|]. destruct (nth_error _ _); congruence.
Qed.

Lemma vadd_length F x y : List.length x = List.length y -> List.length (vadd F x y) = List.length x.
Proof. revert y; induction x as [|a x IH]; intros [|b y] H; cbn in *; auto; lia. Qed.

Lemma vadd_nth F x y k :
  List.length x = List.length y -> (k < List.length x)%nat ->
  nth k (vadd F x y) 0%Q = fadd F (nth k x 0%Q) (nth k y 0%Q).
Proof.
  revert y k; induction x as [|a x IH]; intros [|b y] k H Hk; cbn in *; try lia.
  destruct k; auto. apply IH; lia.
Qed.
