(** * ProofsEq: lemmas about Appliance equality and registration *)
From Verif Require Import Base ListLemmas Utils Appliance Attributes User.
From Coq Require Import ZifyBool ZifyNat DecimalString DecimalNat.

(** ** Equality *)

(** same value of an attribute *)
Definition value_same (v w : value) : Prop :=
  match v, w with
  | VStr s, VStr s' => s = s'
  | VInt z, VInt z' => z = z'
  | VFloat q, VFloat q' => (q == q')%Q
  | VArr l, VArr l' => Forall2 Qeq l l'
  | VWin x, VWin y => x = y
  | _, _ => False
  end.

(** every attribute listed in APPLIANCE_ATTRIBUTES has the same value in both appliances *)
Definition attributes_equal (a b : appliance) : Prop :=
  forall s, In s APPLIANCE_ATTRIBUTES ->
    exists v w, getattr a s = Some v /\ getattr b s = Some w /\ value_same v w.

(** the comparison of one attribute *)
Definition attr_eq (strict : bool) (a b : appliance) (s : string) : res bool :=
  match getattr a s, getattr b s with
  | Some v, Some w => value_eq strict v w
  | None, None => Ok true
  | _, _ => Ok false
  end.

Lemma eq_loop_unfold strict a b s rest acc :
  eq_loop strict a b (s :: rest) acc =
  rbind (attr_eq strict a b s) (fun e => eq_loop strict a b rest (acc && e)).
Proof. cbn [eq_loop]. unfold attr_eq. destruct (getattr a s), (getattr b s); reflexivity. Qed.

Lemma eq_loop_true strict a b attrs : forall acc,
  eq_loop strict a b attrs acc = Ok true <-> acc = true /\ Forall (fun s => attr_eq strict a b s = Ok true) attrs.
Proof.
  induction attrs as [|s attrs IH]; intros acc.
  - cbn [eq_loop]. split; [intros H; injection H as ->; auto|intros [-> _]; reflexivity].
  - rewrite eq_loop_unfold. split.
    + destruct (attr_eq strict a b s) as [e|] eqn:E; cbn [rbind]; [|discriminate]. rewrite IH.
      intros [Hb Hf]. apply andb_prop in Hb. destruct Hb as [-> ->]. split; [reflexivity|]. constructor; assumption.
    + intros [-> Hf]. inversion Hf as [|? ? E Hf']; subst. rewrite E. cbn [rbind]. apply IH. auto.
Qed.

Lemma app_eq_true strict a b :
  app_eq strict a b = Ok true <-> Forall (fun s => attr_eq strict a b s = Ok true) APPLIANCE_ATTRIBUTES.
Proof. unfold app_eq. rewrite eq_loop_true. split; [intros [_ H]; exact H|auto]. Qed.

Lemma eq_loop_total strict a b attrs : forall acc,
  Forall (fun s => exists e, attr_eq strict a b s = Ok e) attrs -> exists e, eq_loop strict a b attrs acc = Ok e.
Proof.
  induction attrs as [|s attrs IH]; intros acc H; [cbn; eauto|]. rewrite eq_loop_unfold.
  inversion H as [|? ? [e E] H']; subst. rewrite E. cbn [rbind]. apply IH; assumption.
Qed.

Lemma getattr_some a s : In s APPLIANCE_ATTRIBUTES -> exists v, getattr a s = Some v.
Proof.
  intros H. unfold APPLIANCE_ATTRIBUTES in H.
  repeat (destruct H as [<-|H]; [eexists; reflexivity|]). destruct H.
Qed.

Lemma getattr_arr a s l : getattr a s = Some (VArr l) -> l = power a.
Proof.
  unfold getattr. cbv zeta.
  repeat (match goal with |- (if ?b then _ else _) = _ -> _ => destruct b end;
    [intros H; first [discriminate H | injection H as <-; reflexivity]|]).
  discriminate.
Qed.

Lemma power_eq_same_len strict p q : zlen p = zlen q -> power_eq strict p q = Ok true <-> Forall2 Qeq p q.
Proof.
  intros H. unfold power_eq. replace (zlen p =? zlen q) with true by lia.
  assert (K : forallb (fun xy => Qeq_bool (fst xy) (snd xy)) (combine p q) = true <-> Forall2 Qeq p q).
  { revert q H. induction p as [|x p IH]; intros [|y q] H; rewrite ?zlen_cons, ?zlen_nil in H; try (exfalso; unfold zlen in H; lia).
    - cbn. split; [constructor|reflexivity].
    - cbn [combine forallb fst snd]. rewrite andb_true_iff, Qeq_bool_iff, IH by lia. split.
      + intros [H1 H2]. constructor; assumption.
      + intros H1. inversion H1; auto. }
  rewrite <- K. split; [intros E; injection E as E; exact E|intros ->; reflexivity].
Qed.

Lemma Forall2_zlen {A B} (R : A -> B -> Prop) l l' : Forall2 R l l' -> zlen l = zlen l'.
Proof. induction 1; [reflexivity|]. rewrite !zlen_cons. lia. Qed.

(** comparable power lengths: the comparison neither raises nor broadcasts *)
Definition comparable (strict : bool) (p q : list Q) : Prop :=
  zlen p = zlen q \/ (strict = false /\ zlen p <> 1 /\ zlen q <> 1).

Lemma power_eq_comparable strict p q : comparable strict p q ->
  (exists e, power_eq strict p q = Ok e) /\ (power_eq strict p q = Ok true <-> Forall2 Qeq p q).
Proof.
  intros [H|(-> & Hp & Hq)].
  - split; [|apply power_eq_same_len; exact H]. unfold power_eq. replace (zlen p =? zlen q) with true by lia. eauto.
  - destruct (Z.eq_dec (zlen p) (zlen q)) as [E|E].
    + split; [|apply power_eq_same_len; exact E]. unfold power_eq. replace (zlen p =? zlen q) with true by lia. eauto.
    + assert (K : power_eq false p q = Ok false).
      { unfold power_eq. replace (zlen p =? zlen q) with false by lia.
        destruct p as [|x [|x' p]]; [| rewrite zlen_cons, zlen_nil in Hp; lia |];
        destruct q as [|y [|y' q]]; try reflexivity; rewrite zlen_cons, zlen_nil in Hq; lia. }
      rewrite K. split; [eauto|]. split; [discriminate|]. intros HF. apply Forall2_zlen in HF. contradiction.
Qed.

Lemma value_eq_comparable strict v w :
  (forall p q, v = VArr p -> w = VArr q -> comparable strict p q) ->
  (exists e, value_eq strict v w = Ok e) /\ (value_eq strict v w = Ok true <-> value_same v w).
Proof.
  intros H.
  destruct v as [s|z|q|l|x], w as [s'|z'|q'|l'|x']; cbn [value_eq value_same];
    try (split; [eauto|split; [discriminate|contradiction]]).
  - split; [eauto|]. rewrite <- String.eqb_eq. split; [intros E; injection E; auto|intros ->; reflexivity].
  - split; [eauto|]. split; [intros E; injection E; lia|intros ->; rewrite Z.eqb_refl; reflexivity].
  - split; [eauto|]. rewrite <- Qeq_bool_iff. split; [intros E; injection E; auto|intros ->; reflexivity].
  - apply power_eq_comparable. apply H; reflexivity.
  - split; [eauto|]. destruct x as [x0 x1], x' as [y0 y1]. cbn [fst snd]. split.
    + intros E. injection E as E. apply andb_prop in E. f_equal; lia.
    + intros E. injection E as -> ->. rewrite !Z.eqb_refl. reflexivity.
Qed.

Lemma app_eq_comparable strict a b : comparable strict (power a) (power b) ->
  (exists e, app_eq strict a b = Ok e) /\ (app_eq strict a b = Ok true <-> attributes_equal a b).
Proof.
  intros H.
  assert (K : forall s, In s APPLIANCE_ATTRIBUTES -> exists v w, getattr a s = Some v /\ getattr b s = Some w /\
     (exists e, value_eq strict v w = Ok e) /\ (value_eq strict v w = Ok true <-> value_same v w)).
  { intros s Hs. destruct (getattr_some a s Hs) as [v Hv]. destruct (getattr_some b s Hs) as [w Hw].
    exists v, w. split; [exact Hv|]. split; [exact Hw|]. apply value_eq_comparable.
    intros p q -> ->. apply getattr_arr in Hv, Hw. subst. exact H. }
  split.
  - apply eq_loop_total. apply Forall_forall. intros s Hs. destruct (K s Hs) as (v & w & Hv & Hw & He & _).
    unfold attr_eq. rewrite Hv, Hw. exact He.
  - rewrite app_eq_true. unfold attributes_equal. rewrite Forall_forall. split.
    + intros G s Hs. destruct (K s Hs) as (v & w & Hv & Hw & _ & Hi). specialize (G s Hs).
      unfold attr_eq in G. rewrite Hv, Hw in G. exists v, w. split; [exact Hv|]. split; [exact Hw|]. apply Hi. exact G.
    + intros G s Hs. destruct (K s Hs) as (v & w & Hv & Hw & _ & Hi). destruct (G s Hs) as (v' & w' & Hv' & Hw' & S).
      unfold attr_eq. rewrite Hv, Hw. apply Hi. congruence.
Qed.

Lemma Qeq_bool_sym x y : Qeq_bool x y = Qeq_bool y x.
Proof. apply eq_true_iff_eq. rewrite !Qeq_bool_iff. split; intros H; symmetry; exact H. Qed.

Lemma power_eq_sym strict p q : power_eq strict p q = power_eq strict q p.
Proof.
  unfold power_eq. rewrite (Z.eqb_sym (zlen q)). destruct (zlen p =? zlen q) eqn:E.
  - f_equal. apply Z.eqb_eq in E. revert q E. induction p as [|x p IH]; intros [|y q] E; try reflexivity.
    rewrite !zlen_cons in E. cbn [combine forallb fst snd]. rewrite Qeq_bool_sym, (IH q) by lia. reflexivity.
  - assert (K : forall x (l : list Q), forallb (fun y => Qeq_bool x y) l = forallb (fun y => Qeq_bool y x) l).
    { intros x l. induction l as [|y l IH]; [reflexivity|]. cbn. rewrite Qeq_bool_sym, IH. reflexivity. }
    destruct p as [|x [|x' p]]; destruct q as [|y [|y' q]]; try reflexivity; try discriminate;
      try (f_equal; apply K); try (f_equal; symmetry; apply K).
Qed.

Lemma value_eq_sym strict v w : value_eq strict v w = value_eq strict w v.
Proof.
  destruct v as [s|z|q|l|x], w as [s'|z'|q'|l'|x']; cbn [value_eq]; try reflexivity.
  - f_equal. apply String.eqb_sym.
  - f_equal. apply Z.eqb_sym.
  - f_equal. apply Qeq_bool_sym.
  - apply power_eq_sym.
  - f_equal. rewrite (Z.eqb_sym (fst x)), (Z.eqb_sym (snd x)). reflexivity.
Qed.

Lemma app_eq_sym strict a b : app_eq strict a b = app_eq strict b a.
Proof.
  unfold app_eq. generalize true. induction APPLIANCE_ATTRIBUTES as [|s l IH]; intros acc; [reflexivity|].
  rewrite !eq_loop_unfold.
  assert (E : attr_eq strict a b s = attr_eq strict b a s).
  { unfold attr_eq. destruct (getattr a s), (getattr b s); try reflexivity. apply value_eq_sym. }
  rewrite E. destruct (attr_eq strict b a s); cbn [rbind]; [apply IH|reflexivity].
Qed.

Lemma value_same_refl v : value_same v v.
Proof.
  destruct v; cbn; try reflexivity. induction l; constructor; [reflexivity|assumption].
Qed.
Lemma value_same_trans u v w : value_same u v -> value_same v w -> value_same u w.
Proof.
  destruct u, v, w; cbn; try contradiction; try congruence.
  - intros H1 H2. rewrite H1. exact H2.
  - intros H. revert l1. induction H as [|x y l l' Hxy H IH]; intros l2 H2; inversion H2; subst; constructor.
    + rewrite Hxy. assumption.
    + auto.
Qed.

Lemma attributes_equal_refl a : attributes_equal a a.
Proof. intros s Hs. destruct (getattr_some a s Hs) as [v Hv]. exists v, v. split; [exact Hv|]. split; [exact Hv|apply value_same_refl]. Qed.
Lemma attributes_equal_trans a b c : attributes_equal a b -> attributes_equal b c -> attributes_equal a c.
Proof.
  intros H1 H2 s Hs. destruct (H1 s Hs) as (v & w & Hv & Hw & S1). destruct (H2 s Hs) as (v' & w' & Hv' & Hw' & S2).
  exists v, w'. split; [exact Hv|]. split; [exact Hw'|]. rewrite Hw in Hv'. injection Hv' as <-. eapply value_same_trans; eassumption.
Qed.

(** different names: never equal *)
Lemma app_eq_names strict a b : app_eq strict a b = Ok true -> name (par a) = name (par b).
Proof.
  rewrite app_eq_true. intros H. inversion H as [|? ? E _]; subst. unfold attr_eq in E. cbn in E.
  injection E as E. apply String.eqb_eq. exact E.
Qed.

(** ** Registration *)

Lemma py_str_nat_inj n m : py_str_nat n = py_str_nat m -> n = m.
Proof.
  unfold py_str_nat. intros H. apply (f_equal NilEmpty.uint_of_string) in H. rewrite !NilEmpty.usu in H.
  injection H as H. apply (f_equal Nat.of_uint) in H. rewrite !Unsigned.of_to in H. exact H.
Qed.

Definition auto_name (k : nat) : string := ("appliance_" ++ py_str_nat k)%string.
Lemma auto_name_inj n m : auto_name n = auto_name m -> n = m.
Proof. unfold auto_name. cbn. intros H. injection H as H. exact (py_str_nat_inj _ _ H). Qed.
Lemma auto_name_nonempty k : auto_name k <> ""%string.
Proof. unfold auto_name. cbn. discriminate. Qed.

Lemma list_set_nth_error {A} (l : list A) n v k :
  nth_error (list_set l n v) k = if Nat.eqb k n then (if Nat.ltb n (List.length l) then Some v else None) else nth_error l k.
Proof.
  revert n k. induction l as [|x l IH]; intros n k.
  - cbn. destruct (Nat.eqb k n); destruct k; reflexivity.
  - destruct n, k; cbn [list_set nth_error Nat.eqb List.length]; try reflexivity. rewrite IH.
    destruct (Nat.eqb k n); [|reflexivity]. reflexivity.
Qed.

Lemma deref_lt g r a : deref g r = Some a -> (r < List.length (objects g))%nat.
Proof. intros H. apply nth_error_Some. unfold deref in H. congruence. Qed.

Lemma member_spec strict g a self rs b : member strict g a self rs = Ok b ->
  if b then exists r, In r rs /\ (r = self \/ exists x, deref g r = Some x /\ app_eq strict x a = Ok true)
  else forall r, In r rs -> r <> self /\ exists x, deref g r = Some x /\ app_eq strict x a = Ok false.
Proof.
  induction rs as [|r rs IH]; cbn [member]; intros H; [injection H as <-; intros r []|].
  destruct (Nat.eqb r self) eqn:E.
  - injection H as <-. exists r. split; [left; reflexivity|]. left. apply Nat.eqb_eq. exact E.
  - destruct (deref g r) as [x|] eqn:D; [|discriminate].
    destruct (app_eq strict x a) as [[|]|] eqn:Q; cbn [rbind] in H; [| |discriminate].
    + injection H as <-. exists r. split; [left; reflexivity|]. right. eauto.
    + specialize (IH H). destruct b.
      * destruct IH as (r' & Hr & Hc). exists r'. split; [right; exact Hr|exact Hc].
      * intros r' [<-|Hr]; [|auto]. split; [apply Nat.eqb_neq; exact E|eauto].
Qed.
