(** * ProofsParallel: gathering the answers of the workers *)
From Verif Require Import Base Wp ListLemmas Utils Appliance User Spec SpecUser Sim ProofsUser ProofsUser2 PropsUser
  UseCase SpecUseCase ProofsUseCase.
From Coq Require Import Permutation.
Open Scope list_scope.
Open Scope Z_scope.

(** the answers of day [i], in their order *)
Definition day_answers (l : list (Z * list Q)) (i : Z) : list (list Q) :=
  map snd (filter (fun x => i =? fst x) l).

Lemma day_answers_app l l' i : day_answers (l ++ l') i = day_answers l i ++ day_answers l' i.
Proof. unfold day_answers. rewrite filter_app, map_app. reflexivity. Qed.

Lemma day_answers_perm l l' i : Permutation l l' -> Permutation (day_answers l i) (day_answers l' i).
Proof.
  intros H. unfold day_answers. apply Permutation_map.
  induction H as [|x l l' H IH|x y l|l l' l'' H1 IH1 H2 IH2].
  - constructor.
  - cbn [filter]. destruct (i =? fst x); [constructor; exact IH|exact IH].
  - cbn [filter]. destruct (i =? fst x), (i =? fst y); try apply Permutation_refl. apply perm_swap.
  - eapply Permutation_trans; eassumption.
Qed.

Lemma dict_get_append : forall d i l j,
  dict_get (dict_append d i l) j =
  if j =? i then Ok (match dict_get d j with Ok ls => ls ++ [l] | Err _ => [l] end) else dict_get d j.
Proof.
  induction d as [|[k ls] d IH]; intros i l j; cbn [dict_append].
  - cbn [dict_get]. destruct (j =? i); reflexivity.
  - destruct (Z.eqb_spec i k) as [->|Hik].
    + cbn [dict_get]. destruct (j =? k); reflexivity.
    + cbn [dict_get]. destruct (Z.eqb_spec j k) as [->|Hjk].
      * destruct (Z.eqb_spec k i); [congruence|reflexivity].
      * apply IH.
Qed.

Definition base_of (r : res (list (list Q))) : list (list Q) := match r with Ok ls => ls | Err _ => [] end.

Lemma dict_fold_get arr : forall d i,
  (forall j e, dict_get d j = Err e -> e = KeyError) ->
  dict_get (fold_left (fun d il => dict_append d (fst il) (snd il)) arr d) i =
  match base_of (dict_get d i) ++ day_answers arr i, dict_get d i with
  | [], Err e => Err e
  | ls, _ => Ok ls
  end.
Proof.
  induction arr as [|[k l] arr IH]; intros d i Hd; cbn [fold_left fst snd].
  - unfold day_answers. cbn [filter map]. rewrite app_nil_r. destruct (dict_get d i) as [ls|e] eqn:E; cbn.
    + destruct ls; reflexivity.
    + reflexivity.
  - rewrite IH.
    + rewrite dict_get_append. unfold day_answers. cbn [filter fst].
      destruct (i =? k) eqn:E; [|reflexivity]. cbn [map snd base_of].
      destruct (dict_get d i) as [ls|e]; cbn [base_of app].
      * rewrite <- app_assoc. cbn [app]. destruct ls; reflexivity.
      * reflexivity.
    + intros j e. rewrite dict_get_append. destruct (j =? k); [discriminate|apply Hd].
Qed.

Lemma dict_of_get arr i :
  dict_get (dict_of arr) i = match day_answers arr i with [] => Err KeyError | ls => Ok ls end.
Proof.
  unfold dict_of. rewrite dict_fold_get.
  - cbn [dict_get base_of app]. destruct (day_answers arr i); reflexivity.
  - intros j e H. cbn in H. congruence.
Qed.

Lemma assemble_ok F arr : forall is,
  (forall i, In i is -> day_answers arr i <> []) ->
  assemble F (dict_of arr) is = Ok (map (fun i => vstack_sum F (day_answers arr i)) is).
Proof.
  induction is as [|i is IH]; intros H; cbn [assemble map]; [reflexivity|].
  rewrite dict_of_get. pose proof (H i (or_introl eq_refl)) as Hi.
  destruct (day_answers arr i) as [|x ls] eqn:E; [congruence|]. cbn [rbind].
  rewrite IH by (intros j Hj; apply H; right; exact Hj). reflexivity.
Qed.

Lemma assemble_inv F arr : forall is rows,
  assemble F (dict_of arr) is = Ok rows -> (forall i, In i is -> day_answers arr i <> []).
Proof.
  induction is as [|i is IH]; intros rows H j Hj; [destruct Hj|]. cbn [assemble] in H. rewrite dict_of_get in H.
  destruct (day_answers arr i) as [|x ls] eqn:E; [discriminate|]. cbn [rbind] in H.
  destruct (assemble F (dict_of arr) is) as [rs|] eqn:Ea; [|discriminate].
  destruct Hj as [<-|Hj]; [rewrite E; discriminate|]. eapply IH; [reflexivity|exact Hj].
Qed.

Lemma assemble_err F arr : forall is e,
  assemble F (dict_of arr) is = Err e -> e = KeyError /\ exists i, In i is /\ day_answers arr i = [].
Proof.
  induction is as [|i is IH]; intros e H; cbn [assemble] in H; [discriminate|]. rewrite dict_of_get in H.
  destruct (day_answers arr i) as [|x ls] eqn:E; cbn [rbind] in H.
  - injection H as <-. split; [reflexivity|]. exists i. split; [left; reflexivity|exact E].
  - destruct (assemble F (dict_of arr) is) as [rs|e'] eqn:Ea; [discriminate|]. injection H as <-.
    destruct (IH e' eq_refl) as (He & j & Hj & Hn). split; [exact He|]. exists j. split; [right; exact Hj|exact Hn].
Qed.

(** ** The sum of the rows of a day *)

Lemma Qsum_perm l l' : Permutation l l' -> (Qsum l == Qsum l')%Q.
Proof.
  induction 1 as [|x l l' H IH|x y l|l l' l'' H1 IH1 H2 IH2].
  - reflexivity.
  - change (x + Qsum l == x + Qsum l')%Q. rewrite IH. reflexivity.
  - change (y + (x + Qsum l) == x + (y + Qsum l))%Q. ring.
  - rewrite IH1. exact IH2.
Qed.

Lemma minute_sum_perm t l l' : Permutation l l' -> (minute_sum t l == minute_sum t l')%Q.
Proof. intros H. unfold minute_sum. apply Qsum_perm, Permutation_map, H. Qed.

Lemma minute_sum_app t l l' : (minute_sum t (l ++ l') == minute_sum t l + minute_sum t l')%Q.
Proof. unfold minute_sum. rewrite map_app. apply Qsum_app. Qed.

Definition full (l : list Q) : Prop := List.length l = day_minutes.

Lemma vstack_len F rows : Forall full rows -> full (vstack_sum F rows).
Proof.
  intros H. destruct H as [|r rs Hr Hrs]; [apply repeat_length|]. cbn [vstack_sum]. apply sum_from_len; assumption.
Qed.

Lemma vstack_exact F rows t : exact F -> 0 <= t < 1440 -> Forall full rows -> rows <> [] ->
  (value_at (vstack_sum F rows) t == minute_sum t rows)%Q.
Proof.
  intros HF Ht H Hn. destruct H as [|r rs Hr Hrs]; [congruence|]. cbn [vstack_sum].
  rewrite sum_from_value by assumption. rewrite fold_fadd_exact by exact HF.
  unfold minute_sum. cbn [map]. reflexivity.
Qed.

Lemma vstack_error F rows t : 0 <= t < 1440 -> Forall full rows -> rows <> [] ->
  Forall (fun l => (0 <= value_at l t)%Q) rows -> zlen rows <= 2 ^ 52 ->
  (Qabs (value_at (vstack_sum F rows) t - minute_sum t rows)
   <= 2 * zq (zlen rows) * (eps53 * minute_sum t rows + eta64))%Q.
Proof.
  intros Ht H Hn Hp Hz. destruct H as [|r rs Hr Hrs]; [congruence|]. cbn [vstack_sum].
  rewrite sum_from_value by assumption.
  inversion Hp as [|? ? Hp1 Hp2]; subst. rewrite zlen_cons in *.
  set (l := map (fun l => value_at l t) rs).
  assert (Hl : Forall (fun x => (0 <= x)%Q) l).
  { apply Forall_forall. intros x Hx. apply in_map_iff in Hx. destruct Hx as (y & <- & Hy).
    rewrite Forall_forall in Hp2. apply Hp2, Hy. }
  pose proof (fold_fadd_error F l Hl 0 (value_at r t) (value_at r t) Hp1 Hp1) as HE.
  assert (Hzl : zlen l = zlen rs) by apply zlen_map.
  change (minute_sum t (r :: rs)) with (value_at r t + Qsum l)%Q.
  assert (HS : (0 <= eps53 * (value_at r t + Qsum l) + eta64)%Q).
  { pose proof (Qsum_nonneg l Hl). assert ((0 <= eps53)%Q) by discriminate. assert ((0 <= eta64)%Q) by discriminate.
    assert ((0 <= eps53 * (value_at r t + Qsum l))%Q) by (apply Qmult_le_0_compat; lra). lra. }
  eapply Qle_trans; [apply HE|].
  - apply Qle_refl.
  - rewrite Hzl. setoid_replace (0 + zq (zlen rs))%Q with (zq (zlen rs)) by (apply Qplus_0_l). apply zq_le. lia.
  - setoid_replace (value_at r t - value_at r t)%Q with 0%Q by ring. change (Qabs 0) with 0%Q.
    rewrite Qmult_0_r, Qmult_0_l. apply Qle_refl.
  - rewrite Hzl. apply Qmult_le_compat_r; [|exact HS].
    assert ((zq (zlen rs) <= zq (zlen rs + 1))%Q) by (apply zq_le; lia). lra.
Qed.

Lemma same_row l l' : full l -> full l' -> (forall t, 0 <= t < 1440 -> (value_at l t == value_at l' t)%Q) ->
  Forall2 Qeq l l'.
Proof.
  intros Hl Hl' H. unfold full in *.
  assert (G : forall n l l', List.length l = n -> List.length l' = n ->
    (forall k, (k < n)%nat -> (nth k l 0 == nth k l' 0)%Q) -> Forall2 Qeq l l').
  { clear. induction n as [|n IH]; intros [|x l] [|y l'] Hl Hl' H; try discriminate; constructor.
    - apply (H O). lia.
    - apply IH; [now injection Hl|now injection Hl'|]. intros k Hk. apply (H (S k)). lia. }
  apply (G day_minutes); try assumption. intros k Hk.
  specialize (H (Z.of_nat k)). unfold value_at in H. rewrite Nat2Z.id in H. apply H.
  unfold day_minutes in Hk. lia.
Qed.

Lemma same_row_value l l' t : Forall2 Qeq l l' -> (value_at l t == value_at l' t)%Q.
Proof.
  intros H. unfold value_at. generalize (Z.to_nat t). clear t.
  induction H as [|x y l l' Hxy H IH]; intros n; [destruct n; reflexivity|]. destruct n; [exact Hxy|apply IH].
Qed.

(** ** Tasks *)

Lemma work_may depth F peak t x :
  may (work depth F peak t) (Ok x) <->
  fst x = t_day t /\ app_day depth F (t_day t) peak (t_type t) (t_pref t) (t_app t) (snd x).
Proof.
  unfold work, app_day. destruct x as [i l]. cbn [fst snd]. split.
  - intros H. apply may_bind in H as [(pw & Hp & H)|(e & _ & H)]; [|discriminate].
    apply may_lift in Hp. apply may_bind in H as [(a' & Ha & H)|(e & _ & H)]; [|discriminate].
    apply may_ret_inv in H. injection H as -> ->. split; [reflexivity|].
    exists pw, a'. split; [now symmetry|]. split; [exact Ha|reflexivity].
  - intros (-> & pw & a' & Hp & Ha & <-). rewrite Hp. cbn [lift].
    apply may_bind. left. exists pw. split; [constructor|]. apply may_bind. left. exists a'. split; [exact Ha|constructor].
Qed.

Lemma Forall2_day_filter depth F peak ts xs i :
  Forall2 (fun t x => may (work depth F peak t) (Ok x)) ts xs ->
  Forall2 (fun t l => app_day depth F (t_day t) peak (t_type t) (t_pref t) (t_app t) l)
    (filter (fun t => i =? t_day t) ts) (day_answers xs i).
Proof.
  unfold day_answers. induction 1 as [|t x ts xs Hx H IH]; cbn [filter map]; [constructor|].
  apply work_may in Hx. destruct Hx as (Hf & Ha). rewrite Hf.
  destruct (i =? t_day t); [cbn [map]; constructor; assumption|exact IH].
Qed.

Lemma tasks_of_day_filter us i dt j :
  filter (fun t => j =? t_day t) (tasks_of_day us i dt) = if j =? i then tasks_of_day us i dt else [].
Proof.
  assert (G : forall l, Forall (fun t => t_day t = i) l ->
    filter (fun t => j =? t_day t) l = if j =? i then l else []).
  { induction 1 as [|t l Ht H IH]; cbn [filter]; [destruct (j =? i); reflexivity|].
    rewrite Ht, IH. destruct (j =? i); reflexivity. }
  apply G. unfold tasks_of_day. apply Forall_forall. intros t Ht.
  apply in_flat_map in Ht. destruct Ht as (u & _ & Ht). apply in_flat_map in Ht. destruct Ht as (a & _ & Ht).
  apply repeat_spec in Ht. subst. reflexivity.
Qed.

Lemma tasks_from_filter us : forall ds i j d,
  0 <= j -> nth_error ds (Z.to_nat j) = Some d ->
  filter (fun t => i + j =? t_day t) (tasks_from us i ds) = tasks_of_day us (i + j) (get_day_type d).
Proof.
  assert (G : forall ds i k, k < i -> filter (fun t => k =? t_day t) (tasks_from us i ds) = []).
  { induction ds as [|d ds IH]; intros i k Hk; cbn [tasks_from]; [reflexivity|].
    rewrite filter_app, tasks_of_day_filter. destruct (Z.eqb_spec k i); [lia|]. apply IH. lia. }
  induction ds as [|d0 ds IH]; intros i j d Hj Hd; [destruct (Z.to_nat j); discriminate|].
  cbn [tasks_from]. rewrite filter_app, tasks_of_day_filter.
  destruct (Z.eqb_spec (i + j) i) as [E|E].
  - assert (j = 0) as -> by lia. cbn [nth_error Z.to_nat] in Hd. injection Hd as ->.
    rewrite G by lia. rewrite app_nil_r. f_equal. lia.
  - replace (Z.to_nat j) with (S (Z.to_nat (j - 1))) in Hd by lia. cbn [nth_error] in Hd.
    cbn [app]. replace (i + j) with (i + 1 + (j - 1)) by lia. apply IH; [lia|exact Hd].
Qed.

(** ** Members and appliances exchanged *)

Lemma Forall2_length {A B} (P : A -> B -> Prop) l l' : Forall2 P l l' -> List.length l = List.length l'.
Proof. induction 1; cbn; congruence. Qed.

(** [g] profiles per appliance, [M] of them each, regrouped as [M] members *)
Lemma regroup {A B} (P : A -> B -> Prop) (M : nat) : forall (apps : list A) (xs : list B),
  Forall2 P (flat_map (fun a => repeat a M) apps) xs ->
  exists ms, List.length ms = M /\ Forall (Forall2 P apps) ms /\ Permutation xs (List.concat ms).
Proof.
  induction apps as [|a apps IH]; intros xs H; cbn [flat_map] in H.
  - inversion H; subst. exists (repeat [] M). split; [apply repeat_length|]. split.
    + apply Forall_forall. intros x Hx. apply repeat_spec in Hx. subst. constructor.
    + clear. induction M; [constructor|exact IHM].
  - apply Forall2_app_inv_l in H. destruct H as (g & xs' & Hg & Hxs & ->).
    destruct (IH xs' Hxs) as (ms & Hlen & Hms & Hp).
    assert (HgM : List.length g = M) by (apply Forall2_length in Hg; rewrite repeat_length in Hg; auto).
    assert (Hga : Forall (P a) g).
    { clear -Hg. revert g Hg. induction M as [|M IH]; intros g Hg; inversion Hg; subst; constructor; auto. }
    clear Hg Hxs IH. revert ms Hlen Hms xs' Hp. revert M HgM.
    induction Hga as [|x g Hx Hga IHg]; intros M HgM ms Hlen Hms xs' Hp.
    + destruct ms; [|subst; discriminate]. exists []. split; [exact HgM|]. split; [constructor|exact Hp].
    + destruct ms as [|m ms]; [subst; discriminate|].
      destruct M as [|M]; [discriminate|]. injection HgM as HgM. injection Hlen as Hlen.
      inversion Hms as [|? ? Hm Hms']; subst.
      destruct (IHg (List.length g) eq_refl ms Hlen Hms' (List.concat ms) (Permutation_refl _)) as (ms2 & Hl2 & Hf2 & Hp2).
      exists ((x :: m) :: ms2). split; [cbn; now rewrite Hl2|]. split; [constructor; [constructor; assumption|exact Hf2]|].
      cbn [List.concat app]. constructor. rewrite Hp. cbn [List.concat].
      rewrite Permutation_app_comm. rewrite <- app_assoc. apply Permutation_app_head.
      rewrite Permutation_app_comm. exact Hp2.
Qed.

Lemma regroup_back {A B} (P : A -> B -> Prop) (M : nat) : forall (apps : list A) (ms : list (list B)),
  List.length ms = M -> Forall (Forall2 P apps) ms ->
  exists xs, Forall2 P (flat_map (fun a => repeat a M) apps) xs /\ Permutation xs (List.concat ms).
Proof.
  induction apps as [|a apps IH]; intros ms Hlen Hms; cbn [flat_map].
  - exists []. split; [constructor|].
    assert (List.concat ms = []) as ->; [|constructor].
    clear -Hms. induction Hms as [|m ms Hm _ IH]; [reflexivity|]. inversion Hm; subst. exact IH.
  - destruct (IH (map (@tl B) ms)) as (xs & Hxs & Hp).
    + rewrite map_length. exact Hlen.
    + apply Forall_forall. intros m Hm. apply in_map_iff in Hm. destruct Hm as (m' & <- & Hm').
      rewrite Forall_forall in Hms. specialize (Hms m' Hm'). inversion Hms; subst. assumption.
    + assert (G : exists g, Forall2 P (repeat a M) g /\ Permutation (g ++ List.concat (map (@tl B) ms)) (List.concat ms)).
      { clear -Hlen Hms. revert M Hlen. induction Hms as [|m ms Hm Hms IH]; intros M Hlen.
        - exists []. subst. split; constructor.
        - destruct M; [discriminate|]. injection Hlen as Hlen. destruct (IH M Hlen) as (g & Hg & Hp).
          inversion Hm as [|? x ? m' Hx Hm']; subst. exists (x :: g). split; [cbn; constructor; assumption|].
          cbn [map tl List.concat app]. constructor. rewrite <- Hp.
          rewrite !app_assoc. apply Permutation_app_tail, Permutation_app_comm. }
      destruct G as (g & Hg & Hpg). exists (g ++ xs). split; [apply Forall2_app; assumption|].
      rewrite Hp. exact Hpg.
Qed.

(** when the appliance has no preference index, the preference does not matter *)
Lemma app_day_pref depth F i peak dt p q a l :
  pref_index (par a) = 0 -> app_day depth F i peak dt p a l -> app_day depth F i peak dt q a l.
Proof.
  intros Hz (pw & a' & Hp & Ha & Hl). exists pw, a'. split; [exact Hp|]. split; [|exact Hl].
  clear Hl. unfold generate_load_profile in *.
  apply may_bind in Ha as [(r & Hr & Ha)|(e & _ & Ha)]; [|discriminate].
  apply may_bind. left. exists r. split; [|exact Ha]. clear Ha.
  unfold generate_load_profile_traced in *. cbv zeta in *.
  apply may_bind in Hr as [(u & Hu & Hr)|(e & _ & Hr)]; [|discriminate].
  apply may_bind. left. exists u. split; [exact Hu|].
  replace (skip_day a q dt u) with (skip_day a p dt u); [exact Hr|].
  unfold skip_day. rewrite Hz. reflexivity.
Qed.
