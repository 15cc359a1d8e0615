(** * PropsNaming: C84, the appliances of a converted input file *)
From Verif Require Import Base Utils Appliance Attributes User UseCase Tabular Spec SpecTabular PropsUser PropsReg ProofsEq ProofsTabular PropsTabular
  ListLemmas Heap PropsHeap Naming.
Open Scope list_scope.
Open Scope Z_scope.

(** ** Specification *)

(** the last value that the assignments give to variable [n] *)
Definition final_value (script : list (string * value)) (n : string) : option value :=
  option_map snd (find (fun nv => String.eqb (fst nv) n) (rev script)).
(** variable [m] was assigned before the first assignment to [n] *)
Definition assigned_before (script : list (string * value)) (m n : string) : Prop :=
  exists l v l', script = l ++ (m, v) :: l' /\ ~ In n (map fst (l ++ [(m, v)])).
(** of the variables that refer to appliance [r] at the end, [n] is the one that came into being last *)
Definition named_by (script : list (string * value)) (r : nat) (n : string) : Prop :=
  final_value script n = Some (VApp r) /\
  forall m, final_value script m = Some (VApp r) -> m = n \/ assigned_before script m n.

(** [a'] is [a] with the name [n] *)
Definition only_renamed (a a' : appliance) (n : string) : Prop :=
  getattr a' "name" = Some (VStr n) /\ set_name a' "" = set_name a "".

(** ** The namespace *)

Lemma namespace_snoc s n v : namespace_of (s ++ [(n, v)]) = assign (namespace_of s) n v.
Proof. unfold namespace_of. rewrite fold_left_app. reflexivity. Qed.
Lemma final_snoc s n v m : final_value (s ++ [(n, v)]) m = if String.eqb n m then Some v else final_value s m.
Proof. unfold final_value. rewrite rev_app_distr. cbn. destruct (String.eqb n m); reflexivity. Qed.

Lemma assign_keys ns n v : map fst (assign ns n v) = if existsb (String.eqb n) (map fst ns) then map fst ns else map fst ns ++ [n].
Proof.
  induction ns as [|[m w] ns IH]; [reflexivity|]. cbn [assign map existsb fst]. rewrite (String.eqb_sym n m). destruct (String.eqb m n) eqn:E; cbn [orb map fst]; [reflexivity|].
  rewrite IH. destruct (existsb _ _); reflexivity.
Qed.
Lemma existsb_key n l : existsb (String.eqb n) l = true <-> In n l.
Proof.
  rewrite existsb_exists. split; [intros (x & H & E); apply String.eqb_eq in E; subst; exact H|intros H; exists n; split; [exact H|apply String.eqb_refl]].
Qed.
Lemma assign_in ns n v m w : NoDup (map fst ns) ->
  (In (m, w) (assign ns n v) <-> (m = n /\ w = v) \/ (m <> n /\ In (m, w) ns)).
Proof.
  induction ns as [|[k u] ns IH]; cbn [assign map fst]; intros Hd.
  - cbn. split; [intros [H|[]]; injection H as <- <-; auto|intros [[-> ->]|[_ []]]; auto].
  - inversion Hd as [|? ? Hk Hd']; subst. destruct (String.eqb k n) eqn:E.
    + apply String.eqb_eq in E. subst k. cbn. split.
      * intros [H|H]; [injection H as <- <-; auto|]. right. split; [|auto]. intros ->. apply Hk. apply (in_map fst) in H. exact H.
      * intros [[-> ->]|[Hn [H|H]]]; auto. injection H as <- <-. congruence.
    + apply String.eqb_neq in E. cbn. rewrite (IH Hd'). split.
      * intros [H|[H|[H1 H2]]]; auto. injection H as <- <-. auto.
      * intros [H|[H1 [H|H]]]; auto.
Qed.

Lemma keys_nodup s : NoDup (map fst (namespace_of s)).
Proof.
  induction s as [|[n v] s IH] using rev_ind; [constructor|]. rewrite namespace_snoc, assign_keys.
  destruct (existsb _ _) eqn:E; [exact IH|]. apply NoDup_rev in IH. rewrite <- (rev_involutive (_ ++ _)), rev_app_distr. apply NoDup_rev. cbn.
  constructor; [|exact IH]. rewrite <- in_rev, <- existsb_key. congruence.
Qed.
Lemma namespace_final s n v : In (n, v) (namespace_of s) <-> final_value s n = Some v.
Proof.
  revert n v. induction s as [|[m w] s IH] using rev_ind; intros n v; [cbn; split; [intros []|discriminate]|].
  rewrite namespace_snoc, final_snoc, (assign_in _ _ _ _ _ (keys_nodup s)), IH. destruct (String.eqb m n) eqn:E.
  - apply String.eqb_eq in E. subst. split; [intros [[_ ->]|[C _]]; congruence|intros H; injection H as <-; auto].
  - apply String.eqb_neq in E. split; [intros [[C _]|[_ H]]; congruence|auto].
Qed.
Lemma keys_assigned s n : In n (map fst (namespace_of s)) <-> In n (map fst s).
Proof.
  induction s as [|[m w] s IH] using rev_ind; [reflexivity|]. rewrite namespace_snoc, assign_keys, map_app. cbn [map fst].
  rewrite in_app_iff, <- IH. destruct (existsb _ _) eqn:E.
  - apply existsb_key in E. split; [auto|intros [H|[<-|[]]]; auto].
  - rewrite in_app_iff. reflexivity.
Qed.

Lemma in_split_key {B} n (l : list (string * B)) : In n (map fst l) -> exists l1 v l2, l = l1 ++ (n, v) :: l2.
Proof. intros H. apply in_map_iff in H as ([m v] & E & H). cbn in E. subst. apply in_split in H as (l1 & l2 & ->). eauto. Qed.

Lemma before_snoc s x m n : assigned_before s m n -> assigned_before (s ++ [x]) m n.
Proof. intros (l & v & l' & -> & H). exists l, v, (l' ++ [x]). split; [|exact H]. rewrite <- app_assoc. reflexivity. Qed.
Lemma keys_order s k1 m k2 n k3 : map fst (namespace_of s) = k1 ++ m :: k2 ++ n :: k3 -> assigned_before s m n.
Proof.
  revert k1 m k2 n k3. induction s as [|[x w] s IH] using rev_ind; intros k1 m k2 n k3; [destruct k1; discriminate|].
  rewrite namespace_snoc, assign_keys. destruct (existsb _ _) eqn:E; intros H; [apply before_snoc; exact (IH _ _ _ _ _ H)|].
  destruct k3 as [|y k3 _] using rev_ind.
  - assert (P : n = x /\ map fst (namespace_of s) = k1 ++ m :: k2).
    { change (k1 ++ m :: k2 ++ [n]) with (k1 ++ (m :: k2) ++ [n]) in H. rewrite app_assoc in H. apply app_inj_tail in H as [H ->]. auto. }
    destruct P as [-> P]. assert (Hm : In m (map fst s)) by (apply keys_assigned; rewrite P; apply in_app_iff; right; left; reflexivity).
    assert (Hx : ~ In x (map fst s)) by (rewrite <- keys_assigned, <- existsb_key; congruence).
    destruct (in_split_key _ _ Hm) as (l & v & l' & ->). exists l, v, (l' ++ [(x, w)]). split; [rewrite <- app_assoc; reflexivity|].
    intros C. apply Hx. rewrite map_app in *. cbn [map] in *. rewrite in_app_iff in *. cbn in *. destruct C as [C|[C|[]]]; auto.
  - apply before_snoc. apply (IH k1 m k2 n k3). change (k1 ++ m :: k2 ++ n :: k3 ++ [y]) with (k1 ++ (m :: k2) ++ (n :: k3) ++ [y]) in H.
    rewrite !app_assoc in H. apply app_inj_tail in H as [H _]. rewrite H, <- app_assoc. reflexivity.
Qed.

(** ** The loop *)

Definition last_name (l : list (string * nat)) (r : nat) : option string :=
  fold_left (fun acc ia => if Nat.eqb (snd ia) r then Some (fst ia) else acc) l None.
Lemma last_name_snoc l n k r : last_name (l ++ [(n, k)]) r = if Nat.eqb k r then Some n else last_name l r.
Proof. unfold last_name. rewrite fold_left_app. reflexivity. Qed.

Lemma rename_at h n k r : nth_error (h_apps (rename h n k)) r =
  option_map (fun x => if Nat.eqb k r then HApp (set_name (obj x) n) (owner x) else x) (nth_error (h_apps h) r).
Proof.
  unfold rename. destruct (nth_error (h_apps h) k) as [x|] eqn:E.
  - unfold put_happ. rewrite E. cbn [h_apps]. rewrite list_set_nth_error, (Nat.eqb_sym r k). destruct (Nat.eqb k r) eqn:C.
    + apply Nat.eqb_eq in C. subst r. rewrite E. cbn [option_map]. replace (Nat.ltb k (List.length (h_apps h))) with true; [reflexivity|]. symmetry. apply Nat.ltb_lt. apply nth_error_Some. congruence.
    + destruct (nth_error (h_apps h) r); reflexivity.
  - destruct (Nat.eqb k r) eqn:C; [apply Nat.eqb_eq in C; subst r; rewrite E; reflexivity|destruct (nth_error (h_apps h) r); reflexivity].
Qed.
Lemma rename_users h n k : h_users (rename h n k) = h_users h.
Proof. unfold rename, put_happ. destruct (nth_error (h_apps h) k); reflexivity. Qed.
Lemma renames_users l h : h_users (fold_left (fun h ia => rename h (fst ia) (snd ia)) l h) = h_users h.
Proof. revert h. induction l as [|x l IH]; intros h; [reflexivity|]. cbn [fold_left]. rewrite IH. apply rename_users. Qed.
Lemma renames_at l h r : nth_error (h_apps (fold_left (fun h ia => rename h (fst ia) (snd ia)) l h)) r =
  option_map (fun x => match last_name l r with Some n => HApp (set_name (obj x) n) (owner x) | None => x end) (nth_error (h_apps h) r).
Proof.
  induction l as [|[n k] l IH] using rev_ind; [cbn; destruct (nth_error (h_apps h) r); reflexivity|].
  rewrite fold_left_app. cbn [fold_left fst snd]. rewrite rename_at, IH, last_name_snoc. destruct (nth_error (h_apps h) r) as [x|]; [|reflexivity]. cbn [option_map].
  destruct (Nat.eqb k r); [|reflexivity]. destruct (last_name l r); reflexivity.
Qed.

Lemma last_name_some ns r n : last_name (local_var_names ns) r = Some n ->
  exists l1 l2, ns = l1 ++ (n, VApp r) :: l2 /\ forall m, ~ In (m, VApp r) l2.
Proof.
  revert n. induction ns as [|[m v] ns IH] using rev_ind; intros n; [discriminate|]. unfold local_var_names in *. rewrite flat_map_app. cbn [flat_map fst snd].
  assert (K : forall w, w <> VApp r -> (exists l1 l2, ns = l1 ++ (n, VApp r) :: l2 /\ forall m, ~ In (m, VApp r) l2) ->
    exists l1 l2, ns ++ [(m, w)] = l1 ++ (n, VApp r) :: l2 /\ forall m, ~ In (m, VApp r) l2).
  { intros w Hw (l1 & l2 & -> & H). exists l1, (l2 ++ [(m, w)]). split; [rewrite <- app_assoc; reflexivity|].
    intros k C. apply in_app_iff in C as [C|[C|[]]]; [exact (H k C)|]. injection C as _ C. contradiction. }
  destruct v as [k|k|]; cbn [app].
  - rewrite last_name_snoc. destruct (Nat.eqb k r) eqn:E.
    + intros H. injection H as <-. apply Nat.eqb_eq in E. subst k. exists ns, []. split; [reflexivity|]. intros ? [].
    + intros H. apply Nat.eqb_neq in E. apply K; [congruence|exact (IH n H)].
  - rewrite app_nil_r. intros H. apply K; [discriminate|exact (IH n H)].
  - rewrite app_nil_r. intros H. apply K; [discriminate|exact (IH n H)].
Qed.
Lemma last_name_none ns r : last_name (local_var_names ns) r = None -> forall m, ~ In (m, VApp r) ns.
Proof.
  induction ns as [|[m v] ns IH] using rev_ind; [intros _ ? []|]. unfold local_var_names in *. rewrite flat_map_app. cbn [flat_map fst snd].
  destruct v as [k|k|]; cbn [app].
  - rewrite last_name_snoc. destruct (Nat.eqb k r) eqn:E; [discriminate|]. apply Nat.eqb_neq in E. intros H j C. apply in_app_iff in C as [C|[C|[]]]; [exact (IH H j C)|congruence].
  - rewrite app_nil_r. intros H j C. apply in_app_iff in C as [C|[C|[]]]; [exact (IH H j C)|congruence].
  - rewrite app_nil_r. intros H j C. apply in_app_iff in C as [C|[C|[]]]; [exact (IH H j C)|congruence].
Qed.

Lemma last_named s r n : last_name (local_var_names (namespace_of s)) r = Some n -> named_by s r n.
Proof.
  intros H. apply last_name_some in H as (l1 & l2 & E & H). split.
  - apply namespace_final. rewrite E. apply in_app_iff. right. left. reflexivity.
  - intros m Hm. apply namespace_final in Hm. rewrite E in Hm. apply in_app_iff in Hm as [Hm|[Hm|Hm]].
    + right. apply in_split in Hm as (a & b & ->). apply (keys_order s (map fst a) m (map fst b) n (map fst l2)).
      rewrite E, !map_app. cbn [map fst]. rewrite <- app_assoc. reflexivity.
    + left. congruence.
    + exfalso. exact (H m Hm).
Qed.
Lemma before_not_both s m n : assigned_before s m n -> assigned_before s n m -> False.
Proof.
  intros (l & v & l' & E & H) (k & w & k' & E' & H'). subst s. revert k k' E' H'. induction l as [|[a b] l IH]; intros k k' E' H'.
  - destruct k as [|[c d] k]; cbn in *; injection E' as -> ? ?; subst; [apply H|apply H']; left; reflexivity.
  - destruct k as [|[c d] k]; cbn in *; injection E' as ? ? ?; subst.
    + apply H. left. reflexivity.
    + apply (IH (fun C => H (or_intror C)) k k'); [assumption|]. intros C. apply H'. right. exact C.
Qed.
Lemma named_unique s r n m : named_by s r n -> named_by s r m -> n = m.
Proof.
  intros [H1 H2] [H3 H4]. destruct (H2 m H3) as [->|B1]; [reflexivity|]. destruct (H4 n H1) as [->|B2]; [reflexivity|].
  exfalso. exact (before_not_both _ _ _ B1 B2).
Qed.

(** ** C84 *)

(** Running the appended code: an appliance to which a variable refers gets a name, that of the variable referring to it which came
    into being last; an appliance without variable keeps its name.  Nothing else of any object changes. *)
Theorem C84_names h script r x : nth_error (h_apps h) r = Some x ->
  let h' := keep_names h (namespace_of script) in
  h_users h' = h_users h /\ List.length (h_apps h') = List.length (h_apps h) /\
  exists x', nth_error (h_apps h') r = Some x' /\ owner x' = owner x /\
    ((exists n, named_by script r n /\ only_renamed (obj x) (obj x') n) \/
     ((forall n, final_value script n <> Some (VApp r)) /\ x' = x)).
Proof.
  intros Hx h'. assert (K : forall k, nth_error (h_apps h') k = option_map (fun x => match last_name (local_var_names (namespace_of script)) k with
    Some n => HApp (set_name (obj x) n) (owner x) | None => x end) (nth_error (h_apps h) k)) by (intros k; apply renames_at).
  split; [apply renames_users|]. split.
  { apply Nat.le_antisymm; apply Nat.le_ngt; intros C.
    - assert (nth_error (h_apps h') (List.length (h_apps h)) <> None) by (apply nth_error_Some; exact C).
      rewrite K in H. replace (nth_error (h_apps h) (List.length (h_apps h))) with (@None happ) in H by (symmetry; apply nth_error_None; lia). contradiction.
    - assert (nth_error (h_apps h) (List.length (h_apps h')) <> None) by (apply nth_error_Some; exact C).
      assert (N : nth_error (h_apps h') (List.length (h_apps h')) = None) by (apply nth_error_None; lia). rewrite K in N.
      destruct (nth_error (h_apps h) (List.length (h_apps h'))); [discriminate|contradiction]. }
  rewrite K, Hx. cbn [option_map]. destruct (last_name _ r) as [n|] eqn:E.
  - eexists. split; [reflexivity|]. split; [reflexivity|]. left. exists n. split; [exact (last_named _ _ _ E)|]. split; reflexivity.
  - exists x. split; [reflexivity|]. split; [reflexivity|]. right. split; [|reflexivity]. intros n C. apply namespace_final in C.
    exact (last_name_none _ _ E n C).
Qed.

(** that variable is unique, and two appliances never get the same name from variables *)
Theorem C84_distinct script r1 r2 n1 n2 : named_by script r1 n1 -> named_by script r2 n2 -> (n1 = n2 <-> r1 = r2).
Proof.
  intros H1 H2. split; intros ->.
  - destruct H1 as [H1 _], H2 as [H2 _]. rewrite H1 in H2. congruence.
  - exact (named_unique _ _ _ _ H1 H2).
Qed.
(** if any variable refers to an appliance there is one that gives it its name *)
Theorem C84_total script r : (exists n, final_value script n = Some (VApp r)) -> exists n, named_by script r n.
Proof.
  intros (n & H). apply namespace_final in H. destruct (last_name (local_var_names (namespace_of script)) r) as [m|] eqn:E; [exists m; exact (last_named _ _ _ E)|].
  exfalso. exact (last_name_none _ _ E n H).
Qed.

(** ** The file *)

Lemma bind_own h uc ks k : own_only h k -> own_only (bind_users h uc ks) k.
Proof.
  intros H v r x Hv Hr Hx. rewrite bind_users_apps in Hx. destruct (nth_error (h_users h) k) as [v0|] eqn:E.
  - rewrite (bind_users_at uc ks h k v0 E) in Hv. apply (H v0 r x E); [|exact Hx]. destruct (existsb _ _); injection Hv as <-; exact Hr.
  - exfalso. assert (L : forall l g, List.length (h_users (bind_users g uc l)) = List.length (h_users g)).
    { induction l as [|j l IH]; intros g; [reflexivity|]. unfold bind_users in *. cbn [fold_left]. rewrite IH. unfold bind_user.
      destruct (nth_error (h_users g) j); [apply list_set_length|reflexivity]. }
    apply nth_error_None in E. rewrite <- (L ks h) in E. apply nth_error_None in E. congruence.
Qed.

(** the input file: users with different non-empty names, each with its own appliances; every appliance is bound to a variable and can
    be stored (SpecTabular.v); numpy can compare the powers of the appliances of a user (since numpy 1.25 it raises ValueError when one is
    a constant and the other a series) *)
Record convertible (F : fm) (strict : bool) (h : heap) (script : list (string * value)) (ks : list nat) : Prop := Convertible {
  cv_some : ks <> [];
  cv_valid : Forall (valid_user h) ks;
  cv_own : Forall (own_only h) ks;
  cv_names : NoDup (map (fun k => user_name (view h k)) ks);
  cv_variables : forall n v, In (n, v) script -> n <> ""%string;
  cv_users : forall k v, In k ks -> nth_error (h_users h) k = Some v -> hu_name v <> ""%string /\ hu_apps v <> [] /\ NoDup (hu_apps v);
  cv_apps : forall k v r x, In k ks -> nth_error (h_users h) k = Some v -> In r (hu_apps v) -> nth_error (h_apps h) r = Some x ->
    (exists n, final_value script n = Some (VApp r)) /\
    fixed (par (obj x)) <> ""%string /\ flat (par (obj x)) <> ""%string /\ valid_windows (obj x) /\ cycles_ok (obj x) /\ storable_power F (power (obj x));
  cv_powers : forall k v r1 r2 x1 x2, In k ks -> nth_error (h_users h) k = Some v -> In r1 (hu_apps v) -> In r2 (hu_apps v) ->
    nth_error (h_apps h) r1 = Some x1 -> nth_error (h_apps h) r2 = Some x2 ->
    strict = false \/ zlen (power_back (power (obj x1))) = zlen (power_back (power (obj x2)))
}.

(** user [u] of the loaded file is user [k] of the program, its appliances in the same order, named after their variables *)
Definition same_but_named (h : heap) (script : list (string * value)) (k : nat) (u : user) : Prop :=
  exists v, nth_error (h_users h) k = Some v /\
    user_name u = hu_name v /\ num_users u = hu_num v /\ user_preference u = hu_preference v /\
    Forall2 (fun r a => exists x n, nth_error (h_apps h) r = Some x /\ named_by script r n /\ getattr a "name" = Some (VStr n) /\
      forall s, In s APPLIANCE_ATTRIBUTES -> s <> "name"%string -> getattr a s = getattr (returned (obj x)) s) (hu_apps v) (app_list u).

Lemma final_in s n v : final_value s n = Some v -> In (n, v) s.
Proof.
  unfold final_value. destruct (find _ (rev s)) as [[m w]|] eqn:E; [|discriminate]. apply find_some in E as [E1 E2]. cbn in *. intros H. injection H as ->.
  apply String.eqb_eq in E2. subst m. apply in_rev. exact E1.
Qed.
Lemma getattr_renamed a n s : s <> "name"%string -> getattr (set_name a n) s = getattr a s.
Proof. intros H. apply String.eqb_neq in H. unfold getattr. rewrite H. reflexivity. Qed.
Lemma power_eq_total strict p q : strict = false \/ zlen p = zlen q -> exists e, power_eq strict p q = Ok e.
Proof.
  unfold power_eq. intros [->|H].
  - destruct (zlen p =? zlen q); [eauto|]. destruct p as [|x [|y p]], q as [|z [|w q]]; eauto.
  - rewrite H, Z.eqb_refl. eauto.
Qed.
Lemma objects_cons h r rs x : nth_error (h_apps h) r = Some x -> objects_at h (r :: rs) = obj x :: objects_at h rs.
Proof. intros H. unfold objects_at. cbn [flat_map]. rewrite H. reflexivity. Qed.
Lemma first_users_some ks : first_users (map Some ks) = ks.
Proof. induction ks as [|k ks IH]; [reflexivity|]. cbn. rewrite IH. reflexivity. Qed.
Lemma none_bad ks : existsb is_bad (map Some ks) = false.
Proof. induction ks as [|k ks IH]; [reflexivity|exact IH]. Qed.

(** the name an object has after the naming code *)
Lemma kept_object F strict h script ks k v r x : convertible F strict h script ks -> In k ks -> nth_error (h_users h) k = Some v -> In r (hu_apps v) ->
  nth_error (h_apps h) r = Some x -> exists n, named_by script r n /\ n <> ""%string /\
  nth_error (h_apps (keep_names h (namespace_of script))) r = Some (HApp (set_name (obj x) n) (owner x)).
Proof.
  intros C Hk Hv Hr Hx. destruct (cv_apps _ _ _ _ _ C k v r x Hk Hv Hr Hx) as ((m & Hm) & _).
  destruct (last_name (local_var_names (namespace_of script)) r) as [n|] eqn:E.
  - exists n. pose proof (last_named _ _ _ E) as N. split; [exact N|]. split; [apply (cv_variables _ _ _ _ _ C n (VApp r)); apply final_in; apply N|].
    unfold keep_names. rewrite renames_at, Hx, E. reflexivity.
  - exfalso. apply namespace_final in Hm. exact (last_name_none _ _ E m Hm).
Qed.

Lemma kept_storable F strict h script ks k : convertible F strict h script ks -> In k ks ->
  storable_user F strict (view (keep_names h (namespace_of script)) k).
Proof.
  intros C Hk. set (h1 := keep_names h (namespace_of script)).
  destruct (proj1 (Forall_forall _ _) (cv_valid _ _ _ _ _ C) k Hk) as (v & Hv & Hr).
  destruct (cv_users _ _ _ _ _ C k v Hk Hv) as (U1 & U2 & U3).
  assert (Hv1 : nth_error (h_users h1) k = Some v) by (unfold h1, keep_names; rewrite renames_users; exact Hv).
  unfold view. rewrite Hv1. unfold storable_user. cbn [user_name app_list]. split; [exact U1|].
  assert (G : forall r, In r (hu_apps v) -> exists x n, nth_error (h_apps h) r = Some x /\ named_by script r n /\ n <> ""%string /\
    nth_error (h_apps h1) r = Some (HApp (set_name (obj x) n) (owner x))).
  { intros r Hi. destruct (Hr r Hi) as (x & Hx). destruct (kept_object F strict h script ks k v r x C Hk Hv Hi Hx) as (n & N1 & N2 & N3). exists x, n. auto. }
  split.
  { destruct (hu_apps v) as [|r rs] eqn:E; [contradiction|]. destruct (G r (or_introl eq_refl)) as (x & n & _ & _ & _ & G4). rewrite (objects_cons _ _ _ _ G4). discriminate. }
  split.
  { assert (P : forall rs, (forall r, In r rs -> In r (hu_apps v)) -> Forall (storable_app F) (objects_at h1 rs)).
    { induction rs as [|r rs IH]; intros Hi; [constructor|]. destruct (G r (Hi r (or_introl eq_refl))) as (x & n & G1 & G2 & G3 & G4).
      rewrite (objects_cons _ _ _ _ G4). constructor; [|apply IH; intros; apply Hi; right; assumption]. cbn [obj].
      destruct (cv_apps _ _ _ _ _ C k v r x Hk Hv (Hi r (or_introl eq_refl)) G1) as (_ & A1 & A2 & A3 & A4 & A5).
      split; [exact G3|]. split; [exact A1|]. split; [exact A2|]. split; [exact A3|]. split; [exact A4|exact A5]. }
    apply P. auto. }
  assert (P : forall rs, (forall r, In r rs -> In r (hu_apps v)) -> NoDup rs ->
    ForallOrdPairs (fun a b => app_eq strict (returned a) (returned b) = Ok false) (objects_at h1 rs)).
  { induction rs as [|r rs IH]; intros Hi Hd; [constructor|]. inversion Hd as [|? ? D1 D2]; subst.
    destruct (G r (Hi r (or_introl eq_refl))) as (x & n & G1 & G2 & G3 & G4). rewrite (objects_cons _ _ _ _ G4).
    constructor; [|apply IH; [intros; apply Hi; right; assumption|exact D2]]. cbn [obj].
    assert (Q : forall rs', (forall r', In r' rs' -> In r' rs) -> Forall (fun b => app_eq strict (returned (set_name (obj x) n)) (returned b) = Ok false) (objects_at h1 rs')).
    { induction rs' as [|r' rs' IH']; intros Hi'; [constructor|]. assert (I : In r' (hu_apps v)) by (apply Hi; right; apply Hi'; left; reflexivity).
      destruct (G r' I) as (x' & n' & G1' & G2' & G3' & G4'). rewrite (objects_cons _ _ _ _ G4').
      constructor; [|apply IH'; intros; apply Hi'; right; assumption]. cbn [obj].
      destruct (power_eq_total strict (power (returned (set_name (obj x) n))) (power (returned (set_name (obj x') n')))) as (e & He).
      { exact (cv_powers _ _ _ _ _ C k v r r' x x' Hk Hv (Hi r (or_introl eq_refl)) I G1 G1'). }
      destruct (app_eq_power_total _ _ _ _ He) as ([|] & E); [|exact E]. exfalso. apply app_eq_names in E. cbn in E.
      apply (C84_distinct script r r' n n' G2 G2') in E. subst r'. apply D1. apply Hi'. left. reflexivity. }
    apply Q. auto. }
  apply P; auto.
Qed.

(** The converted file, loaded into a new use case, has the users of [User_list] in the same order, with the same numbers and
    preferences, the same appliances in the same order and with the same attributes, named after their variables. *)
Theorem C84_converted_partial F strict h script ks user_list : convertible F strict h script ks -> leaves user_list = map Some ks ->
  exists us, convert_and_load F strict true h script user_list = Ok us /\ Forall2 (same_but_named h script) ks us.
Proof.
  intros C El. set (h1 := keep_names h (namespace_of script)).
  assert (Hu : h_users h1 = h_users h) by apply renames_users.
  assert (K : forall k v r x, In k ks -> nth_error (h_users h) k = Some v -> In r (hu_apps v) -> nth_error (h_apps h) r = Some x ->
    exists n, named_by script r n /\ n <> ""%string /\ nth_error (h_apps h1) r = Some (HApp (set_name (obj x) n) (owner x)))
    by (intros; eapply kept_object; eassumption).
  assert (V1 : Forall (valid_user h1) ks).
  { apply Forall_forall. intros k Hk. destruct (proj1 (Forall_forall _ _) (cv_valid _ _ _ _ _ C) k Hk) as (v & Hv & Hr). exists v. rewrite Hu. split; [exact Hv|].
    intros r Hi. destruct (Hr r Hi) as (x & Hx). destruct (K k v r x Hk Hv Hi Hx) as (n & _ & _ & E). eauto. }
  assert (O1 : Forall (own_only h1) ks).
  { apply Forall_forall. intros k Hk v r x' Hv Hi Hx'. rewrite Hu in Hv. destruct (proj1 (Forall_forall _ _) (cv_valid _ _ _ _ _ C) k Hk) as (v0 & Hv0 & Hr).
    rewrite Hv in Hv0. injection Hv0 as <-. destruct (Hr r Hi) as (x & Hx). destruct (K k v r x Hk Hv Hi Hx) as (n & _ & _ & E). rewrite E in Hx'. injection Hx' as <-. cbn [owner].
    exact (proj1 (Forall_forall _ _) (cv_own _ _ _ _ _ C) k Hk v r x Hv Hi Hx). }
  assert (N1 : map user_name (map (view h1) ks) = map (fun k => user_name (view h k)) ks).
  { rewrite map_map. apply map_ext. intros k. unfold view. rewrite Hu. destruct (nth_error (h_users h) k); reflexivity. }
  destruct (round_trip F strict (map (view h1) ks)) as (us & R1 & R2).
  { destruct ks; [|discriminate]. exfalso. exact (cv_some _ _ _ _ _ C eq_refl). }
  { rewrite N1. exact (cv_names _ _ _ _ _ C). }
  { apply Forall_forall. intros u Hi. apply in_map_iff in Hi as (k & <- & Hk). exact (kept_storable F strict h script ks k C Hk). }
  exists us. split.
  - unfold convert_and_load, converted. fold h1. rewrite hadd_spec, El, first_users_some, none_bad. cbn [app].
    rewrite (C73_saved_partial F (bind_users h1 0 ks) ks).
    + rewrite (map_ext _ _ (bind_view h1 0 ks)). exact R1.
    + eapply Forall_impl; [|exact V1]. intros k. apply bind_valid.
    + eapply Forall_impl; [|exact O1]. intros k. apply bind_own.
  - clear R1. assert (Q : forall k, In k ks -> forall u, same_user (view h1 k) u -> same_but_named h script k u).
    { intros k Hk u (Q1 & Q2 & Q3 & Q4). destruct (proj1 (Forall_forall _ _) (cv_valid _ _ _ _ _ C) k Hk) as (v & Hv & Hr). exists v.
      unfold view in *. rewrite Hu, Hv in *. cbn [user_name num_users user_preference app_list] in *. repeat split; try assumption.
      assert (Z : forall rs l, (forall r, In r rs -> In r (hu_apps v)) -> Forall2 (fun a a' => same_attributes a' (returned a)) (objects_at h1 rs) l ->
        Forall2 (fun r a => exists x n, nth_error (h_apps h) r = Some x /\ named_by script r n /\ getattr a "name" = Some (VStr n) /\
          forall s, In s APPLIANCE_ATTRIBUTES -> s <> "name"%string -> getattr a s = getattr (returned (obj x)) s) rs l).
      { induction rs as [|r rs IH]; intros l Hi H; [inversion H; constructor|]. destruct (Hr r (Hi r (or_introl eq_refl))) as (x & Hx).
        destruct (K k v r x Hk Hv (Hi r (or_introl eq_refl)) Hx) as (n & B1 & B2 & B3). rewrite (objects_cons _ _ _ _ B3) in H. inversion H as [|? a' ? l' B4 B5]; subst.
        constructor; [|apply IH; [intros; apply Hi; right; assumption|exact B5]]. exists x, n. split; [exact Hx|]. split; [exact B1|]. split.
        - rewrite (B4 "name"%string); [reflexivity|]. left. reflexivity.
        - intros s Hs Hn. rewrite (B4 s Hs). change (returned (set_name (obj x) n)) with (set_name (returned (obj x)) n). apply getattr_renamed. exact Hn. }
      apply Z; auto. }
    clear C V1 O1 N1 K El Hu. revert us R2. induction ks as [|k ks IH]; intros us R2; inversion R2; subst; constructor.
    + apply Q; [left; reflexivity|assumption].
    + apply IH; [intros; apply Q; [right; assumption|assumption]|assumption].
Qed.

(** ** A concrete program *)

(** two users; x = first appliance, bulb = x, x = second appliance, heat = spare = third appliance *)
Definition old_heap : heap := Heap [HApp lamp 0; HApp special 0; HApp heater 1]
  [HUser "household" 2 3 0 [] [0; 1]%nat None; HUser "workshop" 3 0 0 [] [2%nat] None].
Definition old_script : list (string * value) :=
  [("np", VOther); ("house", VUser 0); ("x", VApp 0); ("bulb", VApp 0); ("x", VApp 1); ("shop", VUser 1); ("heat", VApp 2); ("spare", VApp 2);
   ("heat", VApp 2); ("User_list", VOther)]%string.

Lemma old_names : named_by old_script 0 "bulb" /\ named_by old_script 1 "x" /\ named_by old_script 2 "spare" /\
  final_value old_script "heat" = Some (VApp 2).
Proof. repeat split; try (apply last_named; vm_compute; reflexivity); try apply (last_named old_script 0 "bulb"); try apply (last_named old_script 1 "x"); try apply (last_named old_script 2 "spare"); reflexivity. Qed.

Lemma old_user k v : In k [0; 1]%nat -> nth_error (h_users old_heap) k = Some v ->
  (k = 0%nat /\ v = HUser "household" 2 3 0 [] [0; 1]%nat None) \/ (k = 1%nat /\ v = HUser "workshop" 3 0 0 [] [2%nat] None).
Proof. intros [<-|[<-|[]]] H; cbn in H; injection H as <-; auto. Qed.

Example C84_case : convertible exact_fm true old_heap old_script [0; 1]%nat /\
  leaves (IList [IUser 0; IList [IUser 1]]) = map Some [0; 1]%nat.
Proof.
  split; [|reflexivity]. constructor.
  - discriminate.
  - constructor; [|constructor; [|constructor]]; eexists; (split; [reflexivity|]); cbn; intros r Hr; intuition (subst; eexists; reflexivity).
  - apply Forall_forall. intros k Hk v r x Hv Hr Hx. destruct (old_user k v Hk Hv) as [[-> ->]|[-> ->]]; cbn in Hr; intuition (subst; cbn in Hx; injection Hx as <-; reflexivity).
  - repeat constructor; cbn; intuition discriminate.
  - intros n v H. cbn in H. intuition (match goal with E : (_, _) = (_, _) |- _ => injection E as <- _ end; discriminate).
  - intros k v Hk Hv. destruct (old_user k v Hk Hv) as [[-> ->]|[-> ->]]; cbn; repeat split; try discriminate; repeat constructor; cbn; intuition discriminate.
  - intros k v r x Hk Hv Hr Hx. pose proof (proj2 (proj2 C40_case)) as P. inversion P as [|? ? P1 P2]; subst. inversion P2 as [|? ? P3 _]; subst.
    destruct P1 as (_ & _ & P1 & _). destruct P3 as (_ & _ & P3 & _). inversion P1 as [|? ? A1 A2]; subst. inversion A2 as [|? ? A3 _]; subst. inversion P3 as [|? ? A4 _]; subst.
    destruct old_names as ((N0 & _) & (N1 & _) & (N2 & _) & _).
    destruct A1 as (_ & A1), A3 as (_ & A3), A4 as (_ & A4).
    destruct (old_user k v Hk Hv) as [[-> ->]|[-> ->]]; cbn [hu_apps In] in Hr.
    + destruct Hr as [<-|[<-|[]]]; cbn in Hx; injection Hx as <-; cbn [obj]; (split; [eexists; eassumption|assumption]).
    + destruct Hr as [<-|[]]; cbn in Hx; injection Hx as <-; cbn [obj]; (split; [eexists; eassumption|assumption]).
  - intros k v r1 r2 x1 x2 Hk Hv H1 H2 X1 X2. right. destruct (old_user k v Hk Hv) as [[-> ->]|[-> ->]]; cbn [hu_apps In] in H1, H2.
    + destruct H1 as [<-|[<-|[]]], H2 as [<-|[<-|[]]]; cbn in X1, X2; injection X1 as <-; injection X2 as <-; reflexivity.
    + destruct H1 as [<-|[]], H2 as [<-|[]]. rewrite X1 in X2. injection X2 as ->. reflexivity.
Qed.

(** ** Where it does not hold *)

Definition merge_heap : heap := Heap [HApp (set_name lamp "first") 0; HApp lamp 0] [HUser "household" 2 3 0 [] [0; 1]%nat None].
(** Two appliances with different names, one in a variable named like the other: they are saved under the same name, and loading the
    file makes one appliance of them.  Without the naming code both come back. *)
Theorem C84_merged_refuted : exists h script user_list u1 u2,
  map (fun x => name (par (obj x))) (h_apps h) = ["first"; "lamp"]%string /\
  convert_and_load exact_fm true true h script user_list = Ok [u1] /\ map (fun a => name (par a)) (app_list u1) = ["lamp"]%string /\
  convert_and_load exact_fm true false h script user_list = Ok [u2] /\ map (fun a => name (par a)) (app_list u2) = ["first"; "lamp"]%string.
Proof.
  exists merge_heap, [("lamp"%string, VApp 0)], (IList [IUser 0]). eexists. eexists. split; [reflexivity|].
  split; [vm_compute; reflexivity|]. split; [reflexivity|]. split; [vm_compute; reflexivity|reflexivity].
Qed.

(** With numpy since 1.25 a user with a constant and a daily series gives a file that cannot be loaded. *)
Theorem C84_mixed_powers_refuted : exists h script user_list t,
  converted exact_fm true h script user_list = Ok t /\ convert_and_load exact_fm true true h script user_list = Err ValueError /\
  exists us, convert_and_load exact_fm false true h script user_list = Ok us.
Proof.
  exists (Heap [HApp lamp 0; HApp heater 0] [HUser "household" 2 3 0 [] [0; 1]%nat None]), [("a"%string, VApp 0); ("b"%string, VApp 1)], (IList [IUser 0]).
  eexists. split; [vm_compute; reflexivity|]. split; [vm_compute; reflexivity|]. eexists. vm_compute. reflexivity.
Qed.
