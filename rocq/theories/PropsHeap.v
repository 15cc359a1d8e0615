(** * PropsHeap: users and appliances as objects (C72 add_user, C73 shared appliances) *)
From Verif Require Import Base Wp Tape Sim ListLemmas Utils Appliance Attributes User Spec SpecDay SpecUser UseCase SpecUseCase Tabular ProofsEq ProofsUser
  ProofsUseCase PropsDay PropsTotal PropsPopulation Heap.
From Coq Require Import ZifyBool ZifyNat Permutation.
Open Scope list_scope.
Open Scope Z_scope.

(** ** Specification *)

(** what an argument of add_user contains, from left to right: users ([Some k]) and things that are neither users nor lists *)
Fixpoint leaves (it : item) : list (option nat) :=
  match it with
  | IUser k => [Some k]
  | IList l => flat_map leaves l
  | IOther => [None]
  end.
(** the users before the first thing that is not a user *)
Fixpoint first_users (l : list (option nat)) : list nat :=
  match l with Some k :: l' => k :: first_users l' | _ => [] end.

(** the references of user [k] exist *)
Definition valid_user (h : heap) (k : nat) : Prop :=
  exists v, nth_error (h_users h) k = Some v /\ forall r, In r (hu_apps v) -> exists x, nth_error (h_apps h) r = Some x.
(** every appliance of user [k] was created for it, or is not restricted to a preference *)
Definition own_or_free (h : heap) (k : nat) : Prop :=
  forall v r x, nth_error (h_users h) k = Some v -> In r (hu_apps v) -> nth_error (h_apps h) r = Some x ->
    owner x = k \/ pref_index (par (obj x)) = 0.

(** ** C72 *)

Section item_induction.
  Variable P : item -> Prop.
  Hypothesis HU : forall k, P (IUser k).
  Hypothesis HL : forall l, Forall P l -> P (IList l).
  Hypothesis HO : P IOther.
  Fixpoint item_rect2 (it : item) : P it :=
    match it with
    | IUser k => HU k
    | IList l => HL l ((fix go (l : list item) : Forall P l :=
        match l with [] => Forall_nil P | x :: l' => Forall_cons x (item_rect2 x) (go l') end) l)
    | IOther => HO
    end.
End item_induction.

Definition is_bad (o : option nat) : bool := match o with None => true | Some _ => false end.
Definition bind_users (h : heap) (uc : nat) (ks : list nat) : heap := fold_left (fun h k => bind_user h uc k) ks h.

Lemma first_users_app l l' : first_users (l ++ l') = if existsb is_bad l then first_users l else first_users l ++ first_users l'.
Proof. induction l as [|[k|] l IH]; cbn; [reflexivity| |reflexivity]. rewrite IH. destruct (existsb is_bad l); reflexivity. Qed.

Lemma hadd_spec uc it : forall h ks, hadd_user uc h ks it =
  (bind_users h uc (first_users (leaves it)), ks ++ first_users (leaves it), if existsb is_bad (leaves it) then Some InvalidType else None).
Proof.
  induction it as [k|l IH|] using item_rect2; intros h ks.
  - reflexivity.
  - cbn [hadd_user leaves]. revert h ks. induction IH as [|x l Hx _ IH]; intros h ks.
    + cbn. rewrite app_nil_r. reflexivity.
    + rewrite Hx. cbn [flat_map]. rewrite first_users_app, existsb_app.
      destruct (existsb is_bad (leaves x)); [reflexivity|]. cbn [orb]. rewrite IH.
      unfold bind_users. rewrite fold_left_app, <- app_assoc. reflexivity.
  - cbn. rewrite app_nil_r. reflexivity.
Qed.

Lemma nth_error_lt {A} (l : list A) k x : nth_error l k = Some x -> (k < List.length l)%nat.
Proof. intros H. apply nth_error_Some. congruence. Qed.
Lemma list_set_here {A} (l : list A) k x y : nth_error l k = Some x -> nth_error (list_set l k y) k = Some y.
Proof.
  intros H. apply nth_error_lt in H. rewrite list_set_nth_error, Nat.eqb_refl. destruct (Nat.ltb_spec k (List.length l)); [reflexivity|lia].
Qed.
Lemma list_set_other {A} (l : list A) k j y : j <> k -> nth_error (list_set l k y) j = nth_error l j.
Proof. intros H. rewrite list_set_nth_error. destruct (Nat.eqb_spec j k); [contradiction|reflexivity]. Qed.

Lemma bind_user_at h uc k j v : nth_error (h_users h) j = Some v ->
  nth_error (h_users (bind_user h uc k)) j = Some (if Nat.eqb k j then hset_case v uc else v).
Proof.
  intros H. unfold bind_user. destruct (nth_error (h_users h) k) as [v'|] eqn:E.
  - cbn. destruct (Nat.eqb_spec k j) as [->|N].
    + rewrite (list_set_here _ _ _ _ E). congruence.
    + rewrite list_set_other by congruence. exact H.
  - destruct (Nat.eqb_spec k j) as [->|N]; [congruence|exact H].
Qed.

Lemma bind_users_at uc ks : forall h j v, nth_error (h_users h) j = Some v ->
  nth_error (h_users (bind_users h uc ks)) j = Some (if existsb (Nat.eqb j) ks then hset_case v uc else v).
Proof.
  induction ks as [|k ks IH]; intros h j v H; [exact H|]. cbn [bind_users fold_left existsb].
  pose proof (bind_user_at h uc k j v H) as H'. rewrite (Nat.eqb_sym j k). specialize (IH _ _ _ H').
  unfold bind_users in IH. rewrite IH. destruct (Nat.eqb k j), (existsb (Nat.eqb j) ks); reflexivity.
Qed.
Lemma bind_users_apps uc ks : forall h, h_apps (bind_users h uc ks) = h_apps h.
Proof.
  induction ks as [|k ks IH]; intros h; [reflexivity|]. unfold bind_users in *. cbn [fold_left]. rewrite IH. unfold bind_user.
  destruct (nth_error (h_users h) k); reflexivity.
Qed.

Lemma existsb_bad l : existsb is_bad l = true <-> In None l.
Proof.
  rewrite existsb_exists. split; [intros ([k|] & H & C); [discriminate|exact H]|]. intros H. exists None. auto.
Qed.

(** The users of the argument are appended in order, each bound to this use case, up to the first thing that is neither a user nor
    a list: that raises InvalidType, and the users before it stay.  Nothing else changes. *)
Theorem C72_add_user uc h ks it h' ks' e : hadd_user uc h ks it = (h', ks', e) ->
  ks' = ks ++ first_users (leaves it) /\
  (e = None \/ e = Some InvalidType) /\ (e = Some InvalidType <-> In None (leaves it)) /\
  h_apps h' = h_apps h /\
  (forall j v, nth_error (h_users h) j = Some v ->
     (In j (first_users (leaves it)) -> nth_error (h_users h') j = Some (hset_case v uc)) /\
     (~ In j (first_users (leaves it)) -> nth_error (h_users h') j = Some v)).
Proof.
  intros H. rewrite hadd_spec in H. injection H as <- <- <-. split; [reflexivity|].
  split; [destruct (existsb _ _); auto|]. split.
  { rewrite <- existsb_bad. destruct (existsb _ _); split; auto; discriminate. }
  split; [apply bind_users_apps|]. intros j v Hj. rewrite (bind_users_at uc _ h j v Hj).
  destruct (existsb (Nat.eqb j) (first_users (leaves it))) eqn:E.
  - split; [reflexivity|]. intros C. exfalso. apply C. apply existsb_exists in E as (k & Hk & E). apply Nat.eqb_eq in E. subst k. exact Hk.
  - split; [|reflexivity]. intros C. exfalso. assert (T : existsb (Nat.eqb j) (first_users (leaves it)) = true); [|congruence].
    apply existsb_exists. exists j. split; [exact C|apply Nat.eqb_refl].
Qed.

(** seen as values, the users of the use case are then the earlier ones followed by those of the argument, in that order *)
Theorem C72_values uc h ks it c : users c = map (view h) ks ->
  map (view (fst (fst (hadd_user uc h ks it)))) (snd (fst (hadd_user uc h ks it))) =
  users (fold_left add_user (map (view h) (first_users (leaves it))) c).
Proof.
  intros H. rewrite hadd_spec. cbn [fst snd].
  assert (V : forall k, view (bind_users h uc (first_users (leaves it))) k = view h k).
  { intros k. unfold view, objects_at. rewrite bind_users_apps. destruct (nth_error (h_users h) k) as [v|] eqn:E.
    - rewrite (bind_users_at uc _ h k v E). destruct (existsb _ _); reflexivity.
    - assert (N : nth_error (h_users (bind_users h uc (first_users (leaves it)))) k = None); [|rewrite N; reflexivity].
      apply nth_error_None. apply nth_error_None in E. assert (L : forall l g, List.length (h_users (bind_users g uc l)) = List.length (h_users g)).
      { induction l as [|j l IH]; intros g; [reflexivity|]. unfold bind_users in *. cbn [fold_left]. rewrite IH. unfold bind_user.
        destruct (nth_error (h_users g) j); [apply list_set_length|reflexivity]. }
      rewrite L. exact E. }
  rewrite (map_ext _ _ V), map_app, <- H. clear H V. generalize (map (view h) (first_users (leaves it))) as l. intros l. revert c.
  induction l as [|u l IH]; intros c; [apply app_nil_r|]. cbn [fold_left]. rewrite <- IH. unfold add_user. destruct c; cbn. rewrite <- app_assoc. reflexivity.
Qed.

(** nesting does not matter *)
Theorem C72_nesting uc h ks it it' : leaves it = leaves it' -> hadd_user uc h ks it = hadd_user uc h ks it'.
Proof. intros H. rewrite !hadd_spec, H. reflexivity. Qed.

(** without such things all users are added *)
Theorem C72_all_added uc h ks it : ~ In None (leaves it) ->
  exists h' added, hadd_user uc h ks it = (h', ks ++ added, None) /\ map Some added = leaves it.
Proof.
  intros H. rewrite hadd_spec. exists (bind_users h uc (first_users (leaves it))), (first_users (leaves it)). split.
  - destruct (existsb is_bad (leaves it)) eqn:E; [|reflexivity]. apply existsb_bad in E. contradiction.
  - induction (leaves it) as [|[k|] l IH]; cbn; [reflexivity| |exfalso; apply H; left; reflexivity].
    f_equal. apply IH. intros C. apply H. right. exact C.
Qed.

(** ** Generation: references and values ask for the same draws *)

(** same objects: only rand_daily_pref, load and the run-time state of appliances may differ *)
Definition alike (h0 h : heap) : Prop :=
  (forall r x, nth_error (h_apps h0) r = Some x ->
     exists a, nth_error (h_apps h) r = Some (HApp a (owner x)) /\ same_declared (obj x) a) /\
  (forall k v, nth_error (h_users h0) k = Some v ->
     exists p l, nth_error (h_users h) k = Some (HUser (hu_name v) (hu_num v) (hu_preference v) p l (hu_apps v) (hu_case v))).

Lemma alike_refl h : alike h h.
Proof.
  split.
  - intros r [a o] H. exists a. split; [exact H|]. apply same_declared_refl.
  - intros k v H. exists (hu_pref v), (hu_load v). destruct v. exact H.
Qed.

Lemma alike_put_app h0 h r x a : alike h0 h -> nth_error (h_apps h0) r = Some x -> same_declared (obj x) a -> alike h0 (put_happ h r a).
Proof.
  intros [A U] Hx Ha. destruct (A _ _ Hx) as (b & Hb & _). unfold put_happ. rewrite Hb. cbn [owner]. split; [|exact U].
  intros r' x' Hx'. cbn [h_apps]. destruct (Nat.eq_dec r' r) as [->|N].
  - rewrite (list_set_here _ _ _ _ Hb). exists a. replace x' with x by congruence. split; [reflexivity|exact Ha].
  - rewrite list_set_other by exact N. apply A. exact Hx'.
Qed.

Lemma alike_put_user h0 h k v p l : alike h0 h -> nth_error (h_users h0) k = Some v ->
  alike h0 (put_huser h k (HUser (hu_name v) (hu_num v) (hu_preference v) p l (hu_apps v) (hu_case v))).
Proof.
  intros [A U] Hv. split; [exact A|]. intros k' v' Hv'. cbn [h_users put_huser]. destruct (Nat.eq_dec k' k) as [->|N].
  - destruct (U _ _ Hv) as (p' & l' & E). rewrite (list_set_here _ _ _ _ E). exists p, l. replace v' with v by congruence. reflexivity.
  - rewrite list_set_other by exact N. apply U. exact Hv'.
Qed.

Lemma put_happ_users h r a : h_users (put_happ h r a) = h_users h.
Proof. unfold put_happ. destruct (nth_error (h_apps h) r); reflexivity. Qed.

(** appliance values behind references, up to the run-time state *)
Definition refs_to (h0 : heap) (rs : list nat) (l : list appliance) : Prop :=
  Forall2 (fun r a => exists x, nth_error (h_apps h0) r = Some x /\ same_declared (obj x) a) rs l.

Lemma glp_pref depth F a p p' i peak dt pw : pref_index (par a) = 0 ->
  psim eq (generate_load_profile depth F a p i peak dt pw) (generate_load_profile depth F a p' i peak dt pw).
Proof.
  intros H. unfold generate_load_profile. eapply psim_bind with (R := eq); [|intros x ? <-; apply psim_eq].
  unfold generate_load_profile_traced. cbv zeta. eapply psim_bind; [apply psim_eq|]. intros u ? <-.
  replace (skip_day a p' dt u) with (skip_day a p dt u); [apply psim_eq|]. unfold skip_day. rewrite H. reflexivity.
Qed.

Lemma psim_then {A B B'} (R : A -> B -> Prop) (T : A -> B' -> Prop) p q (g : B -> prog B') :
  psim R p q -> (forall a b, R a b -> psim T (Ret a) (g b)) -> psim T p (bind q g).
Proof.
  revert q; induction p as [a|e|k IH|n k IH|c k IH|s k IH]; intros [b|e'|k'|n' k'|c' k'|s' k'] H Hf; cbn in *; try contradiction; auto.
  - apply (Hf a b H).
  - destruct H as [H1 H2]. split; auto.
  - destruct H as [H1 H2]. split; auto.
  - destruct H as [H1 H2]. split; auto.
Qed.

Lemma hgen_apps_sim depth F h0 k pref i peak dt : forall rs l h acc,
  alike h0 h -> refs_to h0 rs l -> pref_of h k = pref ->
  (forall r x, In r rs -> nth_error (h_apps h0) r = Some x -> owner x = k \/ pref_index (par (obj x)) = 0) ->
  psim (fun x y => snd x = snd y /\ alike h0 (fst x) /\ refs_to h0 rs (fst y) /\ h_users (fst x) = h_users h)
    (hgen_apps depth F h i peak dt rs acc) (generate_apps depth F pref i peak dt l acc).
Proof.
  induction rs as [|r rs IH]; intros l h acc Ha Hr Hp Hf; inversion Hr as [|? a ? l' (x & Hx & Hs) Hr']; subst; cbn [hgen_apps generate_apps].
  - cbn. repeat split; try assumption; apply Ha.
  - destruct (proj1 Ha _ _ Hx) as (b & Hb & Hsb). rewrite Hb. cbn [obj owner].
    assert (Hba : same_app b a) by exact (same_declared_trans _ _ _ (same_declared_sym _ _ Hsb) Hs).
    rewrite (same_app_power _ _ Hba).
    eapply psim_bind; [apply psim_eq|]. intros pw ? <-.
    eapply psim_bind with (R := fun y z => same_app b y /\ same_app b z /\ daily_use (st y) = daily_use (st z)).
    { destruct (Hf r x (or_introl eq_refl) Hx) as [<-|Hz]; [apply glp_sim; exact Hba|].
      eapply psim_trans; [|apply (glp_pref depth F b _ (pref_of h k))|apply glp_sim; exact Hba].
      - intros y ? z <- K. exact K.
      - rewrite (same_app_par _ _ Hsb). exact Hz. }
    intros b' a' (S1 & S2 & E). rewrite E.
    eapply psim_then.
    + apply (IH l' (put_happ h r b')); try assumption.
      * apply (alike_put_app h0 h r x b' Ha Hx). exact (same_declared_trans _ _ _ Hsb S1).
      * unfold pref_of. rewrite put_happ_users. reflexivity.
      * intros r' x' Hin. apply Hf. right. exact Hin.
    + intros y z (K1 & K2 & K3 & K4). cbn [psim fst snd]. split; [exact K1|]. split; [exact K2|]. split; [|rewrite K4; apply put_happ_users].
      constructor; [|exact K3]. exists x. split; [exact Hx|]. exact (same_declared_trans _ _ _ Hsb S2).
Qed.

(** one user value for user [k] *)
Definition ref_to (h0 : heap) (k : nat) (u : user) : Prop :=
  exists v, nth_error (h_users h0) k = Some v /\ user_name u = hu_name v /\ num_users u = hu_num v /\ user_preference u = hu_preference v /\
    refs_to h0 (hu_apps v) (app_list u).

Lemma hgen_single_sim depth F h0 k h u i peak dt : alike h0 h -> ref_to h0 k u -> own_or_free h0 k ->
  psim (fun x y => snd x = snd y /\ alike h0 (fst x) /\ ref_to h0 k (fst y) /\ load (fst y) = load u /\
          (forall v, nth_error (h_users h) k = Some v -> exists v', nth_error (h_users (fst x)) k = Some v' /\ hu_load v' = hu_load v))
    (hgen_single depth F h k i peak dt) (generate_single_load_profile depth F u i peak dt).
Proof.
  intros Ha (v0 & Hv0 & E1 & E2 & E3 & Hr) Hf. destruct (proj2 Ha _ _ Hv0) as (p & l & Hv). unfold hgen_single, generate_single_load_profile, draw_pref.
  rewrite Hv. cbn [hu_preference hu_apps]. rewrite E3. eapply psim_bind; [apply psim_eq|]. intros pref ? <-.
  set (h1 := put_huser h k _).
  assert (Ha1 : alike h0 h1) by exact (alike_put_user h0 h k v0 pref l Ha Hv0).
  assert (Hk1 : nth_error (h_users h1) k = Some (HUser (hu_name v0) (hu_num v0) (hu_preference v0) pref l (hu_apps v0) (hu_case v0))) by exact (list_set_here _ _ _ _ Hv).
  eapply psim_then.
  - apply (hgen_apps_sim depth F h0 k pref i peak dt (hu_apps v0) (app_list u) h1); [exact Ha1|exact Hr|unfold pref_of; rewrite Hk1; reflexivity|].
    intros r x Hin Hx. exact (Hf v0 r x Hv0 Hin Hx).
  - intros x y (K1 & K2 & K3 & K4). cbn [psim fst snd]. split; [exact K1|]. split; [exact K2|]. split.
    + exists v0. cbn. auto.
    + split; [reflexivity|]. intros v Hv'. injection Hv' as <-. rewrite K4, Hk1. eexists. split; reflexivity.
Qed.

Lemma alike_load h0 h k f : alike h0 h -> alike h0 (hload h k f).
Proof.
  intros Ha. unfold hload. destruct (nth_error (h_users h) k) as [v|] eqn:E; [|exact Ha]. destruct Ha as [A U]. split; [exact A|].
  intros k' v' Hv'. destruct (U _ _ Hv') as (p & l & E'). cbn [h_users put_huser]. destruct (Nat.eq_dec k' k) as [->|N].
  - rewrite (list_set_here _ _ _ _ E). rewrite E in E'. injection E' as ->. eexists _, _. reflexivity.
  - rewrite list_set_other by exact N. eauto.
Qed.

Lemma hmembers_sim depth F h0 k i peak dt : own_or_free h0 k -> forall n h u, alike h0 h -> ref_to h0 k u ->
  (exists v, nth_error (h_users h) k = Some v /\ hu_load v = load u) ->
  psim (fun x y => alike h0 x /\ ref_to h0 k y /\ exists v, nth_error (h_users x) k = Some v /\ hu_load v = load y)
    (hmembers n depth F h k i peak dt) (generate_members n depth F u i peak dt).
Proof.
  intros Hf. induction n as [|n IH]; intros h u Ha Hr Hl; cbn [hmembers generate_members]; [cbn; auto|].
  eapply psim_bind; [apply (hgen_single_sim depth F h0 k h u i peak dt Ha Hr Hf)|]. intros x y (K1 & K2 & K3 & K4 & K5).
  destruct Hl as (v & Hv & El). destruct (K5 v Hv) as (v' & Hv' & El'). apply IH.
  - apply alike_load. exact K2.
  - exact K3.
  - unfold hload. rewrite Hv'. cbn [h_users put_huser]. rewrite (list_set_here _ _ _ _ Hv'). eexists. split; [reflexivity|]. cbn. rewrite El', El, K4, K1. reflexivity.
Qed.

Lemma haggregated_sim depth F h0 k h u i peak dt : alike h0 h -> ref_to h0 k u -> own_or_free h0 k ->
  psim (fun x y => snd x = load y /\ alike h0 (fst x) /\ ref_to h0 k y)
    (haggregated depth F h k i peak dt) (generate_aggregated_load_profile depth F u i peak dt).
Proof.
  intros Ha Hr Hf. pose proof Hr as (v0 & Hv0 & E1 & E2 & E3 & Hrs). destruct (proj2 Ha _ _ Hv0) as (p & l & Hv).
  unfold haggregated, generate_aggregated_load_profile. rewrite Hv. cbn [hu_num]. rewrite E2.
  apply psim_sym. eapply psim_then.
  - apply psim_sym. apply (hmembers_sim depth F h0 k i peak dt Hf).
    + apply alike_load. exact Ha.
    + exact Hr.
    + unfold hload. rewrite Hv. cbn [h_users put_huser]. rewrite (list_set_here _ _ _ _ Hv). eexists. split; reflexivity.
  - intros y x (K1 & K2 & v & Hv' & El). cbn. rewrite Hv'. auto.
Qed.

Lemma hday_of_users_sim depth F h0 i peak dt : forall ks us h acc, alike h0 h -> Forall2 (ref_to h0) ks us -> Forall (own_or_free h0) ks ->
  psim (fun x y => snd x = snd y /\ alike h0 (fst x) /\ Forall2 (ref_to h0) ks (fst y))
    (hday_of_users depth F h i peak dt ks acc) (day_of_users depth F i peak dt us acc).
Proof.
  induction ks as [|k ks IH]; intros us h acc Ha Hr Hf; inversion Hr as [|? u ? us' Hu Hr']; subst; cbn [hday_of_users day_of_users]; [cbn; auto|].
  inversion Hf as [|? ? Hk Hf']; subst.
  eapply psim_bind; [apply (haggregated_sim depth F h0 k h u i peak dt Ha Hu Hk)|]. intros x u' (K1 & K2 & K3). rewrite K1.
  eapply psim_then; [apply (IH us'); assumption|]. intros y z (L1 & L2 & L3). cbn. auto.
Qed.

Lemma hday_loop_sim depth F h0 peak ks : Forall (own_or_free h0) ks -> forall ds i us h rows, alike h0 h -> Forall2 (ref_to h0) ks us ->
  psim (fun x y => snd x = snd y /\ alike h0 (fst x) /\ Forall2 (ref_to h0) ks (fst y))
    (hday_loop depth F h peak i ds ks rows) (day_loop depth F peak i ds us rows).
Proof.
  intros Hf. induction ds as [|d ds IH]; intros i us h rows Ha Hr; cbn [hday_loop day_loop]; [cbn; auto|].
  eapply psim_bind; [apply (hday_of_users_sim depth F h0 i peak (get_day_type d) ks us h); assumption|]. intros x y (K1 & K2 & K3).
  destruct (zlen rows <=? i); [reflexivity|]. rewrite K1. apply IH; assumption.
Qed.

Lemma objects_refs h rs : (forall r, In r rs -> exists x, nth_error (h_apps h) r = Some x) -> refs_to h rs (objects_at h rs).
Proof.
  induction rs as [|r rs IH]; intros H; [constructor|]. unfold objects_at. cbn [flat_map]. destruct (H r (or_introl eq_refl)) as (x & Hx). rewrite Hx. cbn [app].
  constructor; [exists x; split; [exact Hx|apply same_declared_refl]|]. apply IH. intros r' Hr'. apply H. right. exact Hr'.
Qed.

Lemma view_ref h k : valid_user h k -> ref_to h k (view h k).
Proof.
  intros (v & Hv & Hr). exists v. unfold view. rewrite Hv. cbn. repeat split; try assumption. apply objects_refs. exact Hr.
Qed.

(** ** initialize: references and values *)

Definition check_err (n : Z) (a : appliance) : option exc := match check_power_values a n with Ok _ => None | Err e => Some e end.
Fixpoint first_err (n : Z) (l : list appliance) : option exc :=
  match l with [] => None | a :: l' => match check_err n a with Some e => Some e | None => first_err n l' end end.

Lemma check_err_grown n a : check_err n a = None -> check_power_values a n = Ok (grown n a).
Proof. unfold check_err. destruct (check_power_values a n) as [a'|e] eqn:E; [|discriminate]. intros _. rewrite <- E. apply check_grown. exact (check_has_power _ _ _ E). Qed.
Lemma first_err_has n l : first_err n l = None <-> Forall (has_power n) l.
Proof.
  induction l as [|a l IH]; cbn [first_err]; [split; [constructor|reflexivity]|]. rewrite Forall_cons_iff, <- IH. destruct (check_err n a) as [e|] eqn:E.
  - split; [discriminate|]. intros [C _]. unfold check_err in E. rewrite (check_grown n a C) in E. discriminate.
  - split; [|tauto]. intros H. split; [|exact H]. apply (check_has_power n a (grown n a)). apply check_err_grown. exact E.
Qed.

Lemma check_apps_err n pre post : forall rest u done, app_list u = done ++ rest ->
  snd (check_powers (pre ++ u :: post) (map (fun j => (List.length pre, j)) (seq (List.length done) (List.length rest))) n) = first_err n rest.
Proof.
  induction rest as [|a rest IH]; intros u done Hu; [reflexivity|]. cbn [List.length seq map check_powers first_err]. unfold get_app. cbn [fst snd].
  rewrite nth_error_middle, Hu, nth_error_middle. unfold check_err. destruct (check_power_values a n) as [a'|e]; [|reflexivity].
  unfold put_app. cbn [fst snd]. rewrite nth_error_middle, Hu, !list_set_middle.
  replace (S (List.length done)) with (List.length (done ++ [a'])) by (rewrite app_length; cbn; lia).
  rewrite (IH (set_apps u (done ++ a' :: rest)) (done ++ [a'])); [reflexivity|]. rewrite <- app_assoc. reflexivity.
Qed.

Lemma first_err_app n l l' : first_err n (l ++ l') = match first_err n l with Some e => Some e | None => first_err n l' end.
Proof. induction l as [|a l IH]; cbn; [reflexivity|]. destruct (check_err n a); [reflexivity|exact IH]. Qed.

Lemma check_users_err n : forall us pre, snd (check_powers (pre ++ us) (positions_from (List.length pre) us) n) = first_err n (flat_map app_list us).
Proof.
  induction us as [|u us IH]; intros pre; [reflexivity|]. cbn [positions_from flat_map]. rewrite check_powers_app, first_err_app.
  pose proof (check_apps_err n pre us (app_list u) u [] eq_refl) as E. cbn [List.length] in E.
  destruct (check_powers (pre ++ u :: us) (map (fun j => (List.length pre, j)) (seq 0 (List.length (app_list u)))) n) as [us2 e] eqn:E2. cbn [snd] in E. subst e.
  destruct (first_err n (app_list u)) as [e|] eqn:E3; [reflexivity|].
  destruct (check_apps n pre us u (app_list u) [] _ eq_refl E2) as [_ A2]. specialize (A2 (proj1 (first_err_has _ _) E3)). injection A2 as ->.
  replace (S (List.length pre)) with (List.length (pre ++ [set_apps u (map (grown n) (app_list u))])) by (rewrite app_length; cbn; lia).
  rewrite <- (IH (pre ++ [set_apps u (map (grown n) (app_list u))])). rewrite <- app_assoc. reflexivity.
Qed.

Lemma check_positions n us : check_powers us (positions_from 0 us) n = (fst (check_powers us (positions_from 0 us) n), first_err n (flat_map app_list us)).
Proof. rewrite <- (check_users_err n us []). cbn [app List.length]. apply surjective_pairing. Qed.

Lemma grown_par n a : par (grown n a) = par a.
Proof. unfold grown. destruct (_ <? _); [|reflexivity]. destruct (power a); reflexivity. Qed.
Lemma grown_enough n a : check_err n a = None -> check_err n (grown n a) = None /\ grown n (grown n a) = grown n a.
Proof.
  intros H.
  assert (L : n <= zlen (power (grown n a))).
  { unfold grown. unfold check_err, check_power_values in H. destruct (Z.ltb_spec (zlen (power a)) n) as [L|L]; [|exact L].
    destruct (power a) as [|p l]; [destruct (constant_power a); discriminate|].
    change (power (set_power a (repeat p (Z.to_nat (n + 1))))) with (repeat p (Z.to_nat (n + 1))). unfold zlen. rewrite repeat_length. lia. }
  set (b := grown n a) in *. clearbody b. unfold check_err, check_power_values, grown. destruct (Z.ltb_spec (zlen (power b)) n) as [C|_]; [lia|]. auto.
Qed.

(** what checking the appliances [rs] does to the objects *)
Definition checked (n : Z) (rs : list nat) (h h' : heap) : Prop :=
  h_users h' = h_users h /\
  forall r, nth_error (h_apps h') r =
    option_map (fun x => HApp (if existsb (Nat.eqb r) rs then grown n (obj x) else obj x) (owner x)) (nth_error (h_apps h) r).

Definition exist_at (h : heap) (rs : list nat) : Prop := forall r, In r rs -> exists x, nth_error (h_apps h) r = Some x.

Lemma put_happ_at h r x a r' : nth_error (h_apps h) r = Some x ->
  nth_error (h_apps (put_happ h r a)) r' = if Nat.eqb r' r then Some (HApp a (owner x)) else nth_error (h_apps h) r'.
Proof.
  intros H. unfold put_happ. rewrite H. cbn [h_apps]. destruct (Nat.eqb_spec r' r) as [->|N].
  - exact (list_set_here _ _ _ _ H).
  - apply list_set_other. exact N.
Qed.

Lemma first_err_objects n h h' rs : (forall r x, In r rs -> nth_error (h_apps h) r = Some x -> exists x', nth_error (h_apps h') r = Some x' /\ check_err n (obj x') = check_err n (obj x)) ->
  exist_at h rs -> first_err n (objects_at h' rs) = first_err n (objects_at h rs).
Proof.
  induction rs as [|r rs IH]; intros H He; [reflexivity|]. unfold objects_at in *. cbn [flat_map]. destruct (He r (or_introl eq_refl)) as (x & Hx).
  destruct (H r x (or_introl eq_refl) Hx) as (x' & Hx' & E). rewrite Hx, Hx'. cbn [app first_err]. rewrite E, IH; [reflexivity| |].
  - intros r' y Hr. apply H. right. exact Hr.
  - intros r' Hr. apply He. right. exact Hr.
Qed.

Lemma hcheck_spec n : forall rs h, exist_at h rs ->
  snd (hcheck_powers h rs n) = first_err n (objects_at h rs) /\
  (first_err n (objects_at h rs) = None -> checked n rs h (fst (hcheck_powers h rs n))).
Proof.
  induction rs as [|r rs IH]; intros h He.
  - cbn. split; [reflexivity|]. intros _. split; [reflexivity|]. intros r. cbn [existsb fst]. destruct (nth_error (h_apps h) r) as [[]|]; reflexivity.
  - cbn [hcheck_powers]. unfold objects_at. cbn [flat_map]. fold (objects_at h rs). destruct (He r (or_introl eq_refl)) as (x & Hx). rewrite Hx. cbn [app first_err].
    destruct (check_err n (obj x)) as [e|] eqn:E.
    + unfold check_err in E. destruct (check_power_values (obj x) n); [discriminate|]. injection E as ->. split; [reflexivity|discriminate].
    + rewrite (check_err_grown n _ E). destruct (grown_enough n _ E) as [G1 G2].
      set (h1 := put_happ h r (grown n (obj x))).
      assert (He1 : exist_at h1 rs).
      { intros r' Hr. unfold h1. rewrite (put_happ_at h r x _ r' Hx). destruct (Nat.eqb r' r); [eauto|]. apply He. right. exact Hr. }
      assert (Ef : first_err n (objects_at h1 rs) = first_err n (objects_at h rs)).
      { apply first_err_objects; [|intros r' Hr; apply He; right; exact Hr]. intros r' y _ Hy. unfold h1. rewrite (put_happ_at h r x _ r' Hx).
        destruct (Nat.eqb_spec r' r) as [->|N]; [|eauto]. replace y with x by congruence. eexists. split; [reflexivity|]. cbn [obj]. congruence. }
      destruct (IH h1 He1) as [I1 I2]. rewrite Ef in *. split; [exact I1|]. intros H0. destruct (I2 H0) as [J1 J2].
      split; [rewrite J1; apply put_happ_users|]. intros r'. rewrite J2. unfold h1. rewrite (put_happ_at h r x _ r' Hx). cbn [existsb].
      destruct (Nat.eqb_spec r' r) as [->|N]; cbn [orb option_map obj owner]; [|reflexivity].
      rewrite Hx. cbn [option_map]. destruct (existsb (Nat.eqb r) rs); [rewrite G2|]; reflexivity.
Qed.

Lemma objects_checked n rs h h' : checked n rs h h' -> forall rs', (forall r, In r rs' -> In r rs) -> objects_at h' rs' = map (grown n) (objects_at h rs').
Proof.
  intros [_ H]. induction rs' as [|r rs' IH]; intros Hi; [reflexivity|]. unfold objects_at in *. cbn [flat_map]. rewrite map_app, <- IH by (intros; apply Hi; right; assumption).
  f_equal. rewrite H. destruct (nth_error (h_apps h) r) as [x|]; [|reflexivity]. cbn [option_map obj map].
  replace (existsb (Nat.eqb r) rs) with true; [reflexivity|]. symmetry. apply existsb_exists. exists r. split; [apply Hi; left; reflexivity|apply Nat.eqb_refl].
Qed.

Lemma views_checked n h h' ks : checked n (hcollect h ks) h h' -> Forall (valid_user h) ks ->
  map (view h') ks = grow n (map (view h) ks).
Proof.
  intros Hc Hv. unfold grow. rewrite map_map. apply map_ext_in. intros k Hk. rewrite Forall_forall in Hv. destruct (Hv k Hk) as (v & Ev & _).
  unfold view. rewrite (proj1 Hc), Ev. cbn. unfold set_apps. cbn. f_equal. apply (objects_checked n _ _ _ Hc). intros r Hr.
  unfold hcollect. apply in_flat_map. exists k. split; [exact Hk|]. rewrite Ev. exact Hr.
Qed.

Lemma views_objects h ks : Forall (valid_user h) ks -> flat_map app_list (map (view h) ks) = objects_at h (hcollect h ks).
Proof.
  induction 1 as [|k ks (v & Ev & _) _ IH]; [reflexivity|]. unfold hcollect in *. cbn [map flat_map]. rewrite IH. unfold objects_at at 2. rewrite flat_map_app.
  unfold view. rewrite Ev. reflexivity.
Qed.

Lemma collect_exist h ks : Forall (valid_user h) ks -> exist_at h (hcollect h ks).
Proof.
  intros Hv r Hr. unfold hcollect in Hr. apply in_flat_map in Hr as (k & Hk & Hr). rewrite Forall_forall in Hv. destruct (Hv k Hk) as (v & Ev & Hx).
  rewrite Ev in Hr. exact (Hx r Hr).
Qed.

(** the use case with the values of its users *)
Definition hview (h : heap) (x : hcase) : usecase := reuser (map (view h) (hc_users x)) (hc x).

(** what initialize keeps *)
Record hkept (h h' : heap) (x x' : hcase) : Prop := HKept {
  k_hu : h_users h' = h_users h;
  k_ha : forall r, exists f, (forall a, par (f a) = par a) /\
           nth_error (h_apps h') r = option_map (fun y => HApp (f (obj y)) (owner y)) (nth_error (h_apps h) r);
  k_users : hc_users x' = hc_users x;
  k_apps : hc_apps x' = hc_apps x
}.
Lemma hkept_refl h x c : hkept h h x (hset_hc x c).
Proof. constructor; try reflexivity. intros r. exists (fun a => a). split; [reflexivity|]. destruct (nth_error (h_apps h) r) as [[]|]; reflexivity. Qed.
Lemma hkept_checked n rs h h' x c : checked n rs h h' -> hkept h h' x (hset_hc x c).
Proof.
  intros [H1 H2]. constructor; try reflexivity; [exact H1|]. intros r. exists (fun a => if existsb (Nat.eqb r) rs then grown n a else a). split.
  - intros a. destruct (existsb _ _); [apply grown_par|reflexivity].
  - apply H2.
Qed.
Lemma hkept_valid h h' x x' k : hkept h h' x x' -> valid_user h k -> valid_user h' k.
Proof.
  intros [H1 H2 _ _] (v & Hv & Hr). exists v. rewrite H1. split; [exact Hv|]. intros r Hin. destruct (Hr r Hin) as (y & Hy). destruct (H2 r) as (f & _ & E).
  rewrite E, Hy. cbn. eauto.
Qed.
Lemma hkept_own h h' x x' k : hkept h h' x x' -> own_or_free h k -> own_or_free h' k.
Proof.
  intros [H1 H2 _ _] Ho v r y Hv Hin Hy. rewrite H1 in Hv. destruct (H2 r) as (f & Hp & E). rewrite E in Hy.
  destruct (nth_error (h_apps h) r) as [y0|] eqn:Ey; [|discriminate]. injection Hy as <-. cbn [owner obj]. rewrite Hp. exact (Ho v r y0 Hv Hin Ey).
Qed.
Lemma hkept_collect h h' x x' : hkept h h' x x' -> hcollect h' (hc_users x') = hcollect h (hc_users x).
Proof. intros [H1 _ H3 _]. unfold hcollect. rewrite H1, H3. reflexivity. Qed.

Definition init_rel (h : heap) (x : hcase) (r : heap * hcase * option exc) (q : usecase * option exc) : Prop :=
  snd r = snd q /\ (snd r = None -> fst q = hview (fst (fst r)) (snd (fst r)) /\ hkept h (fst (fst r)) x (snd (fst r))).

Lemma hfinish_sim F h x pe : Forall (valid_user h) (hc_users x) -> hc_apps x = hcollect h (hc_users x) ->
  psim (init_rel h x) (hinit_finish F h x pe) (init_finish F (hview h x) pe).
Proof.
  intros Hv Hc. unfold hinit_finish, init_finish. cbv zeta. change (num_days_ (hview h x)) with (num_days_ (hc x)).
  set (n := match num_days_ (hc x) with Some n => n | None => 0 end).
  change (collected (hview h x)) with (positions_from 0 (users (hview h x))). rewrite check_positions.
  change (users (hview h x)) with (map (view h) (hc_users x)). rewrite (views_objects h _ Hv).
  rewrite Hc. destruct (hcheck_spec n (hcollect h (hc_users x)) h (collect_exist h _ Hv)) as [H1 H2].
  destruct (hcheck_powers h (hcollect h (hc_users x)) n) as [h' e] eqn:E. cbn [fst snd] in H1, H2. subst e.
  destruct (first_err n (objects_at h (hcollect h (hc_users x)))) as [e|] eqn:Ee; [cbn; split; [reflexivity|discriminate]|].
  specialize (H2 eq_refl).
  assert (P1 : all_apps (has_power n) (map (view h) (hc_users x))).
  { rewrite <- (views_objects h _ Hv) in Ee. apply first_err_has in Ee. unfold all_apps. clear -Ee. induction (map (view h) (hc_users x)) as [|u us IH]; constructor.
    - cbn [flat_map] in Ee. apply Forall_app in Ee. apply Ee.
    - apply IH. cbn [flat_map] in Ee. apply Forall_app in Ee. apply Ee. }
  rewrite (proj2 (check_all n _ _ eq_refl) P1). cbn [fst].
  rewrite <- (views_checked n h h' _ H2 Hv).
  assert (Es : set_users (hview h x) (map (view h') (hc_users x)) = hview h' x).
  { unfold hview, reuser. rewrite (views_checked n h h' _ H2 Hv), grow_positions. destruct (hc x); reflexivity. }
  rewrite Es. clear Es.
  eapply psim_bind with (R := fun r q => snd r = snd q /\ fst q = reuser (map (view h') (hc_users x)) (fst r)).
  - assert (G : forall c, psim (fun r q => snd r = snd q /\ fst q = reuser (map (view h') (hc_users x)) (fst r))
      (p <- calc_peak_time_range F (set_users c (map (view h') (hc_users x))) ;; Ret (match p with Ok p => (set_peak c (Some p), None) | Err e => (c, Some e) end))
      (p <- calc_peak_time_range F (reuser (map (view h') (hc_users x)) c) ;;
        Ret (match p with Ok p => (set_peak (reuser (map (view h') (hc_users x)) c) (Some p), None) | Err e => (reuser (map (view h') (hc_users x)) c, Some e) end))).
    { intros c. change (calc_peak_time_range F (reuser (map (view h') (hc_users x)) c)) with (calc_peak_time_range F (set_users c (map (view h') (hc_users x)))).
      eapply psim_bind; [apply psim_eq|]. intros p ? <-. destruct p; cbn; split; reflexivity. }
    destruct pe as [[q|]|]; [| |exact (G (hc x))].
    + unfold set_peak_enlarge. destruct (Qle_bool 0 q); [|cbn; split; reflexivity].
      specialize (G (set_enlarge (with_users h' x) q)).
      replace (set_enlarge (hview h' x) q) with (reuser (map (view h') (hc_users x)) (set_enlarge (with_users h' x) q)) by reflexivity.
      replace (set_users (set_enlarge (with_users h' x) q) (map (view h') (hc_users x))) with (set_enlarge (with_users h' x) q) in G by (destruct x as [[] ? ?]; reflexivity).
      exact G.
    + cbn. split; reflexivity.
  - intros [c1 e1] [c2 e2] [E1 E2]. cbn [fst snd] in *. subst e2 c2. destruct e1 as [e|]; [cbn; split; [reflexivity|discriminate]|].
    cbn. split; [reflexivity|]. intros _. split; [|exact (hkept_checked n _ h h' x _ H2)].
    rewrite init_index_reuser. reflexivity.
Qed.

Lemma hinitialize_stages F w h x nd enl force :
  hinitialize F w h x nd enl force =
  if is_initialized (hc x) && negb force then Ret (h, x, None)
  else match dates_stage w (hc x) nd force with
       | (c', Some e) => Ret (h, hset_hc x c', Some e)
       | (c', None) => hinit_finish F h (hset_hc x c') enl
       end.
Proof.
  unfold hinitialize, dates_stage. destruct (is_initialized (hc x) && negb force); [reflexivity|].
  destruct (init_prompt w _) as [c1 [e|]]; [reflexivity|]. destruct (init_days w c1) as [c2 [e|]]; reflexivity.
Qed.

Lemma hinitialize_sim F w h x num pe : Forall (valid_user h) (hc_users x) -> hc_apps x = hcollect h (hc_users x) ->
  psim (init_rel h x) (hinitialize F w h x num pe false) (initialize F w (hview h x) num pe false).
Proof.
  intros Hv Hc. rewrite hinitialize_stages, initialize_stages. change (is_initialized (hview h x)) with (is_initialized (hc x)).
  destruct (is_initialized (hc x) && negb false).
  - cbn. split; [reflexivity|]. intros _. split; [reflexivity|]. destruct x. apply hkept_refl.
  - destruct (dates_stage w (hc x) num false) as [c e] eqn:E. unfold hview. rewrite (dates_stage_reuser _ w (hc x) num c e E).
    destruct e as [e|]; [cbn; split; [reflexivity|discriminate]|].
    eapply psim_mono; [|exact (hfinish_sim F h (hset_hc x c) pe Hv Hc)]. intros r q [R1 R2]. split; [exact R1|]. intros Hn. destruct (R2 Hn) as [R3 R4].
    split; [exact R3|]. destruct R4. constructor; assumption.
Qed.

(** ** C73 *)

(** the rows, given the values of the users *)
Lemma choose_days_reuser us c arg : choose_days (reuser us c) arg = match choose_days c arg with Ok c' => Ok (reuser us c') | Err e => Err e end.
Proof. unfold choose_days. change (days (reuser us c)) with (days c). destruct (days c), arg; reflexivity. Qed.

Definition proper (h : heap) (x : hcase) : Prop :=
  Forall (valid_user h) (hc_users x) /\ Forall (own_or_free h) (hc_users x) /\ hc_apps x = hcollect h (hc_users x).

Lemma proper_kept h h' x x' : hkept h h' x x' -> proper h x -> proper h' x'.
Proof.
  intros K (H1 & H2 & H3). unfold proper. rewrite (k_users _ _ _ _ K), (k_apps _ _ _ _ K). repeat split.
  - eapply Forall_impl; [|exact H1]. intros k. exact (hkept_valid _ _ _ _ _ K).
  - eapply Forall_impl; [|exact H2]. intros k. exact (hkept_own _ _ _ _ _ K).
  - rewrite H3. rewrite <- (hkept_collect _ _ _ _ K), (k_users _ _ _ _ K). reflexivity.
Qed.

Lemma hgenerate_sim depth F w h x arg : proper h x ->
  psim (fun r q => snd r = snd q) (hgenerate depth F w h x arg) (generate_sequential depth F w (hview h x) arg).
Proof.
  intros Hp. unfold hgenerate, generate_sequential, hview. rewrite choose_days_reuser.
  destruct (choose_days (hc x) arg) as [c|e]; [|reflexivity]. cbn [lift bind].
  change (reuser (map (view h) (hc_users x)) c) with (hview h (hset_hc x c)).
  assert (Hp1 : proper h (hset_hc x c)) by exact Hp. clear Hp. set (y := hset_hc x c) in *. clearbody y. clear x c.
  eapply psim_bind with (R := fun r q => snd r = snd q /\ fst q = hview (fst (fst r)) (snd (fst r)) /\ proper (fst (fst r)) (snd (fst r))).
  - unfold hnum_days, UseCase.num_days. change (num_days_ (hview h y)) with (num_days_ (hc y)).
    destruct (num_days_ (hc y)) as [n|]; [cbn; repeat split; apply Hp1|].
    eapply psim_bind; [apply (hinitialize_sim F w h y None None); apply Hp1|]. intros [[h' y'] e] [c' e'] [R1 R2]. cbn [fst snd] in *. subst e'.
    destruct e as [e|]; [reflexivity|]. destruct (R2 eq_refl) as [-> K]. change (num_days_ (hview h' y')) with (num_days_ (hc y')).
    destruct (num_days_ (hc y')); [|reflexivity]. cbn. split; [reflexivity|]. split; [reflexivity|]. exact (proper_kept _ _ _ _ K Hp1).
  - intros [[h' y'] n] [c' n'] (R1 & R2 & Hp2). cbn [fst snd] in *. subst n' c'. clear Hp1. destruct (n <? 0); [reflexivity|].
    change (peak_time_range (hview h' y')) with (peak_time_range (hc y')). change (days (hview h' y')) with (days (hc y')).
    change (users (hview h' y')) with (map (view h') (hc_users y')).
    eapply psim_bind.
    + apply (hday_loop_sim depth F h' _ (hc_users y')); [apply Hp2|apply alike_refl|].
      destruct Hp2 as (Hv & _). induction Hv as [|k ks Hk _ IH]; cbn [map]; constructor; [apply view_ref; exact Hk|exact IH].
    + intros a b (K1 & _). cbn. exact K1.
Qed.

Lemma bind_view h uc ks k : view (bind_users h uc ks) k = view h k.
Proof.
  unfold view. destruct (nth_error (h_users h) k) as [v|] eqn:E.
  - rewrite (bind_users_at uc ks h k v E). unfold objects_at. rewrite bind_users_apps. destruct (existsb (Nat.eqb k) ks); reflexivity.
  - assert (L : List.length (h_users (bind_users h uc ks)) = List.length (h_users h)).
    { clear E. unfold bind_users. revert h. induction ks as [|j ks IH]; intros h; [reflexivity|]. cbn [fold_left]. rewrite IH. unfold bind_user.
      destruct (nth_error (h_users h) j); [|reflexivity]. cbn. apply list_set_length. }
    replace (nth_error (h_users (bind_users h uc ks)) k) with (@None huser); [reflexivity|]. symmetry. apply nth_error_None. rewrite L. apply nth_error_None. exact E.
Qed.
Lemma bind_valid h uc ks k : valid_user h k -> valid_user (bind_users h uc ks) k.
Proof.
  intros (v & Hv & Hr). pose proof (bind_users_at uc ks h k v Hv) as E. unfold valid_user. rewrite bind_users_apps, E.
  exists (if existsb (Nat.eqb k) ks then hset_case v uc else v). split; [reflexivity|]. destruct (existsb (Nat.eqb k) ks); exact Hr.
Qed.
Lemma bind_own h uc ks k : valid_user h k -> own_or_free h k -> own_or_free (bind_users h uc ks) k.
Proof.
  intros (v & Hv & _) Ho w r x Hw Hin Hx. rewrite bind_users_apps in Hx. rewrite (bind_users_at uc ks h k v Hv) in Hw. injection Hw as <-.
  apply (Ho v r x Hv); [|exact Hx]. destruct (existsb (Nat.eqb k) ks); exact Hin.
Qed.

(** The script UseCase(users, ...), initialize(...), generate_daily_load_profiles(): if every appliance restricted to a preference
    belongs to the user it was created for, the result is that of users with their own copies of the appliances: the same random
    numbers are drawn and give the same rows or the same exception, whichever appliances are shared and however often a user is listed. *)
Theorem C73_simulation_partial depth F w uc h it start stop enl seed num pe :
  ~ In None (leaves it) ->
  (forall k, In (Some k) (leaves it) -> valid_user h k /\ own_or_free h k) ->
  exists ks, map Some ks = leaves it /\
  psim (fun r q => snd r = snd q) (hsimulate depth F w uc h it start stop enl seed num pe)
    (simulate depth F w (map (view h) ks) start stop enl seed num pe).
Proof.
  intros Hn Hok. destruct (C72_all_added uc h [] it Hn) as (h1 & ks & Ha & Hl). exists ks. split; [exact Hl|].
  assert (Hks : Forall (fun k => valid_user h k /\ own_or_free h k) ks).
  { apply Forall_forall. intros k Hk. apply Hok. rewrite <- Hl. apply in_map. exact Hk. }
  unfold hsimulate, simulate.
  assert (Hh1 : h1 = bind_users h uc ks).
  { rewrite hadd_spec in Ha. injection Ha as <- E _. cbn [app] in E. rewrite E. reflexivity. }
  eapply psim_bind with (R := fun hx c => c = hview (fst hx) (snd hx) /\ proper (fst hx) (snd hx)).
  - unfold hnew_usecase, new_usecase. cbn [app] in Ha. rewrite Ha. cbv zeta.
    set (x := HCase (UC start stop false enl None None None None seed [] []) ks (hcollect h1 ks)).
    assert (Ev : blank start stop false enl seed (map (view h) ks) = hview h1 x).
    { unfold blank, hview, reuser, collect_appliances. cbn. subst h1.
      rewrite (map_ext (view (bind_users h uc ks)) (view h)) by (intros k; apply bind_view). reflexivity. }
    assert (Hp : proper h1 x).
    { unfold proper, x. cbn [hc_users hc_apps]. subst h1. repeat split.
      - eapply Forall_impl; [|exact Hks]. intros k [Hv _]. apply bind_valid. exact Hv.
      - eapply Forall_impl; [|exact Hks]. intros k [Hv Ho]. apply bind_own; assumption. }
    rewrite Ev. clearbody x. clear Ev Ha Hh1.
    eapply psim_bind with (R := fun hx c => c = hview (fst hx) (snd hx) /\ proper (fst hx) (snd hx)).
    + assert (B : psim (fun hx c => c = hview (fst hx) (snd hx) /\ proper (fst hx) (snd hx)) (Ret (h1, x)) (Ret (hview h1 x))) by (cbn; auto).
      destruct start as [s|]; [destruct stop as [e|]|]; [|exact B|exact B].
      eapply psim_bind; [apply (hinitialize_sim F w h1 x None None); apply Hp|]. intros [[h' x'] e'] [c' e''] [R1 R2]. cbn [fst snd] in *. subst e''.
      destruct e' as [e'|]; [reflexivity|]. destruct (R2 eq_refl) as [-> K]. cbn. split; [reflexivity|]. exact (proper_kept _ _ _ _ K Hp).
    + intros hx c H. destruct (seed_of seed); cbn; auto.
  - intros [h2 x2] c [-> Hp]. cbn [fst snd] in *.
    eapply psim_bind; [apply (hinitialize_sim F w h2 x2 num pe); apply Hp|]. intros [[h' x'] e'] [c' e''] [R1 R2]. cbn [fst snd] in *. subst e''.
    destruct e' as [e'|]; [reflexivity|]. destruct (R2 eq_refl) as [-> K]. apply hgenerate_sim. exact (proper_kept _ _ _ _ K Hp).
Qed.

(** as sets of possible results *)
Theorem C73_possible_partial depth F w uc h it start stop enl seed num pe :
  ~ In None (leaves it) ->
  (forall k, In (Some k) (leaves it) -> valid_user h k /\ own_or_free h k) ->
  exists ks, map Some ks = leaves it /\
  (forall rows, (exists hx, may (hsimulate depth F w uc h it start stop enl seed num pe) (Ok (hx, rows))) <->
     (exists c, may (simulate depth F w (map (view h) ks) start stop enl seed num pe) (Ok (c, rows)))) /\
  (forall e, may (hsimulate depth F w uc h it start stop enl seed num pe) (Err e) <->
     may (simulate depth F w (map (view h) ks) start stop enl seed num pe) (Err e)).
Proof.
  intros Hn Hok. destruct (C73_simulation_partial depth F w uc h it start stop enl seed num pe Hn Hok) as (ks & Hl & Hs). exists ks. split; [exact Hl|]. split.
  - intros rows. split; intros [x H].
    + destruct (psim_may _ _ _ _ Hs H) as ([c rows'] & Hc & E). cbn in E. subst. eauto.
    + destruct (psim_may _ _ _ _ (psim_sym _ _ _ Hs) H) as ([c rows'] & Hc & E). cbn in E. subst. eauto.
  - intros e. split; intros H.
    + exact (psim_may _ _ _ _ Hs H).
    + exact (psim_may _ _ _ _ (psim_sym _ _ _ Hs) H).
Qed.

(** and for every generator of random numbers, from every state *)
Theorem C73_seeded_partial depth F w uc h it start stop enl seed num pe :
  ~ In None (leaves it) ->
  (forall k, In (Some k) (leaves it) -> valid_user h k /\ own_or_free h k) ->
  exists ks, map Some ks = leaves it /\
  forall G s,
    snd (run G (hsimulate depth F w uc h it start stop enl seed num pe) s) = snd (run G (simulate depth F w (map (view h) ks) start stop enl seed num pe) s) /\
    match fst (run G (hsimulate depth F w uc h it start stop enl seed num pe) s), fst (run G (simulate depth F w (map (view h) ks) start stop enl seed num pe) s) with
    | Ok (_, rows), Ok (_, rows') => rows = rows'
    | Err e, Err e' => e = e'
    | _, _ => False
    end.
Proof.
  intros Hn Hok. destruct (C73_simulation_partial depth F w uc h it start stop enl seed num pe Hn Hok) as (ks & Hl & Hs). exists ks. split; [exact Hl|].
  intros G s. destruct (psim_run _ _ _ G s Hs) as [H1 H2]. split; [exact H1|].
  destruct (fst (run G (hsimulate depth F w uc h it start stop enl seed num pe) s)) as [[hx rows]|e];
  destruct (fst (run G (simulate depth F w (map (view h) ks) start stop enl seed num pe) s)) as [[c rows']|e']; exact H2.
Qed.

(** *** Parallel mode *)

Lemma Forall2_repeat {A B} (R : A -> B -> Prop) a b n : R a b -> Forall2 R (repeat a n) (repeat b n).
Proof. intros H. induction n; cbn; constructor; assumption. Qed.

Lemma tasks_alike h ks i dt : Forall (valid_user h) ks -> Forall (own_or_free h) ks ->
  Forall2 (fun t t' => t_day t = t_day t' /\ t_type t = t_type t' /\ t_app t = t_app t' /\ (t_pref t = t_pref t' \/ pref_index (par (t_app t)) = 0))
    (htasks_of_day h ks i dt) (tasks_of_day (map (view h) ks) i dt).
Proof.
  intros Hv Ho. induction ks as [|k ks IH]; [constructor|]. inversion Hv as [|? ? (v & Ev & Hr) Hv']; subst. inversion Ho as [|? ? Hk Ho']; subst.
  unfold htasks_of_day, tasks_of_day in *. cbn [map flat_map]. apply Forall2_app; [|exact (IH Hv' Ho')]. clear IH Hv' Ho' Hv Ho.
  assert (Ea : app_list (view h k) = objects_at h (hu_apps v)) by (unfold view; rewrite Ev; reflexivity).
  assert (Ep : rand_daily_pref (view h k) = pref_of h k) by (unfold view, pref_of; rewrite Ev; reflexivity).
  assert (En : num_users (view h k) = hu_num v) by (unfold view; rewrite Ev; reflexivity).
  rewrite Ea, Ep, En, Ev.
  assert (Hi : forall r, In r (hu_apps v) -> In r (hu_apps v)) by auto. revert Hi. generalize (hu_apps v) at 1 3 4 as rs.
  induction rs as [|r rs IH]; intros Hi; [constructor|]. unfold objects_at in *. cbn [flat_map]. destruct (Hr r (Hi r (or_introl eq_refl))) as (x & Hx). rewrite Hx.
  cbn [app flat_map]. apply Forall2_app; [|apply IH; intros; apply Hi; right; assumption].
  pose proof (Hk v r x Ev (Hi r (or_introl eq_refl)) Hx) as Hc.
  apply Forall2_repeat. cbn. repeat split. destruct Hc as [->|Hc]; [left; reflexivity|right; exact Hc].
Qed.

Lemma work_alike depth F peak t t' : t_day t = t_day t' -> t_type t = t_type t' -> t_app t = t_app t' -> (t_pref t = t_pref t' \/ pref_index (par (t_app t)) = 0) ->
  psim eq (work depth F peak t) (work depth F peak t').
Proof.
  destruct t as [d ty a p], t' as [d' ty' a' p']. cbn [t_day t_type t_app t_pref]. intros <- <- <- Hp. unfold work. cbn [t_day t_type t_app t_pref]. eapply psim_bind; [apply psim_eq|]. intros pw ? <-.
  eapply psim_bind with (R := eq); [|intros b ? <-; apply psim_eq]. destruct Hp as [<-|Hp]; [apply psim_eq|apply glp_pref; exact Hp].
Qed.

Lemma psim_eq_may {A} (p q : prog A) r : psim eq p q -> may p r -> may q r.
Proof. intros H Hp. pose proof (psim_may _ _ _ _ H Hp) as K. destruct r; [destruct K as (b & Kb & <-)|]; assumption. Qed.

Theorem C73_parallel_partial depth F h x n r : proper h x ->
  (hparallel_may depth F h x n r <-> parallel_may depth F (hview h x) n r).
Proof.
  intros (Hv & Ho & _).
  set (R := fun t t' => t_day t = t_day t' /\ t_type t = t_type t' /\ t_app t = t_app t' /\ (t_pref t = t_pref t' \/ pref_index (par (t_app t)) = 0)).
  assert (HR : forall ds i, Forall2 R (htasks_from h (hc_users x) i ds) (tasks_from (map (view h) (hc_users x)) i ds)).
  { induction ds as [|d ds IH]; intros i; [constructor|]. cbn. apply Forall2_app; [apply tasks_alike; assumption|apply IH]. }
  specialize (HR (match days (hc x) with Some ds => ds | None => [] end) 0).
  assert (Hw : forall t t', R t t' -> forall peak y, may (work depth F peak t) y <-> may (work depth F peak t') y).
  { intros t t' (H1 & H2 & H3 & H4) peak y. pose proof (work_alike depth F peak t t' H1 H2 H3 H4) as S. split; apply psim_eq_may; [exact S|].
    eapply psim_mono; [|apply psim_sym; exact S]. intros ? ? ->. reflexivity. }
  change (tasks_from (map (view h) (hc_users x)) 0 (match days (hc x) with Some ds => ds | None => [] end)) with (all_tasks (hview h x)) in HR.
  split; intros H; destruct H as [answers arrivals H1 H2|t e H1 H2].
  - apply (parallel_done depth F (hview h x) n answers arrivals); [|exact H2].
    change (peak_time_range (hview h x)) with (peak_time_range (hc x)).
    revert H1. revert answers H2. generalize (match peak_time_range (hc x) with Some p => p | None => [] end) as pk. intros pk answers _. revert answers.
    induction HR as [|t t' l l' Ht _ IH]; intros answers H1; inversion H1; subst; constructor; [apply (Hw t t' Ht); assumption|apply IH; assumption].
  - clear Ho Hv. assert (G : exists t', In t' (all_tasks (hview h x)) /\ R t t').
    { clear -H1 HR. induction HR as [|a b l l' Hab _ IH]; [destruct H1|]. destruct H1 as [->|H1]; [exists b; split; [left; reflexivity|exact Hab]|].
      destruct (IH H1) as (t' & I1 & I2). exists t'. split; [right; exact I1|exact I2]. }
    destruct G as (t' & G1 & G2). apply (parallel_fails depth F (hview h x) n t' e G1). apply (Hw t t' G2). exact H2.
  - apply (hparallel_done depth F h x n answers arrivals); [|exact H2].
    change (peak_time_range (hview h x)) with (peak_time_range (hc x)) in H1.
    revert H1. revert answers H2. generalize (match peak_time_range (hc x) with Some p => p | None => [] end) as pk. intros pk answers _. revert answers.
    induction HR as [|t t' l l' Ht _ IH]; intros answers H1; inversion H1; subst; constructor; [apply (Hw t t' Ht); assumption|apply IH; assumption].
  - assert (G : exists t', In t' (htasks_from h (hc_users x) 0 (match days (hc x) with Some ds => ds | None => [] end)) /\ R t' t).
    { clear -H1 HR. induction HR as [|a b l l' Hab _ IH]; [destruct H1|]. destruct H1 as [->|H1]; [exists a; split; [left; reflexivity|exact Hab]|].
      destruct (IH H1) as (t' & I1 & I2). exists t'. split; [right; exact I1|exact I2]. }
    destruct G as (t' & G1 & G2). apply (hparallel_fails depth F h x n t' e G1). apply (Hw t' t G2). exact H2.
Qed.

(** *** Saving *)

(** every appliance of the user was created for it *)
Definition own_only (h : heap) (k : nat) : Prop :=
  forall v r x, nth_error (h_users h) k = Some v -> In r (hu_apps v) -> nth_error (h_apps h) r = Some x -> owner x = k.

Theorem C73_saved_partial F h ks : Forall (valid_user h) ks -> Forall (own_only h) ks -> hsave F h ks = save F (map (view h) ks).
Proof.
  intros Hv Ho. unfold hsave, save. destruct ks as [|k0 ks0]; [reflexivity|]. cbn [map]. change (view h k0 :: map (view h) ks0) with (map (view h) (k0 :: ks0)).
  replace (map_res (hsave_user F h) (k0 :: ks0)) with (map_res (save_user F) (map (view h) (k0 :: ks0))); [reflexivity|].
  revert Hv Ho. generalize (k0 :: ks0) as ks. clear. intros ks Hv Ho. induction Hv as [|k ks (v & Ev & Hr) _ IH]; [reflexivity|].
  inversion Ho as [|? ? Hk Ho']; subst. cbn [map map_res]. rewrite (IH Ho'). f_equal. clear IH Ho Ho'.
  unfold hsave_user, save_user. rewrite Ev. assert (Ea : app_list (view h k) = objects_at h (hu_apps v)) by (unfold view; rewrite Ev; reflexivity). rewrite Ea.
  assert (G : forall rs, (forall r, In r rs -> In r (hu_apps v)) ->
    map_res (save_appliance F (view h k)) (objects_at h rs) =
    map_res (fun r => match nth_error (h_apps h) r with None => Err AttributeError | Some x => save_appliance F (view h (owner x)) (obj x) end) rs).
  { induction rs as [|r rs IH]; intros Hi; [reflexivity|]. unfold objects_at. cbn [flat_map]. fold (objects_at h rs).
    destruct (Hr r (Hi r (or_introl eq_refl))) as (x & Hx). cbn [map_res]. rewrite Hx. cbn [app map_res].
    rewrite (Hk v r x Ev (Hi r (or_introl eq_refl)) Hx). rewrite IH by (intros; apply Hi; right; assumption). reflexivity. }
  destruct (hu_apps v) as [|r rs] eqn:E; [reflexivity|]. rewrite <- (G (r :: rs)) by auto.
  destruct (Hr r (or_introl eq_refl)) as (x & Hx). unfold objects_at. cbn [flat_map]. rewrite Hx. reflexivity.
Qed.
