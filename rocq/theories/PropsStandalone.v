(** * PropsStandalone: profiles of a user without a use case (C71) *)
From Verif Require Import Base Wp Tape ListLemmas Utils Appliance User Spec SpecDay SpecUser ProofsUser ProofsUser2 PropsUser PropsDay
  UseCase SpecUseCase ProofsUseCase PropsUseCase PropsPost ProofsEq PropsInit PropsPeak ProofsParallel PropsEnvelope PropsRuns PropsTotal PropsPopulation Standalone ProofsRun PropsCoincidence.
From Coq Require Import ZifyBool ZifyNat Permutation Lqa.
Open Scope list_scope.
Open Scope Z_scope.

(** the default use case of a user alone: UseCase(users=[user]) *)
Definition default_usecase (F : fm) (u : user) : usecase := blank None None false (flit F (15 # 100)) None [u].

(** [p] is a peak time range that use case may draw *)
Definition peak_drawn (F : fm) (u : user) (p : list Z) : Prop := may (calc_peak_time_range F (default_usecase F u)) (Ok (Ok p)).

(** ** Proofs *)

(** the peak time range the call will use is known *)
Definition peak_known (b : binding) (arg : option (list Z)) (p : list Z) : Prop := arg = Some p \/ (arg = None /\ b = Bound (Some p)).

Lemma find_known F b u arg p : peak_known b arg p -> find_peak F b u arg = Ret (b, Ok (Some p)).
Proof. intros [->|[-> ->]]; reflexivity. Qed.

Lemma members_known n depth F b i arg dt p : peak_known b arg p -> forall u r,
  may (members_bound n depth F b u i arg dt) r <-> may (u' <- generate_members n depth F u i p dt ;; Ret (b, Ok u')) r.
Proof.
  intros Hk. induction n as [|n IH]; intros u r; cbn [members_bound generate_members]; [reflexivity|].
  unfold generate_single_bound. rewrite (find_known F b u arg p Hk). cbn [bind fst snd].
  split; intros H.
  - apply may_bind in H as [(x & Hx & H)|(e & Hx & ->)].
    + apply may_bind in Hx as [(y & Hy & Hx)|(e & _ & C)]; [|discriminate]. apply may_ret_inv in Hx. injection Hx as ->. cbn [fst snd] in H.
      apply IH in H. apply may_bind in H as [(u' & Hu & H)|(e & Hu & ->)].
      * apply may_bind. left. exists u'. split; [|exact H]. apply may_bind. left. exists y. split; assumption.
      * apply may_bind. right. exists e. split; [|reflexivity]. apply may_bind. left. exists y. split; assumption.
    + apply may_bind in Hx as [(y & _ & Hx)|(e' & Hx & C)]; [apply may_ret_inv in Hx; discriminate|]. injection C as <-.
      apply may_bind. right. exists e. split; [|reflexivity]. apply may_bind. right. exists e. split; [exact Hx|reflexivity].
  - assert (K : forall y, may (generate_single_load_profile depth F u i p dt) (Ok y) ->
       may (u' <- generate_members n depth F (set_load (fst y) (vadd F (load (fst y)) (snd y))) i p dt ;; Ret (b, Ok u')) r ->
       may (x <- (x <- generate_single_load_profile depth F u i p dt;; Ret (b, Ok x));;
            match snd x with Ok x0 => members_bound n depth F (fst x) (set_load (fst x0) (vadd F (load (fst x0)) (snd x0))) i arg dt | Err e => Ret (fst x, Err e) end) r).
    { intros y Hy Hr. apply may_bind. left. exists (b, Ok y). split; [apply may_bind; left; exists y; split; [exact Hy|constructor]|].
      cbn [fst snd]. apply IH. exact Hr. }
    apply may_bind in H as [(u' & Hu & H)|(e & Hu & ->)].
    + apply may_bind in Hu as [(y & Hy & Hu)|(e & _ & C)]; [|discriminate]. apply (K y Hy). apply may_bind. left. eauto.
    + apply may_bind in Hu as [(y & Hy & Hu)|(e' & Hu & C)].
      * apply (K y Hy). apply may_bind. right. eauto.
      * injection C as <-. apply may_bind. right. exists e. split; [|reflexivity]. apply may_bind. right. eauto.
Qed.

(** ** C71 *)

(** With a peak time range, or in a use case that has one: one draw of the aggregated profile for that range; the binding stays *)
Theorem C71_known_peak depth F b u i arg dt p b' u' : peak_known b arg p ->
  may (generate_aggregated_bound depth F b u i arg dt) (Ok (b', Ok u')) <->
  b' = b /\ may (generate_aggregated_load_profile depth F u i p dt) (Ok u').
Proof.
  intros Hk. unfold generate_aggregated_bound, generate_aggregated_load_profile. rewrite (members_known _ _ _ _ _ _ _ _ Hk). split.
  - intros H. apply may_bind in H as [(x & Hx & H)|(e & _ & C)]; [|discriminate]. apply may_ret_inv in H. injection H as -> ->. auto.
  - intros [-> H]. apply may_bind. left. exists u'. split; [exact H|constructor].
Qed.

Lemma calc_peak_load F u l : calc_peak_time_range F (default_usecase F (set_load u l)) = calc_peak_time_range F (default_usecase F u).
Proof. reflexivity. Qed.

(** Without a use case: a peak time range of the default use case is drawn once and used for all members *)
Theorem C71_first_call depth F u i dt b' u' : 1 <= num_users u ->
  may (generate_aggregated_bound depth F Unbound u i None dt) (Ok (b', Ok u')) <->
  exists p, peak_drawn F u p /\ b' = Bound (Some p) /\ may (generate_aggregated_load_profile depth F u i p dt) (Ok u').
Proof.
  intros Hn. unfold generate_aggregated_bound, generate_aggregated_load_profile, peak_drawn.
  destruct (Z.to_nat (num_users u)) as [|n] eqn:En; [lia|]. clear En Hn. cbn [members_bound generate_members]. unfold generate_single_bound, find_peak.
  fold (default_usecase F (set_load u (zeros day_minutes))). rewrite calc_peak_load. set (v := set_load u (zeros day_minutes)).
  split.
  - intros H. apply may_bind in H as [(x & Hx & H)|(e & _ & C)]; [|discriminate].
    apply may_bind in Hx as [(y & Hy & Hx)|(e & _ & C)]; [|discriminate].
    apply may_bind in Hy as [(z & Hz & Hy)|(e & _ & C)]; [|discriminate]. apply may_ret_inv in Hy. injection Hy as ->.
    destruct z as [p|e]; cbn [fst snd] in Hx.
    + apply may_bind in Hx as [(y & Hy & Hx)|(e & _ & C)]; [|discriminate]. apply may_ret_inv in Hx. injection Hx as ->. cbn [fst snd] in H.
      apply (members_known n depth F (Bound (Some p)) i None dt p (or_intror (conj eq_refl eq_refl))) in H.
      apply may_bind in H as [(w & Hw & H)|(e & _ & C)]; [|discriminate]. apply may_ret_inv in H. injection H as -> ->.
      exists p. split; [exact Hz|]. split; [reflexivity|]. apply may_bind. left. eauto.
    + apply may_ret_inv in Hx. injection Hx as ->. cbn [snd fst] in H. apply may_ret_inv in H. discriminate.
  - intros (p & Hp & -> & H). apply may_bind in H as [(y & Hy & H)|(e & _ & C)]; [|discriminate].
    apply may_bind. left. exists (Bound (Some p), Ok y). split.
    + apply may_bind. left. exists (Bound (Some p), Ok (Some p)). split; [apply may_bind; left; exists (Ok p); split; [exact Hp|constructor]|].
      cbn [fst snd]. apply may_bind. left. exists y. split; [exact Hy|constructor].
    + cbn [fst snd]. apply (members_known n depth F (Bound (Some p)) i None dt p (or_intror (conj eq_refl eq_refl))).
      apply may_bind. left. exists u'. split; [exact H|constructor].
Qed.

Lemma user_day_same depth F i peak dt u v l : same_user u v -> user_day depth F i peak dt u l -> user_day depth F i peak dt v l.
Proof.
  intros Hs (u' & Hu & <-). apply aggregated_may in Hu as (_ & ms & Hl & Hm & ->).
  destruct (aggregated_conv depth F v i peak dt ms) as (v' & Hv & E).
  - destruct Hs as (_ & E & _). rewrite E. exact Hl.
  - eapply Forall_impl; [|exact Hm]. intros m. apply member_day_same. exact Hs.
  - exists v'. split; [exact Hv|exact E].
Qed.

Lemma days_known depth F p : forall l u b' u' loads,
  may (aggregated_days depth F (Bound (Some p)) u l) (Ok (b', Ok (u', loads))) ->
  b' = Bound (Some p) /\ same_user u u' /\ Forall2 (fun d load => user_day depth F (fst d) p (snd d) u load) l loads.
Proof.
  induction l as [|[i dt] l IH]; intros u b' u' loads H; cbn [aggregated_days] in H.
  - apply may_ret_inv in H. injection H as -> -> ->. split; [reflexivity|]. split; [apply same_user_refl|constructor].
  - apply may_bind in H as [([b1 [u1|e]] & H1 & H)|(e & _ & C)]; [| |discriminate]; cbn [fst snd] in H; [|apply may_ret_inv in H; discriminate].
    apply (C71_known_peak depth F (Bound (Some p)) u i None dt p) in H1 as [-> H1]; [|right; auto].
    apply may_bind in H as [([b2 [[u2 ls]|e]] & H2 & H)|(e & _ & C)]; [| |discriminate]; cbn [fst snd] in H; apply may_ret_inv in H; [|discriminate].
    injection H as -> -> ->. destruct (IH _ _ _ _ H2) as (-> & Hs & Hl). pose proof (proj1 (aggregated_may _ _ _ _ _ _ _ H1)) as Hs1.
    split; [reflexivity|]. split; [exact (same_user_trans _ _ _ Hs1 Hs)|]. constructor; [exists u1; split; [exact H1|reflexivity]|].
    clear -Hl Hs1. induction Hl as [|d x l ls H _ IH]; constructor; [|exact IH]. exact (user_day_same _ _ _ _ _ _ _ _ (same_user_sym _ _ Hs1) H).
Qed.

Lemma days_known_conv depth F p : forall l u loads,
  Forall2 (fun d load => user_day depth F (fst d) p (snd d) u load) l loads ->
  exists u', may (aggregated_days depth F (Bound (Some p)) u l) (Ok (Bound (Some p), Ok (u', loads))).
Proof.
  induction l as [|[i dt] l IH]; intros u loads H; inversion H as [|? x ? ls Hx Hl]; subst; cbn [aggregated_days]; [exists u; constructor|].
  destruct Hx as (u1 & H1 & <-). cbn [fst snd] in H1. pose proof (proj1 (aggregated_may _ _ _ _ _ _ _ H1)) as Hs1.
  destruct (IH u1 ls) as (u' & Hu').
  { clear -Hl Hs1. induction Hl as [|d x l ls H _ IH]; constructor; [|exact IH]. exact (user_day_same _ _ _ _ _ _ _ _ Hs1 H). }
  exists u'. apply may_bind. left. exists (Bound (Some p), Ok u1). split.
  - apply (C71_known_peak depth F (Bound (Some p)) u i None dt p); [right; auto|]. split; [reflexivity|exact H1].
  - cbn [fst snd]. apply may_bind. left. exists (Bound (Some p), Ok (u', ls)). split; [exact Hu'|]. cbn [fst snd]. constructor.
Qed.

(** A series of calls: one peak time range of the default use case is drawn, and every call gives a load the user can have
    with it; every such series of loads is possible. *)
Theorem C71_series depth F u l b' loads : 1 <= num_users u -> l <> [] ->
  (exists u', may (aggregated_days depth F Unbound u l) (Ok (b', Ok (u', loads)))) <->
  exists p, peak_drawn F u p /\ b' = Bound (Some p) /\ Forall2 (fun d load => user_day depth F (fst d) p (snd d) u load) l loads.
Proof.
  intros Hn Hl. destruct l as [|[i dt] l]; [contradiction|]. cbn [aggregated_days]. split.
  - intros (u' & H).
    apply may_bind in H as [([b1 [u1|e]] & H1 & H)|(e & _ & C)]; [| |discriminate]; cbn [fst snd] in H; [|apply may_ret_inv in H; discriminate].
    apply (C71_first_call depth F u i dt b1 u1 Hn) in H1 as (p & Hp & -> & H1).
    apply may_bind in H as [([b2 [[u2 ls]|e]] & H2 & H)|(e & _ & C)]; [| |discriminate]; cbn [fst snd] in H; apply may_ret_inv in H; [|discriminate].
    injection H as -> -> ->. destruct (days_known _ _ _ _ _ _ _ _ H2) as (-> & Hs & Hl'). pose proof (proj1 (aggregated_may _ _ _ _ _ _ _ H1)) as Hs1.
    exists p. split; [exact Hp|]. split; [reflexivity|]. constructor; [exists u1; split; [exact H1|reflexivity]|].
    clear -Hl' Hs1. induction Hl' as [|d x l ls H _ IH]; constructor; [|exact IH]. exact (user_day_same _ _ _ _ _ _ _ _ (same_user_sym _ _ Hs1) H).
  - intros (p & Hp & -> & H). inversion H as [|? x ? ls Hx Hls]; subst. destruct Hx as (u1 & H1 & <-). cbn [fst snd] in H1.
    pose proof (proj1 (aggregated_may _ _ _ _ _ _ _ H1)) as Hs1.
    destruct (days_known_conv depth F p l u1 ls) as (u' & Hu').
    { clear -Hls Hs1. induction Hls as [|d x l ls H _ IH]; constructor; [|exact IH]. exact (user_day_same _ _ _ _ _ _ _ _ Hs1 H). }
    exists u'. apply may_bind. left. exists (Bound (Some p), Ok u1). split; [apply C71_first_call; [exact Hn|eauto]|].
    cbn [fst snd]. apply may_bind. left. exists (Bound (Some p), Ok (u', ls)). split; [exact Hu'|]. cbn [fst snd]. constructor.
Qed.

(** *** The same as a use case with this user alone *)

Lemma grow_alone n u : Forall (fun a => n <= zlen (power a)) (app_list u) -> grow n [u] = [u].
Proof.
  intros H. unfold grow. cbn [map]. f_equal. transitivity (set_apps u (app_list u)); [|destruct u; reflexivity]. f_equal.
  induction H as [|a l Ha _ IH]; [reflexivity|]. cbn [map]. rewrite IH. f_equal. unfold grown. destruct (Z.ltb_spec (zlen (power a)) n); [lia|reflexivity].
Qed.

Definition alone (F : fm) (u : user) (s n : Z) (p : list Z) : usecase :=
  init_index (set_peak (set_days (set_num_days (blank (Some s) None false (flit F (15 # 100)) None [u]) (Some n)) (Some (day_list s n))) (Some p)).

Lemma initialize_alone F w u s n c : 1 <= n -> Forall (fun a => n <= zlen (power a)) (app_list u) ->
  may (initialize F w (blank (Some s) None false (flit F (15 # 100)) None [u]) (Some n) None false) (Ok (c, None)) <->
  exists p, peak_drawn F u p /\ c = alone F u s n p.
Proof.
  intros Hn Hp. rewrite initialize_stages. change (is_initialized _ && negb false) with false. cbv iota.
  assert (E : dates_stage w (blank (Some s) None false (flit F (15 # 100)) None [u]) (Some n) false =
     (set_days (set_num_days (blank (Some s) None false (flit F (15 # 100)) None [u]) (Some n)) (Some (day_list s n)), None)).
  { unfold dates_stage, init_days. cbn. unfold date_range_sp. destruct (Z.ltb_spec n 0); [lia|]. fold (day_list s n). rewrite day_list_cons by lia. reflexivity. }
  rewrite E. clear E. set (c0 := set_days _ _). unfold init_finish. cbv zeta.
  change (num_days_ c0) with (Some n). change (users c0) with [u]. change (collected c0) with (positions_from 0 [u]). cbv iota.
  assert (Hp' : all_apps (has_power n) [u]) by (constructor; [|constructor]; eapply Forall_impl; [|exact Hp]; intros a Ha; left; exact Ha).
  rewrite (proj2 (check_all n [u] _ eq_refl) Hp'), (grow_alone n u Hp). cbv iota.
  change (set_users c0 [u]) with c0. unfold peak_drawn. change (calc_peak_time_range F c0) with (calc_peak_time_range F (default_usecase F u)).
  split.
  - intros H. apply may_bind in H as [(x & Hx & H)|(e & _ & C)]; [|discriminate]. apply may_bind in Hx as [(r & Hr & Hx)|(e & _ & C)]; [|discriminate].
    apply may_ret_inv in Hx. injection Hx as ->. destruct r as [p|e]; cbn [fst snd] in H; apply may_ret_inv in H; [|discriminate].
    injection H as ->. exists p. split; [exact Hr|reflexivity].
  - intros (p & Hr & ->). apply may_bind. left. exists (set_peak c0 (Some p), None). split; [|constructor].
    apply may_bind. left. exists (Ok p). split; [exact Hr|constructor].
Qed.

Lemma simulate_alone depth F w u s n c rows : 1 <= n -> Forall (fun a => n <= zlen (power a)) (app_list u) ->
  may (PropsTotal.simulate depth F w [u] (Some s) None (flit F (15 # 100)) None (Some n) None) (Ok (c, rows)) <->
  exists p, peak_drawn F u p /\ may (generate_sequential depth F w (alone F u s n p) None) (Ok (c, rows)).
Proof.
  intros Hn Hp. unfold PropsTotal.simulate, new_usecase. cbn [seed_of bind]. split.
  - intros H. apply may_bind in H as [([c1 e] & H1 & H)|(e & _ & C)]; [|discriminate]. cbn [fst snd] in H.
    destruct e as [e|]; [apply may_raise_inv in H; discriminate|]. apply (initialize_alone F w u s n c1 Hn Hp) in H1 as (p & Hd & ->). eauto.
  - intros (p & Hd & H). apply may_bind. left. exists (alone F u s n p, None). split; [apply initialize_alone; eauto|exact H].
Qed.

Lemma alone_set_up F u s n p : 1 <= n -> set_up (alone F u s n p) s n.
Proof.
  intros Hn. apply init_index_set_up; [exact Hn|reflexivity|reflexivity].
Qed.

Lemma alone_users F u s n p : 1 <= n -> users (alone F u s n p) = [u] /\ peak_of (alone F u s n p) = p.
Proof. intros Hn. unfold alone, init_index. cbn [days set_peak set_days]. rewrite day_list_cons by lia. split; reflexivity. Qed.

(** the calls for the [n] days from [s] on: day index and day type *)
Definition days_from (s n : Z) (l : list (Z * Z)) : Prop :=
  zlen l = n /\ forall k, 0 <= k < n -> fst (nth (Z.to_nat k) l (0, 0)) = k /\ is_day_type (s + 1440 * k) (snd (nth (Z.to_nat k) l (0, 0))).

Lemma Forall2_by_nth {A B} (R : A -> B -> Prop) (a : A) (b : B) : forall l m, List.length l = List.length m ->
  (forall i, (i < List.length l)%nat -> R (nth i l a) (nth i m b)) -> Forall2 R l m.
Proof.
  induction l as [|x l IH]; intros [|y m] Hl Hn; try discriminate; constructor; [exact (Hn 0%nat ltac:(cbn; lia))|].
  apply IH; [cbn in Hl; lia|]. intros i Hi. exact (Hn (S i) ltac:(cbn; lia)).
Qed.

Lemma Forall2_at_nth {A B} (R : A -> B -> Prop) (a : A) (b : B) l m : Forall2 R l m -> forall i, (i < List.length l)%nat -> R (nth i l a) (nth i m b).
Proof. induction 1 as [|x y l m H _ IH]; intros i Hi; cbn in Hi; [lia|]. destruct i; [exact H|]. apply IH. lia. Qed.

Lemma Forall2_len {A B} (R : A -> B -> Prop) l m : Forall2 R l m -> List.length l = List.length m.
Proof. induction 1; cbn; congruence. Qed.

Lemma sum_one F x : exact F -> full x -> Forall2 Qeq x (sum_rows F [x]).
Proof.
  intros HF Hx. apply same_row; [exact Hx|apply sum_rows_len; constructor; [exact Hx|constructor]|]. intros t Ht.
  rewrite (sum_rows_exact F [x] t HF Ht ltac:(constructor; [exact Hx|constructor])). unfold minute_sum. cbn [map]. rewrite Qsum_cons. cbn. ring.
Qed.

(** The loads a user without a use case gets, called for n days with their day types, are the daily profiles of a use case
    with this user alone and the default peak_enlarge, and the other way round *)
Theorem C71_as_usecase depth F w u s n l : exact F -> 1 <= num_users u -> 1 <= n -> Forall (fun a => n <= zlen (power a)) (app_list u) ->
  days_from s n l ->
  (forall b u' loads, may (aggregated_days depth F Unbound u l) (Ok (b, Ok (u', loads))) ->
     exists c rows, may (PropsTotal.simulate depth F w [u] (Some s) None (flit F (15 # 100)) None (Some n) None) (Ok (c, rows)) /\ same_rows loads rows) /\
  (forall c rows, may (PropsTotal.simulate depth F w [u] (Some s) None (flit F (15 # 100)) None (Some n) None) (Ok (c, rows)) ->
     exists b u' loads, may (aggregated_days depth F Unbound u l) (Ok (b, Ok (u', loads))) /\ same_rows loads rows).
Proof.
  intros HF Hnu Hn Hp [Hlen Hl]. assert (Hne : l <> []) by (intros ->; cbn in Hlen; lia). split.
  - intros b u' loads H. destruct (proj1 (C71_series depth F u l b loads Hnu Hne) (ex_intro _ u' H)) as (p & Hd & _ & Hday).
    pose proof (Forall2_len _ _ _ Hday) as Hll. unfold zlen in Hlen.
    set (rows := map (fun x => sum_rows F [x]) loads).
    assert (Hat : forall i, (i < List.length loads)%nat -> nth i rows [] = sum_rows F [nth i loads []]).
    { intros i Hi. unfold rows. rewrite (nth_indep _ [] (sum_rows F [[]])) by (rewrite map_length; exact Hi). apply (map_nth (fun x => sum_rows F [x])). }
    assert (Hfull : Forall full loads).
    { clear -Hday. induction Hday as [|d x l loads H _ IH]; constructor; [exact (user_day_len _ _ _ _ _ _ _ H)|exact IH]. }
    destruct (C28_any_loads depth F w (alone F u s n p) None s n rows (alone_set_up F u s n p Hn)) as (c & Hc).
    { unfold zlen, rows. rewrite map_length. lia. }
    { intros k Hk. destruct (Hl k Hk) as [E1 E2].
      pose proof (Forall2_at_nth _ (0, 0) [] _ _ Hday (Z.to_nat k) ltac:(lia)) as Hx. cbn beta in Hx. rewrite E1 in Hx.
      exists (snd (nth (Z.to_nat k) l (0, 0))), [nth (Z.to_nat k) loads []]. split; [exact E2|]. split; [|apply Hat; lia].
      destruct (alone_users F u s n p Hn) as [-> ->]. constructor; [exact Hx|constructor]. }
    exists c, rows. split; [apply simulate_alone; eauto|]. unfold same_rows, rows. clear -Hfull HF.
    induction Hfull as [|x xs Hx _ IH]; [constructor|]. cbn [map]. constructor; [apply sum_one; assumption|exact IH].
  - intros c rows H. apply (simulate_alone depth F w u s n c rows Hn Hp) in H as (p & Hd & H).
    destruct (C28_rows _ _ _ _ _ _ _ _ _ (alone_set_up F u s n p Hn) H) as (Hlr & _ & Hr).
    assert (G : forall k, In k (arange 0 n) -> exists x, user_day depth F k p (snd (nth (Z.to_nat k) l (0, 0))) u x /\ nth (Z.to_nat k) rows [] = sum_rows F [x]).
    { intros k Hk. apply in_arange in Hk. destruct (Hr k Hk) as (dt & loads & Hdt & Hx & E). destruct (alone_users F u s n p Hn) as [Eu Ep]. rewrite Eu, Ep in Hx.
      inversion Hx as [|? x ? ? Hx1 Hx2]; subst. inversion Hx2; subst. exists x. destruct (Hl k Hk) as [_ E2]. unfold is_day_type in *. rewrite E2, <- Hdt.
      split; [exact Hx1|exact E]. }
    destruct (choose_row _ _ G) as (loads & Hlo). pose proof (Forall2_len _ _ _ Hlo) as Hll. rewrite arange_length in Hll. unfold zlen in Hlen, Hlr.
    assert (Hk : forall i, (i < Z.to_nat n)%nat -> user_day depth F (Z.of_nat i) p (snd (nth i l (0, 0))) u (nth i loads []) /\ nth i rows [] = sum_rows F [nth i loads []]).
    { intros i Hi. pose proof (Forall2_at_nth _ 0 [] _ _ Hlo i ltac:(rewrite arange_length; lia)) as Hx. cbn beta in Hx.
      rewrite nth_arange in Hx by lia. replace (0 + Z.of_nat i) with (Z.of_nat i) in Hx by lia. rewrite Nat2Z.id in Hx. exact Hx. }
    destruct (proj2 (C71_series depth F u l (Bound (Some p)) loads Hnu Hne)) as (u' & Hu').
    { exists p. split; [exact Hd|]. split; [reflexivity|]. apply (Forall2_by_nth _ (0, 0) []); [lia|]. intros i Hi.
      destruct (Hl (Z.of_nat i) ltac:(lia)) as [E1 _]. rewrite Nat2Z.id in E1. rewrite E1. apply Hk. lia. }
    exists (Bound (Some p)), u', loads. split; [exact Hu'|]. unfold same_rows. apply (Forall2_by_nth _ [] []); [lia|]. intros i Hi.
    destruct (Hk i ltac:(lia)) as [K1 ->]. apply sum_one; [exact HF|exact (user_day_len _ _ _ _ _ _ _ K1)].
Qed.

(** *** A user bound to a use case without a peak time range *)

(** If the peak time range cannot be drawn (a single minute of maximal use) the call raises and leaves the user bound to a use case
    without one: the next call does not try again *)
Theorem C71_failed_peak depth F u i dt r : 1 <= num_users u ->
  zlen (peak_window F (default_usecase F u)) <= 1 ->
  may (generate_aggregated_bound depth F Unbound u i None dt) r -> r = Ok (Bound None, Err IndexError).
Proof.
  intros Hn Hw H. unfold generate_aggregated_bound in H. destruct (Z.to_nat (num_users u)) as [|n] eqn:En; [lia|]. cbn [members_bound] in H.
  unfold generate_single_bound, find_peak in H. fold (default_usecase F (set_load u (zeros day_minutes))) in H. rewrite calc_peak_load in H.
  assert (E : calc_peak_time_range F (default_usecase F u) = Ret (Err IndexError)).
  { unfold calc_peak_time_range, draw_peak_range. destruct (peak_window F (default_usecase F u)) as [|x [|y l]]; try reflexivity.
    rewrite !zlen_cons in Hw. pose proof (zlen_nonneg l). lia. }
  rewrite E in H. cbn [bind fst snd] in H. apply may_ret_inv in H. exact H.
Qed.

(** ** Cases *)

Lemma bp_single_bound depth F b u i arg dt : below_pos (generate_single_bound depth F b u i arg dt).
Proof.
  unfold generate_single_bound, find_peak. apply below_pos_bind.
  - destruct arg; [exact I|]. destruct b; [|exact I]. apply below_pos_bind; [apply bp_peak|intros []; exact I].
  - intros [b' [p|e]]; cbn [fst snd]; [|exact I]. apply below_pos_bind; [apply bp_single|intros; exact I].
Qed.
Lemma bp_members_bound n depth F i arg dt : forall b u, below_pos (members_bound n depth F b u i arg dt).
Proof.
  induction n as [|n IH]; intros b u; [exact I|]. cbn [members_bound]. apply below_pos_bind; [apply bp_single_bound|].
  intros [b' [x|e]]; cbn [fst snd]; [apply IH|exact I].
Qed.
Lemma bp_aggregated_days depth F : forall l b u, below_pos (aggregated_days depth F b u l).
Proof.
  induction l as [|[i dt] l IH]; intros b u; [exact I|]. cbn [aggregated_days]. apply below_pos_bind; [apply bp_members_bound|].
  intros [b' [x|e]]; cbn [fst snd]; [|exact I]. apply below_pos_bind; [apply IH|intros; exact I].
Qed.

Lemma run_check {A} (G : generator) (p : prog A) s (f : A -> bool) : below_pos p ->
  match fst (run G p s) with Ok x => f x | Err _ => false end = true -> exists x, may p (Ok x) /\ f x = true.
Proof.
  intros Hb. destruct (run G p s) as [[x|e] s'] eqn:E; cbn [fst]; [|discriminate]. intros Hf. exists x. split; [|exact Hf].
  exact (run_result_may G p s _ _ Hb E).
Qed.

Definition tv_home : user := User "household" 2 0 0 [] [windowed all_on].

Example C71_case : 1 <= num_users tv_home /\ Forall (fun a => 2 <= zlen (power a)) (app_list tv_home) /\
  days_from 1051200000 2 [(0, 1); (1, 1)] /\
  exists b u' loads, may (aggregated_days 5 exact_fm Unbound tv_home [(0, 1); (1, 1)]) (Ok (b, Ok (u', loads))) /\
    (value_at (nth 1 loads []) 500 == 360)%Q.
Proof.
  split; [cbn; lia|]. split; [repeat constructor; cbn; lia|]. split.
  { split; [reflexivity|]. intros k Hk. assert (k = 0 \/ k = 1) as [->| ->] by lia; split; reflexivity. }
  destruct (run_check zero_gen (aggregated_days 5 exact_fm Unbound tv_home [(0, 1); (1, 1)]) tt
    (fun r => match snd r with Ok x => Qeq_bool (value_at (nth 1 (snd x) []) 500) 360 | Err _ => false end) (bp_aggregated_days _ _ _ _ _)) as ([b [[u' loads]|e]] & Hx & Hv).
  - vm_compute. reflexivity.
  - exists b, u', loads. split; [exact Hx|]. apply Qeq_bool_iff. exact Hv.
  - discriminate.
Qed.

Example C71_failed_case : let u := User "one" 1 0 0 [] [minute_lamp] in
  1 <= num_users u /\ zlen (peak_window exact_fm (default_usecase exact_fm u)) <= 1.
Proof. cbv zeta. split; [cbn; lia|]. vm_compute. discriminate. Qed.
