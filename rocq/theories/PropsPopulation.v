(** * PropsPopulation: order and grouping of users and appliances do not matter (C70) *)
From Verif Require Import Base Wp Tape ListLemmas Utils Appliance Attributes User Spec SpecDay ProofsUtils ProofsUtils2 ProofsAppliance
  ProofsEvent ProofsEvent2 PropsBasic ProofsDay ProofsDay2 ProofsDay3 PropsDay UseCase SpecUser SpecUseCase ProofsUser ProofsUser2 PropsUser ProofsUseCase
  PropsUseCase PropsPost PropsReg ProofsEq PropsInit PropsPeak ProofsParallel PropsRuns PropsTotal Script PropsScript Examples PropsExamples PropsOverflow.
From Coq Require Import ZifyBool ZifyNat Permutation.
Open Scope list_scope.
Open Scope Z_scope.

(** ** Specification *)

(** the same members: users in another order, the appliances of a user in another order, a category of n + m members
    instead of two categories of n and of m members *)
Inductive same_population : list user -> list user -> Prop :=
| pop_order us us' : Permutation us us' -> same_population us us'
| pop_appliances us1 u v us2 : num_users u = num_users v -> user_preference u = user_preference v ->
    Permutation (app_list u) (app_list v) -> same_population (us1 ++ u :: us2) (us1 ++ v :: us2)
| pop_split us1 u v w us2 : 0 <= num_users v -> 0 <= num_users w -> num_users u = num_users v + num_users w ->
    user_preference v = user_preference u -> user_preference w = user_preference u ->
    app_list v = app_list u -> app_list w = app_list u -> same_population (us1 ++ u :: us2) (us1 ++ v :: w :: us2)
| pop_sym us us' : same_population us us' -> same_population us' us
| pop_trans us us' us'' : same_population us us' -> same_population us' us'' -> same_population us us''.

(** ** The profiles a day is made of *)

Section population.
Variables (depth : nat) (F : fm) (k : Z) (peak : list Z) (dt : Z).
Hypothesis HF : exact F.

(** the members of one user *)
Definition user_members (u : user) (ms : list SpecUser.member) : Prop :=
  zlen ms = Z.max 0 (num_users u) /\ Forall (member_day depth F u k peak dt) ms.

(** what minute t of a day may be: [f] *)
Definition day_may (us : list user) (f : Z -> Q) : Prop :=
  exists mss, Forall2 user_members us mss /\ forall t, 0 <= t < 1440 -> (f t == minute_sum t (flat_map snd (List.concat mss)))%Q.

Lemma minute_sum_app t l l' : (minute_sum t (l ++ l') == minute_sum t l + minute_sum t l')%Q.
Proof. unfold minute_sum. rewrite map_app, Qsum_app. reflexivity. Qed.

Lemma minute_sum_perm t l l' : Permutation l l' -> (minute_sum t l == minute_sum t l')%Q.
Proof.
  induction 1 as [|x l l' _ IH|x y l|l l' l'' _ IH1 _ IH2]; [reflexivity| | |etransitivity; eassumption].
  - unfold minute_sum in *. cbn [map]. rewrite !Qsum_cons, IH. reflexivity.
  - unfold minute_sum. cbn [map]. rewrite !Qsum_cons. ring.
Qed.

Lemma Forall2_perm {A B} (R : A -> B -> Prop) l l' : Permutation l l' -> forall m, Forall2 R l m -> exists m', Permutation m m' /\ Forall2 R l' m'.
Proof.
  induction 1 as [|x l l' _ IH|x y l|l l' l'' _ IH1 _ IH2]; intros m Hm.
  - inversion Hm; subst. exists []. split; constructor.
  - inversion Hm as [|? b ? m0 Hb Hm0]; subst. destruct (IH m0 Hm0) as (m' & P & F'). exists (b :: m'). split; constructor; assumption.
  - inversion Hm as [|? b ? m0 Hb Hm0]; subst. inversion Hm0 as [|? b' ? m1 Hb' Hm1]; subst. exists (b' :: b :: m1).
    split; [constructor|repeat constructor; assumption].
  - destruct (IH1 m Hm) as (m' & P & F'). destruct (IH2 m' F') as (m'' & P' & F''). exists m''. split; [etransitivity; eassumption|exact F''].
Qed.

Lemma day_may_ext us f g : (forall t, 0 <= t < 1440 -> (f t == g t)%Q) -> day_may us f -> day_may us g.
Proof. intros H (mss & H1 & H2). exists mss. split; [exact H1|]. intros t Ht. rewrite <- H by exact Ht. exact (H2 t Ht). Qed.

Lemma perm_concat {A} (l l' : list (list A)) : Permutation l l' -> Permutation (List.concat l) (List.concat l').
Proof.
  induction 1 as [|x l l' _ IH|x y l|l l' l'' _ IH1 _ IH2]; cbn; [constructor|apply Permutation_app_head; exact IH| |etransitivity; eassumption].
  rewrite !app_assoc. apply Permutation_app_tail. apply Permutation_app_comm.
Qed.

Lemma perm_flat_map {A B} (f : A -> list B) l l' : Permutation l l' -> Permutation (flat_map f l) (flat_map f l').
Proof. rewrite !flat_map_concat_map. intros H. apply perm_concat. apply Permutation_map. exact H. Qed.

(** members of a user whose appliances are listed in another order *)
Lemma reorder_members u v ms : num_users u = num_users v -> user_preference u = user_preference v ->
  Permutation (app_list u) (app_list v) -> user_members u ms ->
  exists ms', user_members v ms' /\ Permutation (flat_map snd ms) (flat_map snd ms').
Proof.
  intros Hn Hp Ha [Hl Hm]. unfold user_members. rewrite <- Hn, <- Hl. clear Hl Hn.
  induction Hm as [|m ms [H1 H2] _ (ms' & (L & IH) & P)]; [exists []; repeat split; constructor|].
  destruct (Forall2_perm _ _ _ Ha _ H2) as (ls & P' & H2'). exists ((fst m, ls) :: ms'). split; [split|].
  - rewrite !zlen_cons, L. reflexivity.
  - constructor; [|exact IH]. split; [|exact H2']. unfold pref_of_day in *. rewrite <- Hp. exact H1.
  - cbn [flat_map snd]. apply Permutation_app; assumption.
Qed.

Lemma member_same u v m : user_preference v = user_preference u -> app_list v = app_list u ->
  member_day depth F u k peak dt m -> member_day depth F v k peak dt m.
Proof. unfold member_day, pref_of_day. intros -> ->. exact (fun x => x). Qed.

Lemma day_may_same us us' : same_population us us' -> forall f, day_may us f <-> day_may us' f.
Proof.
  induction 1 as [us us' Hp|us1 u v us2 Hn Hu Ha|us1 u v w us2 Hv Hw Hn P1 P2 A1 A2|us us' _ IH|us us' us'' _ IH1 _ IH2]; intros f.
  - assert (G : forall l l', Permutation l l' -> day_may l f -> day_may l' f).
    { clear. intros l l' Hp (mss & H1 & H2). destruct (Forall2_perm _ _ _ Hp _ H1) as (mss' & P & H1'). exists mss'. split; [exact H1'|].
      intros t Ht. rewrite (H2 t Ht). apply minute_sum_perm. apply perm_flat_map, perm_concat, P. }
    split; apply G; [exact Hp|symmetry; exact Hp].
  - assert (G : forall u v, num_users u = num_users v -> user_preference u = user_preference v -> Permutation (app_list u) (app_list v) ->
        day_may (us1 ++ u :: us2) f -> day_may (us1 ++ v :: us2) f).
    { clear - HF. intros u v Hn Hu Ha (mss & H1 & H2). apply Forall2_app_inv_l in H1 as (m1 & m2 & F1 & F2 & ->).
      inversion F2 as [|? ms ? m3 Fm F3]; subst. destruct (reorder_members u v ms Hn Hu Ha Fm) as (ms' & Hms' & P).
      exists (m1 ++ ms' :: m3). split; [apply Forall2_app; [exact F1|constructor; assumption]|].
      intros t Ht. rewrite (H2 t Ht). apply minute_sum_perm. rewrite !concat_app. cbn [List.concat]. rewrite !flat_map_app.
      apply Permutation_app_head. apply Permutation_app_tail. exact P. }
    split; apply G; auto; symmetry; assumption.
  - split; intros (mss & H1 & H2).
    + apply Forall2_app_inv_l in H1 as (m1 & m2 & F1 & F2 & ->). inversion F2 as [|? ms ? m3 [Fl Fm] F3]; subst.
      exists (m1 ++ firstn (Z.to_nat (num_users v)) ms :: skipn (Z.to_nat (num_users v)) ms :: m3). split.
      * rewrite <- (firstn_skipn (Z.to_nat (num_users v)) ms) in Fm. apply Forall_app in Fm as [Fa Fb].
        apply Forall2_app; [exact F1|]. unfold zlen in Fl. constructor; [|constructor; [|exact F3]]; (split; [unfold zlen; rewrite ?firstn_length, ?skipn_length; lia|]).
        -- eapply Forall_impl; [|exact Fa]. intros m Hm. exact (member_same u v m P1 A1 Hm).
        -- eapply Forall_impl; [|exact Fb]. intros m Hm. exact (member_same u w m P2 A2 Hm).
      * intros t Ht. rewrite (H2 t Ht). rewrite !concat_app. cbn [List.concat]. rewrite (app_assoc (firstn _ ms)), firstn_skipn. reflexivity.
    + apply Forall2_app_inv_l in H1 as (m1 & m2 & F1 & F2 & ->). inversion F2 as [|? ms ? m3 [Fl Fm] F3]; subst.
      inversion F3 as [|? ms' ? m4 [Fl' Fm'] F4]; subst.
      exists (m1 ++ (ms ++ ms') :: m4). split.
      * apply Forall2_app; [exact F1|]. constructor; [|exact F4]. split; [rewrite zlen_app; lia|].
        apply Forall_app. split; [eapply Forall_impl; [|exact Fm]|eapply Forall_impl; [|exact Fm']]; intros m Hm; (eapply member_same; [| |exact Hm]); congruence.
      * intros t Ht. rewrite (H2 t Ht). rewrite !concat_app. cbn [List.concat]. rewrite <- (app_assoc ms). reflexivity.
  - symmetry. apply IH.
  - rewrite IH1. apply IH2.
Qed.

(** the loads of the users of a day *)
Lemma loads_members us loads : Forall2 (user_day depth F k peak dt) us loads ->
  exists mss, Forall2 user_members us mss /\
    Forall2 (fun ms l => l = sum_rows F (map (fun m => sum_rows F (snd m)) ms)) mss loads.
Proof.
  induction 1 as [|u l us loads (u' & Hu & <-) _ (mss & H1 & H2)]; [exists []; split; constructor|].
  destruct (C25_aggregated _ _ _ _ _ _ _ Hu) as (_ & ms & Hl & Hm & Hload & _).
  exists (ms :: mss). split; constructor; try assumption. split; assumption.
Qed.

Lemma members_loads us mss : Forall2 user_members us mss ->
  exists loads, Forall2 (user_day depth F k peak dt) us loads /\
    Forall2 (fun ms l => l = sum_rows F (map (fun m => sum_rows F (snd m)) ms)) mss loads.
Proof.
  induction 1 as [|u ms us mss [Hl Hm] _ (loads & H1 & H2)]; [exists []; split; constructor|].
  destruct (C25_any_members depth F u k peak dt ms Hl Hm) as (u' & Hu & Hload).
  exists (load u' :: loads). split; constructor; try assumption. exists u'. split; [exact Hu|reflexivity].
Qed.

Lemma loads_sum us mss loads t : 0 <= t < 1440 -> Forall2 user_members us mss ->
  Forall2 (fun ms l => l = sum_rows F (map (fun m => sum_rows F (snd m)) ms)) mss loads ->
  (minute_sum t loads == minute_sum t (flat_map snd (List.concat mss)))%Q.
Proof.
  intros Ht H1. revert loads. induction H1 as [|u ms us mss [Hl Hm] _ IH]; intros loads H2; inversion H2 as [|? l ? ls E H3]; subst; [reflexivity|].
  cbn [List.concat]. rewrite flat_map_app, minute_sum_app, <- (IH ls H3).
  rewrite <- (C25_minute_sum depth F u k peak dt ms t HF Hm Ht). unfold minute_sum. cbn [map]. rewrite Qsum_cons. reflexivity.
Qed.

Lemma day_may_loads us f : day_may us f <->
  exists loads, Forall2 (user_day depth F k peak dt) us loads /\ forall t, 0 <= t < 1440 -> (f t == value_at (sum_rows F loads) t)%Q.
Proof.
  split.
  - intros (mss & H1 & H2). destruct (members_loads us mss H1) as (loads & H3 & H4). exists loads. split; [exact H3|].
    intros t Ht. rewrite (C28_minute depth F k peak dt us loads t HF H3 Ht), (H2 t Ht). symmetry. exact (loads_sum us mss loads t Ht H1 H4).
  - intros (loads & H3 & H2). destruct (loads_members us loads H3) as (mss & H1 & H4). exists mss. split; [exact H1|].
    intros t Ht. rewrite (H2 t Ht), (C28_minute depth F k peak dt us loads t HF H3 Ht). exact (loads_sum us mss loads t Ht H1 H4).
Qed.

End population.

(** ** C70 *)

Lemma choose_row {B} (R : Z -> B -> Prop) l : (forall k, In k l -> exists y, R k y) -> exists l', Forall2 R l l'.
Proof.
  induction l as [|k l IH]; intros H; [exists []; constructor|]. destruct (H k (or_introl eq_refl)) as (y & Hy).
  destruct IH as (l' & Hl'); [intros; apply H; right; assumption|]. exists (y :: l'). constructor; assumption.
Qed.

(** equal minute by minute *)
Definition same_minutes (l l' : list Q) : Prop := forall t, 0 <= t < 1440 -> (value_at l t == value_at l' t)%Q.

Lemma loads_full depth F k peak dt us loads : Forall2 (user_day depth F k peak dt) us loads -> full (sum_rows F loads).
Proof. intros H. apply sum_rows_len. induction H; constructor; [eapply user_day_len; eassumption|assumption]. Qed.

(** the possible simulations of an initialized use case *)
Theorem C70_generation depth F w w' c c' arg arg' s n c1 rows : exact F ->
  set_up c s n -> set_up c' s n -> peak_of c' = peak_of c -> same_population (users c) (users c') ->
  may (generate_sequential depth F w c arg) (Ok (c1, rows)) ->
  exists c1' rows', may (generate_sequential depth F w' c' arg') (Ok (c1', rows')) /\ same_rows rows rows'.
Proof.
  intros HF Hu Hu' Hpk Hpop H. destruct (C28_rows _ _ _ _ _ _ _ _ _ Hu H) as (Hlen & _ & Hrow). clear H.
  assert (G : forall k, In k (arange 0 n) -> exists l', exists dt loads, is_day_type (s + 1440 * k) dt /\
     Forall2 (user_day depth F k (peak_of c') dt) (users c') loads /\ l' = sum_rows F loads /\
     full (nth (Z.to_nat k) rows []) /\ same_minutes (nth (Z.to_nat k) rows []) l').
  { intros k Hk. apply in_arange in Hk. destruct (Hrow k Hk) as (dt & loads & Hdt & Hl & E).
    pose proof (proj2 (day_may_loads depth F k (peak_of c) dt HF (users c) (fun t => value_at (nth (Z.to_nat k) rows []) t))) as D.
    assert (D' : day_may depth F k (peak_of c) dt (users c) (fun t => value_at (nth (Z.to_nat k) rows []) t)).
    { apply D. exists loads. split; [exact Hl|]. intros t _. rewrite E. reflexivity. }
    apply (day_may_same depth F k (peak_of c) dt _ _ Hpop) in D'.
    apply (day_may_loads depth F k (peak_of c) dt HF) in D' as (loads' & Hl' & E').
    exists (sum_rows F loads'), dt, loads'. rewrite Hpk. split; [exact Hdt|]. split; [exact Hl'|]. split; [reflexivity|].
    split; [rewrite E; exact (loads_full _ _ _ _ _ _ _ Hl)|exact E']. }
  destruct (choose_row _ _ G) as (rows' & Hr). clear G.
  assert (Hlen' : zlen rows' = n).
  { destruct Hu as (Hn1 & _). pose proof (f_equal Z.of_nat (Forall2_length _ _ _ Hr)) as E. fold (zlen (arange 0 n)) in E. fold (zlen rows') in E.
    rewrite zlen_arange in E. lia. }
  assert (Hat : forall k, 0 <= k < n -> exists dt loads, is_day_type (s + 1440 * k) dt /\
     Forall2 (user_day depth F k (peak_of c') dt) (users c') loads /\ nth (Z.to_nat k) rows' [] = sum_rows F loads /\
     Forall2 Qeq (nth (Z.to_nat k) rows []) (nth (Z.to_nat k) rows' [])).
  { intros k Hk.
    assert (Hk1 : nth_error (arange 0 n) (Z.to_nat k) = Some k).
    { rewrite (nth_error_nth' _ 0) by (pose proof (zlen_arange 0 n); unfold zlen in *; lia). rewrite nth_arange by lia. f_equal. lia. }
    assert (P : forall i (l : list Z) (l' : list (list Q)) (R : Z -> list Q -> Prop), Forall2 R l l' -> nth_error l i = Some k -> R k (nth i l' [])).
    { clear. induction i as [|i IH]; intros l l' R HR Hi; destruct HR as [|x y l l' Hxy HR]; cbn in Hi |- *; try discriminate.
      - injection Hi as <-. exact Hxy.
      - exact (IH _ _ _ HR Hi). }
    destruct (P _ _ _ _ Hr Hk1) as (dt & loads & H1 & H2 & H3 & H4 & H5). exists dt, loads. split; [exact H1|]. split; [exact H2|]. split; [exact H3|].
    apply same_row; [exact H4|rewrite H3; exact (loads_full _ _ _ _ _ _ _ H2)|exact H5]. }
  destruct (C28_any_loads depth F w' c' arg' s n rows' Hu' Hlen') as (c1' & H').
  { intros k Hk. destruct (Hat k Hk) as (dt & loads & H1 & H2 & H3 & _). eauto. }
  exists c1', rows'. split; [exact H'|]. unfold same_rows.
  assert (E : forall (l l' : list (list Q)), List.length l = List.length l' -> (forall i, (i < List.length l)%nat -> Forall2 Qeq (nth i l []) (nth i l' [])) -> Forall2 (Forall2 Qeq) l l').
  { clear. induction l as [|x l IH]; intros [|y l'] Hl Hn; try discriminate; [constructor|]. constructor; [exact (Hn 0%nat ltac:(cbn; lia))|].
    apply IH; [cbn in Hl; lia|]. intros i Hi. exact (Hn (S i) ltac:(cbn; lia)). }
  apply E; [unfold zlen in *; lia|]. intros i Hi. unfold zlen in Hlen. destruct (Hat (Z.of_nat i) ltac:(lia)) as (_ & _ & _ & _ & _ & Hs).
  rewrite Nat2Z.id in Hs. exact Hs.
Qed.

(** ** The peak time range *)

Lemma pop_all (P : appliance -> Prop) us us' : same_population us us' -> all_apps P us <-> all_apps P us'.
Proof.
  unfold all_apps. induction 1 as [us us' Hp|us1 u v us2 Hn Hu Ha|us1 u v w us2 Hv Hw Hn P1 P2 A1 A2|us us' _ IH|us us' us'' _ IH1 _ IH2].
  - rewrite !Forall_forall. split; intros H x Hx; apply H; (eapply Permutation_in; [|exact Hx]); [symmetry|]; exact Hp.
  - assert (E : Forall P (app_list u) <-> Forall P (app_list v)).
    { rewrite !Forall_forall. split; intros H x Hx; apply H; (eapply Permutation_in; [|exact Hx]); [symmetry|]; exact Ha. }
    rewrite !Forall_app. rewrite !Forall_cons_iff. tauto.
  - rewrite !Forall_app, !Forall_cons_iff, A1, A2. tauto.
  - symmetry. exact IH.
  - rewrite IH1. exact IH2.
Qed.

Definition whole_day (a : appliance) : Prop := zlen (daily_use (st a)) = 1440.

(** what the users can use at most at minute t *)
Definition most (F : fm) (us : list user) (t : Z) : Q :=
  Qsum (map (fun u => zq (num_users u) * minute_sum t (map (app_maximum_profile F) (app_list u)))%Q us).

Lemma most_app F us us' t : (most F (us ++ us') t == most F us t + most F us' t)%Q.
Proof. unfold most. rewrite map_app, Qsum_app. reflexivity. Qed.
Lemma most_cons F u us t : (most F (u :: us) t == zq (num_users u) * minute_sum t (map (app_maximum_profile F) (app_list u)) + most F us t)%Q.
Proof. unfold most. cbn [map]. rewrite Qsum_cons. reflexivity. Qed.

Lemma Qsum_perm l l' : Permutation l l' -> (Qsum l == Qsum l')%Q.
Proof.
  induction 1 as [|x l l' _ IH|x y l|l l' l'' _ IH1 _ IH2]; [reflexivity| | |etransitivity; eassumption]; rewrite !Qsum_cons; [rewrite IH; reflexivity|ring].
Qed.

Lemma most_same F us us' t : same_population us us' -> (most F us t == most F us' t)%Q.
Proof.
  induction 1 as [us us' Hp|us1 u v us2 Hn Hu Ha|us1 u v w us2 Hv Hw Hn P1 P2 A1 A2|us us' _ IH|us us' us'' _ IH1 _ IH2].
  - unfold most. apply Qsum_perm, Permutation_map, Hp.
  - rewrite !most_app, !most_cons, Hn. rewrite (minute_sum_perm t _ _ (Permutation_map (app_maximum_profile F) Ha)). reflexivity.
  - rewrite !most_app, !most_cons, Hn, A1, A2. unfold zq. rewrite inject_Z_plus. ring.
  - symmetry. exact IH.
  - rewrite IH1. exact IH2.
Qed.

Lemma app_max_len F a : whole_day a -> List.length (app_maximum_profile F a) = day_minutes.
Proof. unfold whole_day, app_maximum_profile, zlen, day_minutes. intros H. rewrite map_length. lia. Qed.

Lemma user_max_len F u : Forall whole_day (app_list u) -> zlen (user_maximum_profile F u) = 1440.
Proof.
  intros H. unfold user_maximum_profile, zlen. rewrite map_length.
  assert (E : fold_left (fun acc a => vadd F acc (app_maximum_profile F a)) (app_list u) (zeros day_minutes)
    = sum_rows F (map (app_maximum_profile F) (app_list u))).
  { unfold sum_rows. generalize (zeros day_minutes). clear H. induction (app_list u) as [|a l IH]; intros acc; [reflexivity|]. cbn [map fold_left]. apply IH. }
  rewrite E, sum_rows_len; [reflexivity|]. apply Forall_map. eapply Forall_impl; [|exact H]. intros a Ha. exact (app_max_len F a Ha).
Qed.

Lemma total_most F c t : exact F -> all_apps whole_day (users c) -> 0 <= t < 1440 -> (value_at (total_max_profile F c) t == most F (users c) t)%Q.
Proof.
  intros HF Ha Ht. rewrite (C34_total_profile F c t HF Ht).
  - unfold minute_sum, most. rewrite map_map. unfold all_apps in Ha. induction Ha as [|u us Hu _ IH]; [reflexivity|]. cbn [map]. rewrite !Qsum_cons, IH.
    rewrite (C35_user_profile F u t HF Ht Hu). reflexivity.
  - eapply Forall_impl; [|exact Ha]. intros u. apply user_max_len.
Qed.

Lemma total_len F c : all_apps whole_day (users c) -> zlen (total_max_profile F c) = 1440.
Proof.
  intros Ha.
  assert (E : total_max_profile F c = sum_rows F (map (user_maximum_profile F) (users c))).
  { unfold total_max_profile, sum_rows. generalize (zeros day_minutes). clear Ha. induction (users c) as [|u us IH]; intros acc; [reflexivity|]. cbn [map fold_left]. apply IH. }
  rewrite E. unfold zlen. rewrite sum_rows_len; [reflexivity|]. apply Forall_map. eapply Forall_impl; [|exact Ha]. intros u Hu.
  pose proof (user_max_len F u Hu). unfold zlen, day_minutes in *. lia.
Qed.

(** the minutes of the theoretical peak are the same, and so is the law of the peak time range *)
Theorem C70_peak F c c' : exact F -> all_apps whole_day (users c) -> same_population (users c) (users c') ->
  peak_window F c' = peak_window F c /\
  (peak_enlarge c' = peak_enlarge c -> calc_peak_time_range F c' = calc_peak_time_range F c).
Proof.
  intros HF Ha Hp. assert (Ha' : all_apps whole_day (users c')) by (apply (pop_all _ _ _ Hp); exact Ha).
  assert (E : peak_window F c' = peak_window F c).
  { pose proof (peak_window_maximal F c) as [M _]. pose proof (peak_window_maximal F c') as [M' _].
    unfold peak_window in *. cbv zeta in *. rewrite (total_len F c Ha) in *. rewrite (total_len F c' Ha') in *.
    apply filter_ext_in. intros t Ht. specialize (M t). specialize (M' t). rewrite filter_In in M, M'. rewrite in_arange in M, M', Ht.
    assert (Hv : forall x, 0 <= x < 1440 -> (value_at (total_max_profile F c') x == value_at (total_max_profile F c) x)%Q).
    { intros x Hx. rewrite (total_most F c x HF Ha Hx), (total_most F c' x HF Ha' Hx). symmetry. exact (most_same F _ _ x Hp). }
    assert (Hiff : (forall x, 0 <= x < 1440 -> (value_at (total_max_profile F c') x <= value_at (total_max_profile F c') t)%Q) <->
                   (forall x, 0 <= x < 1440 -> (value_at (total_max_profile F c) x <= value_at (total_max_profile F c) t)%Q)).
    { split; intros H x Hx; specialize (H x Hx); [rewrite !Hv in H by assumption|rewrite !Hv by assumption]; exact H. }
    apply eq_true_iff_eq. tauto. }
  split; [exact E|]. intros En. unfold calc_peak_time_range. rewrite E, En. reflexivity.
Qed.

(** ** The whole script *)

Definition reuser (us' : list user) (c : usecase) : usecase := set_collected (set_users c us') (positions_from 0 us').

Lemma dates_stage_reuser us' w c num c1 e : dates_stage w c num false = (c1, e) -> dates_stage w (reuser us' c) num false = (reuser us' c1, e).
Proof.
  unfold dates_stage. rewrite !andb_false_r.
  assert (E1 : init_num_days_arg (reuser us' c) num = reuser us' (init_num_days_arg c num)).
  { unfold init_num_days_arg. destruct num; [|reflexivity]. change (days (reuser us' c)) with (days c). destruct (days c); reflexivity. }
  rewrite E1. set (c2 := init_num_days_arg c num).
  assert (E2 : init_both_dates (reuser us' c2) = reuser us' (init_both_dates c2)).
  { unfold init_both_dates. change (date_start (reuser us' c2)) with (date_start c2). change (date_end (reuser us' c2)) with (date_end c2).
    destruct (date_start c2), (date_end c2); try reflexivity. cbv zeta.
    change (num_days_ (set_days (reuser us' c2) (Some (date_range_se z z0)))) with (num_days_ c2).
    change (num_days_ (set_days c2 (Some (date_range_se z z0)))) with (num_days_ c2).
    destruct (num_days_ c2); [|reflexivity]. destruct (negb _); reflexivity. }
  rewrite E2. set (c3 := init_both_dates c2).
  unfold init_prompt. change (num_days_ (reuser us' c3)) with (num_days_ c3).
  assert (G : forall c4, init_days w c4 = (c1, e) -> init_days w (reuser us' c4) = (reuser us' c1, e)).
  { intros c4. unfold init_days. change (num_days_ (reuser us' c4)) with (num_days_ c4). change (days (reuser us' c4)) with (days c4).
    change (date_start (reuser us' c4)) with (date_start c4). change (date_end (reuser us' c4)) with (date_end c4).
    cbv zeta. destruct (match days c4 with Some ds => Ok ds | None => _ end) as [ds|x]; intros H; injection H as <- <-; reflexivity. }
  destruct (num_days_ c3); [exact (G c3)|]. destruct (typed w); [exact (G (set_num_days c3 (Some a)))|]. intros H. injection H as <- <-. reflexivity.
Qed.


(** check_power_values of every appliance *)
Definition grown (n : Z) (a : appliance) : appliance :=
  if zlen (power a) <? n then match power a with [] => a | p :: _ => set_power a (repeat p (Z.to_nat (n + 1))) end else a.
Definition grow (n : Z) (us : list user) : list user := map (fun u => set_apps u (map (grown n) (app_list u))) us.

Lemma check_grown n a : has_power n a -> check_power_values a n = Ok (grown n a).
Proof.
  unfold check_power_values, grown, has_power. destruct (Z.ltb_spec (zlen (power a)) n) as [L|L]; [|reflexivity].
  intros [C|[-> Hp]]; [lia|]. destruct (power a); [contradiction|reflexivity].
Qed.
Lemma check_has_power n a a' : check_power_values a n = Ok a' -> has_power n a.
Proof.
  unfold check_power_values, has_power. destruct (Z.ltb_spec (zlen (power a)) n) as [L|L]; [|left; exact L].
  destruct (constant_power a); [|discriminate]. destruct (power a); [discriminate|]. intros _. right. split; [reflexivity|discriminate].
Qed.

Lemma check_powers_app n r1 r2 : forall us, check_powers us (r1 ++ r2) n =
  match check_powers us r1 n with (us1, None) => check_powers us1 r2 n | (us1, Some e) => (us1, Some e) end.
Proof.
  induction r1 as [|ij r1 IH]; intros us; [reflexivity|]. cbn [app check_powers]. destruct (get_app us ij); [|reflexivity].
  destruct (check_power_values a n); [apply IH|reflexivity].
Qed.

Lemma list_set_middle {A} (pre : list A) x y post : list_set (pre ++ x :: post) (List.length pre) y = pre ++ y :: post.
Proof. induction pre as [|z pre IH]; [reflexivity|]. cbn [app List.length list_set]. f_equal. exact IH. Qed.
Lemma nth_error_middle {A} (pre : list A) x post : nth_error (pre ++ x :: post) (List.length pre) = Some x.
Proof. induction pre as [|z pre IH]; [reflexivity|exact IH]. Qed.

Lemma check_apps n pre post u : forall rest done us1, app_list u = done ++ rest ->
  check_powers (pre ++ u :: post) (map (fun j => (List.length pre, j)) (seq (List.length done) (List.length rest))) n = us1 ->
  (snd us1 = None -> Forall (has_power n) rest) /\
  (Forall (has_power n) rest -> us1 = (pre ++ set_apps u (done ++ map (grown n) rest) :: post, None)).
Proof.
  intros rest. revert u. induction rest as [|a rest IH]; intros u done us1 Hu H.
  - cbn in H. subst us1. split; [constructor|]. intros _. cbn [map]. rewrite <- Hu. destruct u; reflexivity.
  - cbn [List.length seq map check_powers] in H. unfold get_app in H. cbn [fst snd] in H.
    rewrite nth_error_middle, Hu, nth_error_middle in H.
    destruct (check_power_values a n) as [a'|e] eqn:E.
    + pose proof (check_has_power n a a' E) as Ha. rewrite (check_grown n a Ha) in E. injection E as <-.
      unfold put_app in H. cbn [fst snd] in H. rewrite nth_error_middle, Hu, !list_set_middle in H.
      replace (S (List.length done)) with (List.length (done ++ [grown n a])) in H by (rewrite app_length; cbn; lia).
      destruct (IH (set_apps u (done ++ grown n a :: rest)) (done ++ [grown n a]) us1) as [I1 I2]; [rewrite <- app_assoc; reflexivity|exact H|].
      split; [intros Hn; constructor; [exact Ha|exact (I1 Hn)]|]. intros Hf. inversion Hf; subst. rewrite I2 by assumption. cbn [map].
      rewrite <- app_assoc. destruct u; reflexivity.
    + subst us1. split; [discriminate|]. intros Hf. inversion Hf as [|? ? Ha _]; subst. rewrite (check_grown n a Ha) in E. discriminate.
Qed.

Lemma check_users n : forall us pre us1, check_powers (pre ++ us) (positions_from (List.length pre) us) n = us1 ->
  (snd us1 = None -> all_apps (has_power n) us) /\ (all_apps (has_power n) us -> us1 = (pre ++ grow n us, None)).
Proof.
  unfold all_apps. induction us as [|u us IH]; intros pre us1 H.
  - cbn in H. subst us1. split; [constructor|reflexivity].
  - cbn [positions_from] in H. rewrite check_powers_app in H.
    destruct (check_powers (pre ++ u :: us) (map (fun j => (List.length pre, j)) (seq 0 (List.length (app_list u)))) n) as [us2 e] eqn:E.
    destruct (check_apps n pre us u (app_list u) [] (us2, e) eq_refl E) as [A1 A2]. cbn [snd app] in A1, A2.
    destruct e as [e|].
    + subst us1. split; [discriminate|]. intros Hf. inversion Hf as [|? ? Hu _]; subst. specialize (A2 Hu). discriminate.
    + specialize (A2 (A1 eq_refl)). injection A2 as ->.
      replace (S (List.length pre)) with (List.length (pre ++ [set_apps u (map (grown n) (app_list u))])) in H by (rewrite app_length; cbn; lia).
      destruct (IH (pre ++ [set_apps u (map (grown n) (app_list u))]) us1) as [I1 I2]; [rewrite <- app_assoc; exact H|].
      split; [intros Hn; constructor; [exact (A1 eq_refl)|exact (I1 Hn)]|]. intros Hf. inversion Hf; subst. rewrite I2 by assumption.
      rewrite <- app_assoc. reflexivity.
Qed.

Lemma check_all n us us1 : check_powers us (positions_from 0 us) n = us1 ->
  (snd us1 = None -> all_apps (has_power n) us) /\ (all_apps (has_power n) us -> us1 = (grow n us, None)).
Proof. exact (check_users n us [] us1). Qed.

(** what initialize does to the users *)
Definition kept (g : list user -> list user) : Prop := (forall us, g us = us) \/ exists n, g = grow n.

Lemma grow_positions n us : forall i, positions_from i (grow n us) = positions_from i us.
Proof. induction us as [|u us IH]; intros i; [reflexivity|]. cbn. rewrite map_length, <- (IH (S i)). reflexivity. Qed.
Lemma kept_positions g us : kept g -> positions_from 0 (g us) = positions_from 0 us.
Proof. intros [H|(n & ->)]; [rewrite H; reflexivity|apply grow_positions]. Qed.

Lemma grown_whole n a : whole_day a -> whole_day (grown n a).
Proof. unfold grown. destruct (_ <? _); [|exact (fun x => x)]. destruct (power a); exact (fun x => x). Qed.
Lemma kept_whole g us : kept g -> all_apps whole_day us -> all_apps whole_day (g us).
Proof.
  intros [H|(n & ->)]; [rewrite H; exact (fun x => x)|]. unfold all_apps, grow. intros Hw. apply Forall_map. eapply Forall_impl; [|exact Hw].
  intros u Hu. cbn. apply Forall_map. eapply Forall_impl; [|exact Hu]. intros a. apply grown_whole.
Qed.

Lemma kept_same g us us' : kept g -> same_population us us' -> same_population (g us) (g us').
Proof.
  intros [H|(n & ->)] Hs; [rewrite !H; exact Hs|].
  induction Hs as [us us' Hp|us1 u v us2 Hn Hu Ha|us1 u v w us2 Hv Hw Hn P1 P2 A1 A2|us us' _ IH|us us' us'' _ IH1 _ IH2].
  - apply pop_order. unfold grow. apply Permutation_map. exact Hp.
  - unfold grow. rewrite !map_app. cbn [map]. apply pop_appliances; cbn; try assumption. apply Permutation_map. exact Ha.
  - unfold grow. rewrite !map_app. cbn [map]. apply pop_split; cbn; try assumption; congruence.
  - apply pop_sym. exact IH.
  - eapply pop_trans; eassumption.
Qed.

Lemma calc_peak_reuser F us' c : exact F -> all_apps whole_day (users c) -> same_population (users c) us' ->
  calc_peak_time_range F (reuser us' c) = calc_peak_time_range F c.
Proof. intros HF Hw Hp. apply (C70_peak F c (reuser us' c) HF Hw Hp). reflexivity. Qed.

Lemma init_index_reuser us' c : init_index (reuser us' c) = reuser us' (init_index c).
Proof. unfold init_index. change (days (reuser us' c)) with (days c). destruct (days c) as [[|d ds]|]; reflexivity. Qed.

Lemma reuser_twice us us' c : reuser us' (reuser us c) = reuser us' c.
Proof. destruct c; reflexivity. Qed.

Lemma finish_reuser F c us' pe c1 : exact F -> collected c = positions_from 0 (users c) ->
  all_apps whole_day (users c) -> same_population (users c) us' ->
  may (init_finish F c pe) (Ok (c1, None)) ->
  exists g, kept g /\ users c1 = g (users c) /\ collected c1 = positions_from 0 (users c1) /\
    may (init_finish F (reuser us' c) pe) (Ok (reuser (g us') c1, None)).
Proof.
  intros HF Hc Hw Hs H. unfold init_finish in *. cbv zeta in *. change (num_days_ (reuser us' c)) with (num_days_ c).
  set (n := match num_days_ c with Some n => n | None => 0 end) in *.
  change (users (reuser us' c)) with us'. change (collected (reuser us' c)) with (positions_from 0 us').
  rewrite Hc in H. destruct (check_powers (users c) (positions_from 0 (users c)) n) as [us1 e] eqn:E.
  destruct (check_all n _ _ E) as [P1 P2]. cbn [snd] in P1. destruct e as [e|]; [apply may_ret_inv in H; discriminate|].
  specialize (P1 eq_refl). specialize (P2 P1). injection P2 as ->.
  assert (P1' : all_apps (has_power n) us') by exact (proj1 (pop_all _ _ _ Hs) P1).
  rewrite (proj2 (check_all n us' _ eq_refl) P1').
  assert (Kg : kept (grow n)) by (right; eauto). exists (grow n). split; [exact Kg|]. clear E.
  assert (Ec : set_users (reuser us' c) (grow n us') = reuser (grow n us') (set_users c (grow n (users c)))).
  { unfold reuser. rewrite grow_positions. destruct c; reflexivity. }
  rewrite Ec. clear Ec. set (c2 := set_users c (grow n (users c))) in *.
  assert (Hc2 : collected c2 = positions_from 0 (users c2)).
  { change (collected c2) with (collected c). change (users c2) with (grow n (users c)). rewrite grow_positions. exact Hc. }
  assert (Hw2 : all_apps whole_day (users c2)) by exact (kept_whole _ _ Kg Hw).
  assert (Hs2 : same_population (users c2) (grow n us')) by exact (kept_same _ _ _ Kg Hs).
  change (grow n (users c)) with (users c2). clearbody c2. generalize dependent (grow n us'). clear P1' us' Hs. intros us' Hs2.
  assert (Idx : forall d, users (init_index d) = users d /\ collected (init_index d) = collected d).
  { intros d. unfold init_index. destruct (days d) as [[|x l]|]; auto. }
  assert (R : forall d, users d = users c2 -> collected d = collected c2 ->
    forall p, may (x <- calc_peak_time_range F d ;; Ret (match x with Ok p => (set_peak d (Some p), None) | Err e => (d, Some e) end)) (Ok p) ->
    snd p = None ->
    users (fst p) = users c2 /\ collected (fst p) = collected c2 /\
    may (x <- calc_peak_time_range F (reuser us' d) ;; Ret (match x with Ok p => (set_peak (reuser us' d) (Some p), None) | Err e => (reuser us' d, Some e) end))
      (Ok (reuser us' (fst p), None))).
  { intros d Hu Hcd p Hm Hsn. apply may_bind in Hm as [(x & H1 & H2)|(e & _ & C)]; [|discriminate]. apply may_ret_inv in H2.
    rewrite calc_peak_reuser; [|exact HF|rewrite Hu; exact Hw2|rewrite Hu; exact Hs2]. injection H2 as ->. destruct x as [pk|e]; [|discriminate].
    cbn [fst]. repeat split; try assumption. apply may_bind. left. exists (Ok pk). split; [exact H1|constructor]. }
  apply may_bind in H as [([d e] & H1 & H2)|(e & _ & C)]; [|discriminate]. cbn [fst snd] in H2. destruct e as [e|]; [apply may_ret_inv in H2; discriminate|].
  apply may_ret_inv in H2. injection H2 as ->. destruct (Idx d) as (I1 & I2). rewrite I1, I2.
  destruct pe as [[q|]|].
  - unfold set_peak_enlarge in H1 |- *. destruct (Qle_bool 0 q); [|apply may_ret_inv in H1; discriminate].
    destruct (R (set_enlarge c2 q) eq_refl eq_refl _ H1 eq_refl) as (R1 & R2 & R3). cbn [fst] in *. rewrite R1, R2. split; [reflexivity|]. split; [exact Hc2|].
    apply may_bind. left. exists (reuser us' d, None). split; [exact R3|]. cbn [fst snd]. rewrite init_index_reuser. constructor.
  - apply may_ret_inv in H1. discriminate.
  - destruct (R c2 eq_refl eq_refl _ H1 eq_refl) as (R1 & R2 & R3). cbn [fst] in *. rewrite R1, R2. split; [reflexivity|]. split; [exact Hc2|].
    apply may_bind. left. exists (reuser us' d, None). split; [exact R3|]. cbn [fst snd]. rewrite init_index_reuser. constructor.
Qed.

Lemma initialize_reuser F w c us' num pe c1 : exact F -> collected c = positions_from 0 (users c) ->
  all_apps whole_day (users c) -> same_population (users c) us' ->
  may (initialize F w c num pe false) (Ok (c1, None)) ->
  exists g, kept g /\ users c1 = g (users c) /\ collected c1 = positions_from 0 (users c1) /\
    may (initialize F w (reuser us' c) num pe false) (Ok (reuser (g us') c1, None)).
Proof.
  intros HF Hc Hw Hs H. rewrite initialize_stages in *. change (is_initialized (reuser us' c)) with (is_initialized c).
  destruct (is_initialized c && negb false).
  - apply may_ret_inv in H. injection H as ->. exists (fun x => x). split; [left; reflexivity|]. split; [reflexivity|]. split; [exact Hc|]. constructor.
  - destruct (dates_stage w c num false) as [c2 e] eqn:E. rewrite (dates_stage_reuser us' w c num c2 e E).
    destruct e as [e|]; [apply may_ret_inv in H; discriminate|].
    destruct (dates_stage_same w c num false c2 None E) as (_ & _ & _ & _ & _ & _ & _ & Hu & Hcl).
    rewrite <- Hu in *. rewrite <- Hcl in *. exact (finish_reuser F c2 us' pe c1 HF Hc Hw Hs H).
Qed.

(** the possible results of the whole script *)
Theorem C70_simulation depth F w us us' start stop enl seed num pe c rows : exact F ->
  same_population us us' -> all_apps whole_day us ->
  may (PropsTotal.simulate depth F w us start stop enl seed num pe) (Ok (c, rows)) ->
  exists c' rows', may (PropsTotal.simulate depth F w us' start stop enl seed num pe) (Ok (c', rows')) /\ same_rows rows rows'.
Proof.
  intros HF Hs Hw H. unfold PropsTotal.simulate in *.
  apply may_bind in H as [(c0 & H0 & H)|(e & _ & C)]; [|discriminate].
  apply may_bind in H as [([c1 e] & H1 & H)|(e & _ & C)]; [|discriminate]. cbn [fst snd] in H.
  destruct e as [e|]; [apply may_raise_inv in H; discriminate|].
  set (b := blank start stop false enl seed us) in *.
  assert (Hb : ready b) by (left; split; reflexivity).
  (* creation *)
  assert (K0 : ready c0 /\ exists g, kept g /\ users c0 = g us /\ collected c0 = positions_from 0 (users c0) /\
     may (new_usecase F w us' start stop false enl seed) (Ok (reuser (g us') c0))).
  { unfold new_usecase in H0 |- *. cbv zeta in H0 |- *. fold b in H0.
    change (blank start stop false enl seed us') with (reuser us' b).
    assert (Sd : forall (x y : usecase), may (match seed_of seed with Some z => Seed z (Ret x) | None => Ret x end) (Ok y) <-> y = x).
    { intros x y. destruct (seed_of seed); split.
      - intros M. inversion M; subst. match goal with M' : may (Ret _) _ |- _ => apply may_ret_inv in M'; injection M' as -> end. reflexivity.
      - intros ->. constructor. constructor.
      - intros M. apply may_ret_inv in M. injection M as ->. reflexivity.
      - intros ->. constructor. }
    apply may_bind in H0 as [(x & Hx & Hy)|(e & _ & C)]; [|discriminate]. apply Sd in Hy. subst x.
    assert (Blank : may (Ret b) (Ok c0) -> ready c0 /\ exists g, kept g /\ users c0 = g us /\ collected c0 = positions_from 0 (users c0) /\
      may (c <- Ret (reuser us' b) ;; match seed_of seed with Some z => Seed z (Ret c) | None => Ret c end) (Ok (reuser (g us') c0))).
    { intros M. apply may_ret_inv in M. injection M as ->. split; [exact Hb|]. exists (fun x => x). split; [left; reflexivity|].
      repeat split. cbn [bind]. apply Sd. reflexivity. }
    destruct start as [sd|]; [destruct stop as [ed|]|]; [|exact (Blank Hx)|exact (Blank Hx)]. clear Blank.
    apply may_bind in Hx as [([d e] & Hx & Hy)|(e & _ & C)]; [|discriminate]. cbn [fst snd] in Hy.
    destruct e as [e|]; [apply may_raise_inv in Hy; discriminate|]. apply may_ret_inv in Hy. injection Hy as ->.
    destruct (initialize_ready F w b None None false d Hb Hx) as (Hi & s & n & Hsu). split; [right; split; [exact Hi|exists s, n; exact Hsu]|].
    destruct (initialize_reuser F w b us' None None d HF eq_refl Hw Hs Hx) as (g & Q0 & Q1 & Q2 & Q3).
    exists g. split; [exact Q0|]. split; [exact Q1|]. split; [exact Q2|]. apply may_bind. left. exists (reuser (g us') d). split; [|apply Sd; reflexivity].
    apply may_bind. left. exists (reuser (g us') d, None). split; [exact Q3|]. cbn [fst snd]. constructor. }
  destruct K0 as (Hr0 & g0 & Kg0 & Hu0 & Hc0 & H0'). destruct (initialize_ready F w c0 num pe false c1 Hr0 H1) as (_ & s & n & Hsu).
  assert (Hw0 : all_apps whole_day (users c0)) by (rewrite Hu0; exact (kept_whole _ _ Kg0 Hw)).
  assert (Hs0 : same_population (users c0) (g0 us')) by (rewrite Hu0; exact (kept_same _ _ _ Kg0 Hs)).
  destruct (initialize_reuser F w c0 (g0 us') num pe c1 HF Hc0 Hw0 Hs0 H1) as (g1 & Kg1 & Hu1 & Hc1 & H1').
  set (c1' := reuser (g1 (g0 us')) c1) in *.
  assert (Hsu' : set_up c1' s n) by exact Hsu.
  destruct (C70_generation depth F w w c1 c1' None None s n c rows HF Hsu Hsu' eq_refl) as (c' & rows' & G1 & G2); [|exact H|].
  { rewrite Hu1. exact (kept_same _ _ _ Kg1 Hs0). }
  exists c', rows'. split; [|exact G2]. apply may_bind. left. exists (reuser (g0 us') c0). split; [exact H0'|].
  apply may_bind. left. exists (c1', None). split; [exact H1'|]. exact G1.
Qed.

(** ** Case: the village of input_file_1.py, its users in reverse order and one of them in two groups *)

Definition with_members (u : user) (n : Z) : user :=
  User.User (user_name u) n (user_preference u) (rand_daily_pref u) (load u) (app_list u).

Lemma fresh_whole F a : not_simulated F a -> whole_day a.
Proof. unfold not_simulated, whole_day, zlen. intros H. apply fill_windows_len in H. rewrite H. unfold zeros. rewrite repeat_length. reflexivity. Qed.

Example C70_case depth F strict w n : exact F -> (0 < depth)%nat -> 1 <= n ->
  exists us u us1 us' c rows, build_users F strict (input_file_1 F) = Ok us /\ us = u :: us1 /\ num_users u = 11 /\
    us' = rev us1 ++ [with_members u 4; with_members u 7] /\
    same_population us us' /\ all_apps whole_day us /\
    may (PropsTotal.simulate depth F w us None None 0 None (Some n) None) (Ok (c, rows)) /\ zlen rows = n.
Proof.
  intros HF Hdep Hn. destruct (file_1_ready F strict n) as (us & E & Hb & Ha).
  destruct (may_exists _ (bp_simulate depth F w us None None 0 None (Some n) None)) as (r & Hr).
  destruct (C69_village depth F strict n r Hdep Hn) as (c & rows & -> & Hlen).
  { exists us, w, None, None, 0%Q, None, (Some n), None. split; [exact E|]. split; [reflexivity|]. split; [left; reflexivity|exact Hr]. }
  unfold input_file_1 in Hb at 1. inversion Hb as [|? u ? us1 (_ & Hu & _) Hb1 E1 E2]. clear Hb Hb1. cbn [e_num] in Hu. subst us.
  exists (u :: us1), u, us1, (rev us1 ++ [with_members u 4; with_members u 7]), c, rows.
  split; [exact E|]. split; [reflexivity|]. split; [exact Hu|]. split; [reflexivity|]. split.
  - eapply pop_trans; [apply pop_order; apply (Permutation_trans (Permutation_rev (u :: us1))); cbn [rev]; apply Permutation_refl|].
    apply pop_split; cbn; try reflexivity; lia.
  - split; [|split; [exact Hr|exact Hlen]]. eapply all_apps_impl; [|exact Ha]. intros a Hx. exact (fresh_whole F a (rtu_fresh _ _ _ _ Hx)).
Qed.
