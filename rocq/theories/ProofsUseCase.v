(** * ProofsUseCase: initialize, days and the sequential loop *)
From Verif Require Import Base Wp ListLemmas Utils Appliance User Spec SpecUser ProofsUser UseCase SpecUseCase.
From Coq Require Permutation.
Open Scope list_scope.
Open Scope Z_scope.

Definition day_list (s n : Z) : list Z := map (fun k => s + 1440 * k) (arange 0 n).

Lemma day_list_consecutive s n : 0 <= n -> consecutive_days s n (day_list s n).
Proof.
  intros Hn. unfold day_list. split.
  - rewrite zlen_map, zlen_arange. lia.
  - intros k Hk. rewrite nth_indep with (d' := s + 1440 * 0).
    + rewrite map_nth with (f := fun k => s + 1440 * k). rewrite nth_arange; [f_equal; lia|lia].
    + rewrite map_length, arange_length. lia.
Qed.

Lemma day_list_cons s n : 0 < n -> day_list s n = s :: map (fun k => s + 1440 * k) (arange 1 n).
Proof. intros H. unfold day_list. rewrite arange_cons by lia. cbn [map]. f_equal. lia. Qed.

Lemma last_map {A B} (f : A -> B) l x : last (map f l) (f x) = f (last l x).
Proof. induction l as [|y [|z l] IH]; try reflexivity. cbn [map last] in *. exact IH. Qed.

Lemma day_list_last s n : 0 < n -> last (map (fun k => s + 1440 * k) (arange 1 n)) s = s + 1440 * (n - 1).
Proof.
  intros H. transitivity (last (map (fun k => s + 1440 * k) (arange 1 n)) ((fun k => s + 1440 * k) 0)); [f_equal; lia|].
  rewrite (last_map (fun k => s + 1440 * k) (arange 1 n) 0). destruct (Z.eq_dec n 1) as [->|].
  - rewrite arange_nil by lia. reflexivity.
  - rewrite last_arange by lia. lia.
Qed.

Lemma minutes_consecutive s n : 0 <= n -> consecutive_minutes s n (arange s (s + n)).
Proof.
  intros H. split; [rewrite zlen_arange; lia|]. intros k Hk. rewrite nth_arange by lia. lia.
Qed.

Lemma zlen_day_list s n : zlen (day_list s n) = Z.max 0 n.
Proof. unfold day_list. rewrite zlen_map, zlen_arange. lia. Qed.

Lemma date_range_se_list s e : date_range_se s e = day_list s ((e - s) / 1440 + 1).
Proof. reflexivity. Qed.

(** ** The exception-free path of [initialize] *)

Lemma check_powers_len us n : forall refs us' e, check_powers us refs n = (us', e) -> List.length us' = List.length us.
Proof.
  intros refs. revert us. induction refs as [|ij refs IH]; intros us us' e H; cbn [check_powers] in H.
  - now inversion H.
  - destruct (get_app us ij) as [a|]; [|now inversion H].
    destruct (check_power_values a n) as [a'|]; [|now inversion H].
    apply IH in H. rewrite H. unfold put_app. destruct (nth_error us (fst ij)); [apply list_set_length|reflexivity].
Qed.

(** what the last stage does when it succeeds *)
Lemma set_peak_enlarge_ok F c x c' :
  may (set_peak_enlarge F c x) (Ok (c', None)) ->
  exists p, c' = set_peak (set_enlarge c (peak_enlarge c')) (Some p).
Proof.
  unfold set_peak_enlarge. destruct x as [q|]; [|intros H; apply may_ret_inv in H; discriminate].
  destruct (Qle_bool 0 q); [|intros H; apply may_ret_inv in H; discriminate].
  cbv zeta. intros H. apply may_bind in H as [(r & _ & H)|(e & _ & H)]; [|discriminate].
  destruct r as [p|e]; apply may_ret_inv in H; inversion H; subst. exists p. reflexivity.
Qed.

Lemma init_finish_ok F c enl c' n :
  num_days_ c = Some n ->
  may (init_finish F c enl) (Ok (c', None)) ->
  check_powers (users c) (collected c) n = (users c', None) /\
  exists p q, c' = init_index (set_peak (set_enlarge (set_users c (users c')) q) (Some p)).
Proof.
  intros Hn. unfold init_finish. rewrite Hn.
  destruct (check_powers (users c) (collected c) n) as [us e] eqn:Ec.
  destruct e as [e|]; [intros H; apply may_ret_inv in H; discriminate|].
  intros H. apply may_bind in H as [([c1 e] & Hp & H)|(e & _ & H)]; [|discriminate].
  cbn [fst snd] in H. destruct e as [e|]; [apply may_ret_inv in H; inversion H|].
  apply may_ret_inv in H. injection H as ->.
  assert (Hc1 : exists p q, c1 = set_peak (set_enlarge (set_users c us) q) (Some p)).
  { destruct enl as [x|].
    - apply set_peak_enlarge_ok in Hp. destruct Hp as (p & Hc1). exists p, (peak_enlarge c1). exact Hc1.
    - apply may_bind in Hp as [(r & _ & Hp)|(e & _ & Hp)]; [|discriminate].
      destruct r as [p|e]; apply may_ret_inv in Hp; inversion Hp; subst.
      exists p, (peak_enlarge c). destruct c; reflexivity. }
  destruct Hc1 as (p & q & ->).
  assert (Hu : users (init_index (set_peak (set_enlarge (set_users c us) q) (Some p))) = us).
  { unfold init_index. cbn [days set_peak set_enlarge set_users]. destruct (days c) as [[|]|]; reflexivity. }
  rewrite Hu. split; [reflexivity|]. exists p, q. reflexivity.
Qed.

(** stage of the dates *)
Definition dates_stage (w : world) (c : usecase) (num_days : option Z) (force : bool) : usecase * option exc :=
  let c := if is_initialized c && force then set_days c None else c in
  let c := init_both_dates (init_num_days_arg c num_days) in
  let '(c, e) := init_prompt w c in
  match e with Some _ => (c, e) | None => init_days w c end.

Lemma initialize_stages F w c nd enl force :
  initialize F w c nd enl force =
  if is_initialized c && negb force then Ret (c, None)
  else match dates_stage w c nd force with
       | (c', Some e) => Ret (c', Some e)
       | (c', None) => init_finish F c' enl
       end.
Proof.
  unfold initialize, dates_stage. destruct (is_initialized c && negb force); [reflexivity|].
  destruct (init_prompt w _) as [c1 [e|]]; [reflexivity|].
  destruct (init_days w c1) as [c2 [e|]]; reflexivity.
Qed.

(** what only the dates stage may change *)
Definition same_but_dates (c c' : usecase) : Prop :=
  date_start c' = date_start c /\ date_end c' = date_end c /\ parallel_processing c' = parallel_processing c /\
  peak_enlarge c' = peak_enlarge c /\ peak_time_range c' = peak_time_range c /\
  datetimeindex_ c' = datetimeindex_ c /\ random_seed c' = random_seed c /\
  users c' = users c /\ collected c' = collected c.

Lemma same_but_dates_days c x : same_but_dates c (set_days c x).
Proof. repeat split. Qed.
Lemma same_but_dates_num c x : same_but_dates c (set_num_days c x).
Proof. repeat split. Qed.
Lemma same_but_dates_trans a b c : same_but_dates a b -> same_but_dates b c -> same_but_dates a c.
Proof. unfold same_but_dates. intros H H'. intuition congruence. Qed.
Lemma same_but_dates_refl c : same_but_dates c c.
Proof. repeat split. Qed.

Lemma dates_stage_same w c nd force c' e : dates_stage w c nd force = (c', e) -> same_but_dates c c'.
Proof.
  unfold dates_stage. set (c0 := if is_initialized c && force then set_days c None else c).
  assert (H0 : same_but_dates c c0) by (subst c0; destruct (is_initialized c && force); repeat split).
  intros H. set (c1 := init_both_dates (init_num_days_arg c0 nd)) in H.
  assert (H1 : same_but_dates c c1).
  { apply same_but_dates_trans with c0; [exact H0|]. subst c1. clearbody c0.
    apply same_but_dates_trans with (init_num_days_arg c0 nd).
    - unfold init_num_days_arg. destruct nd; [|apply same_but_dates_refl]. destruct (days c0); apply same_but_dates_num.
    - generalize (init_num_days_arg c0 nd) as d. intros d. unfold init_both_dates.
      destruct (date_start d) as [s|], (date_end d) as [x|]; try apply same_but_dates_refl. cbv zeta.
      cbn [num_days_ set_days]. destruct (num_days_ d) as [n|]; [destruct (negb _)|]; repeat split. }
  clearbody c1.
  destruct (init_prompt w c1) as [c2 e2] eqn:E2.
  assert (H2 : same_but_dates c c2).
  { apply same_but_dates_trans with c1; [exact H1|]. unfold init_prompt in E2.
    destruct (num_days_ c1); [inversion E2; apply same_but_dates_refl|].
    destruct (typed w); inversion E2; repeat split. }
  destruct e2 as [e2|]; [inversion H; now subst|].
  apply same_but_dates_trans with c2; [exact H2|]. unfold init_days in H.
  cbv zeta in H.
  match type of H with match ?x with _ => _ end = _ => destruct x as [ds|] end; inversion H; repeat split.
Qed.

(** days already chosen and number of days that agree, or nothing chosen: then the dates stage
    ends with a non empty run of days whose number is num_days *)
Lemma dates_stage_ok w c nd force c' :
  (days c = None \/ is_initialized c = true) -> (is_initialized c && negb force = false) ->
  dates_stage w c nd force = (c', None) ->
  exists s n, 1 <= n /\ num_days_ c' = Some n /\ days c' = Some (day_list s n).
Proof.
  intros Hc Hf. unfold dates_stage.
  set (c0 := if is_initialized c && force then set_days c None else c).
  assert (H0 : days c0 = None).
  { subst c0. destruct (is_initialized c); destruct force; cbn in *; try reflexivity; try discriminate;
    destruct Hc as [Hc|Hc]; try discriminate; assumption. }
  clearbody c0. intros H.
  unfold init_num_days_arg in H. rewrite H0 in H.
  set (c1 := match nd with Some n => set_num_days c0 (Some n) | None => c0 end) in H.
  assert (H1 : days c1 = None) by (subst c1; destruct nd; exact H0).
  clearbody c1.
  set (c2 := init_both_dates c1) in H.
  assert (H2 : days c2 = None \/
    exists s e, num_days_ c2 = Some (zlen (date_range_se s e)) /\ days c2 = Some (date_range_se s e)).
  { subst c2. unfold init_both_dates. destruct (date_start c1) as [s|]; [|now left].
    destruct (date_end c1) as [e|]; [|now left]. cbv zeta. cbn [num_days_ set_days].
    destruct (num_days_ c1) as [n|]; [destruct (negb (n =? zlen (date_range_se s e)))|].
    - now left. - right. exists s, e. split; reflexivity. - right. exists s, e. split; reflexivity. }
  clearbody c2.
  destruct (init_prompt w c2) as [c3 [e|]] eqn:E3; [discriminate|].
  assert (H3 : (days c3 = None /\ exists n, num_days_ c3 = Some n) \/
    exists s e, num_days_ c3 = Some (zlen (date_range_se s e)) /\ days c3 = Some (date_range_se s e)).
  { unfold init_prompt in E3. destruct H2 as [H2|(s & e & Hn & Hd)].
    - left. destruct (num_days_ c2) eqn:En.
      + inversion E3; subst. split; [exact H2|eauto].
      + destruct (typed w) as [n|]; inversion E3; subst. split; [exact H2|]. exists n. reflexivity.
    - rewrite Hn in E3. inversion E3; subst. right. eauto. }
  unfold init_days in H. cbv zeta in H.
  destruct H3 as [[Hd (n & Hn)]|(s & e & Hn & Hd)].
  - rewrite Hd, Hn in H.
    assert (Hfin : forall s, (if n <? 0 then Err ValueError else Ok (day_list s n)) = Ok (day_list s n) ->
      (set_days c3 (Some (day_list s n)), match day_list s n with [] => Some IndexError | _ => None end) = (c', None) ->
      exists s n, 1 <= n /\ num_days_ c' = Some n /\ days c' = Some (day_list s n)).
    { intros s _ Hx. destruct (day_list s n) eqn:El; [discriminate|]. injection Hx as <-.
      exists s, n. split; [|split; [exact Hn|cbn; now rewrite El]].
      pose proof (zlen_day_list s n) as Hz. rewrite El, zlen_cons in Hz. pose proof (zlen_nonneg l). lia. }
    unfold date_range_sp, date_range_ep in H.
    destruct (date_start c3) as [s|]; [|destruct (date_end c3) as [e|]];
      destruct (n <? 0) eqn:E0; try discriminate; eapply Hfin; try reflexivity; exact H.
  - rewrite Hd in H. rewrite date_range_se_list in *. set (m := (e - s) / 1440 + 1) in *.
    destruct (day_list s m) eqn:El; [discriminate|]. injection H as <-.
    pose proof (zlen_day_list s m) as Hz. rewrite El, zlen_cons in Hz. pose proof (zlen_nonneg l).
    exists s, m. split; [lia|]. split; [|cbn; now rewrite El].
    cbn [num_days_ set_days]. rewrite Hn. f_equal. rewrite zlen_cons. lia.
Qed.

Lemma init_index_set_up c s n :
  1 <= n -> num_days_ c = Some n -> days c = Some (day_list s n) -> set_up (init_index c) s n.
Proof.
  intros H1 Hn Hd. unfold init_index. rewrite Hd. rewrite day_list_cons by lia.
  rewrite day_list_last by lia. split; [exact H1|]. split; [exact Hn|]. split.
  - exists (day_list s n). split; [exact Hd|]. apply day_list_consecutive. lia.
  - eexists. split; [reflexivity|]. unfold minute_range.
    replace (s + 1440 * (n - 1) + 1440 - 1 + 1) with (s + 1440 * n) by lia.
    apply minutes_consecutive. lia.
Qed.

Lemma initialize_set_up F w c nd enl force c' :
  (days c = None \/ is_initialized c = true) -> is_initialized c && negb force = false ->
  may (initialize F w c nd enl force) (Ok (c', None)) -> exists s n, set_up c' s n.
Proof.
  intros Hc Hf H. rewrite initialize_stages, Hf in H.
  destruct (dates_stage w c nd force) as [c1 [e|]] eqn:E; [apply may_ret_inv in H; discriminate|].
  destruct (dates_stage_ok w c nd force c1 Hc Hf E) as (s & n & H1 & Hn & Hd).
  destruct (init_finish_ok F c1 enl c' n Hn H) as (_ & p & q & ->).
  exists s, n. apply init_index_set_up; assumption.
Qed.

(** ** The sequential loop *)

Lemma day_type_spec d : is_day_type d (get_day_type d).
Proof.
  unfold is_day_type, get_day_type, weekday. set (m := (d / 1440) mod 7).
  destruct (Z.gtb_spec m 4), (Z.leb_spec 5 m); lia.
Qed.

Lemma user_day_same depth F i peak dt u v l : same_user u v -> user_day depth F i peak dt u l -> user_day depth F i peak dt v l.
Proof.
  intros Hs (u' & H & <-). apply aggregated_may in H. destruct H as (_ & ms & Hl & Hm & ->).
  destruct (aggregated_conv depth F v i peak dt ms) as (v' & Hv & Hl').
  - destruct Hs as (_ & -> & _). exact Hl.
  - eapply Forall_impl; [|exact Hm]. intros m. apply member_day_same. exact Hs.
  - exists v'. split; assumption.
Qed.

Lemma day_of_users_may depth F i peak dt : forall us acc us' l,
  may (day_of_users depth F i peak dt us acc) (Ok (us', l)) ->
  Forall2 same_user us us' /\
  exists loads, Forall2 (user_day depth F i peak dt) us loads /\ l = fold_left (vadd F) loads acc.
Proof.
  induction us as [|u us IH]; intros acc us' l H; cbn [day_of_users] in H.
  - apply may_ret_inv in H. injection H as -> ->. split; [constructor|]. exists []. split; [constructor|reflexivity].
  - apply may_bind in H as [(u' & Hu & H)|(e & _ & H)]; [|discriminate].
    apply may_bind in H as [([us1 l1] & Hr & H)|(e & _ & H)]; [|discriminate].
    apply may_ret_inv in H. cbn [fst snd] in H. injection H as -> ->.
    destruct (IH _ _ _ Hr) as (Hs & loads & Hl & ->).
    pose proof (aggregated_may _ _ _ _ _ _ _ Hu) as (Hsu & _).
    split; [constructor; assumption|]. exists (load u' :: loads). split; [|reflexivity].
    constructor; [exists u'; split; [exact Hu|reflexivity]|exact Hl].
Qed.

Lemma day_of_users_conv depth F i peak dt : forall us loads acc,
  Forall2 (user_day depth F i peak dt) us loads ->
  exists us', may (day_of_users depth F i peak dt us acc) (Ok (us', fold_left (vadd F) loads acc)).
Proof.
  induction us as [|u us IH]; intros loads acc H; inversion H; subst; cbn [day_of_users].
  - exists []. constructor.
  - match goal with H : user_day _ _ _ _ _ _ _ |- _ => destruct H as (u' & Hu & <-) end.
    match goal with H : Forall2 _ us ?l |- _ => destruct (IH l (vadd F acc (load u')) H) as (us' & Hus) end.
    exists (u' :: us'). apply may_bind. left. exists u'. split; [exact Hu|].
    apply may_bind. left. eexists. split; [exact Hus|]. constructor.
Qed.

Lemma Forall2_same_user_trans us vs ws :
  Forall2 same_user us vs -> Forall2 same_user vs ws -> Forall2 same_user us ws.
Proof. apply Forall2_trans. apply same_user_trans. Qed.

Lemma row_of_day_same depth F us vs peak i d row :
  Forall2 same_user us vs -> row_of_day depth F us peak i d row -> row_of_day depth F vs peak i d row.
Proof.
  intros Hs (dt & loads & Hdt & Hl & ->). exists dt, loads. split; [exact Hdt|]. split; [|reflexivity].
  apply Forall2_trans with (R := same_user) (S := user_day depth F i peak dt) (l' := us).
  - intros v u l Hvu Hu. eapply user_day_same; [apply same_user_sym|]; eassumption.
  - apply Forall2_sym; [apply same_user_sym|exact Hs].
  - exact Hl.
Qed.

(** the rows written by the loop; [done] is what earlier days wrote *)
Lemma day_loop_may depth F peak : forall ds i us done rest us' rows,
  zlen done = i ->
  may (day_loop depth F peak i ds us (done ++ rest)) (Ok (us', rows)) ->
  Forall2 same_user us us' /\ zlen ds <= zlen rest /\
  exists new, zlen new = zlen ds /\ rows = done ++ new ++ skipn (List.length ds) rest /\
    forall k d row, nth_error ds k = Some d -> nth_error new k = Some row ->
      row_of_day depth F us peak (i + Z.of_nat k) d row.
Proof.
  induction ds as [|d ds IH]; intros i us dn rest us' rows Hi H; cbn [day_loop] in H.
  - apply may_ret_inv in H. injection H as -> ->. split; [|split; [|exists []; split; [reflexivity|split; [reflexivity|]]]].
    + apply Forall2_refl, same_user_refl.
    + apply zlen_nonneg.
    + intros k x row Hk. destruct k; discriminate.
  - apply may_bind in H as [([us1 l1] & Hd & H)|(e & _ & H)]; [|discriminate]. cbn [fst snd] in H.
    destruct (Z.leb_spec (zlen (dn ++ rest)) i) as [|Hlt]; [apply may_raise_inv in H; discriminate|].
    rewrite zlen_app in Hlt. destruct rest as [|r0 rest]; [rewrite zlen_nil in Hlt; lia|].
    assert (Hset : list_set (dn ++ r0 :: rest) (Z.to_nat i) l1 = (dn ++ [l1]) ++ rest).
    { subst i. unfold zlen. rewrite Nat2Z.id. clear. induction dn as [|x dn IH]; cbn [app list_set List.length]; [reflexivity|].
      f_equal. exact IH. }
    rewrite Hset in H. apply IH in H; [|rewrite zlen_app, Hi; reflexivity].
    destruct H as (Hs & Hz & new & Hnew & -> & Hrow).
    apply day_of_users_may in Hd. destruct Hd as (Hs1 & loads & Hl & ->).
    split; [eapply Forall2_same_user_trans; eassumption|]. split; [rewrite !zlen_cons; lia|].
    exists (fold_left (vadd F) loads (zeros day_minutes) :: new). split; [rewrite !zlen_cons; lia|].
    split; [rewrite <- !app_assoc; reflexivity|].
    intros k x row Hk Hr. destruct k as [|k]; cbn [nth_error] in Hk, Hr.
    + injection Hk as ->. injection Hr as <-. replace (i + Z.of_nat 0) with i by lia.
      exists (get_day_type x), loads. split; [apply day_type_spec|]. split; [exact Hl|reflexivity].
    + replace (i + Z.of_nat (S k)) with (i + 1 + Z.of_nat k) by lia.
      apply row_of_day_same with (us := us1).
      * apply Forall2_sym with (R := same_user); [apply same_user_sym|exact Hs1].
      * eapply Hrow; eassumption.
Qed.

Lemma day_loop_conv depth F peak : forall ds i us dn rest new,
  zlen dn = i -> zlen new = zlen ds -> zlen ds <= zlen rest ->
  (forall k d row, nth_error ds k = Some d -> nth_error new k = Some row ->
      row_of_day depth F us peak (i + Z.of_nat k) d row) ->
  exists us', may (day_loop depth F peak i ds us (dn ++ rest))
    (Ok (us', dn ++ new ++ skipn (List.length ds) rest)).
Proof.
  induction ds as [|d ds IH]; intros i us dn rest new Hi Hn Hz Hrow; cbn [day_loop].
  - destruct new; [|rewrite zlen_cons in Hn; pose proof (zlen_nonneg new); rewrite zlen_nil in Hn; lia].
    exists us. constructor.
  - destruct new as [|l1 new]; [rewrite zlen_cons in Hn; pose proof (zlen_nonneg ds); rewrite zlen_nil in Hn; lia|].
    destruct rest as [|r0 rest]; [rewrite zlen_cons in Hz; pose proof (zlen_nonneg ds); rewrite zlen_nil in Hz; lia|].
    rewrite !zlen_cons in *.
    destruct (Hrow O d l1 eq_refl eq_refl) as (dt & loads & Hdt & Hl & ->).
    replace (i + Z.of_nat 0) with i in Hl by lia.
    assert (dt = get_day_type d) as ->.
    { pose proof (day_type_spec d) as H2. unfold is_day_type in *. cbv zeta in *. congruence. }
    destruct (day_of_users_conv depth F i peak _ us loads (zeros day_minutes) Hl) as (us1 & H1).
    pose proof (day_of_users_may _ _ _ _ _ _ _ _ _ H1) as (Hs1 & _).
    destruct (IH (i + 1) us1 (dn ++ [sum_rows F loads]) rest new) as (us' & H2).
    + rewrite zlen_app, Hi. reflexivity.
    + lia.
    + lia.
    + intros k x row Hk Hr. replace (i + 1 + Z.of_nat k) with (i + Z.of_nat (S k)) by lia.
      apply row_of_day_same with (us := us); [exact Hs1|]. apply Hrow; assumption.
    + exists us'. apply may_bind. left. eexists. split; [exact H1|]. cbn [fst snd].
      destruct (Z.leb_spec (zlen (dn ++ r0 :: rest)) i) as [Hle|_].
      * rewrite zlen_app, zlen_cons in Hle. pose proof (zlen_nonneg rest). lia.
      * assert (Hset : list_set (dn ++ r0 :: rest) (Z.to_nat i) (fold_left (vadd F) loads (zeros day_minutes)) = (dn ++ [sum_rows F loads]) ++ rest).
        { subst i. unfold zlen. rewrite Nat2Z.id. clear. induction dn as [|x dn IH]; cbn [app list_set List.length]; [reflexivity|].
          f_equal. exact IH. }
        rewrite Hset. rewrite <- !app_assoc in H2. cbn [app] in H2. rewrite <- !app_assoc. exact H2.
Qed.

Lemma user_day_len depth F i peak dt u l : user_day depth F i peak dt u l -> List.length l = day_minutes.
Proof.
  intros (u' & H & <-). apply aggregated_may in H. destruct H as (_ & ms & _ & Hm & ->).
  apply sum_rows_len. apply Forall_forall. intros r Hr. apply in_map_iff in Hr. destruct Hr as (m & <- & Hm').
  apply sum_rows_len. rewrite Forall_forall in Hm. destruct (Hm m Hm') as (_ & Hd).
  clear -Hd. induction Hd; constructor; [eapply app_day_len; eassumption|exact IHHd].
Qed.

Lemma row_of_day_len depth F us peak i d row : row_of_day depth F us peak i d row -> List.length row = day_minutes.
Proof.
  intros (dt & loads & _ & Hl & ->). apply sum_rows_len.
  induction Hl; constructor; [eapply user_day_len; eassumption|exact IHHl].
Qed.
