(** * PropsPeak: C33, C34 (peak time range) and C36 (random seed) *)
From Verif Require Import Base Wp ListLemmas Utils Appliance User Spec SpecUser ProofsUser ProofsUser2 PropsUser Tape
  UseCase SpecUseCase ProofsUseCase PropsUseCase PropsInit.
From Coq Require Import Sorted.
Open Scope list_scope.
Open Scope Z_scope.

(** ** The minutes of the maximum *)

Lemma np_amax_spec l : l <> [] -> (exists x, In x l /\ x = np_amax l) /\ Forall (fun x => (x <= np_amax l)%Q) l.
Proof.
  destruct l as [|x0 l]; [congruence|]. intros _. cbn [np_amax].
  assert (G : forall l m, let r := fold_left (fun m y => if Qle_bool m y then y else m) l m in
    (r = m \/ In r l) /\ (m <= r)%Q /\ Forall (fun x => (x <= r)%Q) l).
  { clear. induction l as [|y l IH]; intros m; cbv zeta; cbn [fold_left].
    - split; [left; reflexivity|]. split; [apply Qle_refl|constructor].
    - destruct (Qle_bool m y) eqn:E.
      + apply Qle_bool_iff in E. destruct (IH y) as (H1 & H2 & H3). split; [|split].
        * right. destruct H1 as [->|H1]; [left; reflexivity|right; exact H1].
        * eapply Qle_trans; eassumption.
        * constructor; assumption.
      + apply Qle_bool_false in E. destruct (IH m) as (H1 & H2 & H3). split; [|split].
        * destruct H1 as [->|H1]; [left; reflexivity|right; right; exact H1].
        * exact H2.
        * constructor; [|exact H3]. apply Qlt_le_weak. eapply Qlt_le_trans; eassumption. }
  destruct (G l x0) as (H1 & H2 & H3). split.
  - eexists. split; [|reflexivity]. destruct H1 as [->|H1]; [left; reflexivity|right; exact H1].
  - constructor; assumption.
Qed.

Lemma arange_sorted a b : StronglySorted Z.lt (arange a b).
Proof.
  unfold arange. generalize 0%nat as k. generalize (Z.to_nat (b - a)) as n. induction n as [|n IH]; intros k; [constructor|].
  cbn [seq map]. constructor; [apply IH|]. apply Forall_forall. intros x Hx. apply in_map_iff in Hx.
  destruct Hx as (y & <- & Hy). apply in_seq in Hy. lia.
Qed.

Lemma filter_sorted (f : Z -> bool) l : StronglySorted Z.lt l -> StronglySorted Z.lt (filter f l).
Proof.
  induction 1 as [|x l H IH Hx]; cbn [filter]; [constructor|]. destruct (f x); [|exact IH].
  constructor; [exact IH|]. rewrite Forall_forall in *. intros y Hy. apply filter_In in Hy. apply Hx, Hy.
Qed.

Lemma sorted_nth l : StronglySorted Z.lt l -> forall i j, (i < j < List.length l)%nat -> nth i l 0 < nth j l 0.
Proof.
  induction 1 as [|x l H IH Hx]; intros i j [Hij Hj]; [cbn in Hj; lia|]. destruct j as [|j]; [lia|].
  cbn [List.length] in Hj. destruct i as [|i]; cbn [nth].
  - rewrite Forall_forall in Hx. apply Hx, nth_In. lia.
  - apply IH. lia.
Qed.

Lemma peak_window_maximal F c : maximal_minutes (total_max_profile F c) (peak_window F c).
Proof.
  unfold peak_window. set (p := total_max_profile F c). split.
  - intros t. rewrite filter_In, in_arange, Qeq_bool_iff. change (nth (Z.to_nat t) p 0%Q) with (value_at p t).
    assert (Hv : forall t, 0 <= t < zlen p -> In (value_at p t) p).
    { intros t' Ht'. apply nth_In. unfold zlen in Ht'. lia. }
    split; intros [Ht H]; (split; [exact Ht|]).
    + intros t' Ht'. rewrite H.
      assert (Hne : p <> []) by (intros E; rewrite E in Ht; cbn in Ht; lia).
      destruct (np_amax_spec p Hne) as (_ & Hall). rewrite Forall_forall in Hall. apply Hall, Hv, Ht'.
    + assert (Hne : p <> []) by (intros E; rewrite E in Ht; cbn in Ht; lia).
      destruct (np_amax_spec p Hne) as ((x & Hx & Hm) & Hall). rewrite Forall_forall in Hall.
      apply Qle_antisym; [apply Hall, Hv, Ht|]. rewrite <- Hm.
      destruct (In_nth p x 0%Q Hx) as (k & Hk & Hkx).
      specialize (H (Z.of_nat k)). unfold value_at at 1 in H. rewrite Nat2Z.id, Hkx in H. apply H. unfold zlen. lia.
  - apply sorted_nth, filter_sorted, arange_sorted.
Qed.

(** the minutes of the maximum are determined by the profile *)
Lemma maximal_minutes_unique p ms ms' : maximal_minutes p ms -> maximal_minutes p ms' -> ms = ms'.
Proof.
  intros [H1 S1] [H2 S2].
  assert (E : forall t, In t ms <-> In t ms') by (intros t; rewrite H1, H2; reflexivity).
  assert (SS : forall l, (forall i j, (i < j < List.length l)%nat -> nth i l 0 < nth j l 0) -> StronglySorted Z.lt l).
  { clear. induction l as [|x l IH]; intros H; [constructor|]. constructor.
    - apply IH. intros i j Hij. apply (H (S i) (S j)). cbn. lia.
    - apply Forall_forall. intros y Hy. destruct (In_nth l y 0 Hy) as (k & Hk & <-). apply (H O (S k)). cbn. lia. }
  apply SS in S1. apply SS in S2. clear H1 H2 SS. revert ms' S2 E.
  induction S1 as [|x l Hl IH Hx]; intros ms' S2 E.
  - destruct ms' as [|y l']; [reflexivity|]. exfalso. apply (E y). left. reflexivity.
  - destruct S2 as [|y l' Hl' Hy]; [exfalso; apply (E x); left; reflexivity|].
    rewrite Forall_forall in Hx, Hy.
    assert (x = y) as ->.
    { destruct (proj1 (E x) (or_introl eq_refl)) as [->|Hin]; [reflexivity|].
      destruct (proj2 (E y) (or_introl eq_refl)) as [->|Hin']; [reflexivity|].
      specialize (Hy x Hin). specialize (Hx y Hin'). lia. }
    f_equal. apply IH; [exact Hl'|]. intros t. split; intros Ht.
    + destruct (proj1 (E t) (or_intror Ht)) as [<-|Hin]; [|exact Hin]. specialize (Hx _ Ht). lia.
    + destruct (proj2 (E t) (or_intror Ht)) as [<-|Hin]; [|exact Hin]. specialize (Hy _ Ht). lia.
Qed.

(** ** C33 and C34 *)

(** peak time drawn from normal deviate [z]: around the rounded mean of the minutes [ms], with
    standard deviation a third of their spread *)
Definition peak_time_drawn (F : fm) (ms : list Z) (z : Q) : Z :=
  py_round (fadd F (zq (py_round (fdiv F (zq (zsum ms)) (zq (zlen ms)))))
                   (fmul F z (fmul F (fdiv F 1 3) (zq (last ms 0 - hd 0 ms))))).
(** its random enlargement, drawn from normal deviate [z'] *)
Definition enlargement_drawn (F : fm) (enlarge : Q) (pt : Z) (z' : Q) : Z :=
  Z.max (py_round (Qabs (fsub F (zq pt) (fadd F (zq pt) (fmul F z' (fmul F enlarge (zq pt))))))) 1.

Lemma last_cons_cons {A} (x y : A) l d : last (x :: y :: l) d = last (y :: l) x.
Proof. revert x y. induction l as [|z l IH]; intros x y; [reflexivity|]. change (last (y :: z :: l) d = last (z :: l) x).
  rewrite IH. destruct l; [reflexivity|]. cbn [last]. clear. revert a. induction l as [|b l IH]; intros a; [reflexivity|apply IH]. Qed.

Lemma draw_peak_range_may F enl ms r :
  may (draw_peak_range F enl ms) (Ok r) <->
  (zlen ms < 2 /\ r = Err IndexError) \/
  (2 <= zlen ms /\ exists z z', let pt := peak_time_drawn F ms z in
     let k := enlargement_drawn F enl pt z' in r = Ok (arange (pt - k) (pt + k))).
Proof.
  destruct ms as [|m0 [|m1 rest]].
  - cbn [draw_peak_range]. rewrite may_ret_inv. unfold zlen. cbn [List.length].
    split; [intros H; left; split; [lia|congruence]|]. intros [[_ ->]|[H _]]; [reflexivity|lia].
  - cbn [draw_peak_range]. rewrite may_ret_inv. unfold zlen. cbn [List.length].
    split; [intros H; left; split; [lia|congruence]|]. intros [[_ ->]|[H _]]; [reflexivity|lia].
  - assert (Hz : 2 <= zlen (m0 :: m1 :: rest)) by (rewrite !zlen_cons; pose proof (zlen_nonneg rest); lia).
    unfold draw_peak_range, py_normalvariate, py_gauss. cbn [bind]. cbv zeta.
    unfold peak_time_drawn, enlargement_drawn. rewrite last_cons_cons. cbn [hd]. split.
    + intros H. right. split; [exact Hz|]. inversion H as [| | | |c1 z k1 r1 H1 E1|]; subst.
      inversion H1 as [| | | |c2 z' k2 r2 H2 E2|]; subst. apply may_ret_inv in H2. injection H2 as ->.
      exists z, z'. reflexivity.
    + intros [[Hlt _]|(_ & z & z' & ->)]; [lia|]. apply may_normal with (z := z). apply may_normal with (z := z').
      constructor.
Qed.

(** the computed range is [pt-k .. pt+k-1] for the drawn peak time [pt] and some k >= 1: never
    empty, consecutive, and it contains the peak time *)
Theorem C33_run_of_minutes F c l :
  may (calc_peak_time_range F c) (Ok (Ok l)) ->
  exists ms z k, maximal_minutes (total_max_profile F c) ms /\ 1 <= k /\
    let pt := peak_time_drawn F ms z in
    consecutive_minutes (pt - k) (2 * k) l /\ In pt l /\ l <> [].
Proof.
  intros H. unfold calc_peak_time_range in H. apply draw_peak_range_may in H.
  destruct H as [[_ H]|(Hz & z & z' & H)]; [discriminate|]. cbv zeta in H. injection H as ->.
  set (pt := peak_time_drawn F (peak_window F c) z). set (k := enlargement_drawn F (peak_enlarge c) pt z').
  assert (Hk : 1 <= k) by (unfold k, enlargement_drawn; lia).
  exists (peak_window F c), z, k. split; [apply peak_window_maximal|]. split; [exact Hk|]. cbv zeta. fold pt.
  split; [|split].
  - replace (pt + k) with (pt - k + 2 * k) by lia. apply minutes_consecutive. lia.
  - apply in_arange. lia.
  - intros E. assert (Hin : In pt (arange (pt - k) (pt + k))) by (apply in_arange; lia). rewrite E in Hin. destruct Hin.
Qed.

(** after a successful initialize the stored range is such a run *)
Theorem C33_after_initialize F w c nd enl force c' :
  is_initialized c && negb force = false -> may (initialize F w c nd enl force) (Ok (c', None)) ->
  exists l m n, peak_time_range c' = Some l /\ 1 <= n /\ consecutive_minutes m (2 * n) l.
Proof.
  intros Hf H. rewrite initialize_stages, Hf in H.
  destruct (dates_stage w c nd force) as [c1 [e|]] eqn:E; [apply may_ret_inv in H; discriminate|].
  unfold init_finish in H. destruct (check_powers _ _ _) as [us e]. destruct e; [apply may_ret_inv in H; discriminate|].
  apply may_bind in H as [([c2 e] & H1 & H)|(e & _ & H)]; [|discriminate]. cbn [fst snd] in H.
  destruct e; [apply may_ret_inv in H; inversion H|]. apply may_ret_inv in H. injection H as ->.
  assert (Hp : forall c0, peak_time_range (init_index c0) = peak_time_range c0).
  { intros c0. unfold init_index. destruct (days c0) as [[|]|]; reflexivity. }
  rewrite Hp.
  assert (G : forall c0 c2 (f : list Z -> usecase) g, (forall p, peak_time_range (f p) = Some p) ->
    may (r <- calc_peak_time_range F c0 ;; Ret (match r with Ok p => (f p, None) | Err e => (g, Some e) end)) (Ok (c2, @None exc)) ->
    exists l m n, peak_time_range c2 = Some l /\ 1 <= n /\ consecutive_minutes m (2 * n) l).
  { intros c0 c3 f g Hfp Hm. apply may_bind in Hm as [(r & Hr & Hm)|(e & _ & Hm)]; [|discriminate].
    destruct r as [p|e]; apply may_ret_inv in Hm; inversion Hm; subst.
    destruct (C33_run_of_minutes F c0 p Hr) as (ms & z & k & _ & Hk & Hc & _). exists p. rewrite Hfp. eauto. }
  destruct enl as [x|].
  - unfold set_peak_enlarge in H1. destruct x as [q|]; [|apply may_ret_inv in H1; discriminate].
    destruct (Qle_bool 0 q); [|apply may_ret_inv in H1; discriminate]. cbv zeta in H1.
    apply G in H1; [exact H1|]. reflexivity.
  - apply G in H1; [exact H1|]. reflexivity.
Qed.

Lemma hamlet_window : peak_window exact_fm (hamlet None None None) = arange 480 600.
Proof. vm_compute. reflexivity. Qed.

Example C33_case : exists l, may (calc_peak_time_range exact_fm (hamlet None None None)) (Ok (Ok l)) /\
  l = arange 518 602.
Proof. eexists. split; [|reflexivity]. apply (follow_may _ [DQ (1 # 2); DQ (1 # 2)]).
  unfold calc_peak_time_range. rewrite hamlet_window. change (peak_enlarge (hamlet None None None)) with (15 # 100)%Q. vm_compute. reflexivity. Qed.

(** The outcomes of calc_peak_time_range.  [ms] are the minutes at which the sum of the users'
    maximum profiles is maximal; the peak time is drawn around their mean with standard
    deviation a third of their spread.  With two or more such minutes it never fails; with one it
    always raises IndexError. *)
Theorem C34_peak_partial F c ms r :
  maximal_minutes (total_max_profile F c) ms ->
  may (calc_peak_time_range F c) (Ok r) <->
  (zlen ms < 2 /\ r = Err IndexError) \/
  (2 <= zlen ms /\ exists z z', let pt := peak_time_drawn F ms z in
     let k := enlargement_drawn F (peak_enlarge c) pt z' in r = Ok (arange (pt - k) (pt + k))).
Proof.
  intros Hm. rewrite (maximal_minutes_unique _ _ _ Hm (peak_window_maximal F c)). apply draw_peak_range_may.
Qed.

Lemma py_round_comp x y : (x == y)%Q -> py_round x = py_round y.
Proof.
  intros H. unfold py_round. rewrite (Qfloor_comp x y H).
  assert (L : forall a b c d, (a == b)%Q -> (c == d)%Q -> Qltb a c = Qltb b d).
  { intros a b c d H1 H2. destruct (Qltb a c) eqn:E.
    - symmetry. apply Qltb_lt. apply Qltb_lt in E. rewrite <- H1, <- H2. exact E.
    - symmetry. apply Qltb_ge. apply Qltb_ge in E. rewrite <- H1, <- H2. exact E. }
  assert (E : (x - inject_Z (Qfloor y) == y - inject_Z (Qfloor y))%Q) by (rewrite H; reflexivity).
  rewrite (L _ _ _ _ E (Qeq_refl (1 # 2))), (L _ _ _ _ (Qeq_refl (1 # 2)) E). reflexivity.
Qed.

(** in exact arithmetic the drawn peak time is the mean (rounded) plus z times a third of the spread *)
Theorem C34_peak_time_exact F ms z :
  exact F -> peak_time_drawn F ms z =
  py_round (zq (py_round (zq (zsum ms) / zq (zlen ms))) + z * (zq (last ms 0 - hd 0 ms) / 3)).
Proof.
  intros HF. pose proof (fun x => exact_rnd F x HF) as HR. unfold peak_time_drawn, fadd, fmul, fdiv. 
  rewrite (py_round_comp _ _ (HR (zq (zsum ms) / zq (zlen ms))%Q)). apply py_round_comp. rewrite !HR.
  apply Qplus_comp; [reflexivity|]. apply Qmult_comp; [reflexivity|]. unfold Qdiv. ring.
Qed.

(** and the profile whose maximum is looked for is the sum of the users' maximum profiles *)
Theorem C34_total_profile F c t :
  exact F -> 0 <= t < 1440 -> Forall (fun u => zlen (user_maximum_profile F u) = 1440) (users c) ->
  (value_at (total_max_profile F c) t == minute_sum t (map (user_maximum_profile F) (users c)))%Q.
Proof.
  intros HF Ht Hl.
  assert (E : total_max_profile F c = sum_rows F (map (user_maximum_profile F) (users c))).
  { unfold total_max_profile, sum_rows. generalize (zeros day_minutes). induction (users c) as [|u us IH]; intros acc; [reflexivity|].
    cbn [fold_left map]. apply IH. inversion Hl; assumption. }
  rewrite E. apply sum_rows_exact; [exact HF|exact Ht|].
  apply Forall_forall. intros l Hin. apply in_map_iff in Hin. destruct Hin as (u & <- & Hu).
  rewrite Forall_forall in Hl. specialize (Hl u Hu). unfold zlen, day_minutes in *. lia.
Qed.

Example C34_case : zlen (peak_window exact_fm (hamlet None None None)) = 120 /\
  hd 0 (peak_window exact_fm (hamlet None None None)) = 480 /\
  Forall (fun u => zlen (user_maximum_profile exact_fm u) = 1440) (users (hamlet None None None)).
Proof. rewrite hamlet_window. split; [reflexivity|]. split; [reflexivity|]. constructor; [vm_compute; reflexivity|constructor]. Qed.

(** a use case whose maximum lasts one minute only cannot be initialized *)
Definition minute_lamp : appliance :=
  App (par lamp) (power lamp) true (Wins (480, 481) (0, 0) (0, 0) 0 0 0 0) default_cycle default_cycle default_cycle
    (set_daily_use default_dyn (map (fun t => if t =? 480 then (1 # 1000)%Q else 0%Q) (arange 0 1440))).
Theorem C34_single_minute_refuted : exists c, all_collected c /\
  (forall r, may (calc_peak_time_range exact_fm c) r -> r = Ok (Err IndexError)) /\
  (forall r, may (initialize exact_fm nobody c (Some 1) None false) r -> exists c', r = Ok (c', Some IndexError)).
Proof.
  exists (blank (Some 1051200000) None false (15 # 100) None [User "one" 1 0 0 [] [minute_lamp]]).
  split; [reflexivity|]. split.
  - intros r H. assert (E : calc_peak_time_range exact_fm (blank (Some 1051200000) None false (15 # 100) None [User "one" 1 0 0 [] [minute_lamp]])
      = Ret (Err IndexError)) by (vm_compute; reflexivity).
    rewrite E in H. apply may_ret_inv in H. exact H.
  - intros r H.
    assert (E : exists c', initialize exact_fm nobody
        (blank (Some 1051200000) None false (15 # 100) None [User "one" 1 0 0 [] [minute_lamp]]) (Some 1) None false
        = Ret (c', Some IndexError)) by (eexists; vm_compute; reflexivity).
    destruct E as (c' & E). rewrite E in H. apply may_ret_inv in H. eauto.
Qed.

(** calc_peak_time_range(peak_enlarge=x) stores one range and returns another *)
Theorem C34_returned_not_stored_refuted : exists c c' l l',
  may (calc_peak_time_range_with exact_fm c (EFloat (15 # 100))) (Ok (c', Ok l)) /\
  peak_time_range c' = Some l' /\ l = arange 518 602 /\ l' = arange 539 541.
Proof.
  exists (hamlet None None None).
  destruct (follow_check (calc_peak_time_range_with exact_fm (hamlet None None None) (EFloat (15 # 100)))
    [DQ 0; DQ 0; DQ (1 # 2); DQ (1 # 2)]
    (fun x => match snd x, peak_time_range (fst x) with
      | Ok l, Some l' => (if list_eq_dec Z.eq_dec l (arange 518 602) then true else false) &&
                         (if list_eq_dec Z.eq_dec l' (arange 539 541) then true else false)
      | _, _ => false end)) as ([c' r] & H & Hv).
  { vm_compute. reflexivity. }
  cbn [fst snd] in Hv. destruct r as [l|]; [|discriminate]. destruct (peak_time_range c') as [l'|] eqn:E; [|discriminate].
  exists c', l, l'. split; [exact H|]. split; [exact E|].
  destruct (list_eq_dec Z.eq_dec l (arange 518 602)); [|discriminate].
  destruct (list_eq_dec Z.eq_dec l' (arange 539 541)); [|discriminate]. auto.
Qed.

(** ** C36 *)

(** Not both dates given to the constructor, seed given and not 0: whatever is done next (any
    calls at all, represented by [k]) has the same result from every state of the generator. *)
Theorem C36_seed_partial {A} (G : generator) F w us start stop par enl z (k : usecase -> prog A) s s' :
  z <> 0 -> (start = None \/ stop = None) ->
  run G (bind (new_usecase F w us start stop par enl (Some z)) k) s =
  run G (bind (new_usecase F w us start stop par enl (Some z)) k) s'.
Proof.
  intros Hz H. unfold new_usecase. cbv zeta. unfold seed_of. destruct (Z.eqb_spec z 0); [contradiction|].
  destruct start, stop; destruct H; try discriminate; reflexivity.
Qed.

(** in particular the profiles *)
Theorem C36_profiles_partial (G : generator) depth F w us start stop par enl z nd enl' s s' :
  z <> 0 -> (start = None \/ stop = None) ->
  let session :=
    c <- new_usecase F w us start stop par enl (Some z) ;;
    r <- initialize F w c nd enl' false ;;
    match snd r with Some e => Raise e | None =>
      x <- generate_sequential depth F w (fst r) None ;; Ret (snd x) end in
  fst (run G session s) = fst (run G session s').
Proof. intros Hz H. cbv zeta. f_equal. apply C36_seed_partial; assumption. Qed.

(** Both dates given: the constructor draws the peak time range before it seeds; calling
    initialize(force=True) afterwards draws it again, and then the results are reproducible. *)
Lemma run_draw_peak (G : generator) F enl ms s :
  exists r s', run G (draw_peak_range F enl ms) s = (Ok r, s') /\
  ((zlen ms < 2 /\ r = Err IndexError) \/ (2 <= zlen ms /\ exists l, r = Ok l)).
Proof.
  destruct ms as [|m0 [|m1 rest]].
  - eexists. eexists. split; [reflexivity|]. left. split; [reflexivity|reflexivity].
  - eexists. eexists. split; [reflexivity|]. left. split; [reflexivity|reflexivity].
  - unfold draw_peak_range, py_normalvariate, py_gauss. cbn [bind run].
    destruct (g_normal G false s) as [z s1]. destruct (g_normal G true s1) as [z' s2].
    eexists. eexists. split; [reflexivity|]. right. rewrite !zlen_cons. pose proof (zlen_nonneg rest). split; [lia|eauto].
Qed.

Lemma run_initialize_fresh (G : generator) F w c nd force :
  is_initialized c && negb force = false ->
  (exists c1, forall s, exists p s1, run G (initialize F w c nd None force) s = (Ok (set_peak c1 (Some p), None), s1)) \/
  (exists c1 e, forall s, exists s1, run G (initialize F w c nd None force) s = (Ok (c1, Some e), s1)).
Proof.
  intros Hf. rewrite initialize_stages, Hf.
  destruct (dates_stage w c nd force) as [c1 [e|]]; [right; exists c1, e; intros s; eexists; reflexivity|].
  unfold init_finish. destruct (check_powers _ _ _) as [us e].
  destruct e as [e|]; [right; exists (set_users c1 us), e; intros s; eexists; reflexivity|].
  unfold calc_peak_time_range. set (ms := peak_window F (set_users c1 us)).
  set (enl := peak_enlarge (set_users c1 us)).
  destruct (Z_lt_le_dec (zlen ms) 2) as [Hlt|Hge].
  - right. exists (set_users c1 us), IndexError. intros s. rewrite !run_bind.
    destruct (run_draw_peak G F enl ms s) as (r & s1 & -> & [[_ ->]|[Hx _]]); [|lia]. cbn. eexists. reflexivity.
  - left. exists (init_index (set_users c1 us)). intros s. rewrite !run_bind.
    destruct (run_draw_peak G F enl ms s) as (r & s1 & -> & [[Hx _]|[_ (l & ->)]]); [lia|].
    cbn [run fst snd]. exists l, s1. repeat f_equal.
    unfold init_index. cbn [days set_peak set_users]. destruct (days c1) as [[|d ds]|]; reflexivity.
Qed.

Lemma init_num_days_arg_peak c x nd : init_num_days_arg (set_peak c x) nd = set_peak (init_num_days_arg c nd) x.
Proof. unfold init_num_days_arg. destruct nd; [|reflexivity]. cbn [days set_peak]. destruct (days c); reflexivity. Qed.
Lemma init_both_dates_peak c x : init_both_dates (set_peak c x) = set_peak (init_both_dates c) x.
Proof.
  unfold init_both_dates. cbn [date_start date_end set_peak]. destruct (date_start c); [|reflexivity].
  destruct (date_end c); [|reflexivity]. cbv zeta. cbn [num_days_ set_days set_peak].
  destruct (num_days_ c); [destruct (negb _)|]; reflexivity.
Qed.
Lemma init_prompt_peak w c x : init_prompt w (set_peak c x) = (set_peak (fst (init_prompt w c)) x, snd (init_prompt w c)).
Proof. unfold init_prompt. cbn [num_days_ set_peak]. destruct (num_days_ c); [reflexivity|]. destruct (typed w); reflexivity. Qed.
Lemma init_days_peak w c x : init_days w (set_peak c x) = (set_peak (fst (init_days w c)) x, snd (init_days w c)).
Proof.
  unfold init_days. cbv zeta. cbn [num_days_ days date_start date_end set_peak].
  destruct (days c) as [ds|]; [reflexivity|].
  destruct (date_start c) as [a|]; [destruct (date_range_sp _ _); reflexivity|].
  destruct (date_end c) as [b|]; [destruct (date_range_ep _ _); reflexivity|destruct (date_range_sp _ _); reflexivity].
Qed.

(** initialize(force=True) forgets the earlier peak time range *)
Lemma initialize_force_peak {A} F w c p p' nd (k : usecase -> prog A) :
  let go c := bind (initialize F w c nd None true)
                (fun r => match snd r with Some e => Raise e | None => k (fst r) end) in
  go (set_peak c (Some p)) = go (set_peak c (Some p')).
Proof.
  cbv zeta beta. rewrite !initialize_stages. rewrite !andb_false_r.
  unfold dates_stage. rewrite !andb_true_r.
  assert (Hi : is_initialized (set_peak c (Some p)) = is_initialized (set_peak c (Some p'))) by reflexivity.
  rewrite Hi. set (b := is_initialized (set_peak c (Some p'))). clearbody b. clear Hi.
  set (c0 := if b then set_days c None else c).
  assert (H0 : forall x, (if b then set_days (set_peak c x) None else set_peak c x) = set_peak c0 x).
  { intros x. subst c0. destruct b; reflexivity. }
  rewrite !H0. clearbody c0. clear H0 c b.
  rewrite !init_num_days_arg_peak, !init_both_dates_peak, !init_prompt_peak.
  destruct (init_prompt w (init_both_dates (init_num_days_arg c0 nd))) as [c1 [e|]]; cbn [fst snd]; [reflexivity|].
  rewrite !init_days_peak. destruct (init_days w c1) as [c2 [e|]]; cbn [fst snd]; [reflexivity|].
  unfold init_finish. cbn [num_days_ users collected set_peak].
  destruct (check_powers _ _ _) as [us [e|]]; [reflexivity|].
  unfold calc_peak_time_range.
  change (peak_window F (set_users (set_peak c2 (Some p)) us)) with (peak_window F (set_users c2 us)).
  change (peak_window F (set_users (set_peak c2 (Some p')) us)) with (peak_window F (set_users c2 us)).
  destruct (peak_window F (set_users c2 us)) as [|m0 [|m1 ms]]; reflexivity.
Qed.

Theorem C36_force_partial {A} (G : generator) F w us start stop par enl z nd (k : usecase -> prog A) s s' :
  z <> 0 ->
  let session :=
    c <- new_usecase F w us start stop par enl (Some z) ;;
    r <- initialize F w c nd None true ;;
    match snd r with Some e => Raise e | None => k (fst r) end in
  fst (run G session s) = fst (run G session s').
Proof.
  intros Hz. cbv zeta.
  assert (D : (exists a b, start = Some a /\ stop = Some b) \/ (start = None \/ stop = None)).
  { destruct start, stop; eauto 6. }
  destruct D as [(a & b & -> & ->)|D]; [|f_equal; apply C36_seed_partial; assumption].
  unfold new_usecase. cbv zeta. unfold seed_of. destruct (Z.eqb_spec z 0); [contradiction|].
  set (c0 := blank (Some a) (Some b) par enl (Some z) us).
  assert (Hf : is_initialized c0 && negb false = false) by reflexivity.
  rewrite !run_bind.
  destruct (run_initialize_fresh G F w c0 None false Hf) as [(c1 & H1)|(c1 & e & H1)].
  - destruct (H1 s) as (p & s1 & E1). destruct (H1 s') as (p' & s1' & E1').
    rewrite E1, E1'. cbn [snd fst bind run].
    rewrite (initialize_force_peak F w c1 p p' nd k). reflexivity.
  - destruct (H1 s) as (s1 & E1). destruct (H1 s') as (s1' & E1'). rewrite E1, E1'. reflexivity.
Qed.

(** a generator whose state is the next normal deviate *)
Definition constant_generator : generator.
Proof.
  refine (Gen Q (fun z => inject_Z z) (fun s => (0%Q, s)) (fun n s => (0, s)) (fun _ s => (s, s)) _ _).
  - intros s. cbn. split; [apply Qle_refl|reflexivity].
  - intros n s Hn. cbn. lia.
Defined.

Example C36_case : (7 <> 0) /\ exists c g l,
  run constant_generator
    (c <- new_usecase exact_fm nobody [home] (Some 1051200000) None false (15 # 100) (Some 7) ;;
     initialize exact_fm nobody c (Some 1) None false) 0%Q = (Ok (c, None), g) /\ peak_time_range c = Some l.
Proof. split; [lia|]. eexists. eexists. eexists. split; [vm_compute; reflexivity|reflexivity]. Qed.

(** Both dates given and no forced initialize: the peak time range, drawn by the constructor,
    depends on the earlier state of the generator although a seed is given. *)
Theorem C36_both_dates_refuted : exists (G : generator) (s s' : gstate G) us a b z c c' g g',
  z <> 0 /\
  run G (new_usecase exact_fm nobody us (Some a) (Some b) false (15 # 100) (Some z)) s = (Ok c, g) /\
  run G (new_usecase exact_fm nobody us (Some a) (Some b) false (15 # 100) (Some z)) s' = (Ok c', g') /\
  peak_time_range c <> peak_time_range c'.
Proof.
  exists constant_generator, 0%Q, 1%Q, [home], 1051200000, (1051200000 + 1440), 7.
  eexists. eexists. eexists. eexists. split; [lia|].
  split; [vm_compute; reflexivity|]. split; [vm_compute; reflexivity|]. vm_compute. discriminate.
Qed.

(** random_seed=0 is not a seed for [if self.random_seed] *)
Theorem C36_seed_zero_refuted : exists (G : generator) (s s' : gstate G) us a c c' g g',
  run G (c <- new_usecase exact_fm nobody us (Some a) None false (15 # 100) (Some 0) ;;
         initialize exact_fm nobody c (Some 1) None false) s = (Ok (c, None), g) /\
  run G (c <- new_usecase exact_fm nobody us (Some a) None false (15 # 100) (Some 0) ;;
         initialize exact_fm nobody c (Some 1) None false) s' = (Ok (c', None), g') /\
  peak_time_range c <> peak_time_range c'.
Proof.
  exists constant_generator, 0%Q, 1%Q, [home], 1051200000.
  eexists. eexists. eexists. eexists.
  split; [vm_compute; reflexivity|]. split; [vm_compute; reflexivity|]. vm_compute. discriminate.
Qed.
