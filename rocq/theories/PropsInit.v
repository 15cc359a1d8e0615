(** * PropsInit: C31 (date range), C32 (power values) *)
From Verif Require Import Base Wp ListLemmas Utils Appliance User Spec SpecUser ProofsUser ProofsUser2 ProofsEq PropsUser Tape
  UseCase SpecUseCase ProofsUseCase PropsUseCase.
Open Scope list_scope.
Open Scope Z_scope.

(** ** C31 *)

(** the range of days the caller asks for *)
Definition requested_days (w : world) (start stop : option Z) (num_days : option Z) (n : Z) (ds : list Z) : Prop :=
  match start, stop, num_days with
  | Some s, Some e, None => consecutive_days s n ds /\ s + 1440 * (n - 1) <= e < s + 1440 * n
  | Some s, _, Some m => n = m /\ consecutive_days s m ds
  | Some s, None, None => typed w = Ok n /\ consecutive_days s n ds
  | None, Some e, Some m => n = m /\ consecutive_days (e - 1440 * (m - 1)) m ds
  | None, Some e, None => typed w = Ok n /\ consecutive_days (e - 1440 * (n - 1)) n ds
  | None, None, Some m => n = m /\ consecutive_days (today w) m ds
  | None, None, None => typed w = Ok n /\ consecutive_days (today w) n ds
  end.

(** this call of initialize chooses the days anew, and either num_days is given or no earlier
    call has left a number of days *)
Definition chooses (c : usecase) (nd : option Z) (force : bool) : Prop :=
  ((days c = None /\ is_initialized c = false) \/ (is_initialized c = true /\ force = true)) /\
  (nd <> None \/ num_days_ c = None).

Lemma chooses_not_early c nd force : chooses c nd force -> is_initialized c && negb force = false.
Proof. intros ([[_ ->]|[-> ->]] & _); reflexivity. Qed.

Lemma dates_stage_requested w c nd force c' :
  chooses c nd force -> dates_stage w c nd force = (c', None) ->
  exists ds n, num_days_ c' = Some n /\ days c' = Some ds /\ requested_days w (date_start c) (date_end c) nd n ds.
Proof.
  intros (Hc & Hnd). unfold dates_stage.
  set (c0 := if is_initialized c && force then set_days c None else c).
  assert (H0 : days c0 = None /\ num_days_ c0 = num_days_ c /\ date_start c0 = date_start c /\ date_end c0 = date_end c).
  { subst c0. destruct Hc as [[Hd Hi]|[Hi ->]]; rewrite Hi; cbn; auto. }
  destruct H0 as (H0 & H1 & H2 & H3). clearbody c0. rewrite <- H2, <- H3. rewrite <- H1 in Hnd.
  clear H1 H2 H3 Hc c. intros H.
  unfold init_num_days_arg in H. rewrite H0 in H.
  assert (Hsp : forall (c : usecase) s n, match date_range_sp s n with
    | Ok ds => (set_days c (Some ds), match ds with [] => Some IndexError | _ => None end)
    | Err e => (c, Some e) end = (c', None) ->
    1 <= n /\ c' = set_days c (Some (day_list s n)) /\ consecutive_days s n (day_list s n)).
  { intros c s n Hx. unfold date_range_sp in Hx. destruct (Z.ltb_spec n 0); [discriminate|].
    fold (day_list s n) in Hx. destruct (day_list s n) eqn:El; [discriminate|]. injection Hx as <-.
    pose proof (zlen_day_list s n) as Hz. rewrite El, zlen_cons in Hz. pose proof (zlen_nonneg l).
    split; [lia|]. split; [reflexivity|]. rewrite <- El. apply day_list_consecutive. lia. }
  assert (Hnn : forall (c : usecase) (ds : list Z),
    (set_days c (Some ds), match ds with [] => Some IndexError | _ => None end) = (c', None) ->
    1 <= zlen ds /\ c' = set_days c (Some ds)).
  { intros c [|x ds] Hx; [discriminate|]. injection Hx as <-. rewrite zlen_cons. pose proof (zlen_nonneg ds). split; [lia|reflexivity]. }
  assert (Hep : forall e n, date_range_ep e n = date_range_sp (e - 1440 * (n - 1)) n) by reflexivity.
  destruct nd as [m|].
  - unfold init_both_dates in H. cbn [num_days_ set_num_days set_days date_start date_end] in H.
    destruct (date_start c0) as [s|] eqn:Es, (date_end c0) as [e|] eqn:Ee; cbv zeta in H.
    + destruct (Z.eqb_spec m (zlen (date_range_se s e))) as [Em|Em]; cbn [negb] in H.
      * unfold init_prompt in H. cbn [num_days_ set_num_days set_days] in H.
        unfold init_days in H. cbn [num_days_ set_num_days set_days days date_start date_end] in H.
        apply Hnn in H. destruct H as (Hpos & ->).
        exists (date_range_se s e), m. cbn. split; [now rewrite Em|]. split; [reflexivity|].
        split; [reflexivity|].
        rewrite date_range_se_list in *. rewrite zlen_day_list in Em, Hpos.
        replace m with ((e - s) / 1440 + 1) by lia.
        apply day_list_consecutive. lia.
      * unfold init_prompt in H. cbn [num_days_ set_num_days set_days] in H.
        unfold init_days in H. cbn [num_days_ set_num_days set_days days date_start date_end] in H.
        rewrite Es in H. apply Hsp in H. destruct H as (Hm & -> & Hcd).
        exists (day_list s m), m. cbn. auto.
    + unfold init_prompt in H. cbn [num_days_ set_num_days] in H.
      unfold init_days in H. cbn [num_days_ set_num_days set_days days date_start date_end] in H.
      rewrite H0, Es in H. apply Hsp in H. destruct H as (Hm & -> & Hcd). exists (day_list s m), m. cbn. auto.
    + unfold init_prompt in H. cbn [num_days_ set_num_days] in H.
      unfold init_days in H. cbn [num_days_ set_num_days set_days days date_start date_end] in H.
      rewrite H0, Es, Ee, Hep in H. apply Hsp in H. destruct H as (Hm & -> & Hcd). eexists. exists m. cbn. eauto.
    + unfold init_prompt in H. cbn [num_days_ set_num_days] in H.
      unfold init_days in H. cbn [num_days_ set_num_days set_days days date_start date_end] in H.
      rewrite H0, Es, Ee in H. apply Hsp in H. destruct H as (Hm & -> & Hcd). eexists. exists m. cbn. eauto.
  - destruct Hnd as [Hnd|Hnd]; [congruence|].
    unfold init_both_dates in H.
    destruct (date_start c0) as [s|] eqn:Es, (date_end c0) as [e|] eqn:Ee; cbv zeta in H;
      cbn [num_days_ set_num_days set_days] in H; rewrite ?Hnd in H.
    + unfold init_prompt in H. cbn [num_days_ set_num_days set_days] in H.
      unfold init_days in H. cbn [num_days_ set_num_days set_days days date_start date_end] in H.
      apply Hnn in H. destruct H as (Hpos & ->).
      exists (date_range_se s e), (zlen (date_range_se s e)). split; [reflexivity|]. split; [reflexivity|]. unfold requested_days.
      rewrite date_range_se_list in *. pose proof (zlen_day_list s ((e - s) / 1440 + 1)) as Hz.
      assert (zlen (day_list s ((e - s) / 1440 + 1)) = (e - s) / 1440 + 1) as Hz' by lia.
      rewrite Hz'. split.
      * apply day_list_consecutive. lia.
      * pose proof (Z.div_mod (e - s) 1440 ltac:(lia)). pose proof (Z.mod_pos_bound (e - s) 1440 ltac:(lia)). lia.
    + unfold init_prompt in H. rewrite Hnd in H. destruct (typed w) as [n|] eqn:Ew; [|discriminate].
      unfold init_days in H. cbn [num_days_ set_num_days set_days days date_start date_end] in H.
      rewrite H0, Es in H. apply Hsp in H. destruct H as (Hm & -> & Hcd). eexists. exists n. cbn. rewrite Ew. eauto.
    + unfold init_prompt in H. rewrite Hnd in H. destruct (typed w) as [n|] eqn:Ew; [|discriminate].
      unfold init_days in H. cbn [num_days_ set_num_days set_days days date_start date_end] in H.
      rewrite H0, Es, Ee, Hep in H. apply Hsp in H. destruct H as (Hm & -> & Hcd). eexists. exists n. cbn. rewrite Ew. eauto.
    + unfold init_prompt in H. rewrite Hnd in H. destruct (typed w) as [n|] eqn:Ew; [|discriminate].
      unfold init_days in H. cbn [num_days_ set_num_days set_days days date_start date_end] in H.
      rewrite H0, Es, Ee in H. apply Hsp in H. destruct H as (Hm & -> & Hcd). eexists. exists n. cbn. rewrite Ew. eauto.
Qed.

Lemma init_index_days c : days (init_index c) = days c /\ num_days_ (init_index c) = num_days_ c.
Proof. unfold init_index. destruct (days c) as [[|d ds]|] eqn:E; cbn; rewrite ?E; auto. Qed.

Theorem C31_dates_partial F w c nd enl force c' :
  chooses c nd force -> may (initialize F w c nd enl force) (Ok (c', None)) ->
  exists ds n, num_days_ c' = Some n /\ days c' = Some ds /\
    requested_days w (date_start c) (date_end c) nd n ds.
Proof.
  intros Hc H. rewrite initialize_stages, (chooses_not_early _ _ _ Hc) in H.
  destruct (dates_stage w c nd force) as [c1 [e|]] eqn:E; [apply may_ret_inv in H; discriminate|].
  destruct (dates_stage_requested w c nd force c1 Hc E) as (ds & n & Hn & Hd & Hr).
  destruct (init_finish_ok F c1 enl c' n Hn H) as (_ & p & q & ->).
  exists ds, n. rewrite (proj1 (init_index_days _)), (proj2 (init_index_days _)). cbn. auto.
Qed.

(** the first call of initialize after the constructor (no date or one date given, later set at
    will) always chooses *)
Lemma C31_first_call us start stop par enl seed nd force :
  chooses (blank start stop par enl seed us) nd force.
Proof. split; [left|right]; cbn; auto. Qed.

(** empty ranges are refused: end before start raises IndexError, num_days = 0 IndexError, a
    negative num_days ValueError *)
Theorem C31_empty_range F w c enl force s e r :
  chooses c None force -> date_start c = Some s -> date_end c = Some e -> e < s ->
  may (initialize F w c None enl force) r -> exists c', r = Ok (c', Some IndexError).
Proof.
  intros Hc Hs He Hlt H. rewrite initialize_stages, (chooses_not_early _ _ _ Hc) in H.
  assert (E : exists c1, dates_stage w c None force = (c1, Some IndexError)).
  { destruct Hc as (Hc & [Hnd|Hnd]); [congruence|]. unfold dates_stage.
    set (c0 := if is_initialized c && force then set_days c None else c).
    assert (H0 : num_days_ c0 = None /\ date_start c0 = Some s /\ date_end c0 = Some e).
    { subst c0. destruct (is_initialized c && force); cbn; auto. }
    destruct H0 as (H1 & H2 & H3). clearbody c0. cbn [init_num_days_arg]. unfold init_both_dates.
    rewrite H2, H3. cbv zeta. cbn [num_days_ set_days]. rewrite H1.
    unfold init_prompt. cbn [num_days_ set_num_days]. unfold init_days. cbn [days set_num_days set_days].
    assert ((e - s) / 1440 + 1 <= 0) by (pose proof (Z.div_lt_upper_bound (e - s) 1440 0 ltac:(lia) ltac:(lia)); lia).
    unfold date_range_se. rewrite arange_nil by lia. cbn [map]. eexists. reflexivity. }
  destruct E as (c1 & E). rewrite E in H. apply may_ret_inv in H. eauto.
Qed.

Theorem C31_num_days_positive F w c m enl force r :
  chooses c (Some m) force -> m <= 0 -> (date_start c = None \/ date_end c = None) ->
  may (initialize F w c (Some m) enl force) r ->
  exists c', r = Ok (c', Some (if m <? 0 then ValueError else IndexError)).
Proof.
  intros Hc Hm Hdt H. rewrite initialize_stages, (chooses_not_early _ _ _ Hc) in H.
  assert (E : exists c1, dates_stage w c (Some m) force = (c1, Some (if m <? 0 then ValueError else IndexError))).
  { destruct Hc as (Hc & _). unfold dates_stage.
    set (c0 := if is_initialized c && force then set_days c None else c).
    assert (H0 : days c0 = None /\ date_start c0 = date_start c /\ date_end c0 = date_end c).
    { subst c0. destruct Hc as [[Hd Hi]|[Hi ->]]; rewrite Hi; cbn; auto. }
    destruct H0 as (H1 & H2 & H3). clearbody c0. unfold init_num_days_arg. rewrite H1.
    unfold init_both_dates. cbn [date_start date_end set_num_days]. rewrite H2, H3.
    assert (Hsame : match date_start c, date_end c with Some s, Some e => set_days c0 None | _, _ => c0 end = c0).
    { destruct (date_start c), (date_end c); try reflexivity. destruct Hdt; discriminate. }
    assert (G : exists c1, (let '(c2, e) := init_prompt w (set_num_days c0 (Some m)) in
        match e with Some _ => (c2, e) | None => init_days w c2 end) = (c1, Some (if m <? 0 then ValueError else IndexError))).
    { unfold init_prompt. cbn [num_days_ set_num_days]. unfold init_days. cbn [num_days_ days date_start date_end set_num_days].
      rewrite H1, H2, H3. unfold date_range_sp, date_range_ep. rewrite arange_nil by lia. cbn [map].
      destruct (date_start c), (date_end c), (m <? 0); eexists; reflexivity. }
    destruct (date_start c), (date_end c); try exact G. destruct Hdt; discriminate. }
  destruct E as (c1 & E). rewrite E in H. apply may_ret_inv in H. eauto.
Qed.

(** the days of C27_case are those requested *)
Example C31_case : exists c' ds, chooses (hamlet (Some 1051200000) None None) (Some 2) false /\
  may (initialize exact_fm nobody (hamlet (Some 1051200000) None None) (Some 2) None false) (Ok (c', None)) /\
  days c' = Some ds /\ ds = [1051200000; 1051200000 + 1440].
Proof.
  destruct C27_case as (_ & c' & _ & _ & _ & _ & H & _).
  assert (Hc : chooses (hamlet (Some 1051200000) None None) (Some 2) false) by apply C31_first_call.
  destruct (C31_dates_partial _ _ _ _ _ _ _ Hc H) as (ds & n & _ & Hd & -> & Hl & Hk).
  exists c', ds. split; [exact Hc|]. split; [exact H|]. split; [exact Hd|].
  destruct ds as [|x [|y [|z ds]]]; try discriminate.
  - pose proof (Hk 0 ltac:(lia)) as H0. pose proof (Hk 1 ltac:(lia)) as H1. cbn [nth Z.to_nat] in H0, H1. change (Pos.to_nat 1) with 1%nat in H1. cbn [nth] in H1. rewrite H0, H1. reflexivity.
  - unfold zlen in Hl. cbn [List.length] in Hl. lia.
Qed.

(** force=True without num_days keeps the number of days of the earlier call: a use case set up
    by its constructor for 3 days, whose date_end is then moved one week later, is initialized
    again with force=True for 3 days instead of 10 *)
Theorem C31_force_refuted : exists us s e c c' ds,
  may (new_usecase exact_fm nobody us (Some s) (Some e) false (15 # 100) None) (Ok c) /\
  may (initialize exact_fm nobody (set_date_end c (Some (e + 7 * 1440))) None None true) (Ok (c', None)) /\
  e = s + 2 * 1440 /\ days c' = Some ds /\ zlen ds = 3.
Proof.
  exists [home], 1051200000, (1051200000 + 2 * 1440).
  destruct (follow_check
    (c <- new_usecase exact_fm nobody [home] (Some 1051200000) (Some (1051200000 + 2 * 1440)) false (15 # 100) None ;;
     r <- initialize exact_fm nobody (set_date_end c (Some (1051200000 + 2 * 1440 + 7 * 1440))) None None true ;;
     Ret (c, r)) [DQ (1 # 2); DQ (1 # 2); DQ (1 # 2); DQ (1 # 2)]
    (fun x => match snd (snd x), days (fst (snd x)) with None, Some ds => zlen ds =? 3 | _, _ => false end)) as (x & Hx & Hv).
  { vm_compute. reflexivity. }
  apply may_bind in Hx as [(c & Hc & Hx)|(e & _ & H)]; [|discriminate].
  apply may_bind in Hx as [([c' e] & Hi & Hx)|(e & _ & H)]; [|discriminate].
  apply may_ret_inv in Hx. injection Hx as ->. cbn [fst snd] in Hv.
  destruct e; [discriminate|]. destruct (days c') as [ds|] eqn:Ed; [|discriminate].
  exists c, c', ds. repeat (split; [assumption||reflexivity|]). lia.
Qed.

(** ** C32 *)

(** the appliance after initialize: unchanged, or its constant power repeated *)
Definition extended (n : Z) (a a' : appliance) : Prop :=
  (n <= zlen (power a) /\ a' = a) \/
  (zlen (power a) < n /\ constant_power a = true /\
   exists p, nth_error (power a) 0 = Some p /\ a' = set_power a (repeat p (Z.to_nat (n + 1)))).

Lemma check_power_extended a n a' : check_power_values a n = Ok a' -> extended n a a'.
Proof.
  unfold check_power_values, extended. destruct (Z.ltb_spec (zlen (power a)) n).
  - destruct (constant_power a) eqn:Ec; [|discriminate]. destruct (power a) as [|p l] eqn:Ep; [discriminate|].
    intros Hx. injection Hx as <-. right. split; [assumption|]. split; [reflexivity|]. exists p. auto.
  - intros Hx. injection Hx as <-. left. auto.
Qed.

Lemma extended_len n a a' : extended n a a' -> n <= zlen (power a').
Proof.
  intros [[H ->]|(H & _ & p & _ & ->)]; [exact H|]. cbn [power set_power]. rewrite zlen_repeat.
  pose proof (zlen_nonneg (power a)). lia.
Qed.

Lemma extended_again n a a' b : n <= zlen (power a') -> check_power_values a' n = Ok b -> extended n a a' -> extended n a b.
Proof.
  intros H Hc He. unfold check_power_values in Hc. destruct (Z.ltb_spec (zlen (power a')) n); [lia|].
  injection Hc as <-. exact He.
Qed.

Lemma get_put us ij a x : get_app us ij = Some a ->
  forall kl, get_app (put_app us ij x) kl =
    if (Nat.eqb (fst kl) (fst ij) && Nat.eqb (snd kl) (snd ij))%bool then Some x else get_app us kl.
Proof.
  unfold get_app, put_app. destruct ij as [i j]. cbn [fst snd]. intros H [k l]. cbn [fst snd].
  destruct (nth_error us i) as [u|] eqn:Eu; [|discriminate].
  assert (Hi : (i <? List.length us)%nat = true) by (apply Nat.ltb_lt, nth_error_Some; congruence).
  assert (Hj : (j <? List.length (app_list u))%nat = true) by (apply Nat.ltb_lt, nth_error_Some; congruence).
  rewrite list_set_nth_error, Hi.
  destruct (Nat.eqb_spec k i) as [->|Hk]; [|reflexivity]. cbn [andb]. rewrite Eu. cbn [app_list set_apps].
  rewrite list_set_nth_error, Hj. destruct (Nat.eqb l j); reflexivity.
Qed.

Definition app_at (us : list user) (i j : nat) : option appliance := get_app us (i, j).

Lemma check_powers_ok n : forall refs us us' done,
  (forall kl a, In kl done -> get_app us kl = Some a -> n <= zlen (power a)) ->
  check_powers us refs n = (us', None) ->
  (forall kl, get_app us kl = None -> get_app us' kl = None) /\
  (forall kl a, get_app us kl = Some a -> exists a', get_app us' kl = Some a' /\ (a' = a \/ extended n a a')) /\
  (forall kl a, In kl (done ++ refs) -> get_app us' kl = Some a -> n <= zlen (power a)).
Proof.
  induction refs as [|ij refs IH]; intros us us' done Hd H; cbn [check_powers] in H.
  - injection H as <-. rewrite app_nil_r. repeat split; eauto.
  - destruct (get_app us ij) as [a|] eqn:Ea; [|discriminate].
    destruct (check_power_values a n) as [a'|] eqn:Ec; [|discriminate].
    pose proof (check_power_extended _ _ _ Ec) as He.
    pose proof (extended_len _ _ _ He) as Hl.
    assert (Hsame : forall kl, (Nat.eqb (fst kl) (fst ij) && Nat.eqb (snd kl) (snd ij))%bool = true -> kl = ij).
    { intros [k l] Hx. apply andb_prop in Hx. destruct Hx as [H1 H2]. apply Nat.eqb_eq in H1, H2.
      destruct ij; cbn in *; subst; reflexivity. }
    apply (IH _ _ (done ++ [ij])) in H.
    + destruct H as (H1 & H2 & H3). repeat split.
      * intros kl Hn. apply H1. rewrite (get_put _ _ _ _ Ea).
        destruct (Nat.eqb (fst kl) (fst ij) && Nat.eqb (snd kl) (snd ij))%bool eqn:E; [|exact Hn].
        apply Hsame in E. subst. congruence.
      * intros kl b Hb. pose proof (get_put us ij a a' Ea kl) as Hp.
        destruct (Nat.eqb (fst kl) (fst ij) && Nat.eqb (snd kl) (snd ij))%bool eqn:E.
        -- apply Hsame in E. subst kl. rewrite Ea in Hb. injection Hb as <-.
           destruct (H2 ij a' Hp) as (b & Hb & Hx). exists b. split; [exact Hb|].
           destruct Hx as [->|Hx]; [right; exact He|]. right.
           destruct Hx as [[_ ->]|(Hlt & _)]; [exact He|lia].
        -- rewrite Hb in Hp. apply H2. exact Hp.
      * intros kl b Hin. apply H3. rewrite <- app_assoc. exact Hin.
    + intros kl b Hin Hb. rewrite (get_put _ _ _ _ Ea) in Hb.
      destruct (Nat.eqb (fst kl) (fst ij) && Nat.eqb (snd kl) (snd ij))%bool eqn:E.
      * injection Hb as <-. exact Hl.
      * apply in_app_or in Hin. destruct Hin as [Hin|[<-|[]]]; [eapply Hd; eassumption|].
        rewrite !Nat.eqb_refl in E. discriminate.
Qed.

Lemma positions_in us : forall i0 i j u a, nth_error us i = Some u -> nth_error (app_list u) j = Some a ->
  In ((i0 + i)%nat, j) (positions_from i0 us).
Proof.
  induction us as [|u0 us IH]; intros i0 i j u a Hu Ha; [destruct i; discriminate|]. cbn [positions_from].
  apply in_or_app. destruct i as [|i]; cbn [nth_error] in Hu.
  - injection Hu as ->. left. apply in_map_iff. exists j. split; [f_equal; lia|]. apply in_seq.
    assert (j < List.length (app_list u))%nat by (apply nth_error_Some; congruence). lia.
  - right. replace (i0 + S i)%nat with (S i0 + i)%nat by lia. eapply IH; eassumption.
Qed.

(** every appliance of every user of the use case was there when the appliances were collected *)
Definition all_collected (c : usecase) : Prop := collected c = positions_from 0 (users c).

Lemma blank_collected start stop par enl seed us : all_collected (blank start stop par enl seed us).
Proof. reflexivity. Qed.

Theorem C32_power_values_partial F w c nd enl force c' :
  all_collected c -> is_initialized c && negb force = false ->
  may (initialize F w c nd enl force) (Ok (c', None)) ->
  exists n, num_days_ c' = Some n /\
  (forall i j a', app_at (users c') i j = Some a' -> forall d, 0 <= d < n -> exists p, py_index (power a') d = Ok p) /\
  (forall i j a, app_at (users c) i j = Some a -> exists a', app_at (users c') i j = Some a' /\ extended n a a') /\
  (forall i j a', app_at (users c') i j = Some a' -> exists a, app_at (users c) i j = Some a).
Proof.
  intros Hall Hf H. rewrite initialize_stages, Hf in H.
  destruct (dates_stage w c nd force) as [c1 [e|]] eqn:E; [apply may_ret_inv in H; discriminate|].
  destruct (dates_stage_same _ _ _ _ _ _ E) as (_ & _ & _ & _ & _ & _ & _ & Hus & Hco).
  assert (Hn : exists n, num_days_ c1 = Some n).
  { unfold dates_stage in E.
    destruct (init_prompt w _) as [c2 [e2|]] eqn:E2; [discriminate|].
    assert (exists n, num_days_ c2 = Some n) as (n & Hn).
    { unfold init_prompt in E2. destruct (num_days_ (init_both_dates _)) eqn:En.
      - inversion E2; subst. eauto.
      - destruct (typed w); inversion E2; subst. cbn. eauto. }
    exists n. unfold init_days in E. cbv zeta in E.
    match type of E with match ?x with _ => _ end = _ => destruct x as [ds|] end; inversion E; subst. exact Hn. }
  destruct Hn as (n & Hn).
  destruct (init_finish_ok F c1 enl c' n Hn H) as (Hck & p & q & Hc').
  exists n. split; [rewrite Hc', (proj2 (init_index_days _)); exact Hn|].
  rewrite Hus, Hco in Hck.
  destruct (check_powers_ok n (collected c) (users c) (users c') [] ltac:(intros ? ? []) Hck) as (H1 & H2 & H3).
  assert (Hback : forall i j a', app_at (users c') i j = Some a' -> exists a, app_at (users c) i j = Some a).
  { intros i j a' Ha. unfold app_at in *. destruct (get_app (users c) (i, j)) eqn:Eg; [eauto|].
    apply H1 in Eg. congruence. }
  assert (Hlen : forall i j a', app_at (users c') i j = Some a' -> n <= zlen (power a')).
  { intros i j a' Ha. destruct (Hback i j a' Ha) as (a & Hb). apply (H3 (i, j)); [|exact Ha]. cbn [app].
    rewrite Hall. unfold app_at, get_app in Hb. cbn [fst snd] in Hb.
    destruct (nth_error (users c) i) as [u|] eqn:Eu; [|discriminate].
    apply (positions_in (users c) 0 i j u a Eu Hb). }
  split; [|split; [|exact Hback]].
  - intros i j a' Ha d Hd. specialize (Hlen i j a' Ha).
    destruct (py_index_exists (power a') d ltac:(lia)) as (x & Hx & _). eauto.
  - intros i j a Ha. destruct (H2 (i, j) a Ha) as (a' & Ha' & Hx). exists a'. split; [exact Ha'|].
    destruct Hx as [->|Hx]; [|exact Hx]. left. split; [|reflexivity]. eapply Hlen. exact Ha'.
Qed.

(** constant powers keep their value, whatever the number of days *)
Theorem C32_constant_kept n a a' v :
  extended n a a' -> Forall (fun p => p = v) (power a) -> Forall (fun p => p = v) (power a').
Proof.
  intros [[_ ->]|(_ & _ & p & Hp & ->)] Hv; [exact Hv|]. cbn [power set_power].
  rewrite Forall_forall in Hv. apply Forall_forall. intros x Hx. apply repeat_spec in Hx. subst.
  apply Hv. eapply nth_error_In, Hp.
Qed.

(** a time series that is too short raises ValueError once the days are known *)
Theorem C32_short_series F w c nd enl force c1 n i j a r :
  all_collected c -> is_initialized c && negb force = false ->
  dates_stage w c nd force = (c1, None) -> num_days_ c1 = Some n ->
  (forall i j b, app_at (users c) i j = Some b -> constant_power b = true -> power b <> []) ->
  app_at (users c) i j = Some a -> constant_power a = false -> zlen (power a) < n ->
  may (initialize F w c nd enl force) r -> exists c', r = Ok (c', Some ValueError).
Proof.
  intros Hall Hf E Hn Hne Ha Hca Hla H. rewrite initialize_stages, Hf, E in H.
  destruct (dates_stage_same _ _ _ _ _ _ E) as (_ & _ & _ & _ & _ & _ & _ & Hus & Hco).
  unfold init_finish in H. rewrite Hn, Hus, Hco in H.
  assert (G : forall refs us,
    (forall kl b, get_app us kl = Some b -> constant_power b = true -> power b <> []) ->
    (forall kl, In kl refs -> get_app us kl <> None) ->
    get_app us (i, j) = Some a -> In (i, j) refs ->
    exists us', check_powers us refs n = (us', Some ValueError)).
  { induction refs as [|kl refs IH]; intros us Hus1 Hdef Hij Hin; [destruct Hin|]. cbn [check_powers].
    destruct (get_app us kl) as [b|] eqn:Eb; [|exfalso; apply (Hdef kl); [left; reflexivity|exact Eb]].
    destruct (check_power_values b n) as [b'|e] eqn:Ec.
    - assert (Hneq : kl <> (i, j)).
      { intros ->. rewrite Hij in Eb. injection Eb as <-. unfold check_power_values in Ec.
        rewrite (proj2 (Z.ltb_lt _ _) Hla), Hca in Ec. discriminate. }
      destruct Hin as [Hin|Hin]; [congruence|].
      apply IH.
      + intros xy b0. rewrite (get_put _ _ _ _ Eb). destruct (Nat.eqb (fst xy) (fst kl) && Nat.eqb (snd xy) (snd kl))%bool.
        * intros Hx Hc0. injection Hx as <-. apply check_power_extended in Ec.
          destruct Ec as [[_ ->]|(_ & _ & p & Hp & ->)]; [eapply Hus1; eassumption|].
          cbn [power set_power]. intros Hx. pose proof (zlen_nonneg (power a)) as Hz.
          replace (Z.to_nat (n + 1)) with (S (Z.to_nat n)) in Hx by lia. discriminate.
        * apply Hus1.
      + intros xy Hin2. rewrite (get_put _ _ _ _ Eb). destruct (Nat.eqb (fst xy) (fst kl) && Nat.eqb (snd xy) (snd kl))%bool; [discriminate|]. apply Hdef. right. exact Hin2.
      + rewrite (get_put _ _ _ _ Eb). cbn [fst snd]. destruct kl as [k l]. cbn [fst snd].
        destruct (Nat.eqb_spec i k), (Nat.eqb_spec j l); cbn; try exact Hij. subst. congruence.
      + exact Hin.
    - unfold check_power_values in Ec. destruct (zlen (power b) <? n); [|discriminate].
      destruct (constant_power b) eqn:Ecb.
      + destruct (power b) eqn:Ep; [|discriminate]. exfalso. eapply Hus1; eassumption.
      + injection Ec as <-. eexists. reflexivity. }
  destruct (G (collected c) (users c)) as (us' & Hck).
  - intros [k l] b. apply Hne.
  - intros [k l] Hin. rewrite Hall in Hin.
    assert (P : forall us i0 k l, In (k, l) (positions_from i0 us) ->
      exists u, nth_error us (k - i0) = Some u /\ (i0 <= k)%nat /\ nth_error (app_list u) l <> None).
    { clear. induction us as [|u us IH]; intros i0 k l Hin; [destruct Hin|]. cbn [positions_from] in Hin.
      apply in_app_or in Hin. destruct Hin as [Hin|Hin].
      - apply in_map_iff in Hin. destruct Hin as (x & Hx & Hs). inversion Hx; subst. apply in_seq in Hs.
        exists u. rewrite Nat.sub_diag. split; [reflexivity|]. split; [lia|]. apply nth_error_Some. lia.
      - apply IH in Hin. destruct Hin as (v & Hv & Hle & Hl). exists v. split; [|split; [lia|exact Hl]].
        replace (k - i0)%nat with (S (k - S i0)) by lia. exact Hv. }
    destruct (P _ _ _ _ Hin) as (u & Hu & _ & Hl). rewrite Nat.sub_0_r in Hu. unfold get_app. cbn [fst snd].
    rewrite Hu. exact Hl.
  - exact Ha.
  - rewrite Hall. unfold app_at, get_app in Ha. cbn [fst snd] in Ha.
    destruct (nth_error (users c) i) as [u|] eqn:Eu; [|discriminate].
    apply (positions_in (users c) 0 i j u a Eu Ha).
  - rewrite Hck in H. apply may_ret_inv in H. eauto.
Qed.

Example C32_case : all_collected (hamlet (Some 1051200000) None None) /\
  (exists c', may (initialize exact_fm nobody (hamlet (Some 1051200000) None None) (Some 2) None false) (Ok (c', None))) /\
  exists a, app_at (users (hamlet (Some 1051200000) None None)) 0 1 = Some a /\ zlen (power a) < 2.
Proof.
  split; [apply blank_collected|]. split.
  - destruct C27_case as (_ & c' & _ & _ & _ & _ & H & _). exists c'. exact H.
  - eexists. split; [reflexivity|]. reflexivity.
Qed.

(** users added after the constructor (add_user) are not looked at: initialize for 5 days
    succeeds although a power series has 3 values, and generation raises IndexError *)
Theorem C32_added_user_refuted : exists c' a,
  may (initialize exact_fm nobody (add_user (blank (Some 1051200000) None false (15 # 100) None []) series_home) (Some 5) None false)
    (Ok (c', None)) /\
  num_days_ c' = Some 5 /\ app_at (users c') 0 0 = Some a /\ py_index (power a) 3 = Err IndexError.
Proof.
  destruct (follow_check (initialize exact_fm nobody
      (add_user (blank (Some 1051200000) None false (15 # 100) None []) series_home) (Some 5) None false)
    [DQ (1 # 2); DQ (1 # 2)]
    (fun x => match snd x, num_days_ (fst x), app_at (users (fst x)) 0 0 with
      | None, Some n, Some a => (n =? 5) && match py_index (power a) 3 with Err IndexError => true | _ => false end
      | _, _, _ => false end)) as ([c' e] & H & Hv).
  { vm_compute. reflexivity. }
  cbn [fst snd] in Hv. destruct e; [discriminate|]. destruct (num_days_ c') as [n|] eqn:En; [|discriminate].
  destruct (app_at (users c') 0 0) as [a|] eqn:Ea; [|discriminate]. apply andb_prop in Hv. destruct Hv as [H1 H2].
  exists c', a. split; [exact H|]. split; [rewrite En; f_equal; lia|]. split; [exact Ea|].
  destruct (py_index (power a) 3) as [|[]]; try discriminate. reflexivity.
Qed.
