(** * ProofsEvent2: uniform start (C09), coincidence (C10), booking (C11) *)
From Verif Require Import Base Wp Utils ListLemmas Appliance Spec ProofsUtils ProofsAppliance ProofsEvent.
From Coq Require Import ZifyBool ZifyNat.

(** ** C09 *)

Lemma NoDup_app_intro {A} (l l' : list A) :
  NoDup l -> NoDup l' -> (forall x, In x l -> ~ In x l') -> NoDup (l ++ l').
Proof.
  induction l as [|x l IH]; cbn; intros H H' Hd; [exact H'|].
  inversion H; subst. constructor.
  - rewrite in_app_iff. intros [Hx|Hx]; [contradiction|]. apply (Hd x); auto.
  - apply IH; auto.
Qed.

Lemma NoDup_indexes_choice spots fc :
  1 <= fc -> pairwise_disjoint spots -> NoDup (indexes_choice spots fc).
Proof.
  intros Hfc H. induction H as [|s spots Hs Hp IH]; [constructor|].
  change (indexes_choice (s :: spots) fc) with
    ((if snd s - fst s >=? fc then arange (fst s) (snd s - fc + 1) else []) ++ indexes_choice spots fc).
  apply NoDup_app_intro; [destruct (snd s - fst s >=? fc); [apply NoDup_arange|constructor]|exact IH|].
  intros x Hx Hx'. destruct (snd s - fst s >=? fc); [|contradiction]. apply in_arange in Hx.
  apply in_indexes_choice in Hx'. destruct Hx' as (s' & Hs' & H1 & H2).
  rewrite Forall_forall in Hs. specialize (Hs s' Hs'). unfold disjoint in Hs. lia.
Qed.

(** Without duty cycle the program is one equally likely integer draw in [0,n) followed by a
    length draw, and draw j makes the event start at the j-th feasible minute. *)
Lemma rsw_uniform depth F a d rand_time :
  fixed_cycle (par a) <= 0 -> 1 <= func_cycle (par a) <= rand_time -> rand_time <= 2 ^ 52 ->
  (exists s, In s (free_spots d) /\ func_cycle (par a) <= snd s - fst s) ->
  exists k : Z -> prog (option (list Z) * dyn),
    rand_switch_on_window (S depth) F a d rand_time
      = RandBelow (zlen (indexes_choice (free_spots d) (func_cycle (par a)))) k /\
    forall j, 0 <= j < zlen (indexes_choice (free_spots d) (func_cycle (par a))) ->
      exists m, nth_error (indexes_choice (free_spots d) (func_cycle (par a))) (Z.to_nat j) = Some m /\
      forall r, may (k j) r -> exists indexes rest, r = Ok (Some indexes, d) /\ indexes = m :: rest.
Proof.
  intros Hfx Hfc Hrt (s0 & Hs0 & Hl0). rewrite rsw_unfold. cbv zeta.
  set (fc := func_cycle (par a)) in *. set (ch := indexes_choice (free_spots d) fc).
  assert (Hin0 : In (fst s0) ch) by (apply in_indexes_choice; exists s0; split; [exact Hs0|lia]).
  assert (Hn : 0 < zlen ch) by (destruct ch; [contradiction|rewrite zlen_cons; pose proof (zlen_nonneg ch); lia]).
  replace (zlen ch >? 0) with true by lia.
  unfold py_randint. replace (zlen ch - 1 + 1 - 0) with (zlen ch) by lia.
  replace (zlen ch <=? 0) with false by lia. cbn [bind].
  eexists. split; [reflexivity|]. intros j Hj. cbv beta. replace (0 + j) with j by lia.
  destruct (nth_error ch (Z.to_nat j)) as [m|] eqn:Em.
  2: { apply nth_error_None in Em. unfold zlen in Hj; lia. }
  exists m. split; [reflexivity|]. intros r Hr. revert Hr.
  rewrite (proj2 (py_index_ok ch j m Hj) Em). cbn [lift bind].
  assert (Hm : In m ch) by (eapply nth_error_In; exact Em).
  destruct (find_spot_some _ _ _ Hm) as (spot & Hf & Hs & H1 & H2). rewrite Hf.
  intros Hr. revert r Hr. apply wp_may. apply wp_bind_ok.
  eapply wp_mono; [|apply draw_indexes_spec; [lia|exact Hrt|exact H2]].
  intros r (n & -> & Hn1 & Hn2). cbn [wpk]. unfold choose_cycle.
  replace (fixed_cycle (par a) >? 0) with false by lia. cbn [wp].
  eexists; eexists; split; [reflexivity|]. apply arange_cons. lia.
Qed.

(** ** C10 *)

Lemma fold_max_ge ks k : k <= fold_left Z.max ks k.
Proof. revert k; induction ks as [|x ks IH]; intros k; cbn; [lia|]. specialize (IH (Z.max k x)). lia. Qed.

Lemma fold_max_in ks k : In (fold_left Z.max ks k) (k :: ks).
Proof.
  revert k; induction ks as [|x ks IH]; intros k; cbn [fold_left]; [left; reflexivity|].
  destruct (IH (Z.max k x)) as [H|H].
  - destruct (Z.max_spec k x) as [[_ E]|[_ E]]; rewrite E in H |- *; [right; left|left]; congruence.
  - right; right; exact H.
Qed.

Lemma on_number_range F n prob : 1 <= n -> 1 <= on_number F n prob <= n.
Proof.
  intros Hn. unfold on_number.
  set (l := filter _ _).
  assert (Hl : forall k, In k l -> 0 <= k < n).
  { intros k Hk. apply filter_In in Hk. destruct Hk as [Hk _]. now apply in_arange in Hk. }
  destruct l as [|k ks]; [lia|].
  pose proof (Hl _ (fold_max_in ks k)). lia.
Qed.

Lemma coincidence_range F a inside :
  1 <= number (par a) ->
  wp (calc_coincident_switch_on F a inside)
     (fun r => exists c, r = Ok c /\ 1 <= c <= number (par a) /\
                         (fixed (par a) <> "no"%string -> c = number (par a))).
Proof.
  intros Hn. unfold calc_coincident_switch_on.
  destruct (String.eqb_spec (fixed (par a)) "no") as [Ef|Ef]; destruct inside; cbn [andb negb].
  - apply wp_bind_ok. unfold py_gauss. cbn [wp]. intros z. cbn [wpk wp].
    eexists; split; [reflexivity|]. split; [lia|congruence].
  - replace (number (par a) =? 0) with false by lia.
    apply wp_bind_ok. apply wp_uniform. intros u H0 H1. cbn [wpk wp].
    eexists; split; [reflexivity|]. split; [now apply on_number_range|congruence].
  - cbn [wp]. eexists; split; [reflexivity|]. split; [lia|auto].
  - cbn [wp]. eexists; split; [reflexivity|]. split; [lia|auto].
Qed.

(** off-peak, exact arithmetic: the number of appliances on is floor(prob * number) + 1 *)
Lemma on_number_exact F n prob :
  exact F -> 1 <= n -> (0 <= prob)%Q -> (prob < 1)%Q ->
  on_number F n prob = Qfloor (prob * zq n) + 1.
Proof.
  intros HF Hn H0 H1. unfold on_number.
  set (m := Qfloor (prob * zq n)).
  assert (Hq : (0 < zq n)%Q) by (change 0%Q with (zq 0); apply zq_lt; lia).
  assert (Hm : (zq m <= prob * zq n < zq m + 1)%Q).
  { unfold m. split; [apply Qfloor_le|].
    pose proof (Qlt_floor (prob * zq n)) as Hg. rewrite inject_Z_plus in Hg. exact Hg. }
  destruct Hm as [Hm0 Hm1].
  assert (Hm2 : 0 <= m).
  { unfold m. change 0 with (Qfloor 0). apply Qfloor_resp_le. nra. }
  assert (Hm3 : m < n).
  { apply zq_lt. nra. }
  assert (Htest : forall k, Qle_bool (fdiv F (zq k) (zq n)) prob = (k <=? m)).
  { intros k. apply eq_true_iff_eq. rewrite Qle_bool_iff, Z.leb_le. unfold fdiv. rewrite (HF _).
    split.
    - intros H. assert (Hz : (zq k < zq (m + 1))%Q).
      { rewrite zq_add. change (zq 1) with 1%Q.
        assert (zq k <= prob * zq n)%Q.
        { setoid_replace (zq k) with (zq k / zq n * zq n)%Q by (field; lra). nra. }
        lra. }
      apply (proj1 (zq_lt _ _)) in Hz. lia.
    - intros H. apply Qle_shift_div_r; [exact Hq|]. apply Qle_trans with (zq m); [apply zq_le; lia|lra]. }
  rewrite (filter_ext _ _ Htest).
  assert (Hin : forall k, In k (filter (fun k => k <=? m) (arange 0 n)) <-> 0 <= k <= m).
  { intros k. rewrite filter_In, in_arange. lia. }
  destruct (filter (fun k => k <=? m) (arange 0 n)) as [|k ks] eqn:E.
  - exfalso. apply (proj2 (Hin m)). lia.
  - f_equal. apply Z.le_antisymm.
    + assert (H : In (fold_left Z.max ks k) (k :: ks)) by apply fold_max_in. apply Hin in H. lia.
    + assert (H : In m (k :: ks)) by (apply Hin; lia).
      clear -H. revert k H. induction ks as [|x ks IH]; intros k H; cbn [fold_left].
      * destruct H as [<-|[]]; lia.
      * destruct H as [<-|[<-|H]].
        -- pose proof (fold_max_ge ks (Z.max k x)); lia.
        -- pose proof (fold_max_ge ks (Z.max k x)); lia.
        -- apply IH. right; exact H.
Qed.

(** ** C11 *)

Lemma apart_sym w w' : apart w w' -> apart w' w.
Proof. unfold apart; tauto. Qed.

Lemma separated_cons s spots :
  separated (s :: spots) <-> Forall (apart s) spots /\ separated spots.
Proof.
  unfold separated. split.
  - intros H; inversion H; subst; auto.
  - intros [H1 H2]; constructor; auto.
Qed.

(** every range left by book_spot lies inside a former range *)
Lemma book_spot_inside spots i0 il w :
  i0 <= il -> In w (book_spot spots i0 il) ->
  exists w0, In w0 spots /\ fst w0 <= fst w /\ snd w <= snd w0.
Proof.
  intros Hi. induction spots as [|[s e] spots IH]; cbn [book_spot]; [contradiction|].
  destruct ((i0 >=? s) && (il <=? e)) eqn:E.
  - assert (Hrest : In w spots -> exists w0, In w0 ((s, e) :: spots) /\ fst w0 <= fst w /\ snd w <= snd w0).
    { intros H. exists w. split; [right; exact H|lia]. }
    destruct ((i0 =? s) && (il =? e)) eqn:E1; [exact Hrest|].
    destruct (i0 =? s) eqn:E2; [|destruct (il =? e) eqn:E3].
    + intros [<-|H]; [|auto]. exists (s, e). split; [left; reflexivity|cbn; lia].
    + intros [<-|H]; [|auto]. exists (s, e). split; [left; reflexivity|cbn; lia].
    + intros [<-|[<-|H]]; [| |auto]; exists (s, e); (split; [left; reflexivity|cbn; lia]).
  - intros [<-|H].
    + exists (s, e). split; [left; reflexivity|lia].
    + destruct (IH H) as (w0 & H0 & H1). exists w0. split; [right; exact H0|exact H1].
Qed.

(** every range left by book_spot keeps the property that end >= start, or nothing *)
Lemma book_spot_apart spots i0 il x :
  i0 <= il -> Forall (apart x) spots -> Forall (apart x) (book_spot spots i0 il).
Proof.
  intros Hi H. rewrite Forall_forall in *. intros w Hw.
  destruct (book_spot_inside spots i0 il w Hi Hw) as (w0 & H0 & H1 & H2).
  specialize (H w0 H0). unfold apart in *. lia.
Qed.

Lemma book_spot_separated spots i0 il :
  i0 <= il -> separated spots -> separated (book_spot spots i0 il).
Proof.
  intros Hi. induction spots as [|[s e] spots IH]; cbn [book_spot]; [auto|].
  rewrite separated_cons. intros [H1 H2].
  assert (Hsub : forall w, fst w >= s -> snd w <= e -> Forall (apart w) spots).
  { intros w Hw1 Hw2. eapply Forall_impl; [|exact H1]. unfold apart; cbn. intros; lia. }
  destruct ((i0 >=? s) && (il <=? e)) eqn:E.
  - destruct ((i0 =? s) && (il =? e)) eqn:E1; [exact H2|].
    destruct (i0 =? s) eqn:E2; [|destruct (il =? e) eqn:E3].
    + apply separated_cons. split; [apply Hsub; cbn; lia|exact H2].
    + apply separated_cons. split; [apply Hsub; cbn; lia|exact H2].
    + apply separated_cons. split.
      * constructor; [unfold apart; cbn; lia|apply Hsub; cbn; lia].
      * apply separated_cons. split; [apply Hsub; cbn; lia|exact H2].
  - apply separated_cons. split; [apply book_spot_apart; assumption|auto].
Qed.

Lemma book_spot_free spots i0 il :
  i0 <= il -> separated spots ->
  (exists w, In w spots /\ fst w <= i0 /\ il < snd w) ->
  forall t, minute_in_some t (book_spot spots i0 il) <-> (minute_in_some t spots /\ ~ (i0 <= t <= il)).
Proof.
  intros Hi Hsep (w & Hw & Hw0 & Hw1) t.
  induction spots as [|[s e] spots IH]; [contradiction|].
  apply separated_cons in Hsep. destruct Hsep as [Hap Hsep].
  assert (Hhead : forall l, minute_in_some t ((s, e) :: l) <-> (s <= t < e \/ minute_in_some t l)).
  { intros l. unfold minute_in_some, minute_in. split.
    - intros (x & [<-|Hx] & Ht); [left; exact Ht|right; eauto].
    - intros [Ht|(x & Hx & Ht)]; [exists (s, e)|exists x]; split; auto; [left; reflexivity|right; exact Hx]. }
  assert (Hcons : forall x l, minute_in_some t (x :: l) <-> (minute_in t x \/ minute_in_some t l)).
  { intros x l. unfold minute_in_some. split.
    - intros (y & [<-|Hy] & Ht); [left; exact Ht|right; eauto].
    - intros [Ht|(y & Hy & Ht)]; [exists x|exists y]; split; auto; [left; reflexivity|right; exact Hy]. }
  rewrite Forall_forall in Hap.
  assert (Hrest : minute_in_some t spots -> forall p, s <= p < e -> t <> p).
  { intros (y & Hy & Ht) p Hp ->. specialize (Hap y Hy). unfold apart, minute_in in *. cbn in Hap. lia. }
  cbn [book_spot]. destruct ((i0 >=? s) && (il <=? e)) eqn:E.
  - (* this is the range that contains the event *)
    assert (Hme : il < e).
    { destruct Hw as [<-|Hw]; [exact Hw1|]. specialize (Hap w Hw). unfold apart in Hap. cbn in Hap. lia. }
    assert (Hfar : minute_in_some t spots -> ~ (i0 <= t <= il)).
    { intros Ht Hc. apply (Hrest Ht t); lia. }
    rewrite (Hhead spots).
    destruct ((i0 =? s) && (il =? e)) eqn:E1; [lia|].
    destruct (i0 =? s) eqn:E2; [|destruct (il =? e) eqn:E3].
    + rewrite Hcons. unfold minute_in; cbn [fst snd]. split.
      * intros [Ht|Ht]; [split; [left; lia|lia]|split; [right; exact Ht|auto]].
      * intros [[Ht|Ht] Hn]; [left; lia|right; exact Ht].
    + lia.
    + rewrite !Hcons. unfold minute_in; cbn [fst snd]. split.
      * intros [Ht|[Ht|Ht]]; [split; [left; lia|lia]|split; [left; lia|lia]|split; [right; exact Ht|auto]].
      * intros [[Ht|Ht] Hn]; [|right; right; exact Ht]. lia.
  - destruct Hw as [<-|Hw]; [cbn in *; lia|].
    rewrite !(Hhead _). rewrite (IH Hsep Hw).
    split.
    + intros [Ht|[Ht Hn]]; [|tauto]. split; [left; exact Ht|].
      specialize (Hap w Hw). unfold apart in Hap. cbn in Hap. lia.
    + tauto.
Qed.
