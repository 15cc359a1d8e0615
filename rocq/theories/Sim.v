(** * Sim: lock step simulation of draw programs; a simulated day does not depend on what the
    previous days left in the appliance (proof machinery, no RAMP code modelled) *)
From Verif Require Import Base Wp Utils ListLemmas Appliance User.
From Coq Require Import ZifyBool ZifyNat.

(** the two programs ask for the same draws and end in related results *)
Fixpoint psim {A B} (R : A -> B -> Prop) (p : prog A) (q : prog B) : Prop :=
  match p, q with
  | Ret a, Ret b => R a b
  | Raise e, Raise e' => e = e'
  | Random k, Random k' => forall u, psim R (k u) (k' u)
  | RandBelow n k, RandBelow n' k' => n = n' /\ forall i, psim R (k i) (k' i)
  | Normal c k, Normal c' k' => c = c' /\ forall z, psim R (k z) (k' z)
  | Seed s k, Seed s' k' => s = s' /\ psim R k k'
  | _, _ => False
  end.

Lemma psim_bind {A B A' B'} (R : A -> B -> Prop) (S : A' -> B' -> Prop) p q f g :
  psim R p q -> (forall a b, R a b -> psim S (f a) (g b)) -> psim S (bind p f) (bind q g).
Proof.
  revert q; induction p as [a|e|k IH|n k IH|c k IH|s k IH]; intros [b|e'|k'|n' k'|c' k'|s' k'] H Hf; cbn in *; try contradiction; auto.
  - destruct H as [H1 H2]. split; auto.
  - destruct H as [H1 H2]. split; auto.
  - destruct H as [H1 H2]. split; auto.
Qed.

Lemma psim_refl {A} (R : A -> A -> Prop) p : (forall a, R a a) -> psim R p p.
Proof. intros HR; induction p as [a|e|k IH|n k IH|c k IH|s k IH]; cbn; auto. Qed.

Lemma psim_eq {A} (p : prog A) : psim eq p p.
Proof. apply psim_refl. reflexivity. Qed.

Lemma psim_mono {A B} (R S : A -> B -> Prop) p q : (forall a b, R a b -> S a b) -> psim R p q -> psim S p q.
Proof.
  intros HRS. revert q; induction p as [a|e|k IH|n k IH|c k IH|s k IH]; intros [b|e'|k'|n' k'|c' k'|s' k'] H; cbn in *; try contradiction; auto;
  destruct H as [H1 H2]; split; auto.
Qed.

Lemma psim_sym {A B} (R : A -> B -> Prop) p q : psim R p q -> psim (fun b a => R a b) q p.
Proof.
  revert q; induction p as [a|e|k IH|n k IH|c k IH|s k IH]; intros [b|e'|k'|n' k'|c' k'|s' k'] H; cbn in *; try contradiction; auto;
  destruct H as [H1 H2]; split; auto.
Qed.

Lemma psim_may {A B} (R : A -> B -> Prop) p q r :
  psim R p q -> may p r ->
  match r with Ok a => exists b, may q (Ok b) /\ R a b | Err e => may q (Err e) end.
Proof.
  intros H Hr. revert q H; induction Hr as [a|e|u k r H0 H1 Hr IH|n i k r H0 Hr IH|c z k r Hr IH|s k r Hr IH];
    intros [b|e'|k'|n' k'|c' k'|s' k'] H; cbn in H; try contradiction.
  - exists b. split; [constructor|exact H].
  - subst. constructor.
  - specialize (IH _ (H u)). destruct r as [a|e].
    + destruct IH as (b & Hb & HR). exists b. split; [econstructor; eauto|exact HR].
    + econstructor; eauto.
  - destruct H as [-> H]. specialize (IH _ (H i)). destruct r as [a|e].
    + destruct IH as (b & Hb & HR). exists b. split; [econstructor; eauto|exact HR].
    + econstructor; eauto.
  - destruct H as [-> H]. specialize (IH _ (H z)). destruct r as [a|e].
    + destruct IH as (b & Hb & HR). exists b. split; [econstructor; eauto|exact HR].
    + econstructor; eauto.
  - destruct H as [-> H]. specialize (IH _ H). destruct r as [a|e].
    + destruct IH as (b & Hb & HR). exists b. split; [econstructor; eauto|exact HR].
    + econstructor; eauto.
Qed.

Lemma psim_run {A B} (R : A -> B -> Prop) p q (G : generator) s :
  psim R p q ->
  snd (run G p s) = snd (run G q s) /\
  match fst (run G p s), fst (run G q s) with
  | Ok a, Ok b => R a b
  | Err e, Err e' => e = e'
  | _, _ => False
  end.
Proof.
  revert q s; induction p as [a|e|k IH|n k IH|c k IH|z k IH]; intros [b|e'|k'|n' k'|c' k'|s' k'] s H; cbn in H; try contradiction; cbn [run].
  - auto.
  - auto.
  - destruct (g_random G s). apply IH. apply H.
  - destruct H as [-> H]. destruct (g_below G n' s). apply IH. apply H.
  - destruct H as [-> H]. destruct (g_normal G c' s). apply IH. apply H.
  - destruct H as [-> H]. apply IH. exact H.
Qed.

Lemma psim_lift {A} (x y : res A) : x = y -> psim eq (lift x) (lift y).
Proof. intros ->. apply psim_eq. Qed.

(** ** One day *)

(** what the code reads of the state within a day *)
Definition dsim (a : appliance) (d d' : dyn) : Prop :=
  daily_use d = daily_use d' /\ free_spots d = free_spots d' /\
  (fixed_cycle (par a) > 0 ->
   random_cycle1 d = random_cycle1 d' /\ random_cycle2 d = random_cycle2 d' /\ random_cycle3 d = random_cycle3 d').

Definition idsim (a : appliance) (d d' : dyn) : Prop :=
  dsim a d d' /\ (fixed_cycle (par a) > 0 -> current_duty_cycle_id d = current_duty_cycle_id d').

Lemma dsim_cycle_of a d d' i : dsim a d d' -> fixed_cycle (par a) > 0 -> cycle_of d i = cycle_of d' i.
Proof.
  intros (_ & _ & H) Hf. destruct (H Hf) as (H1 & H2 & H3). unfold cycle_of.
  destruct (i =? 1); [exact H1|]. destruct (i =? 2); [exact H2|exact H3].
Qed.

Lemma rsw_sim depth F a rt d d' : dsim a d d' ->
  psim (fun x y => fst x = fst y /\ (fst x <> None -> idsim a (snd x) (snd y)) /\ dsim a (snd x) (snd y))
    (rand_switch_on_window depth F a d rt) (rand_switch_on_window depth F a d' rt).
Proof.
  intros H. induction depth as [|depth IH]; cbn [rand_switch_on_window]; [reflexivity|].
  pose proof H as (H1 & H2 & H3). rewrite <- H2.
  destruct (zlen (indexes_choice (free_spots d) (func_cycle (par a))) >? 0).
  2:{ cbn. split; [reflexivity|]. split; [congruence|exact H]. }
  eapply psim_bind; [apply psim_eq|]. intros j ? <-.
  eapply psim_bind; [apply psim_eq|]. intros x ? <-.
  destruct (find_spot (free_spots d) (func_cycle (par a)) x) as [spot|]; [|reflexivity].
  eapply psim_bind; [apply psim_eq|]. intros ix ? <-.
  destruct (fixed_cycle (par a) >? 0) eqn:Ef.
  2:{ cbn. split; [reflexivity|]. split; [|exact H]. intros _. split; [exact H|lia]. }
  eapply psim_bind; [apply psim_eq|]. intros lo ? <-.
  eapply psim_bind; [apply psim_eq|]. intros hi ? <-.
  destruct (select_cycle a lo hi) as [i|]; [|exact IH].
  cbn [psim fst snd]. rewrite (dsim_cycle_of a d d' i H ltac:(lia)).
  split; [reflexivity|]. split.
  - intros _. split; [|intros _; reflexivity]. split; [exact H1|]. split; [exact H2|exact H3].
  - split; [exact H1|]. split; [exact H2|exact H3].
Qed.

Lemma update_daily_use_sim F a d d' c pw ix : idsim a d d' ->
  psim (fun x y => dsim a (fst x) (fst y) /\ snd x = snd y) (update_daily_use F a d c pw ix) (update_daily_use F a d' c pw ix).
Proof.
  intros [H Hid]. pose proof H as (H1 & H2 & H3). unfold update_daily_use. rewrite <- H1, <- H2.
  destruct (fixed_cycle (par a) >? 0) eqn:Ef.
  - rewrite <- (Hid ltac:(lia)). rewrite <- (dsim_cycle_of a d d' _ H ltac:(lia)).
    eapply psim_bind; [apply psim_eq|]. intros vals ? <-.
    eapply psim_bind; [apply psim_eq|]. intros du ? <-.
    eapply psim_bind; [apply psim_eq|]. intros fs ? <-.
    cbn. split; [|reflexivity]. split; [reflexivity|]. split; [reflexivity|exact H3].
  - eapply psim_bind; [apply psim_eq|]. intros vals ? <-.
    eapply psim_bind; [apply psim_eq|]. intros du ? <-.
    eapply psim_bind; [apply psim_eq|]. intros fs ? <-.
    cbn. split; [|reflexivity]. split; [reflexivity|]. split; [reflexivity|exact H3].
Qed.

(** events of the two runs: same minutes, coincidence and values; same cycle when there is one *)
Definition esim (a : appliance) (e e' : event) : Prop :=
  ev_indexes e = ev_indexes e' /\ ev_coincidence e = ev_coincidence e' /\ ev_values e = ev_values e' /\
  (fixed_cycle (par a) > 0 -> ev_cycle e = ev_cycle e').

Lemma use_event_sim F a d d' peak pw ix : idsim a d d' ->
  psim (fun x y => dsim a (fst x) (fst y) /\ esim a (snd x) (snd y)) (use_event F a d peak pw ix) (use_event F a d' peak pw ix).
Proof.
  intros H. unfold use_event.
  do 5 (eapply psim_bind; [apply psim_eq|]; intros ? ? <-).
  eapply psim_bind; [apply update_daily_use_sim; exact H|]. intros x y [Hd Hv]. cbn.
  split; [exact Hd|]. split; [reflexivity|]. split; [reflexivity|]. split; [exact Hv|apply H].
Qed.

Lemma use_loop_sim fuel depth F a peak pw rt : forall tot d d' evs evs',
  dsim a d d' -> Forall2 (esim a) evs evs' ->
  psim (fun x y => dsim a (fst x) (fst y) /\ Forall2 (esim a) (snd x) (snd y))
    (use_loop fuel depth F a peak pw rt tot d evs) (use_loop fuel depth F a peak pw rt tot d' evs').
Proof.
  induction fuel as [|fuel IH]; intros tot d d' evs evs' H He; cbn [use_loop]; [reflexivity|].
  destruct ((tot <=? rt) && negb (rt =? 0)); [|cbn; auto].
  eapply psim_bind; [apply rsw_sim; exact H|]. intros [o d1] [o' d1'] (Ho & Hi & Hd). cbn [fst snd] in *. subst o'.
  destruct o as [ix|]; [|cbn; auto]. specialize (Hi ltac:(discriminate)).
  cbv zeta. destruct (tot + zlen ix >? rt).
  - destruct (zlen _ >? 0); [|cbn; auto].
    eapply psim_bind; [apply use_event_sim; exact Hi|]. intros x y [Hx Hy]. cbn.
    split; [exact Hx|]. apply Forall2_app; [exact He|constructor; auto].
  - eapply psim_bind; [apply use_event_sim; exact Hi|]. intros x y [Hx Hy]. apply IH; [exact Hx|].
    apply Forall2_app; [exact He|constructor; auto].
Qed.

Lemma arc_sim F a d d' : daily_use d = daily_use d' ->
  psim (fun x y => daily_use x = daily_use y /\
    (fixed_cycle (par a) > 0 -> random_cycle1 x = random_cycle1 y /\ random_cycle2 x = random_cycle2 y /\ random_cycle3 x = random_cycle3 y))
    (assign_random_cycles F a d) (assign_random_cycles F a d').
Proof.
  intros H. unfold assign_random_cycles.
  destruct (fixed_cycle (par a) >=? 1) eqn:E1; [|cbn; split; [exact H|lia]].
  do 3 (eapply psim_bind; [apply psim_eq|]; intros ? ? <-).
  destruct (fixed_cycle (par a) >=? 2); [|cbn; auto].
  do 3 (eapply psim_bind; [apply psim_eq|]; intros ? ? <-).
  destruct (fixed_cycle (par a) >=? 3); [|cbn; auto].
  do 5 (eapply psim_bind; [apply psim_eq|]; intros ? ? <-). cbn; auto.
Qed.

Lemma set_st_id a : set_st a (st a) = a.
Proof. destruct a; reflexivity. Qed.

(** the state stored in the appliance is not read within the day *)
Lemma rsw_st depth F a d0 : forall d rt,
  rand_switch_on_window depth F (set_st a d0) d rt = rand_switch_on_window depth F a d rt.
Proof.
  induction depth as [|depth IH]; intros d rt; [reflexivity|].
  cbn [rand_switch_on_window]. rewrite IH. reflexivity.
Qed.

Lemma bind_ext {A B} (m : prog A) (f g : A -> prog B) (R : B -> B -> Prop) :
  (forall x, f x = g x) -> (forall b, R b b) -> psim R (bind m f) (bind m g).
Proof. intros H HR. eapply psim_bind; [apply psim_eq|]. intros x ? <-. rewrite H. now apply psim_refl. Qed.

Lemma psim_trans {A B C} (R : A -> B -> Prop) (S : B -> C -> Prop) (T : A -> C -> Prop) p q r :
  (forall x y z, R x y -> S y z -> T x z) -> psim R p q -> psim S q r -> psim T p r.
Proof.
  intros HT. revert q r; induction p as [a|e|k IH|n k IH|c k IH|s k IH];
    intros [b|e'|k'|n' k'|c' k'|s' k'] [b2|e2|k2|n2 k2|c2 k2|s2 k2] H1 H2; cbn in *; try contradiction; eauto; try congruence.
  - destruct H1, H2. split; [congruence|eauto].
  - destruct H1, H2. split; [congruence|eauto].
  - destruct H1, H2. split; [congruence|eauto].
Qed.

Lemma use_loop_st depth F a d0 peak pw rt : forall fuel tot d evs,
  psim eq (use_loop fuel depth F (set_st a d0) peak pw rt tot d evs) (use_loop fuel depth F a peak pw rt tot d evs).
Proof.
  induction fuel as [|fuel IH]; intros tot d evs; [reflexivity|].
  cbn [use_loop]. rewrite rsw_st. destruct (_ && _); [|reflexivity].
  eapply psim_bind; [apply psim_eq|]. intros x ? <-. destruct (fst x) as [ix|]; [|reflexivity].
  cbv zeta. destruct (_ >? rt); [destruct (_ >? 0); [|reflexivity]; apply psim_eq|].
  eapply psim_bind; [apply psim_eq|]. intros y ? <-. apply IH.
Qed.

Definition tsim (a : appliance) (t t' : day_trace) : Prop :=
  match t, t' with
  | Skipped, Skipped => True
  | FlatDay r n, FlatDay r' n' => r = r' /\ n = n'
  | UsedDay r n evs, UsedDay r' n' evs' => r = r' /\ n = n' /\ Forall2 (esim a) evs evs'
  | _, _ => False
  end.

(** the day of an appliance does not depend on the state left by previous days *)
Theorem day_sim depth F a d0 d0' pref i peak dt pw :
  psim (fun x y => daily_use (fst x) = daily_use (fst y) /\ tsim a (snd x) (snd y))
    (generate_load_profile_traced depth F (set_st a d0) pref i peak dt pw)
    (generate_load_profile_traced depth F (set_st a d0') pref i peak dt pw).
Proof.
  unfold generate_load_profile_traced. cbv zeta.
  change (par (set_st a d0)) with (par a). change (par (set_st a d0')) with (par a).
  change (win (set_st a d0)) with (win a). change (win (set_st a d0')) with (win a).
  change (power (set_st a d0)) with (power a). change (power (set_st a d0')) with (power a).
  assert (Ha : forall d u, skip_day (set_st a d) pref dt u = skip_day a pref dt u) by reflexivity.
  eapply psim_bind; [apply psim_eq|]. intros u ? <-. rewrite !Ha.
  destruct (skip_day a pref dt u); [cbn; auto|].
  do 3 (eapply psim_bind; [apply psim_eq|]; intros ? ? <-).
  eapply psim_bind; [apply psim_eq|]. intros rt ? <-.
  destruct (String.eqb (flat (par a)) "yes").
  - eapply psim_bind; [apply psim_eq|]. intros p ? <-.
    eapply psim_bind; [apply psim_eq|]. intros du ? <-. cbn; auto.
  - eapply psim_bind; [apply psim_eq|]. intros du ? <-.
    eapply psim_bind.
    { apply (arc_sim F (set_st a d0)). reflexivity. }
    intros d1 d1' [H1 H2].
    eapply psim_bind.
    { eapply psim_trans; [|apply use_loop_st|]; [intros ? ? ? -> K; exact K|].
      eapply psim_trans; [| |apply psim_sym; apply use_loop_st].
      { intros ? ? ? K ->. exact K. }
      apply (use_loop_sim _ depth F a peak pw rt).
      - split; [exact H1|]. split; [reflexivity|exact H2].
      - constructor. }
    intros x y [Hx Hy]. cbn. split; [apply Hx|]. auto.
Qed.

(** same declared appliance, whatever the run-time state *)
Definition same_app (a b : appliance) : Prop := exists d, b = set_st a d.

Lemma same_app_refl a : same_app a a.
Proof. exists (st a). destruct a; reflexivity. Qed.
Lemma same_app_sym a b : same_app a b -> same_app b a.
Proof. intros (d & ->). exists (st a). destruct a; reflexivity. Qed.
Lemma same_app_trans a b c : same_app a b -> same_app b c -> same_app a c.
Proof. intros (d & ->) (d' & ->). exists d'. reflexivity. Qed.
Lemma same_app_power a b : same_app a b -> power b = power a.
Proof. intros (d & ->). reflexivity. Qed.
Lemma same_app_par a b : same_app a b -> par b = par a.
Proof. intros (d & ->). reflexivity. Qed.

Lemma glp_sim depth F a b pref i peak dt pw : same_app a b ->
  psim (fun x y => same_app a x /\ same_app a y /\ daily_use (st x) = daily_use (st y))
    (generate_load_profile depth F a pref i peak dt pw) (generate_load_profile depth F b pref i peak dt pw).
Proof.
  intros (d & ->). unfold generate_load_profile. rewrite <- (set_st_id a) at 1.
  eapply psim_bind; [apply day_sim|]. intros x y [H _]. cbn.
  split; [eexists; reflexivity|]. split; [eexists; reflexivity|exact H].
Qed.
