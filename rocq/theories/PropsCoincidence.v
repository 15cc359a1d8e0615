(** * PropsCoincidence: C59, how many appliances an event switches on, and C17 for one event *)
From Verif Require Import Base Wp Tape Utils ListLemmas Appliance Spec SpecDay ProofsUtils ProofsUtils2
  ProofsAppliance ProofsEvent ProofsEvent2 PropsBasic ProofsDay ProofsDay2 ProofsDay3 PropsDay PropsDayCases PropsTight ProofsRun.
From Coq Require Import ZifyBool ZifyNat.

(** ** C17: the power of one event in terms of the number of appliances it switches on *)

Theorem C17_event_power_own depth F a pref i peak dt pw d rws rt evs e :
  exact F -> 0 <= func_cycle (par a) -> fixed_cycle (par a) <= 0 -> 1 <= number (par a) ->
  (0 <= pw)%Q -> (0 <= thermal_p_var (par a) <= 1)%Q ->
  may (day depth F a pref i peak dt pw) (Ok (d, UsedDay rws rt evs)) -> In e evs ->
  exists v, ev_values e = [v] /\
    (zq (ev_coincidence e) * pw * (1 - thermal_p_var (par a)) <= v
     <= zq (ev_coincidence e) * pw * (1 + thermal_p_var (par a)))%Q.
Proof.
  intros HF Hfc Hfx Hn Hp Ht H He.
  pose proof (wp_elim _ _ _ (day_spec F depth a pref i peak dt pw Hfc) H) as G. cbn in G.
  destruct G as (_ & _ & _ & _ & _ & _ & _ & [(cyc & HI & _) _ _ _ _]).
  pose proof (inv_ev _ _ _ _ _ _ _ _ _ _ _ HI) as Hev. rewrite Forall_forall in Hev.
  destruct (Hev e He) as (s & n & n0 & _ & _ & _ & _ & _ & Hco & Hval).
  replace (fixed_cycle (par a) >? 0) with false in Hval by lia.
  destruct Hval as (v & Ev & Hv). exists v. split; [exact Ev|].
  pose proof (coincidence_ok_range _ _ _ _ _ _ Hn Hco) as Hc. destruct Ht as [T0 T1].
  assert (E : (fmul F (zq (ev_coincidence e)) pw == zq (ev_coincidence e) * pw)%Q) by apply HF.
  assert (C1 : (1 <= zq (ev_coincidence e))%Q) by (apply (proj2 (zq_le 1 _)); lia).
  assert (N0 : (0 <= fmul F (zq (ev_coincidence e)) pw)%Q) by (rewrite E; nra).
  destruct (wp_elim _ _ _ (random_variation_interval F _ _ HF T0 N0) Hv) as (x & Ex & G1 & G2).
  injection Ex as ->. rewrite E in G1, G2. split; assumption.
Qed.

(** ** C59: which draw decides the number of appliances of an event *)

(** [p] on the draws of generator [G], whatever its state *)
Fixpoint wpG (G : generator) {A} (p : prog A) (Q : res A -> Prop) : Prop :=
  match p with
  | Ret a => Q (Ok a)
  | Raise e => Q (Err e)
  | Random k => forall s, wpG G (k (fst (g_random G s))) Q
  | RandBelow n k => forall s, wpG G (k (fst (g_below G n s))) Q
  | Normal c k => forall s, wpG G (k (fst (g_normal G c s))) Q
  | Seed _ k => wpG G k Q
  end.

Lemma wpG_run G {A} (p : prog A) Q : wpG G p Q -> forall s, Q (fst (run G p s)).
Proof.
  induction p as [a|e|k IH|n k IH|c k IH|z k IH]; cbn [wpG run]; intros H s; auto.
  - specialize (H s). destruct (g_random G s). apply IH. exact H.
  - specialize (H s). destruct (g_below G n s). apply IH. exact H.
  - specialize (H s). destruct (g_normal G c s). apply IH. exact H.
Qed.

Lemma wpG_mono G {A} (p : prog A) (Q R : res A -> Prop) : (forall r, Q r -> R r) -> wpG G p Q -> wpG G p R.
Proof. intros HQ. induction p; cbn [wpG]; auto. Qed.

Lemma wpG_top G {A} (p : prog A) (Q : res A -> Prop) : (forall r, Q r) -> wpG G p Q.
Proof. intros HQ. induction p; cbn [wpG]; auto. Qed.

Lemma wpG_bind G {A B} (m : prog A) (f : A -> prog B) (Q : res B -> Prop) :
  wpG G m (fun r => match r with Ok x => wpG G (f x) Q | Err e => Q (Err e) end) -> wpG G (bind m f) Q.
Proof. induction m; cbn [wpG bind]; auto. Qed.

Lemma wpG_lift G {A} (x : res A) (Q : res A -> Prop) : Q x -> wpG G (lift x) Q.
Proof. destruct x; cbn; auto. Qed.

(** the number of appliances that are on: in the peak from a normal deviate [z], off the peak from a
    uniform [u] *)
Definition peak_number (n : Z) (z : Q) : Z :=
  Z.min n (Z.max 1 (Qceiling (zq n / 2 + z * (zq n / 4)))).
Definition off_peak_number (n : Z) (u : Q) : Z := Qfloor (u * (zq n - (1 # 2))) + 1.

Definition coin_of (G : generator) (a : appliance) (p0 pl : Z) (e : event) : Prop :=
  exists i0 il, py_first (ev_indexes e) = Ok i0 /\ py_last (ev_indexes e) = Ok il /\
    if within_peak_time_window i0 il p0 pl
    then exists s, ev_coincidence e = peak_number (number (par a)) (fst (g_normal G true s))
    else exists s, ev_coincidence e = off_peak_number (number (par a)) (fst (g_random G s)).

Lemma use_event_coin G F a d peak pw ix p0 pl :
  exact F -> fixed (par a) = "no"%string -> 1 <= number (par a) ->
  py_first peak = Ok p0 -> py_last peak = Ok pl ->
  wpG G (use_event F a d peak pw ix) (fun r => forall d' e, r = Ok (d', e) -> coin_of G a p0 pl e).
Proof.
  intros HF Hno Hn E0 El. unfold use_event. rewrite E0, El.
  destruct (py_first ix) as [i0|] eqn:Ei; cbn [lift bind wpG]; [|discriminate].
  destruct (py_last ix) as [il|] eqn:Ej; cbn [lift bind wpG]; [|discriminate].
  destruct (within_peak_time_window i0 il p0 pl) eqn:Ew.
  - pose proof (fun s => C10_peak_law F G a s HF Hno) as Hlaw. cbv zeta in Hlaw.
    unfold calc_coincident_switch_on in *. rewrite Hno in *.
    cbn [String.eqb Ascii.eqb Bool.eqb andb bind py_gauss wpG run] in *.
    intros s. specialize (Hlaw s). destruct (g_normal G true s) as [z s'] eqn:Ez. cbn [fst snd run] in *.
    injection Hlaw as Hlaw. apply wpG_bind. apply wpG_top. intros [dv|e]; [|discriminate].
    cbn [wpG]. intros d' e H. injection H as <- <-. exists i0, il. cbn [ev_indexes ev_coincidence].
    rewrite Ew. split; [exact Ei|]. split; [exact Ej|]. exists s. rewrite Ez. exact Hlaw.
  - pose proof (fun s => C10_off_peak_law F G a s HF Hno Hn) as Hlaw. cbv zeta in Hlaw.
    unfold calc_coincident_switch_on in *. rewrite Hno in *.
    cbn [String.eqb Ascii.eqb Bool.eqb andb negb] in *.
    replace (number (par a) =? 0) with false in * by lia. cbn [bind py_uniform wpG run] in *.
    intros s. specialize (Hlaw s). destruct (g_random G s) as [u s'] eqn:Eu. cbn [fst snd run] in *.
    injection Hlaw as Hlaw. apply wpG_bind. apply wpG_top. intros [dv|e]; [|discriminate].
    cbn [wpG]. intros d' e H. injection H as <- <-. exists i0, il. cbn [ev_indexes ev_coincidence].
    rewrite Ew. split; [exact Ei|]. split; [exact Ej|]. exists s. rewrite Eu. exact Hlaw.
Qed.

Lemma use_loop_coin G F depth a peak pw rand_time p0 pl :
  exact F -> fixed (par a) = "no"%string -> 1 <= number (par a) ->
  py_first peak = Ok p0 -> py_last peak = Ok pl ->
  forall fuel tot d evs, Forall (coin_of G a p0 pl) evs ->
  wpG G (use_loop fuel depth F a peak pw rand_time tot d evs)
    (fun r => forall d' evs', r = Ok (d', evs') -> Forall (coin_of G a p0 pl) evs').
Proof.
  intros HF Hno Hn E0 El. induction fuel as [|fuel IH]; intros tot d evs Hevs; [cbn; discriminate|].
  cbn [use_loop]. destruct (_ && _).
  2: { cbn [wpG]. intros d' evs' H. injection H as <- <-. exact Hevs. }
  apply wpG_bind. apply wpG_top. intros [[[ix|] d1]|e]; cbn [fst snd]; [| |discriminate].
  2: { cbn [wpG]. intros d' evs' H. injection H as <- <-. exact Hevs. }
  destruct (_ >? rand_time).
  - set (adj := firstn _ _). destruct (zlen adj >? 0).
    2: { cbn [wpG]. intros d' evs' H. injection H as <- <-. exact Hevs. }
    apply wpG_bind. eapply wpG_mono; [|apply (use_event_coin G F a d1 peak pw adj p0 pl); assumption].
    intros [[d2 e2]|e] H; [|discriminate]. cbn [wpG fst snd]. intros d' evs' E. injection E as <- <-.
    apply Forall_app. split; [exact Hevs|]. constructor; [eapply H; reflexivity|constructor].
  - apply wpG_bind. eapply wpG_mono; [|apply (use_event_coin G F a d1 peak pw ix p0 pl); assumption].
    intros [[d2 e2]|e] H; [|discriminate]. cbn [fst snd]. apply IH.
    apply Forall_app. split; [exact Hevs|]. constructor; [eapply H; reflexivity|constructor].
Qed.

Lemma day_coin G F depth a pref i peak dt pw p0 pl :
  exact F -> fixed (par a) = "no"%string -> 1 <= number (par a) ->
  py_first peak = Ok p0 -> py_last peak = Ok pl ->
  wpG G (day depth F a pref i peak dt pw)
    (fun r => forall d rws rt evs, r = Ok (d, UsedDay rws rt evs) -> Forall (coin_of G a p0 pl) evs).
Proof.
  intros HF Hno Hn E0 El. unfold generate_load_profile_traced.
  apply wpG_bind. apply wpG_top. intros [u|e]; [|discriminate].
  destruct (skip_day a pref dt u); [cbn [wpG]; discriminate|].
  apply wpG_bind. apply wpG_top. intros [rw1|e]; [|discriminate].
  apply wpG_bind. apply wpG_top. intros [rw2|e]; [|discriminate].
  apply wpG_bind. apply wpG_top. intros [rw3|e]; [|discriminate].
  cbv zeta. apply wpG_bind. apply wpG_top. intros [rt|e]; [|discriminate].
  destruct (String.eqb (flat (par a)) "yes").
  - apply wpG_bind. apply wpG_top. intros [p|e]; [|discriminate].
    apply wpG_bind. apply wpG_top. intros [du|e]; [|discriminate]. cbn [wpG]. discriminate.
  - apply wpG_bind. apply wpG_top. intros [du|e]; [|discriminate].
    apply wpG_bind. apply wpG_top. intros [d1|e]; [|discriminate].
    apply wpG_bind. eapply wpG_mono; [|apply (use_loop_coin G F depth a peak pw rt p0 pl); try assumption; constructor].
    intros [[d2 evs2]|e] H; [|discriminate]. cbn [wpG fst snd]. intros d rws rt' evs E. injection E as _ _ _ <-.
    eapply H. reflexivity.
Qed.

(** An event that shares a minute with the peak time range takes the number of appliances from the
    normal law, every other event from the off-peak law; the peak time range is all minutes from its
    first to its last, as calc_peak_time_range gives it. *)
Theorem C59_peak_or_off_peak (G : generator) depth F a pref i p0 pl dt pw s0 d rws rt evs e :
  exact F -> 0 <= func_cycle (par a) -> fixed (par a) = "no"%string -> 1 <= number (par a) -> p0 <= pl ->
  fst (run G (day depth F a pref i (arange p0 (pl + 1)) dt pw) s0) = Ok (d, UsedDay rws rt evs) -> In e evs ->
  ((exists m, In m (ev_indexes e) /\ p0 <= m <= pl) ->
     exists s, ev_coincidence e = peak_number (number (par a)) (fst (g_normal G true s))) /\
  ((forall m, In m (ev_indexes e) -> ~ (p0 <= m <= pl)) ->
     exists s, ev_coincidence e = off_peak_number (number (par a)) (fst (g_random G s))).
Proof.
  intros HF Hfc Hno Hn Hp Hrun He.
  assert (E0 : py_first (arange p0 (pl + 1)) = Ok p0) by (apply py_first_arange; lia).
  assert (El : py_last (arange p0 (pl + 1)) = Ok pl) by (rewrite py_last_arange by lia; f_equal; lia).
  pose proof (wpG_run G _ _ (day_coin G F depth a pref i _ dt pw p0 pl HF Hno Hn E0 El) s0 d rws rt evs Hrun) as Hc.
  rewrite Forall_forall in Hc. destruct (Hc e He) as (i0 & il & Hi0 & Hil & Hw).
  destruct (ev_indexes e) as [|m0 ms] eqn:Eix; [discriminate|].
  assert (Hmay : may (day depth F a pref i (arange p0 (pl + 1)) dt pw) (Ok (d, UsedDay rws rt evs))).
  { rewrite <- Hrun. apply run_may. apply bp_day. }
  destruct (C13_overlay _ _ _ _ _ _ _ _ _ _ _ _ Hfc Hmay) as (_ & _ & Hruns & _).
  destruct (Hruns e He) as (s & n & w & Hr & Hn1 & _). rewrite Eix in Hr.
  pose proof (run_of_minutes_arange _ _ _ Hr) as Ea. rewrite Ea in *.
  rewrite py_first_arange in Hi0 by lia. rewrite py_last_arange in Hil by lia.
  injection Hi0 as <-. injection Hil as <-.
  destruct (within_peak_time_window s (s + n - 1) p0 pl) eqn:Ew.
  - split; [intros _; exact Hw|]. intros Hno'. exfalso.
    apply C01_peak_overlap in Ew; [|lia|lia]. destruct Ew as (m & Hm1 & Hm2).
    apply (Hno' m); [apply in_arange; lia|exact Hm2].
  - split; [|intros _; exact Hw]. intros (m & Hm1 & Hm2). exfalso. apply in_arange in Hm1.
    assert (Et : within_peak_time_window s (s + n - 1) p0 pl = true).
    { apply C01_peak_overlap; [lia|lia|]. exists m. lia. }
    congruence.
Qed.

(** a fixed appliance switches all its units on in every event *)
Theorem C59_fixed depth F a pref i peak dt pw d rws rt evs e :
  0 <= func_cycle (par a) -> fixed (par a) <> "no"%string -> 1 <= number (par a) ->
  may (day depth F a pref i peak dt pw) (Ok (d, UsedDay rws rt evs)) -> In e evs ->
  ev_coincidence e = number (par a).
Proof.
  intros Hfc Hno Hn H He.
  pose proof (wp_elim _ _ _ (day_spec F depth a pref i peak dt pw Hfc) H) as G. cbn in G.
  destruct G as (_ & _ & _ & _ & _ & _ & _ & [(cyc & HI & _) _ _ _ _]).
  pose proof (inv_ev _ _ _ _ _ _ _ _ _ _ _ HI) as Hev. rewrite Forall_forall in Hev.
  destruct (Hev e He) as (s & n & n0 & _ & _ & _ & _ & _ & (q0 & ql & _ & _ & Hco) & _).
  destruct (wp_elim _ _ _ (coincidence_range F a _ Hn) Hco) as (c & Ec & _ & Hc). injection Ec as ->. auto.
Qed.

(** a concrete day: with a generator that always hands out 0 (and the declared windows), the events inside
    the peak switch on 2 of the 3 appliances, the others 1 *)
Definition zero_gen : generator.
Proof.
  refine (Gen unit (fun _ => tt) (fun _ => (0%Q, tt)) (fun n _ => (0, tt)) (fun _ _ => (0%Q, tt)) _ _).
  - intros _. cbn. split; [apply Qle_refl|reflexivity].
  - intros n _ Hn. cbn. lia.
Defined.

Definition still_demo : appliance :=
  App demo_params [50%Q; 60%Q] false (Wins (480, 600) (1080, 1320) (0, 0) 0 0 0 0) default_cycle default_cycle default_cycle default_dyn.

Example C59_case : exists d rws rt evs,
  fst (run zero_gen (day 5 exact_fm still_demo 0 0 (arange 500 (520 + 1)) 0 50%Q) tt) = Ok (d, UsedDay rws rt evs) /\
  map (fun e => (ev_start e, ev_dur e, ev_coincidence e)) evs =
    [(480, 10, 1); (490, 10, 1); (500, 10, 2); (510, 10, 2); (520, 10, 2); (530, 10, 1); (540, 10, 1);
     (550, 10, 1); (560, 10, 1); (570, 10, 1); (580, 10, 1); (590, 10, 1)].
Proof. do 4 eexists. vm_compute. split; reflexivity. Qed.
