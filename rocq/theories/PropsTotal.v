(** * PropsTotal: whole simulations that raise nothing (C67) *)
From Verif Require Import Base Wp Tape ListLemmas Utils Appliance User Spec SpecDay ProofsUtils ProofsUtils2 ProofsAppliance ProofsEvent ProofsEvent2
  PropsBasic ProofsDay ProofsDay2 ProofsDay3 PropsDay
  UseCase SpecUser SpecUseCase ProofsUser ProofsUseCase PropsUseCase ProofsEq PropsInit PropsPeak.
From Coq Require Import ZifyBool ZifyNat.
Open Scope list_scope.
Open Scope Z_scope.

(** ** Specification *)

(** valid durations of the duty cycles, each at least one minute long (or repeated) *)
Definition durations_ok (a : appliance) : Prop :=
  forall c, c = cyc1 a \/ c = cyc2 a \/ c = cyc3 a ->
    (0 <= cr c <= 1)%Q /\ 0 <= ct1 c <= 2 ^ 20 /\ 0 <= ct2 c <= 2 ^ 20 /\
    (continuous_duty_cycle (par a) <> 0 \/ (1001 # 1000 <= zq (ct1 c) * (1 - cr c))%Q).

(** an appliance with duty cycles that are used *)
Definition has_duty_cycles (a : appliance) : Prop := flat (par a) <> "yes"%string /\ 1 <= fixed_cycle (par a).

(** valid declarations: windows inside the day that leave room for one event *)
Definition sound_app (F : fm) (a : appliance) : Prop :=
  well_declared F a /\ cycle_fits a /\ 1 <= func_cycle (par a) /\ 1 <= number (par a) /\
  (has_duty_cycles a -> durations_ok a).

(** power values for [n] days, or a constant power *)
Definition has_power (n : Z) (a : appliance) : Prop := n <= zlen (power a) \/ (constant_power a = true /\ power a <> []).

(** every appliance of every user *)
Definition all_apps (P : appliance -> Prop) (us : list user) : Prop := Forall (fun u => Forall P (app_list u)) us.
Definition sound_preferences (us : list user) : Prop := Forall (fun u => 0 <= user_preference u) us.

Definition use_windows (a : appliance) : list (Z * Z) := [window_1 (win a); window_2 (win a); window_3 (win a)].

(** every minute of the day has another one that lies in the same use windows *)
Definition no_lonely_minute (us : list user) : Prop :=
  forall t, 0 <= t < 1440 -> exists t', 0 <= t' < 1440 /\ t' <> t /\
    all_apps (fun a => Forall (fun w => minute_in t w <-> minute_in t' w) (use_windows a)) us.

(** the daily profile is still the one windows() wrote (no day was simulated yet) *)
Definition not_simulated (F : fm) (a : appliance) : Prop :=
  fill_windows (zeros day_minutes) (use_windows a) (mask_value F) = Ok (daily_use (st a)).

(** the number of days that is asked for: the argument, the days between the dates, or what is typed at the prompt *)
Definition asked (w : world) (start stop num : option Z) (n : Z) : Prop :=
  match num, start, stop with
  | Some m, _, _ => m = n
  | None, Some s, Some e => s + 1440 * (n - 1) <= e < s + 1440 * n
  | None, _, _ => typed w = Ok n
  end.

(** with both dates the use case is initialized when it is created, a later initialize(num_days) has no effect *)
Definition both_dates (start stop : option Z) : bool := match start, stop with Some _, Some _ => true | _, _ => false end.

(** a peak_enlarge argument, if one is given, is a number that is not negative *)
Definition sound_enlarge (pe : option enlarge_arg) : Prop := pe = None \/ exists q, (0 <= q)%Q /\ pe = Some (EFloat q).

(** the script UseCase(users, date_start, date_end, peak_enlarge, random_seed), initialize(num_days, peak_enlarge),
    generate_daily_load_profiles() *)
Definition simulate (depth : nat) (F : fm) (w : world) (us : list user) (start stop : option Z) (enl : Q) (seed : option Z)
    (num : option Z) (pe : option enlarge_arg) : prog (usecase * list (list Q)) :=
  c <- new_usecase F w us start stop false enl seed ;;
  r <- initialize F w c num pe false ;;
  match snd r with Some e => Raise e | None => generate_sequential depth F w (fst r) None end.

(** ** One day of one appliance *)

Lemma day_total depth F a pref i peak dt pw r :
  sound_app F a -> peak <> [] -> (0 < depth)%nat -> 0 <= i < zlen (power a) ->
  may (day depth F a pref i peak dt pw) r ->
  (exists x, r = Ok x) \/ (r = Err RecursionError /\ has_duty_cycles a /\ ~ duty_ok a).
Proof.
  intros (Hw & Hfit & Hfc & Hnum & Hdur) Hpeak Hdepth Hi H.
  destruct (string_dec (flat (par a)) "yes") as [Ef|Ef].
  { destruct (C24_no_crash_partial depth F a pref i peak dt pw r Hw Hfit Hfc Hnum Hpeak Hdepth Hi (or_introl Ef) H) as (d & tr & ->). eauto. }
  destruct (Z_le_gt_dec (fixed_cycle (par a)) 0) as [Ec|Ec].
  { destruct (C24_no_crash_partial depth F a pref i peak dt pw r Hw Hfit Hfc Hnum Hpeak Hdepth Hi (or_intror (or_introl Ec)) H) as (d & tr & ->). eauto. }
  assert (Hc : has_duty_cycles a) by (split; [exact Ef|lia]).
  destruct r as [x|e]; [eauto|right].
  assert (Hno : ~ duty_ok a).
  { intros Hd. destruct (C24_no_crash_partial depth F a pref i peak dt pw _ Hw Hfit Hfc Hnum Hpeak Hdepth Hi (or_intror (or_intror Hd)) H) as (d & tr & C). discriminate. }
  split; [|split; [exact Hc|exact Hno]].
  destruct Hw as (Hday & Hv & V1 & V2 & V3). specialize (Hdur Hc).
  pose proof (wp_elim _ _ _ (day_spec F depth a pref i peak dt pw ltac:(lia)) H) as G. cbn beta iota in G.
  inversion Hday as [|? ? D1 Hd1]; subst. inversion Hd1 as [|? ? D2 Hd2]; subst. inversion Hd2 as [|? ? D3 _]; subst.
  clear Hd1 Hd2.
  assert (K : forall w rv, inside_day w -> rv = py_int (fmul F (random_var_w (win a)) (zq (length_of w))) ->
     0 <= rv /\ forall rw, near w rv rw -> fst rw <= snd rw /\ length_of w - 2 * rv <= length_of rw).
  { intros w rv [I0 I1] Erv.
    destruct (random_var_half F (random_var_w (win a)) (length_of w) (proj1 Hv) (proj2 Hv)) as [R1 R2];
      [unfold length_of; lia|]. rewrite <- Erv in R1, R2.
    split; [exact R1|]. intros rw (y0 & y1 & -> & Y0 & Y1). unfold length_of in *. cbn [fst snd]. lia. }
  destruct (K _ _ D1 V1) as [P1 N1]. destruct (K _ _ D2 V2) as [P2 N2]. destruct (K _ _ D3 V3) as [P3 N3].
  assert (Hrange : forall c, c = cyc1 a \/ c = cyc2 a \/ c = cyc3 a ->
     (0 <= cr c <= 1)%Q /\ 0 <= ct1 c <= 2 ^ 20 /\ 0 <= ct2 c <= 2 ^ 20).
  { intros c Hx. destruct (Hdur c Hx) as (? & ? & ? & _). auto. }
  destruct G as [(-> & [Hneg|[(rws & (rw1 & rw2 & rw3 & -> & M1 & M2 & M3) & Hcase)|(_ & Hf & k & p1 & p2 & Hbad)]])
                |[(-> & Ef' & Hidx)|(_ & rws & d & (rw1 & rw2 & rw3 & -> & M1 & M2 & M3) & Hins & Hdr & Hloop)]].
  - exfalso. destruct Hneg as [C|[C|C]]; lia.
  - exfalso. destruct (N1 _ M1) as [O1 L1]. destruct (N2 _ M2) as [O2 L2]. destruct (N3 _ M3) as [O3 L3].
    destruct Hcase as [(rw & Hin & C)|[_ C]].
    + cbn in Hin. destruct Hin as [<-|[<-|[<-|[]]]]; lia.
    + unfold total_length in C. cbn [fold_right] in C. unfold cycle_fits in Hfit. cbv zeta in Hfit. lia.
  - exfalso. set (c := declared_cycle a k) in *.
    destruct (Hrange c (declared_cycle_cases a k)) as (R1 & R2 & R3).
    destruct Hbad as [Hb|[_ Hb]].
    + destruct (wp_elim _ _ _ (duty_cycle_close F (cr c) (ct1 c) p1 (ct2 c) p2 R1 R2 R3) Hb) as (? & ? & C & _). discriminate.
    + destruct (wp_elim _ _ _ (random_choice_close F (cr c) (ct1 c) p1 (ct2 c) p2 R1 R2 R3) Hb) as (? & ? & [C|C] & _); discriminate.
  - exfalso. destruct (py_index_exists (power a) i Hi) as (x & Hx & _). congruence.
  - destruct Hloop as [(-> & [C|(Hf & rw & s & n & Hin & S1 & S2 & Hn & Hsel)])|[(-> & [C|[C|(Hf & Hcont & k & Hk & Hnil)]])|(-> & C)]];
      [lia| |contradiction|lia| |lia].
    + reflexivity.
    + exfalso. destruct (Hdr Hf k Hk) as (p1 & p2 & _ & _ & Hdc).
      cbv zeta in Hdc. rewrite Hnil in Hdc. set (c := declared_cycle a k) in *.
      pose proof (declared_cycle_cases a k) as Hcc. fold c in Hcc.
      destruct (Hrange c Hcc) as (R1 & R2 & R3). destruct (Hdur c Hcc) as (_ & _ & _ & [C|C]); [contradiction|].
      assert (Hpos : forall n1, half_length (cr c) (ct1 c) n1 -> 1 <= n1).
      { intros n1 [[L _] _]. assert (Hle : (1 <= zq (ct1 c) * (1 - cr c) - (1 # 1000))%Q) by lra.
        apply Qfloor_resp_le in Hle. change (Qfloor 1) with 1 in Hle. lia. }
      assert (Hnn : forall n1 (p q : Q) m, 1 <= n1 -> @nil Q = repeat p (Z.to_nat n1) ++ repeat q m -> False).
      { intros n1 p q m Hn E. apply (f_equal (@List.length Q)) in E. rewrite app_length, !repeat_length in E. cbn in E. lia. }
      assert (Hnn' : forall n1 (p q : Q) m, 1 <= n1 -> @nil Q = repeat q m ++ repeat p (Z.to_nat n1) -> False).
      { intros n1 p q m Hn E. apply (f_equal (@List.length Q)) in E. rewrite app_length, !repeat_length in E. cbn in E. lia. }
      destruct Hdc as [Hb|[_ Hb]].
      * destruct (wp_elim _ _ _ (duty_cycle_close F (cr c) (ct1 c) p1 (ct2 c) p2 R1 R2 R3) Hb) as (n1 & n2 & E & L1 & _).
        injection E as E. exact (Hnn n1 p1 p2 (Z.to_nat n2) (Hpos n1 L1) E).
      * destruct (wp_elim _ _ _ (random_choice_close F (cr c) (ct1 c) p1 (ct2 c) p2 R1 R2 R3) Hb) as (n1 & n2 & [E|E] & L1 & _);
          injection E as E;
          [exact (Hnn n1 p1 p2 (Z.to_nat n2) (Hpos n1 L1) E)|exact (Hnn' n1 p1 p2 (Z.to_nat n2) (Hpos n1 L1) E)].
Qed.

(** ** Users and days *)

Lemma sound_same F a b : same_declared a b -> sound_app F a -> sound_app F b.
Proof. intros (d & ->) H. exact H. Qed.
Lemma zlen_power_same a b : same_declared a b -> zlen (power b) = zlen (power a).
Proof. intros (d & ->). reflexivity. Qed.
Lemma duty_same a b : same_declared a b -> has_duty_cycles a -> ~ duty_ok a -> has_duty_cycles b /\ ~ duty_ok b.
Proof. intros (d & ->) H1 H2. split; [exact H1|exact H2]. Qed.

Section totality.
Variables (depth : nat) (F : fm) (n : Z) (peak : list Z) (E : exc -> Prop).
Hypothesis Hdepth : (0 < depth)%nat.
Hypothesis Hpeak : peak <> [].

Definition ready_app (a : appliance) : Prop :=
  sound_app F a /\ n <= zlen (power a) /\ (has_duty_cycles a -> ~ duty_ok a -> E RecursionError).

Lemma ready_same a b : same_declared a b -> ready_app a -> ready_app b.
Proof.
  intros Hs (H1 & H2 & H3). split; [exact (sound_same F a b Hs H1)|]. split; [rewrite (zlen_power_same a b Hs); exact H2|].
  destruct Hs as (d & ->). exact H3.
Qed.

Lemma apps_total pref i dt : 0 <= i < n -> forall apps acc, Forall ready_app apps ->
  wp (generate_apps depth F pref i peak dt apps acc) (fun r => match r with Ok x => Forall2 same_declared apps (fst x) | Err e => E e end).
Proof.
  intros Hi. induction apps as [|a apps IH]; intros acc Ha; cbn [generate_apps]; [constructor|].
  inversion Ha as [|? ? H1 H2]; subst. destruct H1 as (Hs & Hp & He).
  destruct (py_index_exists (power a) i ltac:(lia)) as (x & Hx & _). rewrite Hx. cbn [lift bind].
  apply wp_bind_ok. apply wp_intro. intros r Hr. unfold generate_load_profile in Hr.
  assert (Hok : (exists a', r = Ok a' /\ same_declared a a') \/ exists e, r = Err e /\ E e).
  { destruct r as [a'|e].
    - left. exists a'. split; [reflexivity|]. exact (glp_same _ _ _ _ _ _ _ _ _ Hr).
    - right. exists e. split; [reflexivity|]. apply may_bind in Hr as [(y & _ & Hr)|(e' & Hr & Ee)]; [apply may_ret_inv in Hr; discriminate|].
      injection Ee as <-. destruct (day_total depth F a pref i peak dt x _ Hs Hpeak Hdepth ltac:(lia) Hr) as [(y & C)|(C & C1 & C2)]; [discriminate|].
      injection C as ->. exact (He C1 C2). }
  destruct Hok as [(a' & -> & Hsa)|(e & -> & Hee)]; cbn [wpk]; [|exact Hee].
  apply wp_bind_ok. eapply wp_mono; [|apply IH; exact H2]. intros [y|e]; cbn [wpk wp]; [|auto]. intros Hy. constructor; assumption.
Qed.

Definition ready_user (u : user) : Prop := 0 <= user_preference u /\ Forall ready_app (app_list u).

Lemma Forall2_ready l l' : Forall2 same_declared l l' -> Forall ready_app l -> Forall ready_app l'.
Proof. induction 1; intros H1; [constructor|]. inversion H1; subst. constructor; [eapply ready_same; eassumption|auto]. Qed.

Lemma members_total i dt : 0 <= i < n -> forall k u, ready_user u ->
  wp (generate_members k depth F u i peak dt) (fun r => match r with Ok u' => ready_user u' | Err e => E e end).
Proof.
  intros Hi. induction k as [|k IH]; intros u Hu; cbn [generate_members]; [exact Hu|]. destruct Hu as [Hp Ha].
  apply wp_bind_ok. unfold generate_single_load_profile. apply wp_bind_ok. unfold draw_pref.
  assert (G : forall pref, wp (r <- generate_apps depth F pref i peak dt (app_list u) (zeros day_minutes);; Ret (set_apps (set_pref u pref) (fst r), snd r))
     (wpk (fun r => generate_members k depth F (set_load (fst r) (vadd F (load (fst r)) (snd r))) i peak dt)
        (fun r => match r with Ok u' => ready_user u' | Err e => E e end))).
  { intros pref. apply wp_bind_ok. eapply wp_mono; [|apply (apps_total pref i dt Hi); exact Ha].
    intros [x|e]; cbn [wpk wp]; [|auto]. intros Hx. apply IH. split; [exact Hp|]. cbn. exact (Forall2_ready _ _ Hx Ha). }
  destruct (Z.eqb_spec (user_preference u) 0); [cbn [wp wpk]; apply G|].
  apply wp_randint; [intros C; lia|]. intros p _. cbn [wpk]. apply G.
Qed.

Lemma day_users_total i dt : 0 <= i < n -> forall us acc, Forall ready_user us ->
  wp (day_of_users depth F i peak dt us acc) (fun r => match r with Ok x => Forall ready_user (fst x) | Err e => E e end).
Proof.
  intros Hi. induction us as [|u us IH]; intros acc Hu; cbn [day_of_users]; [constructor|].
  inversion Hu as [|? ? H1 H2]; subst. apply wp_bind_ok. unfold generate_aggregated_load_profile.
  eapply wp_mono; [|apply members_total; [exact Hi|]]; [|exact H1].
  intros [u'|e]; cbn [wpk]; [|auto]. intros Hu'. apply wp_bind_ok. eapply wp_mono; [|apply IH; exact H2].
  intros [x|e]; cbn [wpk wp]; [|auto]. intros Hx. constructor; assumption.
Qed.

Lemma loop_total : forall ds i us rows, Forall ready_user us -> 0 <= i -> i + zlen ds = n -> zlen rows = n ->
  wp (day_loop depth F peak i ds us rows) (fun r => match r with Ok x => True | Err e => E e end).
Proof.
  induction ds as [|d ds IH]; intros i us rows Hu Hi Hn Hr; cbn [day_loop]; [exact I|].
  rewrite zlen_cons in Hn. pose proof (zlen_nonneg ds).
  apply wp_bind_ok. eapply wp_mono; [|apply day_users_total; [|exact Hu]; lia].
  intros [x|e]; cbn [wpk]; [|auto]. intros Hx. destruct (Z.leb_spec (zlen rows) i); [lia|].
  apply IH; [exact Hx|lia|lia|]. unfold zlen. rewrite list_set_length. exact Hr.
Qed.

End totality.

(** ** C67 *)

(** generation on an initialized use case raises nothing but, with duty cycles that do not cover the day, RecursionError *)
Theorem C67_generation depth F w c arg s n r :
  set_up c s n -> peak_of c <> [] -> (0 < depth)%nat ->
  sound_preferences (users c) -> all_apps (fun a => sound_app F a /\ n <= zlen (power a)) (users c) ->
  may (generate_sequential depth F w c arg) r ->
  (exists c' rows, r = Ok (c', rows)) \/
  (r = Err RecursionError /\ exists u a, In u (users c) /\ In a (app_list u) /\ has_duty_cycles a /\ ~ duty_ok a).
Proof.
  intros (Hn1 & Hn & (ds & Hd & Hds) & _) Hp Hdep Hpref Ha H. unfold generate_sequential in H.
  assert (Hch : choose_days c arg = Ok c) by (unfold choose_days; rewrite Hd; reflexivity).
  rewrite Hch in H. cbn [lift bind] in H. unfold num_days in H. rewrite Hn in H. cbn [bind fst snd] in H.
  destruct (Z.ltb_spec n 0); [lia|]. rewrite Hd in H. destruct Hds as [Hlen _].
  set (E := fun e => e = RecursionError /\ exists u a, In u (users c) /\ In a (app_list u) /\ has_duty_cycles a /\ ~ duty_ok a).
  apply may_bind in H as [([us rows] & _ & H)|(e & H & ->)].
  - cbn [fst snd] in H. apply may_ret_inv in H. left. subst r. eauto.
  - right. assert (G : wp (day_loop depth F (match peak_time_range c with Some p => p | None => [] end) 0 ds (users c) (repeat (zeros day_minutes) (Z.to_nat n)))
        (fun r => match r with Ok x => True | Err e => E e end)).
    { apply (loop_total depth F n _ E Hdep); [exact Hp| |lia|lia|rewrite zlen_repeat; lia].
      apply Forall_forall. intros u Hu. unfold sound_preferences, all_apps in Hpref, Ha. rewrite Forall_forall in Hpref, Ha.
      split; [apply Hpref; exact Hu|]. apply Forall_forall. intros a Hin. specialize (Ha u Hu). rewrite Forall_forall in Ha.
      destruct (Ha a Hin) as [A1 A2]. split; [exact A1|]. split; [exact A2|]. intros D1 D2. split; [reflexivity|]. exists u, a. auto. }
    destruct (wp_elim _ _ _ G H) as [-> Hex]. auto.
Qed.

(** ** initialize *)

Definition with_power (a b : appliance) : Prop := exists p, b = set_power a p.
Definition with_powers (u v : user) : Prop :=
  num_users v = num_users u /\ user_preference v = user_preference u /\ Forall2 with_power (app_list u) (app_list v).

Lemma Forall2_length {A B} (R : A -> B -> Prop) l l' : Forall2 R l l' -> List.length l = List.length l'.
Proof. induction 1; cbn; congruence. Qed.

Lemma Forall2_list_set {A B} (R : A -> B -> Prop) l l' i y :
  Forall2 R l l' -> (forall x, nth_error l i = Some x -> R x y) -> Forall2 R l (list_set l' i y).
Proof.
  intros H. revert i. induction H as [|x x' l l' Hx H IH]; intros i Hi; [constructor|].
  destruct i as [|i]; cbn [list_set]; constructor; auto.
Qed.

Lemma Forall2_nth {A B} (R : A -> B -> Prop) l l' i x' : Forall2 R l l' -> nth_error l' i = Some x' -> exists x, nth_error l i = Some x /\ R x x'.
Proof.
  intros H. revert i. induction H as [|x y l l' Hx H IH]; intros i Hi; [destruct i; discriminate|].
  destruct i as [|i]; cbn in *; [injection Hi as <-; eauto|eauto].
Qed.

Lemma check_powers_total n us0 : all_apps (has_power n) us0 -> forall refs us,
  Forall2 with_powers us0 us -> all_apps (has_power n) us ->
  (forall ij, In ij refs -> get_app us0 ij <> None) ->
  exists us', check_powers us refs n = (us', None) /\ Forall2 with_powers us0 us'.
Proof.
  intros H0. induction refs as [|ij refs IH]; intros us Hr Hp Hin; cbn [check_powers]; [eauto|].
  assert (Hg : exists u u0 a a0, nth_error us (fst ij) = Some u /\ nth_error us0 (fst ij) = Some u0 /\ with_powers u0 u /\
     nth_error (app_list u) (snd ij) = Some a /\ nth_error (app_list u0) (snd ij) = Some a0 /\ with_power a0 a /\ get_app us ij = Some a).
  { specialize (Hin ij (or_introl eq_refl)). unfold get_app in *. destruct (nth_error us0 (fst ij)) as [u0|] eqn:E0; [|congruence].
    destruct (nth_error (app_list u0) (snd ij)) as [a0|] eqn:Ea0; [|congruence].
    assert (exists u, nth_error us (fst ij) = Some u) as (u & Eu).
    { destruct (nth_error us (fst ij)) as [u|] eqn:Eu; [eauto|]. apply nth_error_None in Eu. pose proof (Forall2_length _ _ _ Hr).
      assert (nth_error us0 (fst ij) <> None) by congruence. apply nth_error_Some in H1. lia. }
    destruct (Forall2_nth _ _ _ _ _ Hr Eu) as (u0' & E0' & Hw). rewrite E0 in E0'. injection E0' as <-.
    assert (exists a, nth_error (app_list u) (snd ij) = Some a) as (a & Ea).
    { destruct (nth_error (app_list u) (snd ij)) as [a|] eqn:Ea; [eauto|]. apply nth_error_None in Ea. destruct Hw as (_ & _ & Hw).
      pose proof (Forall2_length _ _ _ Hw). assert (nth_error (app_list u0) (snd ij) <> None) by congruence. apply nth_error_Some in H1. lia. }
    destruct (Forall2_nth _ _ _ _ _ (proj2 (proj2 Hw)) Ea) as (a0' & Ea0' & Hwa). rewrite Ea0 in Ea0'. injection Ea0' as <-.
    exists u, u0, a, a0. rewrite Eu. repeat (split; [assumption||reflexivity|]). exact Ea. }
  destruct Hg as (u & u0 & a & a0 & Eu & Eu0 & Hw & Ea & Ea0 & Hwa & ->).
  assert (Hpa : has_power n a).
  { unfold all_apps in Hp. rewrite Forall_forall in Hp. specialize (Hp u (nth_error_In _ _ Eu)). rewrite Forall_forall in Hp. exact (Hp a (nth_error_In _ _ Ea)). }
  assert (Hc : exists a', check_power_values a n = Ok a' /\ with_power a0 a' /\ n <= zlen (power a')).
  { destruct Hwa as (p & Hwa). unfold check_power_values. destruct (Z.ltb_spec (zlen (power a)) n) as [Hlt|Hge].
    - destruct Hpa as [Hpa|[-> Hne]]; [lia|]. destruct (power a) as [|q l] eqn:Eq; [congruence|]. eexists. split; [reflexivity|].
      split; [subst a; eexists; reflexivity|]. cbn [power set_power]. rewrite zlen_repeat. pose proof (zlen_nonneg (q :: l)). lia.
    - exists a. split; [reflexivity|]. split; [exists p; exact Hwa|exact Hge]. }
  destruct Hc as (a' & -> & Hwa' & Hlen).
  apply IH.
  - unfold put_app. rewrite Eu. apply Forall2_list_set; [exact Hr|]. intros x Hx. rewrite Eu0 in Hx. injection Hx as <-.
    destruct Hw as (W1 & W2 & W3). split; [exact W1|]. split; [exact W2|]. cbn [app_list set_apps]. apply Forall2_list_set; [exact W3|].
    intros x Hx. rewrite Ea0 in Hx. injection Hx as <-. exact Hwa'.
  - unfold put_app. rewrite Eu. unfold all_apps in *. rewrite Forall_forall in Hp |- *. intros v Hv.
    apply In_nth_error in Hv as (k & Hk). rewrite list_set_nth_error in Hk.
    assert (Hlt : (fst ij <? List.length us)%nat = true) by (apply Nat.ltb_lt, nth_error_Some; congruence). rewrite Hlt in Hk.
    destruct (Nat.eqb k (fst ij)); cbn [andb] in Hk; [|apply nth_error_In in Hk; auto]. injection Hk as <-. cbn [app_list set_apps].
    specialize (Hp u (nth_error_In _ _ Eu)). rewrite Forall_forall in Hp |- *. intros b Hb.
    apply In_nth_error in Hb as (k' & Hk'). rewrite list_set_nth_error in Hk'.
    assert (Hlt' : (snd ij <? List.length (app_list u))%nat = true) by (apply Nat.ltb_lt, nth_error_Some; congruence). rewrite Hlt' in Hk'.
    destruct (Nat.eqb k' (snd ij)); cbn [andb] in Hk'; [injection Hk' as <-; left; exact Hlen|apply nth_error_In in Hk'; auto].
  - intros kl Hkl. apply Hin. right. exact Hkl.
Qed.

Lemma positions_valid us : forall i0 ij, In ij (positions_from i0 us) ->
  exists u, nth_error us (fst ij - i0) = Some u /\ (i0 <= fst ij)%nat /\ (snd ij < List.length (app_list u))%nat.
Proof.
  induction us as [|u us IH]; intros i0 ij H; [destruct H|]. cbn [positions_from] in H. apply in_app_or in H as [H|H].
  - apply in_map_iff in H as (j & <- & Hj). apply in_seq in Hj. cbn [fst snd]. rewrite Nat.sub_diag. exists u. split; [reflexivity|]. lia.
  - destruct (IH (S i0) ij H) as (v & Hv & Hle & Hlt). exists v. replace (fst ij - i0)%nat with (S (fst ij - S i0)) by lia. split; [exact Hv|]. lia.
Qed.

Lemma total_profile_twins F us t t' :
  all_apps (not_simulated F) us -> all_apps (fun a => Forall inside_day (use_windows a)) us ->
  0 <= t < 1440 -> 0 <= t' < 1440 ->
  all_apps (fun a => Forall (fun w => minute_in t w <-> minute_in t' w) (use_windows a)) us ->
  forall acc, List.length acc = day_minutes -> value_at acc t = value_at acc t' ->
  let p := fold_left (fun acc u => vadd F acc (user_maximum_profile F u)) us acc in
  List.length p = day_minutes /\ value_at p t = value_at p t'.
Proof.
  intros Hm Hd Ht Ht'.
  assert (Hmin : (Z.to_nat t < day_minutes)%nat /\ (Z.to_nat t' < day_minutes)%nat) by (unfold day_minutes; lia).
  assert (Happ : forall a, not_simulated F a -> Forall inside_day (use_windows a) ->
     Forall (fun w => minute_in t w <-> minute_in t' w) (use_windows a) ->
     List.length (app_maximum_profile F a) = day_minutes /\ value_at (app_maximum_profile F a) t = value_at (app_maximum_profile F a) t').
  { intros a Hs Hi Hw. unfold not_simulated in Hs.
    assert (Hd' : Forall (fun w : Z * Z => 0 <= fst w /\ snd w <= 1440) (use_windows a)).
    { eapply Forall_impl; [|exact Hi]. intros w [I0 I1]. lia. }
    destruct (fill_windows_spec _ _ _ _ zlen_zeros Hd' Hs) as (Hlen & _ & Hat).
    assert (Hlen' : List.length (daily_use (st a)) = day_minutes) by (unfold zlen in Hlen; unfold day_minutes; lia).
    split; [unfold app_maximum_profile; rewrite map_length; exact Hlen'|].
    unfold app_maximum_profile, value_at.
    set (f := fun y => fmul F (fmul F y (np_mean F (power a))) (zq (number (par a)))).
    rewrite !(nth_indep _ 0%Q (f 0%Q)) by (rewrite map_length, Hlen'; lia). rewrite !map_nth. f_equal.
    change (at_minute t (daily_use (st a)) = at_minute t' (daily_use (st a))). rewrite !Hat by assumption. rewrite !at_zeros.
    replace (existsb (in_win t') (use_windows a)) with (existsb (in_win t) (use_windows a)); [reflexivity|].
    clear - Hw. induction Hw as [|w ws Hx _ IH]; [reflexivity|]. cbn [existsb]. rewrite IH. f_equal.
    unfold minute_in, in_win in *. lia. }
  assert (Husr : forall u, Forall (not_simulated F) (app_list u) -> Forall (fun a => Forall inside_day (use_windows a)) (app_list u) ->
     Forall (fun a => Forall (fun w => minute_in t w <-> minute_in t' w) (use_windows a)) (app_list u) ->
     List.length (user_maximum_profile F u) = day_minutes /\ value_at (user_maximum_profile F u) t = value_at (user_maximum_profile F u) t').
  { intros u Hs Hi Hw. unfold user_maximum_profile.
    assert (G : forall l acc, Forall (not_simulated F) l -> Forall (fun a => Forall inside_day (use_windows a)) l ->
       Forall (fun a => Forall (fun w => minute_in t w <-> minute_in t' w) (use_windows a)) l ->
       List.length acc = day_minutes -> value_at acc t = value_at acc t' ->
       let p := fold_left (fun acc a => vadd F acc (app_maximum_profile F a)) l acc in
       List.length p = day_minutes /\ value_at p t = value_at p t').
    { induction l as [|a l IH]; intros acc L1 L2 L3 A1 A2; [split; assumption|]. inversion L1; inversion L2; inversion L3; subst.
      destruct (Happ a) as [B1 B2]; [assumption..|]. cbn [fold_left]. apply IH; try assumption.
      - rewrite vadd_length; congruence.
      - unfold value_at in *. rewrite !vadd_nth by lia. congruence. }
    destruct (G (app_list u) (zeros day_minutes) Hs Hi Hw) as [G1 G2]; [apply repeat_length| |].
    { unfold value_at, zeros. rewrite !nth_repeat. reflexivity. }
    cbv zeta in G1, G2. split; [rewrite map_length; exact G1|]. unfold value_at in *.
    set (f := fun x => fmul F x (zq (num_users u))).
    rewrite !(nth_indep (map f _) 0%Q (f 0%Q)) by (rewrite map_length, G1; lia). rewrite !map_nth. f_equal. exact G2. }
  induction us as [|u us IH]; intros Hw acc A1 A2; [split; assumption|].
  inversion Hm; inversion Hd; inversion Hw; subst. destruct (Husr u) as [B1 B2]; [assumption..|].
  cbn [fold_left]. apply IH; try assumption.
  - rewrite vadd_length; congruence.
  - unfold value_at in *. rewrite !vadd_nth by lia. congruence.
Qed.

Lemma two_maximal_minutes F c :
  all_apps (not_simulated F) (users c) -> all_apps (fun a => Forall inside_day (use_windows a)) (users c) ->
  no_lonely_minute (users c) -> 2 <= zlen (peak_window F c).
Proof.
  intros Hm Hd Hl. destruct (peak_window_maximal F c) as [Hmax Hsort].
  assert (Hlen : List.length (total_max_profile F c) = day_minutes).
  { destruct (total_profile_twins F (users c) 0 0 Hm Hd ltac:(lia) ltac:(lia)) with (acc := zeros day_minutes) as [G _]; [|apply repeat_length|reflexivity|exact G].
    unfold all_apps. apply Forall_forall. intros u _. apply Forall_forall. intros a _. apply Forall_forall. intros w _. reflexivity. }
  assert (Hz : zlen (total_max_profile F c) = 1440) by (unfold zlen; rewrite Hlen; reflexivity).
  assert (Hne : total_max_profile F c <> []) by (intros C; rewrite C in Hlen; discriminate).
  destruct (np_amax_spec _ Hne) as ((x & Hx & Hxm) & Hall). apply In_nth with (d := 0%Q) in Hx as (k & Hk & Hkx).
  assert (Hkz : 0 <= Z.of_nat k < 1440) by (unfold zlen in Hz; lia).
  assert (Hin : In (Z.of_nat k) (peak_window F c)).
  { apply Hmax. split; [lia|]. intros t' Ht'. unfold value_at. rewrite Nat2Z.id, Hkx, Hxm. rewrite Forall_forall in Hall. apply Hall, nth_In.
    unfold zlen in Ht'. lia. }
  destruct (Hl _ Hkz) as (t' & Ht' & Hnt & Hw).
  assert (Hin' : In t' (peak_window F c)).
  { apply Hmax. split; [lia|]. apply Hmax in Hin as [_ Hin].
    destruct (total_profile_twins F (users c) (Z.of_nat k) t' Hm Hd Hkz Ht' Hw (zeros day_minutes)) as [_ G]; [apply repeat_length| |].
    { unfold value_at, zeros. rewrite !nth_repeat. reflexivity. }
    cbv zeta in G. fold (total_max_profile F c) in G. rewrite <- G. exact Hin. }
  destruct (peak_window F c) as [|a [|b l]]; [destruct Hin|destruct Hin as [Hin|[]]; destruct Hin' as [Hin'|[]]; exfalso; lia|].
  rewrite !zlen_cons. pose proof (zlen_nonneg l). lia.
Qed.

Lemma Forall2_all (P : appliance -> Prop) us us' :
  (forall a b, with_power a b -> P a -> P b) -> Forall2 with_powers us us' -> all_apps P us -> all_apps P us'.
Proof.
  intros HP H. unfold all_apps. induction H as [|u v us us' (_ & _ & Hx) H IH]; intros Ha; [constructor|].
  inversion Ha as [|? ? H1 H2]; subst. constructor; [|auto]. clear - HP Hx H1. induction Hx; [constructor|].
  inversion H1; subst. constructor; eauto.
Qed.

Lemma no_lonely_same us us' : Forall2 with_powers us us' -> no_lonely_minute us -> no_lonely_minute us'.
Proof.
  intros H Hl t Ht. destruct (Hl t Ht) as (t' & Ht' & Hn & Hw). exists t'. split; [exact Ht'|]. split; [exact Hn|].
  revert H Hw. apply Forall2_all. intros a b (p & ->). exact (fun x => x).
Qed.

(** initialize(num_days=n) on a new use case raises nothing: power values for n days, and no minute of the day alone in its
    set of windows (one maximal minute is the failure of C34) *)
Theorem C67_initialize F w us start stop par enl seed num pe n r :
  1 <= n -> asked w start stop num n -> sound_enlarge pe ->
  all_apps (has_power n) us -> all_apps (not_simulated F) us ->
  all_apps (fun a => Forall inside_day (use_windows a)) us -> no_lonely_minute us ->
  may (initialize F w (blank start stop par enl seed us) num pe false) r ->
  exists c' s, r = Ok (c', None) /\ set_up c' s n /\ peak_of c' <> [] /\ Forall2 with_powers us (users c') /\
    all_apps (fun a => n <= zlen (power a)) (users c').
Proof.
  intros Hn Hask Hpe Hp Hm Hd Hl H. set (c := blank start stop par enl seed us) in *.
  assert (Hi0 : is_initialized c = false) by reflexivity.
  assert (Hch : chooses c num false) by (split; [left; split; reflexivity|right; reflexivity]).
  assert (Hf : is_initialized c && negb false = false) by reflexivity.
  (* the dates *)
  assert (Hst : exists c1, dates_stage w c num false = (c1, None)).
  { unfold dates_stage. rewrite Hi0. cbn [andb].
    assert (Hsp : forall s, exists d l, date_range_sp s n = Ok (d :: l)).
    { intros s. unfold date_range_sp. destruct (Z.ltb_spec n 0); [lia|]. fold (day_list s n). rewrite day_list_cons by lia. eauto. }
    assert (Hep : forall e, exists d l, date_range_ep e n = Ok (d :: l)) by (intros e; exact (Hsp (e - 1440 * (n - 1)))).
    destruct num as [m|].
    - cbn in Hask. subst m. unfold init_num_days_arg. change (days c) with (@None (list Z)). cbv iota.
      unfold init_both_dates. change (date_start (set_num_days c (Some n))) with start. change (date_end (set_num_days c (Some n))) with stop.
      destruct start as [s|], stop as [e|]; cbv zeta; cbn [num_days_ set_num_days set_days].
      + destruct (Z.eqb_spec n (zlen (date_range_se s e))) as [En|En]; cbn [negb].
        * unfold init_prompt. cbn [num_days_ set_num_days set_days]. unfold init_days. cbn [num_days_ set_num_days set_days days].
          destruct (date_range_se s e) as [|d l]; [cbn in En; lia|]. eexists. reflexivity.
        * unfold init_prompt. cbn [num_days_ set_num_days set_days]. unfold init_days. cbn [num_days_ set_num_days set_days days].
          change (date_start (set_days (set_days (set_num_days c (Some n)) (Some (date_range_se s e))) None)) with (Some s). cbv iota.
          destruct (Hsp s) as (d & l & ->). eexists. reflexivity.
      + unfold init_prompt. cbn [num_days_ set_num_days]. unfold init_days. cbn [num_days_ set_num_days days].
        change (days c) with (@None (list Z)). change (date_start (set_num_days c (Some n))) with (Some s). cbv iota.
        destruct (Hsp s) as (d & l & ->). eexists. reflexivity.
      + unfold init_prompt. cbn [num_days_ set_num_days]. unfold init_days. cbn [num_days_ set_num_days days].
        change (days c) with (@None (list Z)). change (date_start (set_num_days c (Some n))) with (@None Z).
        change (date_end (set_num_days c (Some n))) with (Some e). cbv iota.
        destruct (Hep e) as (d & l & ->). eexists. reflexivity.
      + unfold init_prompt. cbn [num_days_ set_num_days]. unfold init_days. cbn [num_days_ set_num_days days].
        change (days c) with (@None (list Z)). change (date_start (set_num_days c (Some n))) with (@None Z).
        change (date_end (set_num_days c (Some n))) with (@None Z). cbv iota. destruct (Hsp (today w)) as (d & l & ->). eexists. reflexivity.
    - cbn [init_num_days_arg]. unfold init_both_dates. change (date_start c) with start. change (date_end c) with stop.
      destruct start as [s|], stop as [e|]; unfold asked in Hask; cbv zeta.
      + change (num_days_ (set_days c (Some (date_range_se s e)))) with (@None Z). cbv iota.
        unfold init_prompt. cbn [num_days_ set_num_days set_days]. unfold init_days. cbn [num_days_ set_num_days set_days days].
        assert (Hne : exists d l, date_range_se s e = d :: l).
        { rewrite date_range_se_list. assert (0 <= (e - s) / 1440) by (apply Z.div_pos; lia). rewrite day_list_cons by lia. eauto. }
        destruct Hne as (d & l & ->). eexists. reflexivity.
      + unfold init_prompt. change (num_days_ c) with (@None Z). cbv iota. rewrite Hask. unfold init_days. cbn [num_days_ set_num_days days].
        change (days c) with (@None (list Z)). change (date_start (set_num_days c (Some n))) with (Some s). cbv iota.
        destruct (Hsp s) as (d & l & ->). eexists. reflexivity.
      + unfold init_prompt. change (num_days_ c) with (@None Z). cbv iota. rewrite Hask. unfold init_days. cbn [num_days_ set_num_days days].
        change (days c) with (@None (list Z)). change (date_start (set_num_days c (Some n))) with (@None Z).
        change (date_end (set_num_days c (Some n))) with (Some e). cbv iota.
        destruct (Hep e) as (d & l & ->). eexists. reflexivity.
      + unfold init_prompt. change (num_days_ c) with (@None Z). cbv iota. rewrite Hask. unfold init_days. cbn [num_days_ set_num_days days].
        change (days c) with (@None (list Z)). change (date_start (set_num_days c (Some n))) with (@None Z).
        change (date_end (set_num_days c (Some n))) with (@None Z). cbv iota. destruct (Hsp (today w)) as (d & l & ->). eexists. reflexivity. }
  destruct Hst as (c1 & Est).
  destruct (dates_stage_requested w c num false c1 Hch Est) as (ds & n' & Hn' & Hds & Hreq).
  assert (n' = n).
  { unfold requested_days in Hreq. change (date_start c) with start in Hreq. change (date_end c) with stop in Hreq. unfold asked in Hask.
    destruct num as [m|], start as [s0|], stop as [e0|]; destruct Hreq as [R1 R2]; try congruence. nia. }
  subst n'.
  destruct (dates_stage_same _ _ _ _ _ _ Est) as (_ & _ & _ & _ & _ & _ & _ & Hus & Hco).
  change (users c) with us in Hus. change (collected c) with (positions_from 0 us) in Hco.
  (* the powers *)
  destruct (check_powers_total n us Hp (positions_from 0 us) us) as (us' & Eck & Hwp).
  { clear. induction us as [|u us IH]; constructor; [|exact IH]. split; [reflexivity|]. split; [reflexivity|].
    induction (app_list u) as [|a l IHl]; constructor; [exists (power a); destruct a; reflexivity|exact IHl]. }
  { exact Hp. }
  { intros ij Hij. destruct (positions_valid us 0 ij Hij) as (u & Hu & _ & Hlt). rewrite Nat.sub_0_r in Hu. unfold get_app. rewrite Hu.
    apply nth_error_Some. exact Hlt. }
  (* the peak *)
  assert (Hcase : exists c2 p, r = Ok (init_index (set_peak c2 (Some p)), None) /\ p <> [] /\ users c2 = us' /\ days c2 = days c1 /\ num_days_ c2 = num_days_ c1).
  { rewrite initialize_stages, Hf, Est in H. unfold init_finish in H. rewrite Hn', Hus, Hco, Eck in H. cbv zeta iota in H.
    assert (Hpeak : forall c2, users c2 = us' -> wp (p <- calc_peak_time_range F c2;; Ret match p with Ok p => (set_peak c2 (Some p), @None exc) | Err e => (c2, Some e) end)
        (fun r => exists p, r = Ok (set_peak c2 (Some p), None) /\ p <> [])).
    { intros c2 Eu2.
      assert (H2 : 2 <= zlen (peak_window F c2)).
      { apply two_maximal_minutes; rewrite Eu2.
        - revert Hm. apply Forall2_all; [|exact Hwp]. intros a b (p & ->). exact (fun x => x).
        - revert Hd. apply Forall2_all; [|exact Hwp]. intros a b (p & ->). exact (fun x => x).
        - exact (no_lonely_same us us' Hwp Hl). }
      apply wp_bind_ok, wp_intro. intros q Hq. destruct q as [q|e].
      - pose proof Hq as Hq'. unfold calc_peak_time_range in Hq. apply draw_peak_range_may in Hq as [[C _]|(_ & z & z' & Hq)]; [lia|]. cbv zeta in Hq.
        subst q. cbn [wpk wp]. eexists. split; [reflexivity|].
        destruct (C33_run_of_minutes F c2 _ Hq') as (ms & zz & k & _ & _ & Hx). destruct Hx as (_ & _ & Hne). exact Hne.
      - exfalso. unfold calc_peak_time_range, draw_peak_range in Hq. destruct (peak_window F c2) as [|m0 [|m1 rest]]; [inversion Hq..|].
        unfold py_normalvariate, py_gauss in Hq. cbn [bind] in Hq. inversion Hq as [| | | |? ? ? ? Hq1|]; subst. inversion Hq1 as [| | | |? ? ? ? Hq2|]; subst. inversion Hq2. }
    apply may_bind in H as [(x & Hx & H)|(e & Hx & _)].
    - destruct Hpe as [->|(q & Hq & ->)].
      + destruct (wp_elim _ _ _ (Hpeak (set_users c1 us') eq_refl) Hx) as (p & E & Hne). injection E as ->. cbn [fst snd] in H.
        apply may_ret_inv in H. exists (set_users c1 us'), p. auto.
      + cbn [set_peak_enlarge] in Hx. rewrite (proj2 (Qle_bool_iff 0 q) Hq) in Hx. cbv zeta in Hx.
        destruct (wp_elim _ _ _ (Hpeak (set_enlarge (set_users c1 us') q) eq_refl) Hx) as (p & E & Hne). injection E as ->. cbn [fst snd] in H.
        apply may_ret_inv in H. exists (set_enlarge (set_users c1 us') q), p. auto.
    - exfalso. destruct Hpe as [->|(q & Hq & ->)].
      + destruct (wp_elim _ _ _ (Hpeak (set_users c1 us') eq_refl) Hx) as (p & E & Hne). discriminate.
      + cbn [set_peak_enlarge] in Hx. rewrite (proj2 (Qle_bool_iff 0 q) Hq) in Hx. cbv zeta in Hx.
        destruct (wp_elim _ _ _ (Hpeak (set_enlarge (set_users c1 us') q) eq_refl) Hx) as (p & E & Hne). discriminate. }
  destruct Hcase as (c2 & p & -> & Hne & Eu2 & Ed2 & En2).
  set (c' := init_index (set_peak c2 (Some p))) in *.
  assert (Hr : ready c) by (left; split; reflexivity).
  destruct (initialize_ready F w c num pe false c' Hr H) as (_ & s & m & Hsu).
  assert (Ec' : users c' = us' /\ num_days_ c' = Some n /\ peak_of c' = p).
  { unfold c', init_index, peak_of. cbn [days set_peak]. rewrite Ed2. destruct (days c1) as [[|]|]; repeat split; try exact Eu2; exact (eq_trans En2 Hn'). }
  destruct Ec' as (Eu & En & Ep).
  assert (m = n) by (destruct Hsu as (_ & Hx & _); congruence). subst m.
  exists c', s. split; [reflexivity|]. split; [exact Hsu|]. split; [rewrite Ep; exact Hne|]. rewrite Eu. split; [exact Hwp|].
  destruct (C32_power_values_partial F w c num pe false c' (blank_collected _ _ _ _ _ _) Hf H) as (n' & Hn'' & Hpow & _).
  assert (n' = n) by congruence. subst n'. unfold all_apps. apply Forall_forall. intros u Hu. apply Forall_forall. intros a Ha.
  apply In_nth_error in Hu as (i & Hi). apply In_nth_error in Ha as (j & Hj).
  destruct (Hpow i j a) with (d := n - 1) as (q & Hq); [unfold app_at, get_app; cbn [fst snd]; rewrite Eu, Hi; exact Hj|lia|].
  unfold py_index in Hq. destruct (Z.ltb_spec (n - 1) 0); [lia|].
  destruct (_ || _) eqn:Eo in Hq; [discriminate|]. lia.
Qed.

(** the whole script *)
Theorem C67_simulation depth F w us start stop enl seed num pe n r :
  (0 < depth)%nat -> 1 <= n -> asked w start stop (if both_dates start stop then None else num) n -> sound_enlarge pe ->
  sound_preferences us -> all_apps (sound_app F) us -> all_apps (has_power n) us ->
  all_apps (not_simulated F) us -> no_lonely_minute us ->
  may (simulate depth F w us start stop enl seed num pe) r ->
  (exists c rows, r = Ok (c, rows) /\ zlen rows = n) \/
  (r = Err RecursionError /\ exists u a, In u us /\ In a (app_list u) /\ has_duty_cycles a /\ ~ duty_ok a).
Proof.
  intros Hdep Hn Hask Hpe Hpref Hs Hp Hm Hl H. unfold simulate in H.
  assert (Hd : all_apps (fun a => Forall inside_day (use_windows a)) us).
  { revert Hs. unfold all_apps. intros Hs. eapply Forall_impl; [|exact Hs]. intros u Hu. eapply Forall_impl; [|exact Hu].
    intros a ((Hx & _) & _). exact Hx. }
  assert (H' : exists num' pe', asked w start stop num' n /\ sound_enlarge pe' /\
     may (r <- initialize F w (blank start stop false enl seed us) num' pe' false ;;
          match snd r with Some e => Raise e | None => generate_sequential depth F w (fst r) None end) r).
  { unfold new_usecase in H. cbv zeta in H. destruct (both_dates start stop) eqn:Eb.
    - exists None, None. split; [exact Hask|]. split; [left; reflexivity|].
      assert (exists s0 e0, start = Some s0 /\ stop = Some e0) as (s0 & e0 & -> & ->) by (destruct start, stop; try discriminate; eauto).
      apply may_bind. apply may_bind in H as [(c & Hc & H)|(e & Hc & ->)].
      + apply may_bind in Hc as [(c1 & Hc1 & Hc2)|(e & Hc1 & C)]; [|discriminate].
        apply may_bind in Hc1 as [([c2 e2] & Hi & Hc1)|(e & Hc1 & C)]; [|discriminate].
        assert (c = c1) by (destruct (seed_of seed); [inversion Hc2 as [| | | | |? ? ? Hc3]; subst; apply may_ret_inv in Hc3|apply may_ret_inv in Hc2]; congruence). subst c1. clear Hc2.
        cbn [fst snd] in Hc1. destruct e2 as [e2|]; [apply may_raise_inv in Hc1; discriminate|]. apply may_ret_inv in Hc1. injection Hc1 as ->.
        left. exists (c2, None). split; [exact Hi|]. cbn [fst snd].
        destruct (C67_initialize F w us (Some s0) (Some e0) false enl seed None None n _ Hn Hask (or_introl eq_refl) Hp Hm Hd Hl Hi) as (c' & s & E & (_ & Hsu1 & _ & ix & Hsu2 & _) & Hpk & _).
        injection E as <-. assert (Hini : is_initialized c2 = true).
        { unfold is_initialized. rewrite Hsu1, Hsu2. unfold peak_of in Hpk. destruct (peak_time_range c2); [reflexivity|contradiction]. }
        unfold initialize in H. rewrite Hini in H. cbn [andb negb bind fst snd] in H. exact H.
      + apply may_bind in Hc as [(c1 & Hc1 & Hc2)|(e' & Hc1 & C)].
        * destruct (seed_of seed); [inversion Hc2 as [| | | | |? ? ? Hc3]; subst; apply may_ret_inv in Hc3|apply may_ret_inv in Hc2]; congruence.
        * injection C as <-. apply may_bind in Hc1 as [([c2 e2] & Hi & Hc1)|(e' & Hc1 & C)].
          -- cbn [fst snd] in Hc1. destruct e2 as [e2|]; [|apply may_ret_inv in Hc1; discriminate]. apply may_raise_inv in Hc1. injection Hc1 as ->.
             left. exists (c2, Some e2). split; [exact Hi|]. cbn [fst snd]. constructor.
          -- injection C as <-. right. exists e. split; [exact Hc1|reflexivity].
    - exists num, pe. split; [exact Hask|]. split; [exact Hpe|].
      destruct start as [s|], stop as [e|]; [discriminate| | |]; cbn [bind] in H; (destruct (seed_of seed); [inversion H; subst; assumption|exact H]). }
  clear H. destruct H' as (num' & pe' & Hask' & Hpe' & H). apply may_bind in H as [([c e] & Hi & H)|(e & Hi & _)].
  - destruct (C67_initialize F w us start stop false enl seed num' pe' n _ Hn Hask' Hpe' Hp Hm Hd Hl Hi) as (c' & s & E & Hsu & Hpk & Hwp & Hlen).
    injection E as -> ->. cbn [fst snd] in H.
    assert (Hpref' : sound_preferences (users c')).
    { clear - Hwp Hpref. unfold sound_preferences in *. induction Hwp as [|u v us us' (_ & E & _) H IH]; [constructor|].
      inversion Hpref; subst. constructor; [rewrite E; assumption|auto]. }
    assert (Hs' : all_apps (sound_app F) (users c')).
    { revert Hs. apply Forall2_all; [|exact Hwp]. intros a b (p & ->). exact (fun x => x). }
    destruct (C67_generation depth F w c' None s n r Hsu Hpk Hdep Hpref') as [(c2 & rows & ->)|(-> & u & a & Hu & Ha & D1 & D2)]; [|exact H| |].
    + clear - Hs' Hlen. unfold all_apps in *. rewrite Forall_forall in *. intros u Hu. specialize (Hs' u Hu). specialize (Hlen u Hu).
      rewrite Forall_forall in *. intros a Ha. split; auto.
    + left. exists c2, rows. split; [reflexivity|]. destruct (generate_sequential_set_up depth F w c' None s n c2 rows Hsu H) as (Hz & _). exact Hz.
    + right. split; [reflexivity|]. clear - Hwp Hu Ha D1 D2.
      apply In_nth_error in Hu as (i & Hi). apply In_nth_error in Ha as (j & Hj).
      destruct (Forall2_nth _ _ _ _ _ Hwp Hi) as (u0 & Hu0 & _ & _ & Hx). destruct (Forall2_nth _ _ _ _ _ Hx Hj) as (a0 & Ha0 & p & ->).
      exists u0, a0. split; [exact (nth_error_In _ _ Hu0)|]. split; [exact (nth_error_In _ _ Ha0)|]. split; [exact D1|exact D2].
  - exfalso. destruct (C67_initialize F w us start stop false enl seed num' pe' n _ Hn Hask' Hpe' Hp Hm Hd Hl Hi) as (c' & s & E & _). discriminate.
Qed.
