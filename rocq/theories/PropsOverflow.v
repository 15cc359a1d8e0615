(** * PropsOverflow: duty cycles that do not cover the use windows exceed the recursion limit (C67, C69) *)
From Verif Require Import Base Wp Tape ListLemmas Utils Appliance Attributes User Spec SpecDay ProofsUtils ProofsUtils2 ProofsAppliance
  ProofsEvent ProofsEvent2 PropsBasic ProofsDay ProofsDay2 ProofsDay3 PropsDay UseCase SpecUser SpecUseCase ProofsUser ProofsUseCase
  PropsUseCase ProofsEq PropsInit PropsPeak ProofsRun Declare Script PropsDeclare PropsReg PropsScript PropsTotal Examples PropsExamples.
From Coq Require Import ZifyBool ZifyNat.
Open Scope list_scope.
Open Scope Z_scope.

(** ** Every program has an outcome *)

Lemma may_exists {A} (p : prog A) : below_pos p -> exists r, may p r.
Proof.
  induction p as [a|e|k IH|n k IH|c k IH|z k IH]; cbn; intros H.
  - eexists. constructor.
  - eexists. constructor.
  - destruct (IH 0%Q (H 0%Q)) as (r & Hr). exists r. apply may_random with 0%Q; [lra|lra|exact Hr].
  - destruct H as [Hn H]. destruct (IH 0 (H 0)) as (r & Hr). exists r. apply may_below with 0; [lia|exact Hr].
  - destruct (IH 0%Q (H 0%Q)) as (r & Hr). exists r. apply may_normal with 0%Q. exact Hr.
  - destruct (IH H) as (r & Hr). exists r. constructor. exact Hr.
Qed.

(** ** One switch-on event *)

Lemma in_choices spots fc s sp : In sp spots -> fst sp <= s -> s + fc <= snd sp -> In s (indexes_choice spots fc).
Proof.
  intros Hin H1 H2. unfold indexes_choice. apply in_flat_map. exists sp. split; [exact Hin|].
  replace (snd sp - fst sp >=? fc) with true by lia. apply in_arange. lia.
Qed.

Lemma uniform_lowest F fc b : Z.abs fc <= 2 ^ 53 -> exists u, may (py_uniform F (zq fc) b) (Ok u) /\ py_int u = fc.
Proof.
  intros Hfc. exists (fadd F (zq fc) (fmul F (fsub F b (zq fc)) 0)). split.
  - unfold py_uniform. apply may_random with 0%Q; [lra|lra|constructor].
  - assert (E : (fadd F (zq fc) (fmul F (fsub F b (zq fc)) 0) == zq fc)%Q).
    { unfold fadd, fmul. rewrite Qmult_0_r, rnd_0, Qplus_0_r. exact (rnd_int F fc Hfc). }
    assert (fc <= py_int (fadd F (zq fc) (fmul F (fsub F b (zq fc)) 0)) <= fc); [|lia].
    apply py_int_range. rewrite E. lra.
Qed.

Lemma rsw_overflow F a d rt s sp : 1 <= func_cycle (par a) <= 1440 -> func_cycle (par a) <= rt -> 0 < fixed_cycle (par a) ->
  In sp (free_spots d) -> fst sp <= s -> s + func_cycle (par a) <= snd sp ->
  select_cycle a s (s + func_cycle (par a) - 1) = None ->
  forall depth, may (rand_switch_on_window depth F a d rt) (Err RecursionError).
Proof.
  intros Hfc Hrt Hc Hin H1 H2 Hsel. induction depth as [|depth IH]; cbn [rand_switch_on_window]; [constructor|].
  set (fc := func_cycle (par a)) in *. cbv zeta.
  pose proof (in_choices _ fc s sp Hin H1 H2) as Hch. apply In_nth_error in Hch as (j & Hj).
  assert (Hlt : (j < List.length (indexes_choice (free_spots d) fc))%nat) by (apply nth_error_Some; congruence).
  assert (Hz : zlen (indexes_choice (free_spots d) fc) > Z.of_nat j) by (unfold zlen; lia).
  replace (zlen (indexes_choice (free_spots d) fc) >? 0) with true by lia.
  apply may_bind. left. exists (Z.of_nat j). split; [apply may_randint; right; exists (Z.of_nat j); split; [lia|reflexivity]|].
  apply may_bind. left. exists s. split.
  { apply may_lift. unfold py_index. destruct (Z.ltb_spec (Z.of_nat j) 0); [lia|].
    destruct (_ || _) eqn:Eo; [lia|]. rewrite Nat2Z.id, Hj. reflexivity. }
  assert (Hf : exists sp', find_spot (free_spots d) fc s = Some sp' /\ s + fc <= snd sp').
  { unfold find_spot. destruct (find _ _) as [sp'|] eqn:Ef.
    - apply find_some in Ef as [_ Ef]. exists sp'. split; [reflexivity|lia].
    - exfalso. apply (find_none _ _ Ef) in Hin. lia. }
  destruct Hf as (sp' & -> & Hsp').
  apply may_bind. left. exists (arange s (s + fc)). split.
  - destruct (Z.gtb_spec (Z.min rt (snd sp' - s)) fc).
    + destruct (uniform_lowest F fc (zq (Z.min rt (snd sp' - s))) ltac:(lia)) as (u & Hu & Eu).
      apply may_bind. left. exists u. split; [exact Hu|]. rewrite Eu. constructor.
    + replace (Z.min rt (snd sp' - s)) with fc by lia. rewrite Z.eqb_refl. constructor.
  - replace (fixed_cycle (par a) >? 0) with true by lia.
    apply may_bind. left. exists s. split; [apply may_lift; symmetry; apply py_first_arange; lia|].
    apply may_bind. left. exists (s + fc - 1). split; [apply may_lift; symmetry; apply py_last_arange; lia|].
    rewrite Hsel. exact IH.
Qed.

(** ** A day *)

Section stages.
Context {A B : Type} (m : prog A) (f : A -> prog B) (E : exc).

Lemma stage : below_pos m -> (forall e, may (bind m f) (Err e) -> e = E) ->
  (forall x, may m (Ok x) -> (forall e, may (f x) (Err e) -> e = E) -> may (f x) (Err E)) -> may (bind m f) (Err E).
Proof.
  intros Hb H Hx. destruct (may_exists m Hb) as ([x|e] & Hm).
  - apply may_bind. left. exists x. split; [exact Hm|]. apply Hx; [exact Hm|]. intros e He. apply H. apply may_bind. left. eauto.
  - assert (may (bind m f) (Err e)) as He by (apply may_bind; right; eauto). rewrite <- (H e He). exact He.
Qed.

Lemma stage_at x : may m (Ok x) -> (forall e, may (bind m f) (Err e) -> e = E) ->
  ((forall e, may (f x) (Err e) -> e = E) -> may (f x) (Err E)) -> may (bind m f) (Err E).
Proof.
  intros Hm H Hx. apply may_bind. left. exists x. split; [exact Hm|]. apply Hx. intros e He. apply H. apply may_bind. left. eauto.
Qed.
End stages.

Lemma window_at w rv : 0 <= rv -> inside_day w ->
  may (calc_rand_window w rv) (Ok (Z.max 0 (fst w - rv), Z.min 1440 (snd w + rv))).
Proof.
  intros Hrv [I0 I1]. unfold calc_rand_window.
  apply may_bind. left. exists (fst w - rv). split; [apply may_randint; right; exists (fst w - rv); split; [lia|reflexivity]|].
  apply may_bind. left. exists (snd w + rv). split; [apply may_randint; right; exists (snd w + rv); split; [lia|reflexivity]|].
  apply may_ret_inv. do 2 f_equal.
  - destruct (Z.ltb_spec (fst w - rv) 0); lia.
  - destruct (Z.gtb_spec (snd w + rv) 1440); lia.
Qed.

Lemma total_time_min F a x y z rt : may (rand_total_time_of_use F a x y z) (Ok rt) -> func_cycle (par a) <= rt.
Proof.
  intros H. unfold rand_total_time_of_use in H. apply may_bind in H as [(rvt & _ & H)|(e & _ & C)]; [|discriminate].
  apply may_bind in H as [(u & _ & H)|(e & _ & C)]; [|discriminate]. cbv zeta in H.
  match type of H with may (if ?x <? ?y then _ else _) _ => destruct (Z.ltb_spec x y) as [L|L] end.
  - apply may_raise_inv in H. discriminate.
  - apply may_ret_inv in H. injection H as ->. exact L.
Qed.

(** the use windows with their variability *)
Definition varied_windows (a : appliance) : list ((Z * Z) * Z) :=
  [(window_1 (win a), random_var_1 (win a)); (window_2 (win a), random_var_2 (win a)); (window_3 (win a), random_var_3 (win a))].

(** an event of func_cycle minutes may start at minute s: it lies in the day and in a widened use window *)
Definition may_start (a : appliance) (s : Z) : Prop :=
  0 <= s /\ s + func_cycle (par a) <= 1440 /\
  exists w rv, In (w, rv) (varied_windows a) /\ fst w - rv <= s /\ s + func_cycle (par a) <= snd w + rv.

(** none of its minutes lies in a window of a duty cycle *)
Definition no_cycle_at (a : appliance) (s : Z) : Prop :=
  forall j w, 1 <= j <= 3 -> In w (declared_windows a j) -> ~ meets s (s + func_cycle (par a) - 1) w.

Definition ordered_cycles (a : appliance) : Prop := forall j w, 1 <= j <= 3 -> In w (declared_windows a j) -> fst w <= snd w.

Lemma select_none a s : 1 <= func_cycle (par a) -> ordered_cycles a -> no_cycle_at a s -> select_cycle a s (s + func_cycle (par a) - 1) = None.
Proof.
  intros Hfc Ho Hn. unfold select_cycle.
  assert (G : forall j c, 1 <= j <= 3 -> declared_windows a j = [cwa c; cwb c] ->
    range_within_window s (s + func_cycle (par a) - 1) (cwa c) || range_within_window s (s + func_cycle (par a) - 1) (cwb c) = false).
  { intros j c Hj Ec. apply orb_false_iff. split.
    - apply not_true_is_false. intros H. assert (Hin : In (cwa c) (declared_windows a j)) by (rewrite Ec; left; reflexivity).
      apply range_within_iff in H; [|lia|exact (Ho j _ Hj Hin)]. exact (Hn j _ Hj Hin H).
    - apply not_true_is_false. intros H. assert (Hin : In (cwb c) (declared_windows a j)) by (rewrite Ec; right; left; reflexivity).
      apply range_within_iff in H; [|lia|exact (Ho j _ Hj Hin)]. exact (Hn j _ Hj Hin H). }
  rewrite (G 1 (cyc1 a)) by (reflexivity || lia). rewrite (G 2 (cyc2 a)) by (reflexivity || lia). rewrite (G 3 (cyc3 a)) by (reflexivity || lia). reflexivity.
Qed.

(** ** C67: the condition is needed *)

(** a day on which an event can miss every window of the duty cycles may exceed any recursion limit *)
Theorem C67_overflow depth F a pref i peak dt pw s :
  (0 < depth)%nat -> sound_app F a -> peak <> [] -> 0 <= i < zlen (power a) ->
  has_duty_cycles a -> ~ skipped_by a pref dt 0 ->
  may_start a s -> ordered_cycles a -> no_cycle_at a s ->
  may (day depth F a pref i peak dt pw) (Err RecursionError).
Proof.
  intros Hdep Hsound Hpeak Hi Hduty Hskip Hstart Hord Hno.
  assert (HE : forall e, may (day depth F a pref i peak dt pw) (Err e) -> e = RecursionError).
  { intros e He. destruct (day_total depth F a pref i peak dt pw _ Hsound Hpeak Hdep Hi He) as [(x & C)|(C & _)]; congruence. }
  destruct Hsound as ((Hday & Hv & V1 & V2 & V3) & _ & Hfc & _). destruct Hstart as (S0 & S1 & w & rv & Hin & W0 & W1).
  pose proof (select_none a s Hfc Hord Hno) as Hsel.
  inversion Hday as [|? ? D1 Hd1]; subst. inversion Hd1 as [|? ? D2 Hd2]; subst. inversion Hd2 as [|? ? D3 _]; subst. clear Hd1 Hd2 Hday.
  assert (K : forall w rv, inside_day w -> rv = py_int (fmul F (random_var_w (win a)) (zq (length_of w))) -> 0 <= rv).
  { intros x v [I0 I1] ->. apply (random_var_half F (random_var_w (win a)) (length_of x) (proj1 Hv) (proj2 Hv)). unfold length_of. lia. }
  pose proof (K _ _ D1 V1) as P1. pose proof (K _ _ D2 V2) as P2. pose proof (K _ _ D3 V3) as P3. clear K.
  unfold generate_load_profile_traced in *. cbv zeta in *.
  assert (Hu : exists u, may (py_uniform F 0 1) (Ok u) /\ (u == 0)%Q).
  { exists (fadd F 0 (fmul F (fsub F 1 0) 0)). split; [apply may_random with 0%Q; [lra|lra|constructor]|].
    unfold fadd, fmul. rewrite Qmult_0_r, rnd_0, Qplus_0_r. apply rnd_0. }
  destruct Hu as (u & Hu & Eu).
  apply (stage_at _ _ _ u Hu HE). clear HE. intros HE.
  replace (skip_day a pref dt u) with false in *.
  2: { symmetry. apply not_true_is_false. intros C. apply Hskip. apply skip_day_iff in C. unfold skipped_by in *. rewrite Eu in C. exact C. }
  apply (stage_at _ _ _ _ (window_at _ _ P1 D1) HE). clear HE. intros HE.
  apply (stage_at _ _ _ _ (window_at _ _ P2 D2) HE). clear HE. intros HE.
  apply (stage_at _ _ _ _ (window_at _ _ P3 D3) HE). clear HE. intros HE.
  match type of HE with forall e, may (_ <- rand_total_time_of_use F a ?a1 ?a2 ?a3 ;; _) _ -> _ => set (rw1 := a1) in *; set (rw2 := a2) in *; set (rw3 := a3) in * end.
  apply (stage _ _ _ (bp_rtt _ _ _ _ _) HE). clear HE. intros rt Hrt HE. apply total_time_min in Hrt.
  replace (flat (par a) =? "yes")%string with false in *.
  2: { symmetry. apply String.eqb_neq. exact (proj1 Hduty). }
  apply (stage _ _ _ (below_pos_lift _) HE). clear HE. intros du _ HE.
  apply (stage _ _ _ (bp_cycles _ _ _) HE). clear HE. intros d1 _ HE.
  apply may_bind. right. exists RecursionError. split; [|reflexivity].
  replace (Z.to_nat rt + 2)%nat with (S (Z.to_nat rt + 1)) by lia. cbn [use_loop].
  replace ((0 <=? rt) && negb (rt =? 0)) with true by lia.
  apply may_bind. right. exists RecursionError. split; [|reflexivity].
  assert (Hspot : exists sp, In sp [rw1; rw2; rw3] /\ fst sp <= s /\ s + func_cycle (par a) <= snd sp).
  { cbn in Hin. destruct Hin as [E|[E|[E|[]]]]; injection E as Ew Ev; rewrite <- Ew, <- Ev in W0, W1.
    - exists rw1. split; [left; reflexivity|]. unfold rw1. cbn [fst snd]. lia.
    - exists rw2. split; [right; left; reflexivity|]. unfold rw2. cbn [fst snd]. lia.
    - exists rw3. split; [right; right; left; reflexivity|]. unfold rw3. cbn [fst snd]. lia. }
  destruct Hspot as (sp & Hsp & Sp1 & Sp2).
  apply (rsw_overflow F a _ rt s sp); [lia|exact Hrt|destruct Hduty; lia| |exact Sp1|exact Sp2|exact Hsel].
  cbn [free_spots set_free_spots]. apply filter_In. split; [exact Hsp|]. lia.
Qed.

(** ** A simulation *)

(** an appliance of a member of the user may be asked to start at minute s on any day *)
Definition may_overflow (u : user) (a : appliance) (p s : Z) : Prop :=
  1 <= num_users u /\ (user_preference u = 0 /\ p = 0 \/ 1 <= p <= user_preference u) /\ wd_we_type (par a) = 2 /\
  (0 <= occasional_use (par a))%Q /\ (pref_index (par a) = 0 \/ pref_index (par a) = p) /\ func_time (par a) <> 0 /\
  has_duty_cycles a /\ may_start a s /\ ordered_cycles a /\ no_cycle_at a s.

Lemma apps_overflow depth F pref i peak dt a s : (0 < depth)%nat -> peak <> [] -> sound_app F a -> 0 <= i < zlen (power a) ->
  has_duty_cycles a -> ~ skipped_by a pref dt 0 -> may_start a s -> ordered_cycles a -> no_cycle_at a s ->
  forall apps acc, In a apps -> (forall e, may (generate_apps depth F pref i peak dt apps acc) (Err e) -> e = RecursionError) ->
  may (generate_apps depth F pref i peak dt apps acc) (Err RecursionError).
Proof.
  intros Hdep Hpeak Hs Hi Hd Hk H1 H2 H3. induction apps as [|b apps IH]; intros acc Hin HE; [contradiction|]. cbn [generate_apps] in *.
  destruct Hin as [->|Hin].
  - destruct (py_index_exists (power a) i Hi) as (x & Hx & _). rewrite Hx in *. cbn [lift bind] in *.
    apply may_bind. right. exists RecursionError. split; [|reflexivity]. unfold generate_load_profile.
    apply may_bind. right. exists RecursionError. split; [|reflexivity].
    exact (C67_overflow depth F a pref i peak dt x s Hdep Hs Hpeak Hi Hd Hk H1 H2 H3).
  - apply (stage _ _ _ (below_pos_lift _) HE). clear HE. intros pw _ HE.
    apply (stage _ _ _ (bp_profile _ _ _ _ _ _ _ _) HE). clear HE. intros a' _ HE.
    apply may_bind. right. exists RecursionError. split; [|reflexivity]. apply IH; [exact Hin|].
    intros e He. apply HE. apply may_bind. right. eauto.
Qed.

Lemma users_overflow depth F i peak dt u a p s : (0 < depth)%nat -> peak <> [] -> sound_app F a -> 0 <= i < zlen (power a) ->
  In a (app_list u) -> may_overflow u a p s ->
  forall us acc, In u us -> (forall e, may (day_of_users depth F i peak dt us acc) (Err e) -> e = RecursionError) ->
  may (day_of_users depth F i peak dt us acc) (Err RecursionError).
Proof.
  intros Hdep Hpeak Hs Hi Hin (O1 & O2 & O3 & O4 & O5 & O6 & O7 & O8 & O9 & O10).
  induction us as [|v us IH]; intros acc Hu HE; [contradiction|]. cbn [day_of_users] in *.
  destruct Hu as [->|Hu].
  - apply may_bind. right. exists RecursionError. split; [|reflexivity].
    assert (HE' : forall e, may (generate_aggregated_load_profile depth F u i peak dt) (Err e) -> e = RecursionError).
    { intros e He. apply HE. apply may_bind. right. eauto. }
    clear HE. unfold generate_aggregated_load_profile in *. replace (Z.to_nat (num_users u)) with (S (Z.to_nat (num_users u - 1))) in * by lia.
    cbn [generate_members] in *. unfold generate_single_load_profile in *. cbn [app_list set_load] in *.
    apply may_bind. right. exists RecursionError. split; [|reflexivity].
    assert (HE : forall e, may (pref <- draw_pref (set_load u (zeros day_minutes)) ;; r <- generate_apps depth F pref i peak dt (app_list u) (zeros day_minutes) ;;
        Ret (set_apps (set_pref (set_load u (zeros day_minutes)) pref) (fst r), snd r)) (Err e) -> e = RecursionError).
    { intros e He. apply HE'. apply may_bind. right. eauto. }
    clear HE'.
    assert (Hp : may (draw_pref (set_load u (zeros day_minutes))) (Ok p)).
    { unfold draw_pref. cbn [user_preference set_load]. destruct O2 as [[-> ->]|O2]; [constructor|].
      replace (user_preference u =? 0) with false by lia. apply may_randint. right. exists p. split; [lia|reflexivity]. }
    apply (stage_at _ _ _ p Hp HE). clear HE. intros HE.
    apply may_bind. right. exists RecursionError. split; [|reflexivity].
    apply (apps_overflow depth F p i peak dt a s Hdep Hpeak Hs Hi O7); [|exact O8|exact O9|exact O10|exact Hin|].
    + intros [C|[C|[C|C]]]; [lra|lia|lia|contradiction].
    + intros e He. apply HE. apply may_bind. right. eauto.
  - apply (stage _ _ _ (bp_aggregated _ _ _ _ _ _) HE). clear HE. intros u' _ HE.
    apply may_bind. right. exists RecursionError. split; [|reflexivity]. apply IH; [exact Hu|].
    intros e He. apply HE. apply may_bind. right. eauto.
Qed.

(** a whole simulation may exceed any recursion limit as soon as one appliance can miss all its duty cycles *)
Theorem C67_overflow_simulation depth F w us start stop enl seed num pe n u a p s :
  (0 < depth)%nat -> 1 <= n -> both_dates start stop = false -> asked w start stop num n -> sound_enlarge pe ->
  sound_preferences us -> all_apps (sound_app F) us -> all_apps (has_power n) us ->
  all_apps (not_simulated F) us -> no_lonely_minute us ->
  In u us -> In a (app_list u) -> may_overflow u a p s ->
  may (simulate depth F w us start stop enl seed num pe) (Err RecursionError).
Proof.
  intros Hdep Hn Hbd Hask Hpe Hpref Hs Hp Hm Hl Hu Hain Ho.
  assert (HE : forall e, may (simulate depth F w us start stop enl seed num pe) (Err e) -> e = RecursionError).
  { intros e He. assert (Hask' : asked w start stop (if both_dates start stop then None else num) n) by (rewrite Hbd; exact Hask).
    destruct (C67_simulation depth F w us start stop enl seed num pe n _ Hdep Hn Hask' Hpe Hpref Hs Hp Hm Hl He) as [(c & rows & C & _)|(C & _)]; congruence. }
  assert (Hd : all_apps (fun a => Forall inside_day (use_windows a)) us).
  { revert Hs. unfold all_apps. intros Hs. eapply Forall_impl; [|exact Hs]. intros v Hv. eapply Forall_impl; [|exact Hv].
    intros b ((Hx & _) & _). exact Hx. }
  unfold simulate in *.
  assert (Hc : may (new_usecase F w us start stop false enl seed) (Ok (blank start stop false enl seed us))).
  { unfold new_usecase. cbv zeta. destruct start as [x|], stop as [y|]; [discriminate| | |]; cbn [bind];
      (destruct (seed_of seed); [apply may_seed|]; constructor). }
  apply (stage_at _ _ _ _ Hc HE). clear HE Hc. intros HE.
  apply (stage _ _ _ (bp_initialize _ _ _ _ _ _) HE). clear HE. intros r Hr HE.
  destruct (C67_initialize F w us start stop false enl seed num pe n _ Hn Hask Hpe Hp Hm Hd Hl Hr) as (c & s0 & E & (Hn1 & Hnd & (ds & Hds & Hlen & _) & _) & Hpk & Hwp & Hpow).
  injection E as ->. cbn [fst snd] in *.
  (* the appliance in the initialized use case *)
  assert (Hv : exists v b, In v (users c) /\ In b (app_list v) /\ sound_app F b /\ n <= zlen (power b) /\ may_overflow v b p s).
  { apply In_nth_error in Hu as (i & Hi). apply In_nth_error in Hain as (j & Hj).
    assert (G : forall i us us', Forall2 with_powers us us' -> nth_error us i = Some u -> exists v, nth_error us' i = Some v /\ with_powers u v).
    { clear. induction i; intros us us' H Hi; destruct H; try discriminate; cbn in *; [injection Hi as <-; eauto|eauto]. }
    destruct (G _ _ _ Hwp Hi) as (v & Hv & (N1 & N2 & Hx)). clear G.
    assert (G : forall j l l', Forall2 with_power l l' -> nth_error l j = Some a -> exists b, nth_error l' j = Some b /\ with_power a b).
    { clear. induction j; intros us us' H Hi; destruct H; try discriminate; cbn in *; [injection Hi as <-; eauto|eauto]. }
    destruct (G _ _ _ Hx Hj) as (b & Hb & (pw & ->)). clear G. exists v, (set_power a pw).
    apply nth_error_In in Hv, Hb, Hi, Hj. split; [exact Hv|]. split; [exact Hb|].
    unfold all_apps in *. rewrite Forall_forall in Hs, Hpow. specialize (Hs u Hi). specialize (Hpow v Hv).
    rewrite Forall_forall in Hs, Hpow. split; [exact (Hs a Hj)|]. split; [exact (Hpow _ Hb)|].
    unfold may_overflow in *. rewrite N1, N2. exact Ho. }
  clear Hu Hain Ho. destruct Hv as (v & b & Hv & Hb & Hsb & Hpb & Ho).
  unfold generate_sequential in *.
  assert (Hch : choose_days c None = Ok c) by (unfold choose_days; rewrite Hds; reflexivity).
  rewrite Hch in *. cbn [lift bind] in *. unfold num_days in *. rewrite Hnd in *. cbn [bind fst snd] in *.
  destruct (Z.ltb_spec n 0); [lia|]. rewrite Hds in *.
  apply may_bind. right. exists RecursionError. split; [|reflexivity].
  destruct ds as [|d ds]; [cbn in Hlen; lia|]. cbn [day_loop] in *.
  apply may_bind. right. exists RecursionError. split; [|reflexivity].
  apply (users_overflow depth F 0 (peak_of c) (get_day_type d) v b p s Hdep Hpk Hsb ltac:(lia) Hb Ho); [exact Hv|].
  intros e He. apply HE. apply may_bind. right. exists e. split; [|reflexivity]. apply may_bind. right. exists e. split; [exact He|reflexivity].
Qed.

(** ** C69: the cooking household *)

Lemma declared_facts F nd p pw w1 w2 rvw w3 rest a : forallb step_ok rest = true ->
  declared_alone F nd (p, pw, []) (DWindows w1 w2 rvw w3 :: rest) a ->
  par a = p /\ window_1 (win a) = pick1 w1 /\ random_var_1 (win a) = py_int (fmul F rvw (zq (length_of (pick1 w1)))) /\
  exists c, cycles_of a = fold_left cycles_step rest c.
Proof.
  intros Hrest (a0 & E0 & H). cbn [app declare declare1] in H.
  destruct (windows F a0 w1 w2 rvw w3) as [a1 [e|]] eqn:E1; [discriminate|].
  pose proof (windows_ok F a0 w1 w2 rvw w3 a1 E1) as W. cbv zeta in W.
  destruct W as (Wp & _ & _ & _ & _ & _ & W1 & _ & _ & _ & R1 & _). rewrite (declare_cycles F rest Hrest) in H.
  injection H as <-. change (match w1 with Some x => x | None => (0, 1440) end) with (pick1 w1) in W1. rewrite W1 in R1.
  assert (Hp0 : par a0 = p) by (clear - E0; destruct pw; cbn in E0; try discriminate; injection E0 as <-; reflexivity).
  rewrite Hp0 in Wp.
  assert (G : forall cs, par (with_cycles a1 cs) = par a1 /\ win (with_cycles a1 cs) = win a1 /\ cycles_of (with_cycles a1 cs) = cs)
    by (intros [[c1 c2] c3]; repeat split).
  destruct (G (fold_left cycles_step rest (cycles_of a1))) as (-> & -> & ->).
  split; [exact Wp|]. split; [exact W1|]. split; [exact R1|]. eauto.
Qed.

Lemma rv_rice F : 20 <= py_int (fmul F (flit F (15 # 100)) (zq 180)).
Proof.
  assert (H : (1 # 8 <= flit F (15 # 100))%Q).
  { unfold flit. pose proof (rnd_dyadic F 1 3 ltac:(lia) ltac:(lia)) as E. change (Z.to_pos (2 ^ 3)) with 8%positive in E. rewrite <- E. apply rnd_mono. lra. }
  assert (H2 : (zq 22 <= fmul F (flit F (15 # 100)) (zq 180))%Q).
  { unfold fmul. rewrite <- (rnd_int F 22) by lia. apply rnd_mono. unfold zq. change (inject_Z 22) with 22%Q. change (inject_Z 180) with 180%Q. nra. }
  apply py_int_mono in H2. rewrite py_int_zq in H2. lia.
Qed.

Definition cooking_calls (F : fm) : list call := match input_file_3 F with e :: _ => e_calls e | [] => [] end.
Definition rice : fm -> params := fun F => Params "lunch2_rice" 1 2 25 (flit F (15 # 100)) 20 "no" 1 1 1 "no" (flit F (2 # 10)) 2 2.
Definition rice_calls (F : fm) : list decl :=
  [DWindows (Some (720, 900)) (Some (0, 0)) (flit F (15 # 100)) None;
   DCycle 1 (CycleArgs (Some 1800%Q) (Some 10) None (Some 750%Q) (Some 15) None (Some (flit F (15 # 100))%Q));
   DBehaviour (Some (720, 900)) (Some (0, 0)) None None None None].

Lemma cooking_names F : names_differ (cooking_calls F).
Proof. split; [repeat constructor; cbn; intuition discriminate|repeat constructor; discriminate]. Qed.
Lemma cooking_powers F strict : powers_agree strict 366 (cooking_calls F).
Proof. left. exists 367. repeat constructor. Qed.
Lemma rice_added F : nth_error (added (cooking_calls F)) 1 = Some (rice F, PConst 1800, []).
Proof. reflexivity. Qed.
Lemma rice_on F : calls_on 1 (cooking_calls F) = rice_calls F.
Proof. reflexivity. Qed.

Lemma rice_script F strict g : run_script F strict 366 (Registry [] []) (cooking_calls F) = (g, None) ->
  exists a, nth_error (registered g) 1 = Some a /\ declared_alone F 366 (rice F, PConst 1800, []) (rice_calls F) a.
Proof.
  intros H. destruct (proj1 (C68_declarations F strict 366 _ g (cooking_names F) (cooking_powers F strict)) H) as (_ & _ & _ & Hk).
  destruct (Hk 1%nat _ (rice_added F)) as (a & Ha & Hd). rewrite rice_on in Hd. eauto.
Qed.

Lemma cooking_user F strict us : build_users F strict (input_file_3 F) = Ok us ->
  exists u g, us = [u] /\ run_script F strict 366 (Registry [] []) (cooking_calls F) = (g, None) /\ app_list u = registered g /\
    num_users u = 1 /\ user_preference u = 3.
Proof.
  assert (E0 : input_file_3 F = [EUser "generic household" 1 3 (cooking_calls F)]) by reflexivity. rewrite E0. clear E0.
  cbn [build_users]. unfold build_user. cbn [e_calls e_num e_pref e_name].
  destruct (run_script F strict 366 (Registry [] []) (cooking_calls F)) as [g [x|]]; [discriminate|]. cbn [rbind]. intros E. injection E as <-.
  eexists. exists g. repeat split.
Qed.

Lemma rice_declared F strict us : build_users F strict (input_file_3 F) = Ok us ->
  exists u a, In u us /\ In a (app_list u) /\ num_users u = 1 /\ user_preference u = 3 /\
    par a = rice F /\ window_1 (win a) = (720, 900) /\ 20 <= random_var_1 (win a) /\
    cwa (cyc1 a) = (720, 900) /\ cwb (cyc1 a) = (0, 0) /\ cwa (cyc2 a) = (0, 0) /\ cwb (cyc2 a) = (0, 0) /\ cwa (cyc3 a) = (0, 0) /\ cwb (cyc3 a) = (0, 0).
Proof.
  intros E. destruct (cooking_user F strict us E) as (u & g & -> & Eg & Hl & N1 & N2). clear E.
  destruct (rice_script F strict g Eg) as (a & Ha & Hd). exists u, a. split; [left; reflexivity|].
  split; [rewrite Hl; exact (nth_error_In _ _ Ha)|]. split; [exact N1|]. split; [exact N2|].
  apply declared_facts in Hd as (D1 & D2 & D3 & c & D4); [|reflexivity].
  split; [exact D1|]. split; [exact D2|]. split; [rewrite D3; exact (rv_rice F)|].
  destruct c as [[c1 c2] c3]. unfold cycles_of in D4. cbn [fold_left cycles_step Z.eqb Pos.eqb] in D4. injection D4 as -> -> ->. repeat split.
Qed.

(** ... and RecursionError can be raised, at any recursion limit: the rice may be put on before its duty cycle applies *)
Theorem C69_cooking_refuted depth F strict w enl seed n : (0 < depth)%nat -> 1 <= n ->
  exists us, build_users F strict (input_file_3 F) = Ok us /\
    may (simulate depth F w us None None enl seed (Some n) None) (Err RecursionError).
Proof.
  intros Hdep Hn. destruct (file_3_ready F strict n) as (us & E & Hb & Ha). exists us. split; [exact E|].
  destruct (rice_declared F strict us E) as (u & a & Hu & Hin & N1 & N2 & Hp & W1 & R1 & C1 & C2 & C3 & C4 & C5 & C6).
  assert (Hcw : forall j x, In x (declared_windows a j) -> x = (720, 900) \/ x = (0, 0)).
  { intros j x. unfold declared_windows. destruct (j =? 1); [|destruct (j =? 2)]; rewrite ?C1, ?C2, ?C3, ?C4, ?C5, ?C6; cbn; intuition. }
  apply (C67_overflow_simulation depth F w us None None enl seed (Some n) None n u a 2 (720 - 20)); try assumption; try reflexivity.
  - left. reflexivity.
  - unfold sound_preferences. clear - Hb. inversion Hb as [|? ? ? ? (_ & _ & N & _) Hx]; subst. inversion Hx; subst. constructor; [rewrite N; cbn; lia|constructor].
  - exact (all_apps_impl _ _ us (fun a Hx => rtu_sound _ _ _ _ Hx) Ha).
  - exact (all_apps_impl _ _ us (fun a Hx => rtu_power _ _ _ _ Hx) Ha).
  - exact (all_apps_impl _ _ us (fun a Hx => rtu_fresh _ _ _ _ Hx) Ha).
  - apply even_no_lonely. exact (all_apps_impl _ _ us (fun a Hx => rtu_even _ _ _ _ Hx) Ha).
  - unfold may_overflow, has_duty_cycles, may_start, no_cycle_at, ordered_cycles. rewrite N1, N2, Hp. unfold rice. cbn [wd_we_type occasional_use pref_index func_time flat fixed_cycle func_cycle].
    split; [lia|]. split; [lia|]. split; [reflexivity|]. split; [lra|]. split; [right; reflexivity|]. split; [lia|]. split; [split; [discriminate|lia]|].
    split; [split; [lia|]; split; [lia|]; exists (720, 900), (random_var_1 (win a)); split; [left; rewrite W1; reflexivity|cbn [fst snd]; lia]|].
    split; [intros j x _ Hx; destruct (Hcw j x Hx) as [->| ->]; cbn; lia|].
    intros j x _ Hx (m & M1 & M2). destruct (Hcw j x Hx) as [->| ->]; cbn [fst snd] in M2; lia.
Qed.

(** ** Cases *)

(** the hypotheses of C67 are met by the village of input_file_1.py, for any number of days *)
Example C67_case F strict w n : 1 <= n ->
  exists us, build_users F strict (input_file_1 F) = Ok us /\ List.length us = 8%nat /\
    asked w None None (Some n) n /\ sound_enlarge (Some (EFloat (15 # 100))) /\ sound_preferences us /\
    all_apps (sound_app F) us /\ all_apps (has_power n) us /\ all_apps (not_simulated F) us /\ no_lonely_minute us /\
    (forall u a, In u us -> In a (app_list u) -> has_duty_cycles a -> duty_ok a).
Proof.
  intros Hn. destruct (file_1_ready F strict n) as (us & E & Hb & Ha). exists us. split; [exact E|].
  split; [apply Forall2_length in Hb; rewrite <- Hb; reflexivity|].
  split; [reflexivity|]. split; [right; exists (15 # 100)%Q; split; [discriminate|reflexivity]|]. split.
  { unfold sound_preferences. assert (Hp : Forall (fun e => 0 <= e_pref e) (input_file_1 F)) by (repeat constructor; cbn; lia).
    clear - Hb Hp. induction Hb as [|e u es us (_ & _ & E & _) _ IH]; [constructor|]. inversion Hp; subst. constructor; [rewrite E; assumption|auto]. }
  split; [exact (all_apps_impl _ _ us (fun a Hx => rtu_sound _ _ _ _ Hx) Ha)|].
  split; [exact (all_apps_impl _ _ us (fun a Hx => rtu_power _ _ _ _ Hx) Ha)|].
  split; [exact (all_apps_impl _ _ us (fun a Hx => rtu_fresh _ _ _ _ Hx) Ha)|].
  split; [apply even_no_lonely; exact (all_apps_impl _ _ us (fun a Hx => rtu_even _ _ _ _ Hx) Ha)|].
  intros u a Hu Hin. unfold all_apps in Ha. rewrite Forall_forall in Ha. specialize (Ha u Hu). rewrite Forall_forall in Ha.
  exact (rtu_duty _ _ _ _ (Ha a Hin) I).
Qed.

Lemma bp_simulate depth F w us start stop enl seed num pe : below_pos (simulate depth F w us start stop enl seed num pe).
Proof.
  unfold simulate. apply below_pos_bind; [apply bp_new|]. intros c. apply below_pos_bind; [apply bp_initialize|]. intros [c' [e|]]; [exact I|].
  apply bp_sequential.
Qed.

(** there are simulations of the village, the shower and the household, and those of the first two end with rows *)
Example C69_case depth F strict P n : (0 < depth)%nat -> 1 <= n <= zlen P ->
  (exists c rows, simulates depth F strict (input_file_1 F) n (Ok (c, rows))) /\
  (exists c rows, simulates depth F strict (input_file_2 F P) n (Ok (c, rows))) /\
  simulates depth F strict (input_file_3 F) n (Err RecursionError).
Proof.
  intros Hdep Hn.
  assert (G : forall es us, build_users F strict es = Ok us -> exists r, simulates depth F strict es n r).
  { intros es us E. destruct (may_exists _ (bp_simulate depth F (World (Ok 0) 0) us None None 0 None (Some n) None)) as (r & Hr).
    exists r, us, (World (Ok 0) 0), None, None, 0%Q, None, (Some n), None. split; [exact E|]. split; [reflexivity|]. split; [left; reflexivity|exact Hr]. }
  destruct (C69_declarations F strict P) as ((us1 & E1 & _) & (us2 & E2 & _) & _). split; [|split].
  - destruct (G _ _ E1) as (r & Hr). destruct (C69_village depth F strict n r Hdep (proj1 Hn) Hr) as (c & rows & -> & _). eauto.
  - destruct (G _ _ E2) as (r & Hr). destruct (C69_shower depth F strict P n r Hdep Hn Hr) as (c & rows & -> & _). eauto.
  - destruct (C69_cooking_refuted depth F strict (World (Ok 0) 0) 0 None n Hdep (proj1 Hn)) as (us & E & H).
    exists us, (World (Ok 0) 0), None, None, 0%Q, None, (Some n), None. split; [exact E|]. split; [reflexivity|]. split; [left; reflexivity|exact H].
Qed.
