(** * PropsNumWindows: num_windows and the windows in which an appliance is used (C66) *)
From Verif Require Import Base Wp Tape ListLemmas Utils Appliance User Spec SpecDay ProofsUtils ProofsAppliance Declare PropsBasic PropsDay PropsDayCases
  UseCase SpecUser SpecUseCase ProofsTabular PropsEnvelope PropsDeclare.
From Coq Require Import ZifyBool ZifyNat.
Open Scope list_scope.
Open Scope Z_scope.

(** ** Specification *)

(** the first num_windows use windows, each widened by its variability *)
Definition first_windows (a : appliance) : list (Z * Z) := firstn (Z.to_nat (num_windows (par a))) (widened_windows a).

(** no call passes a window beyond num_windows *)
Definition only_first_windows (n : Z) (ds : list decl) : Prop :=
  Forall (fun d => forall j, n < j <= 3 -> gives_window j d = None) ds.

(** ** C66 *)

(** Part that holds: an appliance to which no window beyond num_windows was ever passed is off outside its first num_windows
    windows *)
Theorem C66_num_windows_partial depth F p pw nd a0 ds a pref i peak dt v a' t :
  new_appliance p pw nd = Ok a0 -> 1 <= num_windows p <= 3 -> 0 <= func_cycle p ->
  declare F a0 ds = (a, None) -> only_first_windows (num_windows p) ds ->
  may (generate_load_profile depth F a pref i peak dt v) (Ok a') ->
  0 <= t < 1440 -> ~ minute_in_some t (first_windows a) -> value_at (daily_use (st a')) t = 0%Q.
Proof.
  intros Hnew Hn Hfc Hd Ho H Ht Hout.
  destruct (C65_last_declaration F a0 ds a Hd) as (Ep & _ & Ew & _ & _).
  assert (H0 : par a0 = p /\ win a0 = default_wins) by (destruct pw; try discriminate Hnew; injection Hnew as <-; split; reflexivity).
  destruct H0 as [Hp0 Hw0]. rewrite Hp0 in Ep.
  assert (Z : forall j, num_windows p < j <= 3 -> use_window j a = (0, 0)).
  { intros j Hj. assert (H3 : one_two_three j) by (unfold one_two_three; lia). rewrite (Ew j H3).
    assert (G : forall ds w, Forall (fun d => gives_window j d = None) ds -> in_force (gives_window j) w ds = w).
    { induction ds0 as [|d ds0 IH]; intros w HF; [reflexivity|]. inversion HF as [|? ? Hd1 Hd2]; subst. cbn [in_force]. rewrite Hd1. auto. }
    rewrite G.
    - unfold use_window. rewrite Hw0. destruct (j =? 1); [reflexivity|destruct (j =? 2); reflexivity].
    - eapply Forall_impl; [|exact Ho]. intros d Hx. apply Hx. exact Hj. }
  assert (V : forall j, num_windows p < j <= 3 -> use_variability j a = 0).
  { intros j Hj. assert (H3 : one_two_three j) by (unfold one_two_three; lia).
    assert (G : forall ds b, use_variability j b = 0 -> use_window j b = (0, 0) -> Forall (fun d => gives_window j d = None) ds ->
       declare F b ds = (a, None) -> use_variability j a = 0).
    { induction ds0 as [|d ds0 IH]; intros b Hb Hwb HF Hdb; cbn [declare] in Hdb; [injection Hdb as <-; exact Hb|].
      inversion HF as [|? ? Hd1 Hd2]; subst. destruct (declare1 F b d) as [c [e|]] eqn:Ec; [discriminate|].
      destruct (declare1_effect F b d c Ec) as (_ & _ & _ & E3 & _ & E5 & _). specialize (E3 j H3). specialize (E5 j H3). rewrite Hd1 in E3.
      apply (IH c); [|congruence|exact Hd2|exact Hdb]. rewrite E5. destruct (gives_variability d) as [x|]; [|exact Hb].
      rewrite E3, Hwb. change (length_of (0, 0)) with 0.
      assert (E0 : (fmul F x (zq 0) == 0)%Q) by (unfold fmul; apply rnd_zero; change (zq 0) with 0%Q; ring).
      revert E0. generalize (fmul F x (zq 0)). intros y E0.
      assert (R : 0 <= py_int y <= 0) by (apply py_int_range; change (zq 0) with 0%Q; rewrite E0; split; apply Qle_refl). lia. }
    apply (G ds a0).
    - unfold use_variability. rewrite Hw0. destruct (j =? 1); [reflexivity|destruct (j =? 2); reflexivity].
    - unfold use_window. rewrite Hw0. destruct (j =? 1); [reflexivity|destruct (j =? 2); reflexivity].
    - eapply Forall_impl; [|exact Ho]. intros d Hx. apply Hx. exact Hj.
    - exact Hd. }
  destruct (C12_silent_outside_windows depth F a pref i peak dt v a') as (_ & rws & Hr & _ & Hz); [rewrite Ep; exact Hfc|exact H|].
  apply Hz; [exact Ht|]. intros Hm. destruct Hr as [->|Hr]; [destruct Hm as (w & [] & _)|].
  pose proof (rand_windows_reach a rws t Hr Ht Hm) as Hon. unfold may_be_on in Hon. apply existsb_exists in Hon as (w & Hw & Hin).
  apply Hout. exists w. split; [|unfold minute_in; lia]. unfold first_windows. rewrite Ep.
  unfold use_window, use_variability in Z, V.
  assert (num_windows p = 1 \/ num_windows p = 2 \/ num_windows p = 3) as [E|[E|E]] by lia; rewrite E in *.
  - specialize (Z 2 ltac:(lia)) as Z2. specialize (Z 3 ltac:(lia)) as Z3. specialize (V 2 ltac:(lia)) as V2. specialize (V 3 ltac:(lia)) as V3.
    cbn in Z2, Z3, V2, V3. unfold widened_windows in *. rewrite Z2, Z3, V2, V3 in *. destruct Hw as [<-|[<-|[<-|[]]]]; [left; reflexivity| |]; cbn in Hin; lia.
  - specialize (Z 3 ltac:(lia)) as Z3. specialize (V 3 ltac:(lia)) as V3.
    cbn in Z3, V3. unfold widened_windows in *. rewrite Z3, V3 in *. destruct Hw as [<-|[<-|[<-|[]]]]; [left; reflexivity|right; left; reflexivity|]; cbn in Hin; lia.
  - exact Hw.
Qed.

Definition one_window : params := Params "tv" 3 1 60 0 10 "no" 0 1 1 "no" 0 0 2.
Definition event_draws : list draw := [DZ 200; DQ (1 # 2); DQ (1 # 2); DQ (1 # 2)].
Definition evening_tape : list draw :=
  [DQ (1 # 2); DZ 0; DZ 0; DZ 0; DZ 0; DZ 0; DZ 0; DQ (1 # 2); DQ (1 # 2)] ++ event_draws ++ event_draws.

(** a declaration that succeeds followed by a day that succeeds *)
Lemma declare_then_day a0 ds tape depth pref i peak dt v (P : appliance -> appliance -> bool) :
  match declare exact_fm a0 ds with
  | (a, None) => match follow (generate_load_profile depth exact_fm a pref i peak dt v) tape with
                 | Some (Ok a') => P a a' | _ => false end
  | _ => false end = true ->
  exists a a', declare exact_fm a0 ds = (a, None) /\ may (generate_load_profile depth exact_fm a pref i peak dt v) (Ok a') /\ P a a' = true.
Proof.
  destruct (declare exact_fm a0 ds) as [a [e|]]; [discriminate|].
  destruct (follow (generate_load_profile depth exact_fm a pref i peak dt v) tape) as [[a'|e]|] eqn:Ef; try discriminate.
  intros E. exists a, a'. split; [reflexivity|]. split; [exact (follow_may _ _ _ Ef)|exact E].
Qed.

Definition new_one_window : appliance := App one_window [50%Q] false default_wins default_cycle default_cycle default_cycle default_dyn.

(** Refuted in general: windows() accepts a second window although num_windows is 1, and the appliance is then used in it *)
Theorem C66_num_windows_refuted : exists p pw nd a0 ds a depth pref i peak dt v a' t,
  new_appliance p pw nd = Ok a0 /\ num_windows p = 1 /\ declare exact_fm a0 ds = (a, None) /\
  may (generate_load_profile depth exact_fm a pref i peak dt v) (Ok a') /\
  0 <= t < 1440 /\ ~ minute_in_some t (first_windows a) /\ (value_at (daily_use (st a')) t == 100)%Q.
Proof.
  destruct (declare_then_day new_one_window [DWindows (Some (480, 600)) (Some (1080, 1320)) 0 None] evening_tape 5 0 0 (arange 700 720) 0 50%Q
    (fun a a' => Qeq_bool (value_at (daily_use (st a')) 1200) 100 && negb (existsb (in_win 1200) (first_windows a))))
    as (a & a' & Ed & Em & E); [vm_compute; reflexivity|].
  apply andb_prop in E as [E1 E2].
  exists one_window, (PSeries [50%Q]), 0, new_one_window, [DWindows (Some (480, 600)) (Some (1080, 1320)) 0 None], a, 5%nat, 0, 0, (arange 700 720), 0, 50%Q, a', 1200.
  split; [reflexivity|]. split; [reflexivity|]. split; [exact Ed|]. split; [exact Em|]. split; [lia|].
  split; [|apply Qeq_bool_iff; exact E1]. intros Hm. apply existsb_in_win in Hm. rewrite Hm in E2. discriminate.
Qed.

(** a television with one window, used in it *)
Example C66_case : exists a0 a a',
  new_appliance one_window (PSeries [50%Q]) 0 = Ok a0 /\
  declare exact_fm a0 [DWindows (Some (480, 600)) None (1 # 10) None] = (a, None) /\
  only_first_windows 1 [DWindows (Some (480, 600)) None (1 # 10) None] /\
  may (generate_load_profile 5 exact_fm a 0 0 (arange 700 720) 0 50%Q) (Ok a') /\
  first_windows a = [(468, 612)] /\ (value_at (daily_use (st a')) 500 == 100)%Q.
Proof.
  destruct (declare_then_day new_one_window [DWindows (Some (480, 600)) None (1 # 10) None]
    [DQ (1 # 2); DZ 12; DZ 12; DZ 0; DZ 0; DZ 0; DZ 0; DQ (1 # 2); DQ (1 # 2); DZ 20; DQ (1 # 2); DQ (1 # 2); DQ (1 # 2); DZ 20; DQ (1 # 2); DQ (1 # 2); DQ (1 # 2)]
    5 0 0 (arange 700 720) 0 50%Q
    (fun a a' => Qeq_bool (value_at (daily_use (st a')) 500) 100 && match first_windows a with [(468, 612)] => true | _ => false end))
    as (a & a' & Ed & Em & E); [vm_compute; reflexivity|].
  apply andb_prop in E as [E1 E2].
  exists new_one_window, a, a'. split; [reflexivity|]. split; [exact Ed|]. split.
  { constructor; [|constructor]. intros j Hj. cbn. replace (j =? 1) with false by lia. destruct (j =? 2); reflexivity. }
  split; [exact Em|]. split; [|apply Qeq_bool_iff; exact E1]. revert E2. vm_compute in Ed. injection Ed as <-. intros _. reflexivity.
Qed.
