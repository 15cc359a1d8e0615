(** * PropsMeanDay: mean daily energies, of appliances and of a whole use case (C94) *)
From Verif Require PropsDayCases PropsParallel PropsEnvelope.
From Verif Require Import Base Wp Tape F64 Utils ListLemmas Appliance User UseCase Sim Spec SpecUser SpecUseCase SpecDay ProofsUtils ProofsAppliance ProofsEvent ProofsEvent2 ProofsDay ProofsDay2 ProofsUser
  ProofsUseCase ProofsRun PropsBasic PropsDay PropsUseCase PropsUser PropsTotal Prob PropsProb PropsLaw PropsMean PropsThermal PropsIndep PropsFlatMean PropsMeanEnergy.
From Coq Require Import ZifyBool ZifyNat.

(** ** Specification *)

(** no draw of the windows leaves the day *)
Definition inside_always (a : appliance) : Prop :=
  let W := win a in
  Forall (fun x => 0 <= fst (fst x) - snd x /\ snd (fst x) + snd x <= 1440)
    [(window_1 W, random_var_1 W); (window_2 W, random_var_2 W); (window_3 W, random_var_3 W)].

(** an appliance whose mean daily energy is known in closed form: flat, or of the kind of C94_mean_energy *)
Definition steady (a : appliance) : Prop :=
  func_time (par a) <> 0 /\
  (flat (par a) = "yes"%string \/
   (flat (par a) <> "yes"%string /\ fixed_cycle (par a) <= 0 /\ func_cycle (par a) = 1 /\ always_separated a /\ together a)).

(** the part of the days of type [dt] on which a member of [u] may use [a]: by the day type and the preference of the day *)
Definition open_share (u : user) (a : appliance) (dt : Z) : Q :=
  if negb ((wd_we_type (par a) =? dt) || (wd_we_type (par a) =? 2)) then 0%Q
  else if pref_index (par a) =? 0 then 1%Q
  else if (1 <=? pref_index (par a)) && (pref_index (par a) <=? user_preference u) then (1 / zq (user_preference u))%Q
  else 0%Q.

(** the mean energy in Wmin of a day on which the appliance is used, with power [pw] *)
Definition day_energy (L : law) (F : fm) (a : appliance) (pw : Q) : Q :=
  if String.eqb (flat (par a)) "yes" then (zq (number (par a)) * pw * Qsum (map (covered_chance (win a)) (arange 0 1440)))%Q
  else (zq (number (par a)) * pw * mean_factor L (thermal_p_var (par a)) * mean_time L F a + mask_value F * (mean_window L F a - mean_time L F a))%Q.

(** ** The mean length of the windows *)

Lemma average_shift n (p q c : Q) : 0 < n -> (average n (fun i => p + q * (c + zq i)) == p + q * (c + (zq n - 1) * (1 # 2)))%Q.
Proof.
  intros Hn. pose proof (zq_pos n Hn) as Hq.
  rewrite (average_ext _ _ (fun i => (p + q * c) + q * zq i)%Q) by (intros; ring).
  rewrite average_add, average_const, average_scale by exact Hn. unfold average. rewrite sum_below by lia. field. lra.
Qed.

Lemma mean_length L w rv (p q : Q) : 0 <= rv -> 0 <= fst w - rv -> snd w + rv <= 1440 ->
  (expect L (calc_rand_window w rv) (fun r => match r with Ok v => (p + q * zq (length_of v))%Q | Err _ => 0%Q end) == p + q * zq (length_of w))%Q.
Proof.
  intros Hrv H0 H1. rewrite C87_window by exact Hrv. set (n := 2 * rv + 1).
  rewrite (average_ext _ _ (fun i => (p + q * (zq (snd w - rv) + (zq n - 1) * (1 # 2))) + (- q) * (zq (fst w - rv) + zq i))%Q).
  - rewrite average_shift by (unfold n; lia). unfold length_of, n, Z.sub. rewrite !zq_add, !zq_opp. ring.
  - intros i Hi. rewrite (average_ext _ _ (fun j => (p + (- q) * (zq (fst w - rv) + zq i)) + q * (zq (snd w - rv) + zq j))%Q).
    + rewrite average_shift by (unfold n; lia). ring.
    + intros j Hj. unfold length_of. cbn [fst snd].
      replace (Z.min 1440 (snd w - rv + j) - Z.max 0 (fst w - rv + i)) with ((snd w - rv + j) - (fst w - rv + i)) by (unfold n in *; lia).
      unfold Z.sub at 1. rewrite !zq_add, !zq_opp, !zq_add. ring.
Qed.

Lemma rtt_sure F a rw1 rw2 rw3 r : well_declared F a -> cycle_fits a -> 1 <= func_cycle (par a) ->
  near (window_1 (win a)) (random_var_1 (win a)) rw1 -> near (window_2 (win a)) (random_var_2 (win a)) rw2 -> near (window_3 (win a)) (random_var_3 (win a)) rw3 ->
  may (rand_total_time_of_use F a rw1 rw2 rw3) r -> exists t, r = Ok t.
Proof.
  intros (Hday & Hv & V1 & V2 & V3) Hfit Hfc N1 N2 N3 Hr.
  inversion Hday as [|? ? I1 Hin1]; subst. inversion Hin1 as [|? ? I2 Hin2]; subst. inversion Hin2 as [|? ? I3 _]; subst.
  assert (K : forall w rv rw, inside_day w -> rv = py_int (fmul F (random_var_w (win a)) (zq (length_of w))) -> near w rv rw ->
     length_of w - 2 * rv <= diff rw /\ 0 <= diff rw <= 1440).
  { intros w rv rw [I0 I0'] Erv (y0 & y1 & -> & Y0 & Y1). destruct (random_var_half F (random_var_w (win a)) (length_of w) (proj1 Hv) (proj2 Hv)) as [R1 R2]; [unfold length_of; lia|].
    rewrite <- Erv in R1, R2. unfold length_of, diff in *. cbn [fst snd]. lia. }
  pose proof (K _ _ _ I1 V1 N1). pose proof (K _ _ _ I2 V2 N2). pose proof (K _ _ _ I3 V3 N3). clear K.
  unfold cycle_fits in Hfit. cbv zeta in Hfit.
  pose proof (wp_elim _ _ _ (rtt_spec F a rw1 rw2 rw3 ltac:(lia) ltac:(lia) ltac:(lia)) Hr) as [(_ & C & _)|(rt & -> & _)]; [lia|eauto].
Qed.

(** The mean length of the windows of a day is the declared length, unless a draw can leave the day. *)
Theorem C94_mean_window L F a :
  well_declared F a -> cycle_fits a -> 1 <= func_cycle (par a) -> inside_always a ->
  (mean_window L F a == zq (total_length [window_1 (win a); window_2 (win a); window_3 (win a)]))%Q.
Proof.
  intros Hw Hfit Hfc Hin. pose proof Hw as (Hday & Hv & V1 & V2 & V3).
  inversion Hday as [|? ? I1 Hin1]; subst. inversion Hin1 as [|? ? I2 Hin2]; subst. inversion Hin2 as [|? ? I3 _]; subst.
  unfold inside_always in Hin. cbv zeta in Hin. inversion Hin as [|? ? [A1 B1] Hi1]; subst. inversion Hi1 as [|? ? [A2 B2] Hi2]; subst. inversion Hi2 as [|? ? [A3 B3] _]; subst. cbn [fst snd] in *.
  assert (P : forall w rv, inside_day w -> rv = py_int (fmul F (random_var_w (win a)) (zq (length_of w))) -> 0 <= rv).
  { intros w rv [I0 I0'] ->. apply (random_var_half F (random_var_w (win a)) (length_of w) (proj1 Hv) (proj2 Hv)). unfold length_of; lia. }
  pose proof (P _ _ I1 V1) as P1. pose proof (P _ _ I2 V2) as P2. pose proof (P _ _ I3 V3) as P3. clear P.
  set (w1 := window_1 (win a)) in *. set (w2 := window_2 (win a)) in *. set (w3 := window_3 (win a)) in *.
  unfold mean_window, windows_and_time. fold w1 w2 w3.
  rewrite expect_bind, (expect_ext L _ _ (fun r => match r with Ok v => ((zq (length_of w2) + zq (length_of w3)) + 1 * zq (length_of v))%Q | Err _ => 0%Q end)).
  { rewrite mean_length by assumption. unfold total_length. cbn [fold_right]. rewrite !zq_add. change (zq 0) with 0%Q. ring. }
  intros r1 M1. destruct (never_raises F a _ _ _ Hv I1 V1 M1) as (rw1 & -> & N1). cbn [onward].
  rewrite expect_bind, (expect_ext L _ _ (fun r => match r with Ok v => ((zq (length_of rw1) + zq (length_of w3)) + 1 * zq (length_of v))%Q | Err _ => 0%Q end)).
  { rewrite mean_length by assumption. ring. }
  intros r2 M2. destruct (never_raises F a _ _ _ Hv I2 V2 M2) as (rw2 & -> & N2). cbn [onward].
  rewrite expect_bind, (expect_ext L _ _ (fun r => match r with Ok v => ((zq (length_of rw1) + zq (length_of rw2)) + 1 * zq (length_of v))%Q | Err _ => 0%Q end)).
  { rewrite mean_length by assumption. ring. }
  intros r3 M3. destruct (never_raises F a _ _ _ Hv I3 V3 M3) as (rw3 & -> & N3). cbn [onward].
  rewrite expect_bind. apply expect_sure; [apply bp_rtt|]. intros r Hr.
  destruct (rtt_sure F a rw1 rw2 rw3 r Hw Hfit Hfc N1 N2 N3 Hr) as (t & ->). cbn [onward expect fst snd].
  unfold total_length. cbn [fold_right]. rewrite !zq_add. change (zq 0) with 0%Q. ring.
Qed.

(** ** A bound without conditions on the windows *)

Lemma count_le_sum evs l : (forall e, In e evs -> zlen (filter (fun t => ev_covers t e) l) <= zlen (ev_indexes e)) ->
  zlen (filter (fun t => existsb (ev_covers t) evs) l) <= ev_total evs.
Proof.
  induction evs as [|e evs IH]; intros H.
  - cbn [existsb]. rewrite filter_none by reflexivity. cbn. lia.
  - cbn [existsb ev_total fold_right]. fold (ev_total evs).
    assert (G : forall (f g : Z -> bool) l, zlen (filter (fun t => f t || g t) l) <= zlen (filter f l) + zlen (filter g l)).
    { clear. intros f g l. induction l as [|x l IH]; [cbn; lia|]. cbn [filter]. destruct (f x), (g x); cbn [orb]; rewrite ?zlen_cons; lia. }
    pose proof (G (fun t => ev_covers t e) (fun t => existsb (ev_covers t) evs) l). pose proof (H e (or_introl eq_refl)). specialize (IH (fun e0 He0 => H e0 (or_intror He0))). cbv beta in *. unfold ev_dur at 1. lia.
Qed.

Lemma count_in_windows ws : Forall inside_day ws -> zlen (filter (fun t => existsb (in_win t) ws) (arange 0 1440)) <= total_length ws.
Proof.
  induction ws as [|w ws IH]; intros H.
  - cbn [existsb]. rewrite filter_none by reflexivity. cbn. lia.
  - inversion H; subst. cbn [existsb total_length fold_right]. fold (total_length ws).
    assert (G : forall (f g : Z -> bool) l, zlen (filter (fun t => f t || g t) l) <= zlen (filter f l) + zlen (filter g l)).
    { clear. intros f g l. induction l as [|x l IH]; [cbn; lia|]. cbn [filter]. destruct (f x), (g x); cbn [orb]; rewrite ?zlen_cons; lia. }
    pose proof (G (fun t => in_win t w) (fun t => existsb (in_win t) ws) (arange 0 1440)) as G1. cbv beta in G1. rewrite count_window in G1 by assumption. specialize (IH ltac:(assumption)). lia.
Qed.

Lemma count_le {A} (f g : A -> bool) l : (forall x, In x l -> f x = true -> g x = true) -> zlen (filter f l) <= zlen (filter g l).
Proof.
  induction l as [|x l IH]; intros H; [reflexivity|]. pose proof (H x (or_introl eq_refl)) as Hx. specialize (IH (fun y Hy => H y (or_intror Hy))).
  cbn [filter]. destruct (f x); [rewrite (Hx eq_refl), !zlen_cons; lia|]. destruct (g x); rewrite ?zlen_cons; lia.
Qed.

(** a day in use: the pieces on, added up over the day, are at most number times the drawn time of use *)
Lemma day_bound depth F a pref i peak dt pw d rws rt evs :
  1 <= func_cycle (par a) -> fixed_cycle (par a) <= 0 -> 1 <= number (par a) ->
  may (generate_load_profile_traced depth F a pref i peak dt pw) (Ok (d, UsedDay rws rt evs)) ->
  (Qsum (map (fun t => zq (pieces_at t evs)) (arange 0 1440)) <= zq (number (par a)) * zq rt)%Q /\
  zlen (filter (fun t => idle t (UsedDay rws rt evs)) (arange 0 1440)) <= total_length rws.
Proof.
  intros Hfc Hfx Hnum H.
  destruct (C13_overlay depth F a pref i peak dt pw d rws rt evs ltac:(lia) H) as (Hrw & Hday & Hev & _).
  destruct (C14_total_on_time depth F a pref i peak dt pw d rws rt evs ltac:(lia) H) as (_ & Htot & _ & _).
  pose proof (wp_elim _ _ _ (day_spec F depth a pref i peak dt pw ltac:(lia)) H) as G. cbn in G.
  destruct G as (_ & _ & _ & _ & _ & Hrt & _ & [(cyc & HI & _) _ _ _ _]).
  pose proof (inv_ev _ _ _ _ _ _ _ _ _ _ _ HI) as Hok. rewrite Forall_forall in Hok.
  assert (Hc : forall e, In e evs -> 0 <= ev_coincidence e <= number (par a)).
  { intros e He. destruct (Hok e He) as (s & n & n0 & _ & _ & _ & _ & _ & Hc & _). unfold coincidence_ok in Hc.
    destruct Hc as (p0 & pl & _ & _ & Hc). destruct (C10_coincidence F a _ _ Hnum Hc) as (c & [= ->] & Hr & _). lia. }
  split.
  - apply Qle_trans with (zq (number (par a)) * zq (zlen (filter (fun t => existsb (ev_covers t) evs) (arange 0 1440))))%Q.
    + rewrite <- qsum_count_z, <- qsum_scale. apply qsum_le. intros t _. unfold pieces_at, last_event.
      destruct (find (ev_covers t) (rev evs)) as [e|] eqn:E.
      * apply find_some in E as [E1 E2]. apply in_rev in E1. replace (existsb (ev_covers t) evs) with true by (symmetry; apply existsb_exists; eauto).
        rewrite Qmult_1_r. apply zq_le. apply Hc, E1.
      * assert (0 <= zq (number (par a)))%Q by (apply (proj2 (zq_le 0 _)); lia). unfold zq at 1. change (inject_Z 0) with 0%Q. destruct (existsb (ev_covers t) evs); lra.
    + rewrite !(Qmult_comm (zq (number (par a)))). apply Qmult_le_compat_r; [|apply (proj2 (zq_le 0 _)); lia]. apply zq_le. eapply Z.le_trans; [|exact Htot].
      apply count_le_sum. intros e He. destruct (Hev e He) as (s & n & w & Hr & Hn & Hin & H1 & H2). rewrite Forall_forall in Hday. destruct (Hday w Hin) as [D1 D2].
      pose proof (count_window (s, s + n)) as Hcw. unfold length_of in Hcw. cbn [fst snd] in Hcw.
      assert (Hz : zlen (ev_indexes e) = n) by (rewrite (run_of_minutes_arange _ _ _ Hr), zlen_arange; lia). rewrite Hz.
      replace n with (s + n - s) by lia. rewrite <- Hcw by (unfold inside_day; cbn [fst snd]; lia). apply count_le. intros t _ K.
      unfold ev_covers in K. apply andb_prop in K as [K _]. apply existsb_exists in K as (y & Hy & E). apply Z.eqb_eq in E. subst y.
      rewrite (run_of_minutes_arange _ _ _ Hr) in Hy. apply in_arange in Hy. unfold in_win. cbn [fst snd]. lia.
  - eapply Z.le_trans; [|apply count_in_windows; exact Hday]. apply count_le. intros t _ K. cbn [idle] in K. apply andb_prop in K. tauto.
Qed.

Lemma mean_factor_nonneg L v : (v <= 1)%Q -> (0 <= mean_factor L v)%Q.
Proof.
  intros H. unfold mean_factor. pose proof (steps_pos L) as Hs. assert (1 <= zq (steps L))%Q by (apply (proj2 (zq_le 1 _)); lia).
  assert (v / zq (steps L) <= 1)%Q by (apply Qle_shift_div_r; lra). lra.
Qed.

(** Without any condition on windows, func_cycle, fixed and number: the mean daily energy is at most what number pieces on
    during the whole time of use, and the standby value in all minutes of the windows, give. *)
Theorem C94_at_most L depth F a pref i peak dt pw :
  exact F -> (0 < depth)%nat -> peak <> [] -> 0 <= i < zlen (power a) -> sound_app F a -> allowed a pref dt ->
  fixed_cycle (par a) <= 0 -> flat (par a) <> "yes"%string -> (0 <= pw)%Q -> (thermal_p_var (par a) <= 1)%Q ->
  (expect L (generate_load_profile depth F a pref i peak dt pw)
     (fun r => match r with Ok a' => watt_minutes (daily_use (st a')) | Err _ => 0 end) <=
   use_chance L (occasional_use (par a)) *
     (zq (number (par a)) * pw * mean_factor L (thermal_p_var (par a)) * mean_time L F a + mask_value F * mean_window L F a))%Q.
Proof.
  intros HF Hd Hp Hi Hs HA Hfx Hfl Hpw Hv. pose proof Hs as (Hw & _ & Hfc & Hnum & _).
  set (k := mean_factor L (thermal_p_var (par a))). pose proof (mean_factor_nonneg L _ Hv) as Hk. fold k in Hk.
  assert (Hm : (mask_value F == 1 # 1000)%Q) by (unfold mask_value, flit; apply HF).
  set (day := generate_load_profile_traced depth F a pref i peak dt pw).
  rewrite (expect_ext L _ _ (fun r => Qsum (map (fun t => profile_value t r) (arange 0 1440)))).
  2: { intros [a'|e] _; [reflexivity|]. cbn [profile_value]. rewrite qsum_const. ring. }
  rewrite (expect_qsum L _ (fun t r => profile_value t r)).
  rewrite (qsum_ext _ (fun t => expect L day (fun r => mask_value F * trace_value (fun tr => if idle t tr then 1 else 0) r + k * pw * trace_value (fun tr => zq (pieces_on t tr)) r))%Q).
  2: { intros t Ht. apply in_arange in Ht. rewrite (C90_mean_power L depth F a pref i peak dt pw t HF Hfx Hfl ltac:(lia) ltac:(lia)). cbv zeta. fold day k.
       rewrite expect_add, !expect_scale. reflexivity. }
  rewrite <- (expect_qsum L day (fun t r => mask_value F * trace_value (fun tr => if idle t tr then 1 else 0) r + k * pw * trace_value (fun tr => zq (pieces_on t tr)) r)%Q).
  set (g := fun (rws : list (Z * Z)) (rt : Z) => (mask_value F * zq (total_length rws) + k * pw * (zq (number (par a)) * zq rt))%Q).
  eapply Qle_trans; [apply (expect_le L day _ (trace_value (fun tr => match tr with UsedDay rws rt _ => g rws rt | _ => 0%Q end)))|].
  - apply bp_day.
  - intros r Hr. rewrite qsum_add, !qsum_scale. destruct r as [[d tr]|e].
    2: { cbn [trace_value]. rewrite !qsum_const. apply Qle_of_eq. ring. }
    cbn [trace_value]. destruct tr as [|rws rt|rws rt evs].
    1,2: cbn [idle pieces_on]; unfold zq; change (inject_Z 0) with 0%Q; rewrite !qsum_const; apply Qle_of_eq; ring.
    destruct (day_bound depth F a pref i peak dt pw d rws rt evs Hfc Hfx Hnum Hr) as (M1 & M2).
    rewrite qsum_count_z. cbn [pieces_on]. unfold g. apply Qplus_le_compat.
    + rewrite !(Qmult_comm (mask_value F)). apply Qmult_le_compat_r; [apply zq_le; exact M2|rewrite Hm; discriminate].
    + rewrite !(Qmult_comm (k * pw)). apply Qmult_le_compat_r; [exact M1|]. apply Qmult_le_0_compat; assumption.
  - unfold day. rewrite (day_mix depth F L a pref i peak dt pw _ (grid_exact F L HF) HA). cbn [trace_value].
    rewrite (mean_of_day L depth F a i peak pw g Hs Hfx Hfl (proj2 (proj2 HA)) Hp Hd Hi).
    rewrite (expect_ext L (windows_and_time F a) _ (fun r => mask_value F * match r with Ok x => zq (total_length (fst x)) | Err _ => 0%Q end
       + (k * pw * zq (number (par a))) * match r with Ok x => zq (snd x) | Err _ => 0%Q end)%Q).
    + rewrite expect_add, !expect_scale. fold (mean_time L F a) (mean_window L F a). apply Qle_of_eq. ring.
    + intros [x|e] _; unfold g; ring.
Qed.

(** ** A day of a whole use case *)

Lemma qsum_swap {A B} (g : A -> B -> Q) l m :
  (Qsum (map (fun x => Qsum (map (g x) m)) l) == Qsum (map (fun y => Qsum (map (fun x => g x y) l)) m))%Q.
Proof.
  induction l as [|x l IH].
  - cbn [map]. change (Qsum []) with 0%Q. rewrite qsum_const. ring.
  - cbn [map]. rewrite qsum_cons, IH, <- qsum_add. apply qsum_ext. intros y _. cbn [map]. rewrite qsum_cons. reflexivity.
Qed.

(** one appliance on a day that allows it *)
Lemma steady_energy L depth F a pref i peak dt pw :
  exact F -> (0 < depth)%nat -> peak <> [] -> sound_app F a -> py_index (power a) i = Ok pw -> 0 <= i < zlen (power a) -> allowed a pref dt -> steady a ->
  (expect L (generate_load_profile depth F a pref i peak dt pw)
     (fun r => match r with Ok a' => watt_minutes (daily_use (st a')) | Err _ => 0 end) == use_chance L (occasional_use (par a)) * day_energy L F a pw)%Q.
Proof.
  intros HF Hd Hp Hs Hpw Hi HA (Hft & [Hfl|(Hfl & Hfx & Hfc & Hsep & Htog)]); unfold day_energy.
  - rewrite (proj2 (String.eqb_eq _ _) Hfl). pose proof Hs as (Hw & Hfit & Hfc & _).
    rewrite (expect_ext L _ _ (fun r => Qsum (map (fun t => profile_value t r) (arange 0 1440)))).
    2: { intros [a'|e] _; [reflexivity|]. cbn [profile_value]. rewrite qsum_const. ring. }
    rewrite (expect_qsum L _ (fun t r => profile_value t r)).
    rewrite (qsum_ext _ (fun t => (zq (number (par a)) * pw * use_chance L (occasional_use (par a))) * covered_chance (win a) t)%Q).
    + rewrite qsum_scale. ring.
    + intros t Ht. apply in_arange in Ht. etransitivity; [exact (C91_flat_mean L depth F a pref i peak dt pw pw t (grid_exact F L HF) HA Hfl Hpw Hw Hfit Hfc ltac:(lia))|].
      unfold fmul. rewrite (HF _). ring.
  - rewrite (proj2 (String.eqb_neq _ _) Hfl). apply C94_mean_energy; assumption.
Qed.

(** a member of the user type on a day of the type *)
Lemma member_energy L depth F u a i peak dt pw :
  exact F -> (0 < depth)%nat -> peak <> [] -> sound_app F a -> py_index (power a) i = Ok pw -> 0 <= i < zlen (power a) -> 0 <= user_preference u -> steady a ->
  (expect L (appliance_day depth F u a i peak dt)
     (fun r => match r with Ok a' => watt_minutes (daily_use (st a')) | Err _ => 0 end) ==
   open_share u a dt * (use_chance L (occasional_use (par a)) * day_energy L F a pw))%Q.
Proof.
  intros HF Hd Hp Hs Hpw Hi Hu Hst. set (E := (use_chance L (occasional_use (par a)) * day_energy L F a pw)%Q).
  unfold appliance_day. rewrite expect_bind, Hpw.
  set (can := fun pref : Z => ((pref_index (par a) =? 0) || (pref =? pref_index (par a))) && ((wd_we_type (par a) =? dt) || (wd_we_type (par a) =? 2))).
  assert (K : forall pref, (expect L (pw <- lift (Ok pw) ;; generate_load_profile depth F a pref i peak dt pw)
     (fun r => match r with Ok a' => watt_minutes (daily_use (st a')) | Err _ => 0%Q end) == E * if can pref then 1%Q else 0%Q)%Q).
  { intros pref. cbn [lift bind]. destruct (can pref) eqn:Ec.
    - rewrite (steady_energy L depth F a pref i peak dt pw HF Hd Hp Hs Hpw Hi); [unfold E; ring| |exact Hst].
      unfold can in Ec. unfold allowed. destruct Hst as [Hft _]. lia.
    - rewrite (expect_ext L _ _ (fun r => (fun q => match q with Ok row => watt_minutes row | Err _ => 0%Q end) (profile_of r))) by (intros [a'|e] _; reflexivity).
      rewrite (C86_other_days depth F L a pref i peak dt pw (fun q => match q with Ok row => watt_minutes row | Err _ => 0%Q end)).
      + unfold watt_minutes. rewrite (qsum_ext _ (fun _ => 0%Q)); [rewrite qsum_const; ring|]. intros t _. unfold value_at, zeros. rewrite nth_repeat. reflexivity.
      + unfold allowed. unfold can in Ec. lia. }
  rewrite (expect_ext L _ _ (fun r => match r with Ok pref => E * (if can pref then 1%Q else 0%Q) | Err _ => 0%Q end)%Q).
  2: { intros [pref|e] _; cbn [onward]; [apply K|reflexivity]. }
  unfold draw_pref, open_share. destruct (Z.eqb_spec (user_preference u) 0) as [E0|E0].
  - cbn [expect]. unfold can. rewrite E0. destruct ((wd_we_type (par a) =? dt) || (wd_we_type (par a) =? 2)); cbn [negb]; rewrite ?andb_true_r, ?andb_false_r; [|ring].
    destruct (pref_index (par a) =? 0) eqn:E1; cbn [orb]; [ring|]. replace (0 =? pref_index (par a)) with false by lia.
    replace ((1 <=? pref_index (par a)) && (pref_index (par a) <=? 0)) with false by lia. ring.
  - unfold py_randint. replace (user_preference u + 1 - 1) with (user_preference u) by lia. replace (user_preference u <=? 0) with false by lia. cbn [expect].
    rewrite average_scale. destruct ((wd_we_type (par a) =? dt) || (wd_we_type (par a) =? 2)) eqn:Ew; unfold can; cbn [negb].
    + rewrite (average_ext _ _ (fun j => if (pref_index (par a) =? 0) || (1 + j =? pref_index (par a)) then 1%Q else 0%Q)) by (intros j _; rewrite andb_true_r; reflexivity).
      destruct (pref_index (par a) =? 0) eqn:E1; cbn [orb]; [rewrite average_const by lia; ring|].
      destruct ((1 <=? pref_index (par a)) && (pref_index (par a) <=? user_preference u)) eqn:E2.
      * rewrite (average_ext _ _ (fun j => if j =? pref_index (par a) - 1 then 1%Q else 0%Q)) by (intros j _; replace (1 + j =? pref_index (par a)) with (j =? pref_index (par a) - 1) by lia; reflexivity).
        rewrite average_one by lia. ring.
      * rewrite (average_ext _ _ (fun _ => 0%Q)) by (intros j Hj; replace (1 + j =? pref_index (par a)) with false by lia; reflexivity). rewrite average_const by lia. ring.
    + rewrite (average_ext _ _ (fun _ => 0%Q)) by (intros j _; rewrite andb_false_r; reflexivity). rewrite average_const by lia. ring.
Qed.

(** The mean energy of day [k] of a use case, from the declarations. *)
Theorem C94_use_case L depth F w c arg s n k dt :
  exact F -> (0 < depth)%nat -> set_up c s n -> peak_of c <> [] -> Forall (safe_user F n) (users c) ->
  Forall (fun u => Forall steady (app_list u)) (users c) -> 0 <= k < n -> is_day_type (s + 1440 * k) dt ->
  (expect L (generate_sequential depth F w c arg)
     (fun r => match r with Ok x => watt_minutes (nth (Z.to_nat k) (snd x) []) | Err _ => 0 end) ==
   Qsum (map (fun u => zq (Z.max 0 (num_users u)) *
      Qsum (map (fun a => open_share u a dt * (use_chance L (occasional_use (par a)) * day_energy L F a (nth (Z.to_nat k) (power a) 0))) (app_list u))) (users c)))%Q.
Proof.
  intros HF Hd Hset Hp Hsafe Hst Hk Hdt.
  rewrite (expect_ext L _ _ (fun r => Qsum (map (fun t => match r with Ok x => value_at (nth (Z.to_nat k) (snd x) []) t | Err _ => 0 end) (arange 0 1440)))%Q).
  2: { intros [x|e] _; [reflexivity|]. rewrite qsum_const. ring. }
  rewrite (expect_qsum L _ (fun t r => match r with Ok x => value_at (nth (Z.to_nat k) (snd x) []) t | Err _ => 0%Q end)).
  rewrite (qsum_ext _ (fun t => Qsum (map (fun u => zq (Z.max 0 (num_users u)) * Qsum (map (fun a => mean_use L depth F u a k (peak_of c) dt t) (app_list u))) (users c)))%Q).
  2: { intros t Ht. apply in_arange in Ht. apply (C89_use_case L depth F w c arg s n k t dt HF Hd Hset Hp Hsafe Hk ltac:(lia) Hdt). }
  rewrite qsum_swap. apply qsum_ext. intros u Hu. rewrite qsum_scale. apply Qmult_comp; [reflexivity|]. rewrite qsum_swap. apply qsum_ext. intros a Ha.
  rewrite Forall_forall in Hsafe, Hst. destruct (Hsafe u Hu) as [Hpref Hsa]. pose proof (Hst u Hu) as Hsu. rewrite Forall_forall in Hsa, Hsu.
  destruct (Hsa a Ha) as (Hs & Hlen & _). pose proof (Hsu a Ha) as Hsta.
  assert (Hpw : py_index (power a) k = Ok (nth (Z.to_nat k) (power a) 0%Q)) by (destruct (py_index_exists (power a) k ltac:(lia)) as (x & Hx & _); rewrite Hx; rewrite (PropsEnvelope.py_index_value _ _ _ (proj1 Hk) Hx); reflexivity).
  rewrite <- (member_energy L depth F u a k (peak_of c) dt _ HF Hd Hp Hs Hpw ltac:(lia) Hpref Hsta).
  unfold mean_use. rewrite <- (expect_qsum L (appliance_day depth F u a k (peak_of c) dt) (fun t r => match r with Ok a' => value_at (daily_use (st a')) t | Err _ => 0%Q end)).
  apply expect_ext. intros [a'|e] _; [reflexivity|]. rewrite qsum_const. ring.
Qed.

(** ** A case: ten households with three lamps of 50 W, two hours a day without variation, and two flat lamps every other day *)

Definition calm_lamps : appliance :=
  App (Params "lamps" 3 2 120 0 1 "yes" 0 1 1 "no" 0 0 2) [50%Q; 50%Q] false demo_wins default_cycle default_cycle default_cycle default_dyn.
Definition outside_lamps : appliance :=
  App (Params "outside" 2 1 100 0 10 "no" 0 1 (1 # 2) "yes" 0 0 2) [50%Q; 50%Q] false
    (Wins (480, 600) (0, 0) (0, 0) (1 # 10) 12 0 0) default_cycle default_cycle default_cycle default_dyn.
Definition street : usecase := PropsParallel.for_two_days (blank None None false (15 # 100) None [User "street" 10 0 0 [] [calm_lamps; outside_lamps]]).

Lemma calm_sound : sound_app exact_fm calm_lamps /\ roomy calm_lamps /\ inside_always calm_lamps /\ steady calm_lamps /\ sound_app exact_fm outside_lamps /\ steady outside_lamps.
Proof.
  assert (S1 : sound_app exact_fm calm_lamps).
  { split; [|split; [|split; [|split]]]; [|vm_compute; reflexivity|cbn; lia|cbn; lia|intros [_ C]; cbn in C; lia].
    split; [repeat (apply Forall_cons; [unfold inside_day; cbn; lia|]); apply Forall_nil|]. split; [vm_compute; split; discriminate|]. repeat split; vm_compute; reflexivity. }
  assert (S2 : sound_app exact_fm outside_lamps).
  { split; [|split; [|split; [|split]]]; [|vm_compute; reflexivity|cbn; lia|cbn; lia|intros [C _]; exfalso; apply C; reflexivity].
    split; [repeat (apply Forall_cons; [unfold inside_day; cbn; lia|]); apply Forall_nil|]. split; [vm_compute; split; discriminate|]. repeat split; vm_compute; reflexivity. }
  split; [exact S1|]. split; [|split; [|split; [|split; [exact S2|]]]].
  - unfold roomy. cbv zeta. split; [cbn; split; discriminate|]. split; [cbn; lia|]. split; vm_compute; discriminate.
  - unfold inside_always. cbn. repeat (apply Forall_cons; [cbn; lia|]). apply Forall_nil.
  - split; [discriminate|]. right. split; [discriminate|]. split; [cbn; lia|]. split; [reflexivity|]. split.
    + unfold always_separated. cbn. repeat first [apply FOP_nil | apply FOP_cons | apply Forall_nil | apply Forall_cons]; unfold apart, widened; cbn [fst snd]; lia.
    + right. discriminate.
  - split; [discriminate|]. left. reflexivity.
Qed.

Lemma qsum_reduced l : (Qsum l == fold_right (fun x s => Qred (x + s)) 0 l)%Q.
Proof. induction l as [|x l IH]; [reflexivity|]. rewrite qsum_cons, IH. cbn [fold_right]. symmetry. apply Qred_correct. Qed.

(** the lamps: 3 * 50 W * 120 min, and 1 mW in the other 240 minutes of the windows; the flat ones: 2 * 50 W * 120 min on
    5 days of 8 (random() <= 1/2 for a random() of 8 values) *)
Example C94_street depth w arg : (0 < depth)%nat ->
  (expect small_law (generate_sequential depth exact_fm w street arg)
     (fun r => match r with Ok x => watt_minutes (nth 1 (snd x) []) | Err _ => 0 end) == 10 * (18000 + (24 # 100) + 7500))%Q.
Proof.
  intros Hd. destruct calm_sound as (S1 & R1 & I1 & T1 & S2 & T2).
  assert (HF : exact exact_fm) by exact exact_exact_fm.
  assert (M : (mean_time small_law exact_fm calm_lamps == 120)%Q).
  { destruct (C94_mean_time small_law exact_fm calm_lamps HF (proj1 S1) R1) as [_ H]. etransitivity; [apply H; reflexivity|reflexivity]. }
  assert (W : (mean_window small_law exact_fm calm_lamps == 360)%Q).
  { etransitivity; [apply (C94_mean_window small_law exact_fm calm_lamps (proj1 S1)); [vm_compute; reflexivity|cbn; lia|exact I1]|reflexivity]. }
  assert (Hm : (mask_value exact_fm == 1 # 1000)%Q) by (unfold mask_value, flit; apply HF).
  etransitivity; [refine (C94_use_case small_law depth exact_fm w street arg 1051200000 2 1 1 HF Hd _ _ _ _ _ _)|].
  - apply PropsParallel.for_two_days_set_up.
  - discriminate.
  - apply Forall_cons; [|apply Forall_nil]. split; [cbn; lia|]. apply Forall_cons; [|apply Forall_cons; [|apply Forall_nil]].
    + split; [exact S1|]. split; [cbn; lia|]. intros [_ C]; cbn in C; lia.
    + split; [exact S2|]. split; [cbn; lia|]. intros [C _]; exfalso; apply C; reflexivity.
  - apply Forall_cons; [|apply Forall_nil]. apply Forall_cons; [exact T1|apply Forall_cons; [exact T2|apply Forall_nil]].
  - lia.
  - reflexivity.
  - change (users street) with [User "street" 10 0 0 [] [calm_lamps; outside_lamps]]. cbn [map app_list num_users]. rewrite !qsum_cons. change (Qsum []) with 0%Q.
    assert (E1 : (day_energy small_law exact_fm calm_lamps (nth (Z.to_nat 1) (power calm_lamps) 0) == 18000 + (24 # 100))%Q).
    { unfold day_energy. change (String.eqb (flat (par calm_lamps)) "yes") with false. cbv iota. rewrite M, W, Hm. vm_compute. reflexivity. }
    assert (E2 : (day_energy small_law exact_fm outside_lamps (nth (Z.to_nat 1) (power outside_lamps) 0) == 12000)%Q).
    { unfold day_energy. change (String.eqb (flat (par outside_lamps)) "yes") with true. cbv iota. rewrite qsum_reduced. vm_compute. reflexivity. }
    rewrite E1, E2. vm_compute. reflexivity.
Qed.
