(** * PropsEnergy: the energy of a day (C64) *)
From Verif Require Import Base Wp Tape ListLemmas Utils Appliance User Spec SpecDay SpecUser ProofsUtils ProofsEvent2 ProofsDay ProofsDay2 ProofsDay3
  ProofsAppliance ProofsUser ProofsUser2 PropsBasic PropsUser UseCase SpecUseCase ProofsUseCase PropsUseCase PropsDay PropsPost PropsCoincidence PropsEnvelope ProofsRun PropsRuns PropsPeak.
From Coq Require Import ZifyBool ZifyNat.
Open Scope string_scope.
Open Scope list_scope.
Open Scope Z_scope.

(** ** Specification *)

(** the energy of a profile of one value per minute: power times minutes *)
Definition energy (l : list Q) : Q := Qsum l.

(** the longest time of use of one day: func_time and its variability, but at least one func_cycle *)
Definition longest_use (a : appliance) : Z :=
  Z.max (func_cycle (par a)) (Qfloor (zq (func_time (par a)) * (1 + time_var (par a)) + (1 # 1000))).
(** how many minutes of the day lie in a widened window *)
Definition reachable_minutes (a : appliance) : Z := zlen (filter (may_be_on a) (arange 0 1440)).

(** the energy the appliances of one member use at most on day [k].  Unused minutes of the windows carry 0.001 W. *)
Definition energy_ceiling (a : appliance) (k : Z) : Q :=
  if String.eqb (flat (par a)) "yes" then (zq (reachable_minutes a) * (zq (number (par a)) * value_at (power a) k))%Q
  else (zq (longest_use a) * (zq (number (par a)) * highest_power a k * (1 + thermal_p_var (par a)))
        + zq (reachable_minutes a) * (1 # 1000))%Q.

Definition sane_time (a : appliance) : Prop :=
  sane a /\ 0 <= func_time (par a) <= 1440 /\ (0 <= time_var (par a) <= 1)%Q.

(** ** Proofs *)

Lemma minutes_list l : List.length l = day_minutes -> l = map (value_at l) (arange 0 1440).
Proof.
  intros H. apply (nth_ext _ _ 0%Q 0%Q).
  - rewrite map_length, H. reflexivity.
  - intros n Hn. rewrite H in Hn. change day_minutes with 1440%nat in Hn.
    rewrite (nth_indep (map _ _) 0%Q (value_at l 0)) by (rewrite map_length; change (List.length (arange 0 1440)) with 1440%nat; exact Hn).
    rewrite map_nth. unfold value_at.
    rewrite nth_arange by (cbn; lia). rewrite Z.add_0_l, Nat2Z.id. reflexivity.
Qed.

Lemma count_sum (f : Z -> bool) (c : Q) l : (Qsum (map (fun t => if f t then c else 0%Q) l) == zq (zlen (filter f l)) * c)%Q.
Proof.
  induction l as [|x l IH]; [change (0 == 0 * c)%Q; ring|]. cbn [map filter]. rewrite Qsum_cons, IH.
  destruct (f x); [rewrite zlen_cons, zq_add; change (zq 1) with 1%Q; ring|ring].
Qed.

Lemma Qsum_add {A} (f g : A -> Q) l : (Qsum (map (fun x => f x + g x) l) == Qsum (map f l) + Qsum (map g l))%Q.
Proof. induction l as [|x l IH]; [reflexivity|]. cbn [map]. rewrite !Qsum_cons, IH. ring. Qed.

Lemma Qsum_map_ext {A} (f g : A -> Q) l : (forall x, In x l -> (f x == g x)%Q) -> (Qsum (map f l) == Qsum (map g l))%Q.
Proof.
  induction l as [|x l IH]; intros H; [reflexivity|]. cbn [map]. rewrite !Qsum_cons, IH, (H x (or_introl eq_refl)); [reflexivity|].
  intros y Hy. apply H. right. exact Hy.
Qed.

(** the sum over the minutes of sums over profiles is the sum of the sums of the profiles *)
Lemma Qsum_swap (rows : list (list Q)) l :
  (Qsum (map (fun t => minute_sum t rows) l) == Qsum (map (fun r => Qsum (map (value_at r) l)) rows))%Q.
Proof.
  induction rows as [|r rows IH].
  - cbn [map]. induction l as [|x l IHl]; [reflexivity|]. cbn [map]. rewrite Qsum_cons, IHl. reflexivity.
  - cbn [map]. rewrite Qsum_cons, <- IH, <- Qsum_add. apply Qsum_map_ext. intros x _. unfold minute_sum. cbn [map].
    rewrite Qsum_cons. reflexivity.
Qed.

Lemma energy_minutes l : List.length l = day_minutes -> energy l = Qsum (map (value_at l) (arange 0 1440)).
Proof. intros H. unfold energy. rewrite (minutes_list l H) at 1. reflexivity. Qed.

Lemma energy_le l (f : Z -> Q) : List.length l = day_minutes -> (forall t, 0 <= t < 1440 -> (value_at l t <= f t)%Q) ->
  (energy l <= Qsum (map f (arange 0 1440)))%Q.
Proof.
  intros Hl H. rewrite (energy_minutes l Hl). apply Qsum_map_le. apply Forall_forall. intros t Ht. apply in_arange in Ht. auto.
Qed.

Lemma Qsum_zeros {A} (l : list A) : (Qsum (map (fun _ => 0%Q) l) == 0)%Q.
Proof. induction l as [|x l IH]; [reflexivity|]. cbn [map]. rewrite Qsum_cons, IH. reflexivity. Qed.

Lemma highest_nonneg a k : sane a -> 0 <= k < zlen (power a) -> (0 <= highest_power a k)%Q.
Proof.
  intros [_ (_ & _ & _ & Hp & _)] Hk. unfold highest_power. destruct (_ && _); [apply largest_nonneg|].
  unfold value_at. rewrite Forall_forall in Hp. apply Hp. apply nth_In. unfold zlen in Hk. lia.
Qed.

(** the power of one event *)
Lemma event_ceiling F depth a peak pw k rws rt evs d e t :
  exact F -> sane a -> (0 <= pw)%Q -> pw = value_at (power a) k -> String.eqb (flat (par a)) "yes" = false ->
  used F depth a peak pw rws rt evs d -> In e evs ->
  (0 <= zq (number (par a)) * highest_power a k * (1 + thermal_p_var (par a)))%Q ->
  (ev_power e t <= zq (number (par a)) * highest_power a k * (1 + thermal_p_var (par a)))%Q.
Proof.
  intros HF [Hn Hnn] Hpw0 Epw Hfl [(cyc & HI & Hcyc) _ _ _ _] Hin T0.
  pose proof Hnn as (Hfc & _ & Hth & Hpow & _).
  assert (Hzn : forall c, 1 <= c -> (1 <= zq c)%Q) by (intros c Hc; change 1%Q with (zq 1); apply zq_le; exact Hc).
  unfold highest_power in *. rewrite Hfl in *. cbn [negb] in *. rewrite andb_true_r in *.
  pose proof (inv_ev _ _ _ _ _ _ _ _ _ _ _ HI) as Hev. rewrite Forall_forall in Hev.
  destruct (Hev e Hin) as (s & n & n0 & _ & _ & _ & _ & _ & Hco & Hval).
  pose proof (coincidence_ok_range _ _ _ _ _ _ Hn Hco) as [Hc1 Hc2].
  pose proof (Hzn _ Hc1) as Z1. apply zq_le in Hc2 as Z2.
  match goal with |- (_ <= ?X)%Q => set (top := X) in * end.
  assert (Hall : Forall (fun x => x <= top)%Q (ev_values e)).
  { subst top. destruct (fixed_cycle (par a) >? 0) eqn:Efx.
    - replace (0 <? fixed_cycle (par a)) with true in * by lia.
      destruct Hval as (Hid & _ & Hvals & _). rewrite Hvals.
      pose proof (cycle_drawn_le _ _ _ _ HF Hnn ltac:(lia) (Hcyc ltac:(lia) _ Hid)) as Hl.
      pose proof (cycle_drawn_nonneg _ _ _ _ Hnn (Hcyc ltac:(lia) _ Hid)) as Hl0.
      rewrite Forall_forall in Hl, Hl0 |- *. intros x Hx. apply in_map_iff in Hx. destruct Hx as (y & <- & Hy).
      specialize (Hl y Hy). specialize (Hl0 y Hy). unfold fmul. rewrite (HF _).
      set (big := largest _) in *. clearbody big.
      apply Qle_trans with (big * (1 + thermal_p_var (par a)) * zq (number (par a)))%Q; [|lra].
      apply Qle_trans with (big * (1 + thermal_p_var (par a)) * zq (ev_coincidence e))%Q.
      + apply Qmult_le_compat_r; lra.
      + rewrite !(Qmult_comm (big * _)). apply Qmult_le_compat_r; lra.
    - replace (0 <? fixed_cycle (par a)) with false in * by lia. rewrite <- Epw.
      destruct Hval as (v & -> & Hv). constructor; [|constructor].
      destruct (event_power_exact F a pw _ v HF (conj Hc1 Hc2) Hpw0 Hth Hv) as [_ V]. exact V. }
  unfold ev_power. destruct (nth_in_or_default (Z.to_nat ((t - ev_start e) mod zlen (ev_values e))) (ev_values e) 0%Q) as [Hx| ->]; [|exact T0].
  rewrite Forall_forall in Hall. auto.
Qed.


(** minute-wise bounds give bounds of the energy *)
Lemma energy_on l (on : Z -> bool) top : List.length l = day_minutes ->
  (forall t, 0 <= t < 1440 -> (value_at l t <= if on t then top else 0)%Q) ->
  (energy l <= zq (zlen (filter on (arange 0 1440))) * top)%Q.
Proof.
  intros Hl H. eapply Qle_trans; [exact (energy_le l _ Hl H)|]. rewrite count_sum. apply Qle_refl.
Qed.

Lemma energy_on2 l (on reach : Z -> bool) top low N R : List.length l = day_minutes -> (0 <= top)%Q -> (0 <= low)%Q ->
  zlen (filter on (arange 0 1440)) <= N -> zlen (filter reach (arange 0 1440)) <= R ->
  (forall t, 0 <= t < 1440 -> (value_at l t <= (if on t then top else 0) + (if reach t then low else 0))%Q) ->
  (energy l <= zq N * top + zq R * low)%Q.
Proof.
  intros Hl T0 L0 HN HR H. eapply Qle_trans; [exact (energy_le l _ Hl H)|]. rewrite Qsum_add, !count_sum.
  apply zq_le in HN. apply zq_le in HR. revert HN HR.
  generalize (zq (zlen (filter on (arange 0 1440)))) (zq (zlen (filter reach (arange 0 1440)))). intros x y HN HR.
  assert (x * top <= zq N * top)%Q by (apply Qmult_le_compat_r; assumption).
  assert (y * low <= zq R * low)%Q by (apply Qmult_le_compat_r; assumption). lra.
Qed.

Lemma reachable_nonneg a : 0 <= reachable_minutes a.
Proof. apply zlen_nonneg. Qed.

Strategy expand [minutes_on longest_use reachable_minutes].
Lemma app_day_energy depth F i peak dt pref a l :
  exact F -> sane_time a -> 0 <= i -> app_day depth F i peak dt pref a l -> (energy l <= energy_ceiling a i)%Q.
Proof.
  intros HF (Hs & Hft & Htv) Hi H. pose proof Hs as [Hn Hnn]. pose proof Hnn as (Hfc & _ & Hth & Hpow & _).
  assert (Hz : forall t, 0 <= t < 1440 -> may_be_on a t = false -> value_at l t = 0%Q) by (intros t; apply (app_day_zero _ _ _ _ _ _ _ _ _ Hfc H)).
  pose proof (app_day_len _ _ _ _ _ _ _ _ H) as Hlen.
  destruct H as (pw & a' & Hpw & H & <-).
  assert (Hpw0 : (0 <= pw)%Q) by (apply py_index_in in Hpw; rewrite Forall_forall in Hpow; auto).
  pose proof (py_index_value _ _ _ Hi Hpw) as Epw.
  assert (Hik : 0 <= i < zlen (power a)).
  { unfold py_index in Hpw. cbv zeta in Hpw. replace (i <? 0) with false in Hpw by lia. destruct (_ || _) eqn:E; [discriminate|]. lia. }
  pose proof (highest_nonneg a i Hs Hik) as Hh.
  assert (N1 : (1 <= zq (number (par a)))%Q) by (change 1%Q with (zq 1); apply zq_le; exact Hn).
  apply generate_traced in H. destruct H as (d & tr & -> & H). cbn [st set_st] in *.
  pose proof (wp_elim _ _ _ (day_spec F depth a pref i peak dt pw Hfc) H) as G.
  unfold energy_ceiling.
  assert (T0 : (0 <= zq (number (par a)) * highest_power a i * (1 + thermal_p_var (par a)))%Q)
    by (apply Qmult_le_0_compat; [apply Qmult_le_0_compat; lra|lra]).
  assert (R0 : (0 <= zq (reachable_minutes a))%Q) by (apply (zq_le 0); apply reachable_nonneg).
  assert (RR : zlen (filter (may_be_on a) (arange 0 1440)) <= reachable_minutes a) by (unfold reachable_minutes; apply Z.le_refl).
  assert (U0 : (0 <= zq (longest_use a))%Q) by (apply (zq_le 0); unfold longest_use; lia).
  destruct tr as [|rws rt|rws rt evs].
  - destruct G as [G _].
    assert (E0 : (energy (daily_use d) <= 0)%Q).
    { eapply Qle_trans; [apply (energy_le _ (fun _ => 0%Q) Hlen)|rewrite Qsum_zeros; apply Qle_refl].
      intros t _. rewrite G, value_at_zeros. apply Qle_refl. }
    eapply Qle_trans; [exact E0|]. revert R0. generalize (zq (reachable_minutes a)). intros R R0.
    destruct (String.eqb _ _).
    + rewrite <- Epw. apply Qmult_le_0_compat; [exact R0|]. apply Qmult_le_0_compat; lra.
    + pose proof (Qmult_le_0_compat _ _ U0 T0). lra.
  - destruct G as (_ & Hfl & _ & _ & _ & _ & _ & _ & p & Hp & Hv). rewrite Hfl. rewrite Hpw in Hp. injection Hp as <-.
    eapply Qle_trans; [apply (energy_on _ (may_be_on a) (zq (number (par a)) * pw)%Q Hlen)|].
    + intros t Ht. destruct (may_be_on a t) eqn:E; [|rewrite (Hz t Ht E); apply Qle_refl].
      rewrite value_at_minute, Hv by exact Ht. destruct (existsb _ _); [|apply Qmult_le_0_compat; lra].
      unfold fmul. rewrite (HF _). lra.
    + rewrite <- Epw. apply Qmult_le_compat_r; [apply zq_le; exact RR|]. apply Qmult_le_0_compat; lra.
  - destruct G as (_ & Hfl & Hrw & Hd & Hdr & _ & _ & Hused). rewrite Hfl.
    apply (energy_on2 _ (fun t => existsb (ev_covers t) evs) (may_be_on a)); [exact Hlen|exact T0|discriminate| |exact RR|].
    + pose proof (on_minutes_le evs) as L1. unfold minutes_on in L1. destruct Hused as [_ _ _ Htot _].
      eapply Z.le_trans; [exact L1|]. eapply Z.le_trans; [exact Htot|].
      destruct Hdr as (rw1 & rw2 & rw3 & -> & Hdr). exact (C07_upper_bound F a rw1 rw2 rw3 rt Hd Hfc Hft Htv Hdr).
    + intros t Ht. pose proof Hused as [(cyc & HI & Hcyc) _ _ _ _].
      destruct (last_event t evs) as [e|] eqn:El.
      * pose proof El as El'. unfold last_event in El'. apply find_some in El'. destruct El' as [Hin Hcov]. apply in_rev in Hin.
        replace (existsb (ev_covers t) evs) with true by (symmetry; apply existsb_exists; eauto).
        rewrite value_at_minute, (inv_over _ _ _ _ _ _ _ _ _ _ _ HI t Ht). unfold overlay. rewrite El.
        pose proof (event_ceiling F depth a peak pw i rws rt evs d e t HF Hs Hpw0 Epw Hfl Hused Hin T0) as B.
        destruct (may_be_on a t); lra.
      * match goal with |- (_ <= ?X + _)%Q => assert (B : (0 <= X)%Q) by (destruct (existsb _ _); [exact T0|apply Qle_refl]) end.
        destruct (may_be_on a t) eqn:E; [|rewrite (Hz t Ht E); lra].
        rewrite value_at_minute, (inv_over _ _ _ _ _ _ _ _ _ _ _ HI t Ht). unfold overlay. rewrite El.
        destruct (existsb (in_win t) rws); [|lra]. unfold mask_value, flit. rewrite (HF _). lra.
Qed.

Lemma energy_sum_rows F rows : exact F -> Forall (fun l => List.length l = day_minutes) rows ->
  (energy (sum_rows F rows) == Qsum (map energy rows))%Q.
Proof.
  intros HF Hl. rewrite energy_minutes by (apply sum_rows_len; exact Hl).
  rewrite (Qsum_map_ext _ (fun t => minute_sum t rows)).
  - rewrite Qsum_swap. apply Qsum_map_ext. intros r Hr. rewrite Forall_forall in Hl. rewrite (energy_minutes r (Hl r Hr)). reflexivity.
  - intros t Ht. apply in_arange in Ht. apply sum_rows_exact; assumption.
Qed.

Lemma user_day_energy depth F i peak dt u l :
  exact F -> Forall sane_time (app_list u) -> 0 <= i -> user_day depth F i peak dt u l ->
  (energy l <= zq (Z.max 0 (num_users u)) * Qsum (map (fun a => energy_ceiling a i) (app_list u)))%Q.
Proof.
  intros HF Hs Hi H.
  destruct H as (u' & H & <-). destruct (C25_aggregated _ _ _ _ _ _ _ H) as (_ & ms & Hlen & Hms & Hload & _).
  assert (Hml : forall m, In m ms -> Forall (fun l => List.length l = day_minutes) (snd m)) by (intros m; apply (member_rows_len _ _ _ _ _ _ _ _ Hms)).
  rewrite Hload, energy_sum_rows; [|exact HF|].
  2:{ apply Forall_forall. intros r Hin. apply in_map_iff in Hin as (m & <- & Hm). apply sum_rows_len. auto. }
  rewrite <- Hlen. rewrite map_map. set (S1 := Qsum (map (fun a => energy_ceiling a i) (app_list u))).
  clear Hload Hlen H. induction Hms as [|m ms [_ Hm] _ IH].
  - change (0 <= 0 * S1)%Q. rewrite Qmult_0_l. apply Qle_refl.
  - cbn [map]. rewrite Qsum_cons, zlen_cons, zq_add. specialize (IH (fun m' H' => Hml m' (or_intror H'))).
    rewrite energy_sum_rows; [|exact HF|apply Hml; left; reflexivity].
    assert (Hone : (Qsum (map energy (snd m)) <= S1)%Q).
    { apply Qsum_forall2. clear -Hm HF Hs Hi. induction Hm as [|a l al ll H _ IH]; [constructor|].
      inversion Hs; subst. constructor; [|auto]. eapply app_day_energy; eassumption. }
    change (zq 1) with 1%Q. lra.
Qed.

(** ** C64 *)

(** The energy of each simulated day is at most the sum over the users of num_users times the sum of the energies their
    appliances use at most *)
Theorem C64_energy_bound depth F w c arg s n c' rows k :
  exact F -> set_up c s n -> Forall (fun u => Forall sane_time (app_list u)) (users c) ->
  may (generate_sequential depth F w c arg) (Ok (c', rows)) -> 0 <= k < n ->
  (energy (nth (Z.to_nat k) rows [])
   <= Qsum (map (fun u => zq (Z.max 0 (num_users u)) * Qsum (map (fun a => energy_ceiling a k) (app_list u))) (users c)))%Q.
Proof.
  intros HF Hu Hs H Hk. destruct (C28_rows _ _ _ _ _ _ _ _ _ Hu H) as (_ & _ & Hr).
  destruct (Hr k Hk) as (dt & loads & _ & Hl & ->).
  rewrite energy_sum_rows; [|exact HF|].
  2:{ clear -Hl. induction Hl; constructor; [eapply user_day_len; eassumption|exact IHHl]. }
  revert Hs. clear H Hr. induction Hl as [|u l us ls H _ IH]; intros Hs; [apply Qle_refl|].
  inversion Hs as [|? ? Hs1 Hs2]; subst. specialize (IH Hs2).
  pose proof (user_day_energy depth F k (peak_of c) dt u l HF Hs1 ltac:(lia) H) as B.
  cbn [map]. rewrite !Qsum_cons. lra.
Qed.

(** *** The exact energy of a fixed appliance *)

Lemma filter_false {A} (l : list A) : filter (fun _ => false) l = [].
Proof. induction l; auto. Qed.

Lemma window_minutes ws : Forall inside_day ws -> pairwise_disjoint (nonempty ws) ->
  zlen (filter (fun t => existsb (in_win t) ws) (arange 0 1440)) = total_length ws.
Proof.
  induction ws as [|w ws IH]; intros Hd Hp.
  - cbn [existsb total_length fold_right]. rewrite filter_false. reflexivity.
  - inversion Hd as [|? ? Hw Hd']; subst. cbn [existsb total_length fold_right]. fold (total_length ws). unfold length_of.
    assert (Hone : zlen (filter (fun t => in_win t w) (arange 0 1440)) = snd w - fst w).
    { destruct Hw as [Hw1 Hw2]. rewrite <- (filter_ext (fun t => existsb (Z.eqb t) (arange (fst w) (snd w)))).
      - rewrite count_exact; [rewrite zlen_arange; lia|apply NoDup_arange|apply NoDup_arange|].
        intros x Hx. apply in_arange in Hx. apply in_arange. lia.
      - intros t. rewrite existsb_arange. reflexivity. }
    unfold nonempty in Hp. cbn [filter] in Hp. fold (nonempty ws) in Hp.
    destruct (fst w =? snd w) eqn:E; cbn [negb] in Hp.
    + rewrite <- (IH Hd' Hp). replace (snd w - fst w) with 0 by lia. rewrite Z.add_0_l. f_equal. apply filter_ext. intros t.
      replace (in_win t w) with false by (unfold in_win; lia). reflexivity.
    + inversion Hp as [|? ? Hh Ht]; subst. rewrite filter_or_disj; [rewrite Hone, (IH Hd' Ht); reflexivity|].
      intros t _ H1 H2. apply existsb_exists in H2 as (w' & Hw' & H2). rewrite Forall_forall in Hh.
      assert (G : disjoint w w'). { apply Hh. apply filter_In. split; [exact Hw'|]. unfold in_win in H2. lia. }
      unfold disjoint, in_win in *. lia.
Qed.

(** With separated windows and no variation of the power, an appliance whose units are always on together uses its
    power times the time of use, and 0.001 W in the other minutes of its windows. *)
Theorem C64_fixed_energy depth F a pref i peak dt pw d rws rt evs :
  exact F -> 1 <= func_cycle (par a) -> fixed_cycle (par a) <= 0 -> fixed (par a) <> "no" -> 1 <= number (par a) ->
  (0 <= pw)%Q -> (thermal_p_var (par a) == 0)%Q -> separated (nonempty rws) ->
  may (day depth F a pref i peak dt pw) (Ok (d, UsedDay rws rt evs)) ->
  (energy (daily_use d) ==
   zq (ev_total evs) * (zq (number (par a)) * pw) + zq (total_length rws - ev_total evs) * (1 # 1000))%Q /\
  (ev_total evs = rt \/ forall s, ~ free_run rws evs s (func_cycle (par a))).
Proof.
  intros HF Hfc Hfx Hfd Hn Hp Htv Hsep H. assert (Hfc0 : 0 <= func_cycle (par a)) by lia.
  destruct (C15_exact_on_time _ _ _ _ _ _ _ _ _ _ _ _ Hfc Hsep H) as [Hno Hfull]. split; [|exact Hfull].
  destruct (C13_overlay _ _ _ _ _ _ _ _ _ _ _ _ Hfc0 H) as (_ & Hd & Hruns & Hov).
  assert (Htv' : (0 <= thermal_p_var (par a) <= 1)%Q) by (rewrite Htv; split; discriminate).
  set (P := (zq (number (par a)) * pw)%Q).
  assert (Hval : forall e, In e evs -> exists v, ev_values e = [v] /\ (v == P)%Q).
  { intros e He. destruct (C17_event_power_own _ _ _ _ _ _ _ _ _ _ _ _ e HF Hfc0 Hfx Hn Hp Htv' H He) as (v & Ev & Hv).
    exists v. split; [exact Ev|]. rewrite (C59_fixed _ _ _ _ _ _ _ _ _ _ _ _ e Hfc0 Hfd Hn H He) in Hv. fold P in Hv.
    rewrite Htv in Hv. apply Qle_antisym; lra. }
  assert (Hin : forall e, In e evs -> ev_values e <> [] /\ exists s n, run_of_minutes (ev_indexes e) s n /\ 0 <= s /\ s + n <= 1440).
  { intros e He. destruct (Hval e He) as (v & Ev & _). split; [rewrite Ev; discriminate|].
    destruct (Hruns e He) as (s & n & w & Hr & Hn1 & Hw & Hs & He'). exists s, n. split; [exact Hr|].
    rewrite Forall_forall in Hd. destruct (Hd w Hw) as [D1 D2]. lia. }
  pose proof (C15_minutes_on evs Hno Hin) as Hon. unfold minutes_on in Hon.
  assert (Hdisj : pairwise_disjoint (nonempty rws)).
  { clear -Hsep. unfold separated, pairwise_disjoint in *. induction Hsep as [|w ws Hw _ IH]; constructor; [|exact IH].
    eapply Forall_impl; [|exact Hw]. intros w' [Hx|Hx]; [left|right]; lia. }
  pose proof (window_minutes rws Hd Hdisj) as Hwm.
  assert (Hlen : List.length (daily_use d) = day_minutes).
  { assert (G : may (generate_load_profile depth F a pref i peak dt pw) (Ok (set_st a d))) by (apply C12_trace; eauto).
    destruct (C12_silent_outside_windows _ _ _ _ _ _ _ _ _ Hfc0 G) as [E _]. cbn [st set_st] in E.
    unfold zlen in E. change day_minutes with (Z.to_nat 1440). lia. }
  rewrite (energy_minutes _ Hlen).
  rewrite (Qsum_map_ext _ (fun t => (if existsb (ev_covers t) evs then P - (1 # 1000) else 0) + (if existsb (in_win t) rws then 1 # 1000 else 0))%Q).
  - rewrite Qsum_add, !count_sum. rewrite Hon, Hwm. generalize (ev_total evs) (total_length rws). intros x y.
    unfold Z.sub. rewrite zq_add, zq_opp. ring.
  - intros t Ht. apply in_arange in Ht. specialize (Hov t Ht). destruct (last_event t evs) as [e|] eqn:El.
    + unfold last_event in El. apply find_some in El. destruct El as [Hi Hcov]. apply in_rev in Hi.
      replace (existsb (ev_covers t) evs) with true by (symmetry; apply existsb_exists; eauto).
      replace (existsb (in_win t) rws) with true.
      * destruct (Hval e Hi) as (v & Ev & Hv). rewrite Hov. unfold ev_power. rewrite Ev. change (zlen [v]) with 1.
        rewrite Z.mod_1_r. cbn [Z.to_nat nth]. rewrite Hv. ring.
      * symmetry. apply existsb_exists. destruct (Hruns e Hi) as (s & n & w & Hr & Hn1 & Hw & Hs & He').
        exists w. split; [exact Hw|]. unfold ev_covers in Hcov. apply andb_prop in Hcov as [Hcov _].
        rewrite (run_of_minutes_arange _ _ _ Hr), existsb_arange in Hcov. unfold in_win. lia.
    + assert (Hno' : existsb (ev_covers t) evs = false).
      { destruct (existsb (ev_covers t) evs) eqn:E; [|reflexivity]. apply existsb_exists in E as (e & He & Hc).
        unfold last_event in El. pose proof (find_none _ _ El e) as G. rewrite G in Hc; [discriminate|]. apply in_rev in He. exact He. }
      rewrite Hno'. destruct Hov as [O1 O2]. destruct (existsb (in_win t) rws) eqn:E.
      * apply existsb_in_win in E. rewrite (O1 E). unfold mask_value, flit. rewrite (HF _). ring.
      * rewrite O2; [reflexivity|]. intros G. apply existsb_in_win in G. congruence.
Qed.

(** the second day of [cottage]: the television is on 120 minutes; the day of one television *)
Example C64_case : Forall (fun u => Forall sane_time (app_list u)) [cottage] /\ (energy_ceiling all_on 1 == 132 * 180 + 360 * (1 # 1000))%Q /\
  exists d rws rt evs, may (day 5 exact_fm all_on 0 1 (arange 500 521) 0 60%Q) (Ok (d, UsedDay rws rt evs)) /\
    separated (nonempty rws) /\ ev_total evs = 120 /\ rt = 120 /\ total_length rws = 360.
Proof.
  split; [repeat constructor; vm_compute; discriminate|]. split; [vm_compute; reflexivity|].
  assert (E : match run zero_gen (day 5 exact_fm all_on 0 1 (arange 500 521) 0 60%Q) tt with
              | (Ok (d, UsedDay rws rt evs), _) => (rws, ev_total evs, rt) = ([(480, 600); (1080, 1320); (0, 0)], 120, 120)
              | _ => False end) by (vm_compute; reflexivity).
  destruct (run zero_gen _ tt) as [[[d tr]|e] s'] eqn:ER; [|contradiction]. destruct tr as [|rws rt|rws rt evs]; [contradiction|contradiction|].
  injection E as -> E2 ->. exists d, [(480, 600); (1080, 1320); (0, 0)], 120, evs.
  split; [exact (run_result_may zero_gen _ tt _ _ (bp_day _ _ _ _ _ _ _ _) ER)|].
  split; [|split; [exact E2|split; reflexivity]]. repeat constructor.
Qed.
