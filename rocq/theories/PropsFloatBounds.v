(** * PropsFloatBounds: the envelope (C63) and the energy (C64) in floating-point arithmetic *)
From Verif Require Import Base Wp Tape ListLemmas Utils Appliance User Spec SpecDay SpecUser ProofsUtils ProofsEvent2 ProofsDay ProofsDay2 ProofsDay3
  ProofsAppliance ProofsUser ProofsUser2 PropsBasic PropsUser UseCase SpecUseCase ProofsUseCase PropsUseCase PropsDay PropsPost PropsCoincidence PropsEnvelope ProofsRun PropsRuns PropsPeak
  PropsEnergy PropsTotal PropsInit ProofsEq PropsPopulation ProofsTabular ProofsParallel PropsParallel PropsParallelDay FloatSum PropsRounding F64 PropsStandalone.
From Coq Require Import ZifyBool ZifyNat Permutation Lqa Qabs.
Open Scope string_scope.
Open Scope list_scope.
Open Scope Z_scope.

(** ** Specification *)

(** how many appliances there are in all: num_users times number, added up *)
Definition units (us : list user) : Z :=
  fold_right (fun u n => Z.max 0 (num_users u) * fold_right (fun a m => number (par a) + m) 0 (app_list u) + n) 0 us.

(** the roundings behind one minute of one day *)
Definition roundings (us : list user) : Z := additions us + units us.

(** at most [top], up to the rounding of [n] operations, on [m] values *)
Definition at_most (n m : Z) (top x : Q) : Prop :=
  (x <= top + (top + zq (m * n)) * ((1 # 2 ^ 44) + zq n * (1 # 2 ^ 51)))%Q.

(** ** One appliance *)

Definition sl : Q := 1 # 2 ^ 44.
(** one float operation *)
Lemma up F x b : (0 <= x <= b)%Q -> (rnd F x <= b + (b + 1) * (1 # 2 ^ 53))%Q.
Proof.
  intros [H0 H1]. destruct (rnd_err_bounds F x b) as [_ G]; [lra|]. pose proof eta_le_eps as He. change eps53 with (1 # 2 ^ 53)%Q in *. lra.
Qed.

Lemma event_ceiling_float F depth a peak pw k rws rt evs d e t :
  sane a -> (0 <= pw)%Q -> pw = value_at (power a) k -> String.eqb (flat (par a)) "yes" = false ->
  used F depth a peak pw rws rt evs d -> In e evs ->
  (0 <= zq (number (par a)) * highest_power a k * (1 + thermal_p_var (par a)))%Q ->
  (ev_power e t <= zq (number (par a)) * highest_power a k * (1 + thermal_p_var (par a))
      + (zq (number (par a)) * highest_power a k * (1 + thermal_p_var (par a)) + zq (number (par a))) * sl)%Q.
Proof.
  intros [Hn Hnn] Hpw0 Epw Hfl [(cyc & HI & Hcyc) _ _ _ _] Hin T0.
  pose proof Hnn as (Hfc & _ & Hth & Hpow & C1 & C2 & C3).
  assert (Hzn : forall c, 1 <= c -> (1 <= zq c)%Q) by (intros c Hc; change 1%Q with (zq 1); apply zq_le; exact Hc).
  unfold highest_power in *. rewrite Hfl in *. cbn [negb] in *. rewrite andb_true_r in *.
  pose proof (inv_ev _ _ _ _ _ _ _ _ _ _ _ HI) as Hev. rewrite Forall_forall in Hev.
  destruct (Hev e Hin) as (s & n & n0 & _ & _ & _ & _ & _ & Hco & Hval).
  pose proof (coincidence_ok_range _ _ _ _ _ _ Hn Hco) as [Hc1 Hc2].
  pose proof (Hzn _ Hc1) as Z1. apply zq_le in Hc2 as Z2. pose proof (Hzn _ Hn) as N1.
  match goal with |- (_ <= ?X + _)%Q => set (top := X) in * end.
  assert (U0 : (0 <= top + (top + zq (number (par a))) * sl)%Q).
  { assert (0 <= (top + zq (number (par a))) * sl)%Q by (apply Qmult_le_0_compat; [lra|discriminate]). lra. }
  assert (Hall : Forall (fun x => x <= top + (top + zq (number (par a))) * sl)%Q (ev_values e)).
  { subst top. destruct (fixed_cycle (par a) >? 0) eqn:Efx.
    - replace (0 <? fixed_cycle (par a)) with true in * by lia.
      destruct Hval as (Hid & _ & Hvals & _). rewrite Hvals.
      pose proof (cycle_drawn_nonneg _ _ _ _ Hnn (Hcyc ltac:(lia) _ Hid)) as Hl0.
      assert (Hl : Forall (fun x => x <= largest (flat_map (fun c => [cp1 c; cp2 c]) (firstn (Z.to_nat (fixed_cycle (par a))) [cyc1 a; cyc2 a; cyc3 a]))
                        * (1 + thermal_p_var (par a) + rv_slack) + eta64)%Q (cyc (ev_cycle e))).
      { destruct (Hcyc ltac:(lia) _ Hid) as (p1 & p2 & H1 & H2 & H3). set (big := largest _) in *.
        assert (HC : nonneg_cycle (declared_cycle a (ev_cycle e))).
        { unfold declared_cycle. repeat match goal with |- context [if ?b then _ else _] => destruct b end; assumption. }
        destruct HC as [Ha Hb].
        assert (HIn : In (declared_cycle a (ev_cycle e)) (firstn (Z.to_nat (fixed_cycle (par a))) [cyc1 a; cyc2 a; cyc3 a])).
        { unfold declared_cycle. destruct (fixed_cycle (par a) >=? 3) eqn:E3.
          - rewrite firstn_all2 by (cbn [List.length]; lia). repeat match goal with |- context [if ?b then _ else _] => destruct b end; cbn; auto.
          - destruct (fixed_cycle (par a) =? 2) eqn:E2.
            + replace (Z.to_nat (fixed_cycle (par a))) with 2%nat by lia. destruct (ev_cycle e =? 2); cbn; auto.
            + replace (Z.to_nat (fixed_cycle (par a))) with 1%nat by lia. cbn; auto. }
        assert (L1 : (cp1 (declared_cycle a (ev_cycle e)) <= big)%Q).
        { apply largest_ge. apply in_flat_map. eexists. split; [exact HIn|]. cbn; auto. }
        assert (L2 : (cp2 (declared_cycle a (ev_cycle e)) <= big)%Q).
        { apply largest_ge. apply in_flat_map. eexists. split; [exact HIn|]. cbn; auto. }
        destruct (wp_elim _ _ _ (random_variation_close F _ _ Hth Ha) H1) as (x1 & E1 & _ & P1). injection E1 as ->.
        destruct (wp_elim _ _ _ (random_variation_close F _ _ Hth Hb) H2) as (x2 & E2 & _ & P2). injection E2 as ->.
        assert (Rv : (0 <= 1 + thermal_p_var (par a) + rv_slack)%Q) by (assert (0 <= rv_slack)%Q by discriminate; lra).
        assert (B1 : (x1 <= big * (1 + thermal_p_var (par a) + rv_slack) + eta64)%Q).
        { pose proof (Qmult_le_compat_r _ _ _ L1 Rv). lra. }
        assert (B2 : (x2 <= big * (1 + thermal_p_var (par a) + rv_slack) + eta64)%Q).
        { pose proof (Qmult_le_compat_r _ _ _ L2 Rv). lra. }
        assert (K : forall p q n m, (p <= big * (1 + thermal_p_var (par a) + rv_slack) + eta64)%Q -> (q <= big * (1 + thermal_p_var (par a) + rv_slack) + eta64)%Q ->
           Forall (fun x => x <= big * (1 + thermal_p_var (par a) + rv_slack) + eta64)%Q (repeat p n ++ repeat q m)).
        { intros p q n' m Hp Hq. apply Forall_app. split; apply Forall_forall; intros x Hx; apply repeat_spec in Hx; subst; assumption. }
        destruct H3 as [H3|[_ H3]].
        - destruct (wp_elim _ _ _ (duty_cycle_shape _ _ _ _ _ _) H3) as [E|(n1 & n2 & E)]; [discriminate|].
          injection E as E. rewrite E. apply K; assumption.
        - destruct (wp_elim _ _ _ (random_choice_shape _ _ _ _ _ _) H3) as [E|(n1 & n2 & [E|E])]; [discriminate| |];
          injection E as E; rewrite E; apply K; assumption. }
      rewrite Forall_forall in Hl, Hl0 |- *. intros x Hx. apply in_map_iff in Hx. destruct Hx as (y & <- & Hy).
      specialize (Hl y Hy). specialize (Hl0 y Hy).
      assert (Hb0 : (0 <= largest (flat_map (fun c => [cp1 c; cp2 c]) (firstn (Z.to_nat (fixed_cycle (par a))) [cyc1 a; cyc2 a; cyc3 a])))%Q) by apply largest_nonneg.
      set (big := largest _) in *. clearbody big. unfold fmul.
      set (N := zq (number (par a))) in *. set (C := zq (ev_coincidence e)) in *. set (th := thermal_p_var (par a)) in *.
      assert (Y : (0 <= y * C <= N * big * (1 + th) * (1 + rv_slack) + N * eta64)%Q).
      { split; [apply Qmult_le_0_compat; lra|]. clear - Hl Hl0 Hb0 Z1 Z2 N1 Hth.
        assert (Re : (0 <= eta64)%Q) by discriminate. assert (Rs : (0 <= rv_slack)%Q) by discriminate.
        set (r := rv_slack) in *. set (h := eta64) in *. clearbody r h th N C.
        assert (W : (0 <= big * (1 + th + r) + h)%Q) by (assert (0 <= big * (1 + th + r))%Q by (apply Qmult_le_0_compat; lra); lra).
        apply Qle_trans with ((big * (1 + th + r) + h) * C)%Q; [apply Qmult_le_compat_r; lra|].
        apply Qle_trans with ((big * (1 + th + r) + h) * N)%Q; [rewrite !(Qmult_comm (big * _ + h)); apply Qmult_le_compat_r; lra|].
        assert (Z : (0 <= N * big * th * r)%Q) by (repeat apply Qmult_le_0_compat; lra). lra. }
      pose proof (up F _ _ Y) as G. eapply Qle_trans; [exact G|].
      set (T := (N * big * (1 + th))%Q) in *. assert (Eh : (N * eta64 <= N * (1 # 2 ^ 53))%Q) by (rewrite !(Qmult_comm N); apply Qmult_le_compat_r; [discriminate|lra]).
      assert (E1 : (sl == 512 * (1 # 2 ^ 53))%Q) by reflexivity. assert (E2 : (rv_slack == 64 * (1 # 2 ^ 53))%Q) by reflexivity. rewrite E1, E2.
      assert (E3 : (0 < 1 # 2 ^ 53)%Q) by reflexivity. assert (E4 : (1 # 2 ^ 53 <= 1 # 1000000)%Q) by discriminate.
      set (h := (N * eta64)%Q) in *. set (e0 := (1 # 2 ^ 53)%Q) in *. clearbody h T N e0. clear - T0 Eh N1 E3 E4.
      assert (K1 : (0 <= T * e0)%Q) by (apply Qmult_le_0_compat; lra). assert (K2 : (T * e0 * e0 <= T * e0 * 1)%Q) by (rewrite !(Qmult_comm (T * e0)); apply Qmult_le_compat_r; lra).
      assert (K3 : (h * e0 <= N * e0 * e0)%Q) by (apply Qmult_le_compat_r; lra).
      assert (K5 : (0 <= N * e0)%Q) by (apply Qmult_le_0_compat; lra). assert (K4 : (N * e0 * e0 <= N * e0 * 1)%Q) by (rewrite !(Qmult_comm (N * e0)); apply Qmult_le_compat_r; lra).
      assert (K6 : (1 * e0 <= N * e0)%Q) by (apply Qmult_le_compat_r; lra). lra.
    - replace (0 <? fixed_cycle (par a)) with false in * by lia. rewrite <- Epw in T0 |- *.
      destruct Hval as (v & -> & Hv). constructor; [|constructor].
      destruct (event_power_float F a pw _ v (conj Hc1 Hc2) Hpw0 Hth Hv) as (_ & _ & V). cbv zeta in V.
      eapply Qle_trans; [exact V|]. set (N := zq (number (par a))) in *. set (th := thermal_p_var (par a)) in *.
      assert (X : (N * pw <= N * pw * (1 + th))%Q). { assert (0 <= N * pw * th)%Q by (apply Qmult_le_0_compat; [apply Qmult_le_0_compat; lra|lra]). lra. }
      assert (E1 : (sl == 2 * pw_slack)%Q) by reflexivity. rewrite E1. assert (E3 : (0 < pw_slack)%Q) by reflexivity. set (p0 := pw_slack) in *. clearbody p0. set (m := (N * pw)%Q) in *. set (T := (m * (1 + th))%Q) in *. clearbody T m N. clear -X N1 T0 E3.
      assert ((m + 1) * p0 <= (T + N) * p0)%Q by (apply Qmult_le_compat_r; lra). assert (0 <= (T + N) * p0)%Q by (apply Qmult_le_0_compat; lra). lra. }
  unfold ev_power. destruct (nth_in_or_default (Z.to_nat ((t - ev_start e) mod zlen (ev_values e))) (ev_values e) 0%Q) as [Hx| ->]; [|exact U0].
  rewrite Forall_forall in Hall. auto.
Qed.

Lemma filter_length_le {A} (f : A -> bool) l : (List.length (filter f l) <= List.length l)%nat.
Proof. induction l as [|x l IH]; [apply Nat.le_refl|]. cbn [filter]. destruct (f x); cbn [List.length]; lia. Qed.

Lemma sl_pos : (0 < sl)%Q. Proof. reflexivity. Qed.

Lemma up_sl F x b N : (1 <= N)%Q -> (0 <= x <= b)%Q -> (rnd F x <= b + (b + N) * sl)%Q.
Proof.
  intros HN H. eapply Qle_trans; [exact (up F x b H)|]. assert (E : (sl == 512 * (1 # 2 ^ 53))%Q) by reflexivity. rewrite E.
  assert (P : (0 < 1 # 2 ^ 53)%Q) by reflexivity. set (e := (1 # 2 ^ 53)%Q) in *. clearbody e.
  assert ((b + 1) * e <= (b + N) * e)%Q by (apply Qmult_le_compat_r; lra). assert (0 <= (b + N) * e)%Q by (apply Qmult_le_0_compat; lra). lra.
Qed.

Lemma slack_mono b c N : (b <= c)%Q -> (b + (b + N) * sl <= c + (c + N) * sl)%Q.
Proof. intros H. pose proof sl_pos. assert ((b + N) * sl <= (c + N) * sl)%Q by (apply Qmult_le_compat_r; lra). lra. Qed.

Lemma slack_nonneg b N : (0 <= b)%Q -> (0 <= N)%Q -> (0 <= b + (b + N) * sl)%Q.
Proof. intros H HN. pose proof sl_pos. assert (0 <= (b + N) * sl)%Q by (apply Qmult_le_0_compat; lra). lra. Qed.

Lemma app_day_ceiling_float depth F i peak dt pref a l t :
  sane a -> 0 <= i -> app_day depth F i peak dt pref a l -> 0 <= t < 1440 ->
  (value_at l t <= ceiling a i t + (ceiling a i t + zq (number (par a))) * sl)%Q.
Proof.
  intros Hs Hi H Ht. pose proof Hs as [Hn Hnn]. pose proof Hnn as (Hfc & _ & Hth & Hpow & _).
  assert (N1 : (1 <= zq (number (par a)))%Q) by (change 1%Q with (zq 1); apply zq_le; exact Hn).
  unfold ceiling. destruct (may_be_on a t) eqn:Eon; [|rewrite (app_day_zero _ _ _ _ _ _ _ _ _ Hfc H Ht Eon); apply slack_nonneg; lra].
  destruct H as (pw & a' & Hpw & H & <-).
  assert (Hpw0 : (0 <= pw)%Q) by (apply py_index_in in Hpw; rewrite Forall_forall in Hpow; auto).
  pose proof (py_index_value _ _ _ Hi Hpw) as Epw.
  assert (Hik : 0 <= i < zlen (power a)).
  { unfold py_index in Hpw. cbv zeta in Hpw. replace (i <? 0) with false in Hpw by lia. destruct (_ || _) eqn:E; [discriminate|]. lia. }
  pose proof (highest_nonneg a i Hs Hik) as Hh.
  assert (T0 : (0 <= zq (number (par a)) * highest_power a i * (1 + thermal_p_var (par a)))%Q)
    by (apply Qmult_le_0_compat; [apply Qmult_le_0_compat; lra|lra]).
  apply generate_traced in H. destruct H as (d & tr & -> & H). cbn [st set_st].
  pose proof (wp_elim _ _ _ (day_spec F depth a pref i peak dt pw Hfc) H) as G.
  rewrite value_at_minute.
  match goal with |- (_ <= ?X + _)%Q => set (top := X) end.
  assert (P0 : (0 <= top)%Q) by apply largest_nonneg.
  assert (T1 : (1 # 1000 <= top)%Q) by (apply largest_ge; cbn; auto).
  assert (T2 : (zq (number (par a)) * highest_power a i * (1 + thermal_p_var (par a)) <= top)%Q) by (apply largest_ge; cbn; auto).
  assert (U0 : (0 <= top + (top + zq (number (par a))) * sl)%Q) by (apply slack_nonneg; lra).
  clearbody top.
  destruct tr as [|rws rt|rws rt evs].
  - destruct G as [G _]. rewrite G, at_zeros. exact U0.
  - destruct G as (_ & Hfl & _ & _ & _ & _ & _ & _ & p & Hp & Hv). rewrite Hv by exact Ht.
    destruct (existsb _ _); [|exact U0]. rewrite Hpw in Hp. injection Hp as <-.
    unfold highest_power in T2. rewrite Hfl, andb_false_r in T2. rewrite <- Epw in T2. unfold fmul. apply up_sl; [exact N1|].
    split; [apply Qmult_le_0_compat; lra|]. eapply Qle_trans; [|exact T2].
    assert (0 <= zq (number (par a)) * pw * thermal_p_var (par a))%Q by (repeat apply Qmult_le_0_compat; lra). lra.
  - destruct G as (_ & Hfl & _ & _ & _ & _ & _ & Hused). pose proof Hused as [(cyc & HI & Hcyc) _ _ _ _].
    rewrite (inv_over _ _ _ _ _ _ _ _ _ _ _ HI t Ht). unfold overlay.
    destruct (last_event t evs) as [e|] eqn:El.
    + unfold last_event in El. apply find_some in El. destruct El as [Hin _]. apply in_rev in Hin.
      eapply Qle_trans; [exact (event_ceiling_float F depth a peak pw i rws rt evs d e t Hs Hpw0 Epw Hfl Hused Hin T0)|]. apply slack_mono. exact T2.
    + destruct (existsb _ _); [|exact U0]. unfold mask_value, flit. apply up_sl; [exact N1|]. split; [discriminate|exact T1].
Qed.

Strategy expand [minutes_on longest_use reachable_minutes].
Lemma app_day_energy_float depth F i peak dt pref a l :
  sane_time a -> 0 <= i -> app_day depth F i peak dt pref a l ->
  (energy l <= energy_ceiling a i + (energy_ceiling a i + zq (1440 * number (par a))) * sl)%Q.
Proof.
  intros (Hs & Hft & Htv) Hi H. pose proof Hs as [Hn Hnn]. pose proof Hnn as (Hfc & _ & Hth & Hpow & _).
  assert (Hz : forall t, 0 <= t < 1440 -> may_be_on a t = false -> value_at l t = 0%Q) by (intros t; apply (app_day_zero _ _ _ _ _ _ _ _ _ Hfc H)).
  pose proof (app_day_len _ _ _ _ _ _ _ _ H) as Hlen.
  destruct H as (pw & a' & Hpw & H & <-).
  assert (Hpw0 : (0 <= pw)%Q) by (apply py_index_in in Hpw; rewrite Forall_forall in Hpow; auto).
  pose proof (py_index_value _ _ _ Hi Hpw) as Epw.
  assert (Hik : 0 <= i < zlen (power a)).
  { unfold py_index in Hpw. cbv zeta in Hpw. replace (i <? 0) with false in Hpw by lia. destruct (_ || _) eqn:E; [discriminate|]. lia. }
  pose proof (highest_nonneg a i Hs Hik) as Hh.
  assert (N1 : (1 <= zq (number (par a)))%Q) by (change 1%Q with (zq 1); apply zq_le; exact Hn).
  apply generate_traced in H. destruct H as (d & tr & -> & H). cbn [st set_st] in *.
  pose proof (wp_elim _ _ _ (day_spec F depth a pref i peak dt pw Hfc) H) as G.
  unfold energy_ceiling.
  assert (T0 : (0 <= zq (number (par a)) * highest_power a i * (1 + thermal_p_var (par a)))%Q)
    by (apply Qmult_le_0_compat; [apply Qmult_le_0_compat; lra|lra]).
  assert (R0 : (0 <= zq (reachable_minutes a))%Q) by (apply (zq_le 0); apply reachable_nonneg).
  assert (RR : zlen (filter (may_be_on a) (arange 0 1440)) <= reachable_minutes a) by (unfold reachable_minutes; apply Z.le_refl).
  assert (R1 : reachable_minutes a <= 1440).
  { unfold reachable_minutes, zlen. pose proof (filter_length_le (may_be_on a) (arange 0 1440)) as L. rewrite arange_length in L. lia. }
  assert (U0 : (0 <= zq (longest_use a))%Q) by (apply (zq_le 0); unfold longest_use; lia).
  assert (EN : (zq (1440 * number (par a)) == 1440 * zq (number (par a)))%Q) by (unfold zq; rewrite inject_Z_mult; reflexivity). rewrite EN.
  apply zq_le in R1 as R1q. change (zq 1440) with 1440%Q in R1q. pose proof sl_pos as Sp.
  set (N := zq (number (par a))) in *.
  destruct tr as [|rws rt|rws rt evs].
  - destruct G as [G _].
    assert (E0 : (energy (daily_use d) <= 0)%Q).
    { eapply Qle_trans; [apply (energy_le _ (fun _ => 0%Q) Hlen)|rewrite Qsum_zeros; apply Qle_refl].
      intros t _. rewrite G, value_at_zeros. apply Qle_refl. }
    eapply Qle_trans; [exact E0|]. revert R0. generalize (zq (reachable_minutes a)). intros R R0. apply slack_nonneg; [|lra].
    destruct (String.eqb _ _).
    + rewrite <- Epw. apply Qmult_le_0_compat; [exact R0|]. apply Qmult_le_0_compat; lra.
    + pose proof (Qmult_le_0_compat _ _ U0 T0). lra.
  - destruct G as (_ & Hfl & _ & _ & _ & _ & _ & _ & p & Hp & Hv). rewrite Hfl. rewrite Hpw in Hp. injection Hp as <-.
    set (top := (N * pw)%Q). assert (P0 : (0 <= top)%Q) by (apply Qmult_le_0_compat; lra).
    pose proof (slack_nonneg top N P0 ltac:(lra)) as Q0.
    eapply Qle_trans; [apply (energy_on _ (may_be_on a) (top + (top + N) * sl)%Q Hlen)|].
    + intros t Ht. destruct (may_be_on a t) eqn:E; [|rewrite (Hz t Ht E); apply Qle_refl].
      rewrite value_at_minute, Hv by exact Ht. destruct (existsb _ _); [|exact Q0].
      unfold fmul. apply up_sl; [exact N1|]. rewrite (Qmult_comm pw N). split; [exact P0|apply Qle_refl].
    + rewrite <- Epw. fold top. apply zq_le in RR as RRq. eapply Qle_trans; [apply Qmult_le_compat_r; [exact RRq|exact Q0]|].
      revert R0 R1q. generalize (zq (reachable_minutes a)). intros R R0 R1q. clearbody top N. clear - R0 R1q P0 N1 Sp.
      set (s := sl) in *. clearbody s. assert (X : (R * N <= 1440 * N)%Q) by (apply Qmult_le_compat_r; lra).
      assert (Y : (R * N * s <= 1440 * N * s)%Q) by (apply Qmult_le_compat_r; lra).
      setoid_replace (R * (top + (top + N) * s))%Q with (R * top + R * top * s + R * N * s)%Q by ring. lra.
  - destruct G as (_ & Hfl & Hrw & Hd & Hdr & _ & _ & Hused). rewrite Hfl.
    set (top := (N * highest_power a i * (1 + thermal_p_var (par a)))%Q) in *.
    pose proof (slack_nonneg top N T0 ltac:(lra)) as Q0.
    set (low := ((1 # 1000) * (1 + sl))%Q).
    assert (L0 : (0 <= low)%Q) by discriminate.
    assert (Hon : zlen (filter (fun t => existsb (ev_covers t) evs) (arange 0 1440)) <= Z.min (longest_use a) 1440).
    { apply Z.min_glb.
      - pose proof (on_minutes_le evs) as L1. unfold minutes_on in L1. destruct Hused as [_ _ _ Htot _].
        eapply Z.le_trans; [exact L1|]. eapply Z.le_trans; [exact Htot|].
        destruct Hdr as (rw1 & rw2 & rw3 & -> & Hdr). exact (C07_upper_bound F a rw1 rw2 rw3 rt Hd Hfc Hft Htv Hdr).
      - unfold zlen. pose proof (filter_length_le (fun t => existsb (ev_covers t) evs) (arange 0 1440)) as L. rewrite arange_length in L. lia. }
    eapply Qle_trans; [apply (energy_on2 _ (fun t => existsb (ev_covers t) evs) (may_be_on a) (top + (top + N) * sl)%Q low _ _ Hlen Q0 L0 Hon RR)|].
    + intros t Ht. pose proof Hused as [(cyc & HI & Hcyc) _ _ _ _].
      destruct (last_event t evs) as [e|] eqn:El.
      * pose proof El as El'. unfold last_event in El'. apply find_some in El'. destruct El' as [Hin Hcov]. apply in_rev in Hin.
        replace (existsb (ev_covers t) evs) with true by (symmetry; apply existsb_exists; eauto).
        rewrite value_at_minute, (inv_over _ _ _ _ _ _ _ _ _ _ _ HI t Ht). unfold overlay. rewrite El.
        pose proof (event_ceiling_float F depth a peak pw i rws rt evs d e t Hs Hpw0 Epw Hfl Hused Hin T0) as B. fold N in B. fold top in B.
        destruct (may_be_on a t); lra.
      * match goal with |- (_ <= ?X + _)%Q => assert (B : (0 <= X)%Q) by (destruct (existsb _ _); [exact Q0|apply Qle_refl]) end.
        destruct (may_be_on a t) eqn:E; [|rewrite (Hz t Ht E); lra].
        rewrite value_at_minute, (inv_over _ _ _ _ _ _ _ _ _ _ _ HI t Ht). unfold overlay. rewrite El.
        destruct (existsb (in_win t) rws); [|lra]. unfold mask_value, flit.
        assert (Y : (rnd F (1 # 1000) <= low)%Q).
        { unfold low. destruct (rnd_err_bounds F (1 # 1000) (1 # 1000)) as [_ K]; [split; discriminate|]. eapply Qle_trans; [exact K|]. apply Qle_bool_iff. vm_compute. reflexivity. }
        lra.
    + assert (M1 : (zq (Z.min (longest_use a) 1440) <= zq (longest_use a))%Q) by (apply zq_le; lia).
      assert (M2 : (zq (Z.min (longest_use a) 1440) <= 1440)%Q) by (change 1440%Q with (zq 1440); apply zq_le; lia).
      assert (M0 : (0 <= zq (Z.min (longest_use a) 1440))%Q) by (apply (zq_le 0); unfold longest_use; lia).
      revert M1 M2 M0 R0. generalize (zq (Z.min (longest_use a) 1440)) (zq (longest_use a)) (zq (reachable_minutes a)). intros m L R M1 M2 M0 R0.
      unfold low. clearbody top N. clear - M1 M2 M0 R0 N1 T0 Sp. set (s := sl) in *. clearbody s.
      assert (X1 : (m * top <= L * top)%Q) by (apply Qmult_le_compat_r; lra).
      assert (X2 : (m * top * s <= L * top * s)%Q) by (apply Qmult_le_compat_r; lra).
      assert (X3 : (m * N <= 1440 * N)%Q) by (apply Qmult_le_compat_r; lra).
      assert (X4 : (m * N * s <= 1440 * N * s)%Q) by (apply Qmult_le_compat_r; lra).
      setoid_replace (m * (top + (top + N) * s))%Q with (m * top + m * top * s + m * N * s)%Q by ring.
      setoid_replace (R * ((1 # 1000) * (1 + s)))%Q with (R * (1 # 1000) + R * (1 # 1000) * s)%Q by ring. lra.
Qed.

(** ** All appliances *)

Lemma members_bound (h : list Q -> Q) (g : appliance -> Q) (P : appliance -> Prop) depth F k peak dt us mss :
  Forall (fun u => Forall P (app_list u)) us -> day_members depth F k peak dt us mss ->
  (forall pref a l, P a -> app_day depth F k peak dt pref a l -> (h l <= g a)%Q) ->
  (Qsum (map h (all_profiles mss)) <= Qsum (map (fun u => zq (Z.max 0 (num_users u)) * Qsum (map g (app_list u))) us))%Q.
Proof.
  intros Hs H Hb. induction H as [|u ms us mss [Hl Hm] _ IH]; [apply Qle_refl|]. inversion Hs as [|? ? Hs1 Hs2]; subst. specialize (IH Hs2).
  unfold all_profiles in *. cbn [flat_map map]. rewrite map_app, Qsum_app, Qsum_cons.
  assert (G : (Qsum (map h (flat_map snd ms)) <= zq (Z.max 0 (num_users u)) * Qsum (map g (app_list u)))%Q); [|lra].
  rewrite <- Hl. set (S1 := Qsum (map g (app_list u))). clear Hl IH. induction Hm as [|m ms [_ Hm] _ IH].
  - change (0 <= 0 * S1)%Q. rewrite Qmult_0_l. apply Qle_refl.
  - cbn [flat_map]. rewrite map_app, Qsum_app, zlen_cons, zq_add.
    assert (Hone : (Qsum (map h (snd m)) <= S1)%Q).
    { apply Qsum_forall2. clear -Hm Hs1 Hb. induction Hm as [|a l al ll H _ IH]; [constructor|].
      inversion Hs1; subst. constructor; [|auto]. eapply Hb; eassumption. }
    change (zq 1) with 1%Q. lra.
Qed.

Lemma Qsum_const_mult {A} (f : A -> Q) c l : (Qsum (map (fun x => c * f x) l) == c * Qsum (map f l))%Q.
Proof. induction l as [|x l IH]; [cbn; ring|]. cbn [map]. rewrite !Qsum_cons, IH. ring. Qed.

(** the slacks add up *)
Lemma slack_sum (g : appliance -> Q) m us :
  (Qsum (map (fun u => zq (Z.max 0 (num_users u)) * Qsum (map (fun a => g a + (g a + zq (m * number (par a))) * sl) (app_list u))) us) ==
   Qsum (map (fun u => zq (Z.max 0 (num_users u)) * Qsum (map g (app_list u))) us) +
   (Qsum (map (fun u => zq (Z.max 0 (num_users u)) * Qsum (map g (app_list u))) us) + zq (m * units us)) * sl)%Q.
Proof.
  induction us as [|u us IH]; [cbn [map units fold_right]; rewrite Z.mul_0_r; reflexivity|]. cbn [map units fold_right]. fold (units us). rewrite !Qsum_cons, IH.
  assert (G : (Qsum (map (fun a => g a + (g a + zq (m * number (par a))) * sl) (app_list u)) ==
    Qsum (map g (app_list u)) + (Qsum (map g (app_list u)) + zq (m * fold_right (fun a m => number (par a) + m)%Z 0%Z (app_list u))) * sl)%Q).
  { clear. induction (app_list u) as [|a l IH]; [cbn [map fold_right]; rewrite Z.mul_0_r; reflexivity|]. cbn [map fold_right]. rewrite !Qsum_cons, IH.
    rewrite Z.mul_add_distr_l, zq_add. ring. }
  rewrite G, Z.mul_add_distr_l, zq_add.
  assert (E : (zq (m * (Z.max 0 (num_users u) * fold_right (fun a m => number (par a) + m)%Z 0%Z (app_list u))) ==
    zq (Z.max 0 (num_users u)) * zq (m * fold_right (fun a m => number (par a) + m)%Z 0%Z (app_list u)))%Q).
  { unfold zq. rewrite !inject_Z_mult. ring. }
  rewrite E. ring.
Qed.

Lemma units_nonneg us : all_apps sane us -> 0 <= units us.
Proof.
  induction 1 as [|u us Hu _ IH]; [apply Z.le_refl|]. cbn [units fold_right]. fold (units us).
  assert (0 <= fold_right (fun a m => number (par a) + m) 0 (app_list u)).
  { induction Hu as [|a l [Ha _] _ IHl]; [apply Z.le_refl|]. cbn [fold_right]. lia. }
  assert (0 <= Z.max 0 (num_users u) * fold_right (fun a m => number (par a) + m) 0 (app_list u)) by (apply Z.mul_nonneg_nonneg; lia). lia.
Qed.

(** a rounded sum of values within their slack *)
Lemma rounded_at_most A M m T S x : 0 <= A -> 0 <= M -> 0 <= m -> (0 <= T)%Q -> (0 <= S)%Q ->
  (S <= T + (T + zq (m * M)) * sl)%Q -> (x <= S + (S + zq (m * A)) * (zq A * (1 # 2 ^ 52)))%Q -> at_most (A + M) m T x.
Proof.
  intros HA HM Hm HT HS H1 H2. unfold at_most.
  assert (Z1 : (0 <= zq A)%Q) by (apply (zq_le 0); lia). assert (Z2 : (0 <= zq M)%Q) by (apply (zq_le 0); lia). assert (Z3 : (0 <= zq m)%Q) by (apply (zq_le 0); lia).
  assert (E1 : (zq (m * (A + M)) == zq m * zq A + zq m * zq M)%Q) by (unfold zq; rewrite inject_Z_mult, inject_Z_plus; ring). rewrite E1, zq_add.
  assert (E2 : forall k, (zq (m * k) == zq m * zq k)%Q) by (intros k; unfold zq; rewrite inject_Z_mult; reflexivity). rewrite E2 in H1, H2.
  assert (E3 : (1 # 2 ^ 51 == 2 * (1 # 2 ^ 52))%Q) by reflexivity. rewrite E3. change (1 # 2 ^ 44)%Q with sl.
  pose proof sl_pos as Sp. assert (S1 : (sl <= 1)%Q) by discriminate. assert (Ep : (0 < 1 # 2 ^ 52)%Q) by reflexivity.
  set (e := (1 # 2 ^ 52)%Q) in *. set (s := sl) in *. set (a := zq A) in *. set (b := zq M) in *. set (c := zq m) in *. clearbody e s a b c. clear E1 E2 E3.
  assert (C1 : (0 <= c * a)%Q) by (apply Qmult_le_0_compat; assumption). assert (C2 : (0 <= c * b)%Q) by (apply Qmult_le_0_compat; assumption).
  set (ca := (c * a)%Q) in *. set (cb := (c * b)%Q) in *. clearbody ca cb.
  set (W := (T + (ca + cb))%Q). assert (W0 : (0 <= W)%Q) by (unfold W; lra).
  assert (K1 : ((T + cb) * s <= W * s)%Q) by (apply Qmult_le_compat_r; [unfold W; lra|lra]).
  assert (K2 : (W * s <= W * 1)%Q) by (rewrite !(Qmult_comm W); apply Qmult_le_compat_r; lra).
  assert (K3 : (S + ca <= 2 * W)%Q) by (unfold W in *; lra).
  assert (Ke : (0 <= a * e)%Q) by (apply Qmult_le_0_compat; lra).
  assert (K4 : ((S + ca) * (a * e) <= 2 * W * (a * e))%Q) by (apply Qmult_le_compat_r; assumption).
  assert (K5 : (0 <= W * (b * e))%Q) by (repeat apply Qmult_le_0_compat; lra).
  setoid_replace (W * (s + (a + b) * (2 * e)))%Q with (W * s + 2 * W * (a * e) + 2 * (W * (b * e)))%Q by ring. lra.
Qed.

Lemma T_nonneg (g : appliance -> Q) us : (forall a, (0 <= g a)%Q) ->
  (0 <= Qsum (map (fun u => zq (Z.max 0 (num_users u)) * Qsum (map g (app_list u))) us))%Q.
Proof.
  intros Hg. apply Qsum_nonneg. apply Forall_map. apply Forall_forall. intros u _. apply Qmult_le_0_compat; [apply (zq_le 0); lia|].
  apply Qsum_nonneg. apply Forall_map. apply Forall_forall. intros a _. apply Hg.
Qed.

Lemma sane_nonneg us : all_apps sane us -> all_apps nonneg_app us.
Proof. intros H. eapply Forall_impl; [|exact H]. intros u Hu. eapply Forall_impl; [|exact Hu]. intros a [_ G]. exact G. Qed.

(** ** C63 *)

(** In any floating-point arithmetic with the rounding error of binary64 *)
Theorem C63_envelope_rounding depth F w c arg s n c' rows k t :
  set_up c s n -> Forall (fun u => Forall sane (app_list u)) (users c) -> additions (users c) <= 2 ^ 52 ->
  may (generate_sequential depth F w c arg) (Ok (c', rows)) -> 0 <= k < n -> 0 <= t < 1440 ->
  (0 <= value_at (nth (Z.to_nat k) rows []) t)%Q /\
  at_most (roundings (users c)) 1 (Qsum (map (fun u => zq (Z.max 0 (num_users u)) * Qsum (map (fun a => ceiling a k t) (app_list u))) (users c)))%Q
    (value_at (nth (Z.to_nat k) rows []) t).
Proof.
  intros Hu Hs Ha H Hk Ht. pose proof (sane_nonneg _ Hs) as Hnn.
  destruct (C28_profiles_rounding depth F w c arg s n c' rows k Hu Hnn Ha H Hk) as (dt & mss & _ & Hm & Hv). specialize (Hv t Ht).
  pose proof (minute_sum_nonneg t _ (members_nonneg _ _ _ _ _ _ _ _ Hnn Ht Hm)) as S0. split.
  { destruct (C28_rows _ _ _ _ _ _ _ _ _ Hu H) as (_ & _ & Hr). destruct (Hr k Hk) as (dt' & loads & _ & Hl & ->).
    rewrite sum_rows_value; [|exact Ht|clear -Hl; induction Hl; constructor; [eapply user_day_len; eassumption|assumption]].
    apply fold_fadd_nonneg; [|apply Qle_refl]. apply Forall_map. clear -Hl Hnn Ht. induction Hl as [|u l us ls Hd _ IH]; [constructor|].
    inversion Hnn; subst. constructor; [eapply user_day_nonneg; eassumption|auto]. }
  apply (rounded_at_most _ _ 1 _ (minute_sum t (all_profiles mss))); [apply additions_nonneg|exact (units_nonneg _ Hs)|lia| |exact S0| |].
  - apply T_nonneg. intros a. apply ceiling_nonneg.
  - rewrite <- (slack_sum (fun a => ceiling a k t) 1). apply (members_bound (fun l => value_at l t) _ sane depth F k (peak_of c) dt _ _ Hs Hm).
    intros pref a l Hsa Hd. rewrite Z.mul_1_l. eapply app_day_ceiling_float; [exact Hsa|lia|exact Hd|exact Ht].
  - unfold rounded_sum in Hv. apply Qabs_Qle_condition in Hv. rewrite Z.mul_1_l. lra.
Qed.

Lemma user_tasks_count d dt u : zlen (user_tasks d dt u) = Z.max 0 (num_users u) * zlen (app_list u).
Proof.
  unfold user_tasks. induction (app_list u) as [|a l IH]; [cbn; lia|]. cbn [flat_map]. rewrite zlen_app, IH, zlen_cons. unfold zlen at 1. rewrite repeat_length. lia.
Qed.

Lemma day_tasks_count d dt us : zlen (day_tasks d dt us) <= additions us.
Proof.
  unfold day_tasks. induction us as [|u us IH]; [apply Z.le_refl|]. cbn [flat_map additions fold_right]. fold (additions us). rewrite zlen_app, user_tasks_count.
  assert (0 <= Z.max 0 (num_users u)) by lia.
  replace (Z.max 0 (num_users u) * (1 + zlen (app_list u))) with (Z.max 0 (num_users u) + Z.max 0 (num_users u) * zlen (app_list u)) by ring. lia.
Qed.

Lemma tasks_nonneg depth F peak d dt us ls t : all_apps nonneg_app us -> 0 <= t < 1440 -> Forall2 (task_day depth F peak) (day_tasks d dt us) ls ->
  Forall (fun l => (0 <= value_at l t)%Q) ls.
Proof.
  intros Hn Ht H. pose proof (day_tasks_all _ d dt _ Hn) as Ha. clear Hn. induction H as [|t0 l ts ls H0 H IH]; [constructor|]. inversion Ha; subst.
  constructor; [exact (app_day_nonneg _ _ _ _ _ _ _ _ _ ltac:(eassumption) H0 Ht)|auto].
Qed.

(** the rows of the parallel mode *)
Lemma parallel_rounded depth F c s n rows k : set_up c s n -> all_apps nonneg_app (users c) -> additions (users c) <= 2 ^ 52 ->
  parallel_may depth F c n (Ok rows) -> 0 <= k < n ->
  exists dt ls, Forall2 (task_day depth F (peak_of c)) (day_tasks k dt (users c)) ls /\ Forall full ls /\ full (nth (Z.to_nat k) rows []) /\
    forall t, 0 <= t < 1440 -> (0 <= value_at (nth (Z.to_nat k) rows []) t)%Q /\ Forall (fun l => (0 <= value_at l t)%Q) ls /\
      rounded_sum (additions (users c)) (minute_sum t ls) (value_at (nth (Z.to_nat k) rows []) t).
Proof.
  intros Hu Hn Ha H Hk. destruct (parallel_rows _ _ _ _ _ _ Hu H) as (_ & Hr).
  destruct (Hr k Hk) as (dt & ls & ls' & _ & Hl & P & Hne & Hfull & ->). exists dt, ls. split; [exact Hl|].
  split; [apply (Permutation_Forall (Permutation_sym P)); exact Hfull|]. split; [apply vstack_len; exact Hfull|]. intros t Ht.
  pose proof (tasks_nonneg _ _ _ _ _ _ _ t Hn Ht Hl) as Hp. pose proof (Permutation_Forall P Hp) as Hp'. pose proof (minute_sum_nonneg t _ Hp) as S0.
  assert (C : zlen ls' <= additions (users c)).
  { eapply Z.le_trans; [|exact (day_tasks_count k dt (users c))]. unfold zlen. rewrite <- (Permutation_length P), (ProofsParallel.Forall2_length _ _ _ Hl). lia. }
  split; [|split; [exact Hp|]].
  - destruct Hfull as [|r rs Hr1 Hrs]; [congruence|]. cbn [vstack_sum]. rewrite sum_from_value by assumption. inversion Hp' as [|? ? P1 P2]; subst.
    apply fold_fadd_nonneg; [|exact P1]. apply Forall_map. exact P2.
  - apply (rounded_mono (zlen ls')); [pose proof (zlen_nonneg ls'); lia|exact S0|]. unfold rounded_sum. rewrite (ProofsParallel.minute_sum_perm t _ _ P).
    apply vstack_rounded; try assumption. lia.
Qed.

Theorem C63_envelope_rounding_parallel depth F c s n rows k t :
  set_up c s n -> Forall (fun u => Forall sane (app_list u)) (users c) -> additions (users c) <= 2 ^ 52 ->
  parallel_may depth F c n (Ok rows) -> 0 <= k < n -> 0 <= t < 1440 ->
  (0 <= value_at (nth (Z.to_nat k) rows []) t)%Q /\
  at_most (roundings (users c)) 1 (Qsum (map (fun u => zq (Z.max 0 (num_users u)) * Qsum (map (fun a => ceiling a k t) (app_list u))) (users c)))%Q
    (value_at (nth (Z.to_nat k) rows []) t).
Proof.
  intros Hu Hs Ha H Hk Ht. pose proof (sane_nonneg _ Hs) as Hnn.
  destruct (parallel_rounded depth F c s n rows k Hu Hnn Ha H Hk) as (dt & ls & Hl & _ & _ & Hv). destruct (Hv t Ht) as (V0 & Hp & V).
  pose proof (minute_sum_nonneg t _ Hp) as S0. split; [exact V0|].
  apply (rounded_at_most _ _ 1 _ (minute_sum t ls)); [apply additions_nonneg|exact (units_nonneg _ Hs)|lia| |exact S0| |].
  - apply T_nonneg. intros a. apply ceiling_nonneg.
  - rewrite <- (slack_sum (fun a => ceiling a k t) 1). unfold minute_sum.
    apply (tasks_bound (fun a => ceiling a k t + (ceiling a k t + zq (1 * number (par a))) * sl)%Q (fun l => value_at l t) sane k dt _ _ Hl Hs).
    intros t0 l <- Hsa Hd. rewrite Z.mul_1_l. eapply app_day_ceiling_float; [exact Hsa|lia|exact Hd|exact Ht].
  - unfold rounded_sum in V. apply Qabs_Qle_condition in V. rewrite Z.mul_1_l. lra.
Qed.

(** ** C64 *)

Lemma energy_ceiling_nonneg a k : sane a -> 0 <= k -> (0 <= value_at (power a) k)%Q -> (0 <= energy_ceiling a k)%Q.
Proof.
  intros [Hn Hs] Hk Hp. pose proof Hs as (Hfc & _ & Hth & _).
  assert (N1 : (1 <= zq (number (par a)))%Q) by (change 1%Q with (zq 1); apply zq_le; exact Hn).
  assert (R0 : (0 <= zq (reachable_minutes a))%Q) by (apply (zq_le 0); apply reachable_nonneg).
  assert (U0 : (0 <= zq (longest_use a))%Q) by (apply (zq_le 0); unfold longest_use; lia).
  assert (H0 : (0 <= highest_power a k)%Q) by (unfold highest_power; destruct (_ && _); [apply largest_nonneg|exact Hp]).
  unfold energy_ceiling. destruct (String.eqb _ _); [apply Qmult_le_0_compat; [exact R0|apply Qmult_le_0_compat; lra]|].
  assert (A1 : (0 <= zq (longest_use a) * (zq (number (par a)) * highest_power a k * (1 + thermal_p_var (par a))))%Q) by (repeat apply Qmult_le_0_compat; lra).
  assert (A2 : (0 <= zq (reachable_minutes a) * (1 # 1000))%Q) by (apply Qmult_le_0_compat; [exact R0|discriminate]).
  set (x := (_ * (_ * _ * _))%Q) in *. set (y := (_ * (1 # 1000))%Q) in *. clearbody x y. lra.
Qed.

Lemma value_at_nonneg l k : Forall (fun p => (0 <= p)%Q) l -> (0 <= value_at l k)%Q.
Proof. intros H. unfold value_at. destruct (nth_in_or_default (Z.to_nat k) l 0%Q) as [Hx| ->]; [|apply Qle_refl]. rewrite Forall_forall in H. auto. Qed.

Lemma energy_rounded A row ps : full row -> Forall full ps -> 0 <= A ->
  (forall t, 0 <= t < 1440 -> rounded_sum A (minute_sum t ps) (value_at row t)) ->
  (energy row <= Qsum (map energy ps) + (Qsum (map energy ps) + zq (1440 * A)) * (zq A * (1 # 2 ^ 52)))%Q.
Proof.
  intros Hr Hf HA Hv. set (q := (zq A * (1 # 2 ^ 52))%Q).
  eapply Qle_trans; [apply (energy_le row (fun t => minute_sum t ps * (1 + q) + zq A * q)%Q Hr)|].
  - intros t Ht. specialize (Hv t Ht). unfold rounded_sum in Hv. apply Qabs_Qle_condition in Hv. fold q in Hv. lra.
  - rewrite Qsum_add.
    assert (E1 : (Qsum (map (fun t => minute_sum t ps * (1 + q)) (arange 0 1440)) == Qsum (map energy ps) * (1 + q))%Q).
    { rewrite (Qsum_map_ext _ (fun t => (1 + q) * minute_sum t ps)%Q) by (intros; ring). rewrite Qsum_const_mult, Qsum_swap.
      rewrite (Qsum_map_ext (fun r => Qsum (map (value_at r) (arange 0 1440))) energy); [ring|].
      intros r Hi. rewrite Forall_forall in Hf. rewrite (energy_minutes r (Hf r Hi)). reflexivity. }
    assert (E2 : (Qsum (map (fun _ : Z => zq A * q) (arange 0 1440)) == 1440 * (zq A * q))%Q).
    { pose proof (count_sum (fun _ : Z => true) (zq A * q)%Q (arange 0 1440)) as E.
      assert (L : zlen (filter (fun _ : Z => true) (arange 0 1440)) = 1440) by (vm_compute; reflexivity). rewrite L in E. exact E. }
    rewrite E1, E2. assert (E3 : (zq (1440 * A) == 1440 * zq A)%Q) by (unfold zq; rewrite inject_Z_mult; reflexivity). rewrite E3.
    set (x := Qsum (map energy ps)). set (z := zq A). clearbody x z q. lra.
Qed.

Lemma sane_time_sane us : all_apps sane_time us -> all_apps sane us.
Proof. intros H. eapply Forall_impl; [|exact H]. intros u Hu. eapply Forall_impl; [|exact Hu]. intros a [G _]. exact G. Qed.

Lemma energies_nonneg ps : Forall full ps -> (forall t, 0 <= t < 1440 -> Forall (fun l => (0 <= value_at l t)%Q) ps) -> (0 <= Qsum (map energy ps))%Q.
Proof.
  intros Hf Hp. apply Qsum_nonneg. apply Forall_map. rewrite Forall_forall in *. intros l Hl. rewrite (energy_minutes l (Hf l Hl)).
  apply Qsum_nonneg. apply Forall_map. apply Forall_forall. intros t Ht. apply in_arange in Ht. specialize (Hp t Ht). rewrite Forall_forall in Hp. auto.
Qed.

Lemma energy_total_nonneg us k : 0 <= k -> all_apps sane_time us ->
  (0 <= Qsum (map (fun u => zq (Z.max 0 (num_users u)) * Qsum (map (fun a => energy_ceiling a k) (app_list u))) us))%Q.
Proof.
  intros Hk H. apply Qsum_nonneg. apply Forall_map. eapply Forall_impl; [|exact H]. intros u Hu. apply Qmult_le_0_compat; [apply (zq_le 0); lia|].
  apply Qsum_nonneg. apply Forall_map. eapply Forall_impl; [|exact Hu]. intros a [Hs _]. apply energy_ceiling_nonneg; [exact Hs|exact Hk|].
  apply value_at_nonneg. destruct Hs as (_ & _ & _ & _ & Hp & _). exact Hp.
Qed.

Theorem C64_energy_bound_rounding depth F w c arg s n c' rows k :
  set_up c s n -> Forall (fun u => Forall sane_time (app_list u)) (users c) -> additions (users c) <= 2 ^ 52 ->
  may (generate_sequential depth F w c arg) (Ok (c', rows)) -> 0 <= k < n ->
  at_most (roundings (users c)) 1440 (Qsum (map (fun u => zq (Z.max 0 (num_users u)) * Qsum (map (fun a => energy_ceiling a k) (app_list u))) (users c)))%Q
    (energy (nth (Z.to_nat k) rows [])).
Proof.
  intros Hu Hs Ha H Hk. pose proof (sane_time_sane _ Hs) as Hs'. pose proof (sane_nonneg _ Hs') as Hnn.
  destruct (C28_profiles_rounding depth F w c arg s n c' rows k Hu Hnn Ha H Hk) as (dt & mss & _ & Hm & Hv).
  assert (Hfull : full (nth (Z.to_nat k) rows [])).
  { destruct (C28_rows _ _ _ _ _ _ _ _ _ Hu H) as (_ & _ & Hr). destruct (Hr k Hk) as (dt' & loads & _ & Hl & ->). exact (loads_full _ _ _ _ _ _ _ Hl). }
  pose proof (members_full _ _ _ _ _ _ _ Hm) as Hf.
  apply (rounded_at_most _ _ 1440 _ (Qsum (map energy (all_profiles mss)))); [apply additions_nonneg|exact (units_nonneg _ Hs')|lia| | | |].
  - apply energy_total_nonneg; [lia|exact Hs].
  - apply energies_nonneg; [exact Hf|]. intros t Ht. exact (members_nonneg _ _ _ _ _ _ _ _ Hnn Ht Hm).
  - rewrite <- (slack_sum (fun a => energy_ceiling a k) 1440). apply (members_bound energy _ sane_time depth F k (peak_of c) dt _ _ Hs Hm).
    intros pref a l Hsa Hd. eapply app_day_energy_float; [exact Hsa|lia|exact Hd].
  - apply energy_rounded; [exact Hfull|exact Hf|apply additions_nonneg|exact Hv].
Qed.

Theorem C64_energy_bound_rounding_parallel depth F c s n rows k :
  set_up c s n -> Forall (fun u => Forall sane_time (app_list u)) (users c) -> additions (users c) <= 2 ^ 52 ->
  parallel_may depth F c n (Ok rows) -> 0 <= k < n ->
  at_most (roundings (users c)) 1440 (Qsum (map (fun u => zq (Z.max 0 (num_users u)) * Qsum (map (fun a => energy_ceiling a k) (app_list u))) (users c)))%Q
    (energy (nth (Z.to_nat k) rows [])).
Proof.
  intros Hu Hs Ha H Hk. pose proof (sane_time_sane _ Hs) as Hs'. pose proof (sane_nonneg _ Hs') as Hnn.
  destruct (parallel_rounded depth F c s n rows k Hu Hnn Ha H Hk) as (dt & ls & Hl & Hf & Hfull & Hv).
  apply (rounded_at_most _ _ 1440 _ (Qsum (map energy ls))); [apply additions_nonneg|exact (units_nonneg _ Hs')|lia| | | |].
  - apply energy_total_nonneg; [lia|exact Hs].
  - apply energies_nonneg; [exact Hf|]. intros t Ht. apply (Hv t Ht).
  - rewrite <- (slack_sum (fun a => energy_ceiling a k) 1440).
    apply (tasks_bound (fun a => energy_ceiling a k + (energy_ceiling a k + zq (1440 * number (par a))) * sl)%Q energy sane_time k dt _ _ Hl Hs).
    intros t0 l <- Hsa Hd. eapply app_day_energy_float; [exact Hsa|lia|exact Hd].
  - apply energy_rounded; [exact Hfull|exact Hf|apply additions_nonneg|]. intros t Ht. apply (Hv t Ht).
Qed.

(** *** a case in binary64: the bound at minute 500 of the second day *)
Example C63_rounding_case : Forall (fun u => Forall sane_time (app_list u)) [cottage] /\ roundings [cottage] = 11 /\
  exists c' rows, may (generate_sequential 5 f64 nobody (settled [cottage]) None) (Ok (c', rows)) /\ (value_at (nth 1 rows []) 500 == 360)%Q /\
    at_most 11 1 360 (value_at (nth 1 rows []) 500) /\ ~ at_most 11 1 360 (360 + (1 # 10 ^ 10)).
Proof.
  assert (Hs : Forall (fun u => Forall sane_time (app_list u)) [cottage]) by (repeat constructor; vm_compute; discriminate).
  split; [exact Hs|]. split; [reflexivity|].
  destruct (run_check zero_gen (generate_sequential 5 f64 nobody (settled [cottage]) None) tt (fun r => Qeq_bool (value_at (nth 1 (snd r) []) 500) 360) (bp_sequential _ _ _ _ _)) as ([c' rows] & Hx & Hv); [vm_compute; reflexivity|].
  apply Qeq_bool_iff in Hv. cbn [snd] in Hv. exists c', rows. split; [exact Hx|]. split; [exact Hv|]. split.
  - pose proof (proj2 (C63_envelope_rounding 5 f64 nobody (settled [cottage]) None _ _ _ _ 1 500 (settled_set_up _) (sane_time_sane _ Hs) ltac:(discriminate) Hx ltac:(lia) ltac:(lia))) as G.
    unfold at_most in *. eapply Qle_trans; [exact G|]. apply Qle_bool_iff. vm_compute. reflexivity.
  - intros G. unfold at_most in G. apply Qle_bool_iff in G. vm_compute in G. discriminate.
Qed.
