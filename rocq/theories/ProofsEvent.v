(** * ProofsEvent: total time of use, one switch-on event, coincidence, booking (C07-C11) *)
From Verif Require Import Base Wp Utils ListLemmas Appliance Spec ProofsUtils ProofsAppliance.
From Coq Require Import ZifyBool ZifyNat.

(** ** rand_total_time_of_use (C07) *)

(** the part of rand_total_time_of_use after the draws *)
Definition cap_time (F : fm) (fc T r0 : Z) : prog Z :=
  let rand_time := if r0 <? fc then fc else r0 in
  let limit := fmul F (flit F (99 # 100)) (zq T) in
  let rand_time := if Qltb limit (zq rand_time) then py_int limit else rand_time in
  if rand_time <? fc then Raise ValueError else Ret rand_time.

Lemma cap_time_spec (F : fm) fc T r0 :
  Z.abs T <= 2 ^ 40 -> 0 <= fc -> 1 <= fc \/ 0 <= T ->
  wp (cap_time F fc T r0)
     (fun r => (r = Err ValueError /\ 99 * T <= 100 * fc /\ (exact F -> 99 * T < 100 * fc)) \/
        exists t, r = Ok t /\ fc <= t /\ 100 * t <= 99 * T /\ t <= Z.max fc r0).
Proof.
  intros HT Hfc Hor. unfold cap_time.
  set (r1 := if r0 <? fc then fc else r0).
  assert (Hr1 : r1 = Z.max fc r0) by (unfold r1; destruct (Z.ltb_spec r0 fc); lia).
  clearbody r1. set (L := fmul F (flit F (99 # 100)) (zq T)).
  assert (HLle : forall z, (zq z <= L)%Q -> 100 * z <= 99 * T) by (intros z; apply limit99_int_le; exact HT).
  assert (HLlt : forall z, (L < zq z)%Q -> 99 * T <= 100 * z) by (intros z; apply limit99_int_lt; exact HT).
  assert (HLlt' : exact F -> forall z, (L < zq z)%Q -> 99 * T < 100 * z).
  { intros HF z Hz. unfold L, fmul, flit in Hz. rewrite !(HF _) in Hz.
    assert (H3 : (zq (99 * T) < zq (100 * z))%Q).
    { rewrite !zq_mul. change (zq 100) with 100%Q. change (zq 99) with 99%Q. lra. }
    apply (proj1 (zq_lt _ _)) in H3. exact H3. }
  assert (HLneg : T < 0 -> (L <= 0)%Q).
  { intros Hneg. unfold L, fmul. apply rnd_le_fl; [exact (rnd_0 F)|].
    assert (0 <= flit F (99 # 100))%Q by (apply rnd_nonneg; vm_compute; congruence).
    assert (zq T <= 0)%Q by (change 0%Q with (zq 0); apply zq_le; lia). nra. }
  assert (HLpos : 0 <= T -> (0 <= L)%Q).
  { intros Hpos. unfold L, fmul. apply rnd_nonneg.
    assert (0 <= flit F (99 # 100))%Q by (apply rnd_nonneg; vm_compute; congruence).
    assert (0 <= zq T)%Q by (change 0%Q with (zq 0); apply zq_le; lia). nra. }
  clearbody L.
  destruct (Qltb L (zq r1)) eqn:EL.
  - apply Qltb_lt in EL.
    pose proof (py_int_cases L) as [[Hp [Hp1 Hp2]]|[Hp [Hp1 Hp2]]].
    + destruct (Z.ltb_spec (py_int L) fc) as [Hlt|Hge]; cbn [wp].
      * left. assert (Hq : (L < zq fc)%Q).
        { apply Qlt_le_trans with (zq (py_int L) + 1)%Q; [exact Hp2|].
          change 1%Q with (zq 1). rewrite <- zq_add. apply zq_le. lia. }
        auto.
      * right. exists (py_int L). split; [reflexivity|]. split; [lia|]. split; [auto|].
        assert (zq (py_int L) < zq r1)%Q by lra. apply (proj1 (zq_lt _ _)) in H. lia.
    + assert (HTn : T < 0 \/ 0 <= T) by lia. destruct HTn as [HTn|HTn]; [|pose proof (HLpos HTn); lra].
      assert (Hfc1 : 1 <= fc) by lia.
      assert (Hi : py_int L <= 0) by (rewrite <- (py_int_zq 0); apply py_int_mono; change (zq 0) with 0%Q; lra).
      destruct (Z.ltb_spec (py_int L) fc) as [Hlt|Hge]; [|lia]. cbn [wp]. left.
      split; [reflexivity|]. split; [lia|]. intros _; lia.
  - apply Qltb_ge in EL.
    destruct (Z.ltb_spec r1 fc) as [Hlt|Hge]; [lia|]. cbn [wp]. right. exists r1.
    split; [reflexivity|]. split; [lia|]. split; [auto|lia].
Qed.

Lemma rtt_unfold (F : fm) a rw1 rw2 rw3 :
  rand_total_time_of_use F a rw1 rw2 rw3 =
  (rvt <- random_variation F (time_var (par a)) 1 ;;
   u <- py_uniform F (zq (func_time (par a))) (zq (py_int (fmul F (zq (func_time (par a))) rvt))) ;;
   cap_time F (func_cycle (par a)) (diff rw1 + diff rw2 + diff rw3) (py_round u)).
Proof. reflexivity. Qed.

Lemma rtt_spec (F : fm) a rw1 rw2 rw3 :
  let T := diff rw1 + diff rw2 + diff rw3 in
  let fc := func_cycle (par a) in
  Z.abs T <= 2 ^ 40 -> 0 <= fc -> 1 <= fc \/ 0 <= T ->
  wp (rand_total_time_of_use F a rw1 rw2 rw3)
     (fun r => (r = Err ValueError /\ 99 * T <= 100 * fc /\ (exact F -> 99 * T < 100 * fc)) \/
        exists t, r = Ok t /\ fc <= t /\ 100 * t <= 99 * T).
Proof.
  intros T fc HT Hfc Hor. rewrite rtt_unfold. apply wp_bind_ok.
  eapply wp_mono; [|apply random_variation_total]. intros r (x & ->); cbn [wpk].
  apply wp_bind_ok. apply wp_uniform. intros u H0 H1. cbn [wpk].
  eapply wp_mono; [|apply cap_time_spec; assumption].
  intros r [H|(t & H)]; [left; exact H|right; exists t; tauto].
Qed.

(** for any parameters at all: what comes out is at least func_cycle, errors are ValueError *)
Lemma rtt_min (F : fm) a rw1 rw2 rw3 :
  wp (rand_total_time_of_use F a rw1 rw2 rw3)
     (fun r => r = Err ValueError \/ exists t, r = Ok t /\ func_cycle (par a) <= t).
Proof.
  rewrite rtt_unfold. apply wp_bind_ok.
  eapply wp_mono; [|apply random_variation_total]. intros r (x & ->); cbn [wpk].
  apply wp_bind_ok. apply wp_uniform. intros u H0 H1. cbn [wpk].
  unfold cap_time. match goal with |- context [?x <? func_cycle (par a)] =>
    match goal with |- wp (if x <? _ then _ else _) _ =>
      destruct (Z.ltb_spec x (func_cycle (par a))) as [Hlt|Hge]; cbn [wp]; [auto|] end end.
  right; eexists; split; [reflexivity|exact Hge].
Qed.

(** upper bound, for any rounding (slack of a thousandth of a minute) *)
Lemma rtt_upper (F : fm) a rw1 rw2 rw3 :
  let T := diff rw1 + diff rw2 + diff rw3 in
  let fc := func_cycle (par a) in
  let ft := func_time (par a) in
  let v := time_var (par a) in
  Z.abs T <= 2 ^ 40 -> 0 <= fc -> 1 <= fc \/ 0 <= T -> 0 <= ft <= 2 ^ 20 -> (0 <= v <= 1)%Q ->
  wp (rand_total_time_of_use F a rw1 rw2 rw3)
     (fun r => forall t, r = Ok t -> t <= Z.max fc (Qfloor (zq ft * (1 + v) + (1 # 1000)))).
Proof.
  intros T fc ft v HT Hfc Hor Hft Hv. rewrite rtt_unfold. apply wp_bind_ok.
  eapply wp_mono; [|apply (random_variation_close F (time_var (par a)) 1); [exact Hv|lra]].
  intros r (x & -> & Hx1 & Hx2); cbn [wpk]. fold v in Hx1, Hx2. fold ft fc.
  assert (Hq0 : (0 <= zq ft)%Q) by (change 0%Q with (zq 0); apply zq_le; lia).
  assert (Hq1 : (zq ft <= 1048576)%Q) by (change 1048576%Q with (zq (2 ^ 20)); apply zq_le; lia).
  pose proof eps_bounds as (He & He' & Hh & Hh').
  assert (Hs : (rv_slack == 1 # 140737488355328)%Q) by reflexivity.
  rewrite Hs in Hx1, Hx2. clear Hs.
  set (y := fmul F (zq ft) x).
  assert (Hy : (- (1 # 1000) <= y <= zq ft * (1 + v) + (1 # 1000))%Q).
  { unfold y, fmul. destruct Hv as [Hv0 Hv1].
    assert (Hxb : (- (1) <= x <= 3)%Q) by (split; lra).
    assert (Hb : (- (3145728) <= zq ft * x <= 3145728)%Q) by (destruct Hxb; split; nra).
    destruct (rnd_err_bounds F (zq ft * x) 3145728 Hb) as [G1 G2].
    assert (Hup : (zq ft * x <= zq ft * (1 + v) + (1 # 100000))%Q).
    { apply Qle_trans with (zq ft * (1 + v + (1 # 70368744177664)))%Q; [|nra].
      setoid_rewrite (Qmult_comm (zq ft)). apply Qmult_le_compat_r; [lra|exact Hq0]. }
    assert (Hlo : (- (1 # 100000) <= zq ft * x)%Q).
    { apply Qle_trans with (zq ft * (- (1 # 70368744177664)))%Q; [nra|].
      setoid_rewrite (Qmult_comm (zq ft)). apply Qmult_le_compat_r; [lra|exact Hq0]. }
    assert (G3 : (3145728 * eps53 <= 1 # 100000)%Q) by lra.
    assert (G4 : (eta64 <= 1 # 100000)%Q) by lra.
    split; lra. }
  clearbody y. destruct Hy as [Hy0 Hy1].
  set (U := Qfloor (zq ft * (1 + v) + (1 # 1000))).
  assert (HUft : ft <= U).
  { unfold U. rewrite <- (Qfloor_Z ft) at 1. apply Qfloor_resp_le. fold (zq ft). destruct Hv; nra. }
  assert (HU : U <= 2 ^ 22).
  { unfold U. rewrite <- (Qfloor_Z (2 ^ 22)). apply Qfloor_resp_le.
    change (inject_Z (2 ^ 22)) with 4194304%Q. destruct Hv; nra. }
  assert (HiU : 0 <= py_int y <= U).
  { split.
    - unfold py_int. destruct (Qle_bool 0 y) eqn:E.
      + apply Qle_bool_iff in E. change 0 with (Qfloor 0). now apply Qfloor_resp_le.
      + apply Qle_bool_false in E.
        pose proof (Qceiling_lt y) as Hc. pose proof (Qle_ceiling y) as Hc'.
        assert (Hz : (zq (-1) < zq (Qceiling y))%Q) by (change (zq (-1)) with (-(1))%Q; unfold zq; lra).
        apply (proj1 (zq_lt _ _)) in Hz. lia.
    - unfold py_int. destruct (Qle_bool 0 y) eqn:E.
      + unfold U. now apply Qfloor_resp_le.
      + apply Qle_bool_false in E. apply Z.le_trans with 0; [|lia].
        change 0 with (Qceiling 0). apply Qceiling_resp_le; lra. }
  apply wp_bind_ok. apply wp_uniform. intros u H0 H1. cbn [wpk].
  assert (Hu : py_round (fadd F (zq ft) (fmul F (fsub F (zq (py_int y)) (zq ft)) u)) <= U).
  { pose proof (uniform_range_int F ft (py_int y) u ltac:(lia) ltac:(lia) H0 H1) as Hr. cbv zeta in Hr.
    apply py_round_range in Hr. lia. }
  eapply wp_mono; [|apply cap_time_spec; assumption].
  intros r [[-> _]|(t & -> & _ & _ & Ht)] t' E; [discriminate|]. injection E as <-. lia.
Qed.

(** tight upper bound in exact arithmetic *)
Lemma rtt_upper_exact (F : fm) a rw1 rw2 rw3 :
  exact F ->
  let T := diff rw1 + diff rw2 + diff rw3 in
  let fc := func_cycle (par a) in
  let ft := func_time (par a) in
  let v := time_var (par a) in
  Z.abs T <= 2 ^ 40 -> 0 <= fc -> 1 <= fc \/ 0 <= T -> 0 <= ft <= 2 ^ 20 -> (0 <= v <= 1)%Q ->
  wp (rand_total_time_of_use F a rw1 rw2 rw3)
     (fun r => forall t, r = Ok t -> t <= Z.max fc (Qfloor (zq ft * (1 + v)))).
Proof.
  intros HF T fc ft v HT Hfc Hor Hft Hv. rewrite rtt_unfold. apply wp_bind_ok.
  eapply wp_mono; [|apply (random_variation_interval F (time_var (par a)) 1 HF); [apply Hv|lra]].
  intros r (x & -> & Hx1 & Hx2); cbn [wpk]. fold v in Hx1, Hx2. fold ft fc.
  assert (Hq0 : (0 <= zq ft)%Q) by (change 0%Q with (zq 0); apply zq_le; lia).
  assert (Hq1 : (zq ft <= 1048576)%Q) by (change 1048576%Q with (zq (2 ^ 20)); apply zq_le; lia).
  destruct Hv as [Hv0 Hv1].
  assert (Ey : (fmul F (zq ft) x == zq ft * x)%Q) by (unfold fmul; apply HF).
  set (y := fmul F (zq ft) x) in *.
  assert (Hy0 : (0 <= y)%Q) by (rewrite Ey; nra).
  assert (Hy1 : (y <= zq ft * (1 + v))%Q) by (rewrite Ey; nra).
  set (U := Qfloor (zq ft * (1 + v))).
  assert (HUft : ft <= U).
  { unfold U. rewrite <- (Qfloor_Z ft) at 1. apply Qfloor_resp_le. fold (zq ft). nra. }
  assert (HU : U <= 2 ^ 22).
  { unfold U. rewrite <- (Qfloor_Z (2 ^ 22)). apply Qfloor_resp_le.
    change (inject_Z (2 ^ 22)) with 4194304%Q. nra. }
  assert (HiU : 0 <= py_int y <= U).
  { rewrite py_int_floor by exact Hy0. split.
    - change 0 with (Qfloor 0). now apply Qfloor_resp_le.
    - now apply Qfloor_resp_le. }
  clearbody U y.
  apply wp_bind_ok. apply wp_uniform. intros u H0 H1. cbn [wpk].
  assert (Hu : py_round (fadd F (zq ft) (fmul F (fsub F (zq (py_int y)) (zq ft)) u)) <= U).
  { pose proof (uniform_range_int F ft (py_int y) u ltac:(lia) ltac:(lia) H0 H1) as Hr. cbv zeta in Hr.
    apply py_round_range in Hr. lia. }
  eapply wp_mono; [|apply cap_time_spec; assumption].
  intros r [[-> _]|(t & -> & _ & _ & Ht)] t' E; [discriminate|]. injection E as <-. lia.
Qed.

(** without time variability the result does not depend on the draws *)
Lemma rtt_novar (F : fm) a rw1 rw2 rw3 :
  (time_var (par a) == 0)%Q -> Z.abs (func_time (par a)) <= 2 ^ 52 ->
  wp (rand_total_time_of_use F a rw1 rw2 rw3)
     (fun r => forall Q : res Z -> Prop,
        wp (cap_time F (func_cycle (par a)) (diff rw1 + diff rw2 + diff rw3) (func_time (par a))) Q -> Q r).
Proof.
  intros Hv Hft. rewrite rtt_unfold. apply wp_bind_ok.
  assert (Hrv : wp (random_variation F (time_var (par a)) 1) (fun r => exists x, r = Ok x /\ (x == 1)%Q)).
  { unfold random_variation. apply wp_bind_ok. apply wp_uniform. intros u H0 H1. cbn [wpk wp].
    eexists; split; [reflexivity|].
    assert (Ea : (fsub F 1 (time_var (par a)) == 1)%Q).
    { unfold fsub. rewrite Hv. setoid_replace (1 - 0)%Q with 1%Q by ring. apply rnd_1. }
    assert (Eb : (fadd F 1 (time_var (par a)) == 1)%Q).
    { unfold fadd. rewrite Hv. setoid_replace (1 + 0)%Q with 1%Q by ring. apply rnd_1. }
    unfold fmul at 1. unfold fadd at 1. unfold fmul at 1. unfold fsub at 2. rewrite Ea, Eb.
    setoid_replace (1 - 1)%Q with 0%Q by ring. rewrite rnd_0.
    setoid_replace (0 * u)%Q with 0%Q by ring. rewrite rnd_0.
    setoid_replace (1 + 0)%Q with 1%Q by ring. rewrite rnd_1.
    setoid_replace (1 * 1)%Q with 1%Q by ring. apply rnd_1. }
  eapply wp_mono; [|exact Hrv]. intros r (x & -> & Hx). cbn [wpk].
  assert (Hi : py_int (fmul F (zq (func_time (par a))) x) = func_time (par a)).
  { rewrite <- (py_int_zq (func_time (par a))) at 2. apply py_int_proper.
    unfold fmul. rewrite Hx. setoid_replace (zq (func_time (par a)) * 1)%Q with (zq (func_time (par a))) by ring.
    apply rnd_int. lia. }
  rewrite Hi. apply wp_bind_ok. apply wp_uniform. intros u H0 H1. cbn [wpk].
  pose proof (uniform_range_int F (func_time (par a)) (func_time (par a)) u Hft Hft H0 H1) as Hr.
  cbv zeta in Hr. apply py_round_range in Hr.
  replace (py_round _) with (func_time (par a)) by lia.
  apply wp_may. intros r Hm Q HQ. eapply wp_elim; [exact HQ|exact Hm].
Qed.

(** ** rand_switch_on_window (C08, C09) *)

Lemma in_indexes_choice spots fc x :
  In x (indexes_choice spots fc) <-> exists s, In s spots /\ fst s <= x /\ x + fc <= snd s.
Proof.
  unfold indexes_choice. rewrite in_flat_map. split.
  - intros (s & Hs & Hx). exists s. destruct (snd s - fst s >=? fc) eqn:E; [|contradiction].
    apply in_arange in Hx. split; [exact Hs|]. lia.
  - intros (s & Hs & H1 & H2). exists s. split; [exact Hs|].
    replace (snd s - fst s >=? fc) with true by lia. apply in_arange. lia.
Qed.

Lemma find_spot_some spots fc x :
  In x (indexes_choice spots fc) ->
  exists s, find_spot spots fc x = Some s /\ In s spots /\ fst s <= x /\ x + fc <= snd s.
Proof.
  intros H. apply in_indexes_choice in H. destruct H as (s & Hs & H1 & H2).
  destruct (find_spot spots fc x) as [s'|] eqn:E.
  - exists s'. split; [reflexivity|]. unfold find_spot in E. apply find_some in E. destruct E; split; [tauto|lia].
  - exfalso. unfold find_spot in E. apply (find_none _ _ E) in Hs. lia.
Qed.

(** the minutes drawn for a start, before duty cycles are considered *)
Definition draw_indexes (F : fm) (fc rand_time switch_on : Z) (spot : Z * Z) : prog (list Z) :=
  let largest := Z.min rand_time (snd spot - switch_on) in
  if largest >? fc then
    u <- py_uniform F (zq fc) (zq largest) ;;
    Ret (arange switch_on (switch_on + py_int u))
  else if largest =? fc then Ret (arange switch_on (switch_on + largest))
  else Raise ValueError.

Lemma draw_indexes_spec (F : fm) fc rand_time x spot :
  0 <= fc <= rand_time -> rand_time <= 2 ^ 52 -> x + fc <= snd spot ->
  wp (draw_indexes F fc rand_time x spot)
     (fun r => exists n, r = Ok (arange x (x + n)) /\ fc <= n <= rand_time /\ x + n <= snd spot).
Proof.
  intros Hfc Hrt Hs. unfold draw_indexes. set (L := Z.min rand_time (snd spot - x)).
  assert (HL : fc <= L /\ L <= rand_time /\ x + L <= snd spot) by lia. clearbody L.
  destruct (L >? fc) eqn:E.
  - apply wp_bind_ok. apply wp_uniform. intros u H0 H1. cbn [wpk wp].
    pose proof (uniform_range_int F fc L u ltac:(lia) ltac:(lia) H0 H1) as Hr. cbv zeta in Hr.
    apply py_int_range in Hr. eexists; split; [reflexivity|]. lia.
  - destruct (L =? fc) eqn:E2; [|lia]. cbn [wp]. exists L. split; [reflexivity|]. lia.
Qed.

(** rand_switch_on_window unfolded one call *)
Definition choose_cycle (depth : nat) (F : fm) (a : appliance) (d : dyn) (rand_time : Z) (indexes : list Z)
    : prog (option (list Z) * dyn) :=
  if fixed_cycle (par a) >? 0 then
    low <- lift (py_first indexes) ;;
    high <- lift (py_last indexes) ;;
    match select_cycle a low high with
    | None => rand_switch_on_window depth F a d rand_time
    | Some i =>
      let dur := zlen (cycle_of d i) in
      let indexes :=
        if (zlen indexes >? dur) && (continuous_duty_cycle (par a) =? 0)
        then firstn (Z.to_nat dur) indexes else indexes in
      Ret (Some indexes, set_duty_id d i)
    end
  else Ret (Some indexes, d).

Lemma rsw_unfold depth F a d rand_time :
  rand_switch_on_window (S depth) F a d rand_time =
  (let fc := func_cycle (par a) in
   let choices := indexes_choice (free_spots d) fc in
   let n := zlen choices in
   if n >? 0 then
     j <- py_randint 0 (n - 1) ;;
     switch_on <- lift (py_index choices j) ;;
     match find_spot (free_spots d) fc switch_on with
     | None => Raise TypeError
     | Some spot =>
       indexes <- draw_indexes F fc rand_time switch_on spot ;;
       choose_cycle depth F a d rand_time indexes
     end
   else Ret (None, d)).
Proof. reflexivity. Qed.

(** what is known about a switch-on event returned by rand_switch_on_window *)
Definition event_facts (a : appliance) (d : dyn) (rand_time : Z) (indexes : list Z) (d' : dyn) : Prop :=
  exists spot s n n0,
    In spot (free_spots d) /\ fst spot <= s /\ s + n0 <= snd spot /\
    func_cycle (par a) <= n0 <= rand_time /\
    indexes = arange s (s + n) /\ 0 <= n <= n0 /\
    (if fixed_cycle (par a) >? 0 then
       exists i, 0 < n0 /\ select_cycle a s (s + n0 - 1) = Some i /\ d' = set_duty_id d i /\
         n = (if (n0 >? zlen (cycle_of d i)) && (continuous_duty_cycle (par a) =? 0)
              then zlen (cycle_of d i) else n0)
     else d' = d /\ n = n0).

(** an event inside one of the ranges that meets no cycle window: the recursive call of
    core.py:1909 *)
Definition cycle_miss (a : appliance) (spots : list (Z * Z)) : Prop :=
  fixed_cycle (par a) > 0 /\
  exists spot s n, In spot spots /\ fst spot <= s /\ s + n <= snd spot /\ 0 < n /\
    select_cycle a s (s + n - 1) = None.

Lemma rsw_spec depth F a d rand_time :
  0 <= func_cycle (par a) <= rand_time -> rand_time <= 2 ^ 52 ->
  wp (rand_switch_on_window depth F a d rand_time)
     (fun r =>
        (r = Err RecursionError /\ (depth = O \/ cycle_miss a (free_spots d))) \/
        (r = Err IndexError /\ fixed_cycle (par a) > 0 /\ func_cycle (par a) = 0) \/
        (r = Ok (None, d) /\ forall s, In s (free_spots d) -> snd s - fst s < func_cycle (par a)) \/
        (exists indexes d', r = Ok (Some indexes, d') /\ event_facts a d rand_time indexes d')).
Proof.
  intros Hfc Hrt. induction depth as [|depth IH]; [cbn; auto|].
  rewrite rsw_unfold. cbv zeta. set (fc := func_cycle (par a)) in *.
  destruct (zlen (indexes_choice (free_spots d) fc) >? 0) eqn:En.
  2: { cbn [wp]. right; right; left. split; [reflexivity|]. intros s Hs.
       destruct (Z_lt_le_dec (snd s - fst s) fc) as [H|H]; [exact H|exfalso].
       assert (Hin : In (fst s) (indexes_choice (free_spots d) fc)).
       { apply in_indexes_choice. exists s. split; [exact Hs|lia]. }
       destruct (indexes_choice (free_spots d) fc); [contradiction|rewrite zlen_cons in En; pose proof (zlen_nonneg l); lia]. }
  apply wp_bind_ok. apply wp_randint; [lia|]. intros j Hj. cbn [wpk].
  destruct (py_index_exists (indexes_choice (free_spots d) fc) j ltac:(lia)) as (x & Hx & Hin).
  rewrite Hx. cbn [lift bind].
  destruct (find_spot_some _ _ _ Hin) as (spot & Hf & Hs & H1 & H2). rewrite Hf.
  apply wp_bind_ok. eapply wp_mono; [|apply draw_indexes_spec; [exact Hfc|exact Hrt|exact H2]].
  intros r (n & -> & Hn & Hn2). cbn [wpk]. unfold choose_cycle.
  destruct (fixed_cycle (par a) >? 0) eqn:Efx.
  - destruct (Z_lt_le_dec 0 n) as [Hn0|Hn0].
    + rewrite py_first_arange by lia. rewrite py_last_arange by lia. cbn [lift bind].
      destruct (select_cycle a x (x + n - 1)) as [i|] eqn:Es.
      * cbn [wp]. right; right; right. eexists; eexists; split; [reflexivity|].
        rewrite zlen_arange. replace (Z.max 0 (x + n - x)) with n by lia.
        set (dur := zlen (cycle_of d i)). assert (Hdur : 0 <= dur) by apply zlen_nonneg.
        exists spot, x, (if (n >? dur) && (continuous_duty_cycle (par a) =? 0) then dur else n), n.
        split; [exact Hs|]. split; [exact H1|]. split; [lia|]. split; [exact Hn|].
        rewrite Efx. destruct ((n >? dur) && (continuous_duty_cycle (par a) =? 0)) eqn:Ec.
        -- split; [rewrite firstn_arange; f_equal; lia|]. split; [lia|].
           exists i. fold dur. rewrite Ec. auto.
        -- split; [reflexivity|]. split; [lia|]. exists i. fold dur. rewrite Ec. auto.
      * eapply wp_mono; [|exact IH].
        intros r Hr. destruct Hr as [[-> Hr]|[Hr|[Hr|Hr]]].
        -- left. split; [reflexivity|right]. split; [lia|]. exists spot, x, n.
           split; [exact Hs|]. split; [exact H1|]. split; [exact Hn2|]. split; [exact Hn0|exact Es].
        -- right; left; exact Hr.
        -- right; right; left; exact Hr.
        -- right; right; right; exact Hr.
    + rewrite arange_nil by lia. cbn. right; left. split; [reflexivity|]. lia.
  - cbn [wp]. right; right; right. eexists; eexists; split; [reflexivity|].
    exists spot, x, n, n. rewrite Efx. repeat split; auto; try lia.
Qed.
