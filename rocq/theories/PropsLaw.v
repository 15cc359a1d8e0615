(** * PropsLaw: laws of the choices made within a day (C87, C88) *)
From Verif Require Import Base Wp F64 Utils ListLemmas Appliance User Sim Spec SpecUser SpecDay ProofsAppliance ProofsEvent ProofsEvent2 ProofsDay ProofsDay2 ProofsRun PropsBasic PropsDay PropsCoincidence Prob PropsProb.
From Coq Require Import ZifyBool ZifyNat.

(** ** Specification *)

(** the probability that random() is below [x] *)
Definition below_chance (L : law) (x : Q) : Q :=
  (zq (Z.max 0 (Z.min (steps L) (Qceiling (x * zq (steps L))))) / zq (steps L))%Q.

(** it is [x] to within one step of random() *)
Lemma below_chance_near L x : (0 <= x)%Q -> (x <= 1)%Q ->
  (x <= below_chance L x)%Q /\ (below_chance L x < x + 1 / zq (steps L))%Q.
Proof.
  intros H0 H1. pose proof (steps_pos L) as Hm. pose proof (zq_pos _ Hm) as Hq. unfold below_chance.
  set (c := Qceiling (x * zq (steps L))).
  assert (F1 : (x * zq (steps L) <= inject_Z c)%Q) by apply Qle_ceiling.
  assert (F2 : (inject_Z (c - 1) < x * zq (steps L))%Q) by apply Qceiling_lt.
  assert (Ha : 0 <= c).
  { assert (Hb : (inject_Z 0 <= inject_Z c)%Q) by (change (inject_Z 0) with 0%Q; nra). rewrite <- Zle_Qle in Hb. exact Hb. }
  assert (Hc : c <= steps L).
  { assert (Hb : (inject_Z (c - 1) < inject_Z (steps L))%Q) by (unfold zq in *; nra). rewrite <- Zlt_Qlt in Hb. lia. }
  replace (Z.max 0 (Z.min (steps L) c)) with c by lia. split.
  - apply Qle_shift_div_l; [exact Hq|exact F1].
  - apply Qlt_shift_div_r; [exact Hq|].
    setoid_replace ((x + 1 / zq (steps L)) * zq (steps L))%Q with (x * zq (steps L) + 1)%Q by (field; lra).
    replace (c - 1) with (c + -1) in F2 by lia. rewrite inject_Z_plus in F2. change (inject_Z (-1)) with (-1)%Q in F2. unfold zq in *. lra.
Qed.

Lemma below_chance_count L x :
  (average (steps L) (fun i => if Qltb (zq i / zq (steps L)) x then 1%Q else 0%Q) == below_chance L x)%Q.
Proof.
  pose proof (steps_pos L) as Hm. pose proof (zq_pos _ Hm) as Hq.
  rewrite (average_ext _ _ (fun i => if i <? Z.max 0 (Z.min (steps L) (Qceiling (x * zq (steps L)))) then 1%Q else 0%Q)).
  { rewrite average_count, count_upto by lia. reflexivity. }
  intros i Hi. set (c := Qceiling (x * zq (steps L))).
  assert (E : Qltb (zq i / zq (steps L)) x = (i <? c)).
  { apply eq_true_iff_eq. rewrite Qltb_lt, Z.ltb_lt. split; intros H.
    - assert (H' : (zq i < inject_Z c)%Q).
      { eapply Qlt_le_trans; [|apply Qle_ceiling]. apply (Qmult_lt_compat_r _ _ (zq (steps L))) in H; [|exact Hq].
        setoid_replace (zq i / zq (steps L) * zq (steps L))%Q with (zq i) in H by (field; lra). exact H. }
      unfold zq in H'. rewrite <- Zlt_Qlt in H'. exact H'.
    - apply Qlt_shift_div_r; [exact Hq|]. eapply Qle_lt_trans; [|apply Qceiling_lt]. fold c. unfold zq. rewrite <- Zle_Qle. lia. }
  rewrite E. replace (i <? Z.max 0 (Z.min (steps L) c)) with (i <? c) by lia. reflexivity.
Qed.

(** ** C87: windows, starts, durations, order of a duty cycle *)

(** Every begin in [w0 - rv, w0 + rv] and every end in [w1 - rv, w1 + rv] is equally likely, independently of each other; a
    begin before midnight becomes midnight, an end after midnight becomes midnight. *)
Theorem C87_window L w rv (f : res (Z * Z) -> Q) : 0 <= rv ->
  (expect L (calc_rand_window w rv) f ==
   average (2 * rv + 1) (fun i => average (2 * rv + 1) (fun j =>
     f (Ok (Z.max 0 (fst w - rv + i), Z.min 1440 (snd w - rv + j))))))%Q.
Proof.
  intros H. unfold calc_rand_window, py_randint.
  replace (fst w + rv + 1 - (fst w - rv)) with (2 * rv + 1) by lia. replace (snd w + rv + 1 - (snd w - rv)) with (2 * rv + 1) by lia.
  replace (2 * rv + 1 <=? 0) with false by lia. cbn [bind expect].
  apply average_ext. intros i _. apply average_ext. intros j _.
  replace (if fst w - rv + i <? 0 then 0 else fst w - rv + i) with (Z.max 0 (fst w - rv + i)) by (destruct (_ <? 0) eqn:E; lia).
  replace (if snd w - rv + j >? 1440 then 1440 else snd w - rv + j) with (Z.min 1440 (snd w - rv + j)) by (destruct (_ >? 1440) eqn:E; lia).
  reflexivity.
Qed.

Lemma average_one n k : 0 <= k < n -> (average n (fun i => if i =? k then 1%Q else 0%Q) == 1 / zq n)%Q.
Proof.
  intros Hk. rewrite average_count.
  assert (Hc : count_below n (fun j => j =? k) = 1).
  { unfold count_below. rewrite (arange_app 0 k n), filter_app by lia. rewrite (arange_cons k n) by lia. cbn [filter]. rewrite Z.eqb_refl.
    rewrite (filter_none _ (arange 0 k)) by (intros x Hx; apply in_arange in Hx; lia).
    rewrite (filter_none _ (arange (k + 1) n)) by (intros x Hx; apply in_arange in Hx; lia). reflexivity. }
  rewrite Hc. reflexivity.
Qed.

(** a given window without clipping *)
Theorem C87_window_chance L w rv x y : 0 <= rv <= fst w -> snd w + rv <= 1440 ->
  fst w - rv <= x <= fst w + rv -> snd w - rv <= y <= snd w + rv ->
  (chance L (calc_rand_window w rv) (fun r => match r with Ok v => (fst v =? x) && (snd v =? y) | Err _ => false end)
   == 1 / zq ((2 * rv + 1) * (2 * rv + 1)))%Q.
Proof.
  intros H H2 Hx Hy. unfold chance. rewrite C87_window by lia.
  rewrite (average_ext _ _ (fun i => (1 / zq (2 * rv + 1)) * (if i =? x - (fst w - rv) then 1%Q else 0%Q))%Q).
  - rewrite average_scale, average_one by lia. unfold zq. rewrite inject_Z_mult. field.
    fold (zq (2 * rv + 1)). assert (0 < zq (2 * rv + 1))%Q by (apply zq_pos; lia). lra.
  - intros i Hi. cbn [fst snd].
    rewrite (average_ext _ _ (fun j => (if i =? x - (fst w - rv) then 1 else 0) * (if j =? y - (snd w - rv) then 1%Q else 0%Q))%Q).
    + rewrite average_scale, average_one by lia. ring.
    + intros j Hj. replace (Z.max 0 (fst w - rv + i) =? x) with (i =? x - (fst w - rv)) by lia.
      replace (Z.min 1440 (snd w - rv + j) =? y) with (j =? y - (snd w - rv)) by lia.
      destruct (i =? _), (j =? _); cbn [andb]; reflexivity.
Qed.

(** Every minute at which an event of func_cycle minutes fits in the free time is the begin of the event with the same
    probability (appliances without duty cycle; with one, an event that meets no cycle window is drawn again). *)
Theorem C87_start F L depth a d rand_time m :
  fixed_cycle (par a) <= 0 -> 1 <= func_cycle (par a) <= rand_time -> rand_time <= 2 ^ 52 ->
  pairwise_disjoint (free_spots d) ->
  exists starts : list Z,
    NoDup starts /\
    (forall m, In m starts <-> exists w, In w (free_spots d) /\ fst w <= m /\ m + func_cycle (par a) <= snd w) /\
    (In m starts ->
     chance L (rand_switch_on_window (S depth) F a d rand_time)
       (fun r => match r with Ok (Some (b :: _), _) => b =? m | _ => false end) == 1 / zq (zlen starts))%Q.
Proof.
  intros Hfx Hfc Hrt Hdis.
  set (starts := indexes_choice (free_spots d) (func_cycle (par a))).
  assert (Hin : forall m, In m starts <-> exists w, In w (free_spots d) /\ fst w <= m /\ m + func_cycle (par a) <= snd w)
    by (intros; apply in_indexes_choice).
  exists starts. split; [apply NoDup_indexes_choice; [lia|exact Hdis]|]. split; [exact Hin|].
  intros Hm. assert (Hex : exists w, In w (free_spots d) /\ func_cycle (par a) <= length_of w).
  { destruct (proj1 (Hin m) Hm) as (w & Hw & H1 & H2). exists w. split; [exact Hw|]. unfold length_of. lia. }
  destruct (C09_uniform_start F depth a d rand_time Hfx Hfc Hrt Hdis Hex) as (st' & k & Hnd & Hin' & Hk & Hall).
  assert (Hperm : zlen st' = zlen starts).
  { unfold zlen. f_equal. apply Nat.le_antisymm; apply NoDup_incl_length; try exact Hnd.
    - intros z Hz. apply Hin. apply Hin'. exact Hz.
    - apply NoDup_indexes_choice; [lia|exact Hdis].
    - intros z Hz. apply Hin'. apply Hin. exact Hz. }
  rewrite <- Hperm. unfold chance. pose proof (bp_rsw (S depth) F a d rand_time) as Hfair. rewrite Hk in *. cbn [expect].
  destruct Hfair as [_ Hfair].
  assert (Hm' : In m st') by (apply Hin'; apply Hin; exact Hm).
  destruct (In_nth_error _ _ Hm') as [j0 Hj0].
  assert (Hlt : (j0 < List.length st')%nat) by (apply nth_error_Some; congruence).
  rewrite (average_ext _ _ (fun j => if j =? Z.of_nat j0 then 1%Q else 0%Q)); [apply average_one; unfold zlen; lia|].
  intros j Hj. apply expect_sure; [apply Hfair|]. intros r Hr.
  destruct (Hall j Hj r Hr) as (ix & -> & Hne & Hhd). destruct ix as [|b ix]; [contradiction|]. cbn [hd_error] in Hhd.
  destruct (j =? Z.of_nat j0) eqn:Ej.
  - replace (Z.to_nat j) with j0 in Hhd by lia. rewrite Hj0 in Hhd. injection Hhd as ->. now rewrite Z.eqb_refl.
  - destruct (b =? m) eqn:Eb; [|reflexivity]. exfalso. assert (b = m) by lia. subst b.
    pose proof (proj1 (NoDup_nth_error st') Hnd (Z.to_nat j) j0) as Hinj.
    assert (Z.to_nat j = j0) by (apply Hinj; [unfold zlen in Hj; lia|congruence]). lia.
Qed.

Lemma rnd_proper F x y : (x == y)%Q -> (rnd F x == rnd F y)%Q.
Proof. intros Hxy. apply Qle_antisym; apply rnd_mono; rewrite Hxy; apply Qle_refl. Qed.

(** [int(random.uniform(lo, hi))] is below [k] with probability (k - lo) / (hi - lo) *)
Lemma below_uniform F L lo hi k : exact F -> 0 <= lo < hi -> lo <= k <= hi ->
  (average (steps L) (fun i => if py_int (fadd F (zq lo) (fmul F (fsub F (zq hi) (zq lo)) (zq i / zq (steps L)))) <? k
                               then 1%Q else 0%Q) == below_chance L (zq (k - lo) / zq (hi - lo)))%Q.
Proof.
  intros HF Hlo Hk. rewrite <- below_chance_count. apply average_ext. intros i Hi.
  destruct (draw_in L i Hi) as [U0 U1]. set (u := (zq i / zq (steps L))%Q) in *. clearbody u.
  assert (Hd : (0 < zq (hi - lo))%Q) by (apply zq_pos; lia).
  set (v := fadd F (zq lo) (fmul F (fsub F (zq hi) (zq lo)) u)).
  assert (Ev : (v == zq lo + zq (hi - lo) * u)%Q).
  { unfold v, fadd, fmul, fsub. rewrite !(HF _). unfold zq. unfold Z.sub. rewrite inject_Z_plus, inject_Z_opp. ring. }
  assert (Hv0 : (0 <= v)%Q).
  { rewrite Ev. assert (0 <= zq lo)%Q by (change 0%Q with (zq 0); apply zq_le; lia). nra. }
  assert (E : (py_int v <? k) = Qltb u (zq (k - lo) / zq (hi - lo))).
  { apply eq_true_iff_eq. rewrite Z.ltb_lt, Qltb_lt. unfold py_int. replace (Qle_bool 0 v) with true by (symmetry; apply Qle_bool_iff; exact Hv0).
    assert (Ek : (zq k == zq lo + zq (k - lo))%Q) by (unfold zq, Z.sub; rewrite inject_Z_plus, inject_Z_opp; ring).
    split; intros H.
    - assert (Hl : (v < zq k)%Q).
      { eapply Qlt_le_trans; [apply Qlt_floor|]. unfold zq. rewrite <- Zle_Qle. lia. }
      apply Qlt_shift_div_l; [exact Hd|]. rewrite Ev, Ek in Hl. lra.
    - assert (Hl : (v < zq k)%Q).
      { rewrite Ev, Ek. assert (u * zq (hi - lo) < zq (k - lo))%Q.
        { apply (Qmult_lt_compat_r _ _ (zq (hi - lo))) in H; [|exact Hd].
          setoid_replace (zq (k - lo) / zq (hi - lo) * zq (hi - lo))%Q with (zq (k - lo)) in H by (field; lra). exact H. }
        lra. }
      assert (Hf : (inject_Z (Qfloor v) < inject_Z k)%Q) by (eapply Qle_lt_trans; [apply Qfloor_le|exact Hl]).
      rewrite <- Zlt_Qlt in Hf. exact Hf. }
  rewrite E. reflexivity.
Qed.

(** an event that begins at minute [m] and lasts less than [k] minutes *)
Definition begins_and_is_shorter {A} (m k : Z) (r : res (option (list Z) * A)) : bool :=
  match r with Ok (Some (b :: rest), _) => (b =? m) && (zlen (b :: rest) <? k) | _ => false end.

(** The duration of an event that begins at minute [m] of the free range [w] (no duty cycle): between func_cycle and the
    longest possible duration, every duration is equally likely -- to within one step of random() -- except the longest one,
    which never happens. *)
Theorem C87_duration F L depth a d rand_time w m longest k :
  exact F -> fixed_cycle (par a) <= 0 -> 1 <= func_cycle (par a) <= rand_time ->
  pairwise_disjoint (free_spots d) -> In w (free_spots d) -> fst w <= m -> m + func_cycle (par a) <= snd w ->
  longest = Z.min rand_time (snd w - m) -> func_cycle (par a) < longest -> func_cycle (par a) <= k <= longest ->
  exists starts : list Z,
    NoDup starts /\
    (forall m, In m starts <-> exists w, In w (free_spots d) /\ fst w <= m /\ m + func_cycle (par a) <= snd w) /\
    (chance L (rand_switch_on_window (S depth) F a d rand_time)
      (begins_and_is_shorter m k)
     == 1 / zq (zlen starts) * below_chance L (zq (k - func_cycle (par a)) / zq (longest - func_cycle (par a))))%Q.
Proof.
  intros HF Hfx Hfc Hdis Hw Hm1 Hm2 Elg Hlg Hk.
  set (fc := func_cycle (par a)) in *. set (starts := indexes_choice (free_spots d) fc).
  assert (Hnd : NoDup starts) by (apply NoDup_indexes_choice; [lia|exact Hdis]).
  assert (Hin : forall m, In m starts <-> exists w, In w (free_spots d) /\ fst w <= m /\ m + fc <= snd w)
    by (intros; apply in_indexes_choice).
  exists starts. split; [exact Hnd|]. split; [exact Hin|].
  assert (Hm : In m starts) by (apply Hin; exists w; auto).
  unfold chance. rewrite rsw_unfold. cbv zeta. fold fc starts.
  assert (Hn : 0 < zlen starts) by (destruct starts; [contradiction|rewrite zlen_cons; pose proof (zlen_nonneg starts); lia]).
  replace (zlen starts >? 0) with true by lia.
  unfold py_randint. replace (zlen starts - 1 + 1 - 0) with (zlen starts) by lia.
  replace (zlen starts <=? 0) with false by lia. cbn [bind expect].
  destruct (In_nth_error _ _ Hm) as [j0 Hj0].
  assert (Hlt : (j0 < List.length starts)%nat) by (apply nth_error_Some; congruence).
  set (P := below_chance L (zq (k - fc) / zq (longest - fc))).
  rewrite (average_ext _ _ (fun j => P * (if j =? Z.of_nat j0 then 1%Q else 0%Q))%Q).
  { rewrite average_scale, average_one by (unfold zlen; lia). ring. }
  intros j Hj. replace (0 + j) with j by lia.
  destruct (nth_error starts (Z.to_nat j)) as [x|] eqn:Ex.
  2: { apply nth_error_None in Ex. unfold zlen in Hj; lia. }
  rewrite (proj2 (py_index_ok starts j x Hj) Ex). cbn [lift bind].
  assert (Hx : In x starts) by (eapply nth_error_In; exact Ex).
  destruct (find_spot_some _ _ _ Hx) as (spot & Hf & Hs & H1 & H2). fold fc in Hf. rewrite Hf.
  unfold choose_cycle. replace (fixed_cycle (par a) >? 0) with false by lia.
  rewrite expect_bind. unfold draw_indexes. fold fc.
  destruct (j =? Z.of_nat j0) eqn:Ej.
  - replace (Z.to_nat j) with j0 in Ex by lia. rewrite Hj0 in Ex. injection Ex as <-.
    assert (Esp : spot = w).
    { destruct (ForallOrdPairs_In Hdis spot w Hs Hw) as [E|[E|E]]; [exact E| |]; unfold disjoint in E; lia. }
    subst spot. rewrite <- Elg. replace (longest >? fc) with true by lia. cbn [bind py_uniform expect onward].
    rewrite Qmult_1_r. unfold P. rewrite <- (below_uniform F L fc longest k HF) by lia.
    apply average_ext. intros i Hi.
    destruct (draw_in L i Hi) as [U0 U1].
    match goal with |- context [py_int ?v] => set (n := py_int v); assert (Hnr : fc <= n) end.
    { unfold n, py_int.
      match goal with |- context [Qle_bool 0 ?v] => assert (Hv : (zq fc <= v)%Q) end.
      { unfold fadd, fmul, fsub. rewrite !(HF _). assert (Hle : (zq fc <= zq longest)%Q) by (apply zq_le; lia). nra. }
      assert (H0 : (0 <= zq fc)%Q) by (change 0%Q with (zq 0); apply zq_le; lia).
      rewrite (proj2 (Qle_bool_iff _ _)) by lra. apply Qfloor_resp_le in Hv. unfold zq in Hv at 1. rewrite Qfloor_Z in Hv. exact Hv. }
    clearbody n. rewrite (arange_cons m (m + n)) by lia. cbn [begins_and_is_shorter]. rewrite Z.eqb_refl.
    rewrite zlen_cons, zlen_arange. replace (Z.max 0 (m + n - (m + 1)) + 1) with n by lia. reflexivity.
  - rewrite Qmult_0_r.
    assert (Hne : x <> m).
    { intros ->. pose proof (proj1 (NoDup_nth_error starts) Hnd (Z.to_nat j) j0) as Hinj.
      assert (Z.to_nat j = j0) by (apply Hinj; [unfold zlen in Hj; lia|congruence]). lia. }
    apply expect_sure.
    { destruct (_ >? fc); [apply below_pos_bind; [apply bp_uniform|intros; exact I]|]. destruct (_ =? fc); exact I. }
    intros r Hr. destruct r as [ix|e]; [|reflexivity]. cbn [onward expect].
    assert (Hhd : exists n, ix = arange x (x + n)).
    { destruct (_ >? fc) in Hr.
      - apply may_bind in Hr. destruct Hr as [(v & _ & Hr)|(e & _ & Hr)]; [|discriminate]. apply may_ret_inv in Hr. injection Hr as ->. eauto.
      - destruct (_ =? fc) in Hr; [apply may_ret_inv in Hr; injection Hr as ->; eauto|apply may_raise_inv in Hr; discriminate]. }
    destruct Hhd as [n ->]. destruct (Z_lt_le_dec 0 n) as [Hp|Hp].
    + rewrite (arange_cons x (x + n)) by lia. cbn [begins_and_is_shorter]. replace (x =? m) with false by lia. reflexivity.
    + rewrite (arange_nil x (x + n)) by lia. reflexivity.
Qed.

Lemma below_chance_1 L : (below_chance L 1 == 1)%Q.
Proof.
  pose proof (steps_pos L) as Hm. pose proof (zq_pos _ Hm) as Hq. unfold below_chance.
  assert (E : Qceiling (1 * zq (steps L)) = steps L).
  { rewrite (Qceiling_comp (1 * zq (steps L)) (zq (steps L))) by ring. apply Qceiling_Z. }
  rewrite E. replace (Z.max 0 (Z.min (steps L) (steps L))) with (steps L) by lia. field. lra.
Qed.

(** an event that could last [longest] minutes is always shorter, unless func_cycle leaves no choice *)
Theorem C87_never_longest F L depth a d rand_time w m longest :
  exact F -> fixed_cycle (par a) <= 0 -> 1 <= func_cycle (par a) <= rand_time -> rand_time <= 2 ^ 52 ->
  pairwise_disjoint (free_spots d) -> In w (free_spots d) -> fst w <= m -> m + func_cycle (par a) <= snd w ->
  longest = Z.min rand_time (snd w - m) -> func_cycle (par a) < longest ->
  (chance L (rand_switch_on_window (S depth) F a d rand_time) (begins_and_is_shorter m longest) ==
   chance L (rand_switch_on_window (S depth) F a d rand_time) (begins_and_is_shorter m (longest + 1)))%Q /\
  (0 < chance L (rand_switch_on_window (S depth) F a d rand_time) (begins_and_is_shorter m longest))%Q.
Proof.
  intros HF Hfx Hfc Hrt Hdis Hw Hm1 Hm2 Elg Hlg.
  destruct (C87_duration F L depth a d rand_time w m longest longest HF Hfx Hfc Hdis Hw Hm1 Hm2 Elg Hlg ltac:(lia)) as (starts & Hnd & Hin & Hc).
  assert (Hd : (0 < zq (longest - func_cycle (par a)))%Q) by (apply zq_pos; lia).
  assert (E1 : (below_chance L (zq (longest - func_cycle (par a)) / zq (longest - func_cycle (par a))) == 1)%Q).
  { unfold below_chance. rewrite (Qceiling_comp _ (1 * zq (steps L))); [apply below_chance_1|]. field. lra. }
  rewrite E1 in Hc.
  assert (Hm : In m starts) by (apply Hin; exists w; auto).
  assert (Hz : (0 < zq (zlen starts))%Q).
  { apply zq_pos. destruct starts; [contradiction|]. rewrite zlen_cons. pose proof (zlen_nonneg starts). lia. }
  split.
  - destruct (C87_start F L depth a d rand_time m Hfx Hfc Hrt Hdis) as (st' & Hnd' & Hin' & Hc').
    assert (Hlen : zlen st' = zlen starts).
    { unfold zlen. f_equal. apply Nat.le_antisymm; apply NoDup_incl_length; try assumption.
      - intros z Hz'. apply Hin. apply Hin'. exact Hz'.
      - intros z Hz'. apply Hin'. apply Hin. exact Hz'. }
    specialize (Hc' ltac:(apply Hin'; exists w; auto)). rewrite Hlen in Hc'.
    apply Qle_antisym.
    + apply expect_le; [apply bp_rsw|]. intros [[[[|b ix]|] d']|e] _; cbn [begins_and_is_shorter]; try apply Qle_refl.
      destruct (b =? m); cbn [andb]; [|apply Qle_refl].
      destruct (zlen (b :: ix) <? longest) eqn:E; [replace (zlen (b :: ix) <? longest + 1) with true by lia; apply Qle_refl|].
      destruct (zlen (b :: ix) <? longest + 1); discriminate.
    + rewrite Hc, Qmult_1_r, <- Hc'. apply expect_le; [apply bp_rsw|].
      intros [[[[|b ix]|] d']|e] _; cbn [begins_and_is_shorter]; try apply Qle_refl; try discriminate.
      destruct (b =? m); cbn [andb]; [|apply Qle_refl]. destruct (_ <? _); discriminate.
  - rewrite Hc, Qmult_1_r. apply Qlt_shift_div_l; [exact Hz|]. lra.
Qed.

(** The two parts of a duty cycle come in either order with the same probability (random_choice is given no error by its
    two duty cycles). *)
Theorem C87_order F L var t1 p1 t2 p2 f :
  (forall r, may (duty_cycle F var t1 p1 t2 p2) r -> exists c, r = Ok c) ->
  (forall r, may (duty_cycle F var t2 p2 t1 p1) r -> exists c, r = Ok c) ->
  (expect L (random_choice F var t1 p1 t2 p2) f ==
   (1 # 2) * expect L (duty_cycle F var t1 p1 t2 p2) f + (1 # 2) * expect L (duty_cycle F var t2 p2 t1 p1) f)%Q.
Proof.
  intros H1 H2. unfold random_choice. rewrite expect_bind.
  set (E2 := expect L (duty_cycle F var t2 p2 t1 p1) f).
  rewrite (expect_ext L _ _ (fun r => (1 # 2) * f r + (1 # 2) * E2)%Q).
  - rewrite expect_add, expect_scale, expect_const by apply bp_duty. reflexivity.
  - intros r Hr. destruct (H1 r Hr) as [c ->]. cbn [onward]. rewrite expect_bind.
    rewrite (expect_ext L _ _ (fun r => (1 # 2) * f (Ok c) + (1 # 2) * f r)%Q).
    + rewrite expect_add, expect_const, expect_scale by apply bp_duty. reflexivity.
    + intros r' Hr'. destruct (H2 r' Hr') as [c' ->]. cbn [onward py_choice2 expect].
      unfold average. change (arange 0 2) with [0; 1]. cbn [map]. rewrite !qsum_cons. change (Qsum []) with 0%Q.
      cbn [Z.eqb]. change (zq 2) with (2%Q). field.
Qed.

(** ** C88: how many units switch on together *)

(** off-peak: the number of units that switch on together is at most k (k < number) with probability k / (number - 1/2) *)
Theorem C88_off_peak F L a k : exact F -> fixed (par a) = "no"%string -> 1 <= number (par a) -> 0 <= k < number (par a) ->
  (chance L (calc_coincident_switch_on F a false) (fun r => match r with Ok c => c <=? k | Err _ => false end) ==
   below_chance L (zq k / (zq (number (par a)) - (1 # 2))))%Q.
Proof.
  intros HF Hno Hn Hk. unfold chance, calc_coincident_switch_on. rewrite Hno. cbn [String.eqb Ascii.eqb Bool.eqb andb negb].
  set (n := number (par a)) in *. replace (n =? 0) with false by lia. cbn [bind py_uniform expect].
  assert (Hn1 : (1 <= zq n)%Q) by (change 1%Q with (zq 1); apply zq_le; lia).
  rewrite <- below_chance_count. apply average_ext. intros i Hi. destruct (draw_in L i Hi) as [U0 U1].
  set (u := (zq i / zq (steps L))%Q) in *. clearbody u.
  set (p := fadd F 0 (fmul F (fsub F (fdiv F (fsub F (zq n) half) (zq n)) 0) u)).
  assert (Ep : (p * zq n == u * (zq n - (1 # 2)))%Q).
  { unfold p, fadd, fmul, fsub, fdiv, half. rewrite !(HF _). field. lra. }
  assert (Hp0 : (0 <= p)%Q).
  { destruct (Qlt_le_dec p 0) as [C|C]; [|exact C]. exfalso. nra. }
  assert (Hp1 : (p < 1)%Q).
  { destruct (Qlt_le_dec p 1) as [C|C]; [exact C|]. exfalso. nra. }
  rewrite (on_number_exact F n p HF Hn Hp0 Hp1). rewrite (Qfloor_comp _ _ Ep).
  set (fl := Qfloor (u * (zq n - (1 # 2)))).
  assert (E : (fl + 1 <=? k) = Qltb u (zq k / (zq n - (1 # 2)))).
  { apply eq_true_iff_eq. rewrite Z.leb_le, Qltb_lt. split; intros H.
    - apply Qlt_shift_div_l; [lra|]. eapply Qlt_le_trans; [apply Qlt_floor|]. fold fl. apply zq_le. exact H.
    - assert (Hl : (u * (zq n - (1 # 2)) < zq k)%Q).
      { apply (Qmult_lt_compat_r _ _ (zq n - (1 # 2))) in H; [|lra].
        setoid_replace (zq k / (zq n - (1 # 2)) * (zq n - (1 # 2)))%Q with (zq k) in H by (field; lra). exact H. }
      assert (Hf : (inject_Z fl < inject_Z k)%Q) by (eapply Qle_lt_trans; [apply Qfloor_le|exact Hl]).
      rewrite <- Zlt_Qlt in Hf. lia. }
  rewrite E. reflexivity.
Qed.

(** in the peak: at most k (1 <= k < number) when the deviate is at most 4k/number - 2 *)
Theorem C88_peak F L a k : exact F -> fixed (par a) = "no"%string -> 1 <= k < number (par a) ->
  (chance L (calc_coincident_switch_on F a true) (fun r => match r with Ok c => c <=? k | Err _ => false end) ==
   weighted (bell L) (fun z => if Qle_bool z (4 * zq k / zq (number (par a)) - 2) then 1%Q else 0%Q))%Q.
Proof.
  intros HF Hno Hk. unfold chance, calc_coincident_switch_on. rewrite Hno. cbn [String.eqb Ascii.eqb Bool.eqb andb negb].
  set (n := number (par a)) in *. cbn [bind py_gauss expect].
  assert (Hn1 : (1 <= zq n)%Q) by (change 1%Q with (zq 1); apply zq_le; lia).
  apply weighted_ext. intros z.
  match goal with |- context [py_ceil ?v] => set (g := v) end.
  assert (Eg : (g == (1 # 2) * zq n + (1 # 4) * (z * zq n))%Q).
  { unfold g, fadd, fmul, half. rewrite !(HF _). field. }
  assert (E : (Z.min n (Z.max 1 (py_ceil g)) <=? k) = Qle_bool z (4 * zq k / zq n - 2)).
  { transitivity (py_ceil g <=? k); [lia|]. apply eq_true_iff_eq. rewrite Z.leb_le, Qle_bool_iff. unfold py_ceil. split; intros H.
    - assert (Hg : (g <= zq k)%Q) by (eapply Qle_trans; [apply Qle_ceiling|]; apply zq_le; exact H).
      rewrite Eg in Hg.
      assert (z * (zq n) <= (4 * zq k / zq n - 2) * zq n)%Q.
      { setoid_replace ((4 * zq k / zq n - 2) * zq n)%Q with (4 * zq k - 2 * zq n)%Q by (field; lra). lra. }
      apply Qmult_le_r with (z := zq n); [lra|assumption].
    - assert (Hg : (g <= zq k)%Q).
      { rewrite Eg. apply (Qmult_le_compat_r _ _ (zq n)) in H; [|lra].
        setoid_replace ((4 * zq k / zq n - 2) * zq n)%Q with (4 * zq k - 2 * zq n)%Q in H by (field; lra). lra. }
      apply Qceiling_resp_le in Hg. unfold zq in Hg. rewrite Qceiling_Z in Hg. exact Hg. }
  rewrite E. reflexivity.
Qed.

(** never fewer than one, never more than number; with fixed = "yes" always number *)
Theorem C88_range F L a inside : 1 <= number (par a) ->
  (chance L (calc_coincident_switch_on F a inside) (fun r => match r with Ok c => (1 <=? c) && (c <=? number (par a)) | Err _ => false end) == 1)%Q /\
  (fixed (par a) <> "no"%string ->
   chance L (calc_coincident_switch_on F a inside) (fun r => match r with Ok c => c =? number (par a) | Err _ => false end) == 1)%Q.
Proof.
  intros Hn.
  assert (Hf : below_pos (calc_coincident_switch_on F a inside)).
  { unfold calc_coincident_switch_on. destruct (_ && _); [apply below_pos_bind; [apply bp_gauss|intros; exact I]|].
    destruct (_ && _); [|exact I]. destruct (_ =? 0); [exact I|]. apply below_pos_bind; [apply bp_uniform|intros; exact I]. }
  split; [|intros Hno]; apply expect_sure; try exact Hf; intros r Hr;
    destruct (wp_elim _ _ _ (coincidence_range F a inside Hn) Hr) as (c & -> & Hc & Hc').
  - replace ((1 <=? c) && (c <=? number (par a))) with true by lia. reflexivity.
  - rewrite (Hc' Hno). now rewrite Z.eqb_refl.
Qed.

Example C87_case :
  (chance py_law (calc_rand_window (480, 600)%Z 12) (fun r => match r with Ok v => (fst v =? 470) && (snd v =? 612) | Err _ => false end) == 1 # 625)%Q /\
  fixed_cycle (par demo) <= 0 /\ 1 <= func_cycle (par demo) <= 120 /\ pairwise_disjoint (free_spots demo_state) /\
  In (480, 600) (free_spots demo_state) /\ 500 + func_cycle (par demo) <= 600 /\ func_cycle (par demo) < Z.min 120 (600 - 500) /\
  (below_chance py_law (zq (55 - 10) / zq (100 - 10)) == 1 # 2)%Q.
Proof.
  split; [rewrite C87_window_chance by (cbn [fst snd]; lia); reflexivity|]. split; [cbn; lia|]. split; [cbn; lia|].
  split; [repeat constructor; cbn; lia|]. split; [left; reflexivity|]. split; [cbn; lia|]. split; [cbn; lia|]. vm_compute. reflexivity.
Qed.

(** three televisions: off-peak one alone with probability 2/5, at least two with 3/5; in the peak the deviate 0 makes two *)
Example C88_case : fixed (par demo) = "no"%string /\ 1 <= number (par demo) /\
  (below_chance small_law (zq 1 / (zq (number (par demo)) - (1 # 2))) == 1 # 2)%Q /\
  (below_chance py_law (zq 1 / (zq (number (par demo)) - (1 # 2))) - (2 # 5) < 1 # 2 ^ 53)%Q /\
  (chance py_law (calc_coincident_switch_on exact_fm demo true) (fun r => match r with Ok c => c <=? 1 | Err _ => false end) == 1 # 2)%Q.
Proof.
  split; [reflexivity|]. split; [cbn; lia|]. split; [vm_compute; reflexivity|]. split; [vm_compute; reflexivity|].
  etransitivity; [apply (C88_peak exact_fm py_law demo 1 exact_exact_fm); [reflexivity|cbn; lia]|]. vm_compute. reflexivity.
Qed.
