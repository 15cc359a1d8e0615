(** * PropsExamples: the shipped example inputs (C69), and the case of C67 *)
From Verif Require Import Base Wp Tape ListLemmas Utils Appliance Attributes User Spec SpecDay ProofsUtils ProofsUtils2 ProofsAppliance
  ProofsEvent ProofsEvent2 PropsBasic ProofsDay ProofsDay2 ProofsDay3 PropsDay UseCase SpecUser SpecUseCase ProofsUser ProofsUseCase
  PropsUseCase ProofsEq PropsInit PropsPeak Declare Script PropsDeclare PropsReg PropsScript PropsTotal Examples.
From Coq Require Import ZifyBool ZifyNat.
Open Scope list_scope.
Open Scope Z_scope.

(** ** windows() accepts valid windows *)

Lemma windows_succeed F a w1 w2 rvw w3 :
  let n := num_windows (par a) in
  let x1 := match w1 with Some x => x | None => (0, 1440) end in
  let x2 := match w2 with Some x => x | None => window_2 (win a) end in
  let x3 := match w3 with Some x => x | None => window_3 (win a) end in
  1 <= n <= 3 -> (2 <= n -> w2 <> None) -> (n = 3 -> w3 <> None) -> inside_day x1 -> inside_day x2 -> inside_day x3 ->
  func_time (par a) <= length_of x1 + (if 2 <=? n then length_of x2 else 0) + (if 3 <=? n then length_of x3 else 0) ->
  exists a', windows F a w1 w2 rvw w3 = (a', None).
Proof.
  intros n x1 x2 x3 Hn H2 H3 D1 D2 D3 Ht.
  destruct (fill_window_ok (zeros day_minutes) _ (mask_value F) D1 zlen_zeros) as (d1 & E1).
  assert (L1 : zlen d1 = 1440).
  { pose proof zlen_zeros as ZZ. destruct D1 as [Da Db]. destruct (fill_window_spec (zeros day_minutes) x1 (mask_value F) d1 ltac:(lia) ltac:(lia) E1) as (_ & -> & _). apply zlen_zeros. }
  destruct (fill_window_ok d1 _ (mask_value F) D2 L1) as (d2 & E2).
  assert (L2 : zlen d2 = 1440).
  { destruct D2 as [Da Db]. destruct (fill_window_spec d1 x2 (mask_value F) d2 ltac:(lia) ltac:(lia) E2) as (_ & -> & _). exact L1. }
  destruct (fill_window_ok d2 _ (mask_value F) D3 L2) as (d3 & E3).
  unfold windows.
  assert (G2 : match w2 with None => num_windows (par a) >=? 2 | Some _ => false end = false).
  { destruct w2; [reflexivity|]. destruct (Z.geb_spec (num_windows (par a)) 2); [|reflexivity]. exfalso. apply H2; [assumption|reflexivity]. }
  assert (G3 : match w3 with None => num_windows (par a) =? 3 | Some _ => false end = false).
  { destruct w3; [reflexivity|]. destruct (Z.eqb_spec (num_windows (par a)) 3); [|reflexivity]. exfalso. apply H3; [assumption|reflexivity]. }
  rewrite G2, G3. cbn [window_1 window_2 window_3 random_var_w random_var_1 random_var_2 random_var_3].
  rewrite window_time_ok by exact Hn. cbn [window_1 window_2 window_3].
  fold x1 x2 x3. match goal with |- context [if ?x <? ?y then _ else _] => replace (x <? y) with false end.
  2: { symmetry. apply Z.ltb_ge. fold n. replace (1 <=? n) with true by lia. unfold length_of, diff in *. lia. }
  rewrite E1, E2, E3. cbv zeta. destruct (_ =? 1); eexists; reflexivity.
Qed.

(** ** The random variability of a window, from the decimal literal *)

Definition rv_max (q : Q) (len : Z) : Z := Qfloor (q * zq len + (1 # 500)).

(** [r] is the literal [q] as the parser reads it *)
Definition reads (F : fm) (q r : Q) : Prop := r = flit F q \/ r = q.

Lemma half_fl F : isfl F (1 # 2).
Proof. exact (rnd_dyadic F 1 1 ltac:(lia) ltac:(lia)). Qed.

Lemma reads_bounds F q r : reads F q r -> (0 <= q <= 1 # 2)%Q -> (0 <= r <= 1 # 2)%Q /\ (r <= q + (1 # 2000000))%Q.
Proof.
  intros [->| ->] [H0 H1]; [|lra]. unfold flit.
  pose proof (rnd_nonneg F q H0). pose proof (rnd_le_fl F q (1 # 2) (half_fl F) H1).
  destruct (rnd_err_bounds F q (1 # 2)) as [_ Hb]; [lra|]. split; [split; assumption|].
  assert ((1 # 2) * eps53 + eta64 <= 1 # 2000000)%Q by (vm_compute; discriminate). lra.
Qed.

Lemma rv_bound F q r len : reads F q r -> (0 <= q <= 1 # 2)%Q -> 0 <= len <= 1440 ->
  0 <= py_int (fmul F r (zq len)) <= rv_max q len.
Proof.
  intros Hr Hq Hl. destruct (reads_bounds F q r Hr Hq) as [[R0 R1] R2].
  assert (Hz : (0 <= zq len <= 1440)%Q) by (split; [change 0%Q with (zq 0)|change 1440%Q with (zq 1440)]; apply zq_le; lia).
  assert (Hx : (0 <= r * zq len)%Q) by nra.
  assert (Hy : (r * zq len <= q * zq len + (1 # 1000))%Q) by nra.
  assert (Hz0 : (0 <= fmul F r (zq len))%Q) by (apply rnd_nonneg; exact Hx).
  rewrite py_int_floor by exact Hz0. unfold rv_max.
  set (B := Qfloor (q * zq len + (1 # 500))).
  assert (HB : (q * zq len + (1 # 500) < zq (B + 1))%Q) by (apply Qlt_floor).
  assert (HB0 : 0 <= B <= 1500).
  { unfold B. split; [change 0 with (Qfloor 0); apply Qfloor_resp_le; nra|].
    change 1500 with (Qfloor 1500). apply Qfloor_resp_le. nra. }
  assert (Hdy : (r * zq len <= (1024 * (B + 1) - 1) # Z.to_pos (2 ^ 10))%Q).
  { change (Z.to_pos (2 ^ 10)) with 1024%positive. unfold zq in *.
    assert (((1024 * (B + 1) - 1) # 1024 == inject_Z (B + 1) - (1 # 1024))%Q) as ->.
    { unfold Qeq, Qminus, Qplus, Qopp, inject_Z. cbn [Qnum Qden]. lia. }
    lra. }
  assert (Hle : (fmul F r (zq len) <= (1024 * (B + 1) - 1) # Z.to_pos (2 ^ 10))%Q).
  { unfold fmul. rewrite <- (rnd_dyadic F (1024 * (B + 1) - 1) 10) by lia. apply rnd_mono. exact Hdy. }
  split; [change 0 with (Qfloor 0); apply Qfloor_resp_le; exact Hz0|].
  apply Qfloor_resp_le in Hle.
  assert (Hfl : Qfloor ((1024 * (B + 1) - 1) # Z.to_pos (2 ^ 10)) = B).
  { change (Z.to_pos (2 ^ 10)) with 1024%positive. unfold Qfloor. symmetry. apply Z.div_unique with 1023; lia. }
  lia.
Qed.

(** ** The duty cycles after some calls *)

Definition three_cycles : Type := (cycle * cycle * cycle)%type.
Definition cycles_step (cs : three_cycles) (d : decl) : three_cycles :=
  let '(c1, c2, c3) := cs in
  match d with
  | DWindows _ _ _ _ => cs
  | DCycle i args =>
      if i =? 1 then (fst (apply_cycle_args c1 args), c2, c3)
      else if i =? 2 then (c1, fst (apply_cycle_args c2 args), c3)
      else if i =? 3 then (c1, c2, fst (apply_cycle_args c3 args)) else cs
  | DBehaviour w11 w12 w21 w22 w31 w32 =>
      let z o := match o with Some x => x | None => (0, 0) end in
      let upd c x y := Cycle (cp1 c) (ct1 c) (cp2 c) (ct2 c) (cr c) (z x) (z y) in
      (upd c1 w11 w12, upd c2 w21 w22, upd c3 w31 w32)
  end.
Definition step_ok (d : decl) : bool :=
  match d with
  | DWindows _ _ _ _ => false
  | DCycle _ args => negb ((match ca_t1 args with Some t => t | None => 0 end <? 0) || (match ca_t2 args with Some t => t | None => 0 end <? 0))
  | DBehaviour _ _ _ _ _ _ => true
  end.
Definition with_cycles (a : appliance) (cs : three_cycles) : appliance :=
  let '(c1, c2, c3) := cs in set_cyc3 (set_cyc2 (set_cyc1 a c1) c2) c3.
Definition cycles_of (a : appliance) : three_cycles := (cyc1 a, cyc2 a, cyc3 a).

Lemma declare_cycles F ds : forallb step_ok ds = true -> forall a,
  declare F a ds = (with_cycles a (fold_left cycles_step ds (cycles_of a)), None).
Proof.
  intros Hs. induction ds as [|d ds IH]; intros a; [destruct a; reflexivity|].
  cbn [forallb] in Hs. apply andb_prop in Hs as [Hd Hs]. cbn [declare fold_left].
  assert (E : declare1 F a d = (with_cycles a (cycles_step (cycles_of a) d), None)).
  { destruct d as [w1 w2 rvw w3|i args|w11 w12 w21 w22 w31 w32]; [discriminate| |destruct a; reflexivity].
    cbn [declare1 step_ok cycles_step cycles_of] in *. unfold specific_cycle_num.
    assert (He : forall c, snd (apply_cycle_args c args) = None).
    { intros c. unfold apply_cycle_args, specific_cycle. cbn [snd]. apply negb_true_iff in Hd. rewrite Hd. reflexivity. }
    destruct (i =? 1); [|destruct (i =? 2); [|destruct (i =? 3)]].
    - specialize (He (cyc1 a)). destruct (apply_cycle_args (cyc1 a) args) as [c e]. cbn [fst snd] in *. subst e. destruct a; reflexivity.
    - specialize (He (cyc2 a)). destruct (apply_cycle_args (cyc2 a) args) as [c e]. cbn [fst snd] in *. subst e. destruct a; reflexivity.
    - specialize (He (cyc3 a)). destruct (apply_cycle_args (cyc3 a) args) as [c e]. cbn [fst snd] in *. subst e. destruct a; reflexivity.
    - destruct a; reflexivity. }
  rewrite E, (IH Hs). f_equal. destruct (cycles_step (cycles_of a) d) as [[c1 c2] c3] eqn:Ec.
  assert (Ea : cycles_of (with_cycles a (c1, c2, c3)) = (c1, c2, c3)) by reflexivity. rewrite Ea.
  destruct (fold_left cycles_step ds (c1, c2, c3)) as [[e1 e2] e3]. destruct a; reflexivity.
Qed.

(** ** One appliance of an example *)

Definition pick1 (o : option (Z * Z)) : Z * Z := match o with Some x => x | None => (0, 1440) end.
Definition pick0 (o : option (Z * Z)) : Z * Z := match o with Some x => x | None => (0, 0) end.

Definition is_inside (w : Z * Z) : bool := (0 <=? fst w) && (fst w <=? snd w) && (snd w <=? 1440).
Definition is_even (w : Z * Z) : bool := Z.even (fst w) && Z.even (snd w).

(** what is checked of one appliance: [p] its parameters, [q] the decimal literal of random_var_w *)
Definition check_app (p : params) (w1 w2 w3 : option (Z * Z)) (q : Q) : bool :=
  let n := num_windows p in
  let ws := [pick1 w1; pick0 w2; pick0 w3] in
  let narrow w := length_of w - 2 * rv_max q (length_of w) in
  (1 <=? n) && (n <=? 3) &&
  ((n <? 2) || match w2 with Some _ => true | None => false end) &&
  (negb (n =? 3) || match w3 with Some _ => true | None => false end) &&
  forallb is_inside ws && forallb is_even ws &&
  (func_time p <=? length_of (pick1 w1) + (if 2 <=? n then length_of (pick0 w2) else 0) + (if 3 <=? n then length_of (pick0 w3) else 0)) &&
  Qle_bool 0 q && Qle_bool q (1 # 2) &&
  (100 * func_cycle p <? 99 * (narrow (pick1 w1) + narrow (pick0 w2) + narrow (pick0 w3))) &&
  (1 <=? func_cycle p) && (1 <=? number p).

(** the duty cycles of the appliance: those of windows() (core.py:1446-1448), then those of the calls *)
Definition first_cycles (p : params) (w1 w2 : option (Z * Z)) : three_cycles :=
  (if fixed_cycle p =? 1 then Cycle 0 0 0 0 0 (pick1 w1) (pick0 w2) else default_cycle, default_cycle, default_cycle).

Definition with_cycles_of (p : params) (cs : three_cycles) : appliance :=
  with_cycles (App p [] true default_wins default_cycle default_cycle default_cycle default_dyn) cs.

Definition even_windows (a : appliance) : Prop := Forall (fun w => Z.Even (fst w) /\ Z.Even (snd w)) (use_windows a).

(** an appliance ready for simulation *)
Record ready_to_use (F : fm) (n : Z) (duty : Prop) (a : appliance) : Prop := ReadyToUse {
  rtu_sound : sound_app F a;
  rtu_power : has_power n a;
  rtu_fresh : not_simulated F a;
  rtu_even : even_windows a;
  rtu_duty : duty -> has_duty_cycles a -> duty_ok a
}.

Lemma inside_length w : inside_day w -> 0 <= length_of w <= 1440.
Proof. intros [? ?]. unfold length_of. lia. Qed.

Lemma app_ready F nd n (duty : Prop) p pw w1 w2 rvw w3 rest q :
  (match pw with PConst _ => 0 <= nd | PSeries l => n <= zlen l | PBad => False end) ->
  check_app p w1 w2 w3 q = true -> reads F q rvw -> forallb step_ok rest = true ->
  (let b := with_cycles_of p (fold_left cycles_step rest (first_cycles p w1 w2)) in
   has_duty_cycles b -> durations_ok b /\ (duty -> duty_ok b)) ->
  exists a, declared_alone F nd (p, pw, []) (DWindows w1 w2 rvw w3 :: rest) a /\ ready_to_use F n duty a.
Proof.
  intros Hpw Hc Hq Hrest Hduty. cbv zeta in Hduty.
  unfold check_app in Hc. cbn [forallb] in Hc. rewrite !andb_true_iff in Hc. unfold is_inside, is_even in Hc. rewrite !andb_true_iff in Hc.
  destruct Hc as [[[[[[[[[[[K1 K2] K3] K4] K5] K6] K7] K8] K9] K10] K11] K12].
  destruct K5 as (I1' & I2' & I3' & _). destruct K6 as (V1 & V2 & V3 & _).
  apply Z.leb_le in K1, K2, K7, K11, K12. apply Z.ltb_lt in K10. apply Qle_bool_iff in K8, K9.
  assert (N2 : 2 <= num_windows p -> w2 <> None) by (clear - K3; intros Hn ->; destruct (Z.ltb_spec (num_windows p) 2); [lia|discriminate]).
  assert (N3 : num_windows p = 3 -> w3 <> None) by (clear - K4; intros Hn ->; rewrite Hn in K4; discriminate).
  assert (I1 : inside_day (pick1 w1)) by (clear - I1'; split; lia).
  assert (I2 : inside_day (pick0 w2)) by (clear - I2'; split; lia).
  assert (I3 : inside_day (pick0 w3)) by (clear - I3'; split; lia).
  clear K3 K4 I1' I2' I3'.
  assert (Hnew : exists a0, new_appliance p pw nd = Ok a0 /\ par a0 = p /\ win a0 = default_wins /\ cyc1 a0 = default_cycle /\
    cyc2 a0 = default_cycle /\ cyc3 a0 = default_cycle /\ has_power n a0).
  { destruct pw as [v|l|]; cbn [new_appliance]; [| |contradiction]; (eexists; split; [reflexivity|]); repeat (split; [reflexivity|]).
    - right. split; [reflexivity|]. cbn [power]. replace (Z.to_nat (nd + 1)) with (S (Z.to_nat nd)) by lia. discriminate.
    - left. exact Hpw. }
  destruct Hnew as (a0 & E0 & Hp & Hw & C1 & C2 & C3 & Hpow).
  assert (P2 : match w2 with Some x => x | None => window_2 (win a0) end = pick0 w2) by (rewrite Hw; destruct w2; reflexivity).
  assert (P3 : match w3 with Some x => x | None => window_3 (win a0) end = pick0 w3) by (rewrite Hw; destruct w3; reflexivity).
  destruct (windows_succeed F a0 w1 w2 rvw w3) as (a1 & E1).
  { rewrite Hp. split; assumption. }
  { rewrite Hp. exact N2. }
  { rewrite Hp. exact N3. }
  { exact I1. }
  { rewrite P2. exact I2. }
  { rewrite P3. exact I3. }
  { rewrite Hp, P2, P3. exact K7. }
  pose proof (windows_ok F a0 w1 w2 rvw w3 a1 E1) as W. cbv zeta in W.
  destruct W as (Wp & Wpow & Wcp & _ & _ & _ & W1 & W2 & W3 & Wr & R1 & R2 & R3 & _ & _ & _ & _ & Wf & Wc1 & Wc2 & Wc3).
  rewrite P2 in W2. rewrite P3 in W3. change (window_1 (win a1) = pick1 w1) in W1.
  rewrite Hp in Wp. rewrite Hp, C1 in Wc1. rewrite C2 in Wc2. rewrite C3 in Wc3. rewrite W1, W2 in Wc1.
  assert (Hcyc : cycles_of a1 = first_cycles p w1 w2).
  { unfold cycles_of, first_cycles. rewrite Wc1, Wc2, Wc3. reflexivity. }
  exists (with_cycles a1 (fold_left cycles_step rest (first_cycles p w1 w2))). split.
  { cbn [declared_alone app]. exists a0. split; [exact E0|]. cbn [declare declare1]. rewrite E1, (declare_cycles F rest Hrest), Hcyc. reflexivity. }
  destruct (fold_left cycles_step rest (first_cycles p w1 w2)) as [[c1 c2] c3] eqn:Ecs.
  assert (Hcy : forall b, has_duty_cycles (with_cycles a1 (c1, c2, c3)) -> b = with_cycles_of p (c1, c2, c3) ->
     durations_ok (with_cycles a1 (c1, c2, c3)) /\ (duty -> duty_ok (with_cycles a1 (c1, c2, c3)))).
  { intros b Hd ->. unfold has_duty_cycles, durations_ok, duty_ok, with_cycles_of, with_cycles in *.
    cbn [par set_cyc1 set_cyc2 set_cyc3 cyc1 cyc2 cyc3] in *. rewrite Wp in *. exact (Hduty Hd). }
  assert (Lw := inside_length).
  assert (B1 := rv_bound F q rvw (length_of (pick1 w1)) Hq ltac:(split; assumption) (Lw _ I1)).
  assert (B2 := rv_bound F q rvw (length_of (pick0 w2)) Hq ltac:(split; assumption) (Lw _ I2)).
  assert (B3 := rv_bound F q rvw (length_of (pick0 w3)) Hq ltac:(split; assumption) (Lw _ I3)).
  rewrite W1 in R1. rewrite W2 in R2. rewrite W3 in R3.
  change (diff (pick1 w1)) with (length_of (pick1 w1)) in R1. change (diff (pick0 w2)) with (length_of (pick0 w2)) in R2.
  change (diff (pick0 w3)) with (length_of (pick0 w3)) in R3.
  destruct (reads_bounds F q rvw Hq ltac:(split; assumption)) as [Hr _].
  constructor.
  - split; [|split; [|split; [|split]]].
    + unfold well_declared. cbv zeta. cbn [with_cycles win set_cyc1 set_cyc2 set_cyc3]. rewrite W1, W2, W3, Wr.
      split; [exact (Forall_cons _ I1 (Forall_cons _ I2 (Forall_cons _ I3 (Forall_nil _))))|]. split; [exact Hr|]. repeat split; assumption.
    + unfold cycle_fits. cbv zeta. cbn [with_cycles win par set_cyc1 set_cyc2 set_cyc3]. rewrite W1, W2, W3, Wp, R1, R2, R3. clear - B1 B2 B3 K10. lia.
    + cbn [with_cycles par set_cyc1 set_cyc2 set_cyc3]. rewrite Wp. exact K11.
    + cbn [with_cycles par set_cyc1 set_cyc2 set_cyc3]. rewrite Wp. exact K12.
    + intros Hd. exact (proj1 (Hcy _ Hd eq_refl)).
  - unfold has_power in *. cbn [with_cycles power constant_power set_cyc1 set_cyc2 set_cyc3]. rewrite Wpow, Wcp. exact Hpow.
  - unfold not_simulated, use_windows. cbn [with_cycles win st set_cyc1 set_cyc2 set_cyc3]. exact Wf.
  - unfold even_windows, use_windows. cbn [with_cycles win set_cyc1 set_cyc2 set_cyc3]. rewrite W1, W2, W3.
    clear - V1 V2 V3. destruct V1, V2, V3. repeat match goal with H : Z.even _ = true |- _ => apply Z.even_spec in H end.
    repeat constructor; assumption.
  - intros D Hd. exact (proj2 (Hcy _ Hd eq_refl) D).
Qed.

(** ** A user, a file *)

(** every appliance of the program with the calls on it *)
Definition appliances_of (cs : list call) : list ((params * power_arg * list decl) * list decl) :=
  combine (added cs) (map (fun k => calls_on k cs) (seq 0 (List.length (added cs)))).

Lemma registered_store l : registered (store l) = l.
Proof.
  unfold registered, store, deref. cbn [refs objects].
  enough (G : forall l2 l1, flat_map (fun r => match nth_error (l1 ++ l2) r with Some a => [a] | None => [] end) (seq (List.length l1) (List.length l2)) = l2) by exact (G l []).
  clear. induction l2 as [|x l2 IH]; intros l1; [reflexivity|]. cbn [List.length seq flat_map].
  rewrite nth_error_app2, Nat.sub_diag by lia. cbn [nth_error app]. f_equal.
  specialize (IH (l1 ++ [x])). rewrite <- app_assoc in IH. cbn [app] in IH. rewrite app_length in IH. cbn in IH.
  rewrite Nat.add_1_r in IH. exact IH.
Qed.

Lemma choose_list {A B} (R : A -> B -> Prop) l : Forall (fun x => exists y, R x y) l -> exists l', Forall2 R l l'.
Proof. induction 1 as [|x l (y & Hy) _ (l' & IH)]; [exists []; constructor|exists (y :: l'); constructor; assumption]. Qed.

Lemma Forall2_at {A B} (R : A -> B -> Prop) l l' i x : Forall2 R l l' -> nth_error l i = Some x -> exists y, nth_error l' i = Some y /\ R x y.
Proof.
  intros H. revert i. induction H as [|a b l l' Hx H IH]; intros i Hi; [destruct i; discriminate|].
  destruct i as [|i]; cbn in *; [injection Hi as <-; eauto|eauto].
Qed.

Lemma build_user_ok F strict e (P : appliance -> Prop) :
  names_differ (e_calls e) -> powers_agree strict 366 (e_calls e) -> scoped 0 (e_calls e) ->
  Forall (fun x => exists a, declared_alone F 366 (fst x) (snd x) a /\ P a) (appliances_of (e_calls e)) ->
  exists u, build_user F strict e = Ok u /\ user_name u = e_name e /\ num_users u = e_num e /\ user_preference u = e_pref e /\
    Forall2 (fun x a => declared_alone F 366 (fst x) (snd x) a) (appliances_of (e_calls e)) (app_list u) /\ Forall P (app_list u).
Proof.
  intros Hn Hp Hs H. set (cs := e_calls e) in *. apply choose_list in H as (l & Hl).
  assert (Hlen : List.length l = List.length (added cs)).
  { apply Forall2_length in Hl. rewrite <- Hl. unfold appliances_of. rewrite combine_length, map_length, seq_length. lia. }
  assert (E : run_script F strict 366 (Registry [] []) cs = (store l, None)).
  { apply (C68_declarations F strict 366 cs (store l) Hn Hp). rewrite registered_store. split; [exact Hs|]. split; [exact Hlen|].
    split; [reflexivity|]. intros k x Hx.
    assert (Hk : nth_error (appliances_of cs) k = Some (x, calls_on k cs)).
    { assert (Hlt : (k < List.length (added cs))%nat) by (apply nth_error_Some; congruence). unfold appliances_of.
      assert (G : forall (A B : Type) (xs : list A) (ys : list B) k x y, nth_error xs k = Some x -> nth_error ys k = Some y -> nth_error (combine xs ys) k = Some (x, y)).
      { clear. intros A B. induction xs as [|a xs IH]; intros ys [|k] x y H1 H2; destruct ys; cbn in *; try discriminate; [congruence|auto]. }
      apply G; [exact Hx|]. rewrite nth_error_map. rewrite (nth_error_nth' _ 0%nat) by (rewrite seq_length; exact Hlt). rewrite seq_nth by exact Hlt. reflexivity. }
    destruct (Forall2_at _ _ _ _ _ Hl Hk) as (a & Ha & Hd & _). exists a. split; [exact Ha|exact Hd]. }
  unfold build_user. fold cs. rewrite E, registered_store. eexists. split; [reflexivity|]. repeat (split; [reflexivity|]).
  cbn [app_list set_apps new_user]. split.
  - clear - Hl. induction Hl as [|x a xs l [Hx _] _ IH]; constructor; assumption.
  - clear - Hl. induction Hl as [|x a xs l [_ Ha] _ IH]; constructor; assumption.
Qed.

(** what a built file is *)
Definition built_as (e : example_user) (u : user) : Prop :=
  user_name u = e_name e /\ num_users u = e_num e /\ user_preference u = e_pref e /\
  List.length (app_list u) = List.length (added (e_calls e)).

Lemma build_users_ok F strict (P : appliance -> Prop) es :
  Forall (fun e => names_differ (e_calls e) /\ powers_agree strict 366 (e_calls e) /\ scoped 0 (e_calls e) /\
    Forall (fun x => exists a, declared_alone F 366 (fst x) (snd x) a /\ P a) (appliances_of (e_calls e))) es ->
  exists us, build_users F strict es = Ok us /\ Forall2 built_as es us /\ all_apps P us.
Proof.
  induction 1 as [|e es (H1 & H2 & H3 & H4) _ (us & E & Hb & Ha)]; [exists []; repeat constructor|].
  destruct (build_user_ok F strict e P H1 H2 H3 H4) as (u & Eu & B1 & B2 & B3 & B4 & B5). cbn [build_users]. rewrite Eu. cbn [rbind]. rewrite E. cbn [rbind].
  exists (u :: us). split; [reflexivity|]. split; [constructor; [|exact Hb]|constructor; [exact B5|exact Ha]].
  split; [exact B1|]. split; [exact B2|]. split; [exact B3|]. apply Forall2_length in B4. rewrite <- B4.
  unfold appliances_of. rewrite combine_length, map_length, seq_length. lia.
Qed.

Lemma even_no_lonely us : all_apps even_windows us -> no_lonely_minute us.
Proof.
  intros H t Ht. exists (if Z.even t then t + 1 else t - 1).
  assert (Hp : (Z.even t = true /\ exists k, t = 2 * k) \/ (Z.even t = false /\ exists k, t = 2 * k + 1)).
  { destruct (Z.even t) eqn:E; [left|right]; (split; [reflexivity|]).
    - apply Z.even_spec in E as (k & ->). eauto.
    - assert (O : Z.odd t = true) by (rewrite <- Z.negb_even, E; reflexivity). apply Z.odd_spec in O as (k & ->). eauto. }
  split; [destruct Hp as [(-> & k & ->)|(-> & k & ->)]; lia|]. split; [destruct Hp as [(-> & _)|(-> & _)]; lia|].
  unfold all_apps in *. eapply Forall_impl; [|exact H]. intros u Hu. eapply Forall_impl; [|exact Hu]. intros a Ha.
  unfold even_windows in Ha. eapply Forall_impl; [|exact Ha]. intros w ((i & Hi) & (j & Hj)). unfold minute_in. rewrite Hi, Hj.
  destruct Hp as [(-> & k & ->)|(-> & k & ->)]; lia.
Qed.

Lemma all_apps_impl (P Q : appliance -> Prop) us : (forall a, P a -> Q a) -> all_apps P us -> all_apps Q us.
Proof. intros HPQ. unfold all_apps. intros H. eapply Forall_impl; [|exact H]. intros u Hu. eapply Forall_impl; [|exact Hu]. exact HPQ. Qed.

(** ** The files *)

Lemma covers b :
  forallb (fun m => existsb (fun j => existsb (fun w => (fst w <=? m) && (m <=? snd w)) (declared_windows b j)) [1; 2; 3]) (arange 0 1440) = true ->
  forall m, 0 <= m < 1440 -> exists j w, 1 <= j <= 3 /\ In w (declared_windows b j) /\ fst w <= m <= snd w.
Proof.
  intros H m Hm. rewrite forallb_forall in H. specialize (H m (proj2 (in_arange m 0 1440) Hm)).
  apply existsb_exists in H as (j & Hj & H). apply existsb_exists in H as (w & Hw & H). exists j, w.
  apply andb_prop in H as [H1 H2]. apply Z.leb_le in H1, H2. split; [|split; [exact Hw|lia]]. cbn in Hj. lia.
Qed.

Lemma unit_bounds F q : (0 <= q <= 1)%Q -> (0 <= flit F q <= 1)%Q.
Proof.
  intros [H0 H1]. unfold flit. split; [apply rnd_nonneg; exact H0|]. apply rnd_le_fl; [|exact H1]. exact (rnd_dyadic F 1 0 ltac:(lia) ltac:(lia)).
Qed.

(** goals about duty cycles: none are used; or their durations are valid (and cover the day) *)
Ltac one_duration := intros c [->|[->| ->]]; cbn; (split; [first [lra|apply unit_bounds; lra]|]); (split; [lia|]); (split; [lia|]); left; lia.
Ltac solve_duty :=
  cbv zeta; intros H;
  first [ exfalso; destruct H as [_ H]; cbn in H; lia
        | split; [one_duration|];
          intros D; first [contradiction|
            split; [one_duration|]; split;
            [ intros j w; unfold declared_windows; cbn; destruct (j =? 1); [|destruct (j =? 2)]; cbn; intuition (subst; cbn; lia)
            | apply covers; vm_compute; reflexivity ] ] ].

Ltac one_app :=
  cbn [fst snd];
  match goal with
  | |- exists a, declared_alone ?F ?nd (?p, ?pw, []) (DWindows ?w1 ?w2 (flit ?F ?q) ?w3 :: ?rest) a /\ ready_to_use ?F ?n ?duty a =>
      apply (app_ready F nd n duty p pw w1 w2 (flit F q) w3 rest q)
  | |- exists a, declared_alone ?F ?nd (?p, ?pw, []) (DWindows ?w1 ?w2 ?q ?w3 :: ?rest) a /\ ready_to_use ?F ?n ?duty a =>
      apply (app_ready F nd n duty p pw w1 w2 q w3 rest q)
  end;
  [ first [lia|assumption] | vm_compute; reflexivity | first [left; reflexivity|right; reflexivity] | reflexivity | ].

Lemma file_1_ready F strict n : exists us, build_users F strict (input_file_1 F) = Ok us /\ Forall2 built_as (input_file_1 F) us /\
  all_apps (ready_to_use F n True) us.
Proof.
  apply build_users_ok. unfold input_file_1.
  repeat apply Forall_cons; try apply Forall_nil;
    cbn [e_calls]; (split; [split; [repeat constructor; cbn; intuition discriminate|repeat constructor; discriminate]|]);
    (split; [left; exists 367; repeat constructor|]); (split; [repeat (constructor; [lia|]); repeat constructor|]).
  all: unfold appliances_of; cbn [added calls_on combine map seq List.length Nat.eqb own_calls some_window some_cycle is_given orb wa1 wa2 wa3 wa_rvw ca_p1 ca_t1 ca_w1 ca_p2 ca_t2 ca_w2 ca_r any_window_arg any_cycle_arg no_windows no_cycle
         wa1 wa2 wa3 wa_rvw ca_p1 ca_t1 ca_w1 ca_p2 ca_t2 ca_w2 ca_r app].
  all: repeat apply Forall_cons; try apply Forall_nil.
  all: one_app; solve_duty.
Qed.

Lemma file_2_ready F strict P n : n <= zlen P -> exists us, build_users F strict (input_file_2 F P) = Ok us /\ Forall2 built_as (input_file_2 F P) us /\
  all_apps (ready_to_use F n True) us.
Proof.
  intros HP. apply build_users_ok. unfold input_file_2.
  repeat apply Forall_cons; try apply Forall_nil;
    cbn [e_calls]; (split; [split; [repeat constructor; cbn; intuition discriminate|repeat constructor; discriminate]|]);
    (split; [left; exists (zlen P); repeat constructor|]); (split; [repeat (constructor; [lia|]); repeat constructor|]).
  all: unfold appliances_of; cbn [added calls_on combine map seq List.length Nat.eqb own_calls some_window some_cycle is_given orb wa1 wa2 wa3 wa_rvw ca_p1 ca_t1 ca_w1 ca_p2 ca_t2 ca_w2 ca_r any_window_arg any_cycle_arg no_windows no_cycle
         wa1 wa2 wa3 wa_rvw ca_p1 ca_t1 ca_w1 ca_p2 ca_t2 ca_w2 ca_r app].
  all: repeat apply Forall_cons; try apply Forall_nil.
  all: one_app; solve_duty.
Qed.

Lemma file_3_ready F strict n : exists us, build_users F strict (input_file_3 F) = Ok us /\ Forall2 built_as (input_file_3 F) us /\
  all_apps (ready_to_use F n False) us.
Proof.
  apply build_users_ok. unfold input_file_3.
  repeat apply Forall_cons; try apply Forall_nil;
    cbn [e_calls]; (split; [split; [repeat constructor; cbn; intuition discriminate|repeat constructor; discriminate]|]);
    (split; [left; exists 367; repeat constructor|]); (split; [repeat (constructor; [lia|]); repeat constructor|]).
  all: unfold appliances_of; cbn [added calls_on combine map seq List.length Nat.eqb own_calls some_window some_cycle is_given orb wa1 wa2 wa3 wa_rvw ca_p1 ca_t1 ca_w1 ca_p2 ca_t2 ca_w2 ca_r any_window_arg any_cycle_arg no_windows no_cycle
         wa1 wa2 wa3 wa_rvw ca_p1 ca_t1 ca_w1 ca_p2 ca_t2 ca_w2 ca_r app].
  all: repeat apply Forall_cons; try apply Forall_nil.
  all: one_app; solve_duty.
Qed.

(** ** C69 *)

(** a simulation of the file: the declarations, then the block under [if __name__ == "__main__"] with any arguments *)
Definition simulates (depth : nat) (F : fm) (strict : bool) (es : list example_user) (n : Z) (r : res (usecase * list (list Q))) : Prop :=
  exists us w start stop enl seed num pe,
    build_users F strict es = Ok us /\ asked w start stop (if both_dates start stop then None else num) n /\ sound_enlarge pe /\
    may (simulate depth F w us start stop enl seed num pe) r.

Lemma ready_simulation depth F strict es n (duty : Prop) us r : (0 < depth)%nat -> 1 <= n ->
  build_users F strict es = Ok us -> Forall2 built_as es us -> Forall (fun e => 0 <= e_pref e) es -> all_apps (ready_to_use F n duty) us ->
  simulates depth F strict es n r ->
  (exists c rows, r = Ok (c, rows) /\ zlen rows = n) \/ (r = Err RecursionError /\ ~ duty).
Proof.
  intros Hdep Hn E Hb Hpref Ha (us' & w & start & stop & enl & seed & num & pe & E' & Hask & Hpe & H).
  rewrite E in E'. injection E' as <-.
  destruct (C67_simulation depth F w us start stop enl seed num pe n r Hdep Hn Hask Hpe) as [G|(G & u & a & Hu & Hin & D1 & D2)]; [| | | | |exact H|left; exact G|right].
  - clear - Hb Hpref. unfold sound_preferences. induction Hb as [|e u es us (_ & _ & E & _) _ IH]; [constructor|].
    inversion Hpref; subst. constructor; [rewrite E; assumption|auto].
  - exact (all_apps_impl _ _ us (fun a Hx => rtu_sound _ _ _ _ Hx) Ha).
  - exact (all_apps_impl _ _ us (fun a Hx => rtu_power _ _ _ _ Hx) Ha).
  - exact (all_apps_impl _ _ us (fun a Hx => rtu_fresh _ _ _ _ Hx) Ha).
  - apply even_no_lonely. exact (all_apps_impl _ _ us (fun a Hx => rtu_even _ _ _ _ Hx) Ha).
  - split; [exact G|]. intros D. apply D2. unfold all_apps in Ha. rewrite Forall_forall in Ha. specialize (Ha u Hu).
    rewrite Forall_forall in Ha. exact (rtu_duty _ _ _ _ (Ha a Hin) D D1).
Qed.

(** the statements of the three files raise nothing, for any rounding of the literals and any numpy *)
Theorem C69_declarations F strict P :
  (exists us, build_users F strict (input_file_1 F) = Ok us /\ Forall2 built_as (input_file_1 F) us) /\
  (exists us, build_users F strict (input_file_2 F P) = Ok us /\ Forall2 built_as (input_file_2 F P) us) /\
  (exists us, build_users F strict (input_file_3 F) = Ok us /\ Forall2 built_as (input_file_3 F) us).
Proof.
  split; [destruct (file_1_ready F strict 1) as (us & H1 & H2 & _); eauto|].
  split; [destruct (file_2_ready F strict P (zlen P) ltac:(lia)) as (us & H1 & H2 & _); eauto|].
  destruct (file_3_ready F strict 1) as (us & H1 & H2 & _); eauto.
Qed.

(** every simulation of the village, over any number of days, raises nothing *)
Theorem C69_village depth F strict n r : (0 < depth)%nat -> 1 <= n ->
  simulates depth F strict (input_file_1 F) n r -> exists c rows, r = Ok (c, rows) /\ zlen rows = n.
Proof.
  intros Hdep Hn H. destruct (file_1_ready F strict n) as (us & H1 & H2 & H3).
  destruct (ready_simulation depth F strict _ n True us r Hdep Hn H1 H2 ltac:(repeat constructor; cbn; lia) H3 H) as [G|[_ G]]; [exact G|tauto].
Qed.

(** the shower: for as many days as the temperature series has values (366 in the shipped file) *)
Theorem C69_shower depth F strict P n r : (0 < depth)%nat -> 1 <= n <= zlen P ->
  simulates depth F strict (input_file_2 F P) n r -> exists c rows, r = Ok (c, rows) /\ zlen rows = n.
Proof.
  intros Hdep Hn H. destruct (file_2_ready F strict P n (proj2 Hn)) as (us & H1 & H2 & H3).
  destruct (ready_simulation depth F strict _ n True us r Hdep (proj1 Hn) H1 H2 ltac:(repeat constructor; cbn; lia) H3 H) as [G|[_ G]]; [exact G|tauto].
Qed.

(** the cooking household: nothing but RecursionError can be raised ... *)
Theorem C69_cooking_partial depth F strict n r : (0 < depth)%nat -> 1 <= n ->
  simulates depth F strict (input_file_3 F) n r -> (exists c rows, r = Ok (c, rows) /\ zlen rows = n) \/ r = Err RecursionError.
Proof.
  intros Hdep Hn H. destruct (file_3_ready F strict n) as (us & H1 & H2 & H3).
  destruct (ready_simulation depth F strict _ n False us r Hdep Hn H1 H2 ltac:(repeat constructor; cbn; lia) H3 H) as [G|[G _]]; [left; exact G|right; exact G].
Qed.
