(** * ProofsUser2: non negative profiles and rounding error of nested sums *)
From Verif Require Import Base Wp Utils ListLemmas Appliance User Spec SpecDay SpecUser Sim ProofsUtils
  ProofsAppliance ProofsEvent2 ProofsDay ProofsDay2 ProofsDay3 ProofsUser.
From Coq Require Import ZifyBool ZifyNat.

Lemma coincidence_nonneg F a peak s n c :
  0 <= number (par a) -> coincidence_ok F a peak s n c -> 0 <= c.
Proof.
  intros Hn Hc. destruct (Z_le_gt_dec 1 (number (par a))) as [H1|H1].
  - pose proof (coincidence_ok_range _ _ _ _ _ _ H1 Hc). lia.
  - destruct Hc as (p0 & pl & _ & _ & H). assert (E : number (par a) = 0) by lia.
    unfold calc_coincident_switch_on in H. rewrite E in H.
    destruct (within_peak_time_window _ _ _ _); cbn [negb andb] in H;
      destruct (String.eqb (fixed (par a)) "no"); cbn [Z.eqb] in H.
    + apply may_bind in H. destruct H as [(g & _ & H)|(e & _ & H)]; [|discriminate].
      apply may_ret_inv in H. injection H as ->. lia.
    + apply may_ret_inv in H. injection H as ->. lia.
    + apply may_raise_inv in H. discriminate.
    + apply may_ret_inv in H. injection H as ->. lia.
Qed.

(** the declared values of an appliance are all non negative *)
Definition nonneg_cycle (c : cycle) : Prop := (0 <= cp1 c)%Q /\ (0 <= cp2 c)%Q.
Definition nonneg_app (a : appliance) : Prop :=
  0 <= func_cycle (par a) /\ 0 <= number (par a) /\ (0 <= thermal_p_var (par a) <= 1)%Q /\
  Forall (fun p => 0 <= p)%Q (power a) /\
  nonneg_cycle (cyc1 a) /\ nonneg_cycle (cyc2 a) /\ nonneg_cycle (cyc3 a).

Lemma cycle_drawn_nonneg F a k l : nonneg_app a -> cycle_drawn F a k l -> Forall (fun x => 0 <= x)%Q l.
Proof.
  intros (_ & _ & Ht & _ & C1 & C2 & C3) (p1 & p2 & H1 & H2 & H3).
  assert (HC : nonneg_cycle (declared_cycle a k)).
  { unfold declared_cycle. repeat match goal with |- context [if ?b then _ else _] => destruct b end; assumption. }
  destruct HC as [Ha Hb].
  destruct (wp_elim _ _ _ (random_variation_ge F _ _ Ht Ha) H1) as (x1 & E1 & P1 & _). injection E1 as ->.
  destruct (wp_elim _ _ _ (random_variation_ge F _ _ Ht Hb) H2) as (x2 & E2 & P2 & _). injection E2 as ->.
  assert (K : forall p q n m, (0 <= p)%Q -> (0 <= q)%Q -> Forall (fun x => 0 <= x)%Q (repeat p n ++ repeat q m)).
  { intros p q n m Hp Hq. apply Forall_app. split; apply Forall_forall; intros x Hx; apply repeat_spec in Hx; subst; assumption. }
  destruct H3 as [H3|[_ H3]].
  - destruct (wp_elim _ _ _ (duty_cycle_shape _ _ _ _ _ _) H3) as [E|(n1 & n2 & E)]; [discriminate|].
    injection E as ->. apply K; assumption.
  - destruct (wp_elim _ _ _ (random_choice_shape _ _ _ _ _ _) H3) as [E|(n1 & n2 & [E|E])]; [discriminate| |];
    injection E as ->; apply K; assumption.
Qed.

Lemma nth_nonneg l k : Forall (fun x => 0 <= x)%Q l -> (0 <= nth k l 0)%Q.
Proof.
  intros H. destruct (nth_in_or_default k l 0%Q) as [Hin| ->]; [|apply Qle_refl].
  rewrite Forall_forall in H. auto.
Qed.

Lemma py_index_in {A} (l : list A) i x : py_index l i = Ok x -> In x l.
Proof.
  unfold py_index. destruct (_ || _); [discriminate|]. destruct (nth_error l _) eqn:E; [|discriminate].
  intros H. injection H as <-. exact (nth_error_In _ _ E).
Qed.

Lemma app_day_nonneg depth F i peak dt pref a l t :
  nonneg_app a -> app_day depth F i peak dt pref a l -> 0 <= t < 1440 -> (0 <= value_at l t)%Q.
Proof.
  intros Hnn (pw & a' & Hpw & H & <-) Ht.
  pose proof Hnn as (Hfc & Hnum & Hth & Hpow & _).
  assert (Hpw0 : (0 <= pw)%Q) by (apply py_index_in in Hpw; rewrite Forall_forall in Hpow; auto).
  assert (Hzn : forall c, 0 <= c -> (0 <= zq c)%Q) by (intros c Hc; change 0%Q with (zq 0); apply zq_le; exact Hc).
  apply generate_traced in H. destruct H as (d & tr & -> & H). cbn [st set_st].
  pose proof (wp_elim _ _ _ (day_spec F depth a pref i peak dt pw Hfc) H) as G.
  rewrite value_at_minute. destruct tr as [|rws rt|rws rt evs].
  - destruct G as [G _]. rewrite G, at_zeros. apply Qle_refl.
  - destruct G as (_ & _ & _ & _ & _ & _ & _ & _ & p & Hp & Hv). rewrite Hv by exact Ht.
    destruct (existsb _ _); [|apply Qle_refl]. rewrite Hpw in Hp. injection Hp as <-.
    apply rnd_nonneg. specialize (Hzn _ Hnum). nra.
  - destruct G as (_ & _ & _ & _ & _ & _ & _ & [(cyc & HI & Hcyc) _ _ _ _]).
    rewrite (inv_over _ _ _ _ _ _ _ _ _ _ _ HI t Ht). unfold overlay.
    destruct (last_event t evs) as [e|] eqn:El.
    + unfold last_event in El. apply find_some in El. destruct El as [Hin _]. apply in_rev in Hin.
      pose proof (inv_ev _ _ _ _ _ _ _ _ _ _ _ HI) as Hev. rewrite Forall_forall in Hev.
      destruct (Hev e Hin) as (s & n & n0 & _ & _ & _ & _ & _ & Hco & Hval).
      pose proof (coincidence_nonneg _ _ _ _ _ _ Hnum Hco) as Hc. specialize (Hzn _ Hc).
      unfold ev_power. apply nth_nonneg.
      destruct (fixed_cycle (par a) >? 0) eqn:Efx.
      * destruct Hval as (Hid & _ & Hvals & _). rewrite Hvals.
        pose proof (cycle_drawn_nonneg _ _ _ _ Hnn (Hcyc ltac:(lia) _ Hid)) as Hl.
        rewrite Forall_forall in Hl |- *. intros x Hx. apply in_map_iff in Hx. destruct Hx as (y & <- & Hy).
        apply rnd_nonneg. specialize (Hl y Hy). nra.
      * destruct Hval as (v & -> & Hv). constructor; [|constructor].
        destruct (wp_elim _ _ _ (random_variation_ge F _ (fmul F (zq (ev_coincidence e)) pw) Hth ltac:(apply rnd_nonneg; nra)) Hv)
          as (x & E & Hx & _). injection E as ->. exact Hx.
    + destruct (existsb _ _); [|apply Qle_refl]. apply rnd_nonneg. discriminate.
Qed.

(** ** Rounding error of a sum of sums *)

Lemma fold_sum_error F l : Forall (fun x => 0 <= x)%Q l -> zlen l <= 2 ^ 52 ->
  (Qabs (fold_left (fadd F) l 0 - Qsum l) <= 2 * zq (zlen l) * (eps53 * Qsum l + eta64))%Q.
Proof.
  intros H Hl.
  pose proof (fold_fadd_error F l H 0 0 0 (Qle_refl 0) (Qle_refl 0) (Qle_refl 0)) as E.
  assert (E0 : (0 + zq (zlen l) <= zq (2 ^ 52))%Q) by (rewrite Qplus_0_l; apply zq_le; exact Hl).
  specialize (E E0 ltac:(vm_compute; discriminate)).
  rewrite !Qplus_0_l in E. exact E.
Qed.

Lemma Qsum_app l l' : (Qsum (l ++ l') == Qsum l + Qsum l')%Q.
Proof. induction l as [|x l IH].
  - cbn [app]. change (Qsum []) with 0%Q. ring.
  - change (Qsum ((x :: l) ++ l')) with (x + Qsum (l ++ l'))%Q. change (Qsum (x :: l)) with (x + Qsum l)%Q.
    rewrite IH. ring.
Qed.

(** [inner] holds, for each group, the values that are added first *)
Lemma nested_sum_error F (groups : list (list Q)) (m : Z) :
  Forall (fun g => Forall (fun x => 0 <= x)%Q g /\ zlen g <= m) groups ->
  0 <= m <= 2 ^ 52 -> zlen groups <= 2 ^ 52 ->
  let n := zlen groups in
  let S := Qsum (List.concat groups) in
  (Qabs (fold_left (fadd F) (map (fun g => fold_left (fadd F) g 0) groups) 0 - S)
   <= zq (2 * m + 4 * n) * eps53 * S + zq (4 * m * n + 2 * n) * eta64)%Q.
Proof.
  intros H Hm Hn n S.
  set (inner := map (fun g => fold_left (fadd F) g 0%Q) groups).
  assert (He : (0 < eps53)%Q) by reflexivity. assert (Hh : (0 < eta64)%Q) by reflexivity.
  assert (Hin : Forall (fun x => 0 <= x)%Q inner).
  { unfold inner. rewrite Forall_forall in *. intros x Hx. apply in_map_iff in Hx. destruct Hx as (g & <- & Hg).
    apply fold_fadd_nonneg; [apply (H g Hg)|apply Qle_refl]. }
  assert (Hlen : zlen inner = n) by (unfold inner; rewrite zlen_map; reflexivity).
  assert (HM0 : (0 <= zq m)%Q) by (change 0%Q with (zq 0); apply zq_le; lia).
  assert (HN0 : (0 <= zq n)%Q) by (change 0%Q with (zq 0); apply zq_le; unfold n; apply zlen_nonneg).
  (* the inner sums *)
  assert (HI : (Qabs (Qsum inner - S) <= 2 * zq m * (eps53 * S + zq n * eta64))%Q /\ (0 <= S)%Q).
  { clear Hn Hin Hlen. unfold S, n, inner. clear n S inner HN0. induction H as [|g groups [Hg Hgl] H IH].
    - cbn [map List.concat]. change (Qsum []) with 0%Q. change (Qabs (0 - 0)) with 0%Q.
      change (zq (zlen [])) with 0%Q. split; [|apply Qle_refl].
      setoid_replace (2 * zq m * (eps53 * 0 + 0 * eta64))%Q with 0%Q by ring. apply Qle_refl.
    - destruct IH as [IH IH0]. cbn [map List.concat]. rewrite !Qsum_app. cbn [Qsum fold_right].
      fold (Qsum (map (fun g => fold_left (fadd F) g 0%Q) groups)).
      set (A := Qsum (map (fun g => fold_left (fadd F) g 0%Q) groups)) in *.
      set (B := Qsum (List.concat groups)) in *. clearbody A B.
      assert (Hgz : zlen g <= 2 ^ 52) by lia.
      pose proof (fold_sum_error F g Hg Hgz) as E. pose proof (Qsum_nonneg g Hg) as Hs.
      set (f := fold_left (fadd F) g 0%Q) in *. set (s := Qsum g) in *. clearbody f s.
      assert (Hz : (zq (zlen (g :: groups)) == 1 + zq (zlen groups))%Q).
      { rewrite zlen_cons. unfold zq. rewrite inject_Z_plus. change (inject_Z 1) with 1%Q. ring. }
      rewrite Hz. assert (Hq : (zq (zlen g) <= zq m)%Q) by (apply zq_le; exact Hgl).
      split; [|lra].
      apply Qabs_Qle_condition in E. destruct E as [E1 E2].
      apply Qabs_Qle_condition in IH. destruct IH as [I1 I2].
      assert (D : (2 * zq (zlen g) * (eps53 * s + eta64) <= 2 * zq m * (eps53 * s + eta64))%Q).
      { apply Qmult_le_compat_r; [lra|]. nra. }
      apply Qabs_Qle_condition. split; lra. }
  destruct HI as [HI HS0].
  (* the outer sum *)
  pose proof (fold_sum_error F inner Hin ltac:(lia)) as E. rewrite Hlen in E.
  set (R := fold_left (fadd F) inner 0%Q) in *. set (T := Qsum inner) in *. clearbody R T S.
  apply Qabs_Qle_condition in E. destruct E as [E1 E2].
  apply Qabs_Qle_condition in HI. destruct HI as [I1 I2].
  assert (Hm52 : (zq m <= zq (2 ^ 52))%Q) by (apply zq_le; lia).
  assert (Hn52 : (zq n <= zq (2 ^ 52))%Q) by (apply zq_le; unfold n; lia).
  assert (Hc : (zq (2 ^ 52) * eps53 == 1 # 2)%Q) by reflexivity.
  assert (Hme : (zq m * eps53 <= 1 # 2)%Q) by nra.
  assert (Hne : (zq n * eps53 <= 1 # 2)%Q) by nra.
  assert (Z1 : (zq (2 * m + 4 * n) == 2 * zq m + 4 * zq n)%Q).
  { rewrite zq_add, !zq_mul. reflexivity. }
  assert (Z2 : (zq (4 * m * n + 2 * n) == 4 * zq m * zq n + 2 * zq n)%Q).
  { rewrite zq_add, !zq_mul. reflexivity. }
  rewrite Z1, Z2. clear Z1 Z2.
  set (M := zq m) in *. set (N := zq n) in *. clearbody M N.
  (* T <= S + 2M(eps S + N eta) <= 2S + M N eta / eps ... kept multiplied *)
  assert (T1 : (2 * N * (eps53 * T + eta64) <= 2 * N * (eps53 * (S + 2 * M * (eps53 * S + N * eta64)) + eta64))%Q).
  { apply Qmult_le_l_nonneg; [lra|]. nra. }
  assert (T2 : (2 * N * (eps53 * (2 * M * (eps53 * S + N * eta64))) <= 2 * N * (eps53 * S) + 2 * N * eta64 * M)%Q).
  {    (* use eps N <= 1/2 on the second part *)
    setoid_replace (2 * N * (eps53 * (2 * M * (eps53 * S + N * eta64))))%Q
      with ((2 * (M * eps53)) * (2 * N * (eps53 * S)) + (2 * (M * eps53)) * (2 * (N * eta64) * N))%Q by ring.
    assert (Q1 : ((2 * (M * eps53)) * (2 * N * (eps53 * S)) <= 1 * (2 * N * (eps53 * S)))%Q).
    { apply Qmult_le_compat_r; [lra|]. assert (0 <= eps53 * S)%Q by nra. nra. }
    assert (Q2 : ((2 * (M * eps53)) * (2 * (N * eta64) * N) <= 2 * N * eta64 * M)%Q).
    { setoid_replace ((2 * (M * eps53)) * (2 * (N * eta64) * N))%Q with ((2 * (N * eps53)) * (2 * N * eta64 * M))%Q by ring.
      setoid_replace (2 * N * eta64 * M)%Q with (1 * (2 * N * eta64 * M))%Q at 2 by ring.
      apply Qmult_le_compat_r; [lra|]. assert (0 <= N * eta64)%Q by nra. nra. }
    lra. }
  apply Qabs_Qle_condition. split; lra.
Qed.
