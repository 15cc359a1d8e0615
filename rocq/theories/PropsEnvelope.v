(** * PropsEnvelope: bounds on the load of a whole use case (C63) *)
From Verif Require Import Base Wp Tape ListLemmas Utils Appliance User Spec SpecDay SpecUser ProofsUtils ProofsEvent2 ProofsDay ProofsDay2 ProofsDay3
  ProofsAppliance ProofsUser ProofsUser2 PropsUser UseCase SpecUseCase ProofsUseCase PropsUseCase PropsDay ProofsTabular PropsCoincidence PropsPeak ProofsRun PropsRuns.
From Coq Require Import ZifyBool ZifyNat.
Open Scope string_scope.
Open Scope list_scope.
Open Scope Z_scope.

(** ** Specification *)

(** the declared windows widened by their random variability *)
Definition widened_windows (a : appliance) : list (Z * Z) :=
  [(fst (window_1 (win a)) - random_var_1 (win a), snd (window_1 (win a)) + random_var_1 (win a));
   (fst (window_2 (win a)) - random_var_2 (win a), snd (window_2 (win a)) + random_var_2 (win a));
   (fst (window_3 (win a)) - random_var_3 (win a), snd (window_3 (win a)) + random_var_3 (win a))].
(** minute [t] is in one of them *)
Definition may_be_on (a : appliance) (t : Z) : bool :=
  existsb (fun w => (fst w <=? t) && (t <? snd w)) (widened_windows a).

(** the largest of some powers, 0 if there is none *)
Definition largest (l : list Q) : Q := fold_right (fun x m => if Qle_bool x m then m else x) 0%Q l.

(** the highest declared power of one unit on day [k]: that of its duty cycles if it has some (a flat appliance does not
    use them), that of the day otherwise *)
Definition highest_power (a : appliance) (k : Z) : Q :=
  if (0 <? fixed_cycle (par a)) && negb (String.eqb (flat (par a)) "yes") then
    largest (flat_map (fun c => [cp1 c; cp2 c]) (firstn (Z.to_nat (fixed_cycle (par a))) [cyc1 a; cyc2 a; cyc3 a]))
  else value_at (power a) k.

(** what the appliances of this kind of one member can draw at most at minute [t] of day [k] *)
Definition ceiling (a : appliance) (k t : Z) : Q :=
  if may_be_on a t then
    largest [(1 # 1000)%Q; (zq (number (par a)) * highest_power a k * (1 + thermal_p_var (par a)))%Q]
  else 0%Q.

(** sane declared values *)
Definition sane (a : appliance) : Prop := 1 <= number (par a) /\ nonneg_app a.

(** ** Proofs *)

Lemma largest_ge l x : In x l -> (x <= largest l)%Q.
Proof.
  induction l as [|y l IH]; [contradiction|]. intros [->|H]; cbn [largest fold_right]; fold (largest l).
  - destruct (Qle_bool x (largest l)) eqn:E; [apply Qle_bool_iff; exact E|apply Qle_refl].
  - specialize (IH H). destruct (Qle_bool y (largest l)) eqn:E; [exact IH|].
    eapply Qle_trans; [exact IH|]. destruct (Qlt_le_dec (largest l) y) as [G|G]; [apply Qlt_le_weak; exact G|].
    apply Qle_bool_iff in G. congruence.
Qed.

Lemma largest_nonneg l : (0 <= largest l)%Q.
Proof.
  induction l as [|y l IH]; [apply Qle_refl|]. cbn [largest fold_right]; fold (largest l).
  destruct (Qle_bool y (largest l)) eqn:E; [exact IH|].
  destruct (Qlt_le_dec (largest l) y) as [G|G]; [lra|]. apply Qle_bool_iff in G. congruence.
Qed.

Lemma ceiling_nonneg a k t : (0 <= ceiling a k t)%Q.
Proof. unfold ceiling. destruct (may_be_on a t); [apply largest_nonneg|apply Qle_refl]. Qed.

Lemma rand_windows_reach a rws t : rand_windows a rws -> 0 <= t < 1440 -> minute_in_some t rws -> may_be_on a t = true.
Proof.
  intros (rw1 & rw2 & rw3 & -> & N1 & N2 & N3) Ht (w & Hw & Hm). unfold may_be_on. apply existsb_exists.
  assert (K : forall v rv rw, near v rv rw -> minute_in t rw -> (fst v - rv <=? t) && (t <? snd v + rv) = true).
  { intros v rv rw (y0 & y1 & -> & H0 & H1) [G0 G1]. cbn [fst snd] in *. lia. }
  destruct Hw as [<-|[<-|[<-|[]]]].
  - exists (nth 0 (widened_windows a) (0, 0)). split; [cbn; auto|]. exact (K _ _ _ N1 Hm).
  - exists (nth 1 (widened_windows a) (0, 0)). split; [cbn; auto|]. exact (K _ _ _ N2 Hm).
  - exists (nth 2 (widened_windows a) (0, 0)). split; [cbn; auto|]. exact (K _ _ _ N3 Hm).
Qed.

Lemma app_day_zero depth F i peak dt pref a l t :
  0 <= func_cycle (par a) -> app_day depth F i peak dt pref a l -> 0 <= t < 1440 -> may_be_on a t = false ->
  value_at l t = 0%Q.
Proof.
  intros Hfc (pw & a' & _ & H & <-) Ht Hoff.
  destruct (C12_silent_outside_windows _ _ _ _ _ _ _ _ _ Hfc H) as (_ & rws & Hr & _ & Hz). apply Hz; [exact Ht|].
  intros Hm. destruct Hr as [->|Hr].
  - destruct Hm as (w & [] & _).
  - rewrite (rand_windows_reach a rws t Hr Ht Hm) in Hoff. discriminate.
Qed.

Lemma py_index_value (l : list Q) k x : 0 <= k -> py_index l k = Ok x -> x = value_at l k.
Proof.
  intros Hk. unfold py_index, value_at. destruct (_ || _) eqn:E; [discriminate|].
  destruct (k <? 0) eqn:Ek; [lia|]. destruct (nth_error l (Z.to_nat k)) eqn:E'; [|discriminate].
  intros H. injection H as <-. symmetry. apply nth_error_nth. exact E'.
Qed.

Lemma cycle_drawn_le F a k l : exact F -> nonneg_app a -> 0 < fixed_cycle (par a) -> cycle_drawn F a k l ->
  Forall (fun x => x <= largest (flat_map (fun c => [cp1 c; cp2 c]) (firstn (Z.to_nat (fixed_cycle (par a))) [cyc1 a; cyc2 a; cyc3 a]))
                        * (1 + thermal_p_var (par a)))%Q l.
Proof.
  intros HF (_ & _ & Ht & _ & C1 & C2 & C3) Hfx (p1 & p2 & H1 & H2 & H3).
  set (top := largest _).
  assert (HC : nonneg_cycle (declared_cycle a k)).
  { unfold declared_cycle. repeat match goal with |- context [if ?b then _ else _] => destruct b end; assumption. }
  destruct HC as [Ha Hb].
  assert (HI : In (declared_cycle a k) (firstn (Z.to_nat (fixed_cycle (par a))) [cyc1 a; cyc2 a; cyc3 a])).
  { unfold declared_cycle. destruct (fixed_cycle (par a) >=? 3) eqn:E3.
    - rewrite firstn_all2 by (cbn [List.length]; lia). repeat match goal with |- context [if ?b then _ else _] => destruct b end; cbn; auto.
    - destruct (fixed_cycle (par a) =? 2) eqn:E2.
      + replace (Z.to_nat (fixed_cycle (par a))) with 2%nat by lia. destruct (k =? 2); cbn; auto.
      + replace (Z.to_nat (fixed_cycle (par a))) with 1%nat by lia. cbn; auto. }
  assert (L1 : (cp1 (declared_cycle a k) <= top)%Q).
  { apply largest_ge. apply in_flat_map. eexists. split; [exact HI|]. cbn; auto. }
  assert (L2 : (cp2 (declared_cycle a k) <= top)%Q).
  { apply largest_ge. apply in_flat_map. eexists. split; [exact HI|]. cbn; auto. }
  destruct (wp_elim _ _ _ (random_variation_interval F _ _ HF (proj1 Ht) Ha) H1) as (x1 & E1 & P1). injection E1 as ->.
  destruct (wp_elim _ _ _ (random_variation_interval F _ _ HF (proj1 Ht) Hb) H2) as (x2 & E2 & P2). injection E2 as ->.
  assert (B1 : (x1 <= top * (1 + thermal_p_var (par a)))%Q) by nra.
  assert (B2 : (x2 <= top * (1 + thermal_p_var (par a)))%Q) by nra.
  assert (K : forall p q n m, (p <= top * (1 + thermal_p_var (par a)))%Q -> (q <= top * (1 + thermal_p_var (par a)))%Q ->
     Forall (fun x => x <= top * (1 + thermal_p_var (par a)))%Q (repeat p n ++ repeat q m)).
  { intros p q n m Hp Hq. apply Forall_app. split; apply Forall_forall; intros x Hx; apply repeat_spec in Hx; subst; assumption. }
  destruct H3 as [H3|[_ H3]].
  - destruct (wp_elim _ _ _ (duty_cycle_shape _ _ _ _ _ _) H3) as [E|(n1 & n2 & E)]; [discriminate|].
    injection E as ->. apply K; assumption.
  - destruct (wp_elim _ _ _ (random_choice_shape _ _ _ _ _ _) H3) as [E|(n1 & n2 & [E|E])]; [discriminate| |];
    injection E as ->; apply K; assumption.
Qed.

Lemma app_day_ceiling depth F i peak dt pref a l t :
  exact F -> sane a -> 0 <= i -> app_day depth F i peak dt pref a l -> 0 <= t < 1440 -> (0 <= value_at l t <= ceiling a i t)%Q.
Proof.
  intros HF [Hn Hnn] Hi H Ht. split; [exact (app_day_nonneg _ _ _ _ _ _ _ _ _ Hnn H Ht)|].
  pose proof Hnn as (Hfc & _ & Hth & Hpow & _).
  unfold ceiling. destruct (may_be_on a t) eqn:Eon; [|rewrite (app_day_zero _ _ _ _ _ _ _ _ _ Hfc H Ht Eon); apply Qle_refl].
  destruct H as (pw & a' & Hpw & H & <-).
  assert (Hpw0 : (0 <= pw)%Q) by (apply py_index_in in Hpw; rewrite Forall_forall in Hpow; auto).
  pose proof (py_index_value _ _ _ Hi Hpw) as Epw.
  assert (Hzn : forall c, 1 <= c -> (1 <= zq c)%Q) by (intros c Hc; change 1%Q with (zq 1); apply zq_le; exact Hc).
  apply generate_traced in H. destruct H as (d & tr & -> & H). cbn [st set_st].
  pose proof (wp_elim _ _ _ (day_spec F depth a pref i peak dt pw Hfc) H) as G.
  rewrite value_at_minute.
  match goal with |- (_ <= ?X)%Q => set (top := X) end.
  assert (T0 : (0 <= top)%Q) by apply largest_nonneg.
  assert (T1 : (1 # 1000 <= top)%Q) by (apply largest_ge; cbn; auto).
  assert (T2 : (zq (number (par a)) * highest_power a i * (1 + thermal_p_var (par a)) <= top)%Q) by (apply largest_ge; cbn; auto).
  clearbody top. unfold highest_power in T2.
  destruct tr as [|rws rt|rws rt evs].
  - destruct G as [G _]. rewrite G, at_zeros. exact T0.
  - destruct G as (_ & Hfl & _ & _ & _ & _ & _ & _ & p & Hp & Hv). rewrite Hv by exact Ht.
    destruct (existsb _ _); [|exact T0]. rewrite Hpw in Hp. injection Hp as <-.
    rewrite Hfl, andb_false_r in T2. rewrite <- Epw in T2. unfold fmul. rewrite (HF _).
    specialize (Hzn _ Hn). assert (0 <= zq (number (par a)) * pw)%Q by (apply Qmult_le_0_compat; lra). nra.
  - destruct G as (_ & Hfl & _ & _ & _ & _ & _ & [(cyc & HI & Hcyc) _ _ _ _]).
    rewrite (inv_over _ _ _ _ _ _ _ _ _ _ _ HI t Ht). unfold overlay. rewrite Hfl in T2. cbn [negb] in T2. rewrite andb_true_r in T2.
    destruct (last_event t evs) as [e|] eqn:El.
    + unfold last_event in El. apply find_some in El. destruct El as [Hin _]. apply in_rev in Hin.
      pose proof (inv_ev _ _ _ _ _ _ _ _ _ _ _ HI) as Hev. rewrite Forall_forall in Hev.
      destruct (Hev e Hin) as (s & n & n0 & _ & _ & _ & _ & _ & Hco & Hval).
      pose proof (coincidence_ok_range _ _ _ _ _ _ Hn Hco) as [Hc1 Hc2].
      pose proof (Hzn _ Hc1) as Z1. apply zq_le in Hc2 as Z2.
      assert (Hall : Forall (fun x => x <= top)%Q (ev_values e)).
      { destruct (fixed_cycle (par a) >? 0) eqn:Efx.
        - replace (0 <? fixed_cycle (par a)) with true in T2 by lia.
          destruct Hval as (Hid & _ & Hvals & _). rewrite Hvals.
          pose proof (cycle_drawn_le _ _ _ _ HF Hnn ltac:(lia) (Hcyc ltac:(lia) _ Hid)) as Hl.
          pose proof (cycle_drawn_nonneg _ _ _ _ Hnn (Hcyc ltac:(lia) _ Hid)) as Hl0.
          rewrite Forall_forall in Hl, Hl0 |- *. intros x Hx. apply in_map_iff in Hx. destruct Hx as (y & <- & Hy).
          specialize (Hl y Hy). specialize (Hl0 y Hy). unfold fmul. rewrite (HF _).
          set (big := largest _) in *. clearbody big.
          apply Qle_trans with (big * (1 + thermal_p_var (par a)) * zq (number (par a)))%Q; [|lra].
          apply Qle_trans with (big * (1 + thermal_p_var (par a)) * zq (ev_coincidence e))%Q.
          + apply Qmult_le_compat_r; lra.
          + rewrite !(Qmult_comm (big * _)). apply Qmult_le_compat_r; lra.
        - replace (0 <? fixed_cycle (par a)) with false in T2 by lia. rewrite <- Epw in T2.
          destruct Hval as (v & -> & Hv). constructor; [|constructor].
          destruct (event_power_exact F a pw _ v HF (conj Hc1 Hc2) Hpw0 Hth Hv) as [_ V]. lra. }
      unfold ev_power. destruct (nth_in_or_default (Z.to_nat ((t - ev_start e) mod zlen (ev_values e))) (ev_values e) 0%Q) as [Hx| ->]; [|exact T0].
      rewrite Forall_forall in Hall. auto.
    + destruct (existsb _ _); [|exact T0]. unfold mask_value, flit. rewrite (HF _). exact T1.
Qed.

Lemma Qsum_map_le {A} (f g : A -> Q) l : Forall (fun x => f x <= g x)%Q l -> (Qsum (map f l) <= Qsum (map g l))%Q.
Proof. induction 1 as [|x l H _ IH]; [apply Qle_refl|]. cbn [map Qsum fold_right]. fold (Qsum (map f l)) (Qsum (map g l)). lra. Qed.

Lemma Qsum_forall2 {A B} (f : A -> Q) (g : B -> Q) l m : Forall2 (fun x y => f x <= g y)%Q l m -> (Qsum (map f l) <= Qsum (map g m))%Q.
Proof. induction 1 as [|x y l m H _ IH]; [apply Qle_refl|]. cbn [map Qsum fold_right]. fold (Qsum (map f l)) (Qsum (map g m)). lra. Qed.

Lemma user_day_ceiling depth F i peak dt u l t :
  exact F -> Forall sane (app_list u) -> 0 <= i -> user_day depth F i peak dt u l -> 0 <= t < 1440 ->
  (0 <= value_at l t <= zq (Z.max 0 (num_users u)) * Qsum (map (fun a => ceiling a i t) (app_list u)))%Q.
Proof.
  intros HF Hs Hi H Ht. split.
  { apply (user_day_nonneg depth F i peak dt u l t); [|exact H|exact Ht]. eapply Forall_impl; [|exact Hs]. intros a [_ G]; exact G. }
  destruct H as (u' & H & <-). destruct (C25_aggregated _ _ _ _ _ _ _ H) as (_ & ms & Hlen & Hms & Hload & _).
  rewrite Hload. rewrite (C25_minute_sum depth F u i peak dt ms t HF Hms Ht). rewrite <- Hlen.
  set (S1 := Qsum (map (fun a => ceiling a i t) (app_list u))).
  clear Hload Hlen H. induction Hms as [|m ms [_ Hm] _ IH].
  - change (0 <= 0 * S1)%Q. rewrite Qmult_0_l. apply Qle_refl.
  - cbn [flat_map]. unfold minute_sum. rewrite map_app, Qsum_app. fold (minute_sum t (flat_map snd ms)).
    rewrite zlen_cons, zq_add.
    assert (Hone : (Qsum (map (fun l => value_at l t) (snd m)) <= S1)%Q).
    { apply Qsum_forall2. clear -Hm HF Hs Hi Ht. induction Hm as [|a l al ll H _ IH]; [constructor|].
      inversion Hs; subst. constructor; [|auto]. eapply app_day_ceiling; eassumption. }
    change (zq 1) with 1%Q. lra.
Qed.

(** ** C63 *)

(** Every minute of every simulated day: the load is not negative and at most the sum over the users of num_users times
    the sum of the ceilings of their appliances.  Exact arithmetic. *)
Theorem C63_envelope depth F w c arg s n c' rows k t :
  exact F -> set_up c s n -> Forall (fun u => Forall sane (app_list u)) (users c) ->
  may (generate_sequential depth F w c arg) (Ok (c', rows)) -> 0 <= k < n -> 0 <= t < 1440 ->
  (0 <= value_at (nth (Z.to_nat k) rows []) t
   <= Qsum (map (fun u => zq (Z.max 0 (num_users u)) * Qsum (map (fun a => ceiling a k t) (app_list u))) (users c)))%Q.
Proof.
  intros HF Hu Hs H Hk Ht. destruct (C28_rows _ _ _ _ _ _ _ _ _ Hu H) as (_ & _ & Hr).
  destruct (Hr k Hk) as (dt & loads & _ & Hl & ->).
  rewrite (C28_minute depth F k (peak_of c) dt (users c) loads t HF Hl Ht). unfold minute_sum.
  revert Hs. clear H Hr. induction Hl as [|u l us ls H _ IH]; intros Hs; [split; apply Qle_refl|].
  inversion Hs as [|? ? Hs1 Hs2]; subst. specialize (IH Hs2).
  pose proof (user_day_ceiling depth F k (peak_of c) dt u l t HF Hs1 ltac:(lia) H Ht) as B.
  cbn [map Qsum fold_right]. fold (Qsum (map (fun l => value_at l t) ls)).
  fold (Qsum (map (fun u => (zq (Z.max 0 (num_users u)) * Qsum (map (fun a => ceiling a k t) (app_list u)))%Q) us)).
  split; lra.
Qed.

Lemma sum_rows_zero F rows t : 0 <= t < 1440 -> Forall (fun l => List.length l = day_minutes) rows ->
  Forall (fun l => value_at l t == 0)%Q rows -> (value_at (sum_rows F rows) t == 0)%Q.
Proof.
  intros Ht Hl Hz. rewrite sum_rows_value by assumption. apply fold_fadd_zero; [|reflexivity].
  rewrite Forall_forall in *. intros x Hx. apply in_map_iff in Hx as (l & <- & Hi). auto.
Qed.

(** In any arithmetic: no load at a minute that lies in no widened window of any appliance of any user *)
Theorem C63_silent depth F w c arg s n c' rows k t :
  set_up c s n -> Forall (fun u => Forall (fun a => 0 <= func_cycle (par a) /\ may_be_on a t = false) (app_list u)) (users c) ->
  may (generate_sequential depth F w c arg) (Ok (c', rows)) -> 0 <= k < n -> 0 <= t < 1440 ->
  (value_at (nth (Z.to_nat k) rows []) t == 0)%Q.
Proof.
  intros Hu Hs H Hk Ht. destruct (C28_rows _ _ _ _ _ _ _ _ _ Hu H) as (_ & _ & Hr).
  destruct (Hr k Hk) as (dt & loads & _ & Hl & ->).
  assert (Hlen : Forall (fun l => List.length l = day_minutes) loads).
  { clear -Hl. induction Hl; constructor; [eapply user_day_len; eassumption|exact IHHl]. }
  apply sum_rows_zero; [exact Ht|exact Hlen|]. clear H Hr Hlen. induction Hl as [|u l us ls H _ IH]; [constructor|].
  inversion Hs as [|? ? Hs1 Hs2]; subst. constructor; [|auto]. clear IH.
  destruct H as (u' & H & <-). destruct (C25_aggregated _ _ _ _ _ _ _ H) as (_ & ms & _ & Hms & Hload & _).
  rewrite Hload.
  assert (Hml : forall m, In m ms -> Forall (fun l => List.length l = day_minutes) (snd m)) by (intros m; apply (member_rows_len _ _ _ _ _ _ _ _ Hms)).
  apply sum_rows_zero; [exact Ht| |].
  - apply Forall_forall. intros r Hin. apply in_map_iff in Hin as (m & <- & Hm). apply sum_rows_len. auto.
  - apply Forall_forall. intros r Hin. apply in_map_iff in Hin as (m & <- & Hm).
    apply sum_rows_zero; [exact Ht|auto|]. rewrite Forall_forall in Hms. destruct (Hms m Hm) as [_ Ha].
    clear -Ha Hs1 Ht. induction Ha as [|a l al ll H _ IH]; [constructor|]. inversion Hs1 as [|? ? [Hfc Hoff] Hs2]; subst.
    constructor; [|auto]. rewrite (app_day_zero _ _ _ _ _ _ _ _ _ Hfc H Ht Hoff). reflexivity.
Qed.

(** two days of two members of a household; at minute 500 of the second day the bound is reached *)
Definition settled (us : list user) : usecase :=
  UC (Some 1051200000) None false (15 # 100) (Some (arange 500 521)) (Some (day_list 1051200000 2)) (Some 2)
    (Some (arange 1051200000 (1051200000 + 2880))) None us [].
Definition all_on : appliance :=
  App (Params "tv" 3 2 120 (1 # 10) 10 "yes" 0 1 1 "no" 0 0 2) [50%Q; 60%Q] true (win still_demo) default_cycle default_cycle default_cycle default_dyn.
Definition cottage : user := User "household" 2 0 0 [] [all_on].

Lemma settled_set_up us : set_up (settled us) 1051200000 2.
Proof.
  split; [lia|]. split; [reflexivity|]. split; eexists; (split; [reflexivity|]).
  - split; [reflexivity|]. intros k Hk. assert (k = 0 \/ k = 1) as [->| ->] by lia; reflexivity.
  - apply (minutes_consecutive 1051200000 2880). lia.
Qed.

Example C63_case : Forall (fun u => Forall sane (app_list u)) [cottage] /\
  exists c' rows, may (generate_sequential 5 exact_fm nobody (settled [cottage]) None) (Ok (c', rows)) /\
    (value_at (nth 1 rows []) 500 == 360)%Q /\
    (Qsum (map (fun u => zq (Z.max 0 (num_users u)) * Qsum (map (fun a => ceiling a 1 500) (app_list u))) [cottage]) == 360)%Q /\
    may_be_on all_on 700 = false /\ may_be_on all_on 480 = true.
Proof.
  split.
  { repeat constructor; vm_compute; discriminate. }
  assert (E : match run zero_gen (generate_sequential 5 exact_fm nobody (settled [cottage]) None) tt with
              | (Ok r, _) => Qeq_bool (value_at (nth 1 (snd r) []) 500) 360 | _ => false end = true) by (vm_compute; reflexivity).
  destruct (run zero_gen _ tt) as [[[c' rows]|e] s'] eqn:ER; [|discriminate]. exists c', rows.
  split; [exact (run_result_may zero_gen _ tt _ _ (bp_sequential _ _ _ _ _) ER)|].
  split; [apply Qeq_bool_iff; exact E|]. split; [vm_compute; reflexivity|]. split; vm_compute; reflexivity.
Qed.
