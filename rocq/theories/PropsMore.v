(** * PropsMore: more use never lowers the mean load (C98) *)
From Verif Require Import Base Wp Tape F64 Utils ListLemmas Appliance User UseCase Sim Spec SpecUser SpecUseCase SpecDay ProofsAppliance ProofsEvent ProofsEvent2
  ProofsDay ProofsDay2 ProofsUser ProofsUser2 ProofsUseCase ProofsRun PropsBasic PropsDay PropsUseCase PropsUser PropsTotal Prob PropsProb PropsMean PropsIndep PropsMeanEnergy.
From Verif Require PropsParallel.
From Coq Require Import ZifyBool ZifyNat Lqa.
Open Scope list_scope.
Open Scope Z_scope.

(** ** Specification *)

(** the same appliance with another probability of use *)
Definition with_use (a : appliance) (o : Q) : appliance :=
  let p := par a in
  set_par a (Params (name p) (number p) (num_windows p) (func_time p) (time_var p) (func_cycle p)
    (fixed p) (fixed_cycle p) (continuous_duty_cycle p) o (flat p) (thermal_p_var p) (pref_index p) (wd_we_type p)).

(** used at least as often, all else the same *)
Definition at_least_as_often (a b : appliance) : Prop := exists o, (occasional_use (par a) <= o)%Q /\ b = with_use a o.

(** a user type with the same preferences and at least as many members, each of whom owns at least those appliances and uses them at least as often *)
Definition at_least_as_active (u v : user) : Prop :=
  user_preference v = user_preference u /\ num_users u <= num_users v /\
  exists l extra, app_list v = l ++ extra /\ Forall2 at_least_as_often (app_list u) l.

(** at least those user types *)
Definition at_least_as_busy (us vs : list user) : Prop := exists l extra, vs = l ++ extra /\ Forall2 at_least_as_active us l.

(** the mean power drawn by the village at minute [t] of day [k] *)
Definition mean_at (L : law) (depth : nat) (F : fm) (w : world) (c : usecase) (arg : option (list Z)) (k t : Z) : Q :=
  expect L (generate_sequential depth F w c arg) (fun r => match r with Ok x => value_at (nth (Z.to_nat k) (snd x) []) t | Err _ => 0%Q end).

(** ** Lemmas *)

Lemma use_chance_mono L o o' : (o <= o')%Q -> (use_chance L o <= use_chance L o')%Q.
Proof.
  intros H. pose proof (zq_pos _ (steps_pos L)) as Hq. unfold use_chance. apply Qmult_le_compat_r; [|apply Qlt_le_weak, Qinv_lt_0_compat, Hq].
  apply zq_le. assert (Qfloor (o * zq (steps L)) <= Qfloor (o' * zq (steps L))); [|lia].
  apply Qfloor_resp_le. apply Qmult_le_compat_r; [exact H|apply Qlt_le_weak, Hq].
Qed.

Lemma use_chance_nonneg L o : (0 <= use_chance L o)%Q.
Proof.
  pose proof (zq_pos _ (steps_pos L)) as Hq. unfold use_chance. apply Qle_shift_div_l; [exact Hq|]. setoid_replace (0 * zq (steps L))%Q with 0%Q by ring.
  change 0%Q with (zq 0). apply zq_le. lia.
Qed.

Lemma allowed_dec a pref dt : {allowed a pref dt} + {~ allowed a pref dt}.
Proof.
  unfold allowed. destruct (Z.eq_dec (pref_index (par a)) 0), (Z.eq_dec (pref_index (par a)) pref), (Z.eq_dec (wd_we_type (par a)) dt), (Z.eq_dec (wd_we_type (par a)) 2), (Z.eq_dec (func_time (par a)) 0);
    try (left; lia); right; lia.
Qed.

(** the mean of a day on which nothing forbids the appliance *)
Definition mean_open (L : law) (depth : nat) (F : fm) (pref : Z) (a : appliance) (i : Z) (peak : list Z) (dt t : Z) : Q :=
  if allowed_dec a pref dt then mean_pref L depth F pref (every_day a) i peak dt t else 0%Q.

Lemma mean_pref_open L depth F pref a i peak dt t : on_grid F L ->
  (mean_pref L depth F pref a i peak dt t == use_chance L (occasional_use (par a)) * mean_open L depth F pref a i peak dt t)%Q.
Proof.
  intros HG. unfold mean_open, mean_pref. set (f := fun r : res (list Q) => match r with Ok l => value_at l t | Err _ => 0%Q end).
  assert (Z0 : (f (Ok (zeros day_minutes)) == 0)%Q) by (unfold f, value_at, zeros; rewrite nth_repeat; reflexivity).
  change (power (every_day a)) with (power a).
  assert (E : forall b pw, (expect L (generate_load_profile depth F b pref i peak dt pw) (fun r => match r with Ok a' => value_at (daily_use (st a')) t | Err _ => 0 end) ==
    expect L (generate_load_profile depth F b pref i peak dt pw) (fun r => f (profile_of r)))%Q) by (intros b pw; apply expect_ext; intros [x|e] _; reflexivity).
  destruct (py_index (power a) i) as [pw|e]; cbn [lift bind].
  - destruct (allowed_dec a pref dt) as [HA|HA]; rewrite !E.
    + rewrite (C86_as_if_every_day depth F L a pref i peak dt pw f HG HA), Z0. ring.
    + rewrite (C86_other_days depth F L a pref i peak dt pw f HA), Z0. ring.
  - cbn [expect]. destruct (allowed_dec a pref dt); ring.
Qed.

Lemma mean_open_use L depth F pref a o i peak dt t : mean_open L depth F pref (with_use a o) i peak dt t = mean_open L depth F pref a i peak dt t.
Proof.
  unfold mean_open. change (every_day (with_use a o)) with (every_day a).
  destruct (allowed_dec (with_use a o) pref dt) as [H|H], (allowed_dec a pref dt) as [H'|H']; try reflexivity; exfalso; [exact (H' H)|exact (H H')].
Qed.

Lemma mean_pref_nonneg L depth F pref a i peak dt t : nonneg_app a -> 0 <= t < 1440 -> (0 <= mean_pref L depth F pref a i peak dt t)%Q.
Proof.
  intros Hn Ht. unfold mean_pref.
  destruct (py_index (power a) i) as [pw|e] eqn:E; cbn [lift bind]; [|cbn [expect]; apply Qle_refl].
  apply (Qle_trans _ (expect L (generate_load_profile depth F a pref i peak dt pw) (fun _ => 0%Q))).
  - rewrite expect_const by apply bp_profile. apply Qle_refl.
  - apply expect_le; [apply bp_profile|]. intros [x|e] Hr; [|apply Qle_refl]. apply (app_day_nonneg depth F i peak dt pref a); [exact Hn| |exact Ht]. exists pw, x. auto.
Qed.

Lemma bp_draw_pref u : below_pos (draw_pref u).
Proof. unfold draw_pref. destruct (_ =? 0); [exact I|apply below_pos_randint]. Qed.

(** more use, more mean load, of one appliance of one member *)
Lemma mean_use_le L depth F u v a b i peak dt t : on_grid F L -> user_preference v = user_preference u -> at_least_as_often a b -> nonneg_app (every_day a) -> 0 <= t < 1440 ->
  (mean_use L depth F u a i peak dt t <= mean_use L depth F v b i peak dt t)%Q.
Proof.
  intros HG Hp (o & Ho & ->) Hn Ht. rewrite !mean_use_pref. unfold draw_pref. rewrite Hp. apply expect_le; [apply (bp_draw_pref u)|].
  intros [pref|e] _; [|apply Qle_refl]. rewrite !mean_pref_open by exact HG. rewrite mean_open_use.
  apply Qmult_le_compat_r; [apply use_chance_mono; exact Ho|]. unfold mean_open. destruct (allowed_dec a pref dt); [|apply Qle_refl].
  apply mean_pref_nonneg; assumption.
Qed.

Lemma mean_use_nonneg L depth F u a i peak dt t : nonneg_app a -> 0 <= t < 1440 -> (0 <= mean_use L depth F u a i peak dt t)%Q.
Proof.
  intros Hn Ht. rewrite mean_use_pref. apply (Qle_trans _ (expect L (draw_pref u) (fun _ => 0%Q))).
  - rewrite expect_const by apply bp_draw_pref. apply Qle_refl.
  - apply expect_le; [apply bp_draw_pref|]. intros [pref|e] _; [apply mean_pref_nonneg; assumption|apply Qle_refl].
Qed.

Lemma qsum_app l l' : (Qsum (l ++ l') == Qsum l + Qsum l')%Q.
Proof. induction l as [|x l IH]; cbn [app]; [change (Qsum []) with 0%Q; ring|]. rewrite !qsum_cons, IH. ring. Qed.

Lemma qsum_nonneg l : Forall (fun x => 0 <= x)%Q l -> (0 <= Qsum l)%Q.
Proof. induction 1 as [|x l Hx _ IH]; [apply Qle_refl|]. rewrite qsum_cons. lra. Qed.

Lemma member_le L depth F u v i peak dt t : on_grid F L -> user_preference v = user_preference u ->
  (exists l extra, app_list v = l ++ extra /\ Forall2 at_least_as_often (app_list u) l) ->
  Forall nonneg_app (app_list u) -> Forall nonneg_app (app_list v) -> 0 <= t < 1440 ->
  (Qsum (map (fun a => mean_use L depth F u a i peak dt t) (app_list u)) <= Qsum (map (fun a => mean_use L depth F v a i peak dt t) (app_list v)))%Q.
Proof.
  intros HG Hp (l & extra & -> & H2) Hu Hv Ht. rewrite map_app, qsum_app. apply Forall_app in Hv as (_ & He).
  assert (E0 : (0 <= Qsum (map (fun a => mean_use L depth F v a i peak dt t) extra))%Q).
  { apply qsum_nonneg. apply Forall_map. eapply Forall_impl; [|exact He]. intros a Ha. apply mean_use_nonneg; assumption. }
  assert (E1 : (Qsum (map (fun a => mean_use L depth F u a i peak dt t) (app_list u)) <= Qsum (map (fun a => mean_use L depth F v a i peak dt t) l))%Q); [|lra].
  clear - HG Hp H2 Hu Ht. induction H2 as [|a b l l' Hab _ IH]; [apply Qle_refl|]. inversion Hu as [|? ? Ha Hl]; subst. cbn [map]. rewrite !qsum_cons.
  specialize (IH Hl). pose proof (mean_use_le L depth F u v a b i peak dt t HG Hp Hab Ha Ht). lra.
Qed.

Lemma member_nonneg L depth F v i peak dt t : Forall nonneg_app (app_list v) -> 0 <= t < 1440 -> (0 <= Qsum (map (fun a => mean_use L depth F v a i peak dt t) (app_list v)))%Q.
Proof.
  intros Hv Ht. apply qsum_nonneg. apply Forall_map. eapply Forall_impl; [|exact Hv]. intros a Ha. apply mean_use_nonneg; assumption.
Qed.

(** ** C98 *)

(** The mean load of an appliance is proportional to its probability of use: *)
Theorem C98_proportional L depth F u a o i peak dt t : on_grid F L ->
  (mean_use L depth F u (with_use a o) i peak dt t * use_chance L (occasional_use (par a)) == mean_use L depth F u a i peak dt t * use_chance L o)%Q.
Proof.
  intros HG. rewrite !mean_use_pref.
  assert (E : forall b, (expect L (draw_pref u) (fun r => match r with Ok pref => mean_pref L depth F pref b i peak dt t | Err _ => 0%Q end) ==
    use_chance L (occasional_use (par b)) * expect L (draw_pref u) (fun r => match r with Ok pref => mean_open L depth F pref b i peak dt t | Err _ => 0%Q end))%Q).
  { intros b. rewrite <- expect_scale. apply expect_ext. intros [pref|e] _; [apply mean_pref_open; exact HG|ring]. }
  rewrite (E a), (E (with_use a o)). change (occasional_use (par (with_use a o))) with o.
  setoid_replace (expect L (draw_pref u) (fun r => match r with Ok pref => mean_open L depth F pref (with_use a o) i peak dt t | Err _ => 0%Q end))
    with (expect L (draw_pref u) (fun r => match r with Ok pref => mean_open L depth F pref a i peak dt t | Err _ => 0%Q end)).
  - ring.
  - apply expect_ext. intros [pref|e] _; [rewrite mean_open_use; reflexivity|reflexivity].
Qed.

(** A village with at least those user types, each with at least as many members, at least those appliances, used at least as often, has at least
    that mean load, at every minute of every day. *)
Theorem C98_mean_load L depth F w w' c c' arg arg' s n k t dt :
  exact F -> (0 < depth)%nat -> set_up c s n -> set_up c' s n -> peak_of c' = peak_of c -> peak_of c <> [] ->
  Forall (safe_user F n) (users c) -> Forall (safe_user F n) (users c') ->
  Forall (fun u => Forall nonneg_app (app_list u)) (users c) -> Forall (fun u => Forall nonneg_app (app_list u)) (users c') ->
  at_least_as_busy (users c) (users c') -> 0 <= k < n -> 0 <= t < 1440 -> is_day_type (s + 1440 * k) dt ->
  (mean_at L depth F w c arg k t <= mean_at L depth F w' c' arg' k t)%Q.
Proof.
  intros HF Hd Hs Hs' Hpk Hp Hu Hu' Hn Hn' (l & extra & El & H2) Hk Ht Hdt. unfold mean_at. pose proof (grid_exact F L HF) as HG.
  rewrite (C89_use_case L depth F w c arg s n k t dt HF Hd Hs Hp Hu Hk Ht Hdt).
  rewrite (C89_use_case L depth F w' c' arg' s n k t dt HF Hd Hs' ltac:(rewrite Hpk; exact Hp) Hu' Hk Ht Hdt). rewrite Hpk, El in *. clear Hu Hu' El.
  apply Forall_app in Hn' as (Hl & He). rewrite map_app, qsum_app.
  assert (NN : forall z, (0 <= zq (Z.max 0 z))%Q) by (intros z; change 0%Q with (zq 0); apply zq_le; lia).
  match goal with |- (?x <= ?y + ?z)%Q => assert (E0 : (0 <= z)%Q); [|assert (E1 : (x <= y)%Q); [|lra]] end.
  { apply qsum_nonneg. apply Forall_map. eapply Forall_impl; [|exact He]. intros u Ha. apply Qmult_le_0_compat; [apply NN|apply member_nonneg; assumption]. }
  clear E0 He extra. induction H2 as [|u v us vs (Hpr & Hnu & Hap) _ IH]; [apply Qle_refl|]. inversion Hn as [|? ? Hn1 Hn2]; subst. inversion Hl as [|? ? Hl1 Hl2]; subst.
  cbn [map]. rewrite !qsum_cons. specialize (IH Hn2 Hl2).
  pose proof (member_le L depth F u v k (peak_of c) dt t HG Hpr Hap Hn1 Hl1 Ht) as M1. pose proof (member_nonneg L depth F u k (peak_of c) dt t Hn1 Ht) as M0.
  apply Qplus_le_compat; [|exact IH].
  apply (Qle_trans _ (zq (Z.max 0 (num_users v)) * Qsum (map (fun a => mean_use L depth F u a k (peak_of c) dt t) (app_list u)))%Q).
  - apply Qmult_le_compat_r; [|exact M0]. apply zq_le. lia.
  - setoid_rewrite (Qmult_comm (zq (Z.max 0 (num_users v)))). apply Qmult_le_compat_r; [exact M1|apply NN].
Qed.

(** and so its mean energy of every day. *)
Theorem C98_mean_energy L depth F w w' c c' arg arg' s n k dt :
  exact F -> (0 < depth)%nat -> set_up c s n -> set_up c' s n -> peak_of c' = peak_of c -> peak_of c <> [] ->
  Forall (safe_user F n) (users c) -> Forall (safe_user F n) (users c') ->
  Forall (fun u => Forall nonneg_app (app_list u)) (users c) -> Forall (fun u => Forall nonneg_app (app_list u)) (users c') ->
  at_least_as_busy (users c) (users c') -> 0 <= k < n -> is_day_type (s + 1440 * k) dt ->
  (expect L (generate_sequential depth F w c arg) (fun r => match r with Ok x => watt_minutes (nth (Z.to_nat k) (snd x) []) | Err _ => 0 end) <=
   expect L (generate_sequential depth F w' c' arg') (fun r => match r with Ok x => watt_minutes (nth (Z.to_nat k) (snd x) []) | Err _ => 0 end))%Q.
Proof.
  intros HF Hd Hs Hs' Hpk Hp Hu Hu' Hn Hn' Hb Hk Hdt.
  assert (E : forall w c arg, (expect L (generate_sequential depth F w c arg) (fun r => match r with Ok x => watt_minutes (nth (Z.to_nat k) (snd x) []) | Err _ => 0 end) ==
    Qsum (map (fun t => mean_at L depth F w c arg k t) (arange 0 1440)))%Q).
  { intros w1 c1 arg1. unfold mean_at.
    rewrite <- (expect_qsum L (generate_sequential depth F w1 c1 arg1) (fun t r => match r with Ok x => value_at (nth (Z.to_nat k) (snd x) []) t | Err _ => 0%Q end) (arange 0 1440)).
    apply expect_ext. intros [x|e] _; [reflexivity|]. symmetry. rewrite qsum_const. ring. }
  rewrite !E. apply qsum_le. intros t Ht. apply in_arange in Ht. eapply C98_mean_load; eassumption || lia.
Qed.

(** one member that lights its lamps every other day, and two that light them daily and own another appliance *)
Definition quiet_village : usecase :=
  PropsParallel.for_two_days (blank None None false (15 # 100) None [User "household" 1 3 0 [] [with_use (PropsParallel.spread lamp) (1 # 2)]]).

Lemma with_use_back a o : with_use (with_use a o) (occasional_use (par a)) = a.
Proof. destruct a as [[] ? ? ? ? ? ? ?]. reflexivity. Qed.

Lemma quiet_busy (a b : appliance) (o : Q) (u v : user) : u = User "household" 1 3 0 [] [with_use a o] -> v = User "household" 2 3 0 [] [a; b] -> (o <= occasional_use (par a))%Q ->
  safe_user exact_fm 2 v -> Forall nonneg_app (app_list v) ->
  Forall (safe_user exact_fm 2) [u] /\ Forall (fun u => Forall nonneg_app (app_list u)) [u] /\ Forall (fun u => Forall nonneg_app (app_list u)) [v] /\ at_least_as_busy [u] [v].
Proof.
  intros -> -> Ho (P & S1) N. cbn [app_list] in *. inversion S1 as [|? ? S2 _]; subst. inversion N as [|? ? N1 _]; subst.
  split; [constructor; [|constructor]; split; [exact P|constructor; [exact S2|constructor]]|].
  split; [constructor; [|constructor]; constructor; [exact N1|constructor]|]. split; [constructor; [exact N|constructor]|].
  exists [User "household" 2 3 0 [] [a; b]], []. split; [reflexivity|]. constructor; [|constructor]. split; [reflexivity|]. split; [cbn; lia|].
  exists [a], [b]. split; [reflexivity|]. constructor; [|constructor]. exists (occasional_use (par a)). split; [exact Ho|]. symmetry. apply with_use_back.
Qed.

Example C98_case : set_up quiet_village 1051200000 2 /\ set_up mean_village 1051200000 2 /\ peak_of mean_village = peak_of quiet_village /\ peak_of quiet_village <> [] /\
  Forall (safe_user exact_fm 2) (users quiet_village) /\ Forall (safe_user exact_fm 2) (users mean_village) /\
  Forall (fun u => Forall nonneg_app (app_list u)) (users quiet_village) /\ Forall (fun u => Forall nonneg_app (app_list u)) (users mean_village) /\
  at_least_as_busy (users quiet_village) (users mean_village) /\ occasional_use (par lamp) = 1%Q.
Proof.
  destruct C89_case as (H1 & _ & _ & H4 & _).
  assert (N : Forall nonneg_app (app_list mean_home)).
  { constructor; [|constructor; [|constructor]]; unfold nonneg_app, nonneg_cycle; cbn; repeat split; try lia; try discriminate; repeat constructor; discriminate. }
  split; [apply PropsParallel.for_two_days_set_up|]. split; [exact H1|]. split; [reflexivity|]. split; [discriminate|].
  assert (Q1 : users quiet_village = [User "household" 1 3 0 [] [with_use (PropsParallel.spread lamp) (1 # 2)]]) by reflexivity.
  assert (Q2 : users mean_village = [mean_home]) by reflexivity. rewrite Q1, Q2 in *.
  destruct (quiet_busy (PropsParallel.spread lamp) (PropsParallel.spread special) (1 # 2) _ mean_home eq_refl eq_refl ltac:(discriminate) (Forall_inv H4) N) as (G1 & G2 & G3 & G4).
  split; [exact G1|]. split; [exact H4|]. split; [exact G2|]. split; [exact G3|]. split; [exact G4|reflexivity].
Qed.
