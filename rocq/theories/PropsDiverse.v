(** * PropsDiverse: the members of a user type vary independently (C93) *)
From Verif Require Import Base Wp Tape F64 Utils ListLemmas Appliance User UseCase Sim Spec SpecUser SpecUseCase SpecDay ProofsAppliance ProofsEvent ProofsEvent2
  ProofsDay ProofsDay2 ProofsUser ProofsUseCase ProofsRun PropsBasic PropsDay PropsUseCase PropsUser PropsTotal Prob PropsProb PropsMean PropsIndep.
From Coq Require Import ZifyBool ZifyNat.

(** ** Specification *)

(** a measurement of a daily profile: a weighted sum of its minutes; e.g. one minute, or the energy of some hours *)
Definition weigh (wt : Z -> Q) (row : list Q) : Q := Qsum (map (fun t => (wt t * value_at row t)%Q) (arange 0 1440)).

(** its mean and variance for the profile of one member of a user type *)
Definition member_mean (L : law) (depth : nat) (F : fm) (u : user) (i : Z) (peak : list Z) (dt : Z) (f : list Q -> Q) : Q :=
  expect L (generate_single_load_profile depth F u i peak dt) (fun r => match r with Ok x => f (snd x) | Err _ => 0%Q end).
Definition member_variance (L : law) (depth : nat) (F : fm) (u : user) (i : Z) (peak : list Z) (dt : Z) (f : list Q -> Q) : Q :=
  member_mean L depth F u i peak dt (fun row => let x := (f row - member_mean L depth F u i peak dt f)%Q in (x * x)%Q).

(** ... and of the profile of one appliance, the preference of the day being [pref] *)
Definition one_appliance (depth : nat) (F : fm) (pref : Z) (a : appliance) (i : Z) (peak : list Z) (dt : Z) : prog appliance :=
  pw <- lift (py_index (power a) i) ;; generate_load_profile depth F a pref i peak dt pw.
Definition app_mean (L : law) (depth : nat) (F : fm) (pref : Z) (a : appliance) (i : Z) (peak : list Z) (dt : Z) (f : list Q -> Q) : Q :=
  expect L (one_appliance depth F pref a i peak dt) (fun r => match r with Ok a' => f (daily_use (st a')) | Err _ => 0%Q end).
Definition app_variance (L : law) (depth : nat) (F : fm) (pref : Z) (a : appliance) (i : Z) (peak : list Z) (dt : Z) (f : list Q -> Q) : Q :=
  app_mean L depth F pref a i peak dt (fun row => let x := (f row - app_mean L depth F pref a i peak dt f)%Q in (x * x)%Q).

(** ** Lemmas *)

Lemma weigh_vadd F wt x y : exact F -> List.length x = day_minutes -> List.length y = day_minutes -> (weigh wt (vadd F x y) == weigh wt x + weigh wt y)%Q.
Proof.
  intros HF Hx Hy. unfold weigh. rewrite <- qsum_add. apply qsum_ext. intros t Ht. apply in_arange in Ht.
  rewrite value_at_vadd by (try assumption; lia). unfold fadd. rewrite (HF _). ring.
Qed.

Lemma weigh_zeros wt : (weigh wt (zeros day_minutes) == 0)%Q.
Proof.
  unfold weigh. rewrite (qsum_ext _ (fun _ => 0%Q)); [rewrite qsum_const; ring|]. intros t _. unfold value_at, zeros. rewrite nth_repeat. ring.
Qed.

(** the mean square of a variable moved by [c] *)
Lemma square_mean {A} L (p : prog A) (X : A -> Q) c : below_pos p -> (forall e, ~ may p (Err e)) ->
  let m := expect L p (fun r => match r with Ok x => X x | Err _ => 0%Q end) in
  (expect L p (fun r => match r with Ok x => (c + X x) * (c + X x) | Err _ => 0 end) ==
   (c + m) * (c + m) + expect L p (fun r => match r with Ok x => let y := X x - m in y * y | Err _ => 0 end))%Q.
Proof.
  intros Hp Hn m.
  rewrite (expect_ext L p _ (fun r => match r with Ok x => let y := X x - m in y * y | Err _ => 0 end +
     (2 * (c + m) * match r with Ok x => X x | Err _ => 0 end + (c * c - m * m)))%Q).
  - rewrite expect_add, expect_add, expect_scale, expect_const by exact Hp. fold m. ring.
  - intros [x|e] Hr; [cbv zeta; ring|exfalso; exact (Hn e Hr)].
Qed.

Lemma same_squares m M v V : (forall c, (c + m) * (c + m) + v == (c + M) * (c + M) + V)%Q -> (v == V)%Q.
Proof. intros H. pose proof (H 0%Q) as G0. pose proof (H 1%Q) as G1. assert (E : (m == M)%Q) by lra. rewrite E in G0. lra. Qed.

Section diverse.
Variables (L : law) (depth : nat) (F : fm) (n : Z) (peak : list Z).
Hypothesis HF : exact F.
Hypothesis Hdepth : (0 < depth)%nat.
Hypothesis Hpeak : peak <> [].

Lemma one_never a pref i dt : 0 <= i < n -> safe_app F n a -> forall e, ~ may (one_appliance depth F pref a i peak dt) (Err e).
Proof.
  intros Hi (S1 & S2 & S3) e He. unfold one_appliance in He. destruct (py_index_exists (power a) i ltac:(lia)) as (pw & Hpw & _).
  rewrite Hpw in He. cbn [lift bind] in He.
  unfold generate_load_profile in He. apply may_bind in He as [(y & _ & He)|(e' & He & Ee)]; [apply may_ret_inv in He; discriminate|].
  injection Ee as <-.
  destruct (day_total depth F a pref i peak dt pw _ S1 Hpeak Hdepth ltac:(lia) He) as [(y & C)|(_ & C1 & C2)]; [discriminate|].
  exact (C2 (S3 C1)).
Qed.

Lemma one_len a pref i dt a' : may (one_appliance depth F pref a i peak dt) (Ok a') -> List.length (daily_use (st a')) = day_minutes.
Proof.
  unfold one_appliance. intros H. apply may_bind in H as [(pw & _ & H)|(e & _ & C)]; [|discriminate]. exact (glp_len _ _ _ _ _ _ _ _ _ H).
Qed.

Lemma bp_one a pref i dt : below_pos (one_appliance depth F pref a i peak dt).
Proof. unfold one_appliance. destruct (py_index (power a) i); cbn [lift bind]; [apply bp_profile|exact I]. Qed.

(** the appliances of one member, the preference being known *)
Lemma apps_variance wt pref i dt : 0 <= i < n -> forall apps acc c,
  Forall (safe_app F n) apps -> List.length acc = day_minutes ->
  (expect L (generate_apps depth F pref i peak dt apps acc) (fun r => match r with Ok x => (c + weigh wt (snd x)) * (c + weigh wt (snd x)) | Err _ => 0 end) ==
   (let y := c + weigh wt acc + Qsum (map (fun a => app_mean L depth F pref a i peak dt (weigh wt)) apps) in y * y) +
   Qsum (map (fun a => app_variance L depth F pref a i peak dt (weigh wt)) apps))%Q.
Proof.
  intros Hi. induction apps as [|a apps IH]; intros acc c Ha Hacc; cbn [generate_apps].
  { cbn [expect snd map]. cbv zeta. change (Qsum []) with 0%Q. ring. }
  inversion Ha as [|? ? H1 H2]; subst. cbn [map]. cbv zeta. rewrite !qsum_cons.
  set (M := Qsum (map (fun a => app_mean L depth F pref a i peak dt (weigh wt)) apps)) in *.
  set (V := Qsum (map (fun a => app_variance L depth F pref a i peak dt (weigh wt)) apps)) in *.
  assert (Eb : (expect L (pw <- lift (py_index (power a) i) ;;
      a' <- generate_load_profile depth F a pref i peak dt pw ;; r <- generate_apps depth F pref i peak dt apps (vadd F acc (daily_use (st a'))) ;; Ret (a' :: fst r, snd r))
      (fun r => match r with Ok x => (c + weigh wt (snd x)) * (c + weigh wt (snd x)) | Err _ => 0 end) ==
    expect L (one_appliance depth F pref a i peak dt) (fun r => match r with Ok a' => ((c + weigh wt acc + M) + weigh wt (daily_use (st a'))) * ((c + weigh wt acc + M) + weigh wt (daily_use (st a'))) | Err _ => 0 end + V))%Q).
  { transitivity (expect L (a' <- one_appliance depth F pref a i peak dt ;; r <- generate_apps depth F pref i peak dt apps (vadd F acc (daily_use (st a'))) ;; Ret (a' :: fst r, snd r))
      (fun r => match r with Ok x => (c + weigh wt (snd x)) * (c + weigh wt (snd x)) | Err _ => 0 end)%Q).
    { unfold one_appliance. destruct (py_index (power a) i); cbn [lift bind]; reflexivity. }
    rewrite expect_bind. apply expect_ext. intros r Hr. destruct r as [a'|e]; [|exfalso; exact (one_never a pref i dt Hi H1 e Hr)].
    cbn [onward]. rewrite expect_bind. pose proof (one_len a pref i dt a' Hr) as Hlen.
    rewrite (expect_ext L _ _ (fun r => match r with Ok x => (c + weigh wt (snd x)) * (c + weigh wt (snd x)) | Err _ => 0 end)%Q).
    { rewrite IH; [|exact H2|rewrite vadd_len, Hacc, Hlen; lia]. fold M V. cbv zeta. rewrite weigh_vadd by assumption. ring. }
    intros [x|e] _; reflexivity. }
  etransitivity; [exact Eb|]. rewrite expect_add, expect_const by apply bp_one.
  rewrite (square_mean L (one_appliance depth F pref a i peak dt) (fun a' => weigh wt (daily_use (st a'))) (c + weigh wt acc + M) (bp_one _ _ _ _) (one_never a pref i dt Hi H1)).
  unfold app_variance, app_mean at 3. cbv zeta. unfold app_mean. ring.
Qed.

(** ** Members *)

Lemma member_ext f g u i dt : (forall row, (f row == g row)%Q) -> (member_mean L depth F u i peak dt f == member_mean L depth F u i peak dt g)%Q.
Proof. intros H. unfold member_mean. apply expect_ext. intros [x|e] _; [apply H|reflexivity]. Qed.

Lemma member_same f u v i dt : same_user u v -> (member_mean L depth F v i peak dt f == member_mean L depth F u i peak dt f)%Q.
Proof.
  intros (_ & _ & Hp & Hl). symmetry. unfold member_mean.
  apply (expect_psim (fun x y : user * list Q => snd x = snd y) L (generate_single_load_profile depth F u i peak dt) (generate_single_load_profile depth F v i peak dt)).
  - unfold generate_single_load_profile. assert (Ep : draw_pref v = draw_pref u) by (unfold draw_pref; rewrite Hp; reflexivity). rewrite Ep.
    apply psim_bind with (R := eq); [apply psim_eq|]. intros pref ? <-.
    eapply psim_bind; [apply (apps_index depth F pref i i peak dt (app_list u) (app_list v)); [exact Hl|apply Forall_forall; reflexivity]|].
    intros x y (_ & _ & E). exact E.
  - intros x y E. rewrite E. reflexivity.
  - reflexivity.
Qed.

Lemma member_variance_same f u v i dt : same_user u v -> (member_variance L depth F v i peak dt f == member_variance L depth F u i peak dt f)%Q.
Proof.
  intros H. unfold member_variance. rewrite (member_same _ u v i dt H). apply member_ext. intros row. cbv zeta. rewrite (member_same f u v i dt H). reflexivity.
Qed.

Lemma single_no_error u i dt : 0 <= i < n -> safe_user F n u -> forall e, ~ may (generate_single_load_profile depth F u i peak dt) (Err e).
Proof. intros Hi Hu e He. exact (wp_elim _ _ _ (single_never depth F n peak Hdepth Hpeak u i dt Hi Hu) He). Qed.

Lemma members_variance wt i dt : 0 <= i < n -> forall k u c, safe_user F n u -> List.length (load u) = day_minutes ->
  (expect L (generate_members k depth F u i peak dt) (fun r => match r with Ok v => (c + weigh wt (load v)) * (c + weigh wt (load v)) | Err _ => 0 end) ==
   (let y := c + weigh wt (load u) + zq (Z.of_nat k) * member_mean L depth F u i peak dt (weigh wt) in y * y) +
   zq (Z.of_nat k) * member_variance L depth F u i peak dt (weigh wt))%Q.
Proof.
  intros Hi. induction k as [|k IH]; intros u c Hu Hl; cbn [generate_members].
  { cbn [expect]. change (zq (Z.of_nat 0)) with 0%Q. cbv zeta. ring. }
  rewrite expect_bind. set (M := member_mean L depth F u i peak dt (weigh wt)). set (V := member_variance L depth F u i peak dt (weigh wt)).
  rewrite (expect_ext L _ _ (fun r => match r with Ok x => ((c + weigh wt (load u) + zq (Z.of_nat k) * M) + weigh wt (snd x)) * ((c + weigh wt (load u) + zq (Z.of_nat k) * M) + weigh wt (snd x)) | Err _ => 0 end
     + zq (Z.of_nat k) * V)%Q).
  - rewrite expect_add, expect_const by apply bp_single.
    etransitivity; [apply Qplus_comp; [apply (square_mean L (generate_single_load_profile depth F u i peak dt) (fun x => weigh wt (snd x)) _ (bp_single _ _ _ _ _ _) (single_no_error u i dt Hi Hu))|reflexivity]|].
    cbv zeta.
    fold (member_mean L depth F u i peak dt (weigh wt)). fold M.
    change (expect L (generate_single_load_profile depth F u i peak dt) _) with V.
    rewrite Nat2Z.inj_succ, <- Z.add_1_r. unfold zq. rewrite inject_Z_plus. change (inject_Z 1) with 1%Q. cbv zeta. ring.
  - intros r Hr. pose proof (wp_elim _ _ _ (single_never depth F n peak Hdepth Hpeak u i dt Hi Hu) Hr) as Hn.
    destruct r as [[v l]|e]; [|contradiction]. cbn [onward fst snd] in *. destruct Hn as (Hs & Hlen & _ & Hload).
    assert (Hs' : same_user u (set_load v (vadd F (load v) l))) by exact Hs.
    rewrite IH; [|eapply safe_user_same; eassumption|cbn [load set_load]; rewrite vadd_len, Hload, Hl, Hlen; lia].
    cbv zeta. rewrite (member_same (weigh wt) _ _ i dt Hs'), (member_variance_same (weigh wt) _ _ i dt Hs'). fold M V. cbn [load set_load].
    cbv zeta. rewrite Hload, weigh_vadd by assumption. ring.
Qed.

(** ** User types and use cases *)

Definition type_mean (u : user) i dt f : Q := (zq (Z.max 0 (num_users u)) * member_mean L depth F u i peak dt f)%Q.
Definition type_variance (u : user) i dt f : Q := (zq (Z.max 0 (num_users u)) * member_variance L depth F u i peak dt f)%Q.

Lemma aggregated_square wt u i dt c : 0 <= i < n -> safe_user F n u ->
  (expect L (generate_aggregated_load_profile depth F u i peak dt) (fun r => match r with Ok v => (c + weigh wt (load v)) * (c + weigh wt (load v)) | Err _ => 0 end) ==
   (let y := c + type_mean u i dt (weigh wt) in y * y) + type_variance u i dt (weigh wt))%Q.
Proof.
  intros Hi Hu. unfold generate_aggregated_load_profile.
  assert (Hs : same_user u (set_load u (zeros day_minutes))).
  { repeat split. cbn [set_load app_list]. apply f2_same_app_refl. }
  rewrite (members_variance wt i dt Hi _ (set_load u (zeros day_minutes)) c); [|exact Hu|reflexivity].
  replace (Z.of_nat (Z.to_nat (num_users u))) with (Z.max 0 (num_users u)) by lia.
  cbv zeta. rewrite (member_same (weigh wt) _ _ i dt Hs), (member_variance_same (weigh wt) _ _ i dt Hs). cbn [load set_load]. rewrite weigh_zeros.
  unfold type_mean, type_variance. ring.
Qed.

Lemma day_square wt i dt : 0 <= i < n -> forall us acc c, Forall (safe_user F n) us -> List.length acc = day_minutes ->
  (expect L (day_of_users depth F i peak dt us acc) (fun r => match r with Ok x => (c + weigh wt (snd x)) * (c + weigh wt (snd x)) | Err _ => 0 end) ==
   (let y := c + weigh wt acc + Qsum (map (fun u => type_mean u i dt (weigh wt)) us) in y * y) + Qsum (map (fun u => type_variance u i dt (weigh wt)) us))%Q.
Proof.
  intros Hi. induction us as [|u us IH]; intros acc c Hu Hacc; cbn [day_of_users].
  { cbn [expect snd map]. cbv zeta. change (Qsum []) with 0%Q. ring. }
  inversion Hu as [|? ? H1 H2]; subst. cbn [map]. cbv zeta. rewrite !qsum_cons, expect_bind.
  set (M := Qsum (map (fun u => type_mean u i dt (weigh wt)) us)) in *. set (V := Qsum (map (fun u => type_variance u i dt (weigh wt)) us)) in *.
  rewrite (expect_ext L _ _ (fun r => match r with Ok v => ((c + weigh wt acc + M) + weigh wt (load v)) * ((c + weigh wt acc + M) + weigh wt (load v)) | Err _ => 0 end + V)%Q).
  - rewrite expect_add, expect_const by apply bp_aggregated. rewrite (aggregated_square wt u i dt _ Hi H1). cbv zeta. ring.
  - intros r Hr. pose proof (wp_elim _ _ _ (aggregated_never depth F n peak Hdepth Hpeak u i dt Hi H1) Hr) as Hn. destruct r as [v|e]; [|contradiction].
    destruct Hn as [_ Hlen]. cbn [onward]. rewrite expect_bind.
    rewrite (expect_ext L _ _ (fun r => match r with Ok x => (c + weigh wt (snd x)) * (c + weigh wt (snd x)) | Err _ => 0 end)%Q).
    { rewrite IH; [|exact H2|rewrite vadd_len, Hacc, Hlen; lia]. fold M V. cbv zeta. rewrite weigh_vadd by assumption. ring. }
    intros [x|e] _; reflexivity.
Qed.

End diverse.

(** ** C93 *)

(** The load of a user type deviates from num_users times the mean of one member; the mean square of the deviation is
    num_users times the variance of one member. *)
Theorem C93_user L depth F u i peak dt n wt :
  exact F -> (0 < depth)%nat -> peak <> [] -> safe_user F n u -> 0 <= i < n ->
  (expect L (generate_aggregated_load_profile depth F u i peak dt)
     (fun r => match r with Ok v =>
        let y := weigh wt (load v) - zq (Z.max 0 (num_users u)) * member_mean L depth F u i peak dt (weigh wt) in y * y | Err _ => 0 end) ==
   zq (Z.max 0 (num_users u)) * member_variance L depth F u i peak dt (weigh wt))%Q.
Proof.
  intros HF Hd Hp Hu Hi.
  pose proof (aggregated_square L depth F n peak HF Hd Hp wt u i dt (- type_mean L depth F peak u i dt (weigh wt)) Hi Hu) as H. cbv zeta in H.
  unfold type_variance in H. rewrite (expect_ext L _ _ (fun r => match r with Ok v =>
        let y := weigh wt (load v) - zq (Z.max 0 (num_users u)) * member_mean L depth F u i peak dt (weigh wt) in y * y | Err _ => 0 end)%Q) in H.
  - rewrite H. ring.
  - intros [v|e] _; [|reflexivity]. cbv zeta. unfold type_mean. ring.
Qed.

(** So the load per member comes as close to the mean as one likes if there are enough members (Chebyshev). *)
Theorem C93_per_member L depth F u i peak dt n wt eps :
  exact F -> (0 < depth)%nat -> peak <> [] -> safe_user F n u -> 0 <= i < n -> 0 < num_users u -> (0 < eps)%Q ->
  (chance L (generate_aggregated_load_profile depth F u i peak dt)
     (fun r => match r with Ok v =>
        let y := (weigh wt (load v) / zq (num_users u) - member_mean L depth F u i peak dt (weigh wt))%Q in Qle_bool (eps * eps) (y * y) | Err _ => false end) <=
   member_variance L depth F u i peak dt (weigh wt) / (zq (num_users u) * (eps * eps)))%Q.
Proof.
  intros HF Hd Hp Hu Hi Hn He. pose proof (C93_user L depth F u i peak dt n wt HF Hd Hp Hu Hi) as H.
  replace (Z.max 0 (num_users u)) with (num_users u) in H by lia. pose proof (zq_pos (num_users u) Hn) as Hq.
  set (N := zq (num_users u)) in *. set (M := member_mean L depth F u i peak dt (weigh wt)) in *. set (V := member_variance L depth F u i peak dt (weigh wt)) in *.
  unfold chance. assert (E2 : (0 < eps * eps)%Q) by (apply Qmult_lt_0_compat; exact He). assert (N2 : (0 < N * N)%Q) by (apply Qmult_lt_0_compat; exact Hq).
  assert (D2 : (0 < N * N * (eps * eps))%Q) by (apply Qmult_lt_0_compat; assumption).
  assert (E3 : (expect L (generate_aggregated_load_profile depth F u i peak dt) (fun r => / (N * N * (eps * eps)) *
     match r with Ok v => let y := weigh wt (load v) - N * M in y * y | Err _ => 0 end) == V / (N * (eps * eps)))%Q).
  { rewrite expect_scale, H. field. split; lra. }
  rewrite <- E3. apply expect_le; [apply bp_aggregated|]. intros [v|e] _; [|rewrite Qmult_0_r; apply Qle_refl]. cbv zeta.
  set (X := weigh wt (load v)).
  assert (Ey : (/ (N * N * (eps * eps)) * ((X - N * M) * (X - N * M)) == ((X / N - M) * (X / N - M)) / (eps * eps))%Q) by (field; split; lra).
  rewrite Ey. set (y := (X / N - M)%Q). destruct (Qle_bool (eps * eps) (y * y)) eqn:Eb.
  - apply Qle_bool_iff in Eb. apply Qle_shift_div_l; [exact E2|]. rewrite Qmult_1_l. exact Eb.
  - apply Qle_shift_div_l; [exact E2|]. rewrite Qmult_0_l. apply square_nonneg.
Qed.

(** The variance of a day of the use case is the sum over the user types of num_users times the variance of one member. *)
Theorem C93_use_case L depth F c s n k wt dt :
  exact F -> (0 < depth)%nat -> peak_of c <> [] -> Forall (safe_user F n) (users c) -> 0 <= k < n -> is_day_type (s + 1440 * k) dt ->
  (day_mean_of L depth F c s k (weigh wt) == Qsum (map (fun u => zq (Z.max 0 (num_users u)) * member_mean L depth F u k (peak_of c) dt (weigh wt)) (users c)))%Q /\
  (day_variance L depth F c s k (weigh wt) == Qsum (map (fun u => zq (Z.max 0 (num_users u)) * member_variance L depth F u k (peak_of c) dt (weigh wt)) (users c)))%Q.
Proof.
  intros HF Hd Hp Hu Hk Hdt.
  assert (E : get_day_type (s + 1440 * k) = dt).
  { pose proof (day_type_spec (s + 1440 * k)) as H2. unfold is_day_type in *. cbv zeta in *. congruence. }
  pose proof (day_square L depth F n (peak_of c) HF Hd Hp wt k dt Hk (users c) (zeros day_minutes)) as Hsq.
  assert (G : forall c0, (day_mean_of L depth F c s k (fun row => (c0 + weigh wt row) * (c0 + weigh wt row)) ==
     (let y := c0 + Qsum (map (fun u => zq (Z.max 0 (num_users u)) * member_mean L depth F u k (peak_of c) dt (weigh wt)) (users c)) in y * y) +
     Qsum (map (fun u => zq (Z.max 0 (num_users u)) * member_variance L depth F u k (peak_of c) dt (weigh wt)) (users c)))%Q).
  { intros c0. specialize (Hsq c0 Hu eq_refl). unfold day_mean_of, one_day. rewrite expect_bind, E. cbv zeta in *. rewrite weigh_zeros in Hsq.
    unfold type_mean, type_variance in Hsq. rewrite (expect_ext L _ _ (fun r => match r with Ok x => (c0 + weigh wt (snd x)) * (c0 + weigh wt (snd x)) | Err _ => 0 end)%Q).
    - etransitivity; [exact Hsq|]. ring.
    - intros [x|e] _; reflexivity. }
  clear Hsq. cbv zeta in G.
  set (M := Qsum (map (fun u => zq (Z.max 0 (num_users u)) * member_mean L depth F u k (peak_of c) dt (weigh wt)) (users c))%Q) in *.
  set (V := Qsum (map (fun u => zq (Z.max 0 (num_users u)) * member_variance L depth F u k (peak_of c) dt (weigh wt)) (users c))%Q) in *.
  pose proof (day_mean_one L depth F c s n Hd Hp Hu k Hk) as H1.
  set (Dm := day_mean_of L depth F c s k (weigh wt)).
  (* E(c+X)^2 = E X^2 + 2 c E X + c^2, for c = 0 and 1 *)
  assert (X2 : forall c0, (day_mean_of L depth F c s k (fun row => (c0 + weigh wt row) * (c0 + weigh wt row)) ==
     c0 * c0 + 2 * c0 * Dm + day_mean_of L depth F c s k (fun row => weigh wt row * weigh wt row))%Q).
  { intros c0. setoid_replace (c0 * c0)%Q with (c0 * c0 * day_mean_of L depth F c s k (fun _ => 1))%Q by (rewrite H1; ring).
    unfold Dm, day_mean_of. rewrite <- !expect_scale, <- !expect_add. apply expect_ext. intros [x|e] _; ring. }
  assert (Em : (Dm == M)%Q).
  { pose proof (G 0%Q) as G0. pose proof (G 1%Q) as G1. rewrite X2 in G0, G1. set (D2 := day_mean_of L depth F c s k (fun row => weigh wt row * weigh wt row)%Q) in *.
    ring_simplify in G0. ring_simplify in G1. lra. }
  split; [exact Em|]. unfold day_variance. fold Dm.
  assert (Ev : (day_mean_of L depth F c s k (fun row => let x := weigh wt row - Dm in x * x) == day_mean_of L depth F c s k (fun row => (- Dm + weigh wt row) * (- Dm + weigh wt row)))%Q).
  { unfold day_mean_of. apply expect_ext. intros [x|e] _; [cbv zeta; ring|reflexivity]. }
  rewrite Ev, G, Em. ring.
Qed.

(** If the user has no preferences its appliances vary independently as well. *)
Theorem C93_member L depth F u i peak dt n wt :
  exact F -> (0 < depth)%nat -> peak <> [] -> safe_user F n u -> 0 <= i < n -> user_preference u = 0 ->
  (member_variance L depth F u i peak dt (weigh wt) ==
   Qsum (map (fun a => app_variance L depth F 0 a i peak dt (weigh wt)) (app_list u)))%Q.
Proof.
  intros HF Hd Hp Hu Hi H0.
  assert (G : forall c0, (member_mean L depth F u i peak dt (fun row => (c0 + weigh wt row) * (c0 + weigh wt row)) ==
     (let y := c0 + Qsum (map (fun a => app_mean L depth F 0 a i peak dt (weigh wt)) (app_list u)) in y * y) +
     Qsum (map (fun a => app_variance L depth F 0 a i peak dt (weigh wt)) (app_list u)))%Q).
  { intros c0. unfold member_mean, generate_single_load_profile, draw_pref. rewrite H0. cbn [Z.eqb bind]. rewrite expect_bind.
    rewrite (expect_ext L _ _ (fun r => match r with Ok x => (c0 + weigh wt (snd x)) * (c0 + weigh wt (snd x)) | Err _ => 0 end)%Q) by (intros [x|e] _; reflexivity).
    rewrite (apps_variance L depth F n peak HF Hd Hp wt 0 i dt Hi (app_list u) (zeros day_minutes) c0 (proj2 Hu) eq_refl). cbv zeta. rewrite weigh_zeros. ring. }
  cbv zeta in G.
  set (M := Qsum (map (fun a => app_mean L depth F 0 a i peak dt (weigh wt)) (app_list u))) in *.
  set (V := Qsum (map (fun a => app_variance L depth F 0 a i peak dt (weigh wt)) (app_list u))) in *.
  assert (Hsq : forall c0, (member_mean L depth F u i peak dt (fun row => (c0 + weigh wt row) * (c0 + weigh wt row)) ==
     (c0 + member_mean L depth F u i peak dt (weigh wt)) * (c0 + member_mean L depth F u i peak dt (weigh wt)) + member_variance L depth F u i peak dt (weigh wt))%Q).
  { intros c0. apply (square_mean L (generate_single_load_profile depth F u i peak dt) (fun x => weigh wt (snd x)) c0 (bp_single _ _ _ _ _ _) (single_no_error depth F n peak Hd Hp u i dt Hi Hu)). }
  apply (same_squares (member_mean L depth F u i peak dt (weigh wt)) M). intros c0. rewrite <- Hsq. apply G.
Qed.

(** ** A case: two households, lamp and kettle, in exact arithmetic *)

Example C93_case : safe_user exact_fm 2 mean_home /\ num_users mean_home = 2 /\ List.length (app_list mean_home) = 2%nat /\
  is_day_type (1051200000 + 1440 * 1) 1 /\ Forall (safe_user exact_fm 2) (users mean_village).
Proof.
  destruct C89_case as (_ & _ & _ & H & D). inversion H; subst. repeat (split; [first [assumption|reflexivity]|]). assumption.
Qed.
