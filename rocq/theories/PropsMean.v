(** * PropsMean: mean loads of users and use cases (C89) *)
From Verif Require Import Base Wp Tape F64 Utils ListLemmas Appliance User UseCase Sim Spec SpecUser SpecUseCase SpecDay ProofsAppliance ProofsEvent ProofsEvent2
  ProofsDay ProofsDay2 ProofsUser ProofsUseCase ProofsRun PropsBasic PropsDay PropsUseCase PropsUser PropsTotal Prob PropsProb.
From Verif Require PropsParallel.
From Coq Require Import ZifyBool ZifyNat.

(** ** Specification *)

(** one member of user type [u] and its appliance [a], on one day *)
Definition appliance_day (depth : nat) (F : fm) (u : user) (a : appliance) (i : Z) (peak : list Z) (dt : Z) : prog appliance :=
  pref <- draw_pref u ;;
  pw <- lift (py_index (power a) i) ;;
  generate_load_profile depth F a pref i peak dt pw.

(** the mean power of that appliance at minute [t] *)
Definition mean_use (L : law) (depth : nat) (F : fm) (u : user) (a : appliance) (i : Z) (peak : list Z) (dt t : Z) : Q :=
  expect L (appliance_day depth F u a i peak dt) (fun r => match r with Ok a' => value_at (daily_use (st a')) t | Err _ => 0%Q end).

(** the appliances of one member together, and all members of the user type *)
Definition mean_member (L : law) (depth : nat) (F : fm) (u : user) (i : Z) (peak : list Z) (dt t : Z) : Q :=
  Qsum (map (fun a => mean_use L depth F u a i peak dt t) (app_list u)).
Definition mean_type (L : law) (depth : nat) (F : fm) (u : user) (i : Z) (peak : list Z) (dt t : Z) : Q :=
  (zq (Z.max 0 (num_users u)) * mean_member L depth F u i peak dt t)%Q.

(** valid declarations that never raise within [n] days *)
Definition safe_app (F : fm) (n : Z) (a : appliance) : Prop :=
  sound_app F a /\ n <= zlen (power a) /\ (has_duty_cycles a -> duty_ok a).
Definition safe_user (F : fm) (n : Z) (u : user) : Prop := 0 <= user_preference u /\ Forall (safe_app F n) (app_list u).

(** ** Lemmas *)

Definition never (_ : exc) : Prop := False.

Lemma safe_ready F n a : safe_app F n a -> ready_app F n never a.
Proof. intros (H1 & H2 & H3). split; [exact H1|]. split; [exact H2|]. intros D1 D2. exact (D2 (H3 D1)). Qed.

Lemma safe_same F n a b : same_declared a b -> safe_app F n a -> safe_app F n b.
Proof. intros (d & ->) H. exact H. Qed.

Lemma safe_same_all F n l l' : Forall2 same_declared l l' -> Forall (safe_app F n) l -> Forall (safe_app F n) l'.
Proof. induction 1; intros H1; [constructor|]. inversion H1; subst. constructor; [eapply safe_same; eassumption|auto]. Qed.

Lemma safe_user_same F n u v : same_user u v -> safe_user F n u -> safe_user F n v.
Proof.
  intros (_ & _ & H3 & H4) [P A]. split; [rewrite H3; exact P|]. exact (safe_same_all F n _ _ H4 A).
Qed.

Lemma safe_all F n l : Forall (safe_app F n) l -> Forall (ready_app F n never) l.
Proof. intros H. eapply Forall_impl; [|exact H]. intros a. apply safe_ready. Qed.

(** the mean of one appliance, the preference of the day being known *)
Definition mean_pref (L : law) (depth : nat) (F : fm) (pref : Z) (a : appliance) (i : Z) (peak : list Z) (dt t : Z) : Q :=
  expect L (pw <- lift (py_index (power a) i) ;; generate_load_profile depth F a pref i peak dt pw)
    (fun r => match r with Ok a' => value_at (daily_use (st a')) t | Err _ => 0%Q end).

Lemma mean_use_pref L depth F u a i peak dt t :
  (mean_use L depth F u a i peak dt t ==
   expect L (draw_pref u) (fun r => match r with Ok pref => mean_pref L depth F pref a i peak dt t | Err _ => 0 end))%Q.
Proof.
  unfold mean_use, appliance_day. rewrite expect_bind. apply expect_ext. intros [pref|e] _; reflexivity.
Qed.

Lemma mean_pref_same L depth F pref a b i peak dt t : same_declared a b ->
  (mean_pref L depth F pref b i peak dt t == mean_pref L depth F pref a i peak dt t)%Q.
Proof.
  intros H. apply same_declared_app in H. pose proof (same_app_power a b H) as Hp. unfold mean_pref. rewrite Hp.
  destruct (py_index (power a) i) as [pw|e]; cbn [lift bind]; [|reflexivity].
  symmetry. eapply expect_psim; [apply (glp_sim depth F a b pref i peak dt pw H)| |reflexivity].
  intros x y (_ & _ & E). cbn. rewrite E. reflexivity.
Qed.

Lemma mean_use_same L depth F u v a b i peak dt t : user_preference v = user_preference u -> same_declared a b ->
  (mean_use L depth F v b i peak dt t == mean_use L depth F u a i peak dt t)%Q.
Proof.
  intros Hp H. rewrite !mean_use_pref. unfold draw_pref. rewrite Hp. apply expect_ext. intros [pref|e] _; [|reflexivity].
  apply mean_pref_same. exact H.
Qed.

Lemma mean_member_same L depth F u v i peak dt t : same_user u v ->
  (mean_member L depth F v i peak dt t == mean_member L depth F u i peak dt t)%Q.
Proof.
  intros (_ & _ & Hp & Hl). unfold mean_member. induction Hl as [|a b l l' Hab Hl IH]; [reflexivity|].
  cbn [map]. rewrite !qsum_cons, IH, (mean_use_same L depth F u v a b i peak dt t Hp Hab). reflexivity.
Qed.

Section means.
Variables (L : law) (depth : nat) (F : fm) (n : Z) (peak : list Z).
Hypothesis HF : exact F.
Hypothesis Hdepth : (0 < depth)%nat.
Hypothesis Hpeak : peak <> [].

Lemma apps_mean pref i dt t : 0 <= i < n -> 0 <= t < 1440 -> forall apps acc,
  Forall (safe_app F n) apps -> List.length acc = day_minutes ->
  (expect L (generate_apps depth F pref i peak dt apps acc) (fun r => match r with Ok x => value_at (snd x) t | Err _ => 0 end) ==
   value_at acc t + Qsum (map (fun a => mean_pref L depth F pref a i peak dt t) apps))%Q.
Proof.
  intros Hi Ht. induction apps as [|a apps IH]; intros acc Ha Hacc; cbn [generate_apps].
  { cbn [expect snd map]. change (Qsum []) with 0%Q. ring. }
  inversion Ha as [|? ? H1 H2]; subst.
  cbn [map]. rewrite qsum_cons. unfold mean_pref at 1.
  assert (Hnf : forall pw, py_index (power a) i = Ok pw -> forall e, ~ may (generate_load_profile depth F a pref i peak dt pw) (Err e)).
  { intros pw _ e He. unfold generate_load_profile in He. apply may_bind in He as [(y & _ & He)|(e' & He & Ee)]; [apply may_ret_inv in He; discriminate|].
    injection Ee as <-. destruct H1 as (S1 & S2 & S3).
    destruct (day_total depth F a pref i peak dt pw _ S1 Hpeak Hdepth ltac:(lia) He) as [(y & C)|(_ & C1 & C2)]; [discriminate|].
    exact (C2 (S3 C1)). }
  destruct H1 as (S1 & S2 & S3). destruct (py_index_exists (power a) i ltac:(lia)) as (pw & Hpw & _).
  rewrite Hpw. cbn [lift bind]. rewrite expect_bind.
  set (R := Qsum (map (fun a0 => mean_pref L depth F pref a0 i peak dt t) apps)) in *.
  rewrite (expect_ext L _ _ (fun r => (value_at acc t + R) + match r with Ok a' => value_at (daily_use (st a')) t | Err _ => 0 end)%Q).
  { rewrite expect_add, expect_const by apply bp_profile. ring. }
  intros [a'|e] Hr; [|exfalso; exact (Hnf pw Hpw e Hr)].
  cbn [onward]. rewrite expect_bind.
  pose proof (glp_len _ _ _ _ _ _ _ _ _ Hr) as Hlen.
  rewrite (expect_ext L _ _ (fun r => match r with Ok x => value_at (snd x) t | Err _ => 0%Q end)).
  { rewrite IH; [|exact H2|rewrite vadd_len, Hacc, Hlen; lia]. fold R.
    rewrite value_at_vadd by assumption. unfold fadd. rewrite (HF _). ring. }
  intros [x|e] _; reflexivity.
Qed.

Lemma single_mean u i dt t : 0 <= i < n -> 0 <= t < 1440 -> safe_user F n u ->
  (expect L (generate_single_load_profile depth F u i peak dt) (fun r => match r with Ok x => value_at (snd x) t | Err _ => 0 end) ==
   mean_member L depth F u i peak dt t)%Q.
Proof.
  intros Hi Ht [Hp Ha]. unfold generate_single_load_profile. rewrite expect_bind.
  assert (Hd : below_pos (draw_pref u)) by (unfold draw_pref; destruct (_ =? 0); [exact I|bp1]).
  assert (Hnf : forall e, ~ may (draw_pref u) (Err e)).
  { intros e He. unfold draw_pref in He. destruct (user_preference u =? 0) eqn:E; [apply may_ret_inv in He; discriminate|].
    unfold py_randint in He. replace (user_preference u + 1 - 1 <=? 0) with false in He by lia.
    inversion He as [| | |m j k r Hj Hr| |]; subst. apply may_ret_inv in Hr. discriminate. }
  transitivity (expect L (draw_pref u) (fun r => Qsum (map (fun a => match r with Ok pref => mean_pref L depth F pref a i peak dt t | Err _ => 0%Q end) (app_list u)))).
  - apply expect_ext. intros [pref|e] Hr; [|exfalso; exact (Hnf e Hr)]. cbn [onward]. rewrite expect_bind.
    rewrite (expect_ext L _ _ (fun r => match r with Ok x => value_at (snd x) t | Err _ => 0%Q end)).
    + rewrite apps_mean by (try assumption; reflexivity).
      assert (Ez : (value_at (zeros day_minutes) t == 0)%Q) by (unfold value_at, zeros; rewrite nth_repeat; reflexivity).
      rewrite Ez. ring.
    + intros [x|e] _; reflexivity.
  - unfold mean_member. induction (app_list u) as [|a apps IH].
    + cbn [map]. change (Qsum []) with 0%Q. apply expect_const. exact Hd.
    + inversion Ha; subst. cbn [map]. rewrite qsum_cons, <- IH by assumption. rewrite mean_use_pref.
      rewrite <- expect_add. apply expect_ext. intros r _. cbn [map]. rewrite qsum_cons. reflexivity.
Qed.

Lemma single_never u i dt : 0 <= i < n -> safe_user F n u ->
  wp (generate_single_load_profile depth F u i peak dt)
    (fun r => match r with Ok x => same_user u (fst x) /\ List.length (snd x) = day_minutes /\ num_users (fst x) = num_users u /\ load (fst x) = load u | Err e => False end).
Proof.
  intros Hi [Hp Ha]. unfold generate_single_load_profile. apply wp_bind_ok. apply wp_intro. intros [pref|e] Hr; cbn [wpk].
  - apply wp_bind_ok. apply wp_intro. intros [x|e] Hx; cbn [wpk wp].
    + destruct x as [apps' l]. destruct (generate_apps_may _ _ _ _ _ _ _ _ _ _ Hx) as (Hs & ls & Hls & ->). cbn [fst snd].
      split; [repeat split; exact Hs|]. split; [|split; reflexivity].
      apply sum_from_len; [reflexivity|]. clear -Hls. induction Hls; constructor; [eapply app_day_len; eassumption|assumption].
    + exact (wp_elim _ _ _ (apps_total depth F n peak never Hdepth Hpeak pref i dt Hi _ _ (safe_all F n _ Ha)) Hx).
  - unfold draw_pref in Hr. destruct (user_preference u =? 0) eqn:E; [apply may_ret_inv in Hr; discriminate|].
    unfold py_randint in Hr. replace (user_preference u + 1 - 1 <=? 0) with false in Hr by lia.
    inversion Hr as [| | |m j k r Hj Hr'| |]; subst. apply may_ret_inv in Hr'. discriminate.
Qed.

Lemma members_mean i dt t : 0 <= i < n -> 0 <= t < 1440 -> forall k u, safe_user F n u -> List.length (load u) = day_minutes ->
  (expect L (generate_members k depth F u i peak dt) (fun r => match r with Ok v => value_at (load v) t | Err _ => 0 end) ==
   value_at (load u) t + zq (Z.of_nat k) * mean_member L depth F u i peak dt t)%Q.
Proof.
  intros Hi Ht. induction k as [|k IH]; intros u Hu Hl; cbn [generate_members].
  { cbn [expect]. change (zq (Z.of_nat 0)) with 0%Q. ring. }
  rewrite expect_bind. set (M := mean_member L depth F u i peak dt t).
  rewrite (expect_ext L _ _ (fun r => (value_at (load u) t + zq (Z.of_nat k) * M) + match r with Ok x => value_at (snd x) t | Err _ => 0 end)%Q).
  { rewrite expect_add, expect_const, single_mean by (try assumption; apply bp_single). fold M.
    rewrite Nat2Z.inj_succ, <- Z.add_1_r. unfold zq. rewrite inject_Z_plus. change (inject_Z 1) with 1%Q. ring. }
  intros r Hr. pose proof (wp_elim _ _ _ (single_never u i dt Hi Hu) Hr) as Hn.
  destruct r as [[v l]|e]; [|contradiction]. cbn [onward fst snd] in *. destruct Hn as (Hs & Hlen & _ & Hload).
  assert (Hs' : same_user u (set_load v (vadd F (load v) l))) by exact Hs.
  rewrite IH; [|eapply safe_user_same; eassumption|cbn [load set_load]; rewrite vadd_len, Hload, Hl, Hlen; lia].
  rewrite (mean_member_same L depth F _ _ i peak dt t Hs'). fold M. cbn [load set_load]. rewrite Hload, value_at_vadd by assumption.
  unfold fadd. rewrite (HF _). ring.
Qed.

End means.

(** ** C89 *)

(** The mean load of a user type at every minute is num_users times the sum of the mean powers of its appliances. *)
Theorem C89_user L depth F u i peak dt t n :
  exact F -> (0 < depth)%nat -> peak <> [] -> safe_user F n u -> 0 <= i < n -> 0 <= t < 1440 ->
  (expect L (generate_aggregated_load_profile depth F u i peak dt) (fun r => match r with Ok v => value_at (load v) t | Err _ => 0 end) ==
   zq (Z.max 0 (num_users u)) * Qsum (map (fun a => mean_use L depth F u a i peak dt t) (app_list u)))%Q.
Proof.
  intros HF Hd Hp Hu Hi Ht. unfold generate_aggregated_load_profile.
  assert (Hu' : safe_user F n (set_load u (zeros day_minutes))) by exact Hu.
  rewrite (members_mean L depth F n peak HF Hd Hp i dt t Hi Ht _ _ Hu' eq_refl).
  assert (Ez : (value_at (load (set_load u (zeros day_minutes))) t == 0)%Q) by (cbn [load set_load]; unfold value_at, zeros; rewrite nth_repeat; reflexivity).
  rewrite Ez. replace (Z.of_nat (Z.to_nat (num_users u))) with (Z.max 0 (num_users u)) by lia.
  change (mean_member L depth F (set_load u (zeros day_minutes)) i peak dt t) with (mean_member L depth F u i peak dt t).
  unfold mean_member. ring.
Qed.

Section use_case.
Variables (L : law) (depth : nat) (F : fm) (n : Z) (peak : list Z).
Hypothesis HF : exact F.
Hypothesis Hdepth : (0 < depth)%nat.
Hypothesis Hpeak : peak <> [].

Lemma safe_ready_user u : safe_user F n u -> ready_user F n never u.
Proof. intros [H1 H2]. split; [exact H1|]. apply safe_all. exact H2. Qed.

Lemma aggregated_never u i dt : 0 <= i < n -> safe_user F n u ->
  wp (generate_aggregated_load_profile depth F u i peak dt)
    (fun r => match r with Ok v => same_user u v /\ List.length (load v) = day_minutes | Err e => False end).
Proof.
  intros Hi Hu. apply wp_intro. intros [v|e] Hr.
  - destruct (aggregated_may _ _ _ _ _ _ _ Hr) as (Hs & ms & _ & Hm & Hload). split; [exact Hs|].
    rewrite Hload. apply sum_from_len; [reflexivity|]. apply Forall_forall. intros l Hin. apply in_map_iff in Hin as (m & <- & Hin).
    rewrite Forall_forall in Hm. destruct (Hm m Hin) as [_ H2]. apply sum_from_len; [reflexivity|].
    clear -H2. induction H2; constructor; [eapply app_day_len; eassumption|assumption].
  - unfold generate_aggregated_load_profile in Hr.
    exact (wp_elim _ _ _ (members_total depth F n peak never Hdepth Hpeak i dt Hi _ (set_load u (zeros day_minutes)) (safe_ready_user _ Hu)) Hr).
Qed.

Lemma mean_type_same u v i dt t : same_user u v -> (mean_type L depth F v i peak dt t == mean_type L depth F u i peak dt t)%Q.
Proof.
  intros Hs. unfold mean_type. rewrite (mean_member_same L depth F u v i peak dt t Hs). destruct Hs as (_ & -> & _). reflexivity.
Qed.

Lemma day_mean i dt t : 0 <= i < n -> 0 <= t < 1440 -> forall us acc, Forall (safe_user F n) us -> List.length acc = day_minutes ->
  (expect L (day_of_users depth F i peak dt us acc) (fun r => match r with Ok x => value_at (snd x) t | Err _ => 0 end) ==
   value_at acc t + Qsum (map (fun u => mean_type L depth F u i peak dt t) us))%Q.
Proof.
  intros Hi Ht. induction us as [|u us IH]; intros acc Hu Hacc; cbn [day_of_users].
  { cbn [expect snd map]. change (Qsum []) with 0%Q. ring. }
  inversion Hu as [|? ? H1 H2]; subst. cbn [map]. rewrite qsum_cons, expect_bind.
  set (R := Qsum (map (fun u => mean_type L depth F u i peak dt t) us)) in *.
  rewrite (expect_ext L _ _ (fun r => (value_at acc t + R) + match r with Ok v => value_at (load v) t | Err _ => 0 end)%Q).
  { rewrite expect_add, expect_const by apply bp_aggregated. rewrite (C89_user L depth F u i peak dt t n HF Hdepth Hpeak H1 Hi Ht).
    unfold mean_type, mean_member. ring. }
  intros r Hr. pose proof (wp_elim _ _ _ (aggregated_never u i dt Hi H1) Hr) as Hn. destruct r as [v|e]; [|contradiction].
  destruct Hn as [_ Hlen]. cbn [onward]. rewrite expect_bind.
  rewrite (expect_ext L _ _ (fun r => match r with Ok x => value_at (snd x) t | Err _ => 0%Q end)).
  { rewrite IH; [|exact H2|rewrite vadd_len, Hacc, Hlen; lia]. fold R. rewrite value_at_vadd by assumption. unfold fadd. rewrite (HF _). ring. }
  intros [x|e] _; reflexivity.
Qed.

Lemma day_never i dt us : 0 <= i < n -> Forall (safe_user F n) us ->
  wp (day_of_users depth F i peak dt us (zeros day_minutes))
    (fun r => match r with Ok x => Forall2 same_user us (fst x) | Err e => False end).
Proof.
  intros Hi Hu. apply wp_intro. intros [[us' l]|e] Hr.
  - exact (proj1 (day_of_users_may _ _ _ _ _ _ _ _ _ Hr)).
  - apply (wp_elim _ _ _ (day_users_total depth F n peak never Hdepth Hpeak i dt Hi us (zeros day_minutes) ltac:(eapply Forall_impl; [|exact Hu]; apply safe_ready_user)) Hr).
Qed.

Lemma safe_users_same us us' : Forall2 same_user us us' -> Forall (safe_user F n) us -> Forall (safe_user F n) us'.
Proof. induction 1; intros H1; [constructor|]. inversion H1; subst. constructor; [eapply safe_user_same; eassumption|auto]. Qed.

Lemma mean_users_same us us' i dt t : Forall2 same_user us us' ->
  (Qsum (map (fun u => mean_type L depth F u i peak dt t) us') == Qsum (map (fun u => mean_type L depth F u i peak dt t) us))%Q.
Proof.
  induction 1 as [|u v us us' Hu Hs IH]; [reflexivity|]. cbn [map]. rewrite !qsum_cons, IH, (mean_type_same _ _ _ _ _ Hu). reflexivity.
Qed.

Lemma loop_keeps t : forall ds i us rows k, Forall (safe_user F n) us -> 0 <= i -> i + zlen ds = n -> zlen rows = n -> (k < Z.to_nat i)%nat ->
  (expect L (day_loop depth F peak i ds us rows) (fun r => match r with Ok x => value_at (nth k (snd x) []) t | Err _ => 0 end) ==
   value_at (nth k rows []) t)%Q.
Proof.
  intros ds i us rows k Hu Hi Hn Hr Hk. apply expect_sure; [apply bp_day_loop|]. intros r H.
  pose proof (zlen_nonneg ds).
  pose proof (wp_elim _ _ _ (loop_total depth F n peak never Hdepth Hpeak ds i us rows ltac:(eapply Forall_impl; [|exact Hu]; apply safe_ready_user) Hi Hn Hr) H) as Hok.
  destruct r as [[us' rows']|e]; [|contradiction]. cbn [snd].
  rewrite <- (firstn_skipn (Z.to_nat i) rows) in H.
  apply day_loop_may in H; [|unfold zlen in *; rewrite firstn_length; lia].
  destruct H as (_ & _ & new & _ & -> & _).
  assert (Hkl : (k < List.length (firstn (Z.to_nat i) rows))%nat) by (rewrite firstn_length; unfold zlen in *; lia).
  rewrite app_nth1 by exact Hkl. rewrite <- (firstn_skipn (Z.to_nat i) rows) at 2. rewrite app_nth1 by exact Hkl. reflexivity.
Qed.

Lemma loop_mean t : 0 <= t < 1440 -> forall ds i us rows k d, Forall (safe_user F n) us -> 0 <= i -> i + zlen ds = n -> zlen rows = n ->
  nth_error ds k = Some d ->
  (expect L (day_loop depth F peak i ds us rows) (fun r => match r with Ok x => value_at (nth (Z.to_nat i + k) (snd x) []) t | Err _ => 0 end) ==
   Qsum (map (fun u => mean_type L depth F u (i + Z.of_nat k) peak (get_day_type d) t) us))%Q.
Proof.
  intros Ht. induction ds as [|d0 ds IH]; intros i us rows k d Hu Hi Hn Hr Hd; [destruct k; discriminate|].
  rewrite zlen_cons in Hn. pose proof (zlen_nonneg ds). cbn [day_loop]. rewrite expect_bind.
  assert (Hnev := day_never i (get_day_type d0) us ltac:(lia) Hu).
  destruct k as [|k]; cbn [nth_error] in Hd.
  - injection Hd as ->. replace (i + Z.of_nat 0) with i by lia. replace (Z.to_nat i + 0)%nat with (Z.to_nat i) by lia.
    rewrite (expect_ext L _ _ (fun r => match r with Ok x => value_at (snd x) t | Err _ => 0%Q end)).
    + rewrite day_mean by (try assumption; try reflexivity; lia).
      assert (Ez : (value_at (zeros day_minutes) t == 0)%Q) by (unfold value_at, zeros; rewrite nth_repeat; reflexivity).
      rewrite Ez. ring.
    + intros r Hx. pose proof (wp_elim _ _ _ Hnev Hx) as Hs. destruct r as [[us' l]|e]; [|contradiction]. cbn [onward fst snd] in *.
      replace (zlen rows <=? i) with false by lia.
      rewrite loop_keeps; [|eapply safe_users_same; eassumption|lia|lia|unfold zlen; rewrite list_set_length; exact Hr|lia].
      assert (El : nth (Z.to_nat i) (list_set rows (Z.to_nat i) l) [] = l).
      { apply nth_error_nth. rewrite ProofsEq.list_set_nth_error, Nat.eqb_refl. unfold zlen in Hr. destruct (Nat.ltb_spec (Z.to_nat i) (List.length rows)); [reflexivity|lia]. }
      rewrite El. reflexivity.
  - apply expect_sure; [apply bp_day_users|]. intros r Hx. pose proof (wp_elim _ _ _ Hnev Hx) as Hs.
    destruct r as [[us' l]|e]; [|contradiction]. cbn [onward fst snd] in *. replace (zlen rows <=? i) with false by lia.
    replace (Z.to_nat i + S k)%nat with (Z.to_nat (i + 1) + k)%nat by lia.
    rewrite (IH (i + 1) us' _ k d); [|eapply safe_users_same; eassumption|lia|lia|unfold zlen; rewrite list_set_length; exact Hr|exact Hd].
    replace (i + 1 + Z.of_nat k) with (i + Z.of_nat (S k)) by lia. apply mean_users_same. exact Hs.
Qed.

End use_case.

(** The mean load of day [k] (from 0) at every minute is the sum over the user types of num_users times the sum of the mean
    powers of their appliances, on a day of that type. *)
Theorem C89_use_case L depth F w c arg s n k t dt :
  exact F -> (0 < depth)%nat -> set_up c s n -> peak_of c <> [] -> Forall (safe_user F n) (users c) ->
  0 <= k < n -> 0 <= t < 1440 -> is_day_type (s + 1440 * k) dt ->
  (expect L (generate_sequential depth F w c arg) (fun r => match r with Ok x => value_at (nth (Z.to_nat k) (snd x) []) t | Err _ => 0 end) ==
   Qsum (map (fun u => zq (Z.max 0 (num_users u)) * Qsum (map (fun a => mean_use L depth F u a k (peak_of c) dt t) (app_list u))) (users c)))%Q.
Proof.
  intros HF Hd (Hn1 & Hn & (ds & Hds & Hlen & Hnth) & _) Hp Hu Hk Ht Hdt. unfold generate_sequential.
  assert (Hch : choose_days c arg = Ok c) by (unfold choose_days; rewrite Hds; reflexivity).
  rewrite Hch. cbn [lift bind]. unfold num_days. rewrite Hn. cbn [bind fst snd].
  destruct (Z.ltb_spec n 0); [lia|]. rewrite Hds. fold (peak_of c). rewrite expect_bind.
  rewrite (expect_ext L _ _ (fun r => match r with Ok x => value_at (nth (Z.to_nat 0 + Z.to_nat k) (snd x) []) t | Err _ => 0%Q end)).
  2: { intros [x|e] _; reflexivity. }
  rewrite (loop_mean L depth F n (peak_of c) HF Hd Hp t Ht ds 0 (users c) _ (Z.to_nat k) (s + 1440 * k)); [|exact Hu|lia|lia|rewrite zlen_repeat; lia|idtac].
  - replace (0 + Z.of_nat (Z.to_nat k)) with k by lia.
    assert (E : get_day_type (s + 1440 * k) = dt).
    { pose proof (day_type_spec (s + 1440 * k)) as H2. unfold is_day_type in *. cbv zeta in *. congruence. }
    rewrite E. reflexivity.
  - rewrite <- (Hnth k Hk). apply nth_error_nth'. unfold zlen in Hlen. lia.
Qed.

Definition mean_home : user := User "household" 2 3 0 [] [PropsParallel.spread lamp; PropsParallel.spread special].
Definition mean_village : usecase := PropsParallel.for_two_days (blank None None false (15 # 100) None [mean_home]).

Example C89_case : set_up mean_village 1051200000 2 /\ peak_of mean_village <> [] /\ Forall (safe_user f64 2) (users mean_village) /\
  Forall (safe_user exact_fm 2) (users mean_village) /\ is_day_type (1051200000 + 1440 * 1) 1.
Proof.
  assert (W : forall F a, (a = lamp \/ a = special) -> safe_app F 2 (PropsParallel.spread a)).
  { intros F a Ha. split; [|split; [destruct Ha as [-> | ->]; cbn; lia|intros [H _]; destruct Ha as [-> | ->]; exfalso; apply H; reflexivity]].
    split; [|split; [destruct Ha as [-> | ->]; reflexivity|split; [destruct Ha as [-> | ->]; cbn; lia|split; [destruct Ha as [-> | ->]; cbn; lia|]]]].
    - assert (Z0 : forall x, py_int (fmul F 0 x) = 0).
      { intros x. unfold fmul. assert (E : (rnd F (0 * x) == 0)%Q) by (transitivity (rnd F 0); [apply Qle_antisym; apply rnd_mono; rewrite Qmult_0_l; apply Qle_refl|apply rnd_0]). apply Z.le_antisymm; [rewrite <- (py_int_zq 0) at 2|rewrite <- (py_int_zq 0) at 1]; apply py_int_mono; rewrite E; apply Qle_refl. }
      destruct Ha as [-> | ->]; unfold well_declared; cbn [PropsParallel.spread win lamp special window_1 window_2 window_3 random_var_w random_var_1 random_var_2 random_var_3];
      (split; [repeat constructor; unfold inside_day; cbn; lia|]); (split; [split; discriminate|]); rewrite !Z0; repeat split; reflexivity.
    - intros [H _]; destruct Ha as [-> | ->]; exfalso; apply H; reflexivity. }
  assert (U : forall F, Forall (safe_user F 2) (users mean_village)).
  { intros F. constructor; [|constructor]. split; [cbn; lia|]. constructor; [apply W; auto|]. constructor; [apply W; auto|constructor]. }
  split; [apply PropsParallel.for_two_days_set_up|]. split; [discriminate|]. split; [apply U|]. split; [apply U|reflexivity].
Qed.
