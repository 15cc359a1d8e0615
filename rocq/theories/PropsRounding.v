(** * PropsRounding: what floating-point addition does to the sums (C28, C30, C70) *)
From Verif Require Import Base Wp Tape ListLemmas Utils Appliance User Spec SpecDay SpecUser ProofsUser ProofsUser2 PropsUser PropsDay
  UseCase SpecUseCase ProofsUseCase PropsUseCase PropsPost ProofsEq PropsInit PropsPeak ProofsParallel PropsParallel PropsEnvelope PropsEnergy PropsRuns PropsTotal PropsPopulation
  ProofsTabular ProofsUtils ProofsAppliance PropsParallelDay FloatSum F64.
From Coq Require Import ZifyBool ZifyNat Permutation Lqa Qabs.
Open Scope list_scope.
Open Scope Z_scope.

(** ** Specification *)

(** the members of each user on one day, each with one profile per appliance *)
Definition day_members (depth : nat) (F : fm) (k : Z) (peak : list Z) (dt : Z) (us : list user) (mss : list (list SpecUser.member)) : Prop :=
  Forall2 (fun u ms => zlen ms = Z.max 0 (num_users u) /\ Forall (member_day depth F u k peak dt) ms) us mss.
(** all profiles of the day *)
Definition all_profiles (mss : list (list SpecUser.member)) : list (list Q) := flat_map (flat_map snd) mss.

(** how many additions make one minute of one day: one per user, and for each member one, and one per appliance *)
Definition additions (us : list user) : Z :=
  fold_right (fun u n => 1 + Z.max 0 (num_users u) * (1 + zlen (app_list u)) + n) 0 us.

(** [x] is [S] (a sum of non-negative numbers) up to the rounding of [n] additions *)
Definition rounded_sum (n : Z) (S x : Q) : Prop := (Qabs (x - S) <= (S + zq n) * (zq n * (1 # 2 ^ 52)))%Q.

(** ** Members and loads *)

Definition member_load (F : fm) (ms : list SpecUser.member) : list Q := sum_rows F (map (fun m => sum_rows F (snd m)) ms).

Lemma loads_members depth F k peak dt us loads :
  Forall2 (user_day depth F k peak dt) us loads <-> exists mss, day_members depth F k peak dt us mss /\ loads = map (member_load F) mss.
Proof.
  split.
  - induction 1 as [|u l us ls (u' & Hu & <-) _ (mss & Hm & ->)]; [exists []; split; [constructor|reflexivity]|].
    apply aggregated_may in Hu as (_ & ms & Hlen & Hms & Hload). exists (ms :: mss). split; [|cbn [map]; rewrite Hload; reflexivity].
    constructor; [split; [unfold zlen; lia|exact Hms]|exact Hm].
  - intros (mss & Hm & ->). induction Hm as [|u ms us mss [Hlen Hms] _ IH]; [constructor|]. cbn [map]. constructor; [|exact IH].
    destruct (aggregated_conv depth F u k peak dt ms ltac:(unfold zlen in Hlen; lia) Hms) as (u' & Hu & E). exists u'. split; [exact Hu|exact E].
Qed.

Lemma members_full depth F k peak dt us mss : day_members depth F k peak dt us mss -> Forall full (all_profiles mss).
Proof.
  intros H. unfold all_profiles. induction H as [|u ms us mss [_ Hms] _ IH]; [constructor|]. cbn [flat_map]. apply Forall_app. split; [|exact IH].
  apply Forall_flat_map. apply Forall_forall. intros m Hm. exact (member_rows_len _ _ _ _ _ _ _ _ Hms Hm).
Qed.

Lemma members_nonneg depth F k peak dt us mss t : Forall (fun u => Forall nonneg_app (app_list u)) us -> 0 <= t < 1440 ->
  day_members depth F k peak dt us mss -> Forall (fun l => (0 <= value_at l t)%Q) (all_profiles mss).
Proof.
  intros Hn Ht H. unfold all_profiles. induction H as [|u ms us mss [_ Hms] _ IH]; [constructor|]. inversion Hn as [|? ? Hu Hn']; subst.
  cbn [flat_map]. apply Forall_app. split; [|exact (IH Hn')].
  apply Forall_flat_map. eapply Forall_impl; [|exact Hms]. intros m [_ Hd]. clear -Hd Hu Ht.
  induction Hd as [|a l al ll Hl _ IHd]; [constructor|]. inversion Hu; subst. constructor; [eapply app_day_nonneg; eassumption|auto].
Qed.

(** ** Rounding *)

Lemma close_zero : close 0 0 0 0.
Proof. apply (close_exact 0). Qed.

Lemma ops_const n l : Forall (fun t => t_ops t = n) l -> ops l = (List.length l * S n)%nat.
Proof. induction 1 as [|t l Ht _ IH]; [reflexivity|]. cbn [ops fold_right List.length]. fold (ops l). rewrite IH, Ht. lia. Qed.

Lemma Qsum_nonneg' l : Forall (fun x => (0 <= x)%Q) l -> (0 <= Qsum l)%Q.
Proof. induction 1 as [|x l Hx _ IH]; [apply Qle_refl|]. rewrite Qsum_cons. lra. Qed.

Lemma minute_sum_nonneg t rows : Forall (fun l => (0 <= value_at l t)%Q) rows -> (0 <= minute_sum t rows)%Q.
Proof. intros H. unfold minute_sum. apply Qsum_nonneg'. apply Forall_map. exact H. Qed.

(** a float sum of terms that are themselves rounded sums *)
Lemma sum_rows_close F t rows ts : 0 <= t < 1440 -> Forall full rows -> map t_val ts = map (fun l => value_at l t) rows -> Forall good_term ts ->
  close (ops ts) (Qsum (map t_sum ts)) (Qsum (map t_abs ts)) (value_at (sum_rows F rows) t).
Proof.
  intros Ht Hf E Hg. rewrite sum_rows_value by assumption. rewrite <- E.
  eapply close_eq; [| | |exact (close_fold F ts Hg _ _ _ _ close_zero)]; [ring|ring|reflexivity].
Qed.

(** the sum of profiles without any rounding in them *)
Lemma rows_close F t rows : 0 <= t < 1440 -> Forall full rows -> Forall (fun l => (0 <= value_at l t)%Q) rows ->
  close (List.length rows) (minute_sum t rows) (minute_sum t rows) (value_at (sum_rows F rows) t).
Proof.
  intros Ht Hf Hp. set (mk := fun l => Term 0 (value_at l t) (Qabs (value_at l t)) (value_at l t)).
  assert (H := sum_rows_close F t rows (map mk rows) Ht Hf).
  rewrite !map_map in H. cbn [mk t_val t_sum t_abs] in H. specialize (H eq_refl).
  assert (G : Forall good_term (map mk rows)) by (apply Forall_map, Forall_forall; intros l _; apply close_exact).
  specialize (H G). rewrite (ops_const 0) in H by (apply Forall_map, Forall_forall; reflexivity). rewrite map_length, Nat.mul_1_r in H.
  eapply close_eq; [| | |exact H]; [reflexivity| |reflexivity].
  unfold minute_sum. apply Qsum_map_ext. intros l Hl. rewrite Forall_forall in Hp. apply Qabs_pos. auto.
Qed.

Lemma member_close F t ms n : 0 <= t < 1440 -> Forall (fun m => Forall full (snd m) /\ Forall (fun l => (0 <= value_at l t)%Q) (snd m) /\ List.length (snd m) = n) ms ->
  close (List.length ms * S n) (minute_sum t (flat_map snd ms)) (minute_sum t (flat_map snd ms)) (value_at (member_load F ms) t).
Proof.
  intros Ht Hm. unfold member_load.
  set (mk := fun m : SpecUser.member => Term n (minute_sum t (snd m)) (minute_sum t (snd m)) (value_at (sum_rows F (snd m)) t)).
  assert (H := sum_rows_close F t (map (fun m => sum_rows F (snd m)) ms) (map mk ms) Ht).
  rewrite !map_map in H. cbn [mk t_val t_sum t_abs] in H.
  assert (E : (Qsum (map (fun m : SpecUser.member => minute_sum t (snd m)) ms) == minute_sum t (flat_map snd ms))%Q).
  { clear. induction ms as [|m ms IH]; [reflexivity|]. cbn [map flat_map]. rewrite Qsum_cons, minute_sum_app, IH. reflexivity. }
  rewrite (ops_const n) in H by (apply Forall_map, Forall_forall; reflexivity). rewrite map_length in H.
  eapply close_eq; [exact E|exact E|reflexivity|]. apply H.
  - apply Forall_map. eapply Forall_impl; [|exact Hm]. intros m (H1 & _). apply sum_rows_len. exact H1.
  - reflexivity.
  - apply Forall_map. eapply Forall_impl; [|exact Hm]. intros m (H1 & H2 & <-). apply rows_close; assumption.
Qed.

Lemma additions_nonneg us : 0 <= additions us.
Proof.
  induction us as [|u us IH]; [apply Z.le_refl|]. cbn [additions fold_right]. fold (additions us). pose proof (zlen_nonneg (app_list u)).
  assert (0 <= Z.max 0 (num_users u) * (1 + zlen (app_list u))) by (apply Z.mul_nonneg_nonneg; lia). lia.
Qed.

Lemma day_close depth F k peak dt us mss t : Forall (fun u => Forall nonneg_app (app_list u)) us -> 0 <= t < 1440 ->
  day_members depth F k peak dt us mss ->
  close (Z.to_nat (additions us)) (minute_sum t (all_profiles mss)) (minute_sum t (all_profiles mss)) (value_at (sum_rows F (map (member_load F) mss)) t).
Proof.
  intros Hn Ht H.
  assert (G : exists ts, Forall good_term ts /\ map t_val ts = map (fun l => value_at l t) (map (member_load F) mss) /\
    ops ts = Z.to_nat (additions us) /\ (Qsum (map t_sum ts) == minute_sum t (all_profiles mss))%Q /\ (Qsum (map t_abs ts) == minute_sum t (all_profiles mss))%Q /\
    Forall full (map (member_load F) mss)).
  { induction H as [|u ms us mss [Hlen Hms] _ IH].
    - exists []. repeat split; constructor.
    - inversion Hn as [|? ? Hu Hn']; subst. destruct (IH Hn') as (ts & H1 & H2 & H3 & H4 & H5 & H6). clear IH.
      assert (Hm : Forall (fun m : SpecUser.member => Forall full (snd m) /\ Forall (fun l => (0 <= value_at l t)%Q) (snd m) /\ List.length (snd m) = List.length (app_list u)) ms).
      { apply Forall_forall. intros m Hm. pose proof (member_rows_len _ _ _ _ _ _ _ _ Hms Hm) as Hf. rewrite Forall_forall in Hms. destruct (Hms m Hm) as [_ Hd].
        split; [exact Hf|]. split; [|symmetry; clear -Hd; induction Hd as [|? ? ? ? ? ? IHd]; [reflexivity|cbn; rewrite IHd; reflexivity]]. clear -Hd Hu Ht.
        induction Hd as [|a l al ll Hl _ IHd]; [constructor|]. inversion Hu; subst. constructor; [eapply app_day_nonneg; eassumption|auto]. }
      exists (Term (List.length ms * S (List.length (app_list u))) (minute_sum t (flat_map snd ms)) (minute_sum t (flat_map snd ms)) (value_at (member_load F ms) t) :: ts).
      cbn [map t_val t_sum t_abs ops fold_right t_ops additions]. fold (ops ts) (additions us). rewrite H2, H3, !Qsum_cons, H4, H5.
      unfold all_profiles. cbn [flat_map]. rewrite minute_sum_app.
      split; [constructor; [|exact H1]; apply (member_close F t ms (List.length (app_list u)) Ht Hm)|]. split; [reflexivity|]. split.
      + pose proof (additions_nonneg us). pose proof (zlen_nonneg (app_list u)). unfold zlen in *.
        replace (Z.max 0 (num_users u)) with (Z.of_nat (List.length ms)) by lia. nia.
      + split; [reflexivity|]. split; [reflexivity|]. constructor; [|exact H6]. apply sum_rows_len. apply Forall_map. eapply Forall_impl; [|exact Hm]. intros m (Hf & _). apply sum_rows_len. exact Hf. }
  destruct G as (ts & H1 & H2 & H3 & H4 & H5 & H6). rewrite <- H3.
  eapply close_eq; [exact H4|exact H5|reflexivity|]. apply sum_rows_close; assumption.
Qed.

Lemma close_rounded n S x : 0 <= n <= 2 ^ 52 -> (0 <= S)%Q -> close (Z.to_nat n) S S x -> rounded_sum n S x.
Proof.
  intros Hn HS H. pose proof (close_bound _ _ _ _ H ltac:(lia) HS) as B. rewrite Z2Nat.id in B by lia. exact B.
Qed.

(** ** C28 in floats *)

(** Each row is, minute by minute, the exact sum of the profiles of all appliances of all members of all users up to the rounding of
    the additions. *)
Theorem C28_profiles_rounding depth F w c arg s n c' rows k :
  set_up c s n -> Forall (fun u => Forall nonneg_app (app_list u)) (users c) -> additions (users c) <= 2 ^ 52 ->
  may (generate_sequential depth F w c arg) (Ok (c', rows)) -> 0 <= k < n ->
  exists dt mss, is_day_type (s + 1440 * k) dt /\ day_members depth F k (peak_of c) dt (users c) mss /\
    forall t, 0 <= t < 1440 -> rounded_sum (additions (users c)) (minute_sum t (all_profiles mss)) (value_at (nth (Z.to_nat k) rows []) t).
Proof.
  intros Hu Hn Ha H Hk. destruct (C28_rows _ _ _ _ _ _ _ _ _ Hu H) as (_ & _ & Hr). destruct (Hr k Hk) as (dt & loads & Hdt & Hl & ->).
  apply loads_members in Hl as (mss & Hm & ->). exists dt, mss. split; [exact Hdt|]. split; [exact Hm|]. intros t Ht.
  apply close_rounded; [split; [apply additions_nonneg|exact Ha]| |exact (day_close depth F k (peak_of c) dt (users c) mss t Hn Ht Hm)].
  apply minute_sum_nonneg. exact (members_nonneg _ _ _ _ _ _ _ _ Hn Ht Hm).
Qed.

(** ** The tasks of the parallel mode and the members of the sequential mode *)

Definition no_preference (u : user) : Prop := 0 <= user_preference u /\ Forall (fun a => pref_index (par a) = 0) (app_list u).

Lemma user_tasks_members depth F peak d dt u ls : no_preference u -> Forall2 (task_day depth F peak) (user_tasks d dt u) ls ->
  exists ms, zlen ms = Z.max 0 (num_users u) /\ Forall (member_day depth F u d peak dt) ms /\ Permutation ls (flat_map snd ms).
Proof.
  intros [Hup Hpi] H. rewrite user_tasks_map, Forall2_map_l in H.
  assert (H' : Forall2 (app_day depth F d peak dt (rand_daily_pref u))
    (flat_map (fun a => repeat a (Z.to_nat (num_users u))) (app_list u)) ls) by exact H.
  apply regroup in H'. destruct H' as (ms & Hlen & Hms & Hp).
  set (p := if user_preference u =? 0 then 0 else 1).
  assert (Hpp : pref_of_day u p).
  { unfold pref_of_day, p. destruct (Z.eqb_spec (user_preference u) 0); [left; auto|right; split; [assumption|lia]]. }
  exists (map (fun m => (p, m) : SpecUser.member) ms). split; [rewrite zlen_map; unfold zlen; lia|]. split.
  - apply Forall_forall. intros m Hm. apply in_map_iff in Hm. destruct Hm as (m' & <- & Hm').
    split; [exact Hpp|]. cbn [fst snd]. rewrite Forall_forall in Hms. specialize (Hms m' Hm').
    clear -Hms Hpi. induction Hms; inversion Hpi; subst; constructor; [eapply app_day_pref; eassumption|auto].
  - rewrite Hp. rewrite flat_map_concat_map, map_map. cbn [snd]. rewrite map_id. apply Permutation_refl.
Qed.

Lemma members_user_tasks depth F peak d dt u ms : no_preference u -> zlen ms = Z.max 0 (num_users u) -> Forall (member_day depth F u d peak dt) ms ->
  exists ls, Forall2 (task_day depth F peak) (user_tasks d dt u) ls /\ Permutation ls (flat_map snd ms).
Proof.
  intros [_ Hpi] Hlen Hmem.
  destruct (regroup_back (app_day depth F d peak dt (rand_daily_pref u)) (Z.to_nat (num_users u)) (app_list u) (map snd ms)) as (ls & Hls & Hp).
  - rewrite map_length. unfold zlen in Hlen. unfold SpecUser.member in *. lia.
  - apply Forall_forall. intros m Hm. apply in_map_iff in Hm. destruct Hm as (m' & <- & Hm').
    rewrite Forall_forall in Hmem. destruct (Hmem m' Hm') as (_ & Hd).
    clear -Hd Hpi. induction Hd; inversion Hpi; subst; constructor; [eapply app_day_pref; eassumption|auto].
  - exists ls. split; [rewrite user_tasks_map, Forall2_map_l; exact Hls|]. rewrite flat_map_concat_map. exact Hp.
Qed.

Lemma tasks_members depth F peak d dt us : Forall no_preference us -> forall ls, Forall2 (task_day depth F peak) (day_tasks d dt us) ls ->
  exists mss, day_members depth F d peak dt us mss /\ Permutation ls (all_profiles mss).
Proof.
  induction 1 as [|u us Hu _ IH]; intros ls H; cbn [day_tasks flat_map] in H.
  - inversion H; subst. exists []. split; [constructor|apply Permutation_refl].
  - apply Forall2_app_inv_l in H. destruct H as (l1 & l2 & H1 & H2 & ->).
    destruct (user_tasks_members depth F peak d dt u l1 Hu H1) as (ms & A & B & C). destruct (IH l2 H2) as (mss & D & E).
    exists (ms :: mss). split; [constructor; [split; assumption|exact D]|]. unfold all_profiles. cbn [flat_map]. apply Permutation_app; assumption.
Qed.

Lemma members_tasks depth F peak d dt us mss : Forall no_preference us -> day_members depth F d peak dt us mss ->
  exists ls, Forall2 (task_day depth F peak) (day_tasks d dt us) ls /\ Permutation ls (all_profiles mss).
Proof.
  intros Hn H. induction H as [|u ms us mss [Hl Hm] _ IH]; [exists []; split; [constructor|apply Permutation_refl]|].
  inversion Hn as [|? ? Hu Hn']; subst. destruct (IH Hn') as (l2 & A & B). destruct (members_user_tasks depth F peak d dt u ms Hu Hl Hm) as (l1 & C & D).
  exists (l1 ++ l2). split; [unfold day_tasks; cbn [flat_map]; apply Forall2_app; assumption|]. unfold all_profiles. cbn [flat_map]. apply Permutation_app; assumption.
Qed.

Lemma finite_choice {A} (P : Z -> A -> Prop) (x0 : A) n : 0 <= n -> (forall d, 0 <= d < n -> exists x, P d x) ->
  exists l, zlen l = n /\ forall d, 0 <= d < n -> P d (nth (Z.to_nat d) l x0).
Proof.
  intros Hn H. assert (G : forall m, Z.of_nat m <= n -> exists l, zlen l = Z.of_nat m /\ forall d, 0 <= d < Z.of_nat m -> P d (nth (Z.to_nat d) l x0)).
  { induction m as [|m IH]; intros Hm; [exists []; split; [reflexivity|]; intros; lia|].
    destruct IH as (l & Hl & Hp); [lia|]. destruct (H (Z.of_nat m)) as (x & Hx); [lia|]. exists (l ++ [x]). unfold zlen in *. rewrite app_length. cbn [List.length].
    split; [lia|]. intros d Hd. destruct (Z.eq_dec d (Z.of_nat m)) as [->|Hne].
    - rewrite app_nth2 by lia. replace (Z.to_nat (Z.of_nat m) - List.length l)%nat with 0%nat by lia. exact Hx.
    - rewrite app_nth1 by lia. apply Hp. lia. }
  destruct (G (Z.to_nat n)) as (l & Hl & Hp); [lia|]. exists l. split; [lia|]. intros d Hd. apply Hp. lia.
Qed.

Lemma tagged_answers depth F peak us i dt ls : Forall2 (task_day depth F peak) (day_tasks i dt us) ls ->
  Forall2 (fun t x => may (work depth F peak t) (Ok x)) (tasks_of_day us i dt) (map (fun l => (i, l)) ls).
Proof.
  intros Hls. change (tasks_of_day us i dt) with (day_tasks i dt us).
  assert (Hin : Forall (fun t => t_day t = i) (day_tasks i dt us)).
  { apply Forall_forall. intros t Ht. apply day_tasks_in in Ht as (u & _ & _ & E & _). exact E. }
  revert Hin. induction Hls as [|t l ts ls Hx Hr IH]; intros Hin; cbn [map]; [constructor|].
  inversion Hin; subst. constructor; [|auto]. apply work_may. cbn [fst snd]. split; [auto|exact Hx].
Qed.

Lemma day_answers_tagged i ls d : day_answers (map (fun l => (i, l)) ls) d = if d =? i then ls else [].
Proof.
  unfold day_answers. induction ls as [|l ls IH]; cbn [map filter fst]; [destruct (d =? i); reflexivity|].
  destruct (d =? i); cbn [map snd]; rewrite IH; reflexivity.
Qed.

(** any answers to the tasks of the days may be the result of the parallel mode *)
Lemma parallel_any depth F c s n pss : set_up c s n -> zlen pss = n ->
  (forall d, 0 <= d < n -> nth (Z.to_nat d) pss [] <> [] /\ exists dt, is_day_type (s + 1440 * d) dt /\
    Forall2 (task_day depth F (peak_of c)) (day_tasks d dt (users c)) (nth (Z.to_nat d) pss [])) ->
  parallel_may depth F c n (Ok (map (vstack_sum F) pss)).
Proof.
  intros Hu Hz Hd. destruct (Hu) as (Hn1 & Hnd & (ds & Hds & Hlen & Hnth) & _).
  assert (G : forall m ds0 i, (forall k, (k < List.length ds0)%nat -> 0 <= i + Z.of_nat k < n /\ nth k ds0 0 = s + 1440 * (i + Z.of_nat k)) ->
    List.length ds0 = m ->
    exists answers, Forall2 (fun t x => may (work depth F (peak_of c) t) (Ok x)) (tasks_from (users c) i ds0) answers /\
      (forall d, d < i -> day_answers answers d = []) /\
      forall d, i <= d < i + Z.of_nat m -> day_answers answers d = nth (Z.to_nat d) pss []).
  { induction m as [|m IH]; intros ds0 i Hk Hm.
    - destruct ds0; [|discriminate]. exists []. split; [constructor|]. split; [reflexivity|]. intros d Hd'. lia.
    - destruct ds0 as [|d0 ds0]; [discriminate|]. injection Hm as Hm.
      destruct (IH ds0 (i + 1)) as (answers & Hw & Hlo & Hv).
      { intros k Hk'. specialize (Hk (S k) ltac:(cbn; lia)). cbn [nth] in Hk.
        replace (i + 1 + Z.of_nat k) with (i + Z.of_nat (S k)) by lia. exact Hk. }
      { exact Hm. }
      destruct (Hk O ltac:(cbn; lia)) as (Hi & Hd0). cbn [nth] in Hd0. replace (i + Z.of_nat 0) with i in * by lia.
      destruct (Hd i Hi) as (_ & dt & Hdt & Hls).
      assert (Edt : dt = get_day_type d0).
      { rewrite Hd0. pose proof (day_type_spec (s + 1440 * i)) as H2. unfold is_day_type in *. cbv zeta in *. congruence. }
      exists (map (fun l => (i, l)) (nth (Z.to_nat i) pss []) ++ answers). split.
      { cbn [tasks_from]. apply Forall2_app; [rewrite <- Edt; apply tagged_answers; exact Hls|exact Hw]. }
      split.
      + intros d Hdi. rewrite day_answers_app, day_answers_tagged, Hlo by lia. destruct (Z.eqb_spec d i); [lia|reflexivity].
      + intros d Hdd. rewrite day_answers_app, day_answers_tagged. destruct (Z.eqb_spec d i) as [->|Hne].
        * rewrite Hlo by lia. apply app_nil_r.
        * apply Hv. lia. }
  destruct (G (List.length ds) ds 0) as (answers & Hw & _ & Hv).
  { intros k Hk. unfold zlen in Hlen. split; [lia|]. specialize (Hnth (Z.of_nat k) ltac:(lia)). rewrite Nat2Z.id in Hnth. rewrite Hnth. lia. }
  { reflexivity. }
  assert (Hw' : Forall2 (fun t x => may (work depth F (peak_of c) t) (Ok x)) (all_tasks c) answers).
  { unfold all_tasks. rewrite Hds. exact Hw. }
  replace (Ok (map (vstack_sum F) pss)) with (gather F n answers).
  { apply parallel_done with (answers := answers); [exact Hw'|apply Permutation_refl]. }
  unfold gather. destruct (Z.ltb_spec n 0); [lia|]. unfold zlen in Hlen. rewrite assemble_ok.
  - f_equal. apply nth_ext with (d := vstack_sum F []) (d' := vstack_sum F []).
    + rewrite !map_length, arange_length. unfold zlen in Hz. lia.
    + rewrite map_length, arange_length. intros k Hk. rewrite (map_nth (vstack_sum F)).
      rewrite nth_indep with (d' := vstack_sum F (day_answers answers 0)) by (rewrite map_length, arange_length; lia).
      rewrite map_nth with (f := fun i => vstack_sum F (day_answers answers i)). rewrite nth_arange by lia. rewrite Hv by lia.
      do 2 f_equal. lia.
  - intros i Hi. apply in_arange in Hi. rewrite Hv by lia. apply Hd. lia.
Qed.

(** ** C30 in floats *)

(** two numbers, one of which is [y], differ only by the rounding of two sums of [n] non-negative numbers *)
Definition rounding_apart (n : Z) (x y : Q) : Prop := (Qabs (x - y) <= (y + zq n) * (zq n * (1 # 2 ^ 50)))%Q.
Definition rows_rounding_apart (n : Z) (rows rows' : list (list Q)) : Prop :=
  zlen rows = zlen rows' /\ forall k t, 0 <= k < zlen rows -> 0 <= t < 1440 ->
    rounding_apart n (value_at (nth (Z.to_nat k) rows []) t) (value_at (nth (Z.to_nat k) rows' []) t).

Lemma rounded_mono n m S x : 0 <= n <= m -> (0 <= S)%Q -> rounded_sum n S x -> rounded_sum m S x.
Proof.
  intros H HS R. unfold rounded_sum in *. eapply Qle_trans; [exact R|]. pose proof (proj2 (zq_le _ _) (proj2 H)). pose proof (proj2 (zq_le _ _) (proj1 H)) as P0. change (zq 0) with 0%Q in P0.
  apply Qle_trans with ((S + zq m) * (zq n * (1 # 2 ^ 52)))%Q; [apply Qmult_le_compat_r; [lra|]; apply Qmult_le_0_compat; [exact P0|discriminate]|].
  rewrite !(Qmult_comm (S + _)). apply Qmult_le_compat_r; [|lra]. apply Qmult_le_compat_r; [assumption|discriminate].
Qed.

Lemma rounded_apart n S x y : 0 <= n <= 2 ^ 51 -> (0 <= S)%Q -> rounded_sum n S x -> rounded_sum n S y -> rounding_apart n x y.
Proof.
  intros Hn HS Hx Hy. unfold rounded_sum, rounding_apart in *.
  pose proof (proj2 (zq_le _ _) (proj1 Hn)) as H0. change (zq 0) with 0%Q in H0.
  assert (Hh : (zq n * (1 # 2 ^ 52) <= 1 # 2)%Q).
  { apply Qle_trans with (zq (2 ^ 51) * (1 # 2 ^ 52))%Q; [apply Qmult_le_compat_r; [apply zq_le; lia|discriminate]|discriminate]. }
  assert (Hh0 : (0 <= zq n * (1 # 2 ^ 52))%Q) by (apply Qmult_le_0_compat; [exact H0|discriminate]).
  assert (E : (zq n * (1 # 2 ^ 50) == 4 * (zq n * (1 # 2 ^ 52)))%Q) by (setoid_replace (1 # 2 ^ 50)%Q with (4 * (1 # 2 ^ 52))%Q by reflexivity; ring).
  rewrite E. set (h := (zq n * (1 # 2 ^ 52))%Q) in *. set (m := zq n) in *. clearbody h m. clear E.
  apply Qabs_Qle_condition in Hx, Hy. apply Qabs_Qle_condition.
  assert (K : ((S + m) * h <= (S + m) * (1 # 2))%Q) by (rewrite !(Qmult_comm (S + m)); apply Qmult_le_compat_r; lra).
  assert (L : (S + m <= 2 * (y + m))%Q) by lra.
  assert (M : ((S + m) * h <= 2 * (y + m) * h)%Q) by (apply Qmult_le_compat_r; lra). split; lra.
Qed.

Lemma vstack_rounded F rows t : 0 <= t < 1440 -> Forall full rows -> rows <> [] -> Forall (fun l => (0 <= value_at l t)%Q) rows -> zlen rows <= 2 ^ 52 ->
  rounded_sum (zlen rows) (minute_sum t rows) (value_at (vstack_sum F rows) t).
Proof.
  intros Ht Hf Hn Hp Hz. unfold rounded_sum. eapply Qle_trans; [apply vstack_error; eassumption|].
  pose proof (minute_sum_nonneg t rows Hp) as S0. set (m := minute_sum t rows) in *. assert (H1 : 1 <= zlen rows) by (destruct rows; [congruence|rewrite zlen_cons; pose proof (zlen_nonneg rows); lia]).
  pose proof (proj2 (zq_le _ _) H1) as H1q. change (zq 1) with 1%Q in H1q. set (k := zq (zlen rows)) in *.
  assert (E : (1 # 2 ^ 52 == 2 * eps53)%Q) by reflexivity. rewrite E. pose proof eta_le_eps. pose proof eta_pos. pose proof eps53_pos. set (e := eps53) in *. set (h := eta64) in *. clearbody k m e h.
  assert (G : (e * m + h <= (m + k) * e)%Q) by nra.
  setoid_replace ((m + k) * (k * (2 * e)))%Q with (2 * k * ((m + k) * e))%Q by ring.
  rewrite !(Qmult_comm (2 * k)). apply Qmult_le_compat_r; [exact G|lra].
Qed.

Lemma profiles_count depth F k peak dt us mss : day_members depth F k peak dt us mss -> zlen (all_profiles mss) <= additions us.
Proof.
  intros H. induction H as [|u ms us mss [Hl Hm] _ IH]; [apply Z.le_refl|]. cbn [additions fold_right]. fold (additions us). unfold all_profiles in *. cbn [flat_map]. rewrite zlen_app.
  assert (G : zlen (flat_map snd ms) = zlen ms * zlen (app_list u)).
  { clear -Hm. induction Hm as [|m ms [_ Hd] _ IH]; [reflexivity|]. cbn [flat_map]. rewrite zlen_app, zlen_cons, IH.
    assert (E : zlen (snd m) = zlen (app_list u)) by (unfold zlen; f_equal; symmetry; eapply ProofsParallel.Forall2_length; exact Hd). rewrite E. ring. }
  rewrite G, Hl. pose proof (zlen_nonneg (app_list u)). assert (0 <= Z.max 0 (num_users u)) by lia.
  setoid_replace (Z.max 0 (num_users u) * (1 + zlen (app_list u))) with (Z.max 0 (num_users u) + Z.max 0 (num_users u) * zlen (app_list u)) by ring. lia.
Qed.

Lemma profiles_some depth F k peak dt us mss : Exists (fun u => 1 <= num_users u /\ app_list u <> []) us -> day_members depth F k peak dt us mss -> all_profiles mss <> [].
Proof.
  intros He H. induction H as [|u ms us mss [Hl Hm] _ IH]; [inversion He|]. unfold all_profiles in *. cbn [flat_map]. inversion He as [? ? [H1 H2]|? ? He']; subst.
  - destruct ms as [|m ms]; [unfold zlen in Hl; cbn [List.length] in Hl; lia|]. inversion Hm as [|? ? [_ Hd] _]; subst. destruct (app_list u) as [|a al]; [congruence|].
    inversion Hd as [|? l ? ls]; subst. cbn [flat_map]. destruct m as [p m]. cbn [snd] in *. subst. discriminate.
  - intros E. apply app_eq_nil in E as [_ E]. exact (IH He' E).
Qed.

Lemma comparable_no_preference c : PropsParallel.comparable c -> Forall no_preference (users c).
Proof. intros [H _]. exact H. Qed.

(** one day: the sequential row and the parallel row of the same profiles *)
Lemma same_profiles_apart depth F d peak dt us mss ls t : Forall (fun u => Forall nonneg_app (app_list u)) us -> additions us <= 2 ^ 51 -> 0 <= t < 1440 ->
  day_members depth F d peak dt us mss -> Permutation ls (all_profiles mss) -> ls <> [] ->
  rounding_apart (additions us) (value_at (sum_rows F (map (member_load F) mss)) t) (value_at (vstack_sum F ls) t) /\
  rounding_apart (additions us) (value_at (vstack_sum F ls) t) (value_at (sum_rows F (map (member_load F) mss)) t).
Proof.
  intros Hn Ha Ht Hm Hp Hne. pose proof (additions_nonneg us) as A0.
  pose proof (members_nonneg _ _ _ _ _ _ _ _ Hn Ht Hm) as Hnn. pose proof (minute_sum_nonneg t _ Hnn) as S0. pose proof (members_full _ _ _ _ _ _ _ Hm) as Hf.
  assert (C : zlen ls = zlen (all_profiles mss)) by (unfold zlen; f_equal; apply Permutation_length; exact Hp).
  pose proof (profiles_count _ _ _ _ _ _ _ Hm) as Hc.
  assert (X : rounded_sum (additions us) (minute_sum t (all_profiles mss)) (value_at (sum_rows F (map (member_load F) mss)) t)).
  { apply close_rounded; [lia|exact S0|exact (day_close depth F d peak dt us mss t Hn Ht Hm)]. }
  assert (Y : rounded_sum (additions us) (minute_sum t (all_profiles mss)) (value_at (vstack_sum F ls) t)).
  { apply (rounded_mono (zlen ls)); [pose proof (zlen_nonneg ls); lia|exact S0|]. unfold rounded_sum. rewrite <- (ProofsParallel.minute_sum_perm t _ _ Hp). apply vstack_rounded; [exact Ht| |exact Hne| |lia].
    - apply (Permutation_Forall (Permutation_sym Hp)). exact Hf.
    - apply (Permutation_Forall (Permutation_sym Hp)). exact Hnn. }
  split; apply (rounded_apart _ (minute_sum t (all_profiles mss))); auto; lia.
Qed.

(** every result of the parallel mode is, up to rounding, a result of the sequential mode *)
Theorem C30_parallel_to_sequential_rounding_partial depth F w c s n rows :
  set_up c s n -> PropsParallel.comparable c -> Forall (fun u => Forall nonneg_app (app_list u)) (users c) -> additions (users c) <= 2 ^ 51 ->
  parallel_may depth F c n (Ok rows) ->
  exists c' rows', may (generate_sequential depth F w c None) (Ok (c', rows')) /\ rows_rounding_apart (additions (users c)) rows rows'.
Proof.
  intros Hu Hc Hn Ha H. destruct (parallel_rows _ _ _ _ _ _ Hu H) as (Hz & Hr).
  assert (Hn0 : 0 <= n) by (destruct Hu as (H1 & _); lia).
  destruct (finite_choice (fun d row => (exists dt loads, is_day_type (s + 1440 * d) dt /\ Forall2 (user_day depth F d (peak_of c) dt) (users c) loads /\ row = sum_rows F loads) /\
    forall t, 0 <= t < 1440 -> rounding_apart (additions (users c)) (value_at (nth (Z.to_nat d) rows []) t) (value_at row t)) [] n Hn0) as (rows' & Hz' & Hr').
  { intros d Hd. destruct (Hr d Hd) as (dt & ls & ls' & Hdt & Ht & Hp & Hne & Hf & E).
    destruct (tasks_members depth F (peak_of c) d dt (users c) (comparable_no_preference c Hc) ls Ht) as (mss & Hm & Hp').
    exists (sum_rows F (map (member_load F) mss)). split.
    - exists dt, (map (member_load F) mss). split; [exact Hdt|]. split; [|reflexivity]. apply loads_members. exists mss. split; [exact Hm|reflexivity].
    - intros t Htt. rewrite E. apply (same_profiles_apart depth F d (peak_of c) dt (users c) mss ls' t Hn Ha Htt Hm); [|exact Hne].
      eapply Permutation_trans; [apply Permutation_sym; exact Hp|exact Hp']. }
  destruct (C28_any_loads depth F w c None s n rows' Hu Hz' (fun k Hk => proj1 (Hr' k Hk))) as (c' & Hseq).
  exists c', rows'. split; [exact Hseq|]. split; [lia|]. intros k t Hk Ht. apply (proj2 (Hr' k ltac:(lia))). exact Ht.
Qed.

(** conversely *)
Theorem C30_sequential_to_parallel_rounding_partial depth F w c s n c' rows :
  set_up c s n -> PropsParallel.comparable c -> Forall (fun u => Forall nonneg_app (app_list u)) (users c) -> additions (users c) <= 2 ^ 51 ->
  may (generate_sequential depth F w c None) (Ok (c', rows)) ->
  exists rows', parallel_may depth F c n (Ok rows') /\ rows_rounding_apart (additions (users c)) rows rows'.
Proof.
  intros Hu Hc Hn Ha H. destruct (C28_rows _ _ _ _ _ _ _ _ _ Hu H) as (Hz & _ & Hr).
  assert (Hn0 : 0 <= n) by (destruct Hu as (H1 & _); lia).
  destruct (finite_choice (fun d ls => (ls <> [] /\ exists dt, is_day_type (s + 1440 * d) dt /\ Forall2 (task_day depth F (peak_of c)) (day_tasks d dt (users c)) ls) /\
    forall t, 0 <= t < 1440 -> rounding_apart (additions (users c)) (value_at (nth (Z.to_nat d) rows []) t) (value_at (vstack_sum F ls) t)) [] n Hn0) as (pss & Hz' & Hr').
  { intros d Hd. destruct (Hr d Hd) as (dt & loads & Hdt & Hl & E). apply loads_members in Hl as (mss & Hm & ->).
    destruct (members_tasks depth F (peak_of c) d dt (users c) mss (comparable_no_preference c Hc) Hm) as (ls & Ht & Hp).
    assert (Hne : ls <> []).
    { intros ->. apply Permutation_nil in Hp. exact (profiles_some _ _ _ _ _ _ _ (proj2 Hc) Hm Hp). }
    exists ls. split; [split; [exact Hne|exists dt; split; assumption]|].
    intros t Htt. rewrite E. apply (same_profiles_apart depth F d (peak_of c) dt (users c) mss ls t Hn Ha Htt Hm Hp Hne). }
  exists (map (vstack_sum F) pss). split; [apply (parallel_any depth F c s n pss Hu Hz'); intros d Hd; exact (proj1 (Hr' d Hd))|].
  split; [rewrite zlen_map; lia|]. intros k t Hk Ht.
  rewrite nth_indep with (n := Z.to_nat k) (l := map (vstack_sum F) pss) (d' := vstack_sum F []) by (rewrite map_length; unfold zlen in *; lia). rewrite (map_nth (vstack_sum F)).
  apply (proj2 (Hr' k ltac:(lia))). exact Ht.
Qed.

(** ** C70 in floats *)

Lemma all_profiles_concat mss : all_profiles mss = flat_map snd (List.concat mss).
Proof. unfold all_profiles. induction mss as [|ms mss IH]; [reflexivity|]. cbn [flat_map List.concat]. rewrite IH, flat_map_app. reflexivity. Qed.

Lemma members_same depth F k peak dt us us' mss : same_population us us' -> day_members depth F k peak dt us mss ->
  exists mss', day_members depth F k peak dt us' mss' /\ forall t, 0 <= t < 1440 -> (minute_sum t (all_profiles mss) == minute_sum t (all_profiles mss'))%Q.
Proof.
  intros Hp Hm.
  assert (D : day_may depth F k peak dt us (fun t => minute_sum t (all_profiles mss))).
  { exists mss. split; [exact Hm|]. intros t _. rewrite all_profiles_concat. reflexivity. }
  apply (day_may_same depth F k peak dt us us' Hp) in D as (mss' & Hm' & E). exists mss'. split; [exact Hm'|]. intros t Ht. rewrite (E t Ht), all_profiles_concat. reflexivity.
Qed.

(** Listing users or appliances in another order, or splitting a category, changes the possible results by rounding only, as long as the
    peak range is the same. *)
Theorem C70_generation_rounding depth F w w' c c' arg arg' s n c1 rows :
  set_up c s n -> set_up c' s n -> peak_of c' = peak_of c -> same_population (users c) (users c') ->
  all_apps nonneg_app (users c) -> additions (users c) <= 2 ^ 51 -> additions (users c') <= 2 ^ 51 ->
  may (generate_sequential depth F w c arg) (Ok (c1, rows)) ->
  exists c1' rows', may (generate_sequential depth F w' c' arg') (Ok (c1', rows')) /\
    rows_rounding_apart (Z.max (additions (users c)) (additions (users c'))) rows rows'.
Proof.
  intros Hu Hu' Hpk Hpop Hn Ha Ha' H. destruct (C28_rows _ _ _ _ _ _ _ _ _ Hu H) as (Hz & _ & Hr).
  assert (Hn0 : 0 <= n) by (destruct Hu as (H1 & _); lia).
  assert (Hn' : all_apps nonneg_app (users c')) by (apply (pop_all _ _ _ Hpop); exact Hn).
  pose proof (additions_nonneg (users c)) as P1. pose proof (additions_nonneg (users c')) as P2.
  set (A := Z.max (additions (users c)) (additions (users c'))) in *.
  destruct (finite_choice (fun d row => (exists dt loads, is_day_type (s + 1440 * d) dt /\ Forall2 (user_day depth F d (peak_of c') dt) (users c') loads /\ row = sum_rows F loads) /\
    forall t, 0 <= t < 1440 -> rounding_apart A (value_at (nth (Z.to_nat d) rows []) t) (value_at row t)) [] n Hn0) as (rows' & Hz' & Hr').
  { intros d Hd. destruct (Hr d Hd) as (dt & loads & Hdt & Hl & E). apply loads_members in Hl as (mss & Hm & ->).
    destruct (members_same _ _ _ _ _ _ _ _ Hpop Hm) as (mss' & Hm' & Es).
    exists (sum_rows F (map (member_load F) mss')). split.
    - exists dt, (map (member_load F) mss'). rewrite Hpk. split; [exact Hdt|]. split; [|reflexivity]. apply loads_members. exists mss'. split; [exact Hm'|reflexivity].
    - intros t Ht. rewrite E. pose proof (minute_sum_nonneg t _ (members_nonneg _ _ _ _ _ _ _ _ Hn Ht Hm)) as S0.
      pose proof (minute_sum_nonneg t _ (members_nonneg _ _ _ _ _ _ _ _ Hn' Ht Hm')) as S0'.
      apply (rounded_apart A (minute_sum t (all_profiles mss))); [lia|exact S0| |].
      + apply (rounded_mono (additions (users c))); [lia|exact S0|]. apply close_rounded; [lia|exact S0|]. exact (day_close _ _ _ _ _ _ _ _ Hn Ht Hm).
      + apply (rounded_mono (additions (users c'))); [lia|exact S0|]. unfold rounded_sum. rewrite (Es t Ht). apply close_rounded; [lia|exact S0'|]. exact (day_close _ _ _ _ _ _ _ _ Hn' Ht Hm'). }
  destruct (C28_any_loads depth F w' c' arg' s n rows' Hu' Hz' (fun k Hk => proj1 (Hr' k Hk))) as (c1' & Hseq).
  exists c1', rows'. split; [exact Hseq|]. split; [lia|]. intros k t Hk Ht. apply (proj2 (Hr' k ltac:(lia))). exact Ht.
Qed.

(** *** cases, in binary64 *)

Lemma plain_nonneg : all_apps nonneg_app (users (for_two_days plain_hamlet)).
Proof.
  constructor; [|constructor]. constructor; [|constructor].
  unfold nonneg_app, nonneg_cycle. cbn. repeat split; try lia; try discriminate; repeat constructor; discriminate.
Qed.

Example C28_profiles_rounding_case : set_up (for_two_days plain_hamlet) 1051200000 2 /\ all_apps nonneg_app (users (for_two_days plain_hamlet)) /\
  additions (users (for_two_days plain_hamlet)) = 5 /\
  exists c' rows, may (generate_sequential 3 f64 nobody (for_two_days plain_hamlet) None) (Ok (c', rows)) /\ (value_at (nth 1 rows []) 500 == 200)%Q /\
    exists rows', parallel_may 3 f64 (for_two_days plain_hamlet) 2 (Ok rows') /\ rows_rounding_apart 5 rows rows'.
Proof.
  assert (Hu := for_two_days_set_up plain_hamlet). split; [exact Hu|]. split; [exact plain_nonneg|]. split; [reflexivity|].
  assert (Hc : PropsParallel.comparable (for_two_days plain_hamlet)).
  { split; [repeat constructor; cbn; lia|]. constructor. split; [cbn; lia|discriminate]. }
  destruct (follow_check (generate_sequential 3 f64 nobody (for_two_days plain_hamlet) None)
    (List.concat (repeat (DZ 1 :: flat_draws) 4)) (fun x => Qeq_bool (value_at (nth 1 (snd x) []) 500) 200)) as ([c' rows] & Hx & Hv).
  { vm_compute. reflexivity. }
  apply Qeq_bool_iff in Hv. cbn [snd] in Hv. exists c', rows. split; [exact Hx|]. split; [exact Hv|].
  exact (C30_sequential_to_parallel_rounding_partial 3 f64 nobody _ _ _ _ _ Hu Hc plain_nonneg ltac:(discriminate) Hx).
Qed.
