(** * PropsUser: theorems for C25 and C26, the load of one user *)
From Verif Require Import Base Wp Tape Utils ListLemmas Appliance User Spec SpecDay SpecUser Sim ProofsUtils
  ProofsAppliance ProofsUser ProofsUser2 PropsBasic PropsDay.
From Coq Require Import ZifyBool ZifyNat.

Notation aggregated := generate_aggregated_load_profile.

(** ** C25 *)

(** the load is the sum over the members of the sums over the appliances; the members are
    num_users, each an independent day of the declared appliances; nothing declared changes *)
Theorem C25_aggregated depth F u i peak dt u' :
  may (aggregated depth F u i peak dt) (Ok u') ->
  same_user u u' /\
  exists ms, zlen ms = Z.max 0 (num_users u) /\ Forall (member_day depth F u i peak dt) ms /\
    load u' = sum_rows F (map (fun m => sum_rows F (snd m)) ms) /\ zlen (load u') = 1440.
Proof.
  intros H. destruct (aggregated_may _ _ _ _ _ _ _ H) as (Hs & ms & Hl & Hm & Hload).
  split; [exact Hs|]. exists ms. split; [unfold zlen; lia|]. split; [exact Hm|]. split; [exact Hload|].
  rewrite Hload. unfold zlen. rewrite sum_rows_len; [reflexivity|].
  rewrite Forall_forall in *. intros l Hin. apply in_map_iff in Hin. destruct Hin as (m & <- & Hin).
  apply sum_rows_len. destruct (Hm m Hin) as [_ H2]. clear -H2.
  induction H2; constructor; [eapply app_day_len; eassumption|assumption].
Qed.

(** and the members really are independent: any choice of possible days is a possible load *)
Theorem C25_any_members depth F u i peak dt ms :
  zlen ms = Z.max 0 (num_users u) -> Forall (member_day depth F u i peak dt) ms ->
  exists u', may (aggregated depth F u i peak dt) (Ok u') /\
    load u' = sum_rows F (map (fun m => sum_rows F (snd m)) ms).
Proof. intros Hl Hm. apply aggregated_conv; [unfold zlen in Hl; lia|exact Hm]. Qed.

Lemma member_rows_len depth F u i peak dt ms m :
  Forall (member_day depth F u i peak dt) ms -> In m ms -> Forall (fun l => List.length l = day_minutes) (snd m).
Proof.
  intros Hm Hin. rewrite Forall_forall in Hm. destruct (Hm m Hin) as [_ H2]. clear -H2.
  induction H2; constructor; [eapply app_day_len; eassumption|assumption].
Qed.

Lemma member_sums depth F u i peak dt ms t :
  Forall (member_day depth F u i peak dt) ms -> 0 <= t < 1440 ->
  value_at (sum_rows F (map (fun m => sum_rows F (snd m)) ms)) t =
  fold_left (fadd F) (map (fun g => fold_left (fadd F) g 0%Q)
    (map (fun m : SpecUser.member => map (fun l => value_at l t) (snd m)) ms)) 0%Q.
Proof.
  intros Hm Ht. rewrite sum_rows_value; [|exact Ht|].
  - rewrite !map_map. f_equal. apply map_ext_in. intros m Hin.
    apply sum_rows_value; [exact Ht|eapply member_rows_len; eassumption].
  - apply Forall_forall. intros l Hl. apply in_map_iff in Hl. destruct Hl as (m & <- & Hin).
    apply sum_rows_len. eapply member_rows_len; eassumption.
Qed.

Lemma concat_minutes (ms : list SpecUser.member) t :
  List.concat (map (fun m : SpecUser.member => map (fun l => value_at l t) (snd m)) ms) =
  map (fun l => value_at l t) (flat_map snd ms).
Proof.
  induction ms as [|m ms IH]; [reflexivity|]. cbn [map List.concat flat_map]. rewrite IH, map_app. reflexivity.
Qed.

(** minute by minute, in exact arithmetic *)
Theorem C25_minute_sum depth F u i peak dt ms t :
  exact F -> Forall (member_day depth F u i peak dt) ms -> 0 <= t < 1440 ->
  (value_at (sum_rows F (map (fun m => sum_rows F (snd m)) ms)) t == minute_sum t (flat_map snd ms))%Q.
Proof.
  intros HF Hm Ht. rewrite (member_sums _ _ _ _ _ _ _ _ Hm Ht).
  rewrite fold_fadd_exact by exact HF. unfold minute_sum. rewrite <- concat_minutes.
  induction (map _ ms) as [|g gs IH] using list_ind; cbn [map List.concat].
  - change (Qsum []) with 0%Q. ring.
  - rewrite Qsum_app. change (Qsum (fold_left (fadd F) g 0%Q :: map (fun g => fold_left (fadd F) g 0%Q) gs))
      with (fold_left (fadd F) g 0%Q + Qsum (map (fun g => fold_left (fadd F) g 0%Q) gs))%Q.
    rewrite (fold_fadd_exact F g HF 0%Q). rewrite <- IH. ring.
Qed.

(** minute by minute, in floats: relative error at most (2 * appliances + 4 * members) * 2^-53 *)
Theorem C25_rounding depth F u i peak dt ms t :
  Forall (member_day depth F u i peak dt) ms -> Forall nonneg_app (app_list u) -> 0 <= t < 1440 ->
  zlen ms <= 2 ^ 52 -> zlen (app_list u) <= 2 ^ 52 ->
  let m := zlen (app_list u) in
  let n := zlen ms in
  let S := minute_sum t (flat_map snd ms) in
  (0 <= S)%Q /\
  (Qabs (value_at (sum_rows F (map (fun m => sum_rows F (snd m)) ms)) t - S)
   <= zq (2 * m + 4 * n) * eps53 * S + zq (4 * m * n + 2 * n) * eta64)%Q.
Proof.
  intros Hm Hnn Ht Hn Ha m n S. rewrite (member_sums _ _ _ _ _ _ _ _ Hm Ht).
  unfold S, minute_sum. rewrite <- concat_minutes.
  set (groups := map (fun m : SpecUser.member => map (fun l => value_at l t) (snd m)) ms).
  assert (HG : Forall (fun g => Forall (fun x => 0 <= x)%Q g /\ zlen g <= m) groups).
  { unfold groups. apply Forall_forall. intros g Hg. apply in_map_iff in Hg. destruct Hg as (mm & <- & Hin).
    rewrite Forall_forall in Hm. destruct (Hm mm Hin) as [_ H2]. unfold m. clear -H2 Hnn Ht.
    induction H2 as [|a l apps ls Hal H2 IH]; [split; [constructor|reflexivity]|].
    inversion Hnn; subst. destruct (IH ltac:(assumption)) as [I1 I2]. cbn [map]. rewrite !zlen_cons. split; [|lia].
    constructor; [eapply app_day_nonneg; eassumption|exact I1]. }
  replace n with (zlen groups) by (unfold groups; rewrite zlen_map; reflexivity).
  split.
  - apply Qsum_nonneg. clear -HG. induction HG as [|g gs [Hg _] H IH]; cbn; [constructor|]. apply Forall_app. auto.
  - apply nested_sum_error; [exact HG| |].
    + split; [unfold m; apply zlen_nonneg|exact Ha].
    + unfold groups. rewrite zlen_map. exact Hn.
Qed.

(** zero members or zero appliances: no load *)
Theorem C25_zero depth F u i peak dt u' t :
  num_users u <= 0 \/ app_list u = [] ->
  may (aggregated depth F u i peak dt) (Ok u') -> 0 <= t < 1440 -> (value_at (load u') t == 0)%Q.
Proof.
  intros Hz H Ht. destruct (C25_aggregated _ _ _ _ _ _ _ H) as (_ & ms & Hl & Hm & Hload & _).
  rewrite Hload. rewrite (member_sums _ _ _ _ _ _ _ _ Hm Ht).
  destruct Hz as [Hz|Hz].
  - assert (ms = []) as -> by (apply zlen_0; lia). reflexivity.
  - assert (K : forall m, In m ms -> snd m = []).
    { intros m Hin. rewrite Forall_forall in Hm. destruct (Hm m Hin) as [_ H2]. rewrite Hz in H2. inversion H2. reflexivity. }
    clear -K. assert (G : forall acc, (acc == 0)%Q -> (fold_left (fadd F) (map (fun g => fold_left (fadd F) g 0%Q)
      (map (fun m : SpecUser.member => map (fun l => value_at l t) (snd m)) ms)) acc == 0)%Q).
    { induction ms as [|m ms IH]; intros acc Hacc; [exact Hacc|]. cbn [map fold_left].
      rewrite (K m) by (left; reflexivity). cbn [map fold_left]. apply IH; [intros m' Hm'; apply K; right; exact Hm'|].
      unfold fadd. transitivity (rnd F 0); [|apply rnd_0].
      apply Qle_antisym; apply rnd_mono; rewrite Hacc; apply Qle_refl. }
    apply G. reflexivity.
Qed.

(** non negative declared values: non negative load *)
Theorem C25_nonneg depth F u i peak dt u' t :
  Forall nonneg_app (app_list u) ->
  may (aggregated depth F u i peak dt) (Ok u') -> 0 <= t < 1440 -> (0 <= value_at (load u') t)%Q.
Proof.
  intros Hnn H Ht. destruct (C25_aggregated _ _ _ _ _ _ _ H) as (_ & ms & Hl & Hm & Hload & _).
  rewrite Hload, (member_sums _ _ _ _ _ _ _ _ Hm Ht). apply fold_fadd_nonneg; [|apply Qle_refl].
  rewrite map_map. apply Forall_forall. intros x Hx. apply in_map_iff in Hx. destruct Hx as (m & <- & Hin).
  apply fold_fadd_nonneg; [|apply Qle_refl].
  rewrite Forall_forall in Hm. destruct (Hm m Hin) as [_ H2]. clear -H2 Hnn Ht.
  induction H2 as [|a l apps ls Hal H2 IH]; [constructor|].
  inversion Hnn; subst. constructor; [eapply app_day_nonneg; eassumption|auto].
Qed.

(** a day of the use case with peak minutes 700..719: two members, one flat lamp (declared 50 W,
    two of them, 480-600) and one appliance for preference 2 only *)
Definition lamp : appliance :=
  App (Params "lamp" 2 1 100 0 10 "no" 0 1 1 "yes" 0 0 2) [50%Q] false
    (Wins (480, 600) (0, 0) (0, 0) 0 0 0 0) default_cycle default_cycle default_cycle default_dyn.
Definition special : appliance :=
  App (Params "special" 1 1 100 0 10 "no" 0 1 1 "yes" 0 2 2) [7%Q] false
    (Wins (480, 600) (0, 0) (0, 0) 0 0 0 0) default_cycle default_cycle default_cycle default_dyn.
Definition household : user := User "household" 2 3 0 [] [lamp; special].
Definition flat_draws : list draw :=
  [DQ (1 # 2); DZ 0; DZ 0; DZ 0; DZ 0; DZ 0; DZ 0; DQ (1 # 2); DQ (1 # 2)].
(** the first member has preference 2, the second 3 *)
Definition household_tape : list draw :=
  [DZ 1] ++ flat_draws ++ flat_draws ++ [DZ 2] ++ flat_draws ++ [DQ (1 # 2)].

Example C25_case : Forall nonneg_app (app_list household) /\
  exists u', may (aggregated 3 exact_fm household 0 (arange 700 720) 0) (Ok u') /\
    (value_at (load u') 500 == 207)%Q /\ (value_at (load u') 700 == 0)%Q /\ rand_daily_pref u' = 3.
Proof.
  split.
  { repeat constructor; cbn; try lia; try discriminate. }
  destruct (follow_check (aggregated 3 exact_fm household 0 (arange 700 720) 0) household_tape
    (fun u' => Qeq_bool (value_at (load u') 500) 207 && Qeq_bool (value_at (load u') 700) 0 && (rand_daily_pref u' =? 3)))
    as (u' & Hu & Hc); [vm_compute; reflexivity|].
  exists u'. split; [exact Hu|]. apply andb_prop in Hc. destruct Hc as [Hc H3]. apply andb_prop in Hc.
  destruct Hc as [H1 H2]. apply Qeq_bool_iff in H1, H2. split; [exact H1|]. split; [exact H2|lia].
Qed.

(** ** C26 *)

(** each member draws exactly one preference, uniformly: the first thing a member's day does is
    one draw among user_preference equally likely values (no draw when it is 0), and that value
    is the preference of all the appliances of the day and of the user afterwards *)
Theorem C26_one_draw depth F u i peak dt :
  (user_preference u = 0 ->
     generate_single_load_profile depth F u i peak dt =
     (r <- generate_apps depth F 0 i peak dt (app_list u) (zeros day_minutes) ;;
      Ret (set_apps (set_pref u 0) (fst r), snd r))) /\
  (1 <= user_preference u ->
     generate_single_load_profile depth F u i peak dt =
     RandBelow (user_preference u) (fun j =>
      (r <- generate_apps depth F (1 + j) i peak dt (app_list u) (zeros day_minutes) ;;
       Ret (set_apps (set_pref u (1 + j)) (fst r), snd r)))).
Proof.
  split; intros H; unfold generate_single_load_profile, draw_pref, py_randint.
  - rewrite H. reflexivity.
  - replace (user_preference u =? 0) with false by lia.
    replace (user_preference u + 1 - 1) with (user_preference u) by lia.
    replace (user_preference u <=? 0) with false by lia. reflexivity.
Qed.

(** the preference of a member is in 1..user_preference, 0 when user_preference is 0, and the
    profile of an appliance with another non zero pref_index is zero on that day *)
Theorem C26_preference depth F u i peak dt m k a l :
  member_day depth F u i peak dt m ->
  (user_preference u = 0 -> fst m = 0) /\
  (user_preference u <> 0 -> 1 <= fst m <= user_preference u) /\
  (nth_error (app_list u) k = Some a -> nth_error (snd m) k = Some l ->
   app_day depth F i peak dt (fst m) a l /\
   (pref_index (par a) <> 0 -> pref_index (par a) <> fst m -> l = zeros day_minutes)).
Proof.
  intros [Hp Hd]. split; [unfold pref_of_day in Hp; lia|]. split; [unfold pref_of_day in Hp; lia|].
  intros Ha Hl.
  assert (Hal : app_day depth F i peak dt (fst m) a l).
  { clear Hp. revert k Ha Hl. induction Hd as [|x y xs ys Hxy Hd IH]; intros [|k] Ha Hl; cbn in Ha, Hl; try discriminate.
    - injection Ha as ->. injection Hl as ->. exact Hxy.
    - eapply IH; eassumption. }
  split; [exact Hal|]. intros H0 H1. destruct Hal as (pw & a' & _ & H & <-).
  eapply C20_always_skipped; [|exact H]. left. split; [exact H0|congruence].
Qed.

(** conversely any preference in the range is possible for a member *)
Theorem C26_all_preferences u p :
  may (draw_pref u) (Ok p) <->
  (user_preference u = 0 /\ p = 0) \/ (user_preference u <> 0 /\ 1 <= p <= user_preference u).
Proof. exact (draw_pref_may u p). Qed.

Example C26_case : user_preference household = 3 /\
  map (fun a => pref_index (par a)) (app_list household) = [0; 2].
Proof. split; reflexivity. Qed.
