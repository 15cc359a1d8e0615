(** * PropsPost: C48, C49, C50, C53, C54, C55 *)
From Coq Require Import Permutation Sorted.
From Verif Require Import Base Wp ListLemmas Utils Appliance User UseCase Tabular Spec SpecUser SpecUseCase
  ProofsUser ProofsUser2 ProofsUtils ProofsTabular PropsUseCase PostProcess.
Open Scope string_scope.
Open Scope list_scope.
Open Scope Z_scope.

(** ** C48: Profile_formatting *)

Lemma np_add_full F x y : List.length x = day_minutes -> List.length y = day_minutes -> np_add F x y = Ok (vadd F x y).
Proof. intros Hx Hy. unfold np_add, zlen. rewrite Hx, Hy, Z.eqb_refl. reflexivity. Qed.

Lemma add_all_full F rows : Forall (fun l => List.length l = day_minutes) rows -> forall acc, List.length acc = day_minutes ->
  add_all F acc rows = Ok (fold_left (vadd F) rows acc).
Proof.
  induction 1 as [|r rows Hr H IH]; intros acc Ha; [reflexivity|]. cbn [add_all fold_left].
  rewrite np_add_full by assumption. cbn [rbind]. apply IH. rewrite vadd_length by congruence. exact Ha.
Qed.

Lemma full_rows rows : Forall (fun l : list Q => zlen l = 1440) rows -> Forall (fun l => List.length l = day_minutes) rows.
Proof. apply Forall_impl. intros l H. unfold zlen in H. unfold day_minutes. lia. Qed.

Lemma value_at_map (f : Q -> Q) l t : 0 <= t < zlen l -> value_at (map f l) t = f (value_at l t).
Proof.
  intros H. unfold value_at, zlen in *. rewrite (nth_indep _ _ (f 0%Q)) by (rewrite map_length; lia). apply map_nth.
Qed.

(** average, profiles in kW and series.  The average is exact in exact arithmetic; in floats it is
    off by at most 4 (2^-53 S + 2^-1074), S the sum of the values of that minute. *)
Theorem C48_formatting F rows : rows <> [] -> Forall (fun l => zlen l = 1440) rows ->
  exists avg kW series, Profile_formatting F rows = Ok (avg, kW, series) /\
  (zlen avg = 1440 /\ forall t, 0 <= t < 1440 ->
     (exact F -> (value_at avg t == minute_sum t rows / zq (zlen rows))%Q) /\
     (Forall (fun l => (0 <= value_at l t)%Q) rows -> zlen rows <= 2 ^ 52 ->
      (Qabs (value_at avg t - minute_sum t rows / zq (zlen rows)) <= 4 * (eps53 * minute_sum t rows + eta64))%Q)) /\
  (zlen kW = zlen rows /\ forall i t, 0 <= i < zlen rows -> 0 <= t < 1440 ->
     value_at (nth (Z.to_nat i) kW []) t = rnd F (value_at (nth (Z.to_nat i) rows []) t / 1000)%Q) /\
  (zlen series = 1440 * zlen rows /\ forall i t, 0 <= i < zlen rows -> 0 <= t < 1440 ->
     value_at series (1440 * i + t) = value_at (nth (Z.to_nat i) rows []) t).
Proof.
  intros Hne Hrows. pose proof (full_rows rows Hrows) as Hfull.
  assert (Hn : 1 <= zlen rows) by (destruct rows; [contradiction|rewrite zlen_cons; pose proof (zlen_nonneg rows); lia]).
  eexists _, _, _. split.
  { unfold Profile_formatting. change (Z.to_nat 1440) with day_minutes.
    rewrite (add_all_full F rows Hfull) by apply repeat_length. cbn [rbind].
    destruct rows as [|r rows]; [contradiction|]. reflexivity. }
  change (repeat 0%Q day_minutes) with (zeros day_minutes).
  change (fold_left (vadd F) rows (zeros day_minutes)) with (sum_rows F rows).
  assert (Hl : zlen (sum_rows F rows) = 1440).
  { unfold zlen. rewrite (sum_rows_len F rows Hfull). reflexivity. }
  set (n := zq (zlen rows)).
  assert (Hn1 : (1 <= n)%Q) by (apply (proj2 (zq_le 1 (zlen rows))); exact Hn).
  split; [|split].
  - rewrite zlen_map. split; [exact Hl|]. intros t Ht. rewrite value_at_map by (rewrite Hl; exact Ht). unfold fdiv. fold n. split.
    + intros HF. rewrite (HF _). rewrite (sum_rows_exact F rows t HF Ht Hfull). reflexivity.
    + intros Hnn Hz. set (S := minute_sum t rows). set (x := value_at (sum_rows F rows) t).
      assert (HS0 : (0 <= S)%Q).
      { unfold S, minute_sum. apply Qsum_nonneg. apply Forall_forall. intros q Hq. apply in_map_iff in Hq.
        destruct Hq as (l & <- & Hin). rewrite Forall_forall in Hnn. apply Hnn, Hin. }
      assert (Hx0 : (0 <= x)%Q) by (apply sum_rows_nonneg; assumption).
      assert (HE : (Qabs (x - S) <= 2 * n * (eps53 * S + eta64))%Q).
      { unfold x, S, minute_sum. rewrite sum_rows_value by assumption. unfold n.
        rewrite <- (zlen_map (fun l => value_at l t) rows). apply fold_sum_error; [|rewrite zlen_map; lia].
        apply Forall_forall. intros q Hq. apply in_map_iff in Hq. destruct Hq as (l & <- & Hin).
        rewrite Forall_forall in Hnn. apply Hnn, Hin. }
      assert (Hi : (x / n == x * / n)%Q) by reflexivity.
      assert (Hinv : (0 < / n)%Q) by (apply Qinv_lt_0_compat; lra).
      assert (Hni : (n * / n == 1)%Q) by (apply Qmult_inv_r; lra).
      assert (Hinv1 : (/ n <= 1)%Q) by nra.
      set (B := (eps53 * S + eta64)%Q) in *.
      assert (He : (0 < eps53)%Q) by reflexivity. assert (Het : (0 < eta64)%Q) by reflexivity.
      assert (HB : (0 <= B)%Q) by (unfold B; nra).
      assert (HD : (Qabs (x / n - S / n) <= 2 * B)%Q).
      { unfold Qdiv. setoid_replace (x * / n - S * / n)%Q with ((x - S) * / n)%Q by ring. rewrite Qabs_Qmult.
        rewrite (Qabs_pos (/ n)) by lra. apply Qle_trans with ((2 * n * B) * / n)%Q; [apply Qmult_le_compat_r; lra|].
        setoid_replace (2 * n * B * / n)%Q with (2 * B * (n * / n))%Q by ring. rewrite Hni. lra. }
      pose proof (rnd_err F (x / n)%Q) as R.
      assert (Hxn : (0 <= x / n)%Q) by (unfold Qdiv; nra).
      rewrite (Qabs_pos (x / n)%Q Hxn) in R.
      assert (HSn : (S / n <= S)%Q) by (unfold Qdiv; nra).
      apply Qabs_Qle_condition in HD. destruct HD as [D1 D2].
      apply Qabs_Qle_condition in R. destruct R as [R1 R2].
      assert (Hb : (x / n * eps53 + eta64 <= 2 * B)%Q).
      { assert (H2 : (x / n <= S + 2 * B)%Q) by lra.
        assert (H3 : (x / n * eps53 <= (S + 2 * B) * eps53)%Q) by (apply Qmult_le_compat_r; lra).
        assert (H4 : (2 * eps53 <= 1)%Q) by (vm_compute; discriminate).
        unfold B in *. nra. }
      apply Qabs_Qle_condition. split; lra.
  - split; [apply zlen_map|]. intros i t Hi Ht.
    assert (Hin : zlen (nth (Z.to_nat i) rows []) = 1440).
    { rewrite Forall_forall in Hrows. apply Hrows, nth_In. unfold zlen in Hi. lia. }
    rewrite (nth_indep _ _ (map (fun x => fdiv F x 1000) [])) by (rewrite map_length; unfold zlen in Hi; lia).
    rewrite map_nth, value_at_map by lia. reflexivity.
  - split; [apply concat_len, Hrows|]. intros i t Hi Ht. unfold value_at. rewrite concat_nth by (assumption || lia).
    replace (1440 * i + t) with (t + i * 1440) by lia. rewrite Z.mod_add, Z.div_add by lia.
    rewrite Z.mod_small, Z.div_small by lia. reflexivity.
Qed.

(** two profiles, of 10 W and 30 W: the average is 20 W, the second profile is 0.03 kW *)
Example C48_case : exists avg kW series,
  Profile_formatting exact_fm [repeat 10%Q 1440; repeat 30%Q 1440] = Ok (avg, kW, series) /\
  (value_at avg 700 == 20)%Q /\ (value_at (nth 1 kW []) 3 == 3 # 100)%Q /\ value_at series 2000 = 30%Q.
Proof.
  assert (H : Forall (fun l : list Q => zlen l = 1440) [repeat 10%Q 1440; repeat 30%Q 1440]) by (repeat constructor).
  assert (Hne : [repeat 10%Q 1440; repeat 30%Q 1440] <> []) by discriminate.
  destruct (C48_formatting exact_fm _ Hne H) as (avg & kW & series & E & (_ & Ha) & (_ & Hk) & (_ & Hs)).
  exists avg, kW, series. split; [exact E|]. split; [|split].
  - destruct (Ha 700 ltac:(lia)) as [Ha' _]. rewrite (Ha' exact_exact_fm). reflexivity.
  - specialize (Hk 1 3 ltac:(vm_compute; split; congruence) ltac:(lia)). change (nth 1 kW []) with (nth (Z.to_nat 1) kW []). rewrite Hk. vm_compute. reflexivity.
  - exact (Hs 1 560 ltac:(vm_compute; split; congruence) ltac:(lia)).
Qed.

(** ** C49: resampling *)

Lemma kahan_exact F : exact F -> forall l s c, (c == 0)%Q -> (kahan F s c l == s + Qsum l)%Q.
Proof.
  intros HF l. induction l as [|v l IH]; intros s c Hc; [cbn; ring|]. cbn [kahan].
  rewrite IH.
  - unfold fadd, fsub. rewrite !(HF _), Hc. unfold Qsum. cbn [fold_right]. ring.
  - unfold fadd, fsub. rewrite !(HF _), Hc. ring.
Qed.

Lemma qmax_spec x y : (x <= qmax x y)%Q /\ (y <= qmax x y)%Q /\ (qmax x y = x \/ qmax x y = y).
Proof.
  unfold qmax. destruct (Qle_bool x y) eqn:E.
  - apply Qle_bool_iff in E. repeat split; [exact E|apply Qle_refl|right; reflexivity].
  - assert (y < x)%Q by (apply Qnot_le_lt; intros H; apply Qle_bool_iff in H; congruence).
    repeat split; [apply Qle_refl|lra|left; reflexivity].
Qed.
Lemma qmin_spec x y : (qmin x y <= x)%Q /\ (qmin x y <= y)%Q /\ (qmin x y = x \/ qmin x y = y).
Proof.
  unfold qmin. destruct (Qle_bool x y) eqn:E.
  - apply Qle_bool_iff in E. repeat split; [apply Qle_refl|exact E|left; reflexivity].
  - assert (y < x)%Q by (apply Qnot_le_lt; intros H; apply Qle_bool_iff in H; congruence).
    repeat split; [lra|apply Qle_refl|right; reflexivity].
Qed.
Lemma fold_max l : forall x, In (fold_left qmax l x) (x :: l) /\ Forall (fun y => (y <= fold_left qmax l x)%Q) (x :: l).
Proof.
  induction l as [|y l IH]; intros x; cbn [fold_left]; [split; [left; reflexivity|repeat constructor; apply Qle_refl]|].
  destruct (qmax_spec x y) as (H1 & H2 & H3). destruct (IH (qmax x y)) as [Hin Hall].
  inversion Hall as [|? ? Hq Hl]; subst. split.
  - destruct Hin as [Hin|Hin]; [|right; right; exact Hin]. rewrite <- Hin. destruct H3 as [-> | ->]; [left|right; left]; reflexivity.
  - constructor; [lra|]. constructor; [lra|exact Hl].
Qed.
Lemma fold_min l : forall x, In (fold_left qmin l x) (x :: l) /\ Forall (fun y => (fold_left qmin l x <= y)%Q) (x :: l).
Proof.
  induction l as [|y l IH]; intros x; cbn [fold_left]; [split; [left; reflexivity|repeat constructor; apply Qle_refl]|].
  destruct (qmin_spec x y) as (H1 & H2 & H3). destruct (IH (qmin x y)) as [Hin Hall].
  inversion Hall as [|? ? Hq Hl]; subst. split.
  - destruct Hin as [Hin|Hin]; [|right; right; exact Hin]. rewrite <- Hin. destruct H3 as [-> | ->]; [left|right; left]; reflexivity.
  - constructor; [lra|]. constructor; [lra|exact Hl].
Qed.

(** the [w] values of bin [k] *)
Definition chunk (w k : Z) (v : list Q) : list Q := firstn (Z.to_nat w) (skipn (Z.to_nat (w * k)) v).

Lemma combine_app {A B} (l1 l2 : list A) (r1 r2 : list B) : List.length l1 = List.length r1 ->
  combine (l1 ++ l2) (r1 ++ r2) = combine l1 r1 ++ combine l2 r2.
Proof. revert r1. induction l1 as [|x l1 IH]; intros [|y r1] H; cbn in *; try discriminate; [reflexivity|]. f_equal. apply IH. congruence. Qed.
Lemma combine_snd {A B} (l : list A) (r : list B) : List.length l = List.length r -> map snd (combine l r) = r.
Proof. revert r. induction l as [|x l IH]; intros [|y r] H; cbn in *; try discriminate; [reflexivity|]. f_equal. apply IH. congruence. Qed.
Lemma combine_Forall {A B} (P : A -> Prop) (l : list A) (r : list B) : Forall P l -> Forall (fun xy => P (fst xy)) (combine l r).
Proof. intros H. revert r. induction H as [|x l Hx H IH]; intros r; [constructor|]. destruct r; cbn; constructor; [exact Hx|apply IH]. Qed.

Lemma Forall_arange (P : Z -> Prop) a b : (forall x, a <= x < b -> P x) -> Forall P (arange a b).
Proof. intros H. apply Forall_forall. intros x Hx. apply in_arange in Hx. apply H, Hx. Qed.

Lemma select_chunk (f : Z -> bool) s w h k v :
  0 < w -> 0 <= k < h -> zlen v = w * h ->
  (forall i, 0 <= i < w * h -> f (s + i) = (w * k <=? i) && (i <? w * (k + 1))) ->
  map snd (filter (fun tv => f (fst tv)) (combine (arange s (s + w * h)) v)) = chunk w k v.
Proof.
  intros Hw Hk Hv Hf.
  assert (Hlen : List.length v = Z.to_nat (w * h)) by (unfold zlen in Hv; lia).
  assert (B1 : 0 <= w * k) by nia. assert (B2 : w * k + w <= w * h) by nia.
  rewrite <- (firstn_skipn (Z.to_nat (w * k)) v) at 1.
  rewrite <- (firstn_skipn (Z.to_nat w) (skipn (Z.to_nat (w * k)) v)) at 1.
  rewrite (arange_app s (s + w * k) (s + w * h)) by lia.
  rewrite (arange_app (s + w * k) (s + w * (k + 1)) (s + w * h)) by lia.
  rewrite combine_app by (rewrite arange_length, firstn_length, Hlen; lia).
  rewrite combine_app by (rewrite arange_length, firstn_length, skipn_length, Hlen; lia).
  rewrite !filter_app.
  rewrite (filter_none (fun tv => f (fst tv)) (combine (arange s (s + w * k)) _)).
  2:{ apply combine_Forall with (P := fun x => f x = false). apply Forall_arange. intros x Hx. replace x with (s + (x - s)) by lia.
      rewrite Hf by lia. destruct (Z.leb_spec (w * k) (x - s)); [lia|reflexivity]. }
  rewrite (filter_all (fun tv => f (fst tv)) (combine (arange (s + w * k) _) _)).
  2:{ apply combine_Forall with (P := fun x => f x = true). apply Forall_arange. intros x Hx. replace x with (s + (x - s)) by lia.
      rewrite Hf by lia. destruct (Z.leb_spec (w * k) (x - s)); [|lia]. destruct (Z.ltb_spec (x - s) (w * (k + 1))); [reflexivity|lia]. }
  rewrite (filter_none (fun tv => f (fst tv)) (combine (arange (s + w * (k + 1)) _) _)).
  2:{ apply combine_Forall with (P := fun x => f x = false). apply Forall_arange. intros x Hx. replace x with (s + (x - s)) by lia.
      rewrite Hf by lia. destruct (Z.ltb_spec (x - s) (w * (k + 1))); [lia|]. apply andb_false_r. }
  cbn [app]. rewrite app_nil_r. unfold chunk. apply combine_snd. rewrite arange_length, firstn_length, skipn_length, Hlen. lia.
Qed.

Lemma resample_chunks F w r s h v : 0 < w -> (w | 1440) -> (w | s) -> 0 < h -> zlen v = w * h ->
  resample F w r (arange s (s + w * h)) v =
  map (fun k => (s + w * k, aggregate F r (chunk w k v))) (arange 0 h).
Proof.
  intros Hw (q & Hq) (p & Hp) Hh Hv. unfold resample.
  assert (B : 0 < w * h) by nia. rewrite (arange_cons s) by lia. cbv zeta.
  set (o := 1440 * (s / 1440)).
  assert (Ho : exists b0, s - o = w * b0).
  { exists (p - q * (s / 1440)). unfold o. rewrite Hq, Hp. ring. }
  destruct Ho as (b0 & Ho).
  assert (E0 : bin_of o w s = b0) by (unfold bin_of; rewrite Ho, Z.mul_comm; apply Z.div_mul; lia).
  assert (Elast : last (arange (s + 1) (s + w * h)) s = s + w * h - 1).
  { destruct (Z.eq_dec (w * h) 1) as [E|E].
    - rewrite E, arange_nil by lia. cbn. lia.
    - rewrite last_arange by lia. lia. }
  rewrite Elast.
  assert (E1 : bin_of o w (s + w * h - 1) = b0 + h - 1).
  { unfold bin_of. replace (s + w * h - 1 - o) with ((w - 1) + (b0 + h - 1) * w) by lia.
    rewrite Z.div_add by lia. rewrite Z.div_small by lia. lia. }
  rewrite E0, E1. replace (b0 + h - 1 + 1) with (b0 + h) by lia.
  assert (Ear : arange b0 (b0 + h) = map (fun k => b0 + k) (arange 0 h)).
  { unfold arange. replace (b0 + h - b0) with h by lia. rewrite map_map, Z.sub_0_r. apply map_ext. intros; lia. }
  rewrite Ear, map_map. apply map_ext_in. intros k Hk. apply in_arange in Hk.
  f_equal; [lia|]. f_equal. rewrite <- (arange_cons s) by lia.
  apply (select_chunk (fun t => bin_of o w t =? b0 + k) s w h k v Hw Hk Hv).
  intros i Hi. unfold bin_of. replace (s + i - o) with (i + b0 * w) by lia. rewrite Z.div_add by lia.
  pose proof (Z.div_mod i w ltac:(lia)) as D. pose proof (Z.mod_pos_bound i w Hw) as M.
  destruct (Z.eqb_spec (i / w + b0) (b0 + k)) as [E|E].
  - assert (i / w = k) by lia. symmetry. apply andb_true_iff. split; [apply Z.leb_le|apply Z.ltb_lt]; nia.
  - symmetry. apply andb_false_iff. destruct (Z.leb_spec (w * k) i); [right; apply Z.ltb_ge|left; reflexivity].
    assert (i / w > k \/ i / w < k) as [G|G] by lia; nia.
Qed.

Lemma chunk_nth w k v j : 0 < w -> 0 <= k -> w * (k + 1) <= zlen v -> 0 <= j < w ->
  nth (Z.to_nat j) (chunk w k v) 0%Q = value_at v (w * k + j).
Proof.
  intros Hw Hk Hv Hj. unfold chunk, value_at.
  assert (Hx : nth (Z.to_nat j) (firstn (Z.to_nat w) (skipn (Z.to_nat (w * k)) v)) 0%Q = nth (Z.to_nat j) (skipn (Z.to_nat (w * k)) v) 0%Q).
  { rewrite <- (firstn_skipn (Z.to_nat w) (skipn (Z.to_nat (w * k)) v)) at 2. rewrite app_nth1; [reflexivity|].
    rewrite firstn_length, skipn_length. unfold zlen in Hv. nia. }
  rewrite Hx. replace (w * k + j) with (w * k + j) by lia. rewrite Z2Nat.inj_add by nia.
  generalize (Z.to_nat (w * k)) (Z.to_nat j). intros a b. clear. revert a. induction v as [|x v IH]; intros [|a]; cbn; try reflexivity.
  - destruct b; reflexivity.
  - apply IH.
Qed.
Lemma chunk_len w k v : 0 < w -> 0 <= k -> w * (k + 1) <= zlen v -> zlen (chunk w k v) = w.
Proof. intros Hw Hk Hv. unfold chunk, zlen in *. rewrite firstn_length, skipn_length. nia. Qed.
Lemma chunk_in w k v x : 0 < w -> 0 <= k -> w * (k + 1) <= zlen v -> In x (chunk w k v) <->
  exists j, w * k <= j < w * (k + 1) /\ x = value_at v j.
Proof.
  intros Hw Hk Hv. pose proof (chunk_len w k v Hw Hk Hv) as Hl. split.
  - intros Hin. apply (In_nth _ _ 0%Q) in Hin. destruct Hin as (i & Hi & Hx). unfold zlen in Hl.
    exists (w * k + Z.of_nat i). split; [lia|]. rewrite <- Hx, <- (chunk_nth w k v (Z.of_nat i)) by lia. rewrite Nat2Z.id. reflexivity.
  - intros (j & Hj & ->). replace j with (w * k + (j - w * k)) by lia. rewrite <- (chunk_nth w k v (j - w * k)) by lia.
    apply nth_In. unfold zlen in Hl. lia.
Qed.

Lemma Qsum_cons x l : Qsum (x :: l) = (x + Qsum l)%Q.
Proof. reflexivity. Qed.

(** sum over a range of minutes *)
Definition sum_between (v : list Q) (a b : Z) : Q := Qsum (map (value_at v) (arange a b)).

Lemma chunk_sum w k v : 0 < w -> 0 <= k -> w * (k + 1) <= zlen v -> Qsum (chunk w k v) = sum_between v (w * k) (w * (k + 1)).
Proof.
  intros Hw Hk Hv. unfold sum_between. f_equal. pose proof (chunk_len w k v Hw Hk Hv) as Hl. unfold zlen in Hl.
  apply (nth_ext _ _ 0%Q 0%Q).
  - rewrite map_length, arange_length. lia.
  - intros i Hi. rewrite (nth_indep (map _ _) _ (value_at v 0)) by (rewrite map_length, arange_length; lia). rewrite map_nth.
    rewrite nth_arange by lia. rewrite <- (chunk_nth w k v (Z.of_nat i)) by lia. rewrite Nat2Z.id. reflexivity.
Qed.

Lemma sum_between_app v a b c : a <= b -> b <= c -> (sum_between v a c == sum_between v a b + sum_between v b c)%Q.
Proof.
  intros H1 H2. unfold sum_between. rewrite (arange_app a b c) by assumption. rewrite map_app.
  generalize (map (value_at v) (arange a b)) (map (value_at v) (arange b c)). intros x y.
  induction x as [|q x IH]; cbn; [unfold Qsum; ring|]. fold (Qsum (x ++ y)). fold (Qsum x). rewrite IH. ring.
Qed.
Lemma sum_between_all v : Qsum v = sum_between v 0 (zlen v).
Proof.
  unfold sum_between. f_equal. apply (nth_ext _ _ 0%Q 0%Q).
  - rewrite map_length, arange_length. unfold zlen. lia.
  - intros i Hi. rewrite (nth_indep (map _ _) _ (value_at v 0)) by (rewrite map_length, arange_length; unfold zlen; lia).
    rewrite map_nth, nth_arange by (unfold zlen; lia). unfold value_at. rewrite Z.add_0_l, Nat2Z.id. reflexivity.
Qed.

(** One line per bin, labelled by its first minute: of each bin the mean, the largest and the
    smallest of its values, for any profile that fills its bins.  [w] = 60 is the hourly resampling
    of the command line. *)
Theorem C49_bins F w s h v : 0 < w -> (w | 1440) -> (w | s) -> 0 < h -> zlen v = w * h ->
  let bins r := resample F w r (arange s (s + w * h)) v in
  (forall r, zlen (bins r) = h) /\
  forall k, 0 <= k < h -> exists mean high low,
    nth_error (bins Mean) (Z.to_nat k) = Some (s + w * k, Some mean) /\
    nth_error (bins Max) (Z.to_nat k) = Some (s + w * k, Some high) /\
    nth_error (bins Min) (Z.to_nat k) = Some (s + w * k, Some low) /\
    (exists j, w * k <= j < w * (k + 1) /\ high = value_at v j) /\
    (exists j, w * k <= j < w * (k + 1) /\ low = value_at v j) /\
    (forall j, w * k <= j < w * (k + 1) -> (low <= value_at v j <= high)%Q) /\
    (exact F -> (mean * zq w == sum_between v (w * k) (w * (k + 1)))%Q /\ (low <= mean <= high)%Q).
Proof.
  intros Hw H1440 Hs Hh Hv bins.
  assert (E : forall r, bins r = map (fun k => (s + w * k, aggregate F r (chunk w k v))) (arange 0 h)) by (intros r; apply resample_chunks; assumption).
  split; [intros r; rewrite E, zlen_map, zlen_arange; lia|]. intros k Hk.
  assert (Hn : forall r, nth_error (bins r) (Z.to_nat k) = Some (s + w * k, aggregate F r (chunk w k v))).
  { intros r. rewrite E. rewrite nth_error_map.
    rewrite (nth_error_nth' _ 0) by (rewrite arange_length; lia). rewrite nth_arange by lia. cbn. do 3 f_equal; try lia. f_equal. lia. }
  assert (Hk0 : 0 <= k) by lia. assert (Hwk : w * (k + 1) <= zlen v) by (rewrite Hv; nia).
  pose proof (chunk_len w k v Hw Hk0 Hwk) as Hl. pose proof (chunk_in w k v) as Hci.
  pose proof (chunk_sum w k v Hw Hk0 Hwk) as Hsum.
  rewrite !Hn. destruct (chunk w k v) as [|x l] eqn:Ec; [unfold zlen in Hl; cbn in Hl; lia|].
  eexists _, _, _. cbn [aggregate]. split; [reflexivity|]. split; [reflexivity|]. split; [reflexivity|].
  destruct (fold_max l x) as [Mi Ma]. destruct (fold_min l x) as [mi ma].
  rewrite <- (Hci _ Hw Hk0 Hwk). rewrite <- (Hci _ Hw Hk0 Hwk). split; [exact Mi|]. split; [exact mi|].
  rewrite Forall_forall in Ma, ma.
  split.
  { intros j Hj. assert (Hin : In (value_at v j) (x :: l)) by (apply (Hci _ Hw Hk0 Hwk); exists j; auto). split; [apply ma, Hin|apply Ma, Hin]. }
  intros HF. rewrite Hl. set (mean := fdiv F (kahan F 0 0 (x :: l)) (zq w)).
  assert (Hzw : (0 < zq w)%Q) by (apply (proj2 (zq_lt 0 w)); exact Hw).
  assert (Hm : (mean * zq w == Qsum (x :: l))%Q).
  { unfold mean, fdiv. rewrite (HF _), (kahan_exact F HF) by reflexivity. field. lra. }
  split; [rewrite Hm, Hsum; reflexivity|].
  assert (Hlo : forall (b : Q) (m : list Q), (forall y, In y m -> (b <= y)%Q) -> (b * zq (zlen m) <= Qsum m)%Q).
  { intros b m. induction m as [|y m IH]; intros Hb; [change (zq (zlen (@nil Q))) with 0%Q; rewrite Qmult_0_r; apply Qle_refl|].
    rewrite zlen_cons. unfold zq. rewrite inject_Z_plus. fold (zq (zlen m)). cbn [Qsum fold_right]. fold (Qsum m).
    assert (H1 : (b <= y)%Q) by (apply Hb; left; reflexivity). assert (H2 : (b * zq (zlen m) <= Qsum m)%Q) by (apply IH; intros z Hz; apply Hb; right; exact Hz).
    change (inject_Z 1) with 1%Q. lra. }
  assert (Hup : forall (b : Q) (m : list Q), (forall y, In y m -> (y <= b)%Q) -> (Qsum m <= b * zq (zlen m))%Q).
  { intros b m. induction m as [|y m IH]; intros Hb; [change (zq (zlen (@nil Q))) with 0%Q; rewrite Qmult_0_r; apply Qle_refl|].
    rewrite zlen_cons. unfold zq. rewrite inject_Z_plus. fold (zq (zlen m)). cbn [Qsum fold_right]. fold (Qsum m).
    assert (H1 : (y <= b)%Q) by (apply Hb; left; reflexivity). assert (H2 : (Qsum m <= b * zq (zlen m))%Q) by (apply IH; intros z Hz; apply Hb; right; exact Hz).
    change (inject_Z 1) with 1%Q. lra. }
  pose proof (Hlo _ _ ma) as L. pose proof (Hup _ _ Ma) as U. rewrite Hl in L, U. rewrite <- Hm in L, U.
  split; apply (Qmult_le_r _ _ (zq w) Hzw); assumption.
Qed.

(** nothing is lost: the sums (or [w] times the means) of all bins add up to the sum of the minutes *)
Definition total (rows : list (Z * option Q)) : Q := Qsum (map (fun x => match snd x with Some q => q | None => 0%Q end) rows).
Lemma total_from F v w g : 0 < w -> (forall k, 0 <= k -> w * (k + 1) <= zlen v -> exists q, g k = Some q /\ (q * zq w == sum_between v (w * k)%Z (w * (k + 1))%Z)%Q) ->
  exact F -> forall (n : nat) (s : Z), w * Z.of_nat n <= zlen v ->
  (total (map (fun k => ((s + w * k)%Z, g k)) (arange 0 (Z.of_nat n))) * zq w == sum_between v 0 (w * Z.of_nat n)%Z)%Q.
Proof.
  intros Hw Hg HF n s. induction n as [|n IH]; intros Hn.
  - rewrite Z.mul_0_r. unfold sum_between, total. rewrite arange_nil by lia. cbn. reflexivity.
  - rewrite (arange_app 0 (Z.of_nat n)) by lia. rewrite map_app. unfold total. rewrite map_app.
    rewrite (arange_cons (Z.of_nat n)) by lia. rewrite (arange_nil (Z.of_nat n + 1)) by lia.
    destruct (Hg (Z.of_nat n)) as (q & Eq & Hq); [lia|lia|]. cbn [map snd]. rewrite Eq.
    assert (Happ : forall x y, (Qsum (x ++ y) == Qsum x + Qsum y)%Q).
    { intros x y. induction x as [|a x IHx]; cbn; [unfold Qsum; ring|]. fold (Qsum (x ++ y)). fold (Qsum x). rewrite IHx. ring. }
    rewrite Happ. cbn [Qsum fold_right]. fold (total (map (fun k => (s + w * k, g k)) (arange 0 (Z.of_nat n)))).
    rewrite Qmult_plus_distr_l, IH by lia. rewrite (sum_between_app v 0 (w * Z.of_nat n) (w * Z.of_nat (S n))) by lia.
    rewrite Qplus_0_r, Hq. replace (w * (Z.of_nat n + 1)) with (w * Z.of_nat (S n)) by lia. reflexivity.
Qed.

Theorem C49_total F w s h v : exact F -> 0 < w -> (w | 1440) -> (w | s) -> 0 < h -> zlen v = w * h ->
  (total (resample F w Mean (arange s (s + w * h)) v) * zq w == Qsum v)%Q.
Proof.
  intros HF Hw H1440 Hs Hh Hv. rewrite resample_chunks by assumption. rewrite sum_between_all, Hv.
  pose proof (total_from F v w (fun k => aggregate F Mean (chunk w k v)) Hw) as T.
  assert (Hg : forall k, 0 <= k -> w * (k + 1) <= zlen v -> exists q, aggregate F Mean (chunk w k v) = Some q /\ (q * zq w == sum_between v (w * k) (w * (k + 1)))%Q).
  { intros k Hk Hwk. pose proof (chunk_len w k v Hw Hk Hwk) as Hl. pose proof (chunk_sum w k v Hw Hk Hwk) as Hsum.
    destruct (chunk w k v) as [|x l] eqn:Ec; [unfold zlen in Hl; cbn in Hl; lia|]. eexists. split; [reflexivity|].
    rewrite Hl. unfold fdiv. rewrite (HF _), (kahan_exact F HF) by reflexivity. rewrite <- Hsum. field.
    assert (0 < zq w)%Q by (apply (proj2 (zq_lt 0 w)); exact Hw). lra. }
  specialize (T Hg HF (Z.to_nat h) s). rewrite !Z2Nat.id in T by lia. apply T. lia.
Qed.

(** [plot.resample(freq, "sum", conversion)] adds up to the sum of the values divided by conversion *)
Theorem C49_sum F w s h v c : exact F -> 0 < w -> (w | 1440) -> (w | s) -> 0 < h -> zlen v = w * h -> ~ (c == 0)%Q ->
  (total (plot_resample F w Sum c (arange s (s + w * h)) v) == Qsum v / c)%Q.
Proof.
  intros HF Hw H1440 Hs Hh Hv Hc. unfold plot_resample. set (v' := map (fun x => fdiv F x c) v).
  assert (Hv' : zlen v' = w * h) by (unfold v'; rewrite zlen_map; exact Hv).
  assert (Hd : (Qsum v' == Qsum v / c)%Q).
  { unfold v'. clear -HF Hc. induction v as [|x v IH]; cbn [map Qsum fold_right]; [field; exact Hc|]. fold (Qsum (map (fun x => fdiv F x c) v)). fold (Qsum v).
    rewrite IH. unfold fdiv. rewrite (HF _). field. exact Hc. }
  rewrite <- Hd. rewrite resample_chunks by assumption. rewrite (sum_between_all v'), Hv'.
  assert (Hzw : (0 < zq w)%Q) by (apply (proj2 (zq_lt 0 w)); exact Hw).
  pose proof (total_from F v' w (fun k => option_map (fun q => q / zq w)%Q (aggregate F Sum (chunk w k v'))) Hw) as T.
  assert (Hg : forall k, 0 <= k -> w * (k + 1) <= zlen v' -> exists q, option_map (fun q => q / zq w)%Q (aggregate F Sum (chunk w k v')) = Some q /\ (q * zq w == sum_between v' (w * k) (w * (k + 1)))%Q).
  { intros k Hk Hwk. rewrite <- (chunk_sum w k v' Hw Hk Hwk). eexists. split; [reflexivity|].
    rewrite (kahan_exact F HF) by reflexivity. field. lra. }
  specialize (T Hg HF (Z.to_nat h) s). rewrite !Z2Nat.id in T by lia. rewrite <- T by lia.
  unfold total. rewrite !map_map. generalize (arange 0 h). intros l. induction l as [|k l IH]; [cbn; ring|].
  cbn [map]. rewrite !Qsum_cons, IH. cbn [snd option_map aggregate]. field. lra.
Qed.

(** two hours of 1, 2, ..., 120 watts: hourly means 30.5 and 90.5, maxima 60 and 120 *)
Example C49_case :
  let v := map zq (arange 1 121) in
  resample exact_fm 60 Mean (arange 600 720) v = [(600, Some (61 # 2)%Q); (660, Some (181 # 2)%Q)] /\
  resample exact_fm 60 Max (arange 600 720) v = [(600, Some 60%Q); (660, Some 120%Q)] /\
  (exact exact_fm /\ (60 | 1440) /\ (60 | 600) /\ zlen v = 60 * 2).
Proof.
  split; [vm_compute; reflexivity|]. split; [vm_compute; reflexivity|]. split; [exact exact_exact_fm|].
  split; [exists 24; reflexivity|]. split; [exists 10; reflexivity|reflexivity].
Qed.

(** ** C50: load duration curve and peaks *)

Lemma insert_desc_perm x l : Permutation (x :: l) (insert_desc x l).
Proof.
  induction l as [|y l IH]; [reflexivity|]. cbn [insert_desc]. destruct (Qle_bool y x); [reflexivity|].
  etransitivity; [apply perm_swap|]. constructor. exact IH.
Qed.
Lemma sort_desc_perm l : Permutation l (sort_desc l).
Proof. induction l as [|x l IH]; [constructor|]. etransitivity; [constructor; exact IH|]. apply insert_desc_perm. Qed.
Definition at_least (x y : Q) : Prop := (y <= x)%Q.
Lemma insert_desc_sorted x l : StronglySorted at_least l -> StronglySorted at_least (insert_desc x l).
Proof.
  induction 1 as [|y l H IH Hy]; [repeat constructor|]. cbn [insert_desc]. destruct (Qle_bool y x) eqn:E.
  - apply Qle_bool_iff in E. constructor; [constructor; assumption|]. constructor; [exact E|].
    eapply Forall_impl; [|exact Hy]. unfold at_least. intros z Hz. lra.
  - assert (Hxy : (x < y)%Q) by (apply Qnot_le_lt; intros G; apply Qle_bool_iff in G; congruence).
    constructor; [exact IH|]. apply (Permutation_Forall (insert_desc_perm x l)). constructor; [unfold at_least; lra|exact Hy].
Qed.
Lemma sort_desc_sorted l : StronglySorted at_least (sort_desc l).
Proof. induction l as [|x l IH]; [constructor|]. apply insert_desc_sorted, IH. Qed.
Lemma combine_fst {A B} (l : list A) (r : list B) : List.length l = List.length r -> map fst (combine l r) = l.
Proof. revert r. induction l as [|x l IH]; intros [|y r] H; cbn in *; try discriminate; [reflexivity|]. f_equal. apply IH. congruence. Qed.

(** the curve has the points (1, y1), (2, y2), ..., y1 >= y2 >= ..., the values of the column *)
Theorem C50_load_duration_curve f column :
  match col_find (f_cols f) column with
  | None => load_duration_curve f column = Err KeyError
  | Some v => exists points, load_duration_curve f column = Ok points /\
      map fst points = arange 1 (zlen v + 1) /\ Permutation v (map snd points) /\
      (forall i j, 0 <= i <= j -> j < zlen v -> (value_at (map snd points) j <= value_at (map snd points) i)%Q)
  end.
Proof.
  unfold load_duration_curve, get_col. destruct (col_find (f_cols f) column) as [v|]; [|reflexivity].
  eexists. split; [reflexivity|].
  assert (Hl : List.length (arange 1 (zlen v + 1)) = List.length (sort_desc v)).
  { rewrite arange_length, <- (Permutation_length (sort_desc_perm v)). unfold zlen. lia. }
  rewrite combine_fst, combine_snd by exact Hl. split; [reflexivity|]. split; [apply sort_desc_perm|].
  pose proof (sort_desc_sorted v) as Hs. assert (Hz : zlen v = zlen (sort_desc v)) by (unfold zlen; rewrite <- (Permutation_length (sort_desc_perm v)); reflexivity).
  rewrite Hz. clear Hl Hz. revert Hs. generalize (sort_desc v). intros l Hs i j Hij Hj.
  unfold value_at. assert (Hn : (Z.to_nat i <= Z.to_nat j < List.length l)%nat) by (unfold zlen in Hj; lia).
  revert Hn. generalize (Z.to_nat i) (Z.to_nat j). clear -Hs. induction Hs as [|x l Hs IH Hx]; intros a b Hab; [cbn in Hab; lia|].
  destruct a as [|a], b as [|b]; cbn [nth].
  - apply Qle_refl.
  - rewrite Forall_forall in Hx. apply Hx, nth_In. cbn in Hab. lia.
  - lia.
  - apply IH. cbn in Hab. lia.
Qed.

Lemma combine_map_nth {A B} (da : A) (db : B) : forall l r, List.length l = List.length r ->
  combine l r = map (fun i => (nth (Z.to_nat i) l da, nth (Z.to_nat i) r db)) (arange 0 (zlen r)).
Proof.
  intros l r H. unfold arange, zlen. rewrite Z.sub_0_r, Nat2Z.id, map_map.
  assert (E : map (fun x : nat => (nth (Z.to_nat (0 + Z.of_nat x)) l da, nth (Z.to_nat (0 + Z.of_nat x)) r db)) (seq 0 (List.length r))
    = map (fun x => (nth x l da, nth x r db)) (seq 0 (List.length r))).
  { apply map_ext. intros a. rewrite Z.add_0_l, Nat2Z.id. reflexivity. }
  rewrite E. clear E. revert r H. induction l as [|x l IH]; intros [|y r] H; cbn [List.length] in *; try discriminate; [reflexivity|].
  cbn [combine seq map nth]. f_equal. rewrite <- seq_shift, map_map. apply IH. congruence.
Qed.
Lemma filter_map {A B} (f : A -> B) (p : B -> bool) l : filter p (map f l) = map f (filter (fun x => p (f x)) l).
Proof. induction l as [|x l IH]; [reflexivity|]. cbn. destruct (p (f x)); cbn; rewrite IH; reflexivity. Qed.
Lemma filter_increasing (p : Z -> bool) a b : forall i j, (i < j < List.length (filter p (arange a b)))%nat ->
  nth i (filter p (arange a b)) 0 < nth j (filter p (arange a b)) 0.
Proof.
  assert (H : StronglySorted Z.lt (arange a b)).
  { unfold arange. generalize (Z.to_nat (b - a)). intros n. generalize 0%nat. induction n as [|n IH]; intros k; cbn [seq map]; constructor; [apply IH|].
    apply Forall_forall. intros x Hx. apply in_map_iff in Hx. destruct Hx as (m & <- & Hm). apply in_seq in Hm. lia. }
  assert (H' : StronglySorted Z.lt (filter p (arange a b))).
  { clear -H. induction H as [|x l H IH Hx]; [constructor|]. cbn. destruct (p x); [|exact IH]. constructor; [exact IH|].
    apply Forall_forall. intros y Hy. apply filter_In in Hy. rewrite Forall_forall in Hx. apply Hx, Hy. }
  clear H. revert H'. generalize (filter p (arange a b)). intros l H. induction H as [|x l H IH Hx]; intros i j Hij; [cbn in Hij; lia|].
  destruct i as [|i], j as [|j]; cbn [nth List.length] in *; try lia.
  - rewrite Forall_forall in Hx. apply Hx, nth_In. lia.
  - apply IH. lia.
Qed.

(** for every column, the time steps at which it is maximal, all of them, in order *)
Theorem C50_peak f : Forall (fun nv => zlen (snd nv) = zlen (f_index f)) (f_cols f) ->
  Forall2 (fun nv np => fst np = fst nv /\ exists steps, maximal_minutes (snd nv) steps /\
      snd np = map (fun i => (nth (Z.to_nat i) (f_index f) 0, value_at (snd nv) i)) steps)
    (f_cols f) (plot_peak f).
Proof.
  intros H. unfold plot_peak. induction H as [|[n v] cols Hv H IH]; cbn [map]; constructor; [|exact IH]. clear IH H.
  cbn [fst snd] in *. split; [reflexivity|]. unfold peak_of_column.
  destruct v as [|x v'] eqn:Ev.
  - exists []. split; [|reflexivity]. split; [|cbn; lia]. intros t. cbn. split; [tauto|lia].
  - rewrite <- Ev in *. set (m := fold_left qmax v' x).
    assert (Hm : In m v /\ Forall (fun y => (y <= m)%Q) v) by (rewrite Ev; apply fold_max).
    exists (filter (fun i => Qeq_bool (value_at v i) m) (arange 0 (zlen v))). split.
    + split; [|apply filter_increasing]. intros t. rewrite filter_In, in_arange, Qeq_bool_iff. destruct Hm as [Hin Hall].
      rewrite Forall_forall in Hall.
      assert (Hval : forall i, 0 <= i < zlen v -> (value_at v i <= m)%Q).
      { intros i Hi. apply Hall. unfold value_at. apply nth_In. unfold zlen in Hi. lia. }
      split; intros [Ht E].
      * split; [exact Ht|]. intros t' Ht'. rewrite E. apply Hval, Ht'.
      * split; [exact Ht|]. apply Qle_antisym; [apply Hval, Ht|].
        apply (In_nth _ _ 0%Q) in Hin. destruct Hin as (i & Hi & Em). specialize (E (Z.of_nat i)).
        unfold value_at in E at 1. rewrite Nat2Z.id, Em in E. apply E. unfold zlen. lia.
    + rewrite (combine_map_nth 0 0%Q) by (unfold zlen in Hv; lia). rewrite filter_map. reflexivity.
Qed.

Example C50_case :
  load_duration_curve (Frame [0; 1; 2] [("a", [1%Q; 5%Q; 3%Q])]) "a" = Ok [(1, 5%Q); (2, 3%Q); (3, 1%Q)] /\
  plot_peak (Frame [10; 11; 12] [("a", [5%Q; 1%Q; 5%Q])]) = [("a", [(10, 5%Q); (12, 5%Q)])].
Proof. split; vm_compute; reflexivity. Qed.

(** ** C53: adding a column *)

Lemma col_set_find cols k v j : col_find (col_set cols k v) j = if String.eqb k j then Some v else col_find cols j.
Proof.
  induction cols as [|[n w] cols IH]; cbn [col_set col_find]; [destruct (String.eqb k j); reflexivity|].
  destruct (String.eqb_spec n k) as [->|Hn]; cbn [col_find].
  - destruct (String.eqb k j); reflexivity.
  - rewrite IH. destruct (String.eqb_spec n j) as [->|]; [|reflexivity].
    destruct (String.eqb_spec k j) as [->|]; [contradiction|reflexivity].
Qed.

(** a column of [var] replaces or joins the columns of the plot, every other column and the time
    steps stay; another index is rejected *)
Theorem C53_add_column f var : NoDup (map fst (f_cols var)) ->
  (f_index f <> f_index var -> add_column f var = Err ValueError) /\
  (f_index f = f_index var -> exists f', add_column f var = Ok f' /\ f_index f' = f_index f /\
     forall k, col_find (f_cols f') k = match col_find (f_cols var) k with Some v => Some v | None => col_find (f_cols f) k end).
Proof.
  intros Hd. unfold add_column, same_index. split; intros H.
  - destruct (list_eq_dec Z.eq_dec (f_index f) (f_index var)); [contradiction|reflexivity].
  - destruct (list_eq_dec Z.eq_dec (f_index f) (f_index var)); [|contradiction]. eexists. split; [reflexivity|].
    split; [reflexivity|]. cbn [f_cols]. intros k. revert Hd. generalize (f_cols f). induction (f_cols var) as [|[n v] cols IH]; intros c Hd; [reflexivity|].
    cbn [fold_left fst snd map col_find]. inversion Hd as [|? ? Hn Hd']; subst. rewrite IH by exact Hd'. rewrite col_set_find.
    destruct (String.eqb_spec n k) as [->|]; [|reflexivity].
    assert (E : col_find cols k = None); [|rewrite E; reflexivity].
    clear -Hn. induction cols as [|[m w] cols IH]; [reflexivity|]. cbn in *. destruct (String.eqb_spec m k); [tauto|]. apply IH. tauto.
Qed.
Example C53_case : exists f', add_column (Frame [0; 1] [("a", [1%Q; 2%Q])]) (Frame [0; 1] [("b", [3%Q; 4%Q])]) = Ok f' /\
  col_find (f_cols f') "b" = Some [3%Q; 4%Q] /\ col_find (f_cols f') "a" = Some [1%Q; 2%Q] /\
  add_column (Frame [0; 1] [("a", [1%Q; 2%Q])]) (Frame [0; 2] [("b", [3%Q; 4%Q])]) = Err ValueError.
Proof. eexists. split; [reflexivity|]. repeat split. Qed.

(** ** C54: deviation of a simulated from a measured column *)

Lemma map2_nth {A B C} (f : A -> B -> C) da db dc : forall x y i, (i < List.length x)%nat -> List.length x = List.length y ->
  nth i (map2 f x y) dc = f (nth i x da) (nth i y db).
Proof.
  induction x as [|a x IH]; intros [|b y] i Hi H; cbn in *; try lia. destruct i as [|i]; [reflexivity|]. apply IH; lia.
Qed.
Lemma map2_length {A B C} (f : A -> B -> C) : forall x y, List.length x = List.length y -> List.length (map2 f x y) = List.length x.
Proof. induction x as [|a x IH]; intros [|b y] H; cbn in *; try lia. rewrite IH; lia. Qed.

(** percentage by time step; 0 where both agree, also where both are 0; infinite only where the
    measured value is 0 and the simulated one is not *)
Theorem C54_error F f base validated a b :
  col_find (f_cols f) base = Some a -> col_find (f_cols f) validated = Some b -> zlen a = zlen b ->
  exists er, plot_error F f base validated = Ok er /\ zlen er = zlen a /\
  forall t, 0 <= t < zlen a ->
    let x := value_at a t in let y := value_at b t in let e := nth (Z.to_nat t) er (Fin 0) in
    ((x == y)%Q -> exists z, e = Fin z /\ (z == 0)%Q) /\
    (exact F -> ~ (y == 0)%Q -> exists z, e = Fin z /\ (z == (x - y) / y * 100)%Q) /\
    (exact F -> (y == 0)%Q -> (0 < x)%Q -> e = PosInf) /\ (exact F -> (y == 0)%Q -> (x < 0)%Q -> e = NegInf).
Proof.
  intros Ha Hb Hl. unfold plot_error, get_col. rewrite Ha, Hb. cbn [rbind]. eexists. split; [reflexivity|].
  assert (Hl' : List.length a = List.length b) by (unfold zlen in Hl; lia).
  split; [unfold zlen; rewrite map2_length by exact Hl'; reflexivity|]. intros t Ht. cbv zeta.
  rewrite (map2_nth _ 0%Q 0%Q) by (assumption || (unfold zlen in Ht; lia)).
  fold (value_at a t). fold (value_at b t). set (x := value_at a t). set (y := value_at b t). unfold error_at.
  split; [|split; [|split]].
  - intros E. assert (Es : (fsub F x y == 0)%Q).
    { unfold fsub. assert (G : (x - y == 0)%Q) by (rewrite E; ring). apply rnd_zero, G. }
    destruct (Qeq_bool y 0) eqn:Ey.
    + rewrite (proj2 (Qeq_bool_iff _ _) Es). eexists. split; [reflexivity|reflexivity].
    + eexists. split; [reflexivity|]. unfold fmul, fdiv.
      assert (G1 : (rnd F (fsub F x y / y) == 0)%Q).
      { apply rnd_zero. rewrite Es. unfold Qdiv. ring. }
      apply rnd_zero. rewrite G1. ring.
  - intros HF Hy. destruct (Qeq_bool y 0) eqn:Ey; [apply Qeq_bool_iff in Ey; contradiction|]. eexists. split; [reflexivity|].
    unfold fmul, fdiv, fsub. rewrite !(HF _). reflexivity.
  - intros HF Ey Hx. rewrite (proj2 (Qeq_bool_iff _ _) Ey).
    assert (Es : (fsub F x y == x)%Q) by (unfold fsub; rewrite (HF _), Ey; ring).
    destruct (Qeq_bool (fsub F x y) 0) eqn:E0; [apply Qeq_bool_iff in E0; lra|].
    destruct (Qle_bool 0 (fsub F x y)) eqn:E1; [reflexivity|]. assert (G : Qle_bool 0 (fsub F x y) = true) by (apply Qle_bool_iff; lra). congruence.
  - intros HF Ey Hx. rewrite (proj2 (Qeq_bool_iff _ _) Ey).
    assert (Es : (fsub F x y == x)%Q) by (unfold fsub; rewrite (HF _), Ey; ring).
    destruct (Qeq_bool (fsub F x y) 0) eqn:E0; [apply Qeq_bool_iff in E0; lra|].
    destruct (Qle_bool 0 (fsub F x y)) eqn:E1; [apply Qle_bool_iff in E1; lra|reflexivity].
Qed.
Example C54_case : plot_error exact_fm (Frame [0; 1; 2] [("sim", [0%Q; 6%Q; 1%Q]); ("real", [0%Q; 5%Q; 0%Q])]) "sim" "real"
  = Ok [Fin 0; Fin 20; PosInf].
Proof. vm_compute. reflexivity. Qed.

(** ** C55: reading back saved results *)

(** what to_excel wrote is read by from_file, with the time steps given if any *)
Theorem C55_xlsx_partial name f :
  from_file (name ++ ".xlsx") f None = Ok f /\
  forall ix, zlen ix = zlen (f_index f) -> from_file (name ++ ".xlsx") f (Some ix) = Ok (Frame ix (f_cols f)).
Proof.
  assert (E : forall s suf, ends_with (s ++ suf) suf = true).
  { intros s suf. unfold ends_with. assert (Hlen : String.length (s ++ suf) = (String.length s + String.length suf)%nat).
    { induction s as [|c s IH]; [reflexivity|]. cbn. f_equal. exact IH. }
    rewrite Hlen. apply andb_true_iff. split; [apply Nat.leb_le; lia|]. apply String.eqb_eq.
    replace (String.length s + String.length suf - String.length suf)%nat with (String.length s) by lia.
    clear. induction s as [|c s IH]; cbn; [|exact IH]. induction suf as [|c s IH]; [reflexivity|]. cbn. f_equal. exact IH. }
  assert (N : ends_with (name ++ ".xlsx") ".csv" = false).
  { unfold ends_with. assert (Hlen : String.length (name ++ ".xlsx") = (String.length name + 5)%nat).
    { induction name as [|c s IH]; [reflexivity|]. cbn. f_equal. exact IH. }
    rewrite Hlen. apply andb_false_iff. right. replace (String.length name + 5 - String.length ".csv")%nat with (String.length name + 1)%nat by (cbn; lia).
    clear. induction name as [|c s IH]; [reflexivity|]. cbn. exact IH. }
  unfold from_file. rewrite N, E. split; [reflexivity|]. intros ix H. rewrite H, Z.eqb_refl. reflexivity.
Qed.

(** a csv file cannot be read: pandas.read_csv knows no sheet_name *)
Theorem C55_csv_refuted : exists name f index, ends_with name ".csv" = true /\ from_file name f index = Err TypeError.
Proof. exists "profile.csv", (Frame [0; 1] [("a", [1%Q; 2%Q])]), None. split; reflexivity. Qed.

(** ** C56: sum and mean of the cases *)

Theorem C56_sum F f : exact F -> f_index (plot_sum F f) = f_index f /\
  exists s, col_find (f_cols (plot_sum F f)) "Sum" = Some s /\ zlen s = zlen (f_index f) /\
  forall t, 0 <= t < zlen (f_index f) -> (value_at s t == minute_sum t (map snd (f_cols f)))%Q.
Proof.
  intros HF. split; [reflexivity|]. eexists. split; [reflexivity|]. split; [rewrite zlen_map; unfold zlen; rewrite seq_length; reflexivity|].
  intros t Ht. unfold value_at. rewrite (nth_indep _ _ (fold_left (fadd F) (row_at f 0) 0%Q)) by (rewrite map_length, seq_length; unfold zlen in Ht; lia).
  rewrite (map_nth (fun i => fold_left (fadd F) (row_at f i) 0%Q)). rewrite seq_nth by (unfold zlen in Ht; lia). cbn [plus].
  rewrite fold_fadd_exact by exact HF. unfold minute_sum, row_at, value_at. rewrite map_map. ring.
Qed.
Theorem C56_mean F f : exact F -> f_cols f <> [] -> exists g m, plot_mean F f = Ok g /\ f_index g = f_index f /\
  col_find (f_cols g) "Mean" = Some m /\ zlen m = zlen (f_index f) /\
  forall t, 0 <= t < zlen (f_index f) -> (value_at m t * zq (zlen (f_cols f)) == minute_sum t (map snd (f_cols f)))%Q.
Proof.
  intros HF Hne. unfold plot_mean. destruct (f_cols f) as [|c cols] eqn:Ec; [contradiction|]. rewrite <- Ec.
  assert (Hn : (0 < zq (zlen (f_cols f)))%Q).
  { apply (proj2 (zq_lt 0 _)). rewrite Ec, zlen_cons. pose proof (zlen_nonneg cols). lia. }
  eexists _, _. split; [reflexivity|]. split; [reflexivity|]. split; [reflexivity|].
  split; [rewrite zlen_map; unfold zlen; rewrite seq_length; reflexivity|].
  set (n := zq (zlen (f_cols f))) in *.
  intros t Ht. unfold value_at. rewrite (nth_indep _ _ (fdiv F (fold_left (fadd F) (row_at f 0) 0%Q) n)) by (rewrite map_length, seq_length; unfold zlen in Ht; lia).
  rewrite (map_nth (fun i => fdiv F (fold_left (fadd F) (row_at f i) 0%Q) n)). rewrite seq_nth by (unfold zlen in Ht; lia). cbn [plus].
  unfold fdiv. rewrite (HF _). rewrite fold_fadd_exact by exact HF. unfold minute_sum, row_at, value_at. rewrite map_map. field. lra.
Qed.
Example C56_case : exists g, plot_mean exact_fm (Frame [0; 1] [("a", [1%Q; 2%Q]); ("b", [3%Q; 7%Q])]) = Ok g /\
  f_cols g = [("Mean", [2%Q; 9 # 2]%Q)] /\
  f_cols (plot_sum exact_fm (Frame [0; 1] [("a", [1%Q; 2%Q]); ("b", [3%Q; 7%Q])])) = [("Sum", [4%Q; 9%Q])].
Proof. eexists. split; [reflexivity|]. split; vm_compute; reflexivity. Qed.
