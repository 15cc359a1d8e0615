(** * PropsResample: C78, resampling at any resolution *)
From Coq Require Import Sorted.
From Verif Require Import Base Wp ListLemmas Tabular PostProcess Spec SpecUser ProofsUser PropsPost.
Open Scope list_scope.
Open Scope Z_scope.

(** ** Specification *)

(** times that never decrease; midnight before the first one *)
Definition in_order (ix : list Z) : Prop := StronglySorted Z.le ix.
Definition midnight (ix : list Z) : Z := match ix with [] => 0 | t :: _ => 1440 * (t / 1440) end.
(** the values of the times from [a] (included) to [b] (not included) *)
Definition values_between (ix : list Z) (vs : list Q) (a b : Z) : list Q :=
  map snd (filter (fun tv => (a <=? fst tv) && (fst tv <? b)) (combine ix vs)).
(** the value of a bin with values [l]; None is NaN *)
Definition bin_value (r : rule) (l : list Q) (x : option Q) : Prop :=
  match r, x with
  | Sum, Some q => (q == Qsum l)%Q
  | Sum, None => False
  | _, None => l = []
  | Mean, Some q => l <> [] /\ (q * zq (zlen l) == Qsum l)%Q
  | Max, Some q => In q l /\ forall y, In y l -> (y <= q)%Q
  | Min, Some q => In q l /\ forall y, In y l -> (q <= y)%Q
  end.

(** ** Proofs *)

Lemma aggregate_value F r l : exact F -> bin_value r l (aggregate F r l).
Proof.
  intros HF. destruct r; cbn [aggregate bin_value]; destruct l as [|x l]; try reflexivity.
  - split; [discriminate|]. unfold fdiv. rewrite (HF _), (kahan_exact F HF) by reflexivity. field.
    assert (0 < zq (zlen (x :: l)))%Q by (apply (proj2 (zq_lt 0 _)); rewrite zlen_cons; unfold zlen; lia). lra.
  - destruct (fold_max l x) as [A B]. rewrite Forall_forall in B. auto.
  - destruct (fold_min l x) as [A B]. rewrite Forall_forall in B. auto.
  - rewrite (kahan_exact F HF) by reflexivity. ring.
Qed.

Lemma in_order_head t ix x : in_order (t :: ix) -> In x (t :: ix) -> t <= x.
Proof.
  intros H K. apply StronglySorted_inv in H. destruct H as [_ H]. rewrite Forall_forall in H. destruct K as [->|K]; [lia|auto].
Qed.
Lemma in_order_last : forall ix t x, in_order (t :: ix) -> In x (t :: ix) -> x <= last ix t.
Proof.
  induction ix as [|y ix IH]; intros t x H K.
  - destruct K as [->|[]]. cbn. lia.
  - apply StronglySorted_inv in H. destruct H as [H1 H2].
    assert (E : last (y :: ix) t = last ix y) by (clear; revert y; induction ix as [|z ix IH]; intros y; [reflexivity|]; cbn in *; destruct ix; [reflexivity|apply IH]).
    rewrite E. destruct K as [->|K]; [|exact (IH y x H1 K)].
    assert (x <= y) by (rewrite Forall_forall in H2; apply H2; left; reflexivity). assert (y <= last ix y) by (apply IH; [exact H1|left; reflexivity]). lia.
Qed.

(** One line per bin: the first bin holds the first time, the last bin the last one, labels are [w] apart and count from the
    midnight before the first time; a line has the values of exactly the times from its label to the next. *)
Theorem C78_bins F w r ix vs : exact F -> 0 < w -> in_order ix -> ix <> [] ->
  exists k n, 0 <= k /\ 0 < n /\
    (forall t, In t ix -> midnight ix + w * k <= t < midnight ix + w * (k + n)) /\
    (exists t, In t ix /\ t < midnight ix + w * (k + 1)) /\ (exists t, In t ix /\ midnight ix + w * (k + n - 1) <= t) /\
    List.length (resample F w r ix vs) = Z.to_nat n /\
    forall i, 0 <= i < n -> let label := midnight ix + w * (k + i) in
      exists x, nth_error (resample F w r ix vs) (Z.to_nat i) = Some (label, x) /\ bin_value r (values_between ix vs label (label + w)) x.
Proof.
  intros HF Hw O N. destruct ix as [|t0 rest]; [contradiction|]. set (o := midnight (t0 :: rest)). cbn [midnight] in o.
  set (tl := last rest t0). exists (bin_of o w t0), (bin_of o w tl + 1 - bin_of o w t0).
  assert (B0 : o <= t0 < o + 1440) by (unfold o; pose proof (Z.div_mod t0 1440); pose proof (Z.mod_pos_bound t0 1440); lia).
  assert (L0 : t0 <= tl) by (apply in_order_last; [exact O|left; reflexivity]).
  assert (Bb : forall t, o + w * bin_of o w t <= t < o + w * (bin_of o w t + 1)).
  { intros t. unfold bin_of. pose proof (Z.div_mod (t - o) w ltac:(lia)). pose proof (Z.mod_pos_bound (t - o) w Hw). lia. }
  assert (Mb : forall t u, t <= u -> bin_of o w t <= bin_of o w u) by (intros t u H; unfold bin_of; apply Z.div_le_mono; lia).
  pose proof (Bb t0) as Bt0. pose proof (Bb tl) as Btl. pose proof (Mb _ _ L0) as M0.
  split; [unfold bin_of; apply Z.div_pos; lia|]. split; [lia|]. split.
  { intros t T. pose proof (in_order_head _ _ _ O T) as T1. pose proof (in_order_last _ _ _ O T) as T2. fold tl in T2.
    pose proof (Mb _ _ T1). pose proof (Mb _ _ T2). pose proof (Bb t). nia. }
  split; [exists t0; split; [left; reflexivity|lia]|]. split.
  { exists tl. split; [|replace (bin_of o w t0 + (bin_of o w tl + 1 - bin_of o w t0) - 1) with (bin_of o w tl) by lia; lia].
    unfold tl. clear. revert t0. induction rest as [|y rest IH]; intros t0; [left; reflexivity|]. right.
    assert (E : last (y :: rest) t0 = last rest y) by (clear; revert y; induction rest as [|z ix IH]; intros y; [reflexivity|]; cbn in *; destruct ix; [reflexivity|apply IH]).
    rewrite E. apply IH. }
  unfold resample. cbv zeta. fold o. fold tl. split; [rewrite map_length, arange_length; lia|]. intros i Hi.
  set (label := o + w * (bin_of o w t0 + i)).
  rewrite nth_error_map, (nth_error_nth' _ 0) by (rewrite arange_length; lia). rewrite nth_arange by lia. rewrite Z2Nat.id by lia. cbn [option_map].
  eexists. split; [reflexivity|].
  replace (values_between (t0 :: rest) vs label (label + w)) with
    (map snd (filter (fun tv => bin_of o w (fst tv) =? bin_of o w t0 + i) (combine (t0 :: rest) vs))); [apply aggregate_value; exact HF|].
  unfold values_between. f_equal. apply filter_ext. intros [t v]. cbn [fst]. pose proof (Bb t) as Bt.
  destruct (Z.eqb_spec (bin_of o w t) (bin_of o w t0 + i)) as [E|E].
  - symmetry. apply andb_true_iff. unfold label. rewrite <- E. split; [apply Z.leb_le|apply Z.ltb_lt]; lia.
  - symmetry. apply andb_false_iff. unfold label. assert (bin_of o w t < bin_of o w t0 + i \/ bin_of o w t0 + i < bin_of o w t) as [G|G] by lia.
    + left. apply Z.leb_gt. nia.
    + right. apply Z.ltb_ge. nia.
Qed.

(** *** Resampling twice *)

Definition filled (x : option Q) : Q := match x with Some q => q | None => 0%Q end.

Lemma Qsum_app x y : (Qsum (x ++ y) == Qsum x + Qsum y)%Q.
Proof. induction x as [|a x IHx]; cbn; [unfold Qsum; ring|]. fold (Qsum (x ++ y)). fold (Qsum x). rewrite IHx. ring. Qed.
Lemma Qsum_map_eq {A} (f g : A -> Q) l : (forall x, In x l -> (f x == g x)%Q) -> (Qsum (map f l) == Qsum (map g l))%Q.
Proof.
  induction l as [|x l IH]; intros H; [reflexivity|]. cbn [map]. rewrite !Qsum_cons, IH by (intros y K; apply H; right; exact K).
  rewrite (H x) by (left; reflexivity). reflexivity.
Qed.
Lemma Qsum_zero {A} (f : A -> Q) l : (forall x, In x l -> (f x == 0)%Q) -> (Qsum (map f l) == 0)%Q.
Proof. intros H. rewrite (Qsum_map_eq f (fun _ => 0%Q) l H). clear. induction l as [|x l IH]; [reflexivity|]. cbn [map]. rewrite Qsum_cons, IH. ring. Qed.

(** summing groups of groups *)
Lemma group_sums (b : Z -> Z) (p : Z -> bool) l : NoDup l -> forall tvs : list (Z * Q), (forall tv, In tv tvs -> In (b (fst tv)) l) ->
  (Qsum (map (fun k => Qsum (map snd (filter (fun tv => b (fst tv) =? k) tvs))) (filter p l)) == Qsum (map snd (filter (fun tv => p (b (fst tv))) tvs)))%Q.
Proof.
  intros N. induction tvs as [|[t v] tvs IH]; intros H.
  - cbn [filter map]. apply Qsum_zero. reflexivity.
  - assert (E : (Qsum (map (fun k => Qsum (map snd (filter (fun tv => b (fst tv) =? k) ((t, v) :: tvs)))) (filter p l)) ==
        (if p (b t) then v else 0) + Qsum (map (fun k => Qsum (map snd (filter (fun tv => b (fst tv) =? k) tvs))) (filter p l)))%Q).
    { assert (Hb : In (b t) l) by (apply (H (t, v)); left; reflexivity). clear IH H.
      induction l as [|k l IHl]; [destruct Hb|]. inversion N as [|? ? N1 N2]; subst. cbn [filter].
      destruct (Z.eq_dec (b t) k) as [E|E].
      - assert (Z0 : (Qsum (map (fun k0 => Qsum (map snd (filter (fun tv => b (fst tv) =? k0) ((t, v) :: tvs)))) (filter p l)) ==
          Qsum (map (fun k0 => Qsum (map snd (filter (fun tv => b (fst tv) =? k0) tvs))) (filter p l)))%Q).
        { apply Qsum_map_eq. intros k0 K. apply filter_In in K. destruct K as [K _]. cbn [filter fst]. destruct (Z.eqb_spec (b t) k0) as [X|X]; [|reflexivity].
          exfalso. apply N1. congruence. }
        rewrite E. destruct (p k); cbn [map]; [rewrite !Qsum_cons|]; rewrite Z0; [|ring]. cbn [filter fst]. rewrite E, Z.eqb_refl. cbn [map snd]. rewrite Qsum_cons. ring.
      - destruct Hb as [Hb|Hb]; [congruence|]. specialize (IHl N2 Hb). destruct (p k); cbn [map]; [rewrite !Qsum_cons|]; rewrite IHl; [|reflexivity].
        cbn [filter fst]. destruct (Z.eqb_spec (b t) k) as [X|X]; [contradiction|]. ring. }
    rewrite E, IH by (intros tv K; apply H; right; exact K). cbn [filter fst]. destruct (p (b t)); cbn [map snd]; [rewrite Qsum_cons|]; ring.
Qed.

Lemma arange_nodup a b : NoDup (arange a b).
Proof. unfold arange. apply FinFun.Injective_map_NoDup; [intros x y H; lia|apply seq_NoDup]. Qed.

(** Sums per [w] minutes, summed per [m] of them, are the sums per [w * m] minutes; the conversions multiply. *)
Theorem C78_sums_twice F w m c1 c2 ix vs : exact F -> 0 < w -> 0 < m -> in_order ix -> ~ (c1 == 0)%Q -> ~ (c2 == 0)%Q ->
  let once := plot_resample F w Sum c1 ix vs in
  let twice := plot_resample F (w * m) Sum c2 (map fst once) (map (fun x => filled (snd x)) once) in
  let direct := plot_resample F (w * m) Sum (c1 * c2) ix vs in
  map fst twice = map fst direct /\ Forall2 (fun x y => exists p q, snd x = Some p /\ snd y = Some q /\ (p == q)%Q) twice direct.
Proof.
  intros HF Hw Hm O H1 H2. cbv zeta. destruct ix as [|t0 rest]; [split; [reflexivity|constructor]|].
  set (o := 1440 * (t0 / 1440)). set (tl := last rest t0).
  assert (B0 : o <= t0 < o + 1440) by (unfold o; pose proof (Z.div_mod t0 1440); pose proof (Z.mod_pos_bound t0 1440); lia).
  assert (L0 : t0 <= tl) by (apply in_order_last; [exact O|left; reflexivity]).
  set (b0 := bin_of o w t0). set (bl := bin_of o w tl).
  assert (M0 : b0 <= bl) by (unfold b0, bl, bin_of; apply Z.div_le_mono; lia).
  assert (P0 : 0 <= b0) by (unfold b0, bin_of; apply Z.div_pos; lia).
  assert (Q0 : o + w * b0 <= t0) by (unfold b0, bin_of; pose proof (Z.mul_div_le (t0 - o) w Hw); lia).
  unfold plot_resample. set (us := map (fun x => fdiv F x c1) vs).
  set (S1 := fun b => kahan F 0 0 (map snd (filter (fun tv => bin_of o w (fst tv) =? b) (combine (t0 :: rest) us)))).
  assert (E1 : resample F w Sum (t0 :: rest) us = map (fun b => (o + w * b, Some (S1 b))) (arange b0 (bl + 1))).
  { unfold resample. cbv zeta. fold o tl b0 bl. apply map_ext. intros b. reflexivity. }
  rewrite E1, !map_map. cbn [fst snd filled].
  set (ix1 := map (fun x => o + w * x) (arange b0 (bl + 1))). set (vs1 := map (fun x => fdiv F (S1 x) c2) (arange b0 (bl + 1))).
  assert (Ed : forall t, bin_of o (w * m) t = bin_of o w t / m) by (intros t; unfold bin_of; rewrite Z.div_div by lia; reflexivity).
  assert (Eb : forall b, bin_of o w (o + w * b) = b) by (intros b; unfold bin_of; replace (o + w * b - o) with (b * w) by ring; apply Z.div_mul; lia).
  set (B1 := bin_of o (w * m) t0). set (Bl := bin_of o (w * m) tl).
  assert (Dir : resample F (w * m) Sum (t0 :: rest) (map (fun x => fdiv F x (c1 * c2)) vs) =
     map (fun B => (o + w * m * B, Some (kahan F 0 0 (map snd (filter (fun tv => bin_of o (w * m) (fst tv) =? B) (combine (t0 :: rest) (map (fun x => fdiv F x (c1 * c2)) vs))))))) (arange B1 (Bl + 1))).
  { unfold resample. cbv zeta. fold o tl B1 Bl. apply map_ext. intros B. reflexivity. }
  assert (Twi : resample F (w * m) Sum ix1 vs1 =
     map (fun B => (o + w * m * B, Some (kahan F 0 0 (map snd (filter (fun tv => bin_of o (w * m) (fst tv) =? B) (combine ix1 vs1)))))) (arange B1 (Bl + 1))).
  { unfold ix1 at 1. rewrite (arange_cons b0) by lia. cbn [map]. unfold resample. cbv zeta.
    assert (X0 : 1440 * ((o + w * b0) / 1440) = o).
    { unfold o at 2. f_equal. assert (0 <= w * b0) by nia. assert (X : 0 <= o + w * b0 - o < 1440) by lia. unfold o in *.
      replace (1440 * (t0 / 1440) + w * b0) with (w * b0 + (t0 / 1440) * 1440) by ring. rewrite Z.div_add by lia. rewrite Z.div_small by lia. lia. }
    rewrite X0. assert (X1 : bin_of o (w * m) (o + w * b0) = B1) by (unfold B1; rewrite !Ed, Eb; reflexivity). rewrite X1.
    assert (X2 : last (map (fun x => o + w * x) (arange (b0 + 1) (bl + 1))) (o + w * b0) = o + w * bl).
    { destruct (Z.eq_dec b0 bl) as [<-|NE]; [rewrite arange_nil by lia; reflexivity|].
      rewrite (arange_app (b0 + 1) bl) by lia. rewrite map_app, (arange_cons bl), (arange_nil (bl + 1)) by lia. cbn [map]. apply last_last. }
    rewrite X2. assert (X3 : bin_of o (w * m) (o + w * bl) = Bl) by (unfold Bl; rewrite !Ed, Eb; reflexivity). rewrite X3.
    apply map_ext. intros B. do 2 f_equal. cbn [aggregate]. unfold ix1. rewrite (arange_cons b0 (bl + 1)) by lia. reflexivity. }
  rewrite Dir, Twi. split; [rewrite !map_map; reflexivity|].
  assert (Val : forall B, (kahan F 0 0 (map snd (filter (fun tv => bin_of o (w * m) (fst tv) =? B) (combine ix1 vs1))) ==
      kahan F 0 0 (map snd (filter (fun tv => bin_of o (w * m) (fst tv) =? B) (combine (t0 :: rest) (map (fun x => fdiv F x (c1 * c2)) vs)))))%Q).
  { intros B. rewrite !(kahan_exact F HF) by reflexivity.
    assert (C1 : combine ix1 vs1 = map (fun x => (o + w * x, fdiv F (S1 x) c2)) (arange b0 (bl + 1))).
    { unfold ix1, vs1. clear. induction (arange b0 (bl + 1)) as [|x l IH]; [reflexivity|]. cbn [map combine]. rewrite IH. reflexivity. }
    rewrite C1.
    assert (C2 : filter (fun tv => bin_of o (w * m) (fst tv) =? B) (map (fun x => (o + w * x, fdiv F (S1 x) c2)) (arange b0 (bl + 1))) =
      map (fun x => (o + w * x, fdiv F (S1 x) c2)) (filter (fun k => k / m =? B) (arange b0 (bl + 1)))).
    { generalize (arange b0 (bl + 1)) as l0. induction l0 as [|x l IH]; [reflexivity|]. cbn [map filter fst]. rewrite Ed, Eb. destruct (x / m =? B); cbn [map]; rewrite IH; reflexivity. }
    rewrite C2, map_map. cbn [snd].
    assert (C3 : (Qsum (map (fun x => fdiv F (S1 x) c2) (filter (fun k => k / m =? B) (arange b0 (bl + 1)))) ==
       Qsum (map S1 (filter (fun k => k / m =? B) (arange b0 (bl + 1)))) / c2)%Q).
    { generalize (filter (fun k => k / m =? B) (arange b0 (bl + 1))) as l. induction l as [|x l IH]; [cbn; field; exact H2|]. cbn [map]. rewrite !Qsum_cons, IH. unfold fdiv. rewrite (HF _). field. exact H2. }
    rewrite C3.
    assert (C4 : (Qsum (map S1 (filter (fun k => k / m =? B) (arange b0 (bl + 1)))) ==
       Qsum (map (fun k => Qsum (map snd (filter (fun tv => bin_of o w (fst tv) =? k) (combine (t0 :: rest) us)))) (filter (fun k => k / m =? B) (arange b0 (bl + 1)))))%Q).
    { apply Qsum_map_eq. intros x _. unfold S1. rewrite (kahan_exact F HF) by reflexivity. ring. }
    rewrite C4, (group_sums (bin_of o w) (fun k => k / m =? B) (arange b0 (bl + 1)) (arange_nodup _ _)).
    2: { intros [t v] K. cbn [fst]. apply in_combine_l in K. apply in_arange. pose proof (in_order_head _ _ _ O K) as T1. pose proof (in_order_last _ _ _ O K) as T2. fold tl in T2.
         assert (bin_of o w t0 <= bin_of o w t) by (unfold bin_of; apply Z.div_le_mono; lia). assert (bin_of o w t <= bin_of o w tl) by (unfold bin_of; apply Z.div_le_mono; lia). unfold b0, bl. lia. }
    rewrite !Qplus_0_l. unfold us. generalize (t0 :: rest) as ix. clear -HF H1 H2 Ed.
    induction vs as [|v vs IH]; intros ix; destruct ix as [|t ix]; cbn [map combine filter]; try (cbn; field; exact H2).
    cbn [fst]. rewrite Ed. specialize (IH ix). destruct (bin_of o w t / m =? B); cbn [map snd]; [|exact IH].
    rewrite !Qsum_cons, <- IH. unfold fdiv. rewrite !(HF _). field. split; assumption. }
  clear Dir Twi. induction (arange B1 (Bl + 1)) as [|B l IH]; [constructor|]. cbn [map]. constructor; [|exact IH].
  cbn [snd]. eexists _, _. split; [reflexivity|]. split; [reflexivity|]. apply Val.
Qed.

(** The sums of all bins add up to the sum of the values, divided by [conversion]. *)
Theorem C78_total F w c ix vs : exact F -> 0 < w -> in_order ix -> List.length vs = List.length ix -> ~ (c == 0)%Q ->
  (Qsum (map (fun x => filled (snd x)) (plot_resample F w Sum c ix vs)) == Qsum vs / c)%Q.
Proof.
  intros HF Hw O L Hc. destruct ix as [|t0 rest]; [destruct vs; [cbn; field; exact Hc|discriminate]|].
  set (o := 1440 * (t0 / 1440)). set (tl := last rest t0). unfold plot_resample. set (us := map (fun x => fdiv F x c) vs).
  unfold resample. cbv zeta. fold o tl. rewrite map_map. cbn [snd aggregate filled].
  rewrite (Qsum_map_eq _ (fun k => Qsum (map snd (filter (fun tv => bin_of o w (fst tv) =? k) (combine (t0 :: rest) us))))).
  2: { intros x _. rewrite (kahan_exact F HF) by reflexivity. ring. }
  set (l := arange (bin_of o w t0) (bin_of o w tl + 1)).
  assert (A : filter (fun _ => true) l = l) by (clear; induction l as [|x l IH]; [reflexivity|]; cbn; rewrite IH; reflexivity).
  rewrite <- A, (group_sums (bin_of o w) (fun _ => true) l (arange_nodup _ _)).
  - assert (A2 : forall tvs : list (Z * Q), filter (fun _ => true) tvs = tvs) by (clear; induction tvs as [|x l IH]; [reflexivity|]; cbn; rewrite IH; reflexivity).
    rewrite A2, combine_snd by (unfold us; rewrite map_length, L; reflexivity). unfold us. clear -HF Hc.
    induction vs as [|x vs IH]; cbn [map]; [cbn; field; exact Hc|]. rewrite !Qsum_cons, IH. unfold fdiv. rewrite (HF _). field. exact Hc.
  - intros [t v] K. cbn [fst]. apply in_combine_l in K. apply in_arange. pose proof (in_order_head _ _ _ O K) as T1. pose proof (in_order_last _ _ _ O K) as T2. fold tl in T2.
    assert (bin_of o w t0 <= bin_of o w t) by (unfold bin_of; apply Z.div_le_mono; lia). assert (bin_of o w t <= bin_of o w tl) by (unfold bin_of; apply Z.div_le_mono; lia). lia.
Qed.

(** 7 minutes from 00:05, with a gap: bins count from midnight; a bin without time steps has no mean (NaN) and the sum 0. *)
Example C78_case :
  let ix := [5; 6; 13; 25; 26] in let vs := [1%Q; 2%Q; 3%Q; 4%Q; 5%Q] in
  in_order ix /\ exact exact_fm /\
  map fst (resample exact_fm 7 Max ix vs) = [0; 7; 14; 21] /\
  map snd (resample exact_fm 7 Max ix vs) = [Some 2%Q; Some 3%Q; None; Some 5%Q] /\
  map fst (plot_resample exact_fm 14 Sum 2 (map fst (plot_resample exact_fm 7 Sum 1 ix vs)) (map (fun x => filled (snd x)) (plot_resample exact_fm 7 Sum 1 ix vs))) = [0; 14].
Proof.
  split; [repeat constructor; lia|]. split; [exact exact_exact_fm|]. vm_compute. repeat split.
Qed.
