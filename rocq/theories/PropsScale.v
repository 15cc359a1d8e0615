(** * PropsScale: another unit of power (C81), other names (C82), higher powers (C83), with the same random numbers *)
From Verif Require ProofsUser SpecUser.
From Verif Require Import Base Wp Tape Utils ListLemmas Appliance User Sim UseCase Spec SpecDay SpecUser SpecUseCase ProofsEq ProofsUtils ProofsUseCase PropsUseCase PropsInit PropsPeak
  PropsPost PropsTotal PropsPopulation PropsHeap PropsSession F64 PropsEnvelope PropsCoincidence PropsStandalone SimScale.
From Coq Require Import ZifyBool ZifyNat Lqa.
Open Scope list_scope.
Open Scope Z_scope.

(** ** Specification *)

(** every power of the appliance (also those of its duty cycles) times c *)
Definition scale_cycle (c : Q) (x : cycle) : cycle := Cycle (c * cp1 x) (ct1 x) (c * cp2 x) (ct2 x) (cr x) (cwa x) (cwb x).
Definition scale_app (c : Q) (a : appliance) : appliance :=
  App (par a) (map (Qmult c) (power a)) (constant_power a) (win a) (scale_cycle c (cyc1 a)) (scale_cycle c (cyc2 a)) (scale_cycle c (cyc3 a)) (st a).
Definition scale_user (c : Q) (u : user) : user := set_apps u (map (scale_app c) (app_list u)).

(** no day was simulated yet: the daily profile is the one windows() wrote, the rest is as the constructor left it *)
Definition untouched (F : fm) (a : appliance) : Prop :=
  not_simulated F a /\ st a = set_daily_use default_dyn (daily_use (st a)).

(** the appliances of all members of all users *)
Definition all_units (us : list user) : Z := fold_right Z.add 0 (map (fun u => Z.max 0 (num_users u) * zlen (app_list u)) us).

(** the same run of the two programs: the same exception, or results related by R; the generator is left in the same state *)
Definition same_run {A} (R : A -> A -> Prop) (p q : prog A) : Prop :=
  forall (G : generator) s, snd (run G p s) = snd (run G q s) /\
    match fst (run G p s), fst (run G q s) with Ok a, Ok b => R a b | Err e, Err e' => e = e' | _, _ => False end.

(** day by day and minute by minute *)
Definition each_minute (R : Q -> Q -> Prop) (rows rows' : list (list Q)) : Prop := Forall2 (Forall2 R) rows rows'.

Lemma units_spec us : Z.of_nat (units us) = all_units us.
Proof.
  unfold units, all_units. induction us as [|u us IH]; [reflexivity|]. cbn [map list_sum fold_right]. rewrite Nat2Z.inj_add, Nat2Z.inj_mul, <- IH.
  unfold zlen. rewrite ZifyInst.of_nat_to_nat_eq. reflexivity.
Qed.

Lemma sim_same_run {A} (R : A -> A -> Prop) p q : psimr R p q -> same_run R p q.
Proof. intros H G s. exact (psimr_run R p q G s H). Qed.

(** what windows() wrote: zeros and masks *)
Lemma untouched_values F a : not_simulated F a -> Forall2 (fun x y => x = y /\ (x = 0%Q \/ x = mask_value F)) (daily_use (st a)) (daily_use (st a)).
Proof.
  intros H. unfold not_simulated in H.
  pose proof (fills_rel (fun _ x y => x = y /\ (x = 0%Q \/ x = mask_value F)) (use_windows a) (mask_value F) (mask_value F) (conj eq_refl (or_intror eq_refl))
    (zeros day_minutes) (zeros day_minutes)) as G. rewrite H in G. apply G. apply f2_repeat. auto.
Qed.

(** ** C81: scaling *)

Section scale.
Variables (F : fm) (c : Q).
Hypotheses (HF : exact F) (Hc : (0 < c)%Q).
Let m := mask_value F.
Definition SSc (x y : Q) : Prop := (y == c * x)%Q.
Definition Mc (n : nat) (x y : Q) : Prop := exists k, 0 <= k <= Z.of_nat n /\ (y - zq k * m == c * (x - zq k * m))%Q.

Lemma fmul_ex x y : (fmul F x y == x * y)%Q. Proof. apply HF. Qed.
Lemma fadd_ex x y : (fadd F x y == x + y)%Q. Proof. apply HF. Qed.
Lemma fdiv_ex x y : (fdiv F x y == x / y)%Q. Proof. apply HF. Qed.

Lemma SSc_mul x y v v' : (v == v')%Q -> SSc x y -> SSc (fmul F x v) (fmul F y v').
Proof. unfold SSc. intros Hv H. rewrite !fmul_ex, Hv, H. ring. Qed.
Lemma SSc_mul_l x y v : SSc x y -> SSc (fmul F v x) (fmul F v y).
Proof. unfold SSc. intros H. rewrite !fmul_ex, H. ring. Qed.
Lemma Mc_zero x y : (y == c * x)%Q -> Mc 0 x y.
Proof. intros H. exists 0. split; [lia|]. unfold zq. change (inject_Z 0) with 0%Q. rewrite H. ring. Qed.
Lemma Mc_mask : Mc 1 m m.
Proof. exists 1. split; [lia|]. unfold zq. change (inject_Z 1) with 1%Q. ring. Qed.
Lemma Mc_more n k x y : (n <= k)%nat -> Mc n x y -> Mc k x y.
Proof. intros Hnk (i & Hi & E). exists i. split; [lia|exact E]. Qed.
Lemma Mc_add n k x y x' y' : Mc n x y -> Mc k x' y' -> Mc (n + k) (fadd F x x') (fadd F y y').
Proof.
  intros (i & Hi & E) (j & Hj & E'). exists (i + j). split; [lia|]. rewrite !fadd_ex. unfold zq in *. rewrite inject_Z_plus.
  setoid_replace (y + y' - (inject_Z i + inject_Z j) * m)%Q with ((y - inject_Z i * m) + (y' - inject_Z j * m))%Q by ring. rewrite E, E'. ring.
Qed.

(** the theoretical peak *)
Lemma np_mean_scale l : (np_mean F (map (Qmult c) l) == c * np_mean F l)%Q.
Proof.
  unfold np_mean. rewrite !fdiv_ex, !(ProofsUser.np_sum_exact F _ HF). unfold zlen. rewrite map_length.
  assert (E : (SpecUser.Qsum (map (Qmult c) l) == c * SpecUser.Qsum l)%Q).
  { clear. induction l as [|z l IH]; [cbn; ring|]. cbn [map SpecUser.Qsum fold_right]. fold (SpecUser.Qsum l) (SpecUser.Qsum (map (Qmult c) l)). rewrite IH. ring. }
  rewrite E. unfold Qdiv. ring.
Qed.

Lemma value_map_mul l (f : Q -> Q) t : (f 0 == 0)%Q -> (value_at (map f l) t == f (value_at l t))%Q.
Proof.
  intros H. unfold value_at. destruct (Nat.lt_ge_cases (Z.to_nat t) (List.length l)) as [L|L].
  - rewrite (nth_indep _ 0%Q (f 0%Q)) by (rewrite map_length; exact L). rewrite map_nth. reflexivity.
  - rewrite !nth_overflow by (rewrite ?map_length; exact L). symmetry. exact H.
Qed.

Lemma max_scale a t : (value_at (app_maximum_profile F (scale_app c a)) t == c * value_at (app_maximum_profile F a) t)%Q.
Proof.
  unfold app_maximum_profile. rewrite !value_map_mul by (rewrite !fmul_ex; ring). cbn [scale_app par power st]. rewrite !fmul_ex, np_mean_scale. ring.
Qed.

Lemma most_scale us t : (most F (map (scale_user c) us) t == c * most F us t)%Q.
Proof.
  induction us as [|u us IH]; [unfold most; cbn; ring|]. cbn [map]. rewrite !most_cons, IH. cbn [scale_user set_apps app_list num_users].
  assert (E : (minute_sum t (map (app_maximum_profile F) (map (scale_app c) (app_list u))) == c * minute_sum t (map (app_maximum_profile F) (app_list u)))%Q).
  { unfold minute_sum. induction (app_list u) as [|a l IHl]; [cbn; ring|]. cbn [map]. rewrite !Qsum_cons, IHl, max_scale. ring. }
  rewrite E. ring.
Qed.

Definition PKc (us us' : list user) : Prop := us' = map (scale_user c) us /\ all_apps whole_day us.
Lemma scaled_whole us : all_apps whole_day us -> all_apps whole_day (map (scale_user c) us).
Proof.
  unfold all_apps. intros H. apply Forall_map. eapply Forall_impl; [|exact H]. intros u Hu. cbn. apply Forall_map. exact Hu.
Qed.
Lemma PKc_peak x us' : PKc (users x) us' -> peak_window F (reuser us' x) = peak_window F x.
Proof.
  intros (-> & Ha). set (x' := reuser _ x). assert (Ha' : all_apps whole_day (users x')) by exact (scaled_whole _ Ha).
  pose proof (peak_window_maximal F x) as [M _]. pose proof (peak_window_maximal F x') as [M' _].
  unfold peak_window in *. cbv zeta in *. rewrite (total_len F x Ha) in *. rewrite (total_len F x' Ha') in *.
  apply filter_ext_in. intros t Ht. specialize (M t). specialize (M' t). rewrite filter_In in M, M'. rewrite in_arange in M, M', Ht.
  assert (Hv : forall s, 0 <= s < 1440 -> (value_at (total_max_profile F x') s == c * value_at (total_max_profile F x) s)%Q).
  { intros s Hs. rewrite (total_most F x' s HF Ha' Hs), (total_most F x s HF Ha Hs). apply most_scale. }
  assert (Hiff : (forall s, 0 <= s < 1440 -> (value_at (total_max_profile F x') s <= value_at (total_max_profile F x') t)%Q) <->
                 (forall s, 0 <= s < 1440 -> (value_at (total_max_profile F x) s <= value_at (total_max_profile F x) t)%Q)).
  { split; intros H s Hs; specialize (H s Hs); [rewrite !Hv in H by assumption|rewrite !Hv by assumption];
      [apply Qmult_le_l in H; assumption|apply Qmult_le_l; assumption]. }
  apply eq_true_iff_eq. tauto.
Qed.
Lemma map_rep {A B} (f : A -> B) x n : map f (repeat x n) = repeat (f x) n.
Proof. induction n as [|n IH]; [reflexivity|]. cbn [repeat map]. rewrite IH. reflexivity. Qed.
Lemma grown_scale n a : grown n (scale_app c a) = scale_app c (grown n a).
Proof.
  unfold grown. cbn [scale_app power]. unfold zlen. rewrite map_length. destruct (_ <? n); [|reflexivity]. destruct (power a) as [|p l]; [reflexivity|].
  unfold scale_app, set_power. cbn. rewrite map_rep. reflexivity.
Qed.
Lemma PKc_grow n us us' : PKc us us' -> PKc (grow n us) (grow n us').
Proof.
  intros (-> & Ha). split.
  - unfold grow. rewrite !map_map. apply map_ext. intros u. unfold scale_user. cbn [set_apps app_list user_name num_users user_preference rand_daily_pref load]. unfold set_apps. cbn [app_list user_name num_users user_preference rand_daily_pref load]. rewrite !map_map. rewrite (map_ext _ _ (grown_scale n)). reflexivity.
  - apply (kept_whole (grow n) us); [right; eauto|exact Ha].
Qed.

Lemma scale_rel a : untouched F a -> app_rel true SSc Mc a (scale_app c a).
Proof.
  intros (Hn & Hs). constructor; cbn [scale_app par power constant_power win cyc1 cyc2 cyc3 st]; try reflexivity.
  - apply (par_named a (scale_app c a) (name (par a))). destruct a as [[]]; reflexivity.
  - induction (power a) as [|x l IH]; cbn [map]; constructor; [unfold SSc; reflexivity|exact IH].
  - split; intros; repeat split; cbn; unfold SSc; reflexivity.
  - split; intros; repeat split; cbn; unfold SSc; reflexivity.
  - split; intros; repeat split; cbn; unfold SSc; reflexivity.
  - rewrite Hs. unfold dyn_rel. cbn. repeat split; try constructor. eapply f2_mono; [|apply untouched_values; exact Hn].
    intros x y (<- & [->| ->]).
    + apply (Mc_more 0); [lia|]. apply Mc_zero. ring.
    + apply Mc_mask.
  - left. reflexivity.
  - left. reflexivity.
Qed.

Theorem scaled_sim depth w us start stop enl seed num pe : all_apps (untouched F) us ->
  psimr (fun x y => Forall2 (Forall2 (Mc (units us))) (snd x) (snd y))
    (PropsTotal.simulate depth F w us start stop enl seed num pe) (PropsTotal.simulate depth F w (map (scale_user c) us) start stop enl seed num pe).
Proof.
  intros Hu. apply (simulate_rel F true SSc Mc) with (PK := PKc).
  - intros v u x y _ _ H. apply SSc_mul; [reflexivity|exact H].
  - intros k x y _ H. apply SSc_mul_l. exact H.
  - intros k x y _ H. apply SSc_mul; [reflexivity|exact H].
  - intros x y H. apply Mc_zero. exact H.
  - apply Mc_mask.
  - apply Mc_zero. ring.
  - apply Mc_add.
  - apply Mc_more.
  - intros n vs vs' _ _. apply PKc_grow.
  - apply PKc_peak.
  - unfold all_apps in Hu. induction Hu as [|u us Hu _ IH]; cbn [map]; constructor; [|exact IH].
    constructor; cbn; try reflexivity. induction Hu as [|a l Ha _ IHl]; cbn [map]; constructor; [apply scale_rel; exact Ha|exact IHl].
  - split; [reflexivity|]. unfold all_apps in *. eapply Forall_impl; [|exact Hu]. intros u H. eapply Forall_impl; [|exact H]. intros a (Ha & _). exact (fresh_whole F a Ha).
Qed.
End scale.

(** with all powers times c > 0, the script draws the same random numbers, fails in the same way or gives c times the load, except
    that the standby masks (1 mW for an appliance inside its windows) are not scaled: k of them are in a minute *)
Theorem C81_scaling_partial F c depth w us start stop enl seed num pe : exact F -> (0 < c)%Q -> all_apps (untouched F) us ->
  same_run (fun x y => each_minute (fun load load' => exists k, 0 <= k <= all_units us /\ (load' - zq k * (1 # 1000) == c * (load - zq k * (1 # 1000)))%Q) (snd x) (snd y))
    (PropsTotal.simulate depth F w us start stop enl seed num pe) (PropsTotal.simulate depth F w (map (scale_user c) us) start stop enl seed num pe).
Proof.
  intros HF Hc Hu. apply sim_same_run. eapply psimr_mono; [|exact (scaled_sim F c HF Hc depth w us start stop enl seed num pe Hu)].
  intros x y H. eapply f2_mono; [|exact H]. intros r r'. apply f2_mono. intros a b (k & Hk & E). exists k. split; [rewrite <- units_spec; exact Hk|].
  assert (Em : (mask_value F == 1 # 1000)%Q) by apply HF. rewrite Em in E. exact E.
Qed.

(** up to 1 mW for every appliance, the load is scaled *)
Theorem C81_nearly_partial F c depth w us start stop enl seed num pe : exact F -> (0 < c)%Q -> all_apps (untouched F) us ->
  same_run (fun x y => each_minute (fun load load' => (Qabs (load' - c * load) <= zq (all_units us) * (1 # 1000) * Qabs (1 - c))%Q) (snd x) (snd y))
    (PropsTotal.simulate depth F w us start stop enl seed num pe) (PropsTotal.simulate depth F w (map (scale_user c) us) start stop enl seed num pe).
Proof.
  intros HF Hc Hu G s. destruct (C81_scaling_partial F c depth w us start stop enl seed num pe HF Hc Hu G s) as [H1 H2]. split; [exact H1|].
  destruct (fst (run G (PropsTotal.simulate depth F w us start stop enl seed num pe) s)), (fst (run G (PropsTotal.simulate depth F w (map (scale_user c) us) start stop enl seed num pe) s)); try exact H2.
  eapply f2_mono; [|exact H2]. intros r r'. apply f2_mono. intros x y (k & Hk & E).
  setoid_replace (y - c * x)%Q with (zq k * (1 # 1000) * (1 - c))%Q.
  2:{ setoid_replace y with ((y - zq k * (1 # 1000)) + zq k * (1 # 1000))%Q by ring. rewrite E. ring. }
  rewrite Qabs_Qmult. apply Qmult_le_compat_r; [|apply Qabs_nonneg].
  assert (0 <= zq k)%Q by (apply (zq_le 0 k); lia). assert (zq k <= zq (all_units us))%Q by (apply zq_le; lia).
  rewrite Qabs_pos; lra.
Qed.

(** ** C82: names *)

(** other names; what a simulation leaves in the user (preference of the day, load) may differ too *)
Definition renamed (u v : user) : Prop :=
  num_users v = num_users u /\ user_preference v = user_preference u /\ Forall2 (fun a b => exists n, b = set_name a n) (app_list u) (app_list v).

Lemma f2_eq {A} (l l' : list A) : Forall2 eq l l' -> l = l'.
Proof. induction 1; congruence. Qed.
Lemma f2_same {A} (l : list A) : Forall2 eq l l.
Proof. induction l; constructor; auto. Qed.

Lemma renamed_rel u v : renamed u v -> user_rel true eq (fun _ => eq) u v.
Proof.
  intros (H1 & H2 & H3). constructor; try assumption. eapply f2_mono; [|exact H3]. intros a b (n & ->).
  destruct a as [[] ? ? ? ? ? ? []]. constructor; cbn; try reflexivity; try apply f2_same.
  - constructor; reflexivity.
  - repeat split.
  - repeat split.
  - repeat split.
  - repeat split; apply f2_same.
  - left. reflexivity.
  - left. reflexivity.
Qed.
Lemma renamed_grow n us us' : Forall2 renamed us us' -> Forall2 renamed (grow n us) (grow n us').
Proof.
  unfold grow. apply f2_map. intros u v (H1 & H2 & H3). repeat split; cbn; try assumption. apply (f2_map (fun a b => exists n, b = set_name a n)); [|exact H3].
  intros a b (k & ->). exists k. unfold grown. destruct a as [[] p ? ? ? ? ? ?]. cbn. destruct (_ <? n); [|reflexivity]. destruct p; reflexivity.
Qed.
Lemma renamed_peak F c us' : Forall2 renamed (users c) us' -> peak_window F (reuser us' c) = peak_window F c.
Proof.
  intros H. assert (E : total_max_profile F (reuser us' c) = total_max_profile F c).
  { unfold total_max_profile. change (users (reuser us' c)) with us'. generalize (zeros day_minutes). induction H as [|u v us vs Huv _ IH]; intros acc; [reflexivity|].
    cbn [fold_left]. destruct Huv as (H1 & H2 & H3).
    assert (E : user_maximum_profile F v = user_maximum_profile F u).
    { unfold user_maximum_profile. rewrite H1. f_equal. generalize (zeros day_minutes). clear H1 H2. induction H3 as [|a b l l' (n & ->) _ IHl]; intros acc'; [reflexivity|].
      cbn [fold_left]. rewrite IHl. reflexivity. }
    rewrite E. apply IH. }
  unfold peak_window. rewrite E. reflexivity.
Qed.

(** the names of the users and of the appliances have no influence on what is simulated *)
Theorem C82_names F depth w us us' start stop enl seed num pe : Forall2 renamed us us' ->
  same_run (fun x y => snd x = snd y)
    (PropsTotal.simulate depth F w us start stop enl seed num pe) (PropsTotal.simulate depth F w us' start stop enl seed num pe).
Proof.
  intros H. apply sim_same_run. eapply psimr_mono; [|apply (simulate_rel F true eq (fun _ => eq)) with (PK := Forall2 renamed) (us := us) (us' := us')].
  - intros x y E. cbn in E. apply f2_eq. eapply f2_mono; [|exact E]. intros r r'. apply f2_eq.
  - intros v u x y _ _ ->. reflexivity.
  - intros k x y _ ->. reflexivity.
  - intros k x y _ ->. reflexivity.
  - intros x y E. exact E.
  - reflexivity.
  - reflexivity.
  - intros n k x y x' y' -> ->. reflexivity.
  - intros n k x y _ E. exact E.
  - intros n vs vs' _ _. apply renamed_grow.
  - intros c vs. apply renamed_peak.
  - eapply f2_mono; [|exact H]. apply renamed_rel.
  - exact H.
Qed.

(** ** C83: higher powers *)

Definition raised_cycle (x y : cycle) : Prop :=
  (0 <= cp1 x <= cp1 y)%Q /\ (0 <= cp2 x <= cp2 y)%Q /\ ct1 y = ct1 x /\ ct2 y = ct2 x /\ cr y = cr x /\ cwa y = cwa x /\ cwb y = cwb x.
(** no power is lower (and none was negative), all else is the same *)
Record raised (a b : appliance) : Prop := Raised {
  rs_par : par b = par a;
  rs_power : Forall2 (fun x y => (0 <= x <= y)%Q) (power a) (power b);
  rs_const : constant_power b = constant_power a;
  rs_win : win b = win a;
  rs_c1 : raised_cycle (cyc1 a) (cyc1 b);
  rs_c2 : raised_cycle (cyc2 a) (cyc2 b);
  rs_c3 : raised_cycle (cyc3 a) (cyc3 b);
  rs_st : st b = st a
}.
Definition raised_user (u v : user) : Prop :=
  num_users v = num_users u /\ user_preference v = user_preference u /\ Forall2 raised (app_list u) (app_list v).

(** what the user declared is sensible *)
Definition proper_declared (F : fm) (a : appliance) : Prop :=
  0 <= number (par a) /\ (0 <= thermal_p_var (par a) <= 1)%Q /\ untouched F a.

Lemma rnd_pos F x : (0 <= x)%Q -> (0 <= rnd F x)%Q.
Proof. intros H. apply rnd_mono with (f := F) in H. pose proof (rnd_int F 0 ltac:(lia)) as E. change (inject_Z 0) with 0%Q in E. rewrite E in H. exact H. Qed.
Lemma mul_mono F x y v : (0 <= v)%Q -> (0 <= x <= y)%Q -> (0 <= fmul F x v <= fmul F y v)%Q.
Proof.
  intros Hv (H1 & H2). unfold fmul. split; [apply rnd_pos; nra|]. apply rnd_mono. nra.
Qed.
Lemma mul_mono_l F x y v : (0 <= v)%Q -> (0 <= x <= y)%Q -> (0 <= fmul F v x <= fmul F v y)%Q.
Proof.
  intros Hv (H1 & H2). unfold fmul. split; [apply rnd_pos; nra|]. apply rnd_mono. nra.
Qed.

Lemma raised_rel F a b : proper_declared F a -> raised a b -> app_rel false (fun x y => (0 <= x <= y)%Q) (fun _ x y => (x <= y)%Q) a b.
Proof.
  intros (Hn & Hv & (_ & Hs)) []. constructor; try assumption.
  - apply (par_named a b (name (par a))). rewrite rs_par0. destruct a as [[]]; reflexivity.
  - destruct rs_c4 as (? & ? & ? & ? & ? & ? & ?). split; intros; repeat split; tauto.
  - destruct rs_c5 as (? & ? & ? & ? & ? & ? & ?). split; intros; repeat split; tauto.
  - destruct rs_c6 as (? & ? & ? & ? & ? & ? & ?). split; intros; repeat split; tauto.
  - rewrite rs_st0, Hs. unfold dyn_rel. cbn. repeat split; try constructor. generalize (daily_use (st a)). intros l. induction l; constructor; [lra|assumption].
  - right. exact Hn.
  - right. exact Hv.
Qed.

(** raising powers lowers no minute of the profile that is generated with the same random numbers, in floating point too *)
Theorem C83_monotone_partial F depth w c us' n ds : num_days_ c = Some n -> days c = Some ds ->
  all_apps (proper_declared F) (users c) -> Forall2 raised_user (users c) us' ->
  same_run (fun x y => each_minute Qle (snd x) (snd y)) (generate_sequential depth F w c None) (generate_sequential depth F w (reuser us' c) None).
Proof.
  intros Hn Hd Ha Hu. apply sim_same_run. apply (generate_rel F false (fun x y => (0 <= x <= y)%Q) (fun _ x y => (x <= y)%Q)) with (n := n) (ds := ds); try assumption.
  - intros v u x y [C|Hv] Hx Hxy; [discriminate|]. apply mul_mono; [|exact Hxy]. unfold fadd, fmul, fsub. apply rnd_pos.
    assert (0 <= rnd F (1 - v))%Q by (apply rnd_pos; lra).
    assert (rnd F (1 - v) <= rnd F (1 + v))%Q by (apply rnd_mono; lra).
    assert (0 <= rnd F (rnd F (1 + v) - rnd F (1 - v)))%Q by (apply rnd_pos; lra).
    assert (0 <= rnd F (rnd F (rnd F (1 + v) - rnd F (1 - v)) * u))%Q by (apply rnd_pos; nra). lra.
  - intros k x y [C|Hk] Hxy; [discriminate|]. apply mul_mono_l; [apply (zq_le 0 k); lia|exact Hxy].
  - intros k x y [C|Hk] Hxy; [discriminate|]. apply mul_mono; [apply (zq_le 0 k); lia|exact Hxy].
  - intros x y (_ & H). exact H.
  - lra.
  - lra.
  - intros i k x y x' y' H1 H2. unfold fadd. apply rnd_mono. lra.
  - intros i k x y _ H. exact H.
  - unfold all_apps in Ha. induction Hu as [|u v us vs (H1 & H2 & H3) _ IH]; constructor.
    + constructor; try assumption. inversion Ha as [|? ? Hau _]; subst. clear -H3 Hau. induction H3 as [|a b l l' Hab _ IHl]; constructor.
      * inversion Hau; subst. apply (raised_rel F); assumption.
      * inversion Hau; subst. apply IHl. assumption.
    + apply IH. inversion Ha; assumption.
Qed.

(** a power declared as a number has the same value on all days *)
Definition level (a : appliance) : Prop := constant_power a = true -> exists p, Forall (fun x => (x == p)%Q) (power a).
(** the minutes of the theoretical peak of the population, from which the peak time range is drawn *)
Definition peak_minutes (F : fm) (us : list user) : list Z := peak_window F (UC None None false 0 None None None None None us []).

Lemma peak_window_users F c : peak_window F c = peak_minutes F (users c).
Proof. reflexivity. Qed.

Lemma mean_level F l p : exact F -> l <> [] -> Forall (fun x => (x == p)%Q) l -> (np_mean F l == p)%Q.
Proof.
  intros HF Hl H. unfold np_mean, fdiv. rewrite (HF _), (ProofsUser.np_sum_exact F _ HF).
  assert (E : (SpecUser.Qsum l == zq (zlen l) * p)%Q).
  { clear Hl. induction H as [|x l Hx _ IH]; [cbn; unfold zq; change (inject_Z (zlen (@nil Q))) with 0%Q; ring|].
    change (x + SpecUser.Qsum l == zq (zlen (x :: l)) * p)%Q. assert (Hx' : (x == p)%Q) by exact Hx. rewrite zlen_cons, IH, Hx'. unfold zq. rewrite inject_Z_plus. change (inject_Z 1) with 1%Q. ring. }
  rewrite E. assert (N : ~ (zq (zlen l) == 0)%Q).
  { intros C. change 0%Q with (zq 0) in C. unfold zq in C. apply inject_Z_injective in C. unfold zlen in C. destruct l; [contradiction|discriminate C]. }
  field. exact N.
Qed.
Lemma grown_mean F n a : exact F -> has_power n a -> level a -> (np_mean F (power (grown n a)) == np_mean F (power a))%Q.
Proof.
  intros HF Hh Hl. unfold grown. destruct (Z.ltb_spec (zlen (power a)) n) as [L|L]; [|reflexivity].
  destruct Hh as [C|[Hc Hp]]; [lia|]. destruct (Hl Hc) as (p & Hp'). destruct (power a) as [|x l]; [contradiction|]. cbn [set_power power].
  rewrite (mean_level F (x :: l) p HF); [|discriminate|exact Hp'].
  apply mean_level; [exact HF| |].
  - assert (0 <= zlen (x :: l)) by (unfold zlen; lia). destruct (Z.to_nat (n + 1)) eqn:E; [lia|discriminate].
  - inversion Hp'; subst. apply Forall_forall. intros y Hy. apply repeat_spec in Hy. subst y. assumption.
Qed.
Lemma grown_level n a : level a -> level (grown n a).
Proof.
  intros H. unfold grown. destruct (_ <? _); [|exact H]. destruct (power a) as [|x l] eqn:E; [exact H|]. intros C. cbn [set_power power constant_power] in *. exists x.
  apply Forall_forall. intros y Hy. apply repeat_spec in Hy. subst. reflexivity.
Qed.
Lemma grow_all (P : appliance -> Prop) n us : (forall a, P a -> P (grown n a)) -> all_apps P us -> all_apps P (grow n us).
Proof.
  intros HP H. unfold all_apps, grow in *. apply Forall_map. eapply Forall_impl; [|exact H]. intros u Hu. cbn. apply Forall_map. eapply Forall_impl; [|exact Hu]. exact HP.
Qed.
Lemma grown_most F n us t : exact F -> all_apps (has_power n) us -> all_apps level us -> (most F (grow n us) t == most F us t)%Q.
Proof.
  intros HF Hh Hl. unfold all_apps in *. induction us as [|u us IH]; [reflexivity|]. inversion Hh as [|? ? Hh1 Hh2]; subst. inversion Hl as [|? ? Hl1 Hl2]; subst.
  unfold grow. cbn [map]. fold (grow n us). rewrite !most_cons, (IH Hh2 Hl2). cbn [set_apps app_list num_users].
  assert (E : (minute_sum t (map (app_maximum_profile F) (map (grown n) (app_list u))) == minute_sum t (map (app_maximum_profile F) (app_list u)))%Q).
  { unfold minute_sum. clear -HF Hh1 Hl1. induction (app_list u) as [|a l IHl]; [reflexivity|]. inversion Hh1; subst. inversion Hl1; subst.
    cbn [map]. rewrite !Qsum_cons, IHl by assumption. unfold app_maximum_profile.
    rewrite !value_map_mul by (unfold fmul; rewrite !(HF _); ring).
    assert (E : daily_use (st (grown n a)) = daily_use (st a) /\ par (grown n a) = par a) by (unfold grown; destruct (_ <? _); [destruct (power a)|]; split; reflexivity).
    destruct E as [-> ->]. unfold fmul. rewrite !(HF _), (grown_mean F n a HF) by assumption. reflexivity. }
  rewrite E. reflexivity.
Qed.
(** the same theoretical load: the same minutes of peak *)
Lemma same_most_peak F us us' : exact F -> all_apps whole_day us -> all_apps whole_day us' ->
  (forall t, (most F us' t == most F us t)%Q) -> peak_minutes F us' = peak_minutes F us.
Proof.
  intros HF Ha Ha' Hm. unfold peak_minutes. set (x := UC _ _ _ _ _ _ _ _ _ us []). set (x' := UC _ _ _ _ _ _ _ _ _ us' []).
  change us with (users x) in Ha. change us' with (users x') in Ha'.
  pose proof (peak_window_maximal F x) as [M _]. pose proof (peak_window_maximal F x') as [M' _].
  unfold peak_window in *. cbv zeta in *. rewrite (total_len F x Ha) in *. rewrite (total_len F x' Ha') in *.
  apply filter_ext_in. intros t Ht. specialize (M t). specialize (M' t). rewrite filter_In in M, M'. rewrite in_arange in M, M', Ht.
  assert (Hv : forall s, 0 <= s < 1440 -> (value_at (total_max_profile F x') s == value_at (total_max_profile F x) s)%Q).
  { intros s Hs. rewrite (total_most F x' s HF Ha' Hs), (total_most F x s HF Ha Hs). apply Hm. }
  assert (Hiff : (forall s, 0 <= s < 1440 -> (value_at (total_max_profile F x') s <= value_at (total_max_profile F x') t)%Q) <->
                 (forall s, 0 <= s < 1440 -> (value_at (total_max_profile F x) s <= value_at (total_max_profile F x) t)%Q)).
  { split; intros H s Hs; specialize (H s Hs); [rewrite !Hv in H by assumption|rewrite !Hv by assumption]; exact H. }
  apply eq_true_iff_eq. tauto.
Qed.

(** The whole script, in exact arithmetic, when the raised powers leave the minutes of the theoretical peak where they were. *)
Theorem C83_script_partial F depth w us us' start stop enl seed num pe : exact F -> all_apps (proper_declared F) us -> Forall2 raised_user us us' ->
  all_apps level us -> all_apps level us' -> peak_minutes F us' = peak_minutes F us ->
  same_run (fun x y => each_minute Qle (snd x) (snd y))
    (PropsTotal.simulate depth F w us start stop enl seed num pe) (PropsTotal.simulate depth F w us' start stop enl seed num pe).
Proof.
  intros HF Ha Hu Hl Hl' Hp. apply sim_same_run.
  assert (Hw : all_apps whole_day us).
  { unfold all_apps in *. eapply Forall_impl; [|exact Ha]. intros u H. eapply Forall_impl; [|exact H]. intros a (_ & _ & (H1 & _)). exact (fresh_whole F a H1). }
  assert (Hw' : all_apps whole_day us').
  { unfold all_apps in *. clear -Hw Hu. induction Hu as [|u v us vs (_ & _ & H) _ IH]; constructor; inversion Hw as [|? ? Hw1 Hw2]; subst; [|exact (IH Hw2)].
    clear -H Hw1. induction H as [|a b l l' Hab _ IHl]; constructor; inversion Hw1; subst; [|apply IHl; assumption]. unfold whole_day in *. rewrite (rs_st _ _ Hab). assumption. }
  apply (simulate_rel F false (fun x y => (0 <= x <= y)%Q) (fun _ x y => (x <= y)%Q)) with
    (PK := fun us us' => all_apps level us /\ all_apps level us' /\ all_apps whole_day us /\ all_apps whole_day us' /\ peak_minutes F us' = peak_minutes F us).
  - intros v u x y [C|Hv] Hx Hxy; [discriminate|]. apply mul_mono; [|exact Hxy]. unfold fadd, fmul, fsub. apply rnd_pos.
    assert (0 <= rnd F (1 - v))%Q by (apply rnd_pos; lra).
    assert (rnd F (1 - v) <= rnd F (1 + v))%Q by (apply rnd_mono; lra).
    assert (0 <= rnd F (rnd F (1 + v) - rnd F (1 - v)))%Q by (apply rnd_pos; lra).
    assert (0 <= rnd F (rnd F (rnd F (1 + v) - rnd F (1 - v)) * u))%Q by (apply rnd_pos; nra). lra.
  - intros k x y [C|Hk] Hxy; [discriminate|]. apply mul_mono_l; [apply (zq_le 0 k); lia|exact Hxy].
  - intros k x y [C|Hk] Hxy; [discriminate|]. apply mul_mono; [apply (zq_le 0 k); lia|exact Hxy].
  - intros x y (_ & H). exact H.
  - lra.
  - lra.
  - intros i k x y x' y' H1 H2. unfold fadd. apply rnd_mono. lra.
  - intros i k x y _ H. exact H.
  - intros n vs vs' P1 P2 (G1 & G2 & G3 & G4 & G5). repeat split.
    + apply grow_all; [intros a; apply grown_level|exact G1].
    + apply grow_all; [intros a; apply grown_level|exact G2].
    + apply (kept_whole (grow n) vs); [right; eauto|exact G3].
    + apply (kept_whole (grow n) vs'); [right; eauto|exact G4].
    + rewrite (same_most_peak F vs (grow n vs) HF G3); [|apply (kept_whole (grow n) vs); [right; eauto|exact G3]|intros t; apply grown_most; assumption].
      rewrite (same_most_peak F vs' (grow n vs') HF G4); [exact G5|apply (kept_whole (grow n) vs'); [right; eauto|exact G4]|intros t; apply grown_most; assumption].
  - intros c vs (_ & _ & _ & _ & G). rewrite !peak_window_users. exact G.
  - unfold all_apps in Ha. clear -Ha Hu. induction Hu as [|u v us vs (H1 & H2 & H3) _ IH]; constructor.
    + constructor; try assumption. inversion Ha as [|? ? Hau _]; subst. clear -H3 Hau. induction H3 as [|a b l l' Hab _ IHl]; constructor.
      * inversion Hau; subst. apply (raised_rel F); assumption.
      * inversion Hau; subst. apply IHl. assumption.
    + apply IH. inversion Ha; assumption.
  - repeat split; assumption.
Qed.

(** ** Cases *)

(** ten appliances of w W each with the window [from, from + 240] *)
Definition case_day (F : fm) (from : Z) : list Q :=
  match fill_windows (zeros day_minutes) [(from, from + 240); (0, 0); (0, 0)] (mask_value F) with Ok d => d | Err _ => [] end.
Definition case_tv (F : fm) (time : Z) (w : Q) (from : Z) : appliance :=
  App (Params "tv" 10 1 time 0 20 "no" 0 1 1 "no" (1 # 10) 0 2) (repeat w 366) true (Wins (from, from + 240) (0, 0) (0, 0) 0 0 0 0)
    default_cycle default_cycle default_cycle (set_daily_use default_dyn (case_day F from)).
Definition case_home (F : fm) (time : Z) (w v : Q) : user := User.User "household" 2 0 0 [] [case_tv F time w 0; case_tv F time v 480].
Definition case_script (F : fm) (us : list user) : prog (usecase * list (list Q)) :=
  PropsTotal.simulate 5 F nobody us None None 0 None (Some 1) None.
Definition loads_at (r : res (usecase * list (list Q))) (ts : list Z) : option (list Q) :=
  match r with Ok (_, rows) => Some (map (fun t => Qred (value_at (nth 0 rows []) t)) ts) | Err _ => None end.

Lemma case_all (P : appliance -> Prop) F time w v : P (case_tv F time w 0) -> P (case_tv F time v 480) -> all_apps P [case_home F time w v].
Proof. intros H1 H2. constructor; [|constructor]. cbn. constructor; [exact H1|]. constructor; [exact H2|constructor]. Qed.
Lemma case_raised F time w v w' v' : raised (case_tv F time w 0) (case_tv F time w' 0) -> raised (case_tv F time v 480) (case_tv F time v' 480) ->
  Forall2 raised_user [case_home F time w v] [case_home F time w' v'].
Proof. intros H1 H2. constructor; [|constructor]. split; [reflexivity|]. split; [reflexivity|]. constructor; [exact H1|]. constructor; [exact H2|constructor]. Qed.

Lemma tv_raised F time w w' from : (0 <= w <= w')%Q -> raised (case_tv F time w from) (case_tv F time w' from).
Proof.
  intros H. assert (C : raised_cycle default_cycle default_cycle) by (repeat split; cbn; lra).
  constructor; cbn [case_tv par power constant_power win cyc1 cyc2 cyc3 st]; try reflexivity; try exact C. apply f2_repeat. exact H.
Qed.
Lemma tv_untouched F time w from : fill_windows (zeros day_minutes) [(from, from + 240); (0, 0); (0, 0)] (mask_value F) = Ok (case_day F from) -> untouched F (case_tv F time w from).
Proof. intros H. split; [exact H|reflexivity]. Qed.
Lemma tv_proper F time w from : untouched F (case_tv F time w from) -> proper_declared F (case_tv F time w from).
Proof. intros H. split; [cbn; lia|]. split; [cbn; lra|exact H]. Qed.
Lemma exact_0 : fill_windows (zeros day_minutes) [(0, 0 + 240); (0, 0); (0, 0)] (mask_value exact_fm) = Ok (case_day exact_fm 0).
Proof. vm_cast_no_check (eq_refl (fill_windows (zeros day_minutes) [(0, 0 + 240); (0, 0); (0, 0)] (mask_value exact_fm))). Qed.
Lemma exact_480 : fill_windows (zeros day_minutes) [(480, 480 + 240); (0, 0); (0, 0)] (mask_value exact_fm) = Ok (case_day exact_fm 480).
Proof. vm_cast_no_check (eq_refl (fill_windows (zeros day_minutes) [(480, 480 + 240); (0, 0); (0, 0)] (mask_value exact_fm))). Qed.
Lemma f64_0 : fill_windows (zeros day_minutes) [(0, 0 + 240); (0, 0); (0, 0)] (mask_value f64) = Ok (case_day f64 0).
Proof. vm_cast_no_check (eq_refl (fill_windows (zeros day_minutes) [(0, 0 + 240); (0, 0); (0, 0)] (mask_value f64))). Qed.
Lemma f64_480 : fill_windows (zeros day_minutes) [(480, 480 + 240); (0, 0); (0, 0)] (mask_value f64) = Ok (case_day f64 480).
Proof. vm_cast_no_check (eq_refl (fill_windows (zeros day_minutes) [(480, 480 + 240); (0, 0); (0, 0)] (mask_value f64))). Qed.

(** the hypotheses of C81, and the script runs through; the load is 50 times higher where the appliance is on, but the masks
    (two members, 1 mW each) stay: the load is not exactly 50 times the load *)
Example C81_case : exact exact_fm /\ (0 < 50)%Q /\ all_apps (untouched exact_fm) [case_home exact_fm 60 1 1] /\
  loads_at (fst (run zero_gen (case_script exact_fm [case_home exact_fm 60 1 1]) tt)) [10; 100; 500; 800; 600]
    = Some [9 # 5; 1 # 500; 9 # 5; 0 # 1; 1 # 500]%Q /\
  loads_at (fst (run zero_gen (case_script exact_fm (map (scale_user 50) [case_home exact_fm 60 1 1])) tt)) [10; 100; 500; 800; 600]
    = Some [90 # 1; 1 # 500; 90 # 1; 0 # 1; 1 # 500]%Q.
Proof.
  split; [exact exact_exact_fm|]. split; [reflexivity|]. split.
  { apply case_all; apply tv_untouched; [exact exact_0|exact exact_480]. }
  split; vm_compute; reflexivity.
Qed.

Definition other_names (F : fm) : user :=
  User.User "elsewhere" 2 0 5 [] [set_name (case_tv F 60 1 0) "radio"; set_name (case_tv F 60 1 480) "lamp"].
Lemma other_renamed F : Forall2 renamed [case_home F 60 1 1] [other_names F].
Proof.
  constructor; [|constructor]. split; [reflexivity|]. split; [reflexivity|]. constructor; [eexists; reflexivity|]. constructor; [eexists; reflexivity|constructor].
Qed.
Example C82_case : Forall2 renamed [case_home exact_fm 60 1 1] [other_names exact_fm] /\
  loads_at (fst (run zero_gen (case_script exact_fm [other_names exact_fm]) tt)) [10; 100; 500; 800; 600] = Some [9 # 5; 1 # 500; 9 # 5; 0 # 1; 1 # 500]%Q.
Proof. split; [apply other_renamed|]. vm_compute. reflexivity. Qed.

(** in 64 bit floating point: 4 W instead of 3 W *)
Example C83_case : let c := settled [case_home f64 200 3 1] in let us' := [case_home f64 200 4 1] in
  num_days_ c = Some 2 /\ (exists ds, days c = Some ds) /\ all_apps (proper_declared f64) (users c) /\ Forall2 raised_user (users c) us' /\
  match loads_at (fst (run zero_gen (generate_sequential 5 f64 nobody c None) tt)) [10; 500],
        loads_at (fst (run zero_gen (generate_sequential 5 f64 nobody (reuser us' c) None) tt)) [10; 500] with
  | Some [x; y], Some [x'; y'] => Qltb x x' && Qeq_bool y y' && Qltb 0 y | _, _ => false end = true.
Proof.
  cbv zeta. split; [reflexivity|]. split; [eexists; reflexivity|]. split.
  { apply case_all; apply tv_proper, tv_untouched; [exact f64_0|exact f64_480]. }
  split; [apply case_raised; apply tv_raised; lra|]. vm_compute. reflexivity.
Qed.

(** not so for the whole script, which takes the peak time range from the powers: with 4 W instead of 2 W for the second appliance the theoretical
    peak moves to its window, and the first appliance, that of 3 W, now has fewer of its ten pieces on at minute 120 *)
Theorem C83_peak_moves : Forall2 raised_user [case_home exact_fm 200 3 2] [case_home exact_fm 200 3 4] /\
  all_apps (proper_declared exact_fm) [case_home exact_fm 200 3 2] /\
  loads_at (fst (run zero_gen (case_script exact_fm [case_home exact_fm 200 3 2]) tt)) [120] = Some [27 # 1]%Q /\
  loads_at (fst (run zero_gen (case_script exact_fm [case_home exact_fm 200 3 4]) tt)) [120] = Some [27 # 5]%Q.
Proof.
  split; [apply case_raised; apply tv_raised; lra|].
  split; [apply case_all; apply tv_proper, tv_untouched; [exact exact_0|exact exact_480]|]. split; vm_compute; reflexivity.
Qed.

Lemma tv_level F time w from : level (case_tv F time w from).
Proof. intros _. exists w. apply Forall_forall. intros x Hx. apply repeat_spec in Hx. subst. reflexivity. Qed.
Example C83_script_case : all_apps (proper_declared exact_fm) [case_home exact_fm 200 3 1] /\
  Forall2 raised_user [case_home exact_fm 200 3 1] [case_home exact_fm 200 4 2] /\
  all_apps level [case_home exact_fm 200 3 1] /\ all_apps level [case_home exact_fm 200 4 2] /\
  peak_minutes exact_fm [case_home exact_fm 200 4 2] = peak_minutes exact_fm [case_home exact_fm 200 3 1].
Proof.
  split; [apply case_all; apply tv_proper, tv_untouched; [exact exact_0|exact exact_480]|].
  split; [apply case_raised; apply tv_raised; lra|]. split; [apply case_all; apply tv_level|]. split; [apply case_all; apply tv_level|].
  vm_compute. reflexivity.
Qed.
