(** * SimScale: two models that differ in names and powers draw the same random numbers (proof machinery, no RAMP code modelled) *)
From Verif Require Import Base Wp Tape Utils ListLemmas Appliance User Sim UseCase Spec SpecDay SpecUser SpecUseCase ProofsEq ProofsUseCase PropsUseCase PropsInit PropsTotal PropsPopulation PropsHeap.
From Coq Require Import ZifyBool ZifyNat.
Open Scope list_scope.
Open Scope Z_scope.

(** as [psim], for draws of random() in [0,1) *)
Fixpoint psimr {A B} (R : A -> B -> Prop) (p : prog A) (q : prog B) : Prop :=
  match p, q with
  | Ret a, Ret b => R a b
  | Raise e, Raise e' => e = e'
  | Random k, Random k' => forall u, (0 <= u < 1)%Q -> psimr R (k u) (k' u)
  | RandBelow n k, RandBelow n' k' => n = n' /\ forall i, psimr R (k i) (k' i)
  | Normal c k, Normal c' k' => c = c' /\ forall z, psimr R (k z) (k' z)
  | Seed s k, Seed s' k' => s = s' /\ psimr R k k'
  | _, _ => False
  end.

Lemma psimr_bind {A B A' B'} (R : A -> B -> Prop) (T : A' -> B' -> Prop) p q f g :
  psimr R p q -> (forall a b, R a b -> psimr T (f a) (g b)) -> psimr T (bind p f) (bind q g).
Proof.
  revert q; induction p as [a|e|k IH|n k IH|c k IH|s k IH]; intros [b|e'|k'|n' k'|c' k'|s' k'] H Hf; cbn in *; try contradiction; auto;
  destruct H as [H1 H2]; split; auto.
Qed.
Lemma psimr_eq {A} (p : prog A) : psimr eq p p.
Proof. induction p as [a|e|k IH|n k IH|c k IH|s k IH]; cbn; auto. Qed.
Lemma psimr_mono {A B} (R T : A -> B -> Prop) p q : (forall a b, R a b -> T a b) -> psimr R p q -> psimr T p q.
Proof.
  intros HRS. revert q; induction p as [a|e|k IH|n k IH|c k IH|s k IH]; intros [b|e'|k'|n' k'|c' k'|s' k'] H; cbn in *; try contradiction; auto;
  destruct H as [H1 H2]; split; auto.
Qed.
Lemma psimr_run {A B} (R : A -> B -> Prop) p q (G : generator) s :
  psimr R p q ->
  snd (run G p s) = snd (run G q s) /\
  match fst (run G p s), fst (run G q s) with
  | Ok a, Ok b => R a b
  | Err e, Err e' => e = e'
  | _, _ => False
  end.
Proof.
  revert q s; induction p as [a|e|k IH|n k IH|c k IH|z k IH]; intros [b|e'|k'|n' k'|c' k'|s' k'] s H; cbn in H; try contradiction; cbn [run].
  - auto.
  - auto.
  - pose proof (g_random_range G s) as Hr. destruct (g_random G s) as [u s1]. apply IH. apply H. exact Hr.
  - destruct H as [-> H]. destruct (g_below G n' s). apply IH. apply H.
  - destruct H as [-> H]. destruct (g_normal G c' s). apply IH. apply H.
  - destruct H as [-> H]. apply IH. exact H.
Qed.
Lemma psimr_may {A B} (R : A -> B -> Prop) p q r :
  psimr R p q -> may p r ->
  match r with Ok a => exists b, may q (Ok b) /\ R a b | Err e => may q (Err e) end.
Proof.
  intros H Hr. revert q H; induction Hr as [a|e|u k r H0 H1 Hr IH|n i k r H0 Hr IH|c z k r Hr IH|s k r Hr IH];
    intros [b|e'|k'|n' k'|c' k'|s' k'] H; cbn in H; try contradiction.
  - exists b. split; [constructor|exact H].
  - subst. constructor.
  - specialize (IH _ (H u (conj H0 H1))). destruct r as [a|e].
    + destruct IH as (b & Hb & HR). exists b. split; [econstructor; eauto|exact HR].
    + econstructor; eauto.
  - destruct H as [-> H]. specialize (IH _ (H i)). destruct r as [a|e].
    + destruct IH as (b & Hb & HR). exists b. split; [econstructor; eauto|exact HR].
    + econstructor; eauto.
  - destruct H as [-> H]. specialize (IH _ (H z)). destruct r as [a|e].
    + destruct IH as (b & Hb & HR). exists b. split; [econstructor; eauto|exact HR].
    + econstructor; eauto.
  - destruct H as [-> H]. specialize (IH _ H). destruct r as [a|e].
    + destruct IH as (b & Hb & HR). exists b. split; [econstructor; eauto|exact HR].
    + econstructor; eauto.
Qed.
Lemma psimr_sym {A B} (R : A -> B -> Prop) p q : psimr R p q -> psimr (fun b a => R a b) q p.
Proof.
  revert q; induction p as [a|e|k IH|n k IH|c k IH|s k IH]; intros [b|e'|k'|n' k'|c' k'|s' k'] H; cbn in *; try contradiction; auto;
  destruct H as [H1 H2]; split; auto.
Qed.

(** results of pure operations *)
Definition rrel {A B} (R : A -> B -> Prop) (x : res A) (y : res B) : Prop :=
  match x, y with Ok a, Ok b => R a b | Err e, Err e' => e = e' | _, _ => False end.
Lemma psimr_lift {A B} (R : A -> B -> Prop) x y : rrel R x y -> psimr R (lift x) (lift y).
Proof. destruct x, y; cbn; auto. Qed.
Lemma rrel_eq {A} (x : res A) : rrel eq x x.
Proof. destruct x; reflexivity. Qed.

(** lists *)
Lemma f2_len {A B} (R : A -> B -> Prop) l l' : Forall2 R l l' -> List.length l = List.length l'.
Proof. induction 1; cbn; congruence. Qed.
Lemma f2_zlen {A B} (R : A -> B -> Prop) l l' : Forall2 R l l' -> zlen l = zlen l'.
Proof. intros H. unfold zlen. rewrite (f2_len _ _ _ H). reflexivity. Qed.
Lemma f2_nth {A B} (R : A -> B -> Prop) l l' d d' n : Forall2 R l l' -> (n < List.length l)%nat -> R (nth n l d) (nth n l' d').
Proof. intros H. revert n. induction H as [|x y l l' Hx _ IH]; intros n Hn; cbn in *; [lia|]. destruct n; [exact Hx|]. apply IH. lia. Qed.
Lemma f2_nth_error {A B} (R : A -> B -> Prop) l l' n : Forall2 R l l' ->
  match nth_error l n, nth_error l' n with Some x, Some y => R x y | None, None => True | _, _ => False end.
Proof. intros H. revert n. induction H as [|x y l l' Hx _ IH]; intros [|n]; cbn; auto. apply IH. Qed.
Lemma f2_set {A B} (R : A -> B -> Prop) l l' n x y : Forall2 R l l' -> R x y -> Forall2 R (list_set l n x) (list_set l' n y).
Proof. intros H Hxy. revert n. induction H as [|a b l l' Hx Hl IH]; intros [|n]; cbn; constructor; auto. Qed.
Lemma f2_repeat {A B} (R : A -> B -> Prop) x y n : R x y -> Forall2 R (repeat x n) (repeat y n).
Proof. intros H. induction n; constructor; assumption. Qed.
Lemma f2_mono {A B} (R T : A -> B -> Prop) l l' : (forall a b, R a b -> T a b) -> Forall2 R l l' -> Forall2 T l l'.
Proof. intros HR. induction 1; constructor; auto. Qed.
Lemma f2_refl {A} (R : A -> A -> Prop) l : Forall (fun x => R x x) l -> Forall2 R l l.
Proof. induction 1; constructor; assumption. Qed.
Lemma f2_map {A B C D} (R : A -> B -> Prop) (T : C -> D -> Prop) f g l l' : (forall a b, R a b -> T (f a) (g b)) -> Forall2 R l l' -> Forall2 T (map f l) (map g l').
Proof. intros HR. induction 1; constructor; auto. Qed.

Lemma index_rel {A B} (R : A -> B -> Prop) l l' i : Forall2 R l l' -> rrel R (py_index l i) (py_index l' i).
Proof.
  intros H. unfold py_index. rewrite (f2_zlen _ _ _ H). cbv zeta. set (j := if i <? 0 then i + zlen l' else i).
  destruct ((j <? 0) || (zlen l' <=? j)); [reflexivity|]. pose proof (f2_nth_error R l l' (Z.to_nat j) H) as G.
  destruct (nth_error l (Z.to_nat j)), (nth_error l' (Z.to_nat j)); try contradiction; [exact G|reflexivity].
Qed.

Section sim.
(** [SS]: related powers; [M n]: related loads of one minute, made of n appliances *)
Variables (F : fm) (any : bool) (SS : Q -> Q -> Prop) (M : nat -> Q -> Q -> Prop).
Definition okn (k : Z) : Prop := any = true \/ 0 <= k.
Definition okv (v : Q) : Prop := any = true \/ (0 <= v <= 1)%Q.
Hypothesis SS_var : forall v u x y, okv v -> (0 <= u < 1)%Q -> SS x y ->
  SS (fmul F x (fadd F (fsub F 1 v) (fmul F (fsub F (fadd F 1 v) (fsub F 1 v)) u)))
     (fmul F y (fadd F (fsub F 1 v) (fmul F (fsub F (fadd F 1 v) (fsub F 1 v)) u))).
Hypothesis SS_l : forall k x y, okn k -> SS x y -> SS (fmul F (zq k) x) (fmul F (zq k) y).
Hypothesis SS_r : forall k x y, okn k -> SS x y -> SS (fmul F x (zq k)) (fmul F y (zq k)).
Hypothesis M_power : forall x y, SS x y -> M 0 x y.
Hypothesis M_mask : M 1 (mask_value F) (mask_value F).
Hypothesis M_zero : M 0 0 0.
Hypothesis M_add : forall n k x y x' y', M n x y -> M k x' y' -> M (n + k) (fadd F x x') (fadd F y y').
Hypothesis M_more : forall n k x y, (n <= k)%nat -> M n x y -> M k x y.

(** another name, related powers; all else equal, except what a simulated day does not read:
    num_windows; the duty cycles of higher number than fixed_cycle (not their windows);
    continuous_duty_cycle and the windows of all cycles without duty cycles; of a flat appliance,
    all that concerns duty cycles, fixed and thermal_p_var *)
Definition ran (p : params) : Prop := String.eqb (flat p) "yes" = false.
Definition cyc_rel (p : params) (i : Z) (c c' : cycle) : Prop :=
  (ran p -> i <= fixed_cycle p -> SS (cp1 c) (cp1 c') /\ SS (cp2 c) (cp2 c') /\ ct1 c' = ct1 c /\ ct2 c' = ct2 c /\ cr c' = cr c) /\
  (ran p -> 1 <= fixed_cycle p -> cwa c' = cwa c /\ cwb c' = cwb c).
Definition dyn_rel (d d' : dyn) : Prop :=
  Forall2 (M 1) (daily_use d) (daily_use d') /\ free_spots d' = free_spots d /\
  Forall2 SS (random_cycle1 d) (random_cycle1 d') /\ Forall2 SS (random_cycle2 d) (random_cycle2 d') /\ Forall2 SS (random_cycle3 d) (random_cycle3 d') /\
  current_duty_cycle_id d' = current_duty_cycle_id d.
Record par_rel (p q : params) : Prop := ParRel {
  pr_number : number q = number p;
  pr_time : func_time q = func_time p;
  pr_var : time_var q = time_var p;
  pr_cycle : func_cycle q = func_cycle p;
  pr_occ : occasional_use q = occasional_use p;
  pr_flat : flat q = flat p;
  pr_pref : pref_index q = pref_index p;
  pr_wd : wd_we_type q = wd_we_type p;
  pr_fixed : ran p -> fixed q = fixed p;
  pr_fc : ran p -> fixed_cycle q = fixed_cycle p;
  pr_tpv : ran p -> thermal_p_var q = thermal_p_var p;
  pr_ccd : ran p -> 1 <= fixed_cycle p -> continuous_duty_cycle q = continuous_duty_cycle p
}.
Lemma par_named a b n : par b = par (set_name a n) -> par_rel (par a) (par b).
Proof. intros H. constructor; intros; rewrite H; reflexivity. Qed.
Record app_rel (a b : appliance) : Prop := AppRel {
  ar_par : par_rel (par a) (par b);
  ar_power : Forall2 SS (power a) (power b);
  ar_const : constant_power b = constant_power a;
  ar_win : win b = win a;
  ar_c1 : cyc_rel (par a) 1 (cyc1 a) (cyc1 b);
  ar_c2 : cyc_rel (par a) 2 (cyc2 a) (cyc2 b);
  ar_c3 : cyc_rel (par a) 3 (cyc3 a) (cyc3 b);
  ar_st : dyn_rel (st a) (st b);
  ar_n : okn (number (par a));
  ar_v : okv (thermal_p_var (par a))
}.

Lemma rv_rel v x y : okv v -> SS x y -> psimr SS (random_variation F v x) (random_variation F v y).
Proof. intros Hv H. unfold random_variation, py_uniform. cbn. intros u Hu. apply SS_var; assumption. Qed.

Lemma ones_rel n x y : SS x y -> rrel (Forall2 SS) (np_ones_times n x) (np_ones_times n y).
Proof. intros H. unfold np_ones_times. destruct (n <? 0); [reflexivity|]. cbn. apply f2_repeat. exact H. Qed.

Lemma duty_rel v t1 p1 q1 t2 p2 q2 : SS p1 q1 -> SS p2 q2 ->
  psimr (Forall2 SS) (duty_cycle F v t1 p1 t2 p2) (duty_cycle F v t1 q1 t2 q2).
Proof.
  intros H1 H2. unfold duty_cycle. eapply psimr_bind; [apply psimr_eq|]. intros x ? <-.
  eapply psimr_bind; [apply psimr_lift, ones_rel, H1|]. intros c1 c1' Hc1.
  eapply psimr_bind; [apply psimr_eq|]. intros z ? <-.
  eapply psimr_bind; [apply psimr_lift, ones_rel, H2|]. intros c2 c2' Hc2. cbn. apply Forall2_app; assumption.
Qed.
Lemma choice_rel v t1 p1 q1 t2 p2 q2 : SS p1 q1 -> SS p2 q2 ->
  psimr (Forall2 SS) (random_choice F v t1 p1 t2 p2) (random_choice F v t1 q1 t2 q2).
Proof.
  intros H1 H2. unfold random_choice. eapply psimr_bind; [apply duty_rel; assumption|]. intros d1 d1' E1.
  eapply psimr_bind; [apply duty_rel; assumption|]. intros d2 d2' E2. cbn. split; [reflexivity|]. intros i. destruct (i =? 0); assumption.
Qed.

Lemma cycles_rel a b d d' : ran (par a) -> app_rel a b -> dyn_rel d d' -> psimr dyn_rel (assign_random_cycles F a d) (assign_random_cycles F b d').
Proof.
  intros Hr [Hp _ _ _ [HA _] [HB _] [HC _] _ _ Hv] (D1 & D2 & D3 & D4 & D5 & D6). specialize (HA Hr). specialize (HB Hr). specialize (HC Hr).
  unfold assign_random_cycles. cbv zeta. rewrite (pr_fc _ _ Hp Hr), (pr_tpv _ _ Hp Hr).
  destruct (fixed_cycle (par a) >=? 1) eqn:G1; [|cbn; repeat split; assumption].
  destruct (HA ltac:(lia)) as (A1 & A2 & A3 & A4 & A5). rewrite A3, A4, A5.
  eapply psimr_bind; [apply rv_rel; eassumption|]. intros p11 q11 H11.
  eapply psimr_bind; [apply rv_rel; eassumption|]. intros p12 q12 H12.
  eapply psimr_bind; [apply duty_rel; eassumption|]. intros c1 c1' Hc1.
  destruct (fixed_cycle (par a) >=? 2) eqn:G2; [|cbn; repeat split; assumption].
  destruct (HB ltac:(lia)) as (B1 & B2 & B3 & B4 & B5). rewrite B3, B4, B5.
  eapply psimr_bind; [apply rv_rel; eassumption|]. intros p21 q21 H21.
  eapply psimr_bind; [apply rv_rel; eassumption|]. intros p22 q22 H22.
  eapply psimr_bind; [apply duty_rel; eassumption|]. intros c2 c2' Hc2.
  destruct (fixed_cycle (par a) >=? 3) eqn:G3; [|cbn; repeat split; assumption].
  destruct (HC ltac:(lia)) as (C1 & C2 & C3 & C4 & C5). rewrite C3, C4, C5.
  eapply psimr_bind; [apply rv_rel; eassumption|]. intros p31 q31 H31.
  eapply psimr_bind; [apply rv_rel; eassumption|]. intros p32 q32 H32.
  eapply psimr_bind; [apply choice_rel; eassumption|]. intros e1 e1' He1.
  eapply psimr_bind; [apply choice_rel; eassumption|]. intros e2 e2' He2.
  eapply psimr_bind; [apply choice_rel; eassumption|]. intros e3 e3' He3.
  cbn. repeat split; assumption.
Qed.

Lemma cycle_of_rel d d' i : dyn_rel d d' -> Forall2 SS (cycle_of d i) (cycle_of d' i).
Proof. intros (_ & _ & H1 & H2 & H3 & _). unfold cycle_of. destruct (i =? 1); [exact H1|]. destruct (i =? 2); [exact H2|exact H3]. Qed.

Lemma select_rel a b lo hi : ran (par a) -> 1 <= fixed_cycle (par a) -> app_rel a b -> select_cycle b lo hi = select_cycle a lo hi.
Proof.
  intros Hr Hf [_ _ _ _ [_ HA] [_ HB] [_ HC] _ _ _]. destruct (HA Hr Hf) as (A1 & A2). destruct (HB Hr Hf) as (B1 & B2). destruct (HC Hr Hf) as (C1 & C2).
  unfold select_cycle. rewrite A1, A2, B1, B2, C1, C2. reflexivity.
Qed.

Lemma switch_rel depth a b rt d d' : ran (par a) -> app_rel a b -> dyn_rel d d' ->
  psimr (fun x y => fst y = fst x /\ dyn_rel (snd x) (snd y)) (rand_switch_on_window depth F a d rt) (rand_switch_on_window depth F b d' rt).
Proof.
  intros Hr Ha Hd. pose proof (ar_par _ _ Ha) as Hp.
  induction depth as [|depth IH]; cbn [rand_switch_on_window]; [reflexivity|].
  pose proof Hd as (_ & Hf & _). rewrite Hf.
  rewrite (pr_cycle _ _ Hp), (pr_fc _ _ Hp Hr).
  cbv zeta. destruct (zlen (indexes_choice (free_spots d) (func_cycle (par a))) >? 0); [|cbn; auto].
  eapply psimr_bind; [apply psimr_eq|]. intros j ? <-.
  eapply psimr_bind; [apply psimr_eq|]. intros x ? <-.
  destruct (find_spot (free_spots d) (func_cycle (par a)) x) as [spot|]; [|reflexivity].
  eapply psimr_bind; [apply psimr_eq|]. intros ix ? <-.
  destruct (fixed_cycle (par a) >? 0) eqn:G; [|cbn; auto]. rewrite (pr_ccd _ _ Hp Hr ltac:(lia)).
  eapply psimr_bind; [apply psimr_eq|]. intros lo ? <-.
  eapply psimr_bind; [apply psimr_eq|]. intros hi ? <-.
  rewrite (select_rel a b lo hi Hr ltac:(lia) Ha). destruct (select_cycle a lo hi) as [i|]; [|exact IH].
  cbn [psimr fst snd]. rewrite (f2_zlen _ _ _ (cycle_of_rel d d' i Hd)). split; [reflexivity|].
  destruct Hd as (D1 & D2 & D3 & D4 & D5 & D6). repeat split; assumption.
Qed.

Lemma put_from_rel vals vals' : Forall2 SS vals vals' -> vals <> [] -> forall ix j d d', Forall2 (M 1) d d' ->
  rrel (Forall2 (M 1)) (np_put_from j d ix vals) (np_put_from j d' ix vals').
Proof.
  intros Hv Hn. induction ix as [|i ix IH]; intros j d d' Hd; cbn [np_put_from]; [exact Hd|].
  rewrite (f2_zlen _ _ _ Hd). cbv zeta. destruct (_ || _); [reflexivity|]. apply IH. apply f2_set; [exact Hd|].
  rewrite (f2_len _ _ _ Hv). apply (M_more 0); [lia|]. apply M_power. apply (f2_nth SS vals vals'); [exact Hv|].
  rewrite <- (f2_len _ _ _ Hv). apply Nat.mod_upper_bound. destruct vals; [congruence|discriminate].
Qed.
Lemma put_rel d d' ix vals vals' : Forall2 SS vals vals' -> Forall2 (M 1) d d' -> rrel (Forall2 (M 1)) (np_put d ix vals) (np_put d' ix vals').
Proof.
  intros Hv Hd. unfold np_put. inversion Hv as [|x y l l' Hx Hl]; subst; [exact Hd|]. apply put_from_rel; [exact Hv|discriminate|exact Hd].
Qed.

Lemma on_number_pos n p : 0 <= on_number F n p.
Proof.
  unfold on_number. assert (G : Forall (fun k => 0 <= k) (filter (fun k => Qle_bool (fdiv F (zq k) (zq n)) p) (arange 0 n))).
  { apply Forall_forall. intros k Hk. apply filter_In in Hk. destruct Hk as [Hk _]. apply in_arange in Hk. lia. }
  destruct (filter _ _) as [|k ks]; [lia|]. inversion G as [|? ? Hk Hks]; subst.
  enough (0 <= fold_left Z.max ks k) by lia. revert k Hk G. induction Hks as [|x ks Hx _ IH]; intros k Hk G; cbn [fold_left]; [exact Hk|].
  apply IH; [lia|]. constructor; [lia|]. apply Forall_cons_iff in G. destruct G as [_ G]. apply Forall_cons_iff in G. apply G.
Qed.

Lemma coincident_rel a b inside : ran (par a) -> app_rel a b ->
  psimr (fun x y => x = y /\ okn x) (calc_coincident_switch_on F a inside) (calc_coincident_switch_on F b inside).
Proof.
  intros Hr Ha. pose proof (ar_par _ _ Ha) as Hp. pose proof (ar_n _ _ Ha) as Hn. unfold calc_coincident_switch_on. cbv zeta.
  rewrite (pr_number _ _ Hp), (pr_fixed _ _ Hp Hr).
  destruct (inside && String.eqb (fixed (par a)) "no").
  - cbn. split; [reflexivity|]. intros z. split; [reflexivity|]. destruct Hn as [Hn|Hn]; [left; exact Hn|right]. lia.
  - destruct (negb inside && String.eqb (fixed (par a)) "no"); [|cbn; auto].
    destruct (number (par a) =? 0); [reflexivity|]. cbn. intros u Hu. split; [reflexivity|]. right. apply on_number_pos.
Qed.

Lemma update_rel a b d d' k pw pw' ix : ran (par a) -> app_rel a b -> dyn_rel d d' -> okn k -> SS pw pw' ->
  psimr (fun x y => dyn_rel (fst x) (fst y)) (update_daily_use F a d k pw ix) (update_daily_use F b d' k pw' ix).
Proof.
  intros Hr Ha Hd Hk Hpw. pose proof (ar_par _ _ Ha) as Hp. unfold update_daily_use. rewrite (pr_fc _ _ Hp Hr), (pr_tpv _ _ Hp Hr).
  eapply psimr_bind with (R := Forall2 SS).
  - destruct (fixed_cycle (par a) >? 0).
    + cbv zeta. replace (current_duty_cycle_id d') with (current_duty_cycle_id d) by (symmetry; apply Hd).
      destruct (_ || _); [|constructor]. cbn. apply (f2_map SS); [intros; apply SS_r; assumption|]. apply cycle_of_rel. exact Hd.
    + eapply psimr_bind; [apply rv_rel; [exact (ar_v _ _ Ha)|apply SS_l; eassumption]|]. intros v v' Hv. cbn. repeat constructor. exact Hv.
  - intros vals vals' Hv. destruct Hd as (D1 & D2 & D3 & D4 & D5 & D6).
    eapply psimr_bind; [apply psimr_lift, put_rel; eassumption|]. intros du du' Hdu. rewrite D2.
    eapply psimr_bind; [apply psimr_eq|]. intros fs ? <-. cbn. repeat split; assumption.
Qed.

Lemma use_event_rel a b d d' peak pw pw' ix : ran (par a) -> app_rel a b -> dyn_rel d d' -> SS pw pw' ->
  psimr (fun x y => dyn_rel (fst x) (fst y)) (use_event F a d peak pw ix) (use_event F b d' peak pw' ix).
Proof.
  intros Hr Ha Hd Hpw. unfold use_event.
  eapply psimr_bind; [apply psimr_eq|]. intros i0 ? <-. eapply psimr_bind; [apply psimr_eq|]. intros il ? <-.
  eapply psimr_bind; [apply psimr_eq|]. intros p0 ? <-. eapply psimr_bind; [apply psimr_eq|]. intros pl ? <-.
  eapply psimr_bind; [apply coincident_rel; [exact Hr|exact Ha]|]. intros k ? (<- & Hk).
  eapply psimr_bind; [apply update_rel; eassumption|]. intros x y Hxy. cbn. exact Hxy.
Qed.

Lemma use_loop_rel fuel depth a b peak pw pw' rt : ran (par a) -> app_rel a b -> SS pw pw' -> forall tot d d' evs evs', dyn_rel d d' ->
  psimr (fun x y => dyn_rel (fst x) (fst y)) (use_loop fuel depth F a peak pw rt tot d evs) (use_loop fuel depth F b peak pw' rt tot d' evs').
Proof.
  intros Hr Ha Hpw. induction fuel as [|fuel IH]; intros tot d d' evs evs' Hd; cbn [use_loop]; [reflexivity|].
  destruct (_ && _); [|exact Hd].
  eapply psimr_bind; [apply switch_rel; eassumption|]. intros x y (E & Hxy). rewrite E. destruct (fst x) as [ix|]; [|exact Hxy].
  cbv zeta. destruct (_ >? rt).
  - destruct (zlen _ >? 0); [|exact Hxy]. eapply psimr_bind; [apply use_event_rel; eassumption|]. intros z w Hzw. exact Hzw.
  - eapply psimr_bind; [apply use_event_rel; eassumption|]. intros z w Hzw. apply IH. exact Hzw.
Qed.

Lemma write_rel p v v' : M 1 v v' -> forall d d' k, Forall2 (M 1) d d' -> Forall2 (M 1) (write_from k d p v) (write_from k d' p v').
Proof.
  intros Hv d d' k H. revert k. induction H as [|x y d d' Hx _ IH]; intros k; cbn [write_from]; constructor; [|apply IH].
  destruct (p k); assumption.
Qed.
Lemma fill_rel d d' w v v' : M 1 v v' -> Forall2 (M 1) d d' -> rrel (Forall2 (M 1)) (fill_window d w v) (fill_window d' w v').
Proof.
  intros Hv Hd. unfold fill_window, np_fill_slice. rewrite (f2_zlen _ _ _ Hd). destruct (diff w <? 0); [reflexivity|]. cbv zeta.
  destruct (_ || _); [|reflexivity]. cbn. apply write_rel; assumption.
Qed.
Lemma fills_rel ws v v' : M 1 v v' -> forall d d', Forall2 (M 1) d d' -> rrel (Forall2 (M 1)) (fill_windows d ws v) (fill_windows d' ws v').
Proof.
  intros Hv. induction ws as [|w ws IH]; intros d d' Hd; cbn [fill_windows]; [exact Hd|].
  pose proof (fill_rel d d' w v v' Hv Hd) as G. destruct (fill_window d w v), (fill_window d' w v'); cbn in *; try contradiction; [apply IH; exact G|exact G].
Qed.

Lemma zeros_rel n k : Forall2 (M n) (zeros k) (zeros k).
Proof. apply f2_repeat. apply (M_more 0); [lia|exact M_zero]. Qed.

Lemma time_rel a b r1 r2 r3 : app_rel a b -> rand_total_time_of_use F b r1 r2 r3 = rand_total_time_of_use F a r1 r2 r3.
Proof. intros Ha. destruct (ar_par _ _ Ha). unfold rand_total_time_of_use. rewrite pr_time0, pr_var0, pr_cycle0. reflexivity. Qed.
Lemma skip_rel a b pref dt u : app_rel a b -> skip_day b pref dt u = skip_day a pref dt u.
Proof. intros Ha. destruct (ar_par _ _ Ha). unfold skip_day. rewrite pr_occ0, pr_pref0, pr_wd0, pr_time0. reflexivity. Qed.

Lemma traced_rel depth a b pref i peak dt pw pw' : app_rel a b -> SS pw pw' ->
  psimr (fun x y => dyn_rel (fst x) (fst y)) (generate_load_profile_traced depth F a pref i peak dt pw)
    (generate_load_profile_traced depth F b pref i peak dt pw').
Proof.
  intros Ha Hpw. pose proof (ar_par _ _ Ha) as Hp. unfold generate_load_profile_traced. cbv zeta.
  rewrite (ar_win _ _ Ha).
  rewrite (pr_flat _ _ Hp), (pr_number _ _ Hp).
  pose proof (ar_st _ _ Ha) as (D1 & D2 & D3 & D4 & D5 & D6).
  assert (Hz : dyn_rel (set_daily_use (st a) (zeros day_minutes)) (set_daily_use (st b) (zeros day_minutes))).
  { repeat split; try assumption. apply zeros_rel. }
  eapply psimr_bind; [apply psimr_eq|]. intros u ? <-. rewrite (skip_rel a b pref dt u Ha).
  destruct (skip_day a pref dt u); [exact Hz|].
  eapply psimr_bind; [apply psimr_eq|]. intros r1 ? <-. eapply psimr_bind; [apply psimr_eq|]. intros r2 ? <-. eapply psimr_bind; [apply psimr_eq|]. intros r3 ? <-.
  rewrite (time_rel a b r1 r2 r3 Ha). eapply psimr_bind; [apply psimr_eq|]. intros rt ? <-.
  destruct (String.eqb (flat (par a)) "yes") eqn:Hr.
  - eapply psimr_bind; [apply psimr_lift, index_rel; exact (ar_power _ _ Ha)|]. intros p p' Hpp.
    eapply psimr_bind; [apply psimr_lift, fills_rel; [apply (M_more 0); [lia|]; apply M_power, SS_r; [exact (ar_n _ _ Ha)|exact Hpp]|apply Hz]|].
    intros du du' Hdu. cbn. repeat split; assumption.
  - eapply psimr_bind; [apply psimr_lift, fills_rel; [exact M_mask|apply Hz]|]. intros du du' Hdu.
    eapply psimr_bind; [apply cycles_rel; [exact Hr|exact Ha|]|].
    { repeat split; assumption. }
    intros d1 d1' Hd1. eapply psimr_bind; [apply use_loop_rel; [exact Hr|exact Ha|exact Hpw|]|].
    { destruct Hd1 as (E1 & E2 & E3 & E4 & E5 & E6). repeat split; assumption. }
    intros x y Hxy. cbn. exact Hxy.
Qed.

Lemma glp_rel depth a b pref i peak dt pw pw' : app_rel a b -> SS pw pw' ->
  psimr app_rel (generate_load_profile depth F a pref i peak dt pw) (generate_load_profile depth F b pref i peak dt pw').
Proof.
  intros Ha Hpw. unfold generate_load_profile. eapply psimr_bind; [apply traced_rel; eassumption|].
  intros x y Hxy. destruct Ha. cbn. constructor; try assumption.
Qed.

Lemma vadd_rel n k x y x' y' : Forall2 (M n) x y -> Forall2 (M k) x' y' -> Forall2 (M (n + k)) (vadd F x x') (vadd F y y').
Proof.
  intros H. revert x' y'. induction H as [|a b x y Hab _ IH]; intros x' y' H'; cbn [vadd]; [constructor|].
  inversion H' as [|? ? ? ? H1 H2]; subst; [constructor|]. constructor; [apply M_add; assumption|apply IH; exact H2].
Qed.

Lemma apps_rel depth pref i peak dt : forall l l' n acc acc', Forall2 app_rel l l' -> Forall2 (M n) acc acc' ->
  psimr (fun x y => List.length (fst x) = List.length l /\ Forall2 app_rel (fst x) (fst y) /\ Forall2 (M (n + List.length l)) (snd x) (snd y))
    (generate_apps depth F pref i peak dt l acc) (generate_apps depth F pref i peak dt l' acc').
Proof.
  induction l as [|a l IH]; intros l' n acc acc' Hl Hacc; inversion Hl as [|? b ? l1 Hab Hl1]; subst; cbn [generate_apps].
  - cbn. rewrite Nat.add_0_r. split; [reflexivity|]. split; [constructor|exact Hacc].
  - eapply psimr_bind; [apply psimr_lift, index_rel; exact (ar_power _ _ Hab)|]. intros pw pw' Hpw.
    eapply psimr_bind; [apply glp_rel; eassumption|]. intros a' b' Hab'.
    eapply psimr_bind; [apply (IH l1 (n + 1)%nat); [exact Hl1|]; apply vadd_rel; [exact Hacc|apply (ar_st _ _ Hab')]|].
    intros x y (H0 & H1 & H2). cbn [psimr fst snd]. split; [cbn [List.length]; congruence|]. split; [constructor; assumption|]. cbn [List.length]. replace (n + S (List.length l))%nat with (n + 1 + List.length l)%nat by lia. exact H2.
Qed.

Record user_rel (u v : user) : Prop := UserRel {
  ur_n : num_users v = num_users u;
  ur_p : user_preference v = user_preference u;
  ur_apps : Forall2 app_rel (app_list u) (app_list v)
}.

Lemma members_rel depth i peak dt m : forall n u v, user_rel u v -> Forall2 (M n) (load u) (load v) ->
  psimr (fun x y => user_rel x y /\ List.length (app_list x) = List.length (app_list u) /\ num_users x = num_users u /\
      Forall2 (M (n + m * List.length (app_list u))) (load x) (load y))
    (generate_members m depth F u i peak dt) (generate_members m depth F v i peak dt).
Proof.
  induction m as [|m IH]; intros n u v Hu Hl; cbn [generate_members].
  - cbn. rewrite Nat.add_0_r. auto.
  - unfold generate_single_load_profile, draw_pref. rewrite (ur_p _ _ Hu).
    eapply psimr_bind with (R := fun x y => user_rel (fst x) (fst y) /\ List.length (app_list (fst x)) = List.length (app_list u) /\ num_users (fst x) = num_users u /\
         load (fst x) = load u /\ load (fst y) = load v /\ Forall2 (M (List.length (app_list u))) (snd x) (snd y)).
    + eapply psimr_bind; [apply psimr_eq|]. intros pref ? <-.
      eapply psimr_bind; [apply (apps_rel depth pref i peak dt (app_list u) (app_list v) 0); [exact (ur_apps _ _ Hu)|apply zeros_rel]|].
      intros x y (H0 & H1 & H2). cbn. split; [|split; [exact H0|auto]].
      constructor; cbn; [apply Hu|apply Hu|exact H1].
    + intros x y (R1 & R2 & R3 & R4 & R5 & R6).
      eapply psimr_mono; [|apply (IH (n + List.length (app_list u))%nat)].
      * intros p q (T1 & T2 & T3 & T4). cbn in T2, T3, T4. rewrite T2, T3. split; [exact T1|]. split; [exact R2|]. split; [exact R3|].
        rewrite R2 in T4. replace (n + S m * List.length (app_list u))%nat with (n + List.length (app_list u) + m * List.length (app_list u))%nat by lia. exact T4.
      * constructor; cbn; apply R1.
      * cbn. rewrite R4, R5. apply vadd_rel; assumption.
Qed.

(** the appliances of all members of all users *)
Definition units (us : list user) : nat := list_sum (map (fun u => Z.to_nat (num_users u) * List.length (app_list u))%nat us).

Lemma aggregated_rel depth i peak dt u v : user_rel u v ->
  psimr (fun x y => user_rel x y /\ List.length (app_list x) = List.length (app_list u) /\ num_users x = num_users u /\
      Forall2 (M (Z.to_nat (num_users u) * List.length (app_list u))) (load x) (load y))
    (generate_aggregated_load_profile depth F u i peak dt) (generate_aggregated_load_profile depth F v i peak dt).
Proof.
  intros Hu. unfold generate_aggregated_load_profile. rewrite (ur_n _ _ Hu).
  apply (members_rel depth i peak dt (Z.to_nat (num_users u)) 0 (set_load u (zeros day_minutes)) (set_load v (zeros day_minutes))).
  - constructor; cbn; apply Hu.
  - apply zeros_rel.
Qed.

Lemma users_rel depth i peak dt : forall us us' n acc acc', Forall2 user_rel us us' -> Forall2 (M n) acc acc' ->
  psimr (fun x y => Forall2 user_rel (fst x) (fst y) /\ units (fst x) = units us /\ Forall2 (M (n + units us)) (snd x) (snd y))
    (day_of_users depth F i peak dt us acc) (day_of_users depth F i peak dt us' acc').
Proof.
  induction us as [|u us IH]; intros us' n acc acc' Hus Hacc; inversion Hus as [|? v ? us1 Huv Hus1]; subst; cbn [day_of_users].
  - cbn. rewrite Nat.add_0_r. auto.
  - eapply psimr_bind; [apply aggregated_rel; exact Huv|]. intros x y (R1 & R2 & R3 & R4).
    eapply psimr_bind; [apply IH; [exact Hus1|apply vadd_rel; [exact Hacc|exact R4]]|]. intros p q (T1 & T2 & T3). cbn [psimr fst snd].
    split; [constructor; assumption|]. unfold units in *. cbn [map list_sum fold_right]. rewrite R2, R3. split; [f_equal; exact T2|].
    cbn [map list_sum fold_right]. rewrite Nat.add_assoc. exact T3.
Qed.

Lemma days_rel depth peak N : forall ds i us us' rows rows', Forall2 user_rel us us' -> units us = N -> Forall2 (Forall2 (M N)) rows rows' ->
  psimr (fun x y => Forall2 user_rel (fst x) (fst y) /\ Forall2 (Forall2 (M N)) (snd x) (snd y))
    (day_loop depth F peak i ds us rows) (day_loop depth F peak i ds us' rows').
Proof.
  induction ds as [|d ds IH]; intros i us us' rows rows' Hus Hn Hr; cbn [day_loop].
  - cbn. auto.
  - eapply psimr_bind; [apply (users_rel depth i peak (get_day_type d) us us' 0); [exact Hus|apply zeros_rel]|]. intros x y (R1 & R2 & R3).
    rewrite (f2_zlen _ _ _ Hr). destruct (zlen rows' <=? i); [reflexivity|]. apply IH; [exact R1|lia|]. apply f2_set; [exact Hr|]. rewrite Hn in R3. exact R3.
Qed.

(** ** The use case *)

Definition tail (depth : nat) (w : world) (c : usecase) (n : Z) : prog (usecase * list (list Q)) :=
  if n <? 0 then Raise ValueError
  else
    let rows := repeat (zeros day_minutes) (Z.to_nat n) in
    let peak := match peak_time_range c with Some p => p | None => [] end in
    let ds := match days c with Some ds => ds | None => [] end in
    r <- day_loop depth F peak 0 ds (users c) rows ;;
    Ret (set_users c (fst r), snd r).
Lemma tail_rel depth w c us' n : Forall2 user_rel (users c) us' ->
  psimr (fun x y => Forall2 (Forall2 (M (units (users c)))) (snd x) (snd y)) (tail depth w c n) (tail depth w (reuser us' c) n).
Proof.
  intros Hu. unfold tail. cbv zeta. destruct (n <? 0); [reflexivity|].
  change (peak_time_range (reuser us' c)) with (peak_time_range c). change (days (reuser us' c)) with (days c). change (users (reuser us' c)) with us'.
  eapply psimr_bind; [apply (days_rel depth _ (units (users c))); [exact Hu|reflexivity|]|].
  - apply f2_repeat. apply zeros_rel.
  - intros x y (_ & R). cbn. exact R.
Qed.

(** generate_daily_load_profiles() of an initialized use case *)
Lemma generate_rel depth w c us' n ds : Forall2 user_rel (users c) us' -> num_days_ c = Some n -> days c = Some ds ->
  psimr (fun x y => Forall2 (Forall2 (M (units (users c)))) (snd x) (snd y)) (generate_sequential depth F w c None) (generate_sequential depth F w (reuser us' c) None).
Proof.
  intros Hu Hn Hd. unfold generate_sequential, choose_days, UseCase.num_days. change (days (reuser us' c)) with (days c). rewrite Hd. cbn [lift bind].
  change (num_days_ (reuser us' c)) with (num_days_ c). rewrite Hn. cbn [bind fst snd]. exact (tail_rel depth w c us' n Hu).
Qed.

(** [PK]: the users have the same minutes of theoretical peak *)
Variable PK : list user -> list user -> Prop.
Hypothesis PK_grow : forall n us us', all_apps (has_power n) us -> all_apps (has_power n) us' -> PK us us' -> PK (grow n us) (grow n us').
Hypothesis PK_peak : forall c us', PK (users c) us' -> peak_window F (reuser us' c) = peak_window F c.

Lemma grown_rel n a b : app_rel a b -> app_rel (grown n a) (grown n b).
Proof.
  intros Ha. pose proof (ar_power _ _ Ha) as Hp. unfold grown. rewrite <- (f2_zlen _ _ _ Hp). destruct (zlen (power a) <? n); [|exact Ha].
  inversion Hp as [E1 E2|x y l l' Hx Hl E1 E2]; [exact Ha|].
  destruct Ha. constructor; cbn; try assumption. apply f2_repeat. exact Hx.
Qed.
Lemma check_err_rel n a b : app_rel a b -> check_err n b = check_err n a.
Proof.
  intros Ha. pose proof (ar_power _ _ Ha) as Hp. unfold check_err, check_power_values. rewrite <- (f2_zlen _ _ _ Hp), (ar_const _ _ Ha).
  destruct (_ <? _); [|reflexivity]. destruct (constant_power a); [|reflexivity]. inversion Hp; reflexivity.
Qed.
Lemma grow_rel n us us' : Forall2 user_rel us us' -> Forall2 user_rel (grow n us) (grow n us').
Proof.
  unfold grow. apply f2_map. intros u v Hu. constructor; cbn; [apply Hu|apply Hu|]. apply (f2_map app_rel); [intros; apply grown_rel; assumption|apply Hu].
Qed.
Lemma flat_rel us us' : Forall2 user_rel us us' -> Forall2 app_rel (flat_map app_list us) (flat_map app_list us').
Proof. induction 1 as [|u v us us' Hu _ IH]; cbn [flat_map]; [constructor|]. apply Forall2_app; [apply Hu|exact IH]. Qed.
Lemma first_err_rel n l l' : Forall2 app_rel l l' -> first_err n l' = first_err n l.
Proof. induction 1 as [|a b l l' Ha _ IH]; [reflexivity|]. cbn [first_err]. rewrite (check_err_rel n a b Ha), IH. reflexivity. Qed.
Lemma units_grow n us : units (grow n us) = units us.
Proof. unfold units, grow. rewrite map_map. f_equal. apply map_ext. intros u. cbn. rewrite map_length. reflexivity. Qed.
Lemma peak_reuser c us' : PK (users c) us' -> calc_peak_time_range F (reuser us' c) = calc_peak_time_range F c.
Proof. intros H. unfold calc_peak_time_range. rewrite (PK_peak c us' H). reflexivity. Qed.

(** after initialize *)
Definition init_rel (N : nat) (r q : usecase * option exc) : Prop :=
  snd q = snd r /\ (snd r = None -> exists us', fst q = reuser us' (fst r) /\ collected (fst r) = positions_from 0 (users (fst r)) /\
    Forall2 user_rel (users (fst r)) us' /\ PK (users (fst r)) us' /\ units (users (fst r)) = N).

Lemma finish_rel c us' pe : collected c = positions_from 0 (users c) -> Forall2 user_rel (users c) us' -> PK (users c) us' ->
  psimr (init_rel (units (users c))) (init_finish F c pe) (init_finish F (reuser us' c) pe).
Proof.
  intros Hc Hu Hk. unfold init_finish. cbv zeta. change (num_days_ (reuser us' c)) with (num_days_ c).
  set (n := match num_days_ c with Some n => n | None => 0 end).
  change (users (reuser us' c)) with us'. change (collected (reuser us' c)) with (positions_from 0 us'). rewrite Hc.
  rewrite (check_positions n us'), (check_positions n (users c)). rewrite (first_err_rel n _ _ (flat_rel _ _ Hu)).
  destruct (first_err n (flat_map app_list (users c))) as [e|] eqn:Ee; [cbn; split; [reflexivity|discriminate]|].
  assert (P : forall us, first_err n (flat_map app_list us) = None -> all_apps (has_power n) us).
  { clear. intros us E. apply first_err_has in E. unfold all_apps. induction us as [|u us IH]; constructor.
    - cbn [flat_map] in E. apply Forall_app in E. apply E.
    - apply IH. cbn [flat_map] in E. apply Forall_app in E. apply E. }
  rewrite (proj2 (check_all n (users c) _ eq_refl) (P _ Ee)).
  pose proof (P _ Ee) as Pu. assert (Pu' : all_apps (has_power n) us') by (apply P; rewrite (first_err_rel n _ _ (flat_rel _ _ Hu)); exact Ee).
  rewrite (proj2 (check_all n us' _ eq_refl) Pu'). cbn [fst].
  assert (Ec : set_users (reuser us' c) (grow n us') = reuser (grow n us') (set_users c (grow n (users c)))).
  { unfold reuser. rewrite grow_positions. destruct c; reflexivity. }
  rewrite Ec. clear Ec. rewrite <- (units_grow n (users c)). set (c2 := set_users c (grow n (users c))).
  assert (Hc2 : collected c2 = positions_from 0 (users c2)).
  { change (collected c2) with (collected c). change (users c2) with (grow n (users c)). rewrite grow_positions. exact Hc. }
  change (grow n (users c)) with (users c2).
  assert (Hu2 : Forall2 user_rel (users c2) (grow n us')) by exact (grow_rel n _ _ Hu).
  assert (Hk2 : PK (users c2) (grow n us')) by exact (PK_grow n _ _ Pu Pu' Hk).
  clearbody c2. generalize dependent (grow n us'). clear Hc Hu Hk us' n Ee c P Pu Pu'. intros us' Hu Hk.
  eapply psimr_bind with (R := fun r q => snd q = snd r /\ fst q = reuser us' (fst r) /\ users (fst r) = users c2 /\ collected (fst r) = collected c2).
  - assert (R : forall d, users d = users c2 -> collected d = collected c2 ->
      psimr (fun r q => snd q = snd r /\ fst q = reuser us' (fst r) /\ users (fst r) = users c2 /\ collected (fst r) = collected c2)
        (x <- calc_peak_time_range F d ;; Ret (match x with Ok p => (set_peak d (Some p), None) | Err e => (d, Some e) end))
        (x <- calc_peak_time_range F (reuser us' d) ;; Ret (match x with Ok p => (set_peak (reuser us' d) (Some p), None) | Err e => (reuser us' d, Some e) end))).
    { intros d H1 H2. rewrite peak_reuser by (rewrite H1; exact Hk). eapply psimr_bind; [apply psimr_eq|]. intros x ? <-. destruct x; cbn; auto. }
    destruct pe as [[q|]|]; [| |exact (R c2 eq_refl eq_refl)].
    + unfold set_peak_enlarge. destruct (Qle_bool 0 q); [|cbn; auto]. exact (R (set_enlarge c2 q) eq_refl eq_refl).
    + cbn. auto.
  - intros [c1 e1] [c3 e3] (E1 & E2 & E3 & E4). cbn [fst snd] in *. subst e3 c3. destruct e1 as [e|]; [cbn; split; [reflexivity|discriminate]|].
    cbn [psimr snd fst]. split; [reflexivity|]. intros _. exists us'. cbn [fst snd]. rewrite init_index_reuser. split; [reflexivity|].
    assert (I : users (init_index c1) = users c1 /\ collected (init_index c1) = collected c1) by (unfold init_index; destruct (days c1) as [[|x l]|]; auto).
    destruct I as [-> ->]. rewrite E3, E4. auto.
Qed.

Lemma initialize_rel w c us' num pe : collected c = positions_from 0 (users c) -> Forall2 user_rel (users c) us' -> PK (users c) us' ->
  psimr (init_rel (units (users c))) (initialize F w c num pe false) (initialize F w (reuser us' c) num pe false).
Proof.
  intros Hc Hu Hk. rewrite !initialize_stages. change (is_initialized (reuser us' c)) with (is_initialized c).
  destruct (is_initialized c && negb false).
  - cbn. split; [reflexivity|]. intros _. exists us'. auto.
  - destruct (dates_stage w c num false) as [c2 e] eqn:E. rewrite (dates_stage_reuser us' w c num c2 e E).
    destruct e as [e|]; [cbn; split; [reflexivity|discriminate]|].
    destruct (dates_stage_same w c num false c2 None E) as (_ & _ & _ & _ & _ & _ & _ & H1 & H2).
    rewrite <- H1 in Hc, Hu, Hk |- *. rewrite <- H2 in Hc. exact (finish_rel c2 us' pe Hc Hu Hk).
Qed.

(** the whole script *)
Theorem simulate_rel depth w us us' start stop enl seed num pe : Forall2 user_rel us us' -> PK us us' ->
  psimr (fun x y => Forall2 (Forall2 (M (units us))) (snd x) (snd y))
    (PropsTotal.simulate depth F w us start stop enl seed num pe) (PropsTotal.simulate depth F w us' start stop enl seed num pe).
Proof.
  intros Hu Hk. unfold PropsTotal.simulate.
  eapply psimr_bind with (R := fun c c' => exists vs, c' = reuser vs c /\ collected c = positions_from 0 (users c) /\
     Forall2 user_rel (users c) vs /\ PK (users c) vs /\ units (users c) = units us).
  - unfold new_usecase. cbv zeta. set (b := blank start stop false enl seed us).
    change (blank start stop false enl seed us') with (reuser us' b).
    eapply psimr_bind with (R := fun c c' => exists vs, c' = reuser vs c /\ collected c = positions_from 0 (users c) /\
     Forall2 user_rel (users c) vs /\ PK (users c) vs /\ units (users c) = units us).
    + assert (B : psimr (fun c c' => exists vs, c' = reuser vs c /\ collected c = positions_from 0 (users c) /\
        Forall2 user_rel (users c) vs /\ PK (users c) vs /\ units (users c) = units us) (Ret b) (Ret (reuser us' b))).
      { cbn. exists us'. auto. }
      destruct start as [sd|]; [destruct stop as [ed|]|]; try exact B. clear B.
      eapply psimr_bind; [apply (initialize_rel w b us' None None eq_refl Hu Hk)|]. intros [c1 e1] [c2 e2] (R1 & R2). cbn [fst snd] in *. subst e2.
      destruct e1 as [e|]; [reflexivity|]. exact (R2 eq_refl).
    + intros c c' H. destruct (seed_of seed); cbn; [split; [reflexivity|]|]; exact H.
  - intros c c' (vs & -> & Hc & Hv & Hkv & HN).
    eapply psimr_bind; [apply (initialize_rel w c vs num pe Hc Hv Hkv)|]. intros [c1 e1] [c2 e2] (R1 & R2). cbn [fst snd] in *. subst e2.
    destruct e1 as [e|]; [reflexivity|]. destruct (R2 eq_refl) as (vs1 & -> & Hc1 & Hv1 & Hk1 & HN1). rewrite HN in HN1. clear c vs Hc Hv Hkv HN R2.
    unfold generate_sequential. rewrite choose_days_reuser. destruct (choose_days c1 None) as [d|e] eqn:Ed; [|reflexivity]. cbn [lift bind].
    assert (Hd : d = c1) by (unfold choose_days in Ed; destruct (days c1); [congruence|discriminate]). subst d. clear Ed.
    eapply psimr_bind with (R := fun x y => snd y = snd x /\ exists vs, fst y = reuser vs (fst x) /\ Forall2 user_rel (users (fst x)) vs /\ units (users (fst x)) = units us).
    + unfold UseCase.num_days. change (num_days_ (reuser vs1 c1)) with (num_days_ c1). destruct (num_days_ c1) as [n|].
      * cbn. split; [reflexivity|]. exists vs1. auto.
      * eapply psimr_bind; [apply (initialize_rel w c1 vs1 None None Hc1 Hv1 Hk1)|]. intros [c2 e2] [c3 e3] (R1 & R2). cbn [fst snd] in *. subst e3.
        destruct e2 as [e|]; [reflexivity|]. destruct (R2 eq_refl) as (vs2 & -> & Hc2 & Hv2 & Hk2 & HN2). change (num_days_ (reuser vs2 c2)) with (num_days_ c2).
        destruct (num_days_ c2); [|reflexivity]. cbn. split; [reflexivity|]. exists vs2. rewrite HN2. auto.
    + intros [c2 n] [c3 n'] (E & vs & E1 & Hv & HN). cbn [fst snd] in *. subst n' c3. rewrite <- HN. exact (tail_rel depth w c2 vs n Hv).
Qed.
End sim.
