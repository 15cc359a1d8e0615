(** * SimShift: an appliance whose windows lie [k] minutes later (proof machinery; no RAMP code modelled) *)
From Verif Require Import Base Wp Tape Utils ListLemmas Appliance User Sim UseCase Spec SpecDay SpecUser SpecUseCase ProofsAppliance ProofsEvent ProofsEvent2
  ProofsDay ProofsUser ProofsRun SimScale.
From Coq Require Import ZifyBool ZifyNat.
Open Scope list_scope.
Open Scope Z_scope.

(** ** Specification *)

(** the load at minute [t]; none outside of the day *)
Definition load_at (l : list Q) (t : Z) : Q := if (0 <=? t) && (t <? 1440) then value_at l t else 0%Q.

(** [y] is the daily profile [x] moved by [k] minutes, nothing being lost at the ends of the day *)
Definition moved (k : Z) (x y : list Q) : Prop :=
  List.length x = day_minutes /\ List.length y = day_minutes /\ forall t, (load_at y (t + k) == load_at x t)%Q.

(** a declared window moved by [k] minutes; (0,0) means "no window" and stays *)
Definition move_window (k : Z) (w : Z * Z) : Z * Z :=
  if (fst w =? 0) && (snd w =? 0) then w else (fst w + k, snd w + k).

Definition move_wins (k : Z) (w : wins) : wins :=
  Wins (move_window k (window_1 w)) (move_window k (window_2 w)) (move_window k (window_3 w)) (random_var_w w) (random_var_1 w) (random_var_2 w) (random_var_3 w).
Definition move_cycle (k : Z) (c : cycle) : cycle :=
  Cycle (cp1 c) (ct1 c) (cp2 c) (ct2 c) (cr c) (move_window k (cwa c)) (move_window k (cwb c)).

(** the appliance declared with windows of use and duty cycle windows [k] minutes later, and all else the same *)
Definition move_app (k : Z) (a : appliance) : appliance :=
  App (par a) (power a) (constant_power a) (move_wins k (win a)) (move_cycle k (cyc1 a)) (move_cycle k (cyc2 a)) (move_cycle k (cyc3 a)) (st a).

(** a window, enlarged by its random variability [rv], is within the day before and after the move ([first]: the first allowed minute) *)
Definition window_room (first k : Z) (w : Z * Z) (rv : Z) : Prop :=
  (w = (0, 0) /\ rv = 0) \/
  (0 <= rv /\ first <= fst w - rv /\ first <= fst w - rv + k /\ snd w + rv <= 1440 /\ snd w + rv + k <= 1440).

(** the appliance can be moved: all its windows are, and those of an appliance with duty cycles leave minute 0 alone (an undeclared
    duty cycle window is (0,0) and contains minute 0) *)
Definition can_move (k : Z) (a : appliance) : Prop :=
  let first := if fixed_cycle (par a) >? 0 then 1 else 0 in
  0 <= func_cycle (par a) /\
  window_room first k (window_1 (win a)) (random_var_1 (win a)) /\
  window_room first k (window_2 (win a)) (random_var_2 (win a)) /\
  window_room first k (window_3 (win a)) (random_var_3 (win a)).

(** ** Lists *)

Lemma load_at_in l t : 0 <= t < 1440 -> load_at l t = value_at l t.
Proof. intros H. unfold load_at. replace ((0 <=? t) && (t <? 1440)) with true by lia. reflexivity. Qed.
Lemma load_at_out l t : ~ 0 <= t < 1440 -> load_at l t = 0%Q.
Proof. intros H. unfold load_at. replace ((0 <=? t) && (t <? 1440)) with false by lia. reflexivity. Qed.

Lemma moved_zeros k : moved k (zeros day_minutes) (zeros day_minutes).
Proof.
  split; [apply repeat_length|]. split; [apply repeat_length|]. intros t. unfold load_at. rewrite !value_at_zeros.
  destruct (_ && _), (_ && _); reflexivity.
Qed.

Lemma load_at_vadd F x y t : List.length x = day_minutes -> List.length y = day_minutes -> (load_at (vadd F x y) t == fadd F (load_at x t) (load_at y t))%Q.
Proof.
  intros Hx Hy. unfold load_at. destruct ((0 <=? t) && (t <? 1440)) eqn:E.
  - rewrite value_at_vadd by (assumption || lia). reflexivity.
  - unfold fadd. symmetry. change (0 + 0)%Q with 0%Q. apply rnd_0.
Qed.

Lemma moved_vadd F k x x' y y' : moved k x x' -> moved k y y' -> moved k (vadd F x y) (vadd F x' y').
Proof.
  intros (A1 & A2 & A3) (B1 & B2 & B3). split; [rewrite vadd_len, A1, B1; lia|]. split; [rewrite vadd_len, A2, B2; lia|].
  intros t. rewrite !load_at_vadd by assumption. unfold fadd. rewrite A3, B3. reflexivity.
Qed.

Lemma zlen_day (l : list Q) : List.length l = day_minutes -> zlen l = 1440.
Proof. intros H. unfold zlen. rewrite H. reflexivity. Qed.
Lemma len_day (l : list Q) : zlen l = 1440 -> List.length l = day_minutes.
Proof. intros H. unfold zlen in H. unfold day_minutes. lia. Qed.

(** writing the same values to places [k] minutes apart *)
Lemma moved_write k x x' y y' (lo hi : Z) (v : Z -> Q) : moved k x x' ->
  0 <= lo -> hi <= 1440 -> 0 <= lo + k -> hi + k <= 1440 ->
  zlen y = 1440 -> zlen y' = 1440 ->
  (forall t, 0 <= t < 1440 -> at_minute t y = if (lo <=? t) && (t <? hi) then v t else at_minute t x) ->
  (forall t, 0 <= t < 1440 -> at_minute t y' = if (lo + k <=? t) && (t <? hi + k) then v (t - k) else at_minute t x') ->
  moved k y y'.
Proof.
  intros (A1 & A2 & A3) H1 H2 H3 H4 L1 L2 Hy Hy'. split; [apply len_day, L1|]. split; [apply len_day, L2|]. intros t.
  destruct ((lo <=? t) && (t <? hi)) eqn:E.
  - rewrite !load_at_in by lia. rewrite !value_at_minute, Hy, Hy' by lia. rewrite E.
    replace ((lo + k <=? t + k) && (t + k <? hi + k)) with true by lia. replace (t + k - k) with t by lia. reflexivity.
  - specialize (A3 t).
    assert (G : (load_at y t = load_at x t)).
    { destruct ((0 <=? t) && (t <? 1440)) eqn:Ed; [|rewrite !load_at_out by lia; reflexivity].
      rewrite !load_at_in by lia. rewrite !value_at_minute, Hy by lia. rewrite E. reflexivity. }
    assert (G' : (load_at y' (t + k) = load_at x' (t + k))).
    { destruct ((0 <=? t + k) && (t + k <? 1440)) eqn:Ed; [|rewrite !load_at_out by lia; reflexivity].
      rewrite !load_at_in by lia. rewrite !value_at_minute, Hy' by lia.
      replace ((lo + k <=? t + k) && (t + k <? hi + k)) with false by lia. reflexivity. }
    rewrite G, G'. exact A3.
Qed.

(** a drawn window *)
Definition drawn_room (first k : Z) (w : Z * Z) : Prop :=
  first <= fst w /\ first <= fst w + k /\ snd w <= 1440 /\ snd w + k <= 1440.
Definition drawn (first k : Z) (w w' : Z * Z) : Prop :=
  (w = (0, 0) /\ w' = (0, 0)) \/ (drawn_room first k w /\ w' = (fst w + k, snd w + k)).

Lemma moved_fill first k d d' w w' v : 0 <= first -> moved k d d' -> drawn first k w w' -> rrel (moved k) (fill_window d w v) (fill_window d' w' v).
Proof.
  intros Hf Hm Hw. pose proof Hm as (L1 & L2 & L3). pose proof (zlen_day _ L1) as Z1. pose proof (zlen_day _ L2) as Z2. unfold fill_window, diff.
  destruct Hw as [(-> & ->)|((R1 & R2 & R3 & R4) & ->)]; cbn [fst snd].
  - assert (G : forall x, exists y, np_fill_slice x 0 0 (0 - 0) v = Ok y /\ zlen y = zlen x /\ forall t, 0 <= t < zlen x -> at_minute t y = at_minute t x).
    { intros x. destruct (np_fill_slice_ok x 0 0 v) as (y & Hy); [lia|apply zlen_nonneg|]. exists y. split; [exact Hy|].
      destruct (np_fill_slice_inv x 0 0 v y) as (_ & H1 & H2); [lia|apply zlen_nonneg|exact Hy|]. split; [exact H1|]. intros t Ht. rewrite H2 by lia.
      replace ((0 <=? t) && (t <? 0)) with false by lia. reflexivity. }
    destruct (G d) as (y & -> & Hy1 & Hy2). destruct (G d') as (y' & -> & Hy3 & Hy4). cbn [rrel].
    assert (E : forall x y, zlen x = 1440 -> (forall t, 0 <= t < zlen x -> at_minute t y = at_minute t x) -> forall t, load_at y t = load_at x t).
    { intros x z Hz H t. unfold load_at. destruct ((0 <=? t) && (t <? 1440)) eqn:Et; [|reflexivity]. rewrite !value_at_minute. apply H. lia. }
    split; [apply len_day; lia|]. split; [apply len_day; lia|]. intros t. rewrite (E d y Z1 Hy2), (E d' y' Z2 Hy4). apply L3.
  - replace (snd w + k - (fst w + k)) with (snd w - fst w) by lia.
    destruct (Z_lt_le_dec (snd w) (fst w)) as [Hlt|Hge].
    { unfold np_fill_slice. replace (snd w - fst w <? 0) with true by lia. reflexivity. }
    destruct (np_fill_slice_ok d (fst w) (snd w) v) as (y & Hy); [lia|lia|].
    destruct (np_fill_slice_ok d' (fst w + k) (snd w + k) v) as (y' & Hy'); [lia|lia|].
    replace (snd w + k - (fst w + k)) with (snd w - fst w) in Hy' by lia. rewrite Hy, Hy'. cbn [rrel].
    destruct (np_fill_slice_inv d (fst w) (snd w) v y) as (_ & H1 & H2); [lia|lia|exact Hy|].
    destruct (np_fill_slice_inv d' (fst w + k) (snd w + k) v y') as (_ & H3 & H4); [lia|lia|replace (snd w + k - (fst w + k)) with (snd w - fst w) by lia; exact Hy'|].
    apply (moved_write k d d' y y' (fst w) (snd w) (fun _ => v)); try assumption; try lia.
    + intros t Ht. apply H2. lia.
    + intros t Ht. apply H4. lia.
Qed.

Lemma moved_fills first k v : 0 <= first -> forall ws ws', Forall2 (drawn first k) ws ws' -> forall d d', moved k d d' ->
  rrel (moved k) (fill_windows d ws v) (fill_windows d' ws' v).
Proof.
  intros Hf. induction 1 as [|w w' ws ws' Hw _ IH]; intros d d' Hd; cbn [fill_windows]; [exact Hd|].
  pose proof (moved_fill first k d d' w w' v Hf Hd Hw) as G. destruct (fill_window d w v), (fill_window d' w' v); cbn in *; try contradiction; [apply IH; exact G|exact G].
Qed.

(** ** Free ranges *)

Definition later (k : Z) (s : Z * Z) : Z * Z := (fst s + k, snd s + k).

Lemma arange_later k a b : arange (a + k) (b + k) = map (fun t => t + k) (arange a b).
Proof.
  unfold arange. rewrite map_map. replace (b + k - (a + k)) with (b - a) by lia. apply map_ext. intros i. lia.
Qed.

Lemma choices_later k fc spots : indexes_choice (map (later k) spots) fc = map (fun t => t + k) (indexes_choice spots fc).
Proof.
  unfold indexes_choice. induction spots as [|s spots IH]; cbn [map flat_map]; [reflexivity|]. rewrite map_app, <- IH. f_equal.
  unfold later. cbn [fst snd]. replace (snd s + k - (fst s + k)) with (snd s - fst s) by lia. destruct (_ >=? fc); [|reflexivity].
  replace (snd s + k - fc + 1) with (snd s - fc + 1 + k) by lia. apply arange_later.
Qed.

Lemma find_later k fc x spots : find_spot (map (later k) spots) fc (x + k) = option_map (later k) (find_spot spots fc x).
Proof.
  unfold find_spot. induction spots as [|s spots IH]; cbn [map find]; [reflexivity|].
  cbn [later fst snd].
  assert (E : (fst s + k <=? x + k) && (x + k <=? snd s + k - fc) = ((fst s <=? x) && (x <=? snd s - fc))) by lia.
  rewrite E. destruct ((fst s <=? x) && (x <=? snd s - fc)); [reflexivity|exact IH].
Qed.

Lemma book_later k i0 il spots : book_spot (map (later k) spots) (i0 + k) (il + k) = map (later k) (book_spot spots i0 il).
Proof.
  induction spots as [|[s e] spots IH]; cbn [map book_spot later fst snd]; [reflexivity|].
  replace (i0 + k >=? s + k) with (i0 >=? s) by lia. replace (il + k <=? e + k) with (il <=? e) by lia.
  replace (i0 + k =? s + k) with (i0 =? s) by lia. replace (il + k =? e + k) with (il =? e) by lia.
  replace (il + k + 1) with (il + 1 + k) by lia.
  destruct ((i0 >=? s) && (il <=? e)); [|cbn [map later fst snd]; rewrite <- IH; reflexivity].
  destruct ((i0 =? s) && (il =? e)); [reflexivity|]. destruct (i0 =? s); [reflexivity|]. destruct (il =? e); reflexivity.
Qed.

Lemma book_room first k i0 il spots : i0 <= il -> Forall (drawn_room first k) spots -> Forall (drawn_room first k) (book_spot spots i0 il).
Proof.
  intros Hi. induction 1 as [|[s e] spots (R1 & R2 & R3 & R4) H IH]; cbn [book_spot]; [constructor|]. cbn [fst snd] in *.
  destruct ((i0 >=? s) && (il <=? e)) eqn:E; [|constructor; [unfold drawn_room; cbn [fst snd]; auto|exact IH]].
  destruct ((i0 =? s) && (il =? e)); [exact H|]. unfold drawn_room in *.
  destruct (i0 =? s); [constructor; [cbn [fst snd]; lia|exact H]|]. destruct (il =? e); [constructor; [cbn [fst snd]; lia|exact H]|].
  constructor; [cbn [fst snd]; lia|]. constructor; [cbn [fst snd]; lia|exact H].
Qed.

Lemma select_later k a lo hi : 1 <= lo -> 1 <= lo + k -> lo <= hi -> select_cycle (move_app k a) (lo + k) (hi + k) = select_cycle a lo hi.
Proof.
  intros H1 H2 H3.
  assert (G : forall w, range_within_window (lo + k) (hi + k) (move_window k w) = range_within_window lo hi w).
  { intros [x y]. unfold range_within_window, move_window. cbn [fst snd]. destruct ((x =? 0) && (y =? 0)) eqn:E; cbn [fst snd]; lia. }
  unfold select_cycle. cbn [cyc1 cyc2 cyc3 move_app move_cycle cwa cwb]. rewrite !G. reflexivity.
Qed.


(** ** Two programs that draw the same; only draws of their range matter *)
Fixpoint psimd {A B} (R : A -> B -> Prop) (p : prog A) (q : prog B) : Prop :=
  match p, q with
  | Ret a, Ret b => R a b
  | Raise e, Raise e' => e = e'
  | Random k, Random k' => forall u, (0 <= u < 1)%Q -> psimd R (k u) (k' u)
  | RandBelow n k, RandBelow n' k' => n = n' /\ 0 < n /\ forall i, 0 <= i < n -> psimd R (k i) (k' i)
  | Normal c k, Normal c' k' => c = c' /\ forall z, psimd R (k z) (k' z)
  | Seed s k, Seed s' k' => s = s' /\ psimd R k k'
  | _, _ => False
  end.

Lemma psimd_bind {A B A' B'} (R : A -> B -> Prop) (T : A' -> B' -> Prop) p q f g :
  psimd R p q -> (forall a b, R a b -> psimd T (f a) (g b)) -> psimd T (bind p f) (bind q g).
Proof.
  revert q; induction p as [a|e|k IH|n k IH|c k IH|s k IH]; intros [b|e'|k'|n' k'|c' k'|s' k'] H Hf; cbn in *; try contradiction; auto;
  try (destruct H as [H1 [H2 H3]]; split; [exact H1|split; [exact H2|auto]]; fail); destruct H as [H1 H2]; split; auto.
Qed.
Lemma psimd_mono {A B} (R T : A -> B -> Prop) p q : (forall a b, R a b -> T a b) -> psimd R p q -> psimd T p q.
Proof.
  intros HRS. revert q; induction p as [a|e|k IH|n k IH|c k IH|s k IH]; intros [b|e'|k'|n' k'|c' k'|s' k'] H; cbn in *; try contradiction; auto;
  try (destruct H as [H1 [H2 H3]]; split; [exact H1|split; [exact H2|auto]]; fail); destruct H as [H1 H2]; split; auto.
Qed.
(** the same program, with what is known of its results *)
Lemma psimd_same {A} (p : prog A) (P : A -> Prop) : below_pos p -> wp p (fun r => match r with Ok x => P x | Err _ => True end) -> psimd (fun x y => y = x /\ P x) p p.
Proof.
  induction p as [a|e|k IH|n k IH|c k IH|s k IH]; cbn [wp psimd below_pos]; intros B W; auto.
  - intros u [H0 H1]. auto.
  - destruct B as [B1 B2]. auto.
Qed.
Lemma psimd_eq {A} (p : prog A) : below_pos p -> psimd eq p p.
Proof. induction p as [a|e|k IH|n k IH|c k IH|s k IH]; cbn; auto. intros [B1 B2]. auto. Qed.
Lemma psimd_lift {A B} (R : A -> B -> Prop) x y : rrel R x y -> psimd R (lift x) (lift y).
Proof. destruct x, y; cbn; auto. Qed.
Lemma psimd_may {A B} (R : A -> B -> Prop) p q r : psimd R p q -> may p r ->
  match r with Ok a => exists b, may q (Ok b) /\ R a b | Err e => may q (Err e) end.
Proof.
  intros H Hr. revert q H; induction Hr as [a|e|u k r H0 H1 Hr IH|n i k r H0 Hr IH|c z k r Hr IH|s k r Hr IH];
    intros [b|e'|k'|n' k'|c' k'|s' k'] H; cbn in H; try contradiction.
  - exists b. split; [constructor|exact H].
  - subst. constructor.
  - specialize (IH _ (H u (conj H0 H1))). destruct r as [a|e].
    + destruct IH as (b & Hb & HR). exists b. split; [econstructor; eauto|exact HR].
    + econstructor; eauto.
  - destruct H as (-> & _ & H). specialize (IH _ (H i H0)). destruct r as [a|e].
    + destruct IH as (b & Hb & HR). exists b. split; [econstructor; eauto|exact HR].
    + econstructor; eauto.
  - destruct H as [-> H]. specialize (IH _ (H z)). destruct r as [a|e].
    + destruct IH as (b & Hb & HR). exists b. split; [econstructor; eauto|exact HR].
    + econstructor; eauto.
  - destruct H as [-> H]. specialize (IH _ H). destruct r as [a|e].
    + destruct IH as (b & Hb & HR). exists b. split; [econstructor; eauto|exact HR].
    + econstructor; eauto.
Qed.

Lemma psimd_run {A B} (R : A -> B -> Prop) p q (G : generator) s :
  psimd R p q ->
  snd (run G p s) = snd (run G q s) /\
  match fst (run G p s), fst (run G q s) with
  | Ok a, Ok b => R a b
  | Err e, Err e' => e = e'
  | _, _ => False
  end.
Proof.
  revert q s; induction p as [a|e|k IH|n k IH|c k IH|z k IH]; intros [b|e'|k'|n' k'|c' k'|s' k'] s H; cbn in H; try contradiction; cbn [run].
  - auto.
  - auto.
  - pose proof (g_random_range G s) as Hr. destruct (g_random G s) as [u s1]. apply IH. apply H. exact Hr.
  - destruct H as (-> & Hn & H). pose proof (g_below_range G n' s Hn) as Hr. destruct (g_below G n' s). apply IH. apply H. exact Hr.
  - destruct H as [-> H]. destruct (g_normal G c' s). apply IH. apply H.
  - destruct H as [-> H]. apply IH. exact H.
Qed.

(** ** One day of an appliance *)

Definition day_like (first k : Z) (d d' : dyn) : Prop :=
  moved k (daily_use d) (daily_use d') /\ free_spots d' = map (later k) (free_spots d) /\ Forall (drawn_room first k) (free_spots d) /\
  random_cycle1 d' = random_cycle1 d /\ random_cycle2 d' = random_cycle2 d /\ random_cycle3 d' = random_cycle3 d /\
  current_duty_cycle_id d' = current_duty_cycle_id d.

Section day.
Variables (depth : nat) (F : fm) (k : Z) (a : appliance) (d0 : dyn) (first : Z).
Hypothesis first_pos : 0 <= first.
Hypothesis first_cycle : fixed_cycle (par a) > 0 -> 1 <= first.
Let a' : appliance := set_st (move_app k a) d0.

Lemma cycle_like i d d' : day_like first k d d' -> cycle_of d' i = cycle_of d i.
Proof. intros (_ & _ & _ & H1 & H2 & H3 & _). unfold cycle_of. rewrite H1, H2, H3. reflexivity. Qed.

Definition good_event (ix : list Z) : Prop := exists x n, ix = arange x (x + n) /\ 0 <= n /\ first <= x /\ first <= x + k /\ x + n <= 1440 /\ x + n + k <= 1440.

Definition event_like (x y : option (list Z) * dyn) : Prop :=
  match fst x, fst y with
  | None, None => True
  | Some ix, Some iy => iy = map (fun t => t + k) ix /\ good_event ix
  | _, _ => False
  end /\ day_like first k (snd x) (snd y).

Lemma index_later l i : rrel (fun x y => y = x + k /\ In x l) (py_index l i) (py_index (map (fun t => t + k) l) i).
Proof.
  assert (F2 : Forall2 (fun x y => y = x + k /\ In x l) l (map (fun t => t + k) l)).
  { assert (G : forall m, (forall x, In x m -> In x l) -> Forall2 (fun x y => y = x + k /\ In x l) m (map (fun t => t + k) m)).
    { induction m as [|x m IH]; intros H; cbn [map]; constructor; [split; [reflexivity|apply H; now left]|apply IH; intros z Hz; apply H; now right]. }
    apply G. auto. }
  apply index_rel. exact F2.
Qed.

Lemma rsw_later rt d d' : 0 <= func_cycle (par a) <= rt -> rt <= 2 ^ 52 -> day_like first k d d' ->
  psimd event_like (rand_switch_on_window depth F a d rt) (rand_switch_on_window depth F a' d' rt).
Proof.
  intros Hfc Hrt Hd. induction depth as [|n IH]; [reflexivity|]. rewrite !rsw_unfold. cbv zeta.
  change (func_cycle (par a')) with (func_cycle (par a)). set (fc := func_cycle (par a)) in *.
  pose proof Hd as (D1 & D2 & D3 & D4). rewrite D2, choices_later.
  set (ch := indexes_choice (free_spots d) fc). replace (zlen (map (fun t => t + k) ch)) with (zlen ch) by (unfold zlen; rewrite map_length; reflexivity).
  destruct (zlen ch >? 0) eqn:En; [|cbn; split; [exact I|exact Hd]].
  eapply psimd_bind; [apply psimd_eq, below_pos_randint|]. intros j ? <-.
  eapply psimd_bind; [apply psimd_lift, index_later|]. intros x y (-> & Hin).
  rewrite find_later. destruct (find_spot_some _ _ _ Hin) as (spot & Hf & Hs & H1 & H2). rewrite Hf. cbn [option_map].
  pose proof (proj1 (Forall_forall _ _) D3 _ Hs) as (R1 & R2 & R3 & R4).
  eapply psimd_bind with (R := fun ix iy => iy = map (fun t => t + k) ix /\ good_event ix).
  - assert (W : wp (draw_indexes F fc rt x spot) (fun r => match r with Ok ix => good_event ix | Err _ => True end)).
    { eapply wp_mono; [|apply draw_indexes_spec; [exact Hfc|exact Hrt|exact H2]]. intros r (m & -> & M1 & M2). exists x, m. repeat split; lia. }
    revert W. unfold draw_indexes. cbv zeta. unfold later. cbn [fst snd]. replace (snd spot + k - (x + k)) with (snd spot - x) by lia.
    destruct (_ >? fc).
    + intros W. rewrite wp_bind in W. unfold py_uniform in *. cbn [bind psimd wp wpk] in *. intros u [U0 U1]. specialize (W u U0 U1). cbn [wpk wp] in W.
      split; [|exact W]. set (m := py_int _). replace (x + k + m) with (x + m + k) by lia. apply arange_later.
    + destruct (_ =? fc); [|reflexivity]. cbn [wp psimd]. intros W. split; [|exact W]. set (m := Z.min _ _). replace (x + k + m) with (x + m + k) by lia. apply arange_later.
  - intros ix iy (-> & (x0 & m & -> & G0 & G1 & G2 & G3 & G4)). unfold choose_cycle. change (fixed_cycle (par a')) with (fixed_cycle (par a)).
    destruct (fixed_cycle (par a) >? 0) eqn:Ef.
    2:{ cbn [psimd]. split; [|exact Hd]. split; [reflexivity|]. exists x0, m. auto 10. }
    rewrite <- arange_later. destruct (Z.eq_dec m 0) as [->|Hm]; [rewrite !arange_nil by lia; reflexivity|].
    rewrite !py_first_arange, !py_last_arange by lia. cbn [lift bind].
    replace (x0 + m + k - 1) with (x0 + m - 1 + k) by lia. change (select_cycle a') with (select_cycle (move_app k a)). assert (Hfirst : 1 <= first) by (apply first_cycle; lia).
    rewrite select_later by lia. destruct (select_cycle a x0 (x0 + m - 1)) as [i|]; [|exact IH].
    cbn [psimd]. rewrite (cycle_like i d d' Hd). change (continuous_duty_cycle (par a')) with (continuous_duty_cycle (par a)).
    replace (zlen (arange (x0 + k) (x0 + m + k))) with (zlen (arange x0 (x0 + m))) by (rewrite !zlen_arange; lia).
    split; cbn [fst snd].
    + pose proof (zlen_nonneg (cycle_of d i)) as Hz. set (dur := zlen (cycle_of d i)) in *. destruct (_ && _) eqn:Ec.
      * rewrite !firstn_arange. split; [rewrite <- arange_later; f_equal; lia|]. exists x0, (Z.min m dur). split; [f_equal; lia|lia].
      * split; [apply arange_later|]. exists x0, m. auto 10.
    + destruct D4 as (E1 & E2 & E3 & E4). unfold day_like. cbn. auto 10.
Qed.

Lemma put_later d d' x n vals : moved k d d' -> 0 <= n -> 0 <= x -> 0 <= x + k -> x + n <= 1440 -> x + n + k <= 1440 ->
  rrel (moved k) (np_put d (arange x (x + n)) vals) (np_put d' (arange (x + k) (x + n + k)) vals).
Proof.
  intros Hm Hn H1 H2 H3 H4. pose proof Hm as (L1 & L2 & L3). pose proof (zlen_day _ L1) as Z1. pose proof (zlen_day _ L2) as Z2.
  destruct vals as [|v vals]; [exact Hm|]. set (vs := v :: vals). assert (Hv : vs <> []) by discriminate. clearbody vs.
  destruct (np_put_arange d x (x + n) vs) as (y & -> & Y1 & Y2); [lia|lia|exact Hv|].
  destruct (np_put_arange d' (x + k) (x + n + k) vs) as (y' & -> & Y3 & Y4); [lia|lia|exact Hv|]. cbn [rrel].
  apply (moved_write k d d' y y' x (x + n) (fun t => nth (Nat.modulo (Z.to_nat (t - x)) (List.length vs)) vs 0%Q)); try assumption; try lia.
  - intros t Ht. rewrite Y2 by lia. reflexivity.
  - intros t Ht. rewrite Y4 by lia. replace (t - k - x) with (t - (x + k)) by lia. reflexivity.
Qed.

Lemma first_later l : rrel (fun x y => y = x + k) (py_first l) (py_first (map (fun t => t + k) l)).
Proof. destruct l; cbn; reflexivity. Qed.
Lemma last_later l : rrel (fun x y => y = x + k) (py_last l) (py_last (map (fun t => t + k) l)).
Proof.
  destruct l as [|x l]; cbn [map py_last]; [reflexivity|]. cbn [rrel]. revert x. induction l as [|y l IH]; intros x; [reflexivity|].
  cbn [map last]. destruct l as [|z l]; [reflexivity|]. exact (IH x).
Qed.

Lemma update_like d d' c pw ix : day_like first k d d' -> good_event ix ->
  psimd (fun x y => day_like first k (fst x) (fst y) /\ snd y = snd x) (update_daily_use F a d c pw ix) (update_daily_use F a' d' c pw (map (fun t => t + k) ix)).
Proof.
  intros Hd (x & n & -> & G0 & G1 & G2 & G3 & G4). unfold update_daily_use. change (par a') with (par a).
  eapply psimd_bind with (R := eq).
  { pose proof Hd as (_ & _ & _ & _ & _ & _ & E). rewrite E, (cycle_like _ _ _ Hd). apply psimd_eq. destruct (_ >? 0).
    - destruct (_ || _); exact I.
    - apply below_pos_bind; [apply bp_variation|intros; exact I]. }
  intros vals ? <-. destruct Hd as (D1 & D2 & D3 & D4). rewrite <- arange_later.
  eapply psimd_bind; [apply psimd_lift, put_later; [exact D1|lia..]|]. intros y y' Hy.
  eapply psimd_bind with (R := fun s s' => s' = map (later k) s /\ Forall (drawn_room first k) s).
  - apply psimd_lift. rewrite D2. unfold update_available_time. destruct (free_spots d) as [|s0 ss] eqn:Es; [cbn; auto|].
    cbn [map]. destruct (Z.eq_dec n 0) as [->|Hn]; [rewrite !arange_nil by lia; reflexivity|].
    rewrite !py_first_arange, !py_last_arange by lia. cbn [rbind rrel]. replace (x + n + k - 1) with (x + n - 1 + k) by lia.
    change (later k s0 :: map (later k) ss) with (map (later k) (s0 :: ss)). split; [apply book_later|]. apply book_room; [lia|exact D3].
  - intros s s' (-> & Hs). cbn [psimd fst snd]. split; [|reflexivity]. unfold day_like. cbn. auto.
Qed.

Lemma use_event_like d d' peak pw ix : day_like first k d d' -> good_event ix ->
  psimd (fun x y => day_like first k (fst x) (fst y)) (use_event F a d peak pw ix) (use_event F a' d' (map (fun t => t + k) peak) pw (map (fun t => t + k) ix)).
Proof.
  intros Hd Hix. unfold use_event.
  eapply psimd_bind; [apply psimd_lift, first_later|]. intros i0 ? ->.
  eapply psimd_bind; [apply psimd_lift, last_later|]. intros il ? ->.
  eapply psimd_bind; [apply psimd_lift, first_later|]. intros p0 ? ->.
  eapply psimd_bind; [apply psimd_lift, last_later|]. intros pl ? ->.
  assert (E : within_peak_time_window (i0 + k) (il + k) (p0 + k) (pl + k) = within_peak_time_window i0 il p0 pl).
  { unfold within_peak_time_window. cbv zeta. rewrite !Z.gtb_ltb.
    assert (G : forall x y, (x + k <? y + k) = (x <? y)) by (intros; lia). rewrite !G. reflexivity. }
  rewrite E. eapply psimd_bind with (R := eq); [exact (psimd_eq _ (bp_coincidence F a _))|]. intros c ? <-.
  eapply psimd_bind; [apply update_like; assumption|]. intros x y (H & _). exact H.
Qed.

Lemma use_loop_like peak pw rt : 0 <= func_cycle (par a) <= rt -> rt <= 2 ^ 52 -> forall fuel tot d d' evs evs', day_like first k d d' -> 0 <= tot ->
  psimd (fun x y => day_like first k (fst x) (fst y)) (use_loop fuel depth F a peak pw rt tot d evs) (use_loop fuel depth F a' (map (fun t => t + k) peak) pw rt tot d' evs').
Proof.
  intros H1 H2. induction fuel as [|fuel IH]; intros tot d d' evs evs' Hd Ht; cbn [use_loop]; [reflexivity|].
  destruct ((tot <=? rt) && negb (rt =? 0)); [|exact Hd].
  eapply psimd_bind; [apply rsw_later; eassumption|]. intros [o d1] [o' d1'] (Ho & Hl). cbn [fst snd] in *.
  destruct o as [ix|], o' as [iy|]; try contradiction; [|exact Hl]. destruct Ho as (-> & Hix).
  assert (El : zlen (map (fun t => t + k) ix) = zlen ix) by (unfold zlen; rewrite map_length; reflexivity). rewrite !El.
  pose proof (zlen_nonneg ix) as Hz. destruct (tot + zlen ix >? rt).
  - rewrite firstn_map. set (m := Z.to_nat _).
    assert (Ef : zlen (map (fun t => t + k) (firstn m ix)) = zlen (firstn m ix)) by (unfold zlen; rewrite map_length; reflexivity). rewrite Ef.
    destruct (_ >? 0); [|exact Hl].
    assert (Hg : good_event (firstn m ix)).
    { destruct Hix as (x & n & -> & G). rewrite firstn_arange. exists x, (Z.min n (Z.of_nat m)). split; [f_equal; lia|lia]. }
    eapply psimd_bind; [apply use_event_like; eassumption|]. intros p q Hpq. exact Hpq.
  - eapply psimd_bind; [apply use_event_like; eassumption|]. intros p q Hpq. apply IH; [exact Hpq|lia].
Qed.
End day.

Lemma window_like first k w rv : 0 <= first -> window_room first k w rv -> psimd (drawn first k) (calc_rand_window w rv) (calc_rand_window (move_window k w) rv).
Proof.
  intros Hf [(-> & ->)|(H0 & H1 & H2 & H3 & H4)].
  - change (move_window k (0, 0)) with (0, 0). unfold calc_rand_window. cbn [fst snd].
    eapply psimd_bind; [apply (psimd_same _ (fun x => x = 0)); [apply below_pos_randint|apply wp_randint; [lia|intros i Hi; cbv beta iota; lia]]|]. intros x ? (-> & ->).
    eapply psimd_bind; [apply (psimd_same _ (fun x => x = 0)); [apply below_pos_randint|apply wp_randint; [lia|intros i Hi; cbv beta iota; lia]]|]. intros y ? (-> & ->).
    cbn. left. auto.
  - assert (D : forall (b c : Z), psimd (fun x y => b - rv <= x <= b + rv /\ (c = k -> y = x + k)) (py_randint (b - rv) (b + rv)) (py_randint (b + c - rv) (b + c + rv))).
    { intros b c. unfold py_randint. replace (b + c + rv + 1 - (b + c - rv)) with (b + rv + 1 - (b - rv)) by lia. destruct (_ <=? 0) eqn:E; [reflexivity|].
      cbn [psimd]. split; [reflexivity|]. split; [lia|]. intros i Hi. split; [lia|]. intros ->. lia. }
    unfold move_window. destruct ((fst w =? 0) && (snd w =? 0)) eqn:E.
    + assert (rv = 0) by lia. assert (w = (0, 0)) as -> by (destruct w; cbn [fst snd] in *; f_equal; lia). subst rv. cbn [fst snd] in *.
      unfold calc_rand_window. cbn [fst snd].
      eapply psimd_bind; [apply (psimd_same _ (fun x => x = 0)); [apply below_pos_randint|apply wp_randint; [lia|intros i Hi; cbv beta iota; lia]]|]. intros x ? (-> & ->).
      eapply psimd_bind; [apply (psimd_same _ (fun x => x = 0)); [apply below_pos_randint|apply wp_randint; [lia|intros i Hi; cbv beta iota; lia]]|]. intros y ? (-> & ->).
      cbn. left. auto.
    + unfold calc_rand_window. cbn [fst snd].
      eapply psimd_bind; [apply (D (fst w) k)|]. intros x ? (X & X'). rewrite (X' eq_refl).
      eapply psimd_bind; [apply (D (snd w) k)|]. intros y ? (Y & Y'). rewrite (Y' eq_refl). cbn [psimd].
      replace (x <? 0) with false by lia. replace (x + k <? 0) with false by lia. replace (y >? 1440) with false by lia. replace (y + k >? 1440) with false by lia.
      right. unfold drawn_room. cbn [fst snd]. split; [lia|reflexivity].
Qed.

Definition traced_like (first k : Z) (x y : dyn * day_trace) : Prop :=
  moved k (daily_use (fst x)) (daily_use (fst y)) /\
  random_cycle1 (fst y) = random_cycle1 (fst x) /\ random_cycle2 (fst y) = random_cycle2 (fst x) /\ random_cycle3 (fst y) = random_cycle3 (fst x) /\
  current_duty_cycle_id (fst y) = current_duty_cycle_id (fst x).

Lemma spots_like first k rws rws' : Forall2 (drawn first k) rws rws' ->
  filter (fun w => negb (fst w =? snd w)) rws' = map (later k) (filter (fun w => negb (fst w =? snd w)) rws) /\
  Forall (drawn_room first k) (filter (fun w => negb (fst w =? snd w)) rws).
Proof.
  induction 1 as [|w w' ws ws' Hw _ (IH1 & IH2)]; cbn [filter]; [split; [reflexivity|constructor]|].
  destruct Hw as [(-> & ->)|(R & ->)]; cbn [fst snd].
  - cbn. auto.
  - replace (fst w + k =? snd w + k) with (fst w =? snd w) by lia. destruct (fst w =? snd w); cbn [negb map]; [auto|]. rewrite IH1. split; [reflexivity|]. constructor; assumption.
Qed.

Lemma cycles_like first k F a d0 d d' : moved k (daily_use d) (daily_use d') ->
  random_cycle1 d' = random_cycle1 d /\ random_cycle2 d' = random_cycle2 d /\ random_cycle3 d' = random_cycle3 d /\ current_duty_cycle_id d' = current_duty_cycle_id d ->
  psimd (fun x y => traced_like first k (x, Skipped) (y, Skipped)) (assign_random_cycles F a d) (assign_random_cycles F (set_st (move_app k a) d0) d').
Proof.
  intros Hm Hc. unfold assign_random_cycles. cbn [set_st par cyc1 cyc2 cyc3 move_app move_cycle cp1 cp2 ct1 ct2 cr].
  assert (G : forall x y z, traced_like first k (set_cycles d x y z, Skipped) (set_cycles d' x y z, Skipped)).
  { intros x y z. unfold traced_like. cbn [fst set_cycles daily_use random_cycle1 random_cycle2 random_cycle3 current_duty_cycle_id]. intuition. }
  destruct (_ >=? 1); [|cbn [psimd]; split; [exact Hm|exact Hc]].
  do 2 (eapply psimd_bind; [apply psimd_eq, bp_variation|]; intros ? ? <-). eapply psimd_bind; [apply psimd_eq, bp_duty|]. intros ? ? <-.
  destruct (_ >=? 2); [|apply G].
  do 2 (eapply psimd_bind; [apply psimd_eq, bp_variation|]; intros ? ? <-). eapply psimd_bind; [apply psimd_eq, bp_duty|]. intros ? ? <-.
  destruct (_ >=? 3); [|apply G].
  do 2 (eapply psimd_bind; [apply psimd_eq, bp_variation|]; intros ? ? <-). do 3 (eapply psimd_bind; [apply psimd_eq, bp_random_choice|]; intros ? ? <-). apply G.
Qed.

(** the stored state of the moved appliance agrees where the code could read it *)
Definition state_like (d d' : dyn) : Prop :=
  random_cycle1 d' = random_cycle1 d /\ random_cycle2 d' = random_cycle2 d /\ random_cycle3 d' = random_cycle3 d /\ current_duty_cycle_id d' = current_duty_cycle_id d.

Lemma traced_later depth F k a d' pref i peak dt pw : can_move k a -> state_like (st a) d' ->
  psimd (fun x y => traced_like 0 k x y)
    (generate_load_profile_traced depth F a pref i peak dt pw)
    (generate_load_profile_traced depth F (set_st (move_app k a) d') pref i (map (fun t => t + k) peak) dt pw).
Proof.
  intros (Hfc & W1 & W2 & W3) Hs. set (first := if fixed_cycle (par a) >? 0 then 1 else 0) in *.
  assert (first_pos : 0 <= first) by (unfold first; destruct (_ >? _); lia).
  assert (first_cycle : fixed_cycle (par a) > 0 -> 1 <= first) by (unfold first; intros; destruct (fixed_cycle (par a) >? 0) eqn:E; lia).
  clearbody first. unfold generate_load_profile_traced. cbv zeta.
  eapply psimd_bind; [apply psimd_eq, bp_uniform|]. intros u ? <-.
  change (skip_day (set_st (move_app k a) d') pref dt u) with (skip_day a pref dt u). destruct (skip_day a pref dt u).
  { cbn [psimd]. split; [apply moved_zeros|exact Hs]. }
  cbn [win set_st move_app move_wins window_1 window_2 window_3 random_var_1 random_var_2 random_var_3].
  eapply psimd_bind; [apply window_like; [exact first_pos|exact W1]|]. intros r1 r1' D1.
  eapply psimd_bind; [apply window_like; [exact first_pos|exact W2]|]. intros r2 r2' D2.
  eapply psimd_bind; [apply window_like; [exact first_pos|exact W3]|]. intros r3 r3' D3.
  assert (Ed : forall w w', drawn first k w w' -> diff w' = diff w /\ diff w <= 1440).
  { intros w w' [(-> & ->)|((R1 & R2 & R3 & R4) & ->)]; unfold diff; cbn [fst snd]; lia. }
  set (T := diff r1 + diff r2 + diff r3).
  eapply psimd_bind with (R := fun t t' => t' = t /\ func_cycle (par a) <= t /\ (0 <= T -> t <= 2 ^ 52)).
  { replace (rand_total_time_of_use F (set_st (move_app k a) d') r1' r2' r3') with (rand_total_time_of_use F a r1 r2 r3).
    2:{ rewrite !rtt_unfold. rewrite (proj1 (Ed _ _ D1)), (proj1 (Ed _ _ D2)), (proj1 (Ed _ _ D3)). reflexivity. }
    apply psimd_same; [apply bp_rtt|]. pose proof (proj2 (Ed _ _ D1)). pose proof (proj2 (Ed _ _ D2)). pose proof (proj2 (Ed _ _ D3)).
    destruct (Z_lt_le_dec T 0) as [Hn|Hp].
    - eapply wp_mono; [|apply rtt_min]. intros r [->|(t & -> & Ht)]; [exact I|]. split; [exact Ht|lia].
    - eapply wp_mono; [|apply rtt_spec; fold T; lia]. cbv zeta. fold T. intros r [(-> & _)|(t & -> & Ht)]; [exact I|]. split; lia. }
  intros rt ? (-> & Hrt1 & Hrt2). cbn [power set_st move_app par].
  assert (HF : Forall2 (drawn first k) [r1; r2; r3] [r1'; r2'; r3']) by (constructor; [exact D1|constructor; [exact D2|constructor; [exact D3|constructor]]]).
  destruct (String.eqb (flat (par a)) "yes").
  - eapply psimd_bind; [apply psimd_eq, below_pos_lift|]. intros p ? <-.
    eapply psimd_bind; [apply psimd_lift, (moved_fills first k); [exact first_pos|exact HF|apply moved_zeros]|]. intros du du' Hdu.
    cbn [psimd]. split; [exact Hdu|exact Hs].
  - eapply psimd_bind with (R := fun x y => moved k x y /\ 0 <= T).
    { apply psimd_lift. pose proof (moved_fills first k (mask_value F) first_pos _ _ HF _ _ (moved_zeros k)) as G. cbn [daily_use set_daily_use].
      destruct (fill_windows (zeros day_minutes) [r1; r2; r3] (mask_value F)) as [x|e] eqn:E, (fill_windows (zeros day_minutes) [r1'; r2'; r3'] (mask_value F)) as [x'|e']; try exact G.
      split; [exact G|]. assert (K : forall ws d y, fill_windows d ws (mask_value F) = Ok y -> Forall (fun w => 0 <= diff w) ws).
      { clear. induction ws as [|w ws IH]; intros d y H; [constructor|]. cbn [fill_windows] in H. destruct (fill_window d w (mask_value F)) as [z|e] eqn:E; [|discriminate]. cbn [rbind] in H.
        constructor; [|exact (IH _ _ H)]. unfold fill_window, np_fill_slice in E. destruct (diff w <? 0) eqn:En; [discriminate|lia]. }
      specialize (K _ _ _ E). inversion K as [|? ? K1 K2]; subst. inversion K2 as [|? ? K3 K4]; subst. inversion K4 as [|? ? K5 K6]; subst. unfold T. lia. }
    intros du du' (Hdu & HT). specialize (Hrt2 HT).
    eapply psimd_bind.
    { eapply (cycles_like first k F a d' (set_daily_use (set_daily_use (st a) (zeros day_minutes)) du)); [exact Hdu|exact Hs]. }
    intros d1 d1' (M1 & M2 & M3 & M4 & M5). cbn [fst] in *.
    destruct (spots_like first k _ _ HF) as (S1 & S2). rewrite S1.
    eapply psimd_bind.
    { eapply (use_loop_like depth F k a d' first first_pos first_cycle peak pw rt ltac:(lia) Hrt2). 2: lia.
      unfold day_like. cbn [daily_use free_spots random_cycle1 random_cycle2 random_cycle3 current_duty_cycle_id set_free_spots]. auto 10. }
    intros x y (N1 & N2 & N3 & N4 & N5 & N6 & N7). cbn [psimd]. unfold traced_like. cbn [fst snd]. auto 10.
Qed.
