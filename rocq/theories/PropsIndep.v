(** * PropsIndep: days are independent; averages over more days are closer to the mean (C92) *)
From Verif Require Import Base Wp Tape F64 Utils ListLemmas Appliance User UseCase Sim Spec SpecUser SpecUseCase SpecDay ProofsAppliance ProofsEvent ProofsEvent2
  ProofsDay ProofsDay2 ProofsUser ProofsUseCase ProofsRun PropsBasic PropsDay PropsUseCase PropsUser PropsTotal Prob PropsProb PropsMean.
From Coq Require Import ZifyBool ZifyNat.

(** ** Specification *)

Definition Qprod (l : list Q) : Q := fold_right Qmult 1%Q l.

(** the profile of day number [k] simulated on its own, from the users as declared *)
Definition one_day (depth : nat) (F : fm) (c : usecase) (s k : Z) : prog (list Q) :=
  r <- day_of_users depth F k (peak_of c) (get_day_type (s + 1440 * k)) (users c) (zeros day_minutes) ;; Ret (snd r).

(** the mean of a measurement [f] of that day *)
Definition day_mean_of (L : law) (depth : nat) (F : fm) (c : usecase) (s k : Z) (f : list Q -> Q) : Q :=
  expect L (one_day depth F c s k) (fun r => match r with Ok row => f row | Err _ => 0%Q end).

(** its variance *)
Definition day_variance (L : law) (depth : nat) (F : fm) (c : usecase) (s k : Z) (f : list Q -> Q) : Q :=
  day_mean_of L depth F c s k (fun row => let x := (f row - day_mean_of L depth F c s k f)%Q in (x * x)%Q).

(** row number [k] of the generated profiles *)
Definition row_of (rows : list (list Q)) (k : Z) : list Q := nth (Z.to_nat k) rows [].

(** ** Lemmas *)

Lemma qprod_cons x l : Qprod (x :: l) = (x * Qprod l)%Q.
Proof. reflexivity. Qed.

Lemma qprod_ext {A} (g h : A -> Q) l : (forall x, In x l -> (g x == h x)%Q) -> (Qprod (map g l) == Qprod (map h l))%Q.
Proof.
  induction l as [|x l IH]; intros H; [reflexivity|]. cbn [map]. rewrite !qprod_cons, (H x) by now left.
  rewrite IH; [reflexivity|]. intros y Hy. apply H. now right.
Qed.

Lemma same_decl_app a b : same_declared a b -> same_app a b.
Proof. intros H. exact H. Qed.

Lemma same_declared_sym a b : same_declared a b -> same_declared b a.
Proof. exact (same_app_sym a b). Qed.
Lemma same_declared_trans a b c : same_declared a b -> same_declared b c -> same_declared a c.
Proof. exact (same_app_trans a b c). Qed.

(** *** A day does not depend on what earlier days left, nor on its number if the powers are the same *)

Definition same_powers (i j : Z) (a : appliance) : Prop := py_index (power a) i = py_index (power a) j.

Lemma traced_index depth F a pref i j peak dt pw : same_powers i j a ->
  psim eq (generate_load_profile_traced depth F a pref i peak dt pw) (generate_load_profile_traced depth F a pref j peak dt pw).
Proof.
  intros H. unfold generate_load_profile_traced. cbv zeta.
  apply psim_bind with (R := eq); [apply psim_eq|]. intros u ? <-. destruct (skip_day _ _ _ _); [reflexivity|].
  do 4 (apply psim_bind with (R := eq); [apply psim_eq|]; intros ? ? <-).
  destruct (String.eqb _ _); [|apply psim_eq]. rewrite H. apply psim_eq.
Qed.

Lemma glp_index depth F a b pref i j peak dt pw : same_app a b -> same_powers i j a ->
  psim (fun x y => same_app a x /\ same_app a y /\ daily_use (st x) = daily_use (st y))
    (generate_load_profile depth F a pref i peak dt pw) (generate_load_profile depth F b pref j peak dt pw).
Proof.
  intros H P. eapply psim_trans; [|apply (psim_bind eq eq); [apply traced_index; exact P|intros x ? <-; apply psim_eq]|apply glp_sim; exact H].
  intros x y z <- K. exact K.
Qed.

Lemma apps_index depth F pref i j peak dt : forall l l' acc, Forall2 same_app l l' -> Forall (same_powers i j) l ->
  psim (fun x y => Forall2 same_app l (fst x) /\ Forall2 same_app l (fst y) /\ snd x = snd y)
    (generate_apps depth F pref i peak dt l acc) (generate_apps depth F pref j peak dt l' acc).
Proof.
  induction l as [|a l IH]; intros l' acc H P; inversion H as [|? b ? l2 Hab Hl]; subst; cbn [generate_apps].
  { cbn. repeat split; constructor. }
  inversion P as [|? ? P1 P2]; subst. rewrite (same_app_power a b Hab). rewrite <- P1.
  apply psim_bind with (R := eq); [apply psim_eq|]. intros pw ? <-.
  eapply psim_bind; [apply glp_index; [exact Hab|exact P1]|]. intros x y (S1 & S2 & Ed).
  rewrite <- Ed. eapply psim_bind; [apply IH; [exact Hl|exact P2]|]. intros p q (T1 & T2 & T3). cbn [psim fst snd].
  split; [constructor; assumption|]. split; [constructor; assumption|exact T3].
Qed.

Definition day_user (u v : user) : Prop :=
  num_users v = num_users u /\ user_preference v = user_preference u /\ Forall2 same_app (app_list u) (app_list v).

Lemma f2_same_app_refl l : Forall2 same_app l l.
Proof. induction l; constructor; [apply same_app_refl|assumption]. Qed.
Lemma f2_same_app_tr l l1 l2 : Forall2 same_app l l1 -> Forall2 same_app l l2 -> Forall2 same_app l1 l2.
Proof.
  intros H. revert l2. induction H as [|a b l l1 Hab Hl IH]; intros l2 K; inversion K as [|? c ? l3 Hac Hl3]; subst; constructor.
  - eapply same_app_trans; [apply same_app_sym; exact Hab|exact Hac].
  - apply IH. assumption.
Qed.

Lemma Forall2_trans_app l l1 l2 : Forall2 same_app l l1 -> Forall2 same_app l1 l2 -> Forall2 same_app l l2.
Proof.
  intros H. revert l2. induction H as [|a b l l1 Hab Hl IH]; intros l2 K; inversion K as [|? c ? l3 Hac Hl3]; subst; constructor.
  - eapply same_app_trans; [exact Hab|exact Hac].
  - apply IH. assumption.
Qed.

Lemma powers_same i j l l' : Forall2 same_app l l' -> Forall (same_powers i j) l -> Forall (same_powers i j) l'.
Proof.
  induction 1 as [|a b l l' Hab Hl IH]; intros P; [constructor|]. inversion P as [|? ? P1 P2]; subst. constructor; [|auto].
  unfold same_powers in *. rewrite (same_app_power a b Hab). exact P1.
Qed.

Lemma members_index depth F i j peak dt : forall n u v, day_user u v -> load u = load v -> Forall (same_powers i j) (app_list u) ->
  psim (fun x y => day_user u x /\ day_user u y /\ load x = load y)
    (generate_members n depth F u i peak dt) (generate_members n depth F v j peak dt).
Proof.
  induction n as [|n IH]; intros u v H E P; cbn [generate_members].
  { cbn. split; [split; [reflexivity|split; [reflexivity|apply f2_same_app_refl]]|]. split; [exact H|exact E]. }
  destruct H as (H1 & H2 & H3).
  apply psim_bind with (R := fun x y : user * list Q => day_user u (fst x) /\ day_user u (fst y) /\ load (fst x) = load (fst y) /\ snd x = snd y).
  - unfold generate_single_load_profile.
    assert (Ep : draw_pref v = draw_pref u) by (unfold draw_pref; rewrite H2; reflexivity). rewrite Ep.
    apply psim_bind with (R := eq); [apply psim_eq|]. intros pref ? <-.
    eapply psim_bind; [apply apps_index; [exact H3|exact P]|]. intros x y (T1 & T2 & T3). cbn [psim fst snd].
    split; [split; [reflexivity|split; [reflexivity|exact T1]]|]. split; [split; [exact H1|split; [exact H2|exact T2]]|]. split; [exact E|exact T3].
  - intros [x lx] [y ly] (D1 & D2 & D3 & D4). cbn [fst snd] in *. subst ly.
    destruct D1 as (A1 & A2 & A3), D2 as (B1 & B2 & B3).
    eapply psim_mono; [|apply (IH (set_load x (vadd F (load x) lx)) (set_load y (vadd F (load y) lx)))].
    + unfold day_user. intros p q ((P1 & P2 & P3) & (Q1 & Q2 & Q3) & PQ). cbn [set_load num_users user_preference app_list] in *.
      split; [split; [congruence|split; [congruence|]]|split; [split; [congruence|split; [congruence|]]|exact PQ]].
      * eapply Forall2_trans_app; [exact A3|exact P3].
      * eapply Forall2_trans_app; [exact A3|exact Q3].
    + unfold day_user; cbn [set_load num_users user_preference app_list]. split; [congruence|]. split; [congruence|]. exact (f2_same_app_tr _ _ _ A3 B3).
    + cbn. rewrite D3. reflexivity.
    + cbn [set_load app_list]. eapply powers_same; [exact A3|exact P].
Qed.

Lemma day_index depth F i j peak dt : forall us vs acc, Forall2 day_user us vs -> Forall (fun u => Forall (same_powers i j) (app_list u)) us ->
  psim (fun x y => snd x = snd y) (day_of_users depth F i peak dt us acc) (day_of_users depth F j peak dt vs acc).
Proof.
  induction us as [|u us IH]; intros vs acc H P; inversion H as [|? v ? vs' Huv Hvs]; subst; cbn [day_of_users]; [reflexivity|].
  inversion P as [|? ? P1 P2]; subst.
  eapply psim_bind.
  { unfold generate_aggregated_load_profile. destruct Huv as (A1 & A2 & A3). rewrite A1.
    apply (members_index depth F i j peak dt (Z.to_nat (num_users u)) (set_load u (zeros day_minutes)) (set_load v (zeros day_minutes))).
    - unfold day_user. cbn [set_load num_users user_preference app_list]. auto.
    - reflexivity.
    - exact P1. }
  intros x y (_ & _ & El). rewrite <- El. eapply psim_bind; [apply IH; eassumption|]. intros p q E. exact E.
Qed.

Lemma same_user_day us vs : Forall2 same_user us vs -> Forall2 day_user us vs.
Proof. induction 1 as [|u v us vs (_ & H2 & H3 & H4) Hs IH]; constructor; [split; [exact H2|split; [exact H3|exact H4]]|exact IH]. Qed.

Lemma same_powers_refl i us : Forall (fun u : user => Forall (same_powers i i) (app_list u)) us.
Proof. apply Forall_forall. intros u _. apply Forall_forall. intros a _. reflexivity. Qed.

(** *** The loop *)

Section days.
Variables (L : law) (depth : nat) (F : fm) (peak : list Z).

Definition mean_at (us : list user) (i d : Z) (f : list Q -> Q) : Q :=
  expect L (day_of_users depth F i peak (get_day_type d) us (zeros day_minutes)) (fun r => match r with Ok x => f (snd x) | Err _ => 0%Q end).

Lemma mean_at_same us vs i d f : Forall2 same_user us vs -> (mean_at vs i d f == mean_at us i d f)%Q.
Proof.
  intros H. symmetry. unfold mean_at.
  apply (expect_psim _ L _ _ _ _ (day_index depth F i i peak (get_day_type d) us vs _ (same_user_day _ _ H) (same_powers_refl i us))); [|reflexivity].
  intros x y E. rewrite E. reflexivity.
Qed.

(** the days [ds], numbered from [i] *)
Fixpoint means_from (us : list user) (i : Z) (ds : list Z) (f : Z -> list Q -> Q) : Q :=
  match ds with [] => 1%Q | d :: ds' => (mean_at us i d (f i) * means_from us (i + 1) ds' f)%Q end.
Fixpoint product_from (rows : list (list Q)) (i : Z) (ds : list Z) (f : Z -> list Q -> Q) : Q :=
  match ds with [] => 1%Q | _ :: ds' => (f i (row_of rows i) * product_from rows (i + 1) ds' f)%Q end.

Lemma means_same us vs f : Forall2 same_user us vs -> forall ds i, (means_from vs i ds f == means_from us i ds f)%Q.
Proof. intros H. induction ds as [|d ds IH]; intros i; cbn [means_from]; [reflexivity|]. rewrite IH, (mean_at_same _ _ _ _ _ H). reflexivity. Qed.

Lemma kept ds i us rows us' rows' k : may (day_loop depth F peak i ds us rows) (Ok (us', rows')) -> 0 <= i <= zlen rows -> (k < Z.to_nat i)%nat ->
  nth k rows' [] = nth k rows [].
Proof.
  intros H Hi Hk. rewrite <- (firstn_skipn (Z.to_nat i) rows) in H.
  apply day_loop_may in H; [|unfold zlen in *; rewrite firstn_length; lia].
  destruct H as (_ & _ & new & _ & -> & _).
  assert (Hkl : (k < List.length (firstn (Z.to_nat i) rows))%nat) by (rewrite firstn_length; unfold zlen in *; lia).
  rewrite app_nth1 by exact Hkl. rewrite <- (firstn_skipn (Z.to_nat i) rows) at 2. rewrite app_nth1 by exact Hkl. reflexivity.
Qed.

Lemma loop_indep f : forall ds i us rows, 0 <= i -> i + zlen ds = zlen rows ->
  (expect L (day_loop depth F peak i ds us rows) (fun r => match r with Ok x => product_from (snd x) i ds f | Err _ => 0 end) ==
   means_from us i ds f)%Q.
Proof.
  induction ds as [|d ds IH]; intros i us rows Hi Hn; [reflexivity|]. rewrite zlen_cons in Hn. pose proof (zlen_nonneg ds).
  cbn [day_loop means_from product_from]. rewrite expect_bind. unfold mean_at at 1.
  rewrite (expect_ext L _ _ (fun r => means_from us (i + 1) ds f * match r with Ok x => f i (snd x) | Err _ => 0 end)%Q).
  { rewrite expect_scale. ring. }
  intros [[us' l]|e] Hr; cbn [onward fst snd]; [|ring]. replace (zlen rows <=? i) with false by lia.
  apply day_of_users_may in Hr as [Hs _].
  assert (Hl : zlen (list_set rows (Z.to_nat i) l) = zlen rows) by (unfold zlen; now rewrite list_set_length).
  rewrite <- (means_same _ _ f Hs ds (i + 1)), Qmult_comm, <- (IH (i + 1) us' (list_set rows (Z.to_nat i) l)) by lia. rewrite <- expect_scale.
  apply expect_ext. intros [[us2 rows2]|e] H2; cbn [snd]; [|ring].
  unfold row_of at 1. rewrite (kept _ _ _ _ _ _ (Z.to_nat i) H2) by (rewrite ?Hl; lia).
  rewrite (nth_error_nth (list_set rows (Z.to_nat i) l) (Z.to_nat i) [] (x := l)); [reflexivity|].
  rewrite ProofsEq.list_set_nth_error, Nat.eqb_refl. unfold zlen in Hn. destruct (Nat.ltb_spec (Z.to_nat i) (List.length rows)); [reflexivity|lia].
Qed.

End days.

Lemma means_map L depth F c s f : forall ds i, (forall k, 0 <= k < zlen ds -> nth (Z.to_nat k) ds 0 = s + 1440 * (i + k)) ->
  (means_from L depth F (peak_of c) (users c) i ds f == Qprod (map (fun k => day_mean_of L depth F c s k (f k)) (arange i (i + zlen ds))))%Q.
Proof.
  induction ds as [|d ds IH]; intros i H; cbn [means_from].
  { unfold zlen. cbn [List.length]. rewrite arange_nil by lia. reflexivity. }
  rewrite zlen_cons in *. pose proof (zlen_nonneg ds). rewrite (arange_cons i) by lia. cbn [map]. rewrite qprod_cons.
  rewrite IH.
  - replace (i + 1 + zlen ds) with (i + (zlen ds + 1)) by lia. f_equiv.
    specialize (H 0 ltac:(lia)). cbn [Z.to_nat nth] in H. replace (i + 0) with i in H by lia. subst d.
    unfold mean_at, day_mean_of, one_day. rewrite expect_bind. apply expect_ext. intros [x|e] _; reflexivity.
  - intros k Hk. specialize (H (k + 1) ltac:(lia)). replace (Z.to_nat (k + 1)) with (S (Z.to_nat k)) in H by lia. cbn [nth] in H.
    rewrite H. lia.
Qed.

Lemma product_map rows f : forall ds i, (product_from rows i ds f == Qprod (map (fun k => f k (row_of rows k)) (arange i (i + zlen ds))))%Q.
Proof.
  induction ds as [|d ds IH]; intros i; cbn [product_from].
  { unfold zlen. cbn [List.length]. rewrite arange_nil by lia. reflexivity. }
  rewrite zlen_cons. pose proof (zlen_nonneg ds). rewrite (arange_cons i) by lia. cbn [map]. rewrite qprod_cons, IH.
  replace (i + 1 + zlen ds) with (i + (zlen ds + 1)) by lia. reflexivity.
Qed.

(** ** C92 *)

(** The days are independent: the mean of a product of measurements, one of each day, is the product of their means. *)
Theorem C92_independent L depth F w c arg s n (f : Z -> list Q -> Q) :
  set_up c s n ->
  (expect L (generate_sequential depth F w c arg)
     (fun r => match r with Ok x => Qprod (map (fun k => f k (row_of (snd x) k)) (arange 0 n)) | Err _ => 0 end) ==
   Qprod (map (fun k => day_mean_of L depth F c s k (f k)) (arange 0 n)))%Q.
Proof.
  intros (Hn1 & Hn & (ds & Hds & Hlen & Hnth) & _). unfold generate_sequential.
  assert (Hch : choose_days c arg = Ok c) by (unfold choose_days; rewrite Hds; reflexivity).
  rewrite Hch. cbn [lift bind]. unfold num_days. rewrite Hn. cbn [bind fst snd].
  destruct (Z.ltb_spec n 0); [lia|]. rewrite Hds. fold (peak_of c). rewrite expect_bind.
  rewrite (expect_ext L _ _ (fun r => match r with Ok x => product_from (snd x) 0 ds f | Err _ => 0%Q end)).
  - rewrite loop_indep by (rewrite ?zlen_repeat; lia). rewrite (means_map L depth F c s f ds 0).
    + replace (0 + zlen ds) with n by lia. reflexivity.
    + intros k Hk. rewrite (Hnth k) by lia. lia.
  - intros [x|e] _; cbn [onward expect snd]; [|reflexivity]. rewrite product_map. replace (0 + zlen ds) with n by lia. reflexivity.
Qed.

(** Two days of the same type on which all appliances have the same power follow the same law. *)
Theorem C92_same_law L depth F c s k k' f :
  get_day_type (s + 1440 * k) = get_day_type (s + 1440 * k') ->
  Forall (fun u => Forall (same_powers k k') (app_list u)) (users c) ->
  (day_mean_of L depth F c s k f == day_mean_of L depth F c s k' f)%Q.
Proof.
  intros Hd Hp. unfold day_mean_of, one_day. rewrite !expect_bind, Hd.
  assert (Hr : Forall2 day_user (users c) (users c)).
  { clear. induction (users c); constructor; [|assumption]. split; [reflexivity|]. split; [reflexivity|apply f2_same_app_refl]. }
  apply (expect_psim _ L _ _ _ _ (day_index depth F k k' (peak_of c) _ _ _ (zeros day_minutes) Hr Hp)); [|reflexivity].
  intros x y E. cbn [onward expect]. rewrite E. reflexivity.
Qed.

(** ** Sums of days *)

Lemma expect_qsum {A B} L (p : prog A) (g : B -> res A -> Q) l :
  (expect L p (fun r => Qsum (map (fun k => g k r) l)) == Qsum (map (fun k => expect L p (g k)) l))%Q.
Proof.
  induction l as [|k l IH].
  - cbn [map]. change (Qsum []) with 0%Q. rewrite (expect_ext L p _ (fun _ => 0 * 0)%Q) by (intros; cbn [map]; change (Qsum []) with 0%Q; ring).
    rewrite expect_scale. ring.
  - cbn [map]. rewrite qsum_cons, <- IH, <- expect_add. apply expect_ext. intros r _. cbn [map]. rewrite qsum_cons. reflexivity.
Qed.

Lemma qprod_mul {A} (g h : A -> Q) l : (Qprod (map (fun k => g k * h k)%Q l) == Qprod (map g l) * Qprod (map h l))%Q.
Proof. induction l as [|x l IH]; [reflexivity|]. cbn [map]. rewrite !qprod_cons, IH. ring. Qed.

Lemma qprod_one (g : Z -> Q) l j : NoDup l -> In j l -> (forall i, In i l -> i <> j -> (g i == 1)%Q) -> (Qprod (map g l) == g j)%Q.
Proof.
  induction l as [|x l IH]; intros Hn Hin H; [contradiction|]. inversion Hn as [|? ? Hx Hl]; subst. cbn [map]. rewrite qprod_cons.
  destruct (Z.eq_dec x j) as [->|Hne].
  - assert (E : (Qprod (map g l) == 1)%Q); [|rewrite E; ring].
    clear -Hx H. assert (H' : forall i, In i l -> (g i == 1)%Q) by (intros i Hi; apply H; [now right|intros ->; contradiction]).
    clear -H'. induction l as [|y l IH]; [reflexivity|]. cbn [map]. rewrite qprod_cons, (H' y) by now left.
    rewrite IH; [reflexivity|]. intros i Hi. apply H'. now right.
  - destruct Hin as [C|Hin]; [contradiction|]. rewrite (H x) by (try assumption; now left).
    rewrite IH; [ring|assumption|assumption|]. intros i Hi. apply H. now right.
Qed.

Lemma qsum_pick (g : Z -> Q) l j : NoDup l -> In j l -> (forall i, In i l -> i <> j -> (g i == 0)%Q) -> (Qsum (map g l) == g j)%Q.
Proof.
  induction l as [|x l IH]; intros Hn Hin H; [contradiction|]. inversion Hn as [|? ? Hx Hl]; subst. cbn [map]. rewrite qsum_cons.
  destruct (Z.eq_dec x j) as [->|Hne].
  - rewrite (qsum_ext g (fun _ => 0%Q) l) by (intros i Hi; apply H; [now right|intros ->; contradiction]). rewrite qsum_const. ring.
  - destruct Hin as [C|Hin]; [contradiction|]. rewrite (H x) by (try assumption; now left).
    rewrite IH; [ring|assumption|assumption|]. intros i Hi. apply H. now right.
Qed.

Lemma square_nonneg (y : Q) : (0 <= y * y)%Q.
Proof. nra. Qed.

(** the weighted deviations of the days from their means *)
Definition deviation (mu weight : Z -> Q) (f : Z -> list Q -> Q) (n : Z) (rows : list (list Q)) : Q :=
  Qsum (map (fun k => (weight k * (f k (row_of rows k) - mu k))%Q) (arange 0 n)).

Section variance.
Variables (L : law) (depth : nat) (F : fm) (w : world) (c : usecase) (arg : option (list Z)) (s n : Z).
Hypothesis Hdepth : (0 < depth)%nat.
Hypothesis Hup : set_up c s n.
Hypothesis Hpeak : peak_of c <> [].
Hypothesis Hsafe : Forall (safe_user F n) (users c).

Lemma day_mean_one k : 0 <= k < n -> (day_mean_of L depth F c s k (fun _ => 1) == 1)%Q.
Proof.
  intros Hk. unfold day_mean_of, one_day. rewrite expect_bind. apply expect_sure; [apply bp_day_users|].
  intros [x|e] Hr; [reflexivity|]. exfalso.
  exact (wp_elim _ _ _ (day_never depth F n (peak_of c) Hdepth Hpeak k _ (users c) Hk Hsafe) Hr).
Qed.

(** one measurement of one day *)
Lemma one_of_days k g : 0 <= k < n ->
  (expect L (generate_sequential depth F w c arg) (fun r => match r with Ok x => g (row_of (snd x) k) | Err _ => 0 end) == day_mean_of L depth F c s k g)%Q.
Proof.
  intros Hk.
  pose proof (C92_independent L depth F w c arg s n (fun i row => if i =? k then g row else 1%Q) Hup) as H.
  rewrite (qprod_one (fun i => day_mean_of L depth F c s i (fun row => if i =? k then g row else 1%Q)) (arange 0 n) k) in H.
  - rewrite Z.eqb_refl in H. rewrite <- H. apply expect_ext. intros [x|e] _; [|reflexivity].
    rewrite (qprod_one (fun i => if i =? k then g (row_of (snd x) i) else 1%Q) (arange 0 n) k); [rewrite Z.eqb_refl; reflexivity|apply NoDup_arange|apply in_arange; lia|].
    intros i _ Hi. replace (i =? k) with false by lia. reflexivity.
  - apply NoDup_arange.
  - apply in_arange; lia.
  - intros i Hi Hne. apply in_arange in Hi. replace (i =? k) with false by lia. apply day_mean_one. lia.
Qed.

(** measurements of two different days *)
Lemma two_of_days j k g h : 0 <= j < n -> 0 <= k < n -> j <> k ->
  (expect L (generate_sequential depth F w c arg) (fun r => match r with Ok x => g (row_of (snd x) j) * h (row_of (snd x) k) | Err _ => 0 end) ==
   day_mean_of L depth F c s j g * day_mean_of L depth F c s k h)%Q.
Proof.
  intros Hj Hk Hne.
  pose proof (C92_independent L depth F w c arg s n (fun i row => if i =? j then g row else if i =? k then h row else 1%Q) Hup) as H.
  rewrite (qprod_ext (fun i => day_mean_of L depth F c s i (fun row => if i =? j then g row else if i =? k then h row else 1%Q))
    (fun i => (if i =? j then day_mean_of L depth F c s j g else 1) * (if i =? k then day_mean_of L depth F c s k h else 1))%Q) in H.
  2: { intros i Hi. apply in_arange in Hi. cbv beta. destruct (Z.eq_dec i j) as [->|Hij].
       - rewrite Z.eqb_refl. replace (j =? k) with false by lia. change (fun row : list Q => g row) with g. ring.
       - replace (i =? j) with false by lia. destruct (Z.eq_dec i k) as [->|Hik].
         + rewrite Z.eqb_refl. change (fun row : list Q => h row) with h. ring.
         + replace (i =? k) with false by lia. rewrite day_mean_one by lia. ring. }
  rewrite qprod_mul in H.
  rewrite (qprod_one (fun i => if i =? j then day_mean_of L depth F c s j g else 1)%Q _ j) in H
    by (try apply NoDup_arange; try (apply in_arange; lia); intros i _ Hi; replace (i =? j) with false by lia; reflexivity).
  rewrite (qprod_one (fun i => if i =? k then day_mean_of L depth F c s k h else 1)%Q _ k) in H
    by (try apply NoDup_arange; try (apply in_arange; lia); intros i _ Hi; replace (i =? k) with false by lia; reflexivity).
  rewrite !Z.eqb_refl in H. rewrite <- H. apply expect_ext. intros [x|e] _; [|reflexivity].
  rewrite (qprod_ext _ (fun i => (if i =? j then g (row_of (snd x) j) else 1) * (if i =? k then h (row_of (snd x) k) else 1))%Q).
  - rewrite qprod_mul.
    rewrite (qprod_one (fun i => if i =? j then g (row_of (snd x) j) else 1)%Q _ j)
      by (try apply NoDup_arange; try (apply in_arange; lia); intros i _ Hi; replace (i =? j) with false by lia; reflexivity).
    rewrite (qprod_one (fun i => if i =? k then h (row_of (snd x) k) else 1)%Q _ k)
      by (try apply NoDup_arange; try (apply in_arange; lia); intros i _ Hi; replace (i =? k) with false by lia; reflexivity).
    rewrite !Z.eqb_refl. reflexivity.
  - intros i _. destruct (Z.eqb_spec i j) as [->|]; [replace (j =? k) with false by lia; ring|]. destruct (Z.eqb_spec i k) as [->|]; ring.
Qed.

Lemma day_mean_lin k f m : 0 <= k < n -> (day_mean_of L depth F c s k (fun row => f row - m) == day_mean_of L depth F c s k f - m)%Q.
Proof.
  intros Hk. unfold Qminus. setoid_replace (day_mean_of L depth F c s k f + - m)%Q with (day_mean_of L depth F c s k f + - m * day_mean_of L depth F c s k (fun _ => 1))%Q
    by (rewrite day_mean_one by exact Hk; ring).
  unfold day_mean_of. rewrite <- expect_scale, <- expect_add. apply expect_ext. intros [x|e] _; ring.
Qed.

(** The mean square of a weighted sum of deviations is the sum of the squared weights times the variances of the days. *)
Theorem C92_variance (f : Z -> list Q -> Q) (weight : Z -> Q) :
  let mu k := day_mean_of L depth F c s k (f k) in
  (expect L (generate_sequential depth F w c arg)
     (fun r => match r with Ok x => let y := deviation mu weight f n (snd x) in y * y | Err _ => 0 end) ==
   Qsum (map (fun k => weight k * weight k * day_variance L depth F c s k (f k)) (arange 0 n)))%Q.
Proof.
  intros mu.
  set (Y := fun (k : Z) (row : list Q) => (weight k * (f k row - mu k))%Q).
  rewrite (expect_ext L _ _ (fun r => Qsum (map (fun j => Qsum (map (fun k =>
     match r with Ok x => Y j (row_of (snd x) j) * Y k (row_of (snd x) k) | Err _ => 0 end) (arange 0 n))) (arange 0 n)))%Q).
  - rewrite expect_qsum. apply qsum_ext. intros j Hj. apply in_arange in Hj. rewrite expect_qsum.
    rewrite (qsum_pick _ (arange 0 n) j); [|apply NoDup_arange|apply in_arange; lia|].
    + rewrite (one_of_days j (fun row => Y j row * Y j row)%Q) by lia. unfold day_variance. cbv zeta. unfold day_mean_of at 1 2.
      rewrite <- expect_scale. apply expect_ext. intros [x|e] _; [|ring]. unfold Y, mu. ring.
    + intros k Hk Hne. apply in_arange in Hk. rewrite (two_of_days j k (Y j) (Y k)) by lia.
      assert (E : (day_mean_of L depth F c s k (Y k) == 0)%Q); [|rewrite E; ring].
      unfold day_mean_of.
      rewrite (expect_ext L _ _ (fun r => weight k * match r with Ok row => f k row - mu k | Err _ => 0 end)%Q).
      * rewrite expect_scale. pose proof (day_mean_lin k (f k) (mu k) ltac:(lia)) as G. unfold day_mean_of in G at 1. rewrite G. unfold mu. ring.
      * intros [row|e] _; unfold Y; ring.
  - intros [x|e] _; cbv zeta.
    + unfold deviation. fold (Y 0). set (l := arange 0 n).
      set (S1 := Qsum (map (fun k => (weight k * (f k (row_of (snd x) k) - mu k))%Q) l)).
      rewrite (qsum_ext (fun j => Qsum (map (fun k => Y j (row_of (snd x) j) * Y k (row_of (snd x) k))%Q l)) (fun j => S1 * Y j (row_of (snd x) j))%Q).
      * rewrite qsum_scale. reflexivity.
      * intros j _. rewrite qsum_scale. unfold S1. fold Y. unfold Y. ring.
    + rewrite (qsum_ext _ (fun _ => 0 * 0)%Q); [rewrite qsum_const; ring|]. intros j _. rewrite qsum_const. ring.
Qed.

(** Averages: the days chosen by [sel] follow one law; the mean square of the error of their average is its variance over
    their number. *)
Theorem C92_average (f : list Q -> Q) (sel : Z -> bool) (mean var : Q) :
  let m := zlen (filter sel (arange 0 n)) in
  0 < m -> (forall k, 0 <= k < n -> sel k = true -> (day_mean_of L depth F c s k f == mean)%Q /\ (day_variance L depth F c s k f == var)%Q) ->
  (expect L (generate_sequential depth F w c arg)
     (fun r => match r with Ok x =>
        let y := Qsum (map (fun k => f (row_of (snd x) k)) (filter sel (arange 0 n))) / zq m - mean in y * y | Err _ => 0 end) ==
   var / zq m)%Q.
Proof.
  intros m Hm Hlaw. pose proof (zq_pos m Hm) as Hq.
  pose proof (C92_variance (fun _ => f) (fun k => if sel k then 1 / zq m else 0)%Q) as H. cbv zeta in H.
  assert (Hf : forall g : Z -> Q, (Qsum (map (fun k => if sel k then g k else 0%Q) (arange 0 n)) == Qsum (map g (filter sel (arange 0 n))))%Q).
  { intros g. generalize (arange 0 n). intros l. induction l as [|k l IH]; [reflexivity|]. cbn [map filter].
    rewrite qsum_cons, IH. destruct (sel k); cbn [map]; rewrite ?qsum_cons; ring. }
  rewrite (qsum_ext _ (fun k => if sel k then var / (zq m * zq m) else 0)%Q) in H.
  - rewrite (Hf (fun _ => var / (zq m * zq m))%Q), qsum_const in H. fold m in H.
    rewrite (expect_ext L _ _ (fun r => match r with Ok x =>
        let y := Qsum (map (fun k => f (row_of (snd x) k)) (filter sel (arange 0 n))) / zq m - mean in y * y | Err _ => 0 end)%Q) in H.
    + rewrite H. field. lra.
    + intros [x|e] _; [|reflexivity]. cbv zeta.
      assert (E : (deviation (fun k => day_mean_of L depth F c s k f) (fun k => if sel k then 1 / zq m else 0) (fun _ => f) n (snd x) ==
                   Qsum (map (fun k => f (row_of (snd x) k)) (filter sel (arange 0 n))) / zq m - mean)%Q).
      { unfold deviation. rewrite (qsum_ext _ (fun k => if sel k then (1 / zq m) * f (row_of (snd x) k) + - (mean / zq m) else 0)%Q).
        - rewrite (Hf (fun k => (1 / zq m) * f (row_of (snd x) k) + - (mean / zq m))%Q), qsum_add, qsum_scale, qsum_const. fold m. field. lra.
        - intros k Hk. apply in_arange in Hk. destruct (sel k) eqn:Es; [|ring]. destruct (Hlaw k ltac:(lia) Es) as [E _]. rewrite E. field. lra. }
      rewrite E. reflexivity.
  - intros k Hk. apply in_arange in Hk. destruct (sel k) eqn:Es; [|ring]. destruct (Hlaw k ltac:(lia) Es) as [_ E]. rewrite E. field. lra.
Qed.

(** Chebyshev: the chance of an error of at least [eps] *)
Theorem C92_converges (f : list Q -> Q) (sel : Z -> bool) (mean var eps : Q) :
  let m := zlen (filter sel (arange 0 n)) in
  0 < m -> (0 < eps)%Q ->
  (forall k, 0 <= k < n -> sel k = true -> (day_mean_of L depth F c s k f == mean)%Q /\ (day_variance L depth F c s k f == var)%Q) ->
  (chance L (generate_sequential depth F w c arg)
     (fun r => match r with Ok x =>
        let y := (Qsum (map (fun k => f (row_of (snd x) k)) (filter sel (arange 0 n))) / zq m - mean)%Q in Qle_bool (eps * eps) (y * y) | Err _ => false end) <=
   var / (zq m * (eps * eps)))%Q.
Proof.
  intros m Hm He Hlaw. pose proof (zq_pos m Hm) as Hq. unfold chance.
  pose proof (C92_average f sel mean var Hm Hlaw) as H. fold m in H.
  set (yy := fun r : res (usecase * list (list Q)) => match r with Ok x => let y := (Qsum (map (fun k => f (row_of (snd x) k)) (filter sel (arange 0 n))) / zq m - mean)%Q in (y * y)%Q | Err _ => 0%Q end) in *.
  assert (E2 : (0 < eps * eps)%Q) by nra.
  assert (E3 : (expect L (generate_sequential depth F w c arg) (fun r => (1 / (eps * eps)) * yy r) == var / (zq m * (eps * eps)))%Q).
  { rewrite expect_scale, H. field. lra. }
  rewrite <- E3. apply expect_le; [apply bp_sequential|]. intros r _.
  assert (Hy : (0 <= yy r)%Q) by (unfold yy; destruct r; [cbv zeta; apply square_nonneg|apply Qle_refl]).
  assert (Hi : (0 < 1 / (eps * eps))%Q) by (apply Qlt_shift_div_l; [exact E2|rewrite Qmult_0_l; reflexivity]).
  destruct r as [x|e]; [|nra]. cbv zeta. unfold yy in *. cbv zeta in *.
  destruct (Qle_bool (eps * eps) _) eqn:Eb; [|nra]. apply Qle_bool_iff in Eb.
  set (y2 := (_ * _)%Q) in Eb at 2.
  apply Qle_trans with ((1 / (eps * eps)) * (eps * eps))%Q; [rewrite (Qmult_comm (1 / (eps * eps))); unfold Qdiv; rewrite Qmult_1_l, Qmult_inv_r by lra; apply Qle_refl|]. apply Qmult_le_l; assumption.
Qed.

End variance.

(** ** A case: a household type with two members, two appliances, over a Saturday and a Sunday *)

Example C92_case : set_up mean_village 1051200000 2 /\ peak_of mean_village <> [] /\ Forall (safe_user f64 2) (users mean_village) /\
  zlen (filter (fun _ => true) (arange 0 2)) = 2 /\
  forall L f k, 0 <= k < 2 ->
    (day_mean_of L 3 f64 mean_village 1051200000 k f == day_mean_of L 3 f64 mean_village 1051200000 0 f)%Q /\
    (day_variance L 3 f64 mean_village 1051200000 k f == day_variance L 3 f64 mean_village 1051200000 0 f)%Q.
Proof.
  destruct C89_case as (H1 & H2 & H3 & _). split; [exact H1|]. split; [exact H2|]. split; [exact H3|]. split; [reflexivity|].
  assert (G : forall L f k, 0 <= k < 2 ->
    (day_mean_of L 3 f64 mean_village 1051200000 k f == day_mean_of L 3 f64 mean_village 1051200000 0 f)%Q).
  { intros L f k Hk. assert (k = 0 \/ k = 1) as [-> | ->] by lia; [reflexivity|].
    apply C92_same_law; [reflexivity|]. constructor; [|constructor]. constructor; [reflexivity|]. constructor; [reflexivity|constructor]. }
  intros L f k Hk. split; [apply G; exact Hk|]. unfold day_variance. rewrite (G L _ k Hk). pose proof (G L f k Hk) as E.
  set (p := day_mean_of L 3 f64 mean_village 1051200000 k f) in *. set (q := day_mean_of L 3 f64 mean_village 1051200000 0 f) in *.
  unfold day_mean_of. apply expect_ext. intros [x|e] _; [|reflexivity]. cbv zeta. rewrite E. reflexivity.
Qed.
