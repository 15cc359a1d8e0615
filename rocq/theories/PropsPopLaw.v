(** * PropsPopLaw: order and grouping of users and appliances do not change the law of the profiles (C95) *)
From Verif Require Import Base Wp Tape F64 Utils ListLemmas Appliance User UseCase Sim Spec SpecUser SpecUseCase SpecDay ProofsAppliance ProofsEvent ProofsEvent2
  ProofsDay ProofsDay2 ProofsUser ProofsUseCase ProofsParallel ProofsRun PropsBasic PropsDay PropsUseCase PropsUser PropsTotal Prob PropsProb PropsMean PropsIndep PropsDiverse
  Examples PropsExamples PropsScript PropsOverflow PropsPopulation.
From Coq Require Import ZifyBool ZifyNat Permutation.
Open Scope list_scope.
Open Scope Z_scope.

(** ** Specification *)

(** a measurement of a list of profiles: a number that depends on the values only, not on how they are written *)
Definition measurement (f : list (list Q) -> Q) : Prop := forall x y, Forall2 (Forall2 Qeq) x y -> (f x == f y)%Q.
Definition row_measurement (f : list Q -> Q) : Prop := forall x y, Forall2 Qeq x y -> (f x == f y)%Q.

(** its mean over the runs of a program that returns profiles; runs that raise count as 0 *)
Definition mean_rows {A} (L : law) (p : prog (A * list (list Q))) (f : list (list Q) -> Q) : Q :=
  expect L p (fun r => match r with Ok x => f (snd x) | Err _ => 0%Q end).

(** ** Independent programs commute *)

Lemma expect_zero {A} L (p : prog A) : (expect L p (fun _ => 0) == 0)%Q.
Proof.
  etransitivity; [apply (expect_ext L p _ (fun r => 0 * (fun _ => 0) r)%Q); reflexivity|]. rewrite expect_scale. ring.
Qed.

Lemma expect_swap {A B} L (p : prog A) (q : prog B) (g : res A -> res B -> Q) :
  (expect L p (fun r => expect L q (g r)) == expect L q (fun r' => expect L p (fun r => g r r')))%Q.
Proof.
  induction p as [a|e|k IH|n k IH|c k IH|s k IH]; cbn [expect]; try reflexivity.
  - etransitivity; [apply average_ext; intros i _; apply IH|]. unfold average, Qdiv. rewrite <- expect_qsum.
    rewrite Qmult_comm, <- expect_scale. apply expect_ext. intros r _. ring.
  - etransitivity; [apply average_ext; intros i _; apply IH|]. unfold average, Qdiv. rewrite <- expect_qsum.
    rewrite Qmult_comm, <- expect_scale. apply expect_ext. intros r _. ring.
  - etransitivity; [apply weighted_ext; intros i; apply IH|]. unfold weighted. rewrite expect_qsum.
    apply qsum_ext. intros x _. rewrite <- expect_scale. reflexivity.
  - exact IH.
Qed.

(** ** Rows *)

Lemma rows_refl (l : list Q) : Forall2 Qeq l l.
Proof. induction l; constructor; [reflexivity|assumption]. Qed.
Lemma rows_trans (x y z : list Q) : Forall2 Qeq x y -> Forall2 Qeq y z -> Forall2 Qeq x z.
Proof. intros H. revert z. induction H; intros z K; inversion K; subst; constructor; [etransitivity; eassumption|auto]. Qed.

Section exact.
Variable F : fm.
Hypothesis HF : exact F.

Lemma vadd_eq : forall x x' y y', Forall2 Qeq x x' -> Forall2 Qeq y y' -> Forall2 Qeq (vadd F x y) (vadd F x' y').
Proof.
  intros x x' y y' H. revert y y'. induction H as [|a a' x x' Ha Hx IH]; intros y y' K; [constructor|].
  destruct K as [|b b' y y' Hb Hy]; [constructor|]. cbn [vadd]. constructor; [|apply IH; exact Hy].
  unfold fadd. rewrite !(HF _), Ha, Hb. reflexivity.
Qed.
Lemma vadd_swap : forall x y z, Forall2 Qeq (vadd F (vadd F x y) z) (vadd F (vadd F x z) y).
Proof.
  induction x as [|a x IH]; intros [|b y] [|c z]; try constructor; [|apply IH]. unfold fadd. rewrite !(HF _). ring.
Qed.
Lemma vadd_assoc : forall x y z, Forall2 Qeq (vadd F x (vadd F y z)) (vadd F (vadd F x y) z).
Proof.
  induction x as [|a x IH]; intros [|b y] [|c z]; try constructor; [|apply IH]. unfold fadd. rewrite !(HF _). ring.
Qed.
Lemma vadd_nothing : forall x n, (List.length x <= n)%nat -> Forall2 Qeq (vadd F x (zeros n)) x.
Proof.
  induction x as [|a x IH]; intros n Hn; [constructor|]. destruct n as [|n]; [cbn in Hn; lia|].
  change (zeros (S n)) with (0%Q :: zeros n). cbn [vadd]. constructor; [unfold fadd; rewrite (HF _); ring|]. apply IH. cbn in Hn. lia.
Qed.

(** ** The day of a member *)

Variables (L : law) (depth : nat) (i : Z) (peak : list Z) (dt : Z).

Fixpoint apps_mean_of (pref : Z) (l : list appliance) (acc : list Q) (f : list Q -> Q) : Q :=
  match l with
  | [] => f acc
  | a :: l' => app_mean L depth F pref a i peak dt (fun d => apps_mean_of pref l' (vadd F acc d) f)
  end.

Lemma app_mean_ext pref a f g : (forall d, (f d == g d)%Q) -> (app_mean L depth F pref a i peak dt f == app_mean L depth F pref a i peak dt g)%Q.
Proof. intros H. unfold app_mean. apply expect_ext. intros [x|e] _; [apply H|reflexivity]. Qed.

Lemma generate_apps_mean pref f : forall l acc,
  (expect L (generate_apps depth F pref i peak dt l acc) (fun r => match r with Ok x => f (snd x) | Err _ => 0 end) == apps_mean_of pref l acc f)%Q.
Proof.
  induction l as [|a l IH]; intros acc; cbn [generate_apps apps_mean_of]; [reflexivity|].
  unfold app_mean, one_appliance. rewrite !expect_bind. apply expect_ext. intros [pw|e] _; cbn [onward]; [|reflexivity].
  rewrite expect_bind. apply expect_ext. intros [a'|e] _; cbn [onward]; [|reflexivity].
  rewrite expect_bind. rewrite <- IH. apply expect_ext. intros [x|e] _; reflexivity.
Qed.

Lemma apps_mean_eq pref f : row_measurement f -> forall l acc acc', Forall2 Qeq acc acc' -> (apps_mean_of pref l acc f == apps_mean_of pref l acc' f)%Q.
Proof.
  intros Hf. induction l as [|a l IH]; intros acc acc' H; cbn [apps_mean_of]; [exact (Hf _ _ H)|].
  apply app_mean_ext. intros d. apply IH. apply vadd_eq; [exact H|apply rows_refl].
Qed.

Lemma app_mean_swap pref a b (g : list Q -> list Q -> Q) :
  (app_mean L depth F pref a i peak dt (fun d => app_mean L depth F pref b i peak dt (g d)) ==
   app_mean L depth F pref b i peak dt (fun d' => app_mean L depth F pref a i peak dt (fun d => g d d')))%Q.
Proof.
  unfold app_mean. set (p := one_appliance depth F pref a i peak dt). set (q := one_appliance depth F pref b i peak dt).
  set (G := fun (r r' : res appliance) => match r, r' with Ok x, Ok y => g (daily_use (st x)) (daily_use (st y)) | _, _ => 0%Q end).
  etransitivity; [apply (expect_ext L p _ (fun r => expect L q (G r)))|].
  { intros [x|e] _; unfold G; [reflexivity|]. symmetry. apply expect_zero. }
  rewrite expect_swap. apply expect_ext. intros [y|e] _; unfold G.
  - apply expect_ext. intros [x|e] _; reflexivity.
  - etransitivity; [|apply (expect_zero L p)]. apply expect_ext. intros [x|e'] _; reflexivity.
Qed.

Lemma apps_mean_perm pref f l l' : row_measurement f -> Permutation l l' -> forall acc, (apps_mean_of pref l acc f == apps_mean_of pref l' acc f)%Q.
Proof.
  intros Hf. induction 1 as [|a l l' _ IH|a b l|l l' l'' _ IH1 _ IH2]; intros acc; cbn [apps_mean_of]; [reflexivity| | |].
  - apply app_mean_ext. intros d. apply IH.
  - rewrite app_mean_swap. apply app_mean_ext. intros d. apply app_mean_ext. intros d'. apply apps_mean_eq; [exact Hf|]. apply vadd_swap.
  - rewrite IH1. apply IH2.
Qed.

Notation M u := (member_mean L depth F u i peak dt).

Lemma member_apps u f : (M u f == expect L (draw_pref u) (fun r => match r with Ok pref => apps_mean_of pref (app_list u) (zeros day_minutes) f | Err _ => 0 end))%Q.
Proof.
  unfold member_mean, generate_single_load_profile. rewrite expect_bind. apply expect_ext. intros [pref|e] _; cbn [onward]; [|reflexivity].
  rewrite expect_bind, <- generate_apps_mean. apply expect_ext. intros [x|e] _; reflexivity.
Qed.

Lemma member_reorder u v f : row_measurement f -> user_preference u = user_preference v -> Permutation (app_list u) (app_list v) -> (M u f == M v f)%Q.
Proof.
  intros Hf Hp Ha. rewrite !member_apps. unfold draw_pref. rewrite Hp. apply expect_ext. intros [pref|e] _; [|reflexivity].
  apply apps_mean_perm; assumption.
Qed.

Lemma member_swap u v (g : list Q -> list Q -> Q) : (M u (fun d => M v (g d)) == M v (fun d' => M u (fun d => g d d')))%Q.
Proof.
  unfold member_mean. set (p := generate_single_load_profile depth F u i peak dt). set (q := generate_single_load_profile depth F v i peak dt).
  set (G := fun (r r' : res (user * list Q)) => match r, r' with Ok x, Ok y => g (snd x) (snd y) | _, _ => 0%Q end).
  etransitivity; [apply (expect_ext L p _ (fun r => expect L q (G r)))|].
  { intros [x|e] _; unfold G; [reflexivity|]. symmetry. apply expect_zero. }
  rewrite expect_swap. apply expect_ext. intros [y|e] _; unfold G.
  - apply expect_ext. intros [x|e] _; reflexivity.
  - etransitivity; [|apply (expect_zero L p)]. apply expect_ext. intros [x|e'] _; reflexivity.
Qed.

(** ** Members, one after the other *)

Fixpoint crowd_mean (ms : list user) (acc : list Q) (f : list Q -> Q) : Q :=
  match ms with [] => f acc | u :: ms' => M u (fun l => crowd_mean ms' (vadd F acc l) f) end.

(** the members of the user types *)
Definition crowd (us : list user) : list user := flat_map (fun u => repeat u (Z.to_nat (num_users u))) us.

Lemma crowd_eq f : row_measurement f -> forall ms acc acc', Forall2 Qeq acc acc' -> (crowd_mean ms acc f == crowd_mean ms acc' f)%Q.
Proof.
  intros Hf. induction ms as [|u ms IH]; intros acc acc' H; cbn [crowd_mean]; [exact (Hf _ _ H)|].
  apply member_ext. intros d. apply IH. apply vadd_eq; [exact H|apply rows_refl].
Qed.
Lemma crowd_ext f g : (forall x, (f x == g x)%Q) -> forall ms acc, (crowd_mean ms acc f == crowd_mean ms acc g)%Q.
Proof. intros H. induction ms as [|u ms IH]; intros acc; cbn [crowd_mean]; [apply H|]. apply member_ext. intros d. apply IH. Qed.
Lemma crowd_app f : forall ms ms' acc, (crowd_mean (ms ++ ms') acc f == crowd_mean ms acc (fun x => crowd_mean ms' x f))%Q.
Proof. induction ms as [|u ms IH]; intros ms' acc; cbn [crowd_mean app]; [reflexivity|]. apply member_ext. intros d. apply IH. Qed.
Lemma crowd_good f ms : row_measurement f -> row_measurement (fun x => crowd_mean ms x f).
Proof. intros Hf x y H. apply crowd_eq; assumption. Qed.

Lemma crowd_perm f ms ms' : row_measurement f -> Permutation ms ms' -> forall acc, (crowd_mean ms acc f == crowd_mean ms' acc f)%Q.
Proof.
  intros Hf. induction 1 as [|a l l' _ IH|a b l|l l' l'' _ IH1 _ IH2]; intros acc; cbn [crowd_mean]; [reflexivity| | |].
  - apply member_ext. intros d. apply IH.
  - rewrite member_swap. apply member_ext. intros d. apply member_ext. intros d'. apply crowd_eq; [exact Hf|]. apply vadd_swap.
  - rewrite IH1. apply IH2.
Qed.

(** members with the same law *)
Definition alike (u v : user) : Prop := forall f, row_measurement f -> (M u f == M v f)%Q.

Lemma crowd_alike f ms ms' : row_measurement f -> Forall2 alike ms ms' -> forall acc, (crowd_mean ms acc f == crowd_mean ms' acc f)%Q.
Proof.
  intros Hf. induction 1 as [|u v ms ms' Huv _ IH]; intros acc; cbn [crowd_mean]; [reflexivity|].
  etransitivity; [apply member_ext; intros d; apply IH|]. apply Huv. intros x y Hxy. apply crowd_eq; [exact Hf|]. apply vadd_eq; [apply rows_refl|exact Hxy].
Qed.

Lemma members_mean_of f : row_measurement f -> forall k u acc,
  (expect L (generate_members k depth F u i peak dt) (fun r => match r with Ok v => f (vadd F acc (load v)) | Err _ => 0 end) ==
   crowd_mean (repeat u k) (vadd F acc (load u)) f)%Q.
Proof.
  intros Hf. induction k as [|k IH]; intros u acc; cbn [generate_members repeat crowd_mean]; [reflexivity|].
  rewrite expect_bind. unfold member_mean at 1. apply expect_ext. intros [[v l]|e] Hr; cbn [onward fst snd]; [|reflexivity].
  apply generate_single_may in Hr as (Hs & Hload & _).
  rewrite (IH (set_load v (vadd F (load v) l)) acc). cbn [load set_load]. rewrite Hload.
  rewrite (crowd_eq f Hf _ _ _ (vadd_assoc acc (load u) l)). apply crowd_alike; [exact Hf|].
  assert (Al : alike (set_load v (vadd F (load u) l)) u).
  { intros g _. apply PropsDiverse.member_same. exact Hs. }
  clear - Al. induction k; constructor; assumption.
Qed.

Lemma day_crowd f : row_measurement f -> forall us acc, (List.length acc <= day_minutes)%nat ->
  (expect L (day_of_users depth F i peak dt us acc) (fun r => match r with Ok x => f (snd x) | Err _ => 0 end) == crowd_mean (crowd us) acc f)%Q.
Proof.
  intros Hf. induction us as [|u us IH]; intros acc Hacc; cbn [day_of_users]; [reflexivity|].
  change (crowd (u :: us)) with (repeat u (Z.to_nat (num_users u)) ++ crowd us). rewrite crowd_app.
  rewrite expect_bind. unfold generate_aggregated_load_profile.
  etransitivity; [apply (expect_ext L _ _ (fun r => match r with Ok v => crowd_mean (crowd us) (vadd F acc (load v)) f | Err _ => 0%Q end))|].
  - intros [v|e] _; cbn [onward]; [|reflexivity]. rewrite expect_bind, <- IH.
    + apply expect_ext. intros [x|e] _; reflexivity.
    + rewrite vadd_len. lia.
  - set (u0 := set_load u (zeros day_minutes)).
    rewrite (members_mean_of (fun x => crowd_mean (crowd us) x f) (crowd_good f _ Hf) (Z.to_nat (num_users u)) u0 acc).
    etransitivity; [apply crowd_eq; [apply crowd_good; exact Hf|apply (vadd_nothing acc day_minutes Hacc)]|].
    apply crowd_alike; [apply crowd_good; exact Hf|].
    assert (Al : alike u0 u). { intros g _. apply (PropsDiverse.member_same L depth F peak g u u0 i dt). apply same_user_load, same_user_refl. }
    clear - Al. induction (Z.to_nat (num_users u)); constructor; assumption.
Qed.

(** ** Populations *)

Lemma crowd_same us us' : same_population us us' -> forall f acc, row_measurement f -> (crowd_mean (crowd us) acc f == crowd_mean (crowd us') acc f)%Q.
Proof.
  induction 1 as [us us' Hp|us1 u v us2 Hn Hu Ha|us1 u v w us2 Hv Hw Hn P1 P2 A1 A2|us us' _ IH|us us' us'' _ IH1 _ IH2]; intros f acc Hf.
  - apply crowd_perm; [exact Hf|]. unfold crowd. apply perm_flat_map. exact Hp.
  - apply crowd_alike; [exact Hf|]. unfold crowd. rewrite !flat_map_app. cbn [flat_map].
    assert (R : forall l, Forall2 alike l l). { intros l. induction l; constructor; [|assumption]. intros g _. reflexivity. }
    apply Forall2_app; [apply R|]. apply Forall2_app; [|apply R]. rewrite <- Hn.
    assert (Al : alike u v) by (intros g Hg; apply member_reorder; assumption).
    clear - Al. induction (Z.to_nat (num_users u)); constructor; assumption.
  - apply crowd_alike; [exact Hf|]. unfold crowd. rewrite !flat_map_app. cbn [flat_map].
    assert (R : forall l, Forall2 alike l l). { intros l. induction l; constructor; [|assumption]. intros g _. reflexivity. }
    apply Forall2_app; [apply R|]. rewrite (app_assoc (repeat v _)). apply Forall2_app; [|apply R].
    rewrite Hn, Z2Nat.inj_add, repeat_app by assumption.
    assert (G : forall x k, user_preference x = user_preference u -> app_list x = app_list u -> Forall2 alike (repeat u k) (repeat x k)).
    { intros x k E1 E2. assert (Al : alike u x) by (intros g Hg; apply member_reorder; [exact Hg|congruence|rewrite E2; apply Permutation_refl]).
      induction k; constructor; assumption. }
    apply Forall2_app; apply G; assumption.
  - symmetry. apply IH. exact Hf.
  - rewrite IH1 by exact Hf. apply IH2. exact Hf.
Qed.

Lemma day_same_population us us' f : same_population us us' -> row_measurement f ->
  (expect L (day_of_users depth F i peak dt us (zeros day_minutes)) (fun r => match r with Ok x => f (snd x) | Err _ => 0 end) ==
   expect L (day_of_users depth F i peak dt us' (zeros day_minutes)) (fun r => match r with Ok x => f (snd x) | Err _ => 0 end))%Q.
Proof.
  intros Hp Hf. rewrite !day_crowd by (try exact Hf; unfold zeros; rewrite repeat_length; lia). apply crowd_same; assumption.
Qed.
End exact.

(** ** The days, one after the other *)

Section loop.
Variables (F : fm) (L : law) (depth : nat) (peak : list Z).
Hypothesis HF : exact F.

Fixpoint days_mean (ds : list Z) (us : list user) (i : Z) (rows : list (list Q)) (f : list (list Q) -> Q) : Q :=
  match ds with
  | [] => f rows
  | d :: ds' => if zlen rows <=? i then 0%Q else
      mean_at L depth F peak us i d (fun row => days_mean ds' us (i + 1) (list_set rows (Z.to_nat i) row) f)
  end.

Lemma mean_at_ext us i d f g : (forall x, (f x == g x)%Q) -> (mean_at L depth F peak us i d f == mean_at L depth F peak us i d g)%Q.
Proof. intros H. unfold mean_at. apply expect_ext. intros [x|e] _; [apply H|reflexivity]. Qed.

Lemma days_mean_same us vs f : Forall2 same_user us vs -> forall ds i rows, (days_mean ds us i rows f == days_mean ds vs i rows f)%Q.
Proof.
  intros H. induction ds as [|d ds IH]; intros i rows; cbn [days_mean]; [reflexivity|]. destruct (zlen rows <=? i); [reflexivity|].
  rewrite <- (mean_at_same L depth F peak us vs i d _ H). apply mean_at_ext. intros x. apply IH.
Qed.

Lemma loop_days_mean f : forall ds us i rows,
  (expect L (day_loop depth F peak i ds us rows) (fun r => match r with Ok x => f (snd x) | Err _ => 0 end) == days_mean ds us i rows f)%Q.
Proof.
  induction ds as [|d ds IH]; intros us i rows; cbn [day_loop days_mean]; [reflexivity|].
  rewrite expect_bind. destruct (zlen rows <=? i) eqn:E.
  - etransitivity; [|apply (expect_zero L (day_of_users depth F i peak (get_day_type d) us (zeros day_minutes)))].
    apply expect_ext. intros [x|e] _; reflexivity.
  - unfold mean_at. apply expect_ext. intros [[us' l]|e] Hr; cbn [onward fst snd]; [|reflexivity].
    rewrite IH. apply day_of_users_may in Hr as [Hs _]. symmetry. apply days_mean_same. exact Hs.
Qed.

Lemma list_set_rows : forall (x y : list (list Q)) k r s, Forall2 (Forall2 Qeq) x y -> Forall2 Qeq r s ->
  Forall2 (Forall2 Qeq) (list_set x k r) (list_set y k s).
Proof.
  intros x y k r s H. revert k. induction H as [|a b x y Ha Hx IH]; intros [|k] Hr; cbn [list_set]; constructor; auto.
Qed.

Lemma days_mean_rows us f : measurement f -> forall ds i rows rows', same_rows rows rows' -> (days_mean ds us i rows f == days_mean ds us i rows' f)%Q.
Proof.
  intros Hf. induction ds as [|d ds IH]; intros i rows rows' H; cbn [days_mean]; [exact (Hf _ _ H)|].
  assert (E : zlen rows = zlen rows') by (unfold zlen; f_equal; exact (ProofsParallel.Forall2_length _ _ _ H)).
  rewrite <- E. destruct (zlen rows <=? i); [reflexivity|]. apply mean_at_ext. intros x. apply IH. apply list_set_rows; [exact H|apply rows_refl].
Qed.

Lemma days_mean_population us us' f : same_population us us' -> measurement f -> forall ds i rows,
  (days_mean ds us i rows f == days_mean ds us' i rows f)%Q.
Proof.
  intros Hp Hf. induction ds as [|d ds IH]; intros i rows; cbn [days_mean]; [reflexivity|]. destruct (zlen rows <=? i); [reflexivity|].
  etransitivity; [apply mean_at_ext; intros x; apply IH|]. unfold mean_at.
  apply (day_same_population F HF L depth i peak (get_day_type d) us us' (fun row => days_mean ds us' (i + 1) (list_set rows (Z.to_nat i) row) f)); [exact Hp|].
  intros x y H. apply days_mean_rows; [exact Hf|]. apply list_set_rows; [|exact H]. clear. induction rows; constructor; [apply rows_refl|assumption].
Qed.

Lemma loop_population us us' i ds rows f : same_population us us' -> measurement f ->
  (mean_rows L (day_loop depth F peak i ds us rows) f == mean_rows L (day_loop depth F peak i ds us' rows) f)%Q.
Proof. intros Hp Hf. unfold mean_rows. rewrite !loop_days_mean. apply days_mean_population; assumption. Qed.

End loop.

(** ** C95 *)

Lemma sequential_mean L depth F w c arg f : (mean_rows L (generate_sequential depth F w c arg) f ==
  match choose_days c arg with
  | Err _ => 0
  | Ok c1 => expect L (num_days F w c1) (fun r => match r with
      | Ok cn => if snd cn <? 0 then 0 else
          mean_rows L (day_loop depth F (peak_of (fst cn)) 0 (match days (fst cn) with Some ds => ds | None => [] end) (users (fst cn))
            (repeat (zeros day_minutes) (Z.to_nat (snd cn)))) f
      | Err _ => 0 end)
  end)%Q.
Proof.
  unfold mean_rows, generate_sequential. rewrite expect_bind. destruct (choose_days c arg) as [c1|e]; cbn [lift expect onward]; [|reflexivity].
  rewrite expect_bind. apply expect_ext. intros [cn|e] _; cbn [onward]; [|reflexivity].
  destruct (snd cn <? 0); [reflexivity|]. rewrite expect_bind. apply expect_ext. intros [x|e] _; reflexivity.
Qed.

(** The simulation of an initialized use case: the mean of every measurement of the profiles is the same. *)
Theorem C95_generation L depth F w w' c c' arg arg' s n f : exact F ->
  set_up c s n -> set_up c' s n -> peak_of c' = peak_of c -> same_population (users c) (users c') -> measurement f ->
  (mean_rows L (generate_sequential depth F w c arg) f == mean_rows L (generate_sequential depth F w' c' arg') f)%Q.
Proof.
  intros HF Hu Hu' Hpk Hp Hf.
  set (dd := map (fun k => s + 1440 * k) (arange 0 n)).
  assert (G : forall w c arg, set_up c s n ->
    (mean_rows L (generate_sequential depth F w c arg) f == days_mean F L depth (peak_of c) dd (users c) 0 (repeat (zeros day_minutes) (Z.to_nat n)) f)%Q).
  { subst dd. clear. intros w c arg (Hn1 & Hn & (ds & Hds & Hlen & Hnth) & _). rewrite sequential_mean. unfold choose_days. rewrite Hds.
    unfold num_days. rewrite Hn. cbn [expect fst snd]. destruct (Z.ltb_spec n 0); [lia|]. rewrite Hds. unfold mean_rows. rewrite loop_days_mean.
    replace (map (fun k => s + 1440 * k) (arange 0 n)) with ds; [reflexivity|].
    apply nth_ext with (d := 0) (d' := 0).
    - rewrite map_length. pose proof (zlen_arange 0 n). unfold zlen in *. lia.
    - intros k Hk. assert (Hk' : 0 <= Z.of_nat k < n) by (unfold zlen in Hlen; lia). pose proof (Hnth _ Hk') as E. rewrite Nat2Z.id in E. rewrite E.
      symmetry. rewrite (nth_indep _ 0 (s + 1440 * 0)) by (rewrite map_length; pose proof (zlen_arange 0 n); unfold zlen in *; lia).
      rewrite (map_nth (fun k => s + 1440 * k)). rewrite nth_arange by lia. lia. }
  rewrite (G w c arg Hu), (G w' c' arg' Hu'), Hpk. apply days_mean_population; assumption.
Qed.

(** ** The whole script *)

Section script.
Variables (F : fm) (L : law) (depth : nat).
Hypothesis HF : exact F.

(** two use cases that differ in the users only *)
Definition regrouped (c c' : usecase) : Prop :=
  collected c = positions_from 0 (users c) /\ all_apps whole_day (users c) /\
  exists us', same_population (users c) us' /\ c' = reuser us' c.
Definition both_or_none (p p' : usecase * option exc) : Prop :=
  match snd p, snd p' with
  | None, None => regrouped (fst p) (fst p')
  | Some _, Some _ => True
  | _, _ => False
  end.

Lemma init_index_regrouped c c' : regrouped c c' -> regrouped (init_index c) (init_index c').
Proof.
  intros (Hc & Hw & us' & Hs & ->).
  assert (I : users (init_index c) = users c /\ collected (init_index c) = collected c) by (unfold init_index; destruct (days c) as [[|x l]|]; auto).
  destruct I as (I1 & I2). unfold regrouped. rewrite I1, I2. split; [exact Hc|]. split; [exact Hw|]. exists us'. split; [exact Hs|]. apply init_index_reuser.
Qed.

Lemma peak_regrouped c c' : regrouped c c' ->
  psim both_or_none
    (p <- calc_peak_time_range F c ;; Ret (match p with Ok p => (set_peak c (Some p), None) | Err e => (c, Some e) end))
    (p <- calc_peak_time_range F c' ;; Ret (match p with Ok p => (set_peak c' (Some p), None) | Err e => (c', Some e) end)).
Proof.
  intros (Hc & Hw & us' & Hs & ->). rewrite (calc_peak_reuser F us' c HF Hw Hs).
  apply psim_bind with (R := eq); [apply psim_eq|]. intros p ? <-. destruct p as [pk|e]; cbn [psim]; [|exact I].
  split; [exact Hc|]. split; [exact Hw|]. exists us'. split; [exact Hs|reflexivity].
Qed.

Lemma finish_regrouped c c' pe : regrouped c c' -> psim both_or_none (init_finish F c pe) (init_finish F c' pe).
Proof.
  intros (Hc & Hw & us' & Hs & ->). unfold init_finish. cbv zeta. change (num_days_ (reuser us' c)) with (num_days_ c).
  set (n := match num_days_ c with Some n => n | None => 0 end).
  change (users (reuser us' c)) with us'. change (collected (reuser us' c)) with (positions_from 0 us'). rewrite Hc.
  destruct (check_powers (users c) (positions_from 0 (users c)) n) as [us1 e] eqn:E.
  destruct (check_powers us' (positions_from 0 us') n) as [us2 e'] eqn:E'.
  destruct (check_all n _ _ E) as [P1 P2]. destruct (check_all n _ _ E') as [P1' P2']. cbn [snd] in P1, P1'.
  pose proof (pop_all (has_power n) _ _ Hs) as Hall.
  destruct e as [e|].
  { destruct e' as [e'|]; [exact I|]. specialize (P2 (proj2 Hall (P1' eq_refl))). discriminate. }
  destruct e' as [e'|]; [specialize (P2' (proj1 Hall (P1 eq_refl))); discriminate|].
  specialize (P2 (P1 eq_refl)). specialize (P2' (P1' eq_refl)). injection P2 as ->. injection P2' as ->.
  assert (Kg : PropsPopulation.kept (grow n)) by (right; eauto).
  assert (Hr : regrouped (set_users c (grow n (users c))) (set_users (reuser us' c) (grow n us'))).
  { split; [change (collected c = positions_from 0 (grow n (users c))); rewrite grow_positions; exact Hc|]. split; [exact (kept_whole _ _ Kg Hw)|].
    exists (grow n us'). split; [exact (kept_same _ _ _ Kg Hs)|]. unfold reuser. rewrite grow_positions. destruct c; reflexivity. }
  clear - Hr HF. revert Hr. generalize (set_users c (grow n (users c))) (set_users (reuser us' c) (grow n us')). clear - HF. intros c c' Hr.
  apply psim_bind with (R := both_or_none).
  - destruct pe as [[q|]|]; [| |apply peak_regrouped; exact Hr].
    + unfold set_peak_enlarge. destruct (Qle_bool 0 q); [|exact I]. apply (peak_regrouped (set_enlarge c q) (set_enlarge c' q)).
      destruct Hr as (Hc & Hw & us' & Hs & ->). split; [exact Hc|]. split; [exact Hw|]. exists us'. split; [exact Hs|reflexivity].
    + exact I.
  - intros [d e] [d' e'] H. unfold both_or_none in H. cbn [fst snd] in *. destruct e, e'; try contradiction; cbn [psim]; [exact I|].
    apply init_index_regrouped. exact H.
Qed.

Lemma initialize_regrouped w c c' num pe : regrouped c c' -> psim both_or_none (initialize F w c num pe false) (initialize F w c' num pe false).
Proof.
  intros H. rewrite !initialize_stages. pose proof H as (Hc & Hw & us' & Hs & ->). change (is_initialized (reuser us' c)) with (is_initialized c).
  destruct (is_initialized c && negb false); [exact H|].
  destruct (dates_stage w c num false) as [c2 e] eqn:E. rewrite (dates_stage_reuser us' w c num c2 e E).
  destruct e as [e|]; [exact I|]. apply finish_regrouped.
  destruct (dates_stage_same w c num false c2 None E) as (_ & _ & _ & _ & _ & _ & _ & Hu & Hcl).
  unfold regrouped. rewrite Hu, Hcl. split; [exact Hc|]. split; [exact Hw|]. exists us'. split; [exact Hs|reflexivity].
Qed.

(** what follows an initialisation *)
Definition if_initialized (g : usecase -> Q) (r : res (usecase * option exc)) : Q :=
  match r with Ok (c, None) => g c | _ => 0%Q end.

Lemma initialize_mean w c c' num pe (g : usecase -> Q) : (forall c c', regrouped c c' -> (g c == g c')%Q) -> regrouped c c' ->
  (expect L (initialize F w c num pe false) (if_initialized g) == expect L (initialize F w c' num pe false) (if_initialized g))%Q.
Proof.
  intros Hg H. apply (expect_psim both_or_none L _ _ _ _ (initialize_regrouped w c c' num pe H)); [|reflexivity].
  intros [d e] [d' e'] K. unfold both_or_none in K. cbn [fst snd] in K. cbn [if_initialized]. destruct e, e'; try contradiction; [reflexivity|auto].
Qed.

Lemma seeded_mean (c : usecase) seed (g : usecase -> Q) :
  (expect L (match seed_of seed with Some z => Seed z (Ret c) | None => Ret c end) (fun r => match r with Ok c => g c | Err _ => 0 end) == g c)%Q.
Proof. destruct (seed_of seed); reflexivity. Qed.

Lemma creation_mean w us us' start stop enl seed (g : usecase -> Q) : (forall c c', regrouped c c' -> (g c == g c')%Q) ->
  same_population us us' -> all_apps whole_day us ->
  (expect L (new_usecase F w us start stop false enl seed) (fun r => match r with Ok c => g c | Err _ => 0 end) ==
   expect L (new_usecase F w us' start stop false enl seed) (fun r => match r with Ok c => g c | Err _ => 0 end))%Q.
Proof.
  intros Hg Hs Hw. unfold new_usecase. cbv zeta.
  assert (Hr : regrouped (blank start stop false enl seed us) (blank start stop false enl seed us')).
  { split; [reflexivity|]. split; [exact Hw|]. exists us'. split; [exact Hs|reflexivity]. }
  set (b := blank start stop false enl seed us) in *. set (b' := blank start stop false enl seed us') in *.
  rewrite !expect_bind.
  etransitivity; [apply (expect_ext L _ _ (fun r => match r with Ok c => g c | Err _ => 0%Q end)); intros [c|e] _; [apply seeded_mean|reflexivity]|].
  symmetry. etransitivity; [apply (expect_ext L _ _ (fun r => match r with Ok c => g c | Err _ => 0%Q end)); intros [c|e] _; [apply seeded_mean|reflexivity]|]. symmetry.
  destruct start as [sd|]; [destruct stop as [ed|]|]; [|exact (Hg _ _ Hr)|exact (Hg _ _ Hr)].
  rewrite !expect_bind.
  assert (E : forall c, (expect L (initialize F w c None None false) (onward L (fun r : usecase * option exc => match snd r with Some e => Raise e | None => Ret (fst r) end)
      (fun r => match r with Ok c => g c | Err _ => 0%Q end)) == expect L (initialize F w c None None false) (if_initialized g))%Q).
  { intros c. apply expect_ext. intros [[d [e|]]|e] _; reflexivity. }
  rewrite !E. apply initialize_mean; assumption.
Qed.

Lemma sequential_regrouped w c c' f : measurement f -> regrouped c c' ->
  (mean_rows L (generate_sequential depth F w c None) f == mean_rows L (generate_sequential depth F w c' None) f)%Q.
Proof.
  intros Hf H. rewrite !sequential_mean. pose proof H as (_ & _ & us' & _ & Ec). unfold choose_days.
  assert (Ed : days c' = days c) by (subst c'; reflexivity). rewrite Ed. destruct (days c) as [ds|] eqn:Ed'; [|reflexivity].
  unfold num_days. assert (En : num_days_ c' = num_days_ c) by (subst c'; reflexivity). rewrite En.
  assert (G : forall (d d' : usecase) n, regrouped d d' ->
     ((if n <? 0 then 0 else mean_rows L (day_loop depth F (peak_of d) 0 (match days d with Some ds => ds | None => [] end) (users d)
            (repeat (zeros day_minutes) (Z.to_nat n))) f) ==
      (if n <? 0 then 0 else mean_rows L (day_loop depth F (peak_of d') 0 (match days d' with Some ds => ds | None => [] end) (users d')
            (repeat (zeros day_minutes) (Z.to_nat n))) f))%Q).
  { intros d d' n (_ & _ & us2 & Hs & ->). change (peak_of (reuser us2 d)) with (peak_of d). change (days (reuser us2 d)) with (days d).
    change (users (reuser us2 d)) with us2. destruct (Z.ltb n 0); [reflexivity|]. apply loop_population; assumption. }
  destruct (num_days_ c) as [n|]; [exact (G c c' n H)|]. rewrite !expect_bind.
  apply (expect_psim both_or_none L _ _ _ _ (initialize_regrouped w c c' None None H)); [|reflexivity].
  intros [d e] [d' e'] K. unfold both_or_none in K. cbn [onward fst snd] in *. destruct e, e'; try contradiction; [reflexivity|].
  assert (En' : num_days_ d' = num_days_ d) by (destruct K as (_ & _ & us2 & _ & ->); reflexivity). rewrite En'.
  destruct (num_days_ d) as [n|]; [|reflexivity]. exact (G d d' n K).
Qed.

End script.

(** The whole script - creation, initialize, simulation: every measurement of the profiles has the same mean for two
    populations that differ in order and grouping only. *)
Theorem C95_simulation L depth F w us us' start stop enl seed num pe f : exact F ->
  same_population us us' -> all_apps whole_day us -> measurement f ->
  (mean_rows L (PropsTotal.simulate depth F w us start stop enl seed num pe) f ==
   mean_rows L (PropsTotal.simulate depth F w us' start stop enl seed num pe) f)%Q.
Proof.
  intros HF Hs Hw Hf. unfold mean_rows, PropsTotal.simulate. rewrite !expect_bind.
  set (g := fun c : usecase => expect L (initialize F w c num pe false) (if_initialized (fun d => mean_rows L (generate_sequential depth F w d None) f))).
  assert (E : forall us, (expect L (new_usecase F w us start stop false enl seed) (onward L (fun c : usecase =>
      r <- initialize F w c num pe false ;; match snd r with Some e => Raise e | None => generate_sequential depth F w (fst r) None end)
      (fun r => match r with Ok x => f (snd x) | Err _ => 0%Q end)) ==
    expect L (new_usecase F w us start stop false enl seed) (fun r => match r with Ok c => g c | Err _ => 0%Q end))%Q).
  { intros l. apply expect_ext. intros [c|e] _; cbn [onward]; [|reflexivity]. rewrite expect_bind. unfold g.
    apply expect_ext. intros [[d [e|]]|e] _; reflexivity. }
  rewrite !E. apply creation_mean; [exact HF| |exact Hs|exact Hw].
  intros c c' H. unfold g. apply initialize_mean; [exact HF| |exact H]. intros d d' K. apply sequential_regrouped; assumption.
Qed.

(** ... so the simulation completes with the same probability, *)
Theorem C95_completes L depth F w us us' start stop enl seed num pe : exact F ->
  same_population us us' -> all_apps whole_day us ->
  (chance L (PropsTotal.simulate depth F w us start stop enl seed num pe) (fun r => match r with Ok _ => true | Err _ => false end) ==
   chance L (PropsTotal.simulate depth F w us' start stop enl seed num pe) (fun r => match r with Ok _ => true | Err _ => false end))%Q.
Proof.
  intros HF Hs Hw.
  assert (E : forall us, (chance L (PropsTotal.simulate depth F w us start stop enl seed num pe) (fun r => match r with Ok _ => true | Err _ => false end) ==
    mean_rows L (PropsTotal.simulate depth F w us start stop enl seed num pe) (fun _ => 1))%Q).
  { intros l. unfold chance, mean_rows. apply expect_ext. intros [x|e] _; reflexivity. }
  rewrite !E. apply C95_simulation; try assumption. intros x y _. reflexivity.
Qed.

(** and the profiles have any given property, of their values, with the same probability. *)
Theorem C95_event L depth F w us us' start stop enl seed num pe (E : list (list Q) -> bool) : exact F ->
  same_population us us' -> all_apps whole_day us -> (forall x y, same_rows x y -> E x = E y) ->
  (chance L (PropsTotal.simulate depth F w us start stop enl seed num pe) (fun r => match r with Ok x => E (snd x) | Err _ => false end) ==
   chance L (PropsTotal.simulate depth F w us' start stop enl seed num pe) (fun r => match r with Ok x => E (snd x) | Err _ => false end))%Q.
Proof.
  intros HF Hs Hw HE.
  assert (G : forall us, (chance L (PropsTotal.simulate depth F w us start stop enl seed num pe) (fun r => match r with Ok x => E (snd x) | Err _ => false end) ==
    mean_rows L (PropsTotal.simulate depth F w us start stop enl seed num pe) (fun x => if E x then 1 else 0))%Q).
  { intros l. unfold chance, mean_rows. apply expect_ext. intros [x|e] _; reflexivity. }
  rewrite !G. apply C95_simulation; try assumption. intros x y Hxy. rewrite (HE x y Hxy). reflexivity.
Qed.

(** the village of input_file_1.py, its users in reverse order and one of them in two groups: the script completes with
    probability 1 for both, and so with the same law of the profiles *)
Example C95_case L depth F strict w n : exact F -> (0 < depth)%nat -> 1 <= n ->
  exists us u us1 us', build_users F strict (input_file_1 F) = Ok us /\ us = u :: us1 /\ num_users u = 11 /\
    us' = rev us1 ++ [with_members u 4; with_members u 7] /\
    same_population us us' /\ all_apps whole_day us /\
    (chance L (PropsTotal.simulate depth F w us' None None 0 None (Some n) None) (fun r => match r with Ok _ => true | Err _ => false end) == 1)%Q.
Proof.
  intros HF Hd Hn. destruct (C70_case depth F strict w n HF Hd Hn) as (us & u & us1 & us' & c & rows & H1 & H2 & H3 & H4 & H5 & H6 & _).
  exists us, u, us1, us'. repeat (split; [assumption|]). rewrite <- (C95_completes L depth F w us us' None None 0 None (Some n) None HF H5 H6).
  unfold chance. apply expect_sure; [apply PropsOverflow.bp_simulate|]. intros r Hr.
  destruct (C69_village depth F strict n r Hd Hn) as (c1 & rows1 & -> & _); [|reflexivity].
  exists us, w, None, None, 0%Q, None, (Some n), None. split; [exact H1|]. split; [reflexivity|]. first [exact Hr|split; [left; reflexivity|exact Hr]].
Qed.
