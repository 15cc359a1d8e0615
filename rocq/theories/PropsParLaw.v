(** * PropsParLaw: parallel and sequential simulations follow the same law (C96) *)
From Verif Require Import Base Wp Tape F64 Utils ListLemmas Appliance User UseCase Sim Spec SpecUser SpecUseCase SpecDay ProofsAppliance ProofsEvent ProofsEvent2
  ProofsDay ProofsDay2 ProofsUser ProofsUseCase ProofsParallel ProofsRun PropsBasic PropsDay PropsUseCase PropsUser PropsTotal PropsParallel PropsParallelDay Prob PropsProb PropsMean
  PropsIndep PropsDiverse PropsPopulation PropsPopLaw.
From Coq Require Import ZifyBool ZifyNat Permutation.
Open Scope list_scope.
Open Scope Z_scope.

(** ** Specification *)

(** the answers to all tasks, each worked on with its own independent random numbers; raises if some task raises *)
Fixpoint work_all (depth : nat) (F : fm) (peak : list Z) (ts : list task) : prog (list (Z * list Q)) :=
  match ts with
  | [] => Ret []
  | t :: ts' => x <- work depth F peak t ;; xs <- work_all depth F peak ts' ;; Ret (x :: xs)
  end.

(** core.py:454-519 on an initialized use case with [n] days; [sched] is the order in which the answers arrive, which
    may depend on the answers *)
Definition parallel_run (depth : nat) (F : fm) (c : usecase) (n : Z) (sched : list (Z * list Q) -> list (Z * list Q)) : prog (list (list Q)) :=
  answers <- work_all depth F (peak_of c) (all_tasks c) ;; lift (gather F n (sched answers)).
Definition schedule (sched : list (Z * list Q) -> list (Z * list Q)) : Prop := forall l, Permutation l (sched l).

(** ** The answers *)

Lemma work_all_may depth F peak : forall ts xs, may (work_all depth F peak ts) (Ok xs) -> Forall2 (fun t x => may (work depth F peak t) (Ok x)) ts xs.
Proof.
  induction ts as [|t ts IH]; intros xs H; cbn [work_all] in H; [apply may_ret_inv in H; injection H as ->; constructor|].
  apply may_bind in H as [(x & Hx & H)|(e & _ & H)]; [|discriminate]. apply may_bind in H as [(ys & Hy & H)|(e & _ & H)]; [|discriminate].
  apply may_ret_inv in H. injection H as ->. constructor; auto.
Qed.

Lemma work_all_fails depth F peak : forall ts e, may (work_all depth F peak ts) (Err e) -> exists t, In t ts /\ may (work depth F peak t) (Err e).
Proof.
  induction ts as [|t ts IH]; intros e H; cbn [work_all] in H; [apply may_ret_inv in H; discriminate|].
  apply may_bind in H as [(x & Hx & H)|(e' & H & E)].
  - apply may_bind in H as [(ys & Hy & H)|(e' & H & E)]; [apply may_ret_inv in H; discriminate|]. injection E as ->.
    destruct (IH _ H) as (t' & Ht & Hm). exists t'. split; [right; exact Ht|exact Hm].
  - injection E as ->. exists t. split; [left; reflexivity|exact H].
Qed.

(** every run is a possible result of the parallel mode, as modelled for C29 and C30 *)
Theorem C96_possible depth F c n sched r : schedule sched -> may (parallel_run depth F c n sched) r -> parallel_may depth F c n r.
Proof.
  intros Hs H. unfold parallel_run in H. apply may_bind in H as [(xs & Hx & H)|(e & H & ->)].
  - apply may_lift in H as ->. econstructor; [apply work_all_may; exact Hx|apply Hs].
  - apply work_all_fails in H as (t & Ht & He). econstructor; eassumption.
Qed.

Lemma work_tag depth F peak t x : may (work depth F peak t) (Ok x) -> fst x = t_day t.
Proof.
  unfold work. intros H. apply may_bind in H as [(pw & _ & H)|(e & _ & H)]; [|discriminate]. apply may_bind in H as [(a & _ & H)|(e & _ & H)]; [|discriminate].
  apply may_ret_inv in H. injection H as ->. reflexivity.
Qed.

Lemma tagged_day depth F peak ts xs k : Forall2 (fun t x => may (work depth F peak t) (Ok x)) ts xs -> Forall (fun t => t_day t = k) ts -> day_answers xs k = map snd xs.
Proof.
  intros H Ht. induction H as [|t x ts xs Hx H IH]; [reflexivity|]. inversion Ht as [|? ? H1 H2]; subst. unfold day_answers in *. cbn [filter].
  rewrite (work_tag _ _ _ _ _ Hx), Z.eqb_refl. cbn [map]. f_equal. apply IH. exact H2.
Qed.
Lemma tagged_other depth F peak ts xs k : Forall2 (fun t x => may (work depth F peak t) (Ok x)) ts xs -> Forall (fun t => t_day t <> k) ts -> day_answers xs k = [].
Proof.
  intros H Ht. induction H as [|t x ts xs Hx H IH]; [reflexivity|]. inversion Ht as [|? ? H1 H2]; subst. unfold day_answers in *. cbn [filter].
  rewrite (work_tag _ _ _ _ _ Hx). destruct (Z.eqb_spec k (t_day t)); [congruence|]. apply IH. exact H2.
Qed.

Lemma tasks_days us : forall ds i, Forall (fun t => i <= t_day t) (tasks_from us i ds).
Proof.
  induction ds as [|d ds IH]; intros i; cbn [tasks_from]; [constructor|]. apply Forall_app. split.
  - apply Forall_forall. intros t Ht. apply (day_tasks_in i (get_day_type d) us) in Ht as (_ & _ & _ & E & _). lia.
  - eapply Forall_impl; [|apply (IH (i + 1))]. cbv beta. intros; lia.
Qed.

Section law.
Variables (L : law) (depth : nat) (F : fm) (peak : list Z).
Hypothesis HF : exact F.

(** the mean over the answers *)
Definition answers_mean (ts : list task) (g : list (Z * list Q) -> Q) : Q :=
  expect L (work_all depth F peak ts) (fun r => match r with Ok xs => g xs | Err _ => 0%Q end).

Lemma answers_ext ts g h : (forall xs, Forall2 (fun t x => may (work depth F peak t) (Ok x)) ts xs -> (g xs == h xs)%Q) -> (answers_mean ts g == answers_mean ts h)%Q.
Proof. intros H. unfold answers_mean. apply expect_ext. intros [xs|e] Hr; [apply H, work_all_may, Hr|reflexivity]. Qed.

Lemma answers_cons t ts g : (answers_mean (t :: ts) g ==
  expect L (work depth F peak t) (fun r => match r with Ok x => answers_mean ts (fun xs => g (x :: xs)) | Err _ => 0 end))%Q.
Proof.
  unfold answers_mean. cbn [work_all]. rewrite expect_bind. apply expect_ext. intros [x|e] _; cbn [onward]; [|reflexivity].
  rewrite expect_bind. apply expect_ext. intros [xs|e] _; reflexivity.
Qed.

Lemma answers_app : forall ts ts' g, (answers_mean (ts ++ ts') g == answers_mean ts (fun xs => answers_mean ts' (fun ys => g (xs ++ ys))))%Q.
Proof.
  induction ts as [|t ts IH]; intros ts' g; [reflexivity|]. cbn [app]. rewrite !answers_cons.
  apply expect_ext. intros [x|e] _; [|reflexivity]. rewrite IH. reflexivity.
Qed.

Lemma work_mean t g : (expect L (work depth F peak t) (fun r => match r with Ok x => g (snd x) | Err _ => 0 end) ==
  app_mean L depth F (t_pref t) (t_app t) (t_day t) peak (t_type t) g)%Q.
Proof.
  unfold work, app_mean, one_appliance. rewrite !expect_bind. apply expect_ext. intros [pw|e] _; cbn [onward]; [|reflexivity].
  rewrite expect_bind. apply expect_ext. intros [x|e] _; reflexivity.
Qed.

(** the preference of the day does not matter to appliances that are not restricted to one *)
Lemma any_preference a p q i dt g : pref_index (par a) = 0 -> (app_mean L depth F p a i peak dt g == app_mean L depth F q a i peak dt g)%Q.
Proof.
  intros Hz. unfold app_mean. apply (expect_psim eq); [|intros x ? <-; reflexivity|reflexivity].
  unfold one_appliance. apply psim_bind with (R := eq); [apply psim_eq|]. intros pw ? <-.
  unfold generate_load_profile. apply psim_bind with (R := eq); [|intros x ? <-; apply psim_eq].
  unfold generate_load_profile_traced. cbv zeta. apply psim_bind with (R := eq); [apply psim_eq|]. intros u ? <-.
  assert (E : skip_day a p dt u = skip_day a q dt u) by (unfold skip_day; rewrite Hz; reflexivity). rewrite E. apply psim_eq.
Qed.

Definition unrestricted (a : appliance) : Prop := pref_index (par a) = 0.

Lemma tasks_apps i dt g : row_measurement g -> forall ts acc, Forall (fun t => t_day t = i /\ t_type t = dt /\ unrestricted (t_app t)) ts ->
  (answers_mean ts (fun xs => g (fold_left (vadd F) (map snd xs) acc)) == apps_mean_of F L depth i peak dt 0 (map t_app ts) acc g)%Q.
Proof.
  intros Hg. induction ts as [|t ts IH]; intros acc Ht; [reflexivity|]. inversion Ht as [|? ? (H1 & H2 & H3) H4]; subst. cbn [map apps_mean_of].
  rewrite answers_cons. rewrite (any_preference (t_app t) 0 (t_pref t) _ _ _ H3), <- work_mean.
  apply expect_ext. intros [[k l]|e] _; [|reflexivity]. cbn [snd]. rewrite <- IH by exact H4. reflexivity.
Qed.

(** ** One day *)

Notation AM i dt := (apps_mean_of F L depth i peak dt 0).

Lemma apps_mean_app i dt g : forall l l' acc, (AM i dt (l ++ l') acc g == AM i dt l acc (fun x => AM i dt l' x g))%Q.
Proof. induction l as [|a l IH]; intros l' acc; cbn [apps_mean_of app]; [reflexivity|]. apply app_mean_ext. intros d. apply IH. Qed.

Lemma apps_shift i dt g : row_measurement g -> forall l b acc,
  (AM i dt l b (fun x => g (vadd F acc x)) == AM i dt l (vadd F acc b) g)%Q.
Proof.
  intros Hg. induction l as [|a l IH]; intros b acc; cbn [apps_mean_of]; [reflexivity|].
  apply app_mean_ext. intros d. rewrite IH. apply apps_mean_eq; [exact HF|exact Hg|]. apply vadd_assoc. exact HF.
Qed.

Lemma member_unrestricted u i dt g : row_measurement g -> 0 <= user_preference u -> Forall unrestricted (app_list u) ->
  (member_mean L depth F u i peak dt g == AM i dt (app_list u) (zeros day_minutes) g)%Q.
Proof.
  intros Hg Hp Ha. rewrite member_apps.
  assert (E : forall p l acc, Forall unrestricted l -> (apps_mean_of F L depth i peak dt p l acc g == AM i dt l acc g)%Q).
  { clear - Hg. intros p l. induction l as [|a l IH]; intros acc Hl; cbn [apps_mean_of]; [reflexivity|]. inversion Hl as [|? ? H1 H2]; subst.
    rewrite (any_preference a 0 p _ _ _ H1). apply app_mean_ext. intros d. apply IH. exact H2. }
  unfold draw_pref. destruct (Z.eqb_spec (user_preference u) 0) as [H0|H0]; [cbn [expect]; reflexivity|].
  apply expect_sure; [apply below_pos_randint|]. intros r Hr. apply may_randint in Hr as [(H1 & _)|(p & _ & ->)]; [lia|]. apply E. exact Ha.
Qed.

Lemma apps_ext_len i dt f h : (forall x, (List.length x <= day_minutes)%nat -> (f x == h x)%Q) -> forall l acc, (List.length acc <= day_minutes)%nat ->
  (AM i dt l acc f == AM i dt l acc h)%Q.
Proof.
  intros H. induction l as [|a l IH]; intros acc Hacc; cbn [apps_mean_of]; [auto|]. apply app_mean_ext. intros d. apply IH. rewrite vadd_len. lia.
Qed.

Definition plain (u : user) : Prop := 0 <= user_preference u /\ Forall unrestricted (app_list u).

Lemma crowd_apps i dt g : row_measurement g -> forall ms acc, (List.length acc <= day_minutes)%nat -> Forall plain ms ->
  (crowd_mean F L depth i peak dt ms acc g == AM i dt (flat_map app_list ms) acc g)%Q.
Proof.
  intros Hg. induction ms as [|u ms IH]; intros acc Hacc Hm; cbn [crowd_mean flat_map]; [reflexivity|].
  inversion Hm as [|? ? (H1 & H2) H3]; subst.
  assert (HC : row_measurement (fun x => crowd_mean F L depth i peak dt ms x g)) by (apply crowd_good; assumption).
  rewrite (member_unrestricted u i dt (fun l => crowd_mean F L depth i peak dt ms (vadd F acc l) g)); [| |exact H1|exact H2].
  2: { intros x y Hxy. apply HC. apply vadd_eq; [exact HF|apply rows_refl|exact Hxy]. }
  rewrite (apps_shift i dt (fun x => crowd_mean F L depth i peak dt ms x g) HC).
  rewrite (apps_mean_eq F HF L depth i peak dt 0 _ HC (app_list u) _ acc (vadd_nothing F HF acc day_minutes Hacc)).
  rewrite apps_mean_app. apply apps_ext_len; [|exact Hacc]. intros x Hx. apply IH; assumption.
Qed.

Lemma perm_interleave {A} (l : list A) n : Permutation (flat_map (fun a => repeat a (S n)) l) (l ++ flat_map (fun a => repeat a n) l).
Proof.
  induction l as [|a l IH]; [constructor|]. cbn [flat_map repeat app]. constructor.
  etransitivity; [apply Permutation_app_head; exact IH|]. rewrite !app_assoc. apply Permutation_app_tail. apply Permutation_app_comm.
Qed.

Lemma perm_members (l : list appliance) (u : user) n : app_list u = l -> Permutation (flat_map app_list (repeat u n)) (flat_map (fun a => repeat a n) l).
Proof.
  intros E. induction n as [|n IH].
  - cbn [repeat flat_map]. clear E. induction l; [constructor|exact IHl].
  - etransitivity; [|symmetry; apply perm_interleave]. cbn [repeat flat_map]. rewrite E. apply Permutation_app_head. exact IH.
Qed.

Lemma perm_day i dt us : Permutation (map t_app (tasks_of_day us i dt)) (flat_map app_list (crowd us)).
Proof.
  unfold tasks_of_day. induction us as [|u us IH]; [constructor|]. change (crowd (u :: us)) with (repeat u (Z.to_nat (num_users u)) ++ crowd us).
  cbn [flat_map]. rewrite map_app, flat_map_app. apply Permutation_app; [|exact IH].
  etransitivity; [|symmetry; apply (perm_members (app_list u)); reflexivity].
  change (flat_map (fun a => repeat (Task i dt a (rand_daily_pref u)) (Z.to_nat (num_users u))) (app_list u)) with (user_tasks i dt u).
  rewrite user_tasks_map, map_map. cbn [t_app]. rewrite map_id. apply Permutation_refl.
Qed.

Lemma vstack_fold rows : Forall full rows -> Forall2 Qeq (vstack_sum F rows) (fold_left (vadd F) rows (zeros day_minutes)).
Proof.
  intros H. destruct H as [|r rs Hr Hrs]; [apply rows_refl|]. cbn [vstack_sum fold_left].
  assert (G : forall rs x y, Forall2 Qeq x y -> Forall2 Qeq (fold_left (vadd F) rs x) (fold_left (vadd F) rs y)).
  { clear - HF. induction rs as [|r rs IH]; intros x y H; [exact H|]. cbn [fold_left]. apply IH. apply vadd_eq; [exact HF|exact H|apply rows_refl]. }
  apply G. apply Forall2_sym with (R := Qeq); [intros; symmetry; assumption|].
  assert (C : forall x y, Forall2 Qeq (vadd F x y) (vadd F y x)).
  { clear - HF. induction x as [|a x IH]; intros [|b y]; constructor; [|apply IH]. unfold fadd. rewrite !(HF _). ring. }
  eapply rows_trans; [apply C|]. apply vadd_nothing; [exact HF|]. unfold full in Hr. lia.
Qed.

Lemma task_rows_full ts xs : Forall2 (fun t x => may (work depth F peak t) (Ok x)) ts xs -> Forall full (map snd xs).
Proof.
  intros H. apply Forall_map. apply Forall_forall. intros x Hx.
  assert (G : full (snd x)); [|exact G]. pose proof (answer_rows_full depth F peak ts xs (fst x) H) as K. rewrite Forall_forall in K. apply K.
  unfold profiles_of_day. apply in_map. apply filter_In. split; [exact Hx|apply Z.eqb_refl].
Qed.

Theorem day_of_tasks us i d g : row_measurement g -> Forall plain us ->
  (answers_mean (tasks_of_day us i (get_day_type d)) (fun xs => g (vstack_sum F (map snd xs))) == mean_at L depth F peak us i d g)%Q.
Proof.
  intros Hg Hu. set (dt := get_day_type d).
  etransitivity; [apply (answers_ext _ _ (fun xs => g (fold_left (vadd F) (map snd xs) (zeros day_minutes))))|].
  { intros xs Hx. apply Hg. apply vstack_fold. exact (task_rows_full _ _ Hx). }
  rewrite (tasks_apps i dt g Hg).
  - rewrite (apps_mean_perm F HF L depth i peak dt 0 g _ _ Hg (perm_day i dt us)).
    unfold mean_at. fold dt. rewrite (day_crowd F HF L depth i peak dt g Hg us) by (unfold zeros; rewrite repeat_length; lia).
    symmetry. apply crowd_apps; [exact Hg|unfold zeros; rewrite repeat_length; lia|].
    unfold crowd. clear - Hu. induction Hu as [|u us H _ IH]; [constructor|]. cbn [flat_map]. apply Forall_app. split; [|exact IH].
    induction (Z.to_nat (num_users u)); constructor; assumption.
  - apply Forall_forall. intros t Ht. apply (day_tasks_in i dt us) in Ht as (u & H1 & H2 & H3 & H4). split; [exact H3|]. split; [exact H4|].
    rewrite Forall_forall in Hu. destruct (Hu u H1) as (_ & Ha). rewrite Forall_forall in Ha. exact (Ha _ H2).
Qed.

(** ** All days *)

Lemma days_of_tasks us f : measurement f -> Forall plain us -> forall ds i pre, zlen pre = i ->
  (answers_mean (tasks_from us i ds) (fun xs => f (pre ++ map (fun k => vstack_sum F (day_answers xs k)) (arange i (i + zlen ds)))) ==
   days_mean F L depth peak ds us i (pre ++ repeat (zeros day_minutes) (List.length ds)) f)%Q.
Proof.
  intros Hf Hu. induction ds as [|d ds IH]; intros i pre Hpre.
  - unfold zlen. cbn [List.length tasks_from repeat days_mean]. rewrite Z.add_0_r, arange_nil by lia. reflexivity.
  - rewrite zlen_cons. pose proof (zlen_nonneg ds). cbn [tasks_from days_mean].
    destruct (Z.leb_spec (zlen (pre ++ repeat (zeros day_minutes) (List.length (d :: ds)))) i) as [C|_].
    { exfalso. rewrite zlen_app in C. cbn [List.length] in C. rewrite zlen_repeat in C. lia. }
    assert (El : forall row, list_set (pre ++ repeat (zeros day_minutes) (List.length (d :: ds))) (Z.to_nat i) row =
                (pre ++ [row]) ++ repeat (zeros day_minutes) (List.length ds)).
    { intros row. rewrite <- app_assoc. cbn [app List.length repeat]. rewrite <- Hpre. unfold zlen. rewrite Nat2Z.id. apply list_set_middle. }
    symmetry. etransitivity; [apply (mean_at_ext F L depth peak us i d _ (fun row => answers_mean (tasks_from us (i + 1) ds) (fun xs =>
       f ((pre ++ [row]) ++ map (fun k => vstack_sum F (day_answers xs k)) (arange (i + 1) (i + 1 + zlen ds))))));
       intros row; rewrite El, <- (IH (i + 1) (pre ++ [row])); [reflexivity|rewrite zlen_app; unfold zlen in *; cbn; lia]|].
    symmetry.
    assert (Hrow : row_measurement (fun row => answers_mean (tasks_from us (i + 1) ds) (fun xs =>
       f ((pre ++ [row]) ++ map (fun k => vstack_sum F (day_answers xs k)) (arange (i + 1) (i + 1 + zlen ds)))))).
    { intros x y Hxy. apply answers_ext. intros xs _. apply Hf.
      assert (R : forall l : list (list Q), Forall2 (Forall2 Qeq) l l) by (intros l; induction l; constructor; [apply rows_refl|assumption]).
      apply Forall2_app; [apply Forall2_app; [apply R|constructor; [exact Hxy|constructor]]|apply R]. }
    etransitivity; [|exact (day_of_tasks us i d _ Hrow Hu)]. rewrite answers_app.
    apply answers_ext. intros xs Hx. apply answers_ext. intros ys Hy.
    rewrite (arange_cons i) by lia. cbn [map].
    assert (Dx : Forall (fun t => t_day t = i) (tasks_of_day us i (get_day_type d))).
    { apply Forall_forall. intros t Ht. apply (day_tasks_in i (get_day_type d) us) in Ht as (_ & _ & _ & E & _). exact E. }
    pose proof (tasks_days us ds (i + 1)) as Dy.
    rewrite day_answers_app, (tagged_day _ _ _ _ _ i Hx Dx), (tagged_other _ _ _ _ _ i Hy), app_nil_r
      by (eapply Forall_impl; [|exact Dy]; cbv beta; intros; lia).
    rewrite <- app_assoc. cbn [app]. replace (i + (zlen ds + 1)) with (i + 1 + zlen ds) by lia.
    erewrite (map_ext_in _ (fun k => vstack_sum F (day_answers ys k))); [reflexivity|].
    intros k Hk. apply in_arange in Hk. cbv beta. rewrite day_answers_app, (tagged_other _ _ _ _ _ k Hx); [reflexivity|].
    eapply Forall_impl; [|exact Dx]. cbv beta. intros; lia.
Qed.

End law.

(** ** C96 *)

Lemma sequential_days L depth F w c arg s n f : set_up c s n -> exists ds, days c = Some ds /\ zlen ds = n /\
  (mean_rows L (generate_sequential depth F w c arg) f == days_mean F L depth (peak_of c) ds (users c) 0 (repeat (zeros day_minutes) (List.length ds)) f)%Q.
Proof.
  intros (Hn1 & Hn & (ds & Hds & Hlen & Hnth) & _). exists ds. split; [exact Hds|]. split; [exact Hlen|].
  rewrite sequential_mean. unfold choose_days. rewrite Hds. unfold num_days. rewrite Hn. cbn [expect fst snd]. destruct (Z.ltb_spec n 0); [lia|].
  rewrite Hds. unfold mean_rows. rewrite loop_days_mean. replace (Z.to_nat n) with (List.length ds) by (unfold zlen in Hlen; lia). reflexivity.
Qed.

(** Every measurement of the profiles has the same mean in parallel mode, whatever the order in which the answers of the
    worker processes arrive, and in sequential mode. *)
Theorem C96_same_law L depth F w c arg s n sched f : exact F -> set_up c s n -> comparable c -> schedule sched -> measurement f ->
  (expect L (parallel_run depth F c n sched) (fun r => match r with Ok rows => f rows | Err _ => 0 end) ==
   mean_rows L (generate_sequential depth F w c arg) f)%Q.
Proof.
  intros HF Hu (Hc & Hne) Hs Hf. destruct (sequential_days L depth F w c arg s n f Hu) as (ds & Hds & Hlen & ->).
  assert (Hp : Forall plain (users c)) by (eapply Forall_impl; [|exact Hc]; intros u H; exact H).
  rewrite <- (days_of_tasks L depth F (peak_of c) HF (users c) f Hf Hp ds 0 [] eq_refl).
  unfold parallel_run. rewrite expect_bind. unfold all_tasks. rewrite Hds.
  unfold answers_mean. apply expect_ext. intros [xs|e] Hr; cbn [onward]; [|reflexivity]. apply work_all_may in Hr.
  replace (0 + zlen ds) with n by lia. cbn [app].
  assert (Hday : forall d, 0 <= d < n -> profiles_of_day xs d <> []).
  { intros d Hd E. destruct (C29_tasks c s n d Hu Hd) as (dt & _ & Ht). pose proof (Forall2_day_filter depth F (peak_of c) _ _ d Hr) as X.
    assert (Ea : tasks_from (users c) 0 ds = all_tasks c) by (unfold all_tasks; rewrite Hds; reflexivity). rewrite Ea, Ht in X.
    unfold profiles_of_day in E. unfold day_answers in X. rewrite E in X. inversion X as [X0|]. clear - X0 Hne.
    induction Hne as [u us (H1 & H2)|u us _ IH]; cbn [flat_map] in X0; symmetry in X0; apply app_eq_nil in X0 as [X1 X2]; [|apply IH; symmetry; exact X2].
    destruct (app_list u) as [|a l]; [congruence|]. cbn [flat_map] in X1. destruct (Z.to_nat (num_users u)) eqn:En; [lia|discriminate]. }
  assert (Hn : 0 <= n) by (destruct Hu as (H1 & _); lia).
  assert (Eg : gather F n xs = Ok (map (fun k => vstack_sum F (day_answers xs k)) (arange 0 n))).
  { unfold gather. destruct (Z.ltb_spec n 0); [lia|]. apply assemble_ok. intros i Hi. apply in_arange in Hi. exact (Hday i Hi). }
  destruct (C29_same_rows depth F (peak_of c) (tasks_from (users c) 0 ds) xs xs (sched xs) n _ HF Hr (Permutation_refl _) (Hs xs) Eg) as (rows2 & E2 & Hrows).
  rewrite E2. cbn [lift expect]. symmetry. apply Hf. exact Hrows.
Qed.

(** ... so both modes complete with the same probability, *)
Theorem C96_completes L depth F w c arg s n sched : exact F -> set_up c s n -> comparable c -> schedule sched ->
  (chance L (parallel_run depth F c n sched) (fun r => match r with Ok _ => true | Err _ => false end) ==
   chance L (generate_sequential depth F w c arg) (fun r => match r with Ok _ => true | Err _ => false end))%Q.
Proof.
  intros HF Hu Hc Hs. pose proof (C96_same_law L depth F w c arg s n sched (fun _ => 1%Q) HF Hu Hc Hs) as G.
  unfold chance. etransitivity; [|etransitivity; [apply G; intros x y _; reflexivity|]]; [|unfold mean_rows]; apply expect_ext; intros [x|e] _; reflexivity.
Qed.

(** and their profiles have any given property, of their values, with the same probability. *)
Theorem C96_event L depth F w c arg s n sched (E : list (list Q) -> bool) : exact F -> set_up c s n -> comparable c -> schedule sched ->
  (forall x y, same_rows x y -> E x = E y) ->
  (chance L (parallel_run depth F c n sched) (fun r => match r with Ok rows => E rows | Err _ => false end) ==
   chance L (generate_sequential depth F w c arg) (fun r => match r with Ok x => E (snd x) | Err _ => false end))%Q.
Proof.
  intros HF Hu Hc Hs HE. pose proof (C96_same_law L depth F w c arg s n sched (fun rows => if E rows then 1%Q else 0%Q) HF Hu Hc Hs) as G.
  unfold chance. etransitivity; [|etransitivity; [apply G; intros x y Hxy; rewrite (HE x y Hxy); reflexivity|]]; [|unfold mean_rows];
    apply expect_ext; intros [x|e] _; reflexivity.
Qed.

(** The mean profile of parallel mode: the sum of the mean profiles of the appliances (C89). *)
Theorem C96_mean L depth F c s n sched k t dt : exact F -> (0 < depth)%nat -> set_up c s n -> comparable c -> schedule sched ->
  peak_of c <> [] -> Forall (safe_user F n) (users c) -> 0 <= k < n -> 0 <= t < 1440 -> is_day_type (s + 1440 * k) dt ->
  (expect L (parallel_run depth F c n sched) (fun r => match r with Ok rows => value_at (nth (Z.to_nat k) rows []) t | Err _ => 0 end) ==
   Qsum (map (fun u => zq (Z.max 0 (num_users u)) * Qsum (map (fun a => mean_use L depth F u a k (peak_of c) dt t) (app_list u))) (users c)))%Q.
Proof.
  intros HF Hd Hu Hc Hs Hp Hsafe Hk Ht Hdt.
  pose (w := World (Err ValueError) 0).
  rewrite (C96_same_law L depth F w c None s n sched (fun rows => value_at (nth (Z.to_nat k) rows []) t) HF Hu Hc Hs).
  - unfold mean_rows. exact (C89_use_case L depth F w c None s n k t dt HF Hd Hu Hp Hsafe Hk Ht Hdt).
  - assert (G : forall (a b : list Q) m, Forall2 Qeq a b -> (nth m a 0 == nth m b 0)%Q).
    { clear. intros a b m H. revert m. induction H; intros [|m]; cbn [nth]; try reflexivity; auto. }
    intros x y H. unfold value_at. generalize (Z.to_nat k) as j. induction H as [|a b x y Hab H IH]; intros [|j]; cbn [nth]; try reflexivity; [|apply IH].
    apply G. exact Hab.
Qed.

(** declarations that never raise *)
Lemma sequential_sure L depth F w c arg s n : (0 < depth)%nat -> set_up c s n -> peak_of c <> [] -> Forall (safe_user F n) (users c) ->
  (chance L (generate_sequential depth F w c arg) (fun r => match r with Ok _ => true | Err _ => false end) == 1)%Q.
Proof.
  intros Hd Hu Hp Hs. pose proof (C92_independent L depth F w c arg s n (fun _ _ => 1%Q) Hu) as G.
  assert (O : forall l : list Z, (Qprod (map (fun _ => 1) l) == 1)%Q).
  { induction l as [|x l IH]; [reflexivity|]. cbn [map]. rewrite qprod_cons, IH. reflexivity. }
  etransitivity; [|etransitivity; [exact G|]].
  - unfold chance. apply expect_ext. intros [x|e] _; [symmetry; apply O|reflexivity].
  - etransitivity; [|apply (O (arange 0 n))]. apply qprod_ext. intros k Hk. apply in_arange in Hk.
    apply (day_mean_one L depth F c s n); assumption.
Qed.

(** two days of a household of three, the answers arriving in reverse order *)
Example C96_case : set_up (for_two_days plain_hamlet) 1051200000 2 /\ comparable (for_two_days plain_hamlet) /\ schedule (@rev _) /\
  peak_of (for_two_days plain_hamlet) <> [] /\ Forall (safe_user exact_fm 2) (users (for_two_days plain_hamlet)) /\
  (chance py_law (parallel_run 3 exact_fm (for_two_days plain_hamlet) 2 (@rev _)) (fun r => match r with Ok _ => true | Err _ => false end) == 1)%Q.
Proof.
  destruct C30_case as (Hu & Hc & _). destruct C89_case as (_ & _ & _ & Hs & _).
  assert (Hsafe : Forall (safe_user exact_fm 2) (users (for_two_days plain_hamlet))).
  { inversion Hs as [|? ? (_ & Ha) _]; subst. inversion Ha as [|? ? H1 _]; subst. constructor; [|constructor]. split; [cbn; lia|]. constructor; [exact H1|constructor]. }
  assert (Hr : schedule (@rev _)) by (intros l; apply Permutation_rev).
  assert (Hp : peak_of (for_two_days plain_hamlet) <> []) by discriminate.
  split; [exact Hu|]. split; [exact Hc|]. split; [exact Hr|]. split; [exact Hp|]. split; [exact Hsafe|].
  etransitivity; [exact (C96_completes py_law 3 exact_fm nobody (for_two_days plain_hamlet) None 1051200000 2 (@rev _) exact_exact_fm Hu Hc Hr)|].
  revert Hu Hp Hsafe. clear. generalize (for_two_days plain_hamlet). intros c Hu Hp Hsafe.
  exact (sequential_sure py_law 3 exact_fm nobody c None 1051200000 2 ltac:(lia) Hu Hp Hsafe).
Qed.
