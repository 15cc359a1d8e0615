(** * PropsParallelDay: parallel mode - envelope (C63), energy (C64), totality (C67), order and grouping (C70) *)
From Verif Require Import Base Wp Tape ListLemmas Utils Appliance User Spec SpecDay SpecUser ProofsUser ProofsUser2 PropsUser PropsDay
  UseCase SpecUseCase ProofsUseCase PropsUseCase PropsPost ProofsEq PropsInit PropsPeak ProofsParallel PropsParallel PropsEnvelope PropsEnergy PropsRuns PropsTotal PropsPopulation ProofsTabular ProofsUtils ProofsAppliance ProofsEvent2 PropsCoincidence ProofsRun PropsOverflow.
From Coq Require Import ZifyBool ZifyNat Permutation Lqa.
Open Scope list_scope.
Open Scope Z_scope.

(** ** The rows of the parallel mode *)

Definition day_tasks (d dt : Z) (us : list user) : list task := flat_map (user_tasks d dt) us.

Lemma parallel_rows depth F c s n rows : set_up c s n -> parallel_may depth F c n (Ok rows) ->
  zlen rows = n /\ forall d, 0 <= d < n -> exists dt ls ls', is_day_type (s + 1440 * d) dt /\
    Forall2 (task_day depth F (peak_of c)) (day_tasks d dt (users c)) ls /\ Permutation ls ls' /\ ls' <> [] /\ Forall full ls' /\
    nth (Z.to_nat d) rows [] = vstack_sum F ls'.
Proof.
  intros Hu H. apply C29_parallel_result in H. destruct H as [(t & e & _ & _ & H)|(answers & arrivals & Hw & Hp & Hg)]; [discriminate|].
  assert (Hn : 1 <= n) by (destruct Hu as (H1 & _); lia). symmetry in Hg. unfold gather in Hg. destruct (Z.ltb_spec n 0); [lia|].
  pose proof (assemble_inv F arrivals _ _ Hg) as Hne. rewrite assemble_ok in Hg by exact Hne. injection Hg as <-.
  split; [rewrite zlen_map, zlen_arange; lia|]. intros d Hd.
  assert (Hnth : nth (Z.to_nat d) (map (fun i => vstack_sum F (day_answers arrivals i)) (arange 0 n)) [] = vstack_sum F (day_answers arrivals d)).
  { rewrite nth_indep with (d' := vstack_sum F (day_answers arrivals 0)).
    - rewrite map_nth with (f := fun i => vstack_sum F (day_answers arrivals i)). rewrite nth_arange by lia. do 2 f_equal. lia.
    - rewrite map_length, arange_length. lia. }
  rewrite Hnth. destruct (C29_tasks c s n d Hu Hd) as (dt & Hdt & Ht).
  pose proof (day_answers_perm _ _ d Hp) as P. exists dt, (day_answers answers d), (day_answers arrivals d).
  split; [exact Hdt|]. split.
  - pose proof (Forall2_day_filter depth F (peak_of c) _ _ d Hw) as X. rewrite Ht in X. exact X.
  - split; [exact P|]. split; [apply Hne, in_arange; lia|]. split; [|reflexivity].
    apply (Permutation_Forall P). exact (answer_rows_full depth F (peak_of c) _ _ d Hw).
Qed.

(** ** Sums over the tasks of a day *)

Lemma Qsum_repeat x k : (Qsum (repeat x k) == zq (Z.of_nat k) * x)%Q.
Proof.
  induction k as [|k IH]; [rewrite Qmult_0_l; reflexivity|]. cbn [repeat]. rewrite Qsum_cons, IH.
  replace (Z.of_nat (S k)) with (Z.of_nat k + 1) by lia. rewrite zq_add. change (zq 1) with 1%Q. ring.
Qed.

Lemma map_repeat' {A B} (f : A -> B) x k : map f (repeat x k) = repeat (f x) k.
Proof. induction k; [reflexivity|]. cbn [repeat map]. rewrite IHk. reflexivity. Qed.

Lemma tasks_weight (g : appliance -> Q) d dt us :
  (Qsum (map (fun t => g (t_app t)) (day_tasks d dt us)) ==
   Qsum (map (fun u => zq (Z.max 0 (num_users u)) * Qsum (map g (app_list u))) us))%Q.
Proof.
  unfold day_tasks. induction us as [|u us IH]; [reflexivity|]. cbn [flat_map]. rewrite map_app, Qsum_app, IH. cbn [map]. rewrite Qsum_cons.
  assert (G : (Qsum (map (fun t => g (t_app t)) (user_tasks d dt u)) == zq (Z.max 0 (num_users u)) * Qsum (map g (app_list u)))%Q); [|rewrite G; reflexivity].
  unfold user_tasks. induction (app_list u) as [|a l IHl]; [cbn [flat_map map]; unfold Qsum; cbn; ring|].
  cbn [flat_map]. rewrite map_app, Qsum_app, IHl, map_repeat', Qsum_repeat. cbn [map t_app]. rewrite Qsum_cons.
  replace (Z.of_nat (Z.to_nat (num_users u))) with (Z.max 0 (num_users u)) by lia. ring.
Qed.

Lemma day_tasks_in d dt us t : In t (day_tasks d dt us) -> exists u, In u us /\ In (t_app t) (app_list u) /\ t_day t = d /\ t_type t = dt.
Proof.
  intros H. apply in_flat_map in H as (u & Hu & H). apply in_flat_map in H as (a & Ha & H). apply repeat_spec in H. subst t.
  exists u. auto.
Qed.

Lemma tasks_bound {R : task -> list Q -> Prop} (g : appliance -> Q) (h : list Q -> Q) (Q0 : appliance -> Prop) d dt us ls :
  Forall2 R (day_tasks d dt us) ls -> Forall (fun u => Forall Q0 (app_list u)) us ->
  (forall t l, t_day t = d -> Q0 (t_app t) -> R t l -> (h l <= g (t_app t))%Q) ->
  (Qsum (map h ls) <= Qsum (map (fun u => zq (Z.max 0 (num_users u)) * Qsum (map g (app_list u))) us))%Q.
Proof.
  intros H Hs Hb. rewrite <- (tasks_weight g d dt us). 
  assert (Hin : Forall (fun t => t_day t = d /\ Q0 (t_app t)) (day_tasks d dt us)).
  { apply Forall_forall. intros t Ht. apply day_tasks_in in Ht as (u & Hu & Ha & Hd & _). split; [exact Hd|].
    rewrite Forall_forall in Hs. specialize (Hs u Hu). rewrite Forall_forall in Hs. exact (Hs _ Ha). }
  apply (Qsum_forall2 h (fun t => g (t_app t))).
  induction H as [|t l ts ls Ht H IH]; [constructor|]. inversion Hin as [|? ? [H1 H2] H3]; subst. constructor; [exact (Hb t l eq_refl H2 Ht)|exact (IH H3)].
Qed.

(** ** C63, C64 *)

Theorem C63_envelope_parallel depth F c s n rows k t :
  exact F -> set_up c s n -> Forall (fun u => Forall sane (app_list u)) (users c) ->
  parallel_may depth F c n (Ok rows) -> 0 <= k < n -> 0 <= t < 1440 ->
  (0 <= value_at (nth (Z.to_nat k) rows []) t
   <= Qsum (map (fun u => zq (Z.max 0 (num_users u)) * Qsum (map (fun a => ceiling a k t) (app_list u))) (users c)))%Q.
Proof.
  intros HF Hu Hs H Hk Ht. destruct (parallel_rows _ _ _ _ _ _ Hu H) as (_ & Hr).
  destruct (Hr k Hk) as (dt & ls & ls' & _ & Hl & P & Hne & Hfull & ->).
  rewrite (vstack_exact F ls' t HF Ht Hfull Hne), <- (ProofsParallel.minute_sum_perm t _ _ P). unfold minute_sum.
  assert (B : forall t0 l, t_day t0 = k -> sane (t_app t0) -> task_day depth F (peak_of c) t0 l -> (0 <= value_at l t <= ceiling (t_app t0) k t)%Q).
  { intros t0 l <- Hsa Hd. unfold task_day in Hd. apply (app_day_ceiling _ _ _ _ _ _ _ _ _ HF Hsa) with (2 := Hd); [lia|exact Ht]. }
  split.
  - apply Qsum_nonneg. apply Forall_map.
    assert (Hin : Forall (fun t => t_day t = k /\ sane (t_app t)) (day_tasks k dt (users c))).
    { apply Forall_forall. intros t0 Ht0. apply day_tasks_in in Ht0 as (u & Hu' & Ha & Hd & _). split; [exact Hd|].
      rewrite Forall_forall in Hs. specialize (Hs u Hu'). rewrite Forall_forall in Hs. exact (Hs _ Ha). }
    clear -Hl Hin B. induction Hl as [|t0 l ts ls H0 H IH]; [constructor|]. inversion Hin as [|? ? [H1 H2] H3]; subst.
    constructor; [apply (B t0 l eq_refl H2 H0)|exact (IH H3)].
  - apply (tasks_bound (fun a => ceiling a k t) (fun l => value_at l t) sane k dt _ _ Hl Hs).
    intros t0 l E Hsa Hd. apply (B t0 l E Hsa Hd).
Qed.

Lemma vstack_zero F rows t : 0 <= t < 1440 -> Forall full rows -> Forall (fun l => value_at l t == 0)%Q rows -> (value_at (vstack_sum F rows) t == 0)%Q.
Proof.
  intros Ht Hf Hz. destruct Hf as [|r rs Hr Hrs]; [cbn [vstack_sum]; rewrite value_at_zeros; reflexivity|]. cbn [vstack_sum].
  inversion Hz as [|? ? Hz1 Hz2]; subst. rewrite sum_from_value by assumption. apply fold_fadd_zero; [|exact Hz1].
  rewrite Forall_forall in *. intros x Hx. apply in_map_iff in Hx as (l & <- & Hi). auto.
Qed.

Lemma day_tasks_all (P : appliance -> Prop) d dt us : Forall (fun u => Forall P (app_list u)) us -> Forall (fun t => P (t_app t)) (day_tasks d dt us).
Proof.
  intros H. apply Forall_forall. intros t Ht. apply day_tasks_in in Ht as (u & Hu & Ha & _). rewrite Forall_forall in H. specialize (H u Hu).
  rewrite Forall_forall in H. exact (H _ Ha).
Qed.

Theorem C63_silent_parallel depth F c s n rows k t :
  set_up c s n -> Forall (fun u => Forall (fun a => 0 <= func_cycle (par a) /\ may_be_on a t = false) (app_list u)) (users c) ->
  parallel_may depth F c n (Ok rows) -> 0 <= k < n -> 0 <= t < 1440 ->
  (value_at (nth (Z.to_nat k) rows []) t == 0)%Q.
Proof.
  intros Hu Hs H Hk Ht. destruct (parallel_rows _ _ _ _ _ _ Hu H) as (_ & Hr).
  destruct (Hr k Hk) as (dt & ls & ls' & _ & Hl & P & Hne & Hfull & ->). apply vstack_zero; [exact Ht|exact Hfull|].
  apply (Permutation_Forall P). pose proof (day_tasks_all _ k dt _ Hs) as Ha. clear -Hl Ha Ht.
  induction Hl as [|t0 l ts ls H0 H IH]; [constructor|]. inversion Ha as [|? ? [H1 H2] H3]; subst. constructor; [|exact (IH H3)].
  rewrite (app_day_zero _ _ _ _ _ _ _ _ _ H1 H0 Ht H2). reflexivity.
Qed.

Lemma energy_vstack F rows : exact F -> Forall full rows -> rows <> [] -> (energy (vstack_sum F rows) == Qsum (map energy rows))%Q.
Proof.
  intros HF Hl Hne. rewrite energy_minutes by (apply vstack_len; exact Hl).
  rewrite (Qsum_map_ext _ (fun t => minute_sum t rows)).
  - rewrite Qsum_swap. apply Qsum_map_ext. intros r Hr. rewrite Forall_forall in Hl. rewrite (energy_minutes r (Hl r Hr)). reflexivity.
  - intros t Ht. apply in_arange in Ht. apply vstack_exact; assumption.
Qed.

Theorem C64_energy_bound_parallel depth F c s n rows k :
  exact F -> set_up c s n -> Forall (fun u => Forall sane_time (app_list u)) (users c) ->
  parallel_may depth F c n (Ok rows) -> 0 <= k < n ->
  (energy (nth (Z.to_nat k) rows [])
   <= Qsum (map (fun u => zq (Z.max 0 (num_users u)) * Qsum (map (fun a => energy_ceiling a k) (app_list u))) (users c)))%Q.
Proof.
  intros HF Hu Hs H Hk. destruct (parallel_rows _ _ _ _ _ _ Hu H) as (_ & Hr).
  destruct (Hr k Hk) as (dt & ls & ls' & _ & Hl & P & Hne & Hfull & ->). rewrite (energy_vstack F ls' HF Hfull Hne).
  rewrite <- (Qsum_perm _ _ (Permutation_map energy P)).
  apply (tasks_bound (fun a => energy_ceiling a k) energy sane_time k dt _ _ Hl Hs).
  intros t0 l <- Hsa Hd. apply (app_day_energy _ _ _ _ _ _ _ _ HF Hsa) with (2 := Hd). lia.
Qed.

(** ** C67 *)

(** nobody uses anything *)
Definition nothing_used (us : list user) : Prop := Forall (fun u => num_users u <= 0 \/ app_list u = []) us.

Lemma day_tasks_nil d dt us : day_tasks d dt us = [] <-> nothing_used us.
Proof.
  unfold day_tasks, nothing_used. induction us as [|u us IH]; [split; constructor|]. cbn [flat_map].
  assert (G : user_tasks d dt u = [] <-> num_users u <= 0 \/ app_list u = []).
  { unfold user_tasks. destruct (app_list u) as [|a l]; [split; auto|]. split.
    - cbn [flat_map]. intros H. apply app_eq_nil in H as [H _]. left. destruct (Z.to_nat (num_users u)) eqn:E; [lia|discriminate].
    - intros [H|H]; [|discriminate]. replace (Z.to_nat (num_users u)) with O by lia. clear. induction (a :: l) as [|x m IH]; [reflexivity|exact IH]. }
  split.
  - intros H. apply app_eq_nil in H as [H1 H2]. constructor; [apply G; exact H1|apply IH; exact H2].
  - intros H. inversion H; subst. rewrite (proj2 G) by assumption. apply IH. assumption.
Qed.

Lemma tasks_from_in us : forall ds i t, In t (tasks_from us i ds) -> i <= t_day t < i + zlen ds /\ exists u, In u us /\ In (t_app t) (app_list u).
Proof.
  induction ds as [|d ds IH]; intros i t H; cbn [tasks_from] in H; [contradiction|]. rewrite zlen_cons. pose proof (zlen_nonneg ds).
  apply in_app_iff in H as [H|H].
  - unfold tasks_of_day in H. apply in_flat_map in H as (u & Hu & H). apply in_flat_map in H as (a & Ha & H). apply repeat_spec in H. subst t.
    cbn [t_day t_app]. split; [lia|eauto].
  - destruct (IH _ _ H) as [H1 H2]. split; [lia|exact H2].
Qed.

(** parallel generation on an initialized use case: the load of every day, KeyError exactly if nobody uses anything, or RecursionError
    with duty cycles that do not cover the day *)
Theorem C67_parallel depth F c s n r :
  set_up c s n -> peak_of c <> [] -> (0 < depth)%nat -> all_apps (fun a => sound_app F a /\ n <= zlen (power a)) (users c) ->
  parallel_may depth F c n r ->
  (exists rows, r = Ok rows /\ zlen rows = n /\ ~ nothing_used (users c)) \/
  (r = Err KeyError /\ nothing_used (users c)) \/
  (r = Err RecursionError /\ exists u a, In u (users c) /\ In a (app_list u) /\ has_duty_cycles a /\ ~ duty_ok a).
Proof.
  intros Hu Hp Hdep Ha H. pose proof H as H0. apply C29_parallel_result in H.
  destruct H as [(t & e & Ht & He & ->)|(answers & arrivals & Hw & Hpm & Hg)].
  - right; right. destruct Hu as (Hn1 & Hn & (ds & Hd & Hlen & Hnth) & _). unfold all_tasks in Ht. rewrite Hd in Ht.
    apply tasks_from_in in Ht as (Hday & u & Hu & Hau). rewrite Hlen in Hday.
    assert (Hsa : sound_app F (t_app t) /\ n <= zlen (power (t_app t))).
    { unfold all_apps in Ha. rewrite Forall_forall in Ha. specialize (Ha u Hu). rewrite Forall_forall in Ha. exact (Ha _ Hau). }
    destruct Hsa as [Hsa Hpw]. unfold work in He.
    destruct (py_index_exists (power (t_app t)) (t_day t) ltac:(lia)) as (x & Hx & _). rewrite Hx in He. cbn [lift bind] in He.
    apply may_bind in He as [(y & _ & He)|(e' & He & E)]; [apply may_ret_inv in He; discriminate|]. injection E as <-.
    unfold generate_load_profile in He. apply may_bind in He as [(y & _ & He)|(e' & He & E)]; [apply may_ret_inv in He; discriminate|]. injection E as <-.
    destruct (day_total depth F (t_app t) _ (t_day t) _ _ _ _ Hsa Hp Hdep ltac:(lia) He) as [(y & C)|(C & C1 & C2)]; [discriminate|].
    injection C as ->. split; [reflexivity|]. exists u, (t_app t). auto.
  - assert (Hn : 1 <= n) by (destruct Hu as (H1 & _); lia).
    assert (Hday : forall d, 0 <= d < n -> (profiles_of_day answers d = [] <-> nothing_used (users c))).
    { intros d Hd. destruct (C29_tasks c s n d Hu Hd) as (dt & _ & Et). pose proof (Forall2_day_filter depth F (peak_of c) _ _ d Hw) as X. rewrite Et in X.
      rewrite <- (day_tasks_nil d dt). unfold day_tasks, user_tasks, profiles_of_day. unfold day_answers in X.
      split; intros E; [rewrite E in X|rewrite E in X]; inversion X; reflexivity. }
    destruct (C29_schedule depth F (peak_of c) _ answers arrivals n Hw Hpm ltac:(lia)) as (Hok & Herr).
    destruct (profiles_of_day answers 0) as [|x l] eqn:E0.
    + right; left. assert (Hnu : nothing_used (users c)) by (apply (Hday 0); [lia|exact E0]).
      split; [rewrite Hg; apply Herr; exists 0; split; [lia|exact E0]|exact Hnu].
    + left. assert (Hnu : ~ nothing_used (users c)) by (intros C; apply (Hday 0 ltac:(lia)) in C; congruence).
      destruct Hok as (rows & Hr & Hz & _); [intros d Hd C; apply Hnu; apply (Hday d Hd); exact C|].
      exists rows. split; [congruence|]. split; [exact Hz|exact Hnu].
Qed.

(** ** C70 *)

(** no member drew a preference yet (a new user) *)
Definition no_preference_drawn (us : list user) : Prop := Forall (fun u => rand_daily_pref u = 0) us.

Definition plain_tasks (i dt : Z) (us : list user) : list task :=
  flat_map (fun u => flat_map (fun a => repeat (Task i dt a 0) (Z.to_nat (num_users u))) (app_list u)) us.

Lemma plain_tasks_of_day us i dt : no_preference_drawn us -> tasks_of_day us i dt = plain_tasks i dt us.
Proof.
  unfold tasks_of_day, plain_tasks. induction 1 as [|u us E H IH]; [reflexivity|]. cbn [flat_map]. rewrite IH, E. reflexivity.
Qed.

Lemma flat_map_two {A B} (f g : A -> list B) l : Permutation (flat_map (fun x => f x ++ g x) l) (flat_map f l ++ flat_map g l).
Proof.
  induction l as [|x l IH]; [constructor|]. cbn [flat_map]. rewrite IH, <- !app_assoc. apply Permutation_app_head.
  rewrite !app_assoc. apply Permutation_app_tail, Permutation_app_comm.
Qed.

Lemma plain_tasks_same i dt us us' : same_population us us' -> Permutation (plain_tasks i dt us) (plain_tasks i dt us').
Proof.
  unfold plain_tasks.
  induction 1 as [us us' Hp|us1 u v us2 Hn Hu Ha|us1 u v w us2 Hv Hw Hn P1 P2 A1 A2|us us' _ IH|us us' us'' _ IH1 _ IH2].
  - apply perm_flat_map. exact Hp.
  - rewrite !flat_map_app. cbn [flat_map]. apply Permutation_app_head, Permutation_app_tail. rewrite Hn. apply perm_flat_map. exact Ha.
  - rewrite !flat_map_app. cbn [flat_map]. apply Permutation_app_head. rewrite app_assoc. apply Permutation_app_tail. rewrite A1, A2, Hn.
    rewrite Z2Nat.inj_add by assumption. rewrite <- flat_map_two. erewrite flat_map_ext; [apply Permutation_refl|]. intros a. apply repeat_app.
  - symmetry. exact IH.
  - etransitivity; eassumption.
Qed.

Lemma all_tasks_same c c' s n : set_up c s n -> set_up c' s n -> same_population (users c) (users c') ->
  no_preference_drawn (users c) -> no_preference_drawn (users c') -> Permutation (all_tasks c) (all_tasks c').
Proof.
  intros (H1 & _ & (ds & Hd & Hl & Hx) & _) (_ & _ & (ds' & Hd' & Hl' & Hx') & _) Hs Hp Hp'.
  assert (E : ds' = ds).
  { apply (nth_ext _ _ 0 0); [unfold zlen in *; lia|]. intros i Hi. unfold zlen in *.
    pose proof (Hx (Z.of_nat i) ltac:(lia)) as A. pose proof (Hx' (Z.of_nat i) ltac:(lia)) as B. rewrite Nat2Z.id in *. congruence. }
  subst ds'. unfold all_tasks. rewrite Hd, Hd'. generalize 0 as i. clear -Hs Hp Hp'.
  induction ds as [|d ds IH]; intros i; cbn [tasks_from]; [constructor|]. apply Permutation_app; [|apply IH].
  rewrite !plain_tasks_of_day by assumption. apply plain_tasks_same. exact Hs.
Qed.

(** the parallel mode can return the same results for the same population, in any arithmetic *)
Theorem C70_parallel depth F c c' s n r :
  set_up c s n -> set_up c' s n -> peak_of c' = peak_of c -> same_population (users c) (users c') ->
  no_preference_drawn (users c) -> no_preference_drawn (users c') ->
  parallel_may depth F c n r -> parallel_may depth F c' n r.
Proof.
  intros Hu Hu' Hpk Hs Hp Hp' H. pose proof (all_tasks_same c c' s n Hu Hu' Hs Hp Hp') as P. unfold peak_of in Hpk.
  destruct H as [answers arrivals Hw Ha|t e Ht He].
  - destruct (Forall2_perm _ _ _ P _ Hw) as (answers' & P' & Hw'). rewrite <- Hpk in Hw'.
    apply (parallel_done depth F c' n answers' arrivals Hw'). rewrite <- P'. exact Ha.
  - rewrite <- Hpk in He. exact (parallel_fails depth F c' n t e (Permutation_in _ P Ht) He).
Qed.

(** ** The parallel mode always has a result *)

Theorem C29_some_result depth F c n : exists r, parallel_may depth F c n r.
Proof.
  assert (G : forall ts, (exists t e, In t ts /\ may (work depth F (match peak_time_range c with Some p => p | None => [] end) t) (Err e)) \/
     exists answers, Forall2 (fun t x => may (work depth F (match peak_time_range c with Some p => p | None => [] end) t) (Ok x)) ts answers).
  { induction ts as [|t ts IH]; [right; exists []; constructor|].
    destruct (may_exists _ (bp_work depth F (match peak_time_range c with Some p => p | None => [] end) t)) as ([x|e] & Hx).
    - destruct IH as [(t' & e & Hi & He)|(answers & Ha)]; [left; exists t', e; split; [right; exact Hi|exact He]|right; exists (x :: answers); constructor; assumption].
    - left. exists t, e. split; [left; reflexivity|exact Hx]. }
  destruct (G (all_tasks c)) as [(t & e & Hi & He)|(answers & Ha)].
  - exists (Err e). exact (parallel_fails depth F c n t e Hi He).
  - exists (gather F n answers). exact (parallel_done depth F c n answers answers Ha (Permutation_refl _)).
Qed.

(** ** Case: two members of a household, in one group or in two *)

Definition cottages : list user := [User "first" 1 0 0 [] [all_on]; User "second" 1 0 0 [] [all_on]].

Lemma all_on_sound : sound_app exact_fm all_on.
Proof.
  split; [|split; [vm_compute; intuition discriminate|split; [cbn; lia|split; [cbn; lia|intros [_ C]; cbn in C; lia]]]].
  repeat constructor; vm_compute; intuition discriminate.
Qed.

Example parallel_day_case depth : (0 < depth)%nat ->
  Forall (fun u => Forall sane_time (app_list u)) [cottage] /\
  set_up (settled [cottage]) 1051200000 2 /\ set_up (settled cottages) 1051200000 2 /\
  same_population (users (settled [cottage])) (users (settled cottages)) /\
  no_preference_drawn [cottage] /\ no_preference_drawn cottages /\ ~ nothing_used [cottage] /\
  exists rows, parallel_may depth exact_fm (settled [cottage]) 2 (Ok rows) /\ zlen rows = 2 /\
    parallel_may depth exact_fm (settled cottages) 2 (Ok rows).
Proof.
  intros Hdep.
  assert (Hpop : same_population (users (settled [cottage])) (users (settled cottages))).
  { apply (pop_split [] cottage (User "first" 1 0 0 [] [all_on]) (User "second" 1 0 0 [] [all_on]) []); cbn; lia || reflexivity. }
  assert (N1 : no_preference_drawn [cottage]) by (repeat constructor).
  assert (N2 : no_preference_drawn cottages) by (repeat constructor).
  assert (N3 : ~ nothing_used [cottage]) by (intros C; inversion C as [|? ? [C1|C1] _]; subst; [cbn in C1; lia|discriminate]).
  split; [apply C64_case|]. split; [apply settled_set_up|]. split; [apply settled_set_up|]. split; [exact Hpop|]. split; [exact N1|]. split; [exact N2|].
  split; [exact N3|].
  destruct (C29_some_result depth exact_fm (settled [cottage]) 2) as (r & Hr).
  destruct (C67_parallel depth exact_fm (settled [cottage]) 1051200000 2 r (settled_set_up _)) as [(rows & -> & Hz & _)|[(_ & C)|(_ & u & a & Hu & Ha & [_ D] & _)]];
    [discriminate|exact Hdep| |exact Hr| |contradiction|].
  - constructor; [|constructor]. constructor; [|constructor]. split; [apply all_on_sound|cbn; lia].
  - exists rows. split; [exact Hr|]. split; [exact Hz|].
    exact (C70_parallel depth exact_fm (settled [cottage]) (settled cottages) 1051200000 2 _ (settled_set_up _) (settled_set_up _) eq_refl Hpop N1 N2 Hr).
  - exfalso. destruct Hu as [<-|[]]. destruct Ha as [<-|[]]. cbn in D. lia.
Qed.
