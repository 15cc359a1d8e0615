(** * PropsParallel: C29 (scheduling) and C30 (parallel and sequential modes) *)
From Verif Require Import Base Wp ListLemmas Utils Appliance User Spec SpecUser ProofsUser ProofsUser2 PropsUser Tape
  PropsDay UseCase SpecUseCase ProofsUseCase PropsUseCase PropsInit PropsPeak ProofsParallel.
From Coq Require Import Permutation.
Open Scope list_scope.
Open Scope Z_scope.

(** ** C29 *)

(** the profiles answered by the tasks of day [d] *)
Definition profiles_of_day (answers : list (Z * list Q)) (d : Z) : list (list Q) :=
  map snd (filter (fun x => d =? fst x) answers).

(** one task per member of each user, for each of its appliances; [d] is the day index, [dt] the
    day type *)
Theorem C29_tasks c s n d :
  set_up c s n -> 0 <= d < n -> exists dt, is_day_type (s + 1440 * d) dt /\
  filter (fun t => d =? t_day t) (all_tasks c) =
  flat_map (fun u => flat_map (fun a => repeat (Task d dt a (rand_daily_pref u)) (Z.to_nat (num_users u))) (app_list u)) (users c).
Proof.
  intros (H1 & Hn & (ds & Hd & Hlen & Hnth) & _) Hdn. exists (get_day_type (s + 1440 * d)).
  split; [apply day_type_spec|]. unfold all_tasks. rewrite Hd.
  apply (tasks_from_filter (users c) ds 0 d (s + 1440 * d)); [lia|].
  rewrite <- (Hnth d Hdn). apply nth_error_nth'. unfold zlen in Hlen. lia.
Qed.

Lemma answer_rows_full depth F peak ts xs i :
  Forall2 (fun t x => may (work depth F peak t) (Ok x)) ts xs -> Forall full (profiles_of_day xs i).
Proof.
  intros H. pose proof (Forall2_day_filter depth F peak ts xs i H) as H2. unfold profiles_of_day, day_answers in *.
  induction H2; constructor; [eapply app_day_len; eassumption|exact IHForall2].
Qed.

(** Whatever the order of arrival of the answers, row d is the sum of the profiles answered by
    the tasks of day d (exactly in exact arithmetic, otherwise up to rounding); if some day has no
    task the call fails with KeyError. *)
Theorem C29_schedule depth F peak ts answers arrivals n :
  Forall2 (fun t x => may (work depth F peak t) (Ok x)) ts answers -> Permutation answers arrivals -> 0 <= n ->
  ((forall d, 0 <= d < n -> profiles_of_day answers d <> []) ->
   exists rows, gather F n arrivals = Ok rows /\ zlen rows = n /\
   forall d t, 0 <= d < n -> 0 <= t < 1440 ->
     let x := value_at (nth (Z.to_nat d) rows []) t in
     let S := minute_sum t (profiles_of_day answers d) in
     (exact F -> (x == S)%Q) /\
     (Forall (fun l => (0 <= value_at l t)%Q) (profiles_of_day answers d) ->
      zlen (profiles_of_day answers d) <= 2 ^ 52 ->
      (Qabs (x - S) <= 2 * zq (zlen (profiles_of_day answers d)) * (eps53 * S + eta64))%Q)) /\
  ((exists d, 0 <= d < n /\ profiles_of_day answers d = []) -> gather F n arrivals = Err KeyError).
Proof.
  intros Hw Hp Hn. unfold gather. destruct (Z.ltb_spec n 0); [lia|].
  assert (Hperm : forall d, Permutation (profiles_of_day answers d) (day_answers arrivals d)).
  { intros d. apply day_answers_perm, Hp. }
  split.
  - intros Hne. rewrite assemble_ok.
    + eexists. split; [reflexivity|]. split; [rewrite zlen_map, zlen_arange; lia|].
      intros d t Hd Ht. cbv zeta.
      assert (Hnth : nth (Z.to_nat d) (map (fun i => vstack_sum F (day_answers arrivals i)) (arange 0 n)) []
        = vstack_sum F (day_answers arrivals d)).
      { rewrite nth_indep with (d' := vstack_sum F (day_answers arrivals 0)).
        - rewrite map_nth with (f := fun i => vstack_sum F (day_answers arrivals i)). rewrite nth_arange by lia. do 2 f_equal. lia.
        - rewrite map_length, arange_length. lia. }
      rewrite Hnth.
      assert (Hfull : Forall full (day_answers arrivals d)).
      { apply Permutation_Forall with (1 := Hperm d). eapply answer_rows_full; eassumption. }
      assert (Hne' : day_answers arrivals d <> []).
      { intros E. apply (Hne d Hd). pose proof (Hperm d) as Hq. rewrite E in Hq. apply Permutation_nil, Permutation_sym, Hq. }
      split.
      * intros HF. rewrite (vstack_exact F _ t HF Ht Hfull Hne'). apply minute_sum_perm, Permutation_sym, Hperm.
      * intros Hnn Hz. assert (Hzz : zlen (profiles_of_day answers d) = zlen (day_answers arrivals d)).
        { unfold zlen. f_equal. apply Permutation_length, Hperm. }
        rewrite Hzz in *. pose proof (minute_sum_perm t _ _ (Hperm d)) as Hms.
        pose proof (vstack_error F _ t Ht Hfull Hne' (Permutation_Forall (Hperm d) Hnn) Hz) as HE.
        rewrite Hms. exact HE.
    + intros i Hi E. apply in_arange in Hi. apply (Hne i Hi).
      pose proof (Hperm i) as Hq. rewrite E in Hq. apply Permutation_nil, Permutation_sym, Hq.
  - intros (d & Hd & E). destruct (assemble F (dict_of arrivals) (arange 0 n)) as [rows|e] eqn:Ea.
    + exfalso. apply (assemble_inv F arrivals _ _ Ea d); [apply in_arange; lia|].
      pose proof (Hperm d) as Hq. rewrite E in Hq. apply Permutation_nil, Hq.
    + f_equal. eapply assemble_err, Ea.
Qed.

(** two schedules of the same work give the same rows *)
Theorem C29_same_rows depth F peak ts answers arr1 arr2 n rows1 :
  exact F -> Forall2 (fun t x => may (work depth F peak t) (Ok x)) ts answers ->
  Permutation answers arr1 -> Permutation answers arr2 -> gather F n arr1 = Ok rows1 ->
  exists rows2, gather F n arr2 = Ok rows2 /\ same_rows rows1 rows2.
Proof.
  intros HF Hw H1 H2 Hg. unfold gather in *. destruct (Z.ltb_spec n 0); [discriminate|].
  pose proof (assemble_inv F arr1 _ _ Hg) as Hne1.
  assert (Hp : forall i, Permutation (day_answers arr1 i) (day_answers arr2 i)).
  { intros i. apply day_answers_perm. rewrite <- H1. exact H2. }
  assert (Hf : forall i, Forall full (day_answers arr1 i) /\ Forall full (day_answers arr2 i)).
  { intros i. pose proof (answer_rows_full _ _ _ _ _ i Hw) as Hx. unfold profiles_of_day in Hx.
    split; eapply Permutation_Forall; [apply (day_answers_perm _ _ i H1)|exact Hx|apply (day_answers_perm _ _ i H2)|exact Hx]. }
  rewrite assemble_ok in Hg by exact Hne1. injection Hg as <-.
  assert (Hne2 : forall i, In i (arange 0 n) -> day_answers arr2 i <> []).
  { intros i Hi E. apply (Hne1 i Hi). pose proof (Hp i) as Hq. rewrite E in Hq. apply Permutation_nil, Permutation_sym, Hq. }
  rewrite assemble_ok by exact Hne2. eexists. split; [reflexivity|]. unfold same_rows.
  assert (G : forall is, (forall i, In i is -> In i (arange 0 n)) ->
    Forall2 (Forall2 Qeq) (map (fun i => vstack_sum F (day_answers arr1 i)) is) (map (fun i => vstack_sum F (day_answers arr2 i)) is)).
  { induction is as [|i is IH]; intros Hin; cbn [map]; constructor.
    - apply same_row; [apply vstack_len, Hf|apply vstack_len, Hf|]. intros t Ht.
      rewrite !vstack_exact; try apply Hf; try assumption;
        [apply minute_sum_perm, Hp|apply Hne2, Hin; left; reflexivity|apply Hne1, Hin; left; reflexivity].
    - apply IH. intros j Hj. apply Hin. right. exact Hj. }
  apply G. auto.
Qed.

(** the whole call: what it can return *)
Theorem C29_parallel_result depth F c n r :
  parallel_may depth F c n r ->
  (exists t e, In t (all_tasks c) /\ may (work depth F (peak_of c) t) (Err e) /\ r = Err e) \/
  (exists answers arrivals, Forall2 (fun t x => may (work depth F (peak_of c) t) (Ok x)) (all_tasks c) answers /\
     Permutation answers arrivals /\ r = gather F n arrivals).
Proof. intros [answers arrivals Hw Hp|t e Ht He]; [right; eauto|left; eauto]. Qed.

(** ** C30 *)

(** the parallel mode and the sequential mode are comparable: no appliance is restricted to a
    preference, preferences are not negative, and there is at least one appliance in use *)
Definition comparable (c : usecase) : Prop :=
  Forall (fun u => 0 <= user_preference u /\ Forall (fun a => pref_index (par a) = 0) (app_list u)) (users c) /\
  Exists (fun u => 1 <= num_users u /\ app_list u <> []) (users c).

Lemma flat_map_map_in {A B C} (f : B -> C) (g : A -> list B) l : flat_map (fun x => map f (g x)) l = map f (flat_map g l).
Proof. induction l as [|x l IH]; [reflexivity|]. cbn [flat_map]. rewrite IH, map_app. reflexivity. Qed.

Lemma Forall2_map_l {A B C} (f : A -> B) (P : B -> C -> Prop) l l' :
  Forall2 P (map f l) l' <-> Forall2 (fun x y => P (f x) y) l l'.
Proof.
  revert l'. induction l as [|x l IH]; intros l'; cbn [map]; split; intros H; inversion H; subst; constructor; auto; apply IH; auto.
Qed.

(** the tasks of one user: the profiles of its members, regrouped *)
Definition user_tasks (d dt : Z) (u : user) : list task :=
  flat_map (fun a => repeat (Task d dt a (rand_daily_pref u)) (Z.to_nat (num_users u))) (app_list u).

Lemma user_tasks_map d dt u :
  user_tasks d dt u = map (fun a => Task d dt a (rand_daily_pref u)) (flat_map (fun a => repeat a (Z.to_nat (num_users u))) (app_list u)).
Proof.
  unfold user_tasks. rewrite <- flat_map_map_in. apply flat_map_ext. intros a.
  induction (Z.to_nat (num_users u)) as [|n IH]; [reflexivity|]. cbn [repeat map]. rewrite IH. reflexivity.
Qed.

Definition task_day (depth : nat) (F : fm) (peak : list Z) (t : task) (l : list Q) : Prop :=
  app_day depth F (t_day t) peak (t_type t) (t_pref t) (t_app t) l.

Lemma user_tasks_load depth F peak d dt u ls :
  exact F -> 0 <= user_preference u -> Forall (fun a => pref_index (par a) = 0) (app_list u) ->
  Forall2 (task_day depth F peak) (user_tasks d dt u) ls ->
  exists load, user_day depth F d peak dt u load /\
    forall t, 0 <= t < 1440 -> (value_at load t == minute_sum t ls)%Q.
Proof.
  intros HF Hup Hpi H. rewrite user_tasks_map, Forall2_map_l in H.
  assert (H' : Forall2 (app_day depth F d peak dt (rand_daily_pref u))
    (flat_map (fun a => repeat a (Z.to_nat (num_users u))) (app_list u)) ls) by exact H.
  apply regroup in H'. destruct H' as (ms & Hlen & Hms & Hp).
  set (p := if user_preference u =? 0 then 0 else 1).
  assert (Hpp : pref_of_day u p).
  { unfold pref_of_day, p. destruct (Z.eqb_spec (user_preference u) 0); [left; auto|right; split; [assumption|lia]]. }
  set (mem := map (fun m => (p, m) : SpecUser.member) ms).
  assert (Hmem : Forall (member_day depth F u d peak dt) mem).
  { apply Forall_forall. intros m Hm. apply in_map_iff in Hm. destruct Hm as (m' & <- & Hm').
    split; [exact Hpp|]. cbn [fst snd]. rewrite Forall_forall in Hms. specialize (Hms m' Hm').
    clear -Hms Hpi. induction Hms; inversion Hpi; subst; constructor; [eapply app_day_pref; eassumption|auto]. }
  destruct (aggregated_conv depth F u d peak dt mem) as (u' & Hu' & Hl').
  - unfold mem. rewrite map_length. exact Hlen.
  - exact Hmem.
  - exists (load u'). split; [exists u'; auto|]. intros t Ht. rewrite Hl'.
    rewrite (C25_minute_sum depth F u d peak dt mem t HF Hmem Ht). apply minute_sum_perm.
    rewrite Hp. assert (flat_map snd mem = List.concat ms) as ->.
    { unfold mem. rewrite flat_map_concat_map, map_map. cbn [snd]. rewrite map_id. reflexivity. }
    apply Permutation_refl.
Qed.

Lemma user_load_tasks depth F peak d dt u l :
  exact F -> Forall (fun a => pref_index (par a) = 0) (app_list u) ->
  user_day depth F d peak dt u l ->
  exists ls, Forall2 (task_day depth F peak) (user_tasks d dt u) ls /\
    forall t, 0 <= t < 1440 -> (value_at l t == minute_sum t ls)%Q.
Proof.
  intros HF Hpi (u' & Hu & <-). apply aggregated_may in Hu. destruct Hu as (_ & mem & Hlen & Hmem & Hl).
  destruct (regroup_back (app_day depth F d peak dt (rand_daily_pref u)) (Z.to_nat (num_users u)) (app_list u) (map snd mem)) as (ls & Hls & Hp).
  - rewrite map_length. exact Hlen.
  - apply Forall_forall. intros m Hm. apply in_map_iff in Hm. destruct Hm as (m' & <- & Hm').
    rewrite Forall_forall in Hmem. destruct (Hmem m' Hm') as (_ & Hd).
    clear -Hd Hpi. induction Hd; inversion Hpi; subst; constructor; [eapply app_day_pref; eassumption|auto].
  - exists ls. split; [rewrite user_tasks_map, Forall2_map_l; exact Hls|].
    intros t Ht. rewrite Hl, (C25_minute_sum depth F u d peak dt mem t HF Hmem Ht).
    apply minute_sum_perm. rewrite flat_map_concat_map. apply Permutation_sym, Hp.
Qed.

Lemma minute_sum_cons t l ls : minute_sum t (l :: ls) = (value_at l t + minute_sum t ls)%Q.
Proof. reflexivity. Qed.

Lemma day_tasks_loads depth F peak d dt : exact F -> forall us ls,
  Forall (fun u => 0 <= user_preference u /\ Forall (fun a => pref_index (par a) = 0) (app_list u)) us ->
  Forall2 (task_day depth F peak) (flat_map (user_tasks d dt) us) ls ->
  exists loads, Forall2 (user_day depth F d peak dt) us loads /\
    forall t, 0 <= t < 1440 -> (minute_sum t loads == minute_sum t ls)%Q.
Proof.
  intros HF us. induction us as [|u us IH]; intros ls Hc H; cbn [flat_map] in H.
  - inversion H; subst. exists []. split; [constructor|]. reflexivity.
  - apply Forall2_app_inv_l in H. destruct H as (l1 & l2 & H1 & H2 & ->). inversion Hc as [|? ? [Hu1 Hu2] Hc']; subst.
    destruct (user_tasks_load depth F peak d dt u l1 HF Hu1 Hu2 H1) as (load & Hl & Hv).
    destruct (IH l2 Hc' H2) as (loads & Hls & Hvs). exists (load :: loads). split; [constructor; assumption|].
    intros t Ht. rewrite minute_sum_cons, minute_sum_app, (Hv t Ht), (Hvs t Ht). reflexivity.
Qed.

Lemma day_loads_tasks depth F peak d dt : exact F -> forall us loads,
  Forall (fun u => 0 <= user_preference u /\ Forall (fun a => pref_index (par a) = 0) (app_list u)) us ->
  Forall2 (user_day depth F d peak dt) us loads ->
  exists ls, Forall2 (task_day depth F peak) (flat_map (user_tasks d dt) us) ls /\
    forall t, 0 <= t < 1440 -> (minute_sum t loads == minute_sum t ls)%Q.
Proof.
  intros HF us. induction us as [|u us IH]; intros loads Hc H; inversion H as [|? l0 ? ls0 Hd Hr]; subst; cbn [flat_map].
  - exists []. split; [constructor|]. reflexivity.
  - inversion Hc as [|? ? [Hu1 Hu2] Hc']; subst.
    destruct (user_load_tasks depth F peak d dt u l0 HF Hu2 Hd) as (l1 & H1 & Hv).
    destruct (IH ls0 Hc' Hr) as (l2 & H2 & Hvs).
    exists (l1 ++ l2). split; [apply Forall2_app; assumption|].
    intros t Ht. rewrite minute_sum_cons, minute_sum_app, (Hv t Ht), (Hvs t Ht). reflexivity.
Qed.

(** every result of the parallel mode is a result of the sequential mode *)
Theorem C30_parallel_to_sequential_partial depth F w c s n rows :
  exact F -> set_up c s n -> comparable c -> parallel_may depth F c n (Ok rows) ->
  exists c' rows', may (generate_sequential depth F w c None) (Ok (c', rows')) /\ same_rows rows rows'.
Proof.
  intros HF Hu (Hc & _) H. apply C29_parallel_result in H.
  destruct H as [(t & e & _ & _ & H)|(answers & arrivals & Hw & Hp & Hg)]; [discriminate|].
  assert (Hn : 0 <= n) by (destruct Hu as (H1 & _); lia).
  destruct (C29_schedule depth F (peak_of c) _ answers arrivals n Hw Hp Hn) as (Hok & Herr).
  assert (Hne : forall d, 0 <= d < n -> profiles_of_day answers d <> []).
  { intros d Hd E. assert (Hx : gather F n arrivals = Err KeyError) by (apply Herr; eauto). congruence. }
  destruct (Hok Hne) as (rows1 & Hg1 & Hz & Hval). assert (rows1 = rows) by congruence. subst rows1. clear Hok Herr.
  assert (Hday : forall d, 0 <= d < n -> exists row, (exists dt loads, is_day_type (s + 1440 * d) dt /\
      Forall2 (user_day depth F d (peak_of c) dt) (users c) loads /\ row = sum_rows F loads) /\
      forall t, 0 <= t < 1440 -> (value_at row t == minute_sum t (profiles_of_day answers d))%Q).
  { intros d Hd. destruct (C29_tasks c s n d Hu Hd) as (dt & Hdt & Ht).
    pose proof (Forall2_day_filter depth F (peak_of c) _ _ d Hw) as Hf. rewrite Ht in Hf.
    destruct (day_tasks_loads depth F (peak_of c) d dt HF (users c) (day_answers answers d) Hc Hf) as (loads & Hl & Hv).
    exists (sum_rows F loads). split; [exists dt, loads; auto|]. intros t Htt.
    rewrite (C28_minute depth F d (peak_of c) dt (users c) loads t HF Hl Htt). apply Hv, Htt. }
  (* choose one row per day *)
  assert (Hrows : exists rows', zlen rows' = n /\ forall d, 0 <= d < n ->
     (exists dt loads, is_day_type (s + 1440 * d) dt /\
      Forall2 (user_day depth F d (peak_of c) dt) (users c) loads /\ nth (Z.to_nat d) rows' [] = sum_rows F loads) /\
      forall t, 0 <= t < 1440 -> (value_at (nth (Z.to_nat d) rows' []) t == minute_sum t (profiles_of_day answers d))%Q).
  { clear -Hday Hn. assert (G : forall m, (Z.of_nat m <= n) -> exists rows', List.length rows' = m /\ forall d, 0 <= d < Z.of_nat m ->
      (exists dt loads, is_day_type (s + 1440 * d) dt /\
      Forall2 (user_day depth F d (peak_of c) dt) (users c) loads /\ nth (Z.to_nat d) rows' [] = sum_rows F loads) /\
      forall t, 0 <= t < 1440 -> (value_at (nth (Z.to_nat d) rows' []) t == minute_sum t (profiles_of_day answers d))%Q).
    { induction m as [|m IH]; intros Hm; [exists []; split; [reflexivity|]; intros d Hd; lia|].
      destruct IH as (rows' & Hl & Hr); [lia|]. destruct (Hday (Z.of_nat m)) as (row & Hrow & Hv); [lia|].
      exists (rows' ++ [row]). split; [rewrite app_length; cbn; lia|]. intros d Hd.
      destruct (Z.eq_dec d (Z.of_nat m)) as [->|Hneq].
      - rewrite Nat2Z.id, app_nth2 by lia. rewrite Hl, Nat.sub_diag. cbn [nth].
        destruct Hrow as (dt & loads & A & B & C). split; [exists dt, loads; auto|exact Hv].
      - rewrite app_nth1 by lia. apply Hr. lia. }
    destruct (G (Z.to_nat n)) as (rows' & Hl & Hr); [lia|]. exists rows'. split; [unfold zlen; lia|].
    intros d Hd. apply Hr. lia. }
  destruct Hrows as (rows' & Hz' & Hr).
  destruct (C28_any_loads depth F w c None s n rows' Hu Hz' (fun k Hk => proj1 (Hr k Hk))) as (c' & Hseq).
  exists c', rows'. split; [exact Hseq|].
  (* rows agree *)
  assert (Hfull : Forall full rows).
  { unfold gather in Hg1. destruct (Z.ltb_spec n 0); [discriminate|].
    pose proof (assemble_inv F arrivals _ _ Hg1) as Hne1. rewrite assemble_ok in Hg1 by exact Hne1. injection Hg1 as <-.
    apply Forall_forall. intros row Hin. apply in_map_iff in Hin. destruct Hin as (i & <- & _). apply vstack_len.
    apply Permutation_Forall with (1 := day_answers_perm _ _ i Hp). apply (answer_rows_full _ _ _ _ _ i Hw). }
  unfold same_rows.
  assert (G : forall r r' : list (list Q), List.length r = List.length r' ->
    (forall k, (k < List.length r)%nat -> Forall2 Qeq (nth k r []) (nth k r' [])) -> Forall2 (Forall2 Qeq) r r').
  { clear. induction r as [|x r IH]; intros [|y r'] Hl H; try discriminate; constructor.
    - apply (H O). cbn. lia.
    - apply IH; [now injection Hl|]. intros k Hk. apply (H (S k)). cbn. lia. }
  apply G; [unfold zlen in *; lia|]. intros k Hk.
  assert (Hk' : 0 <= Z.of_nat k < n) by (unfold zlen in Hz; lia).
  destruct (Hr (Z.of_nat k) Hk') as ((dt & loads & _ & Hl & He) & Hv). rewrite Nat2Z.id in *.
  apply same_row.
  - rewrite Forall_forall in Hfull. apply Hfull, nth_In, Hk.
  - rewrite He. apply sum_rows_len. clear -Hl. induction Hl; constructor; [eapply user_day_len; eassumption|exact IHHl].
  - intros t Ht. destruct (Hval (Z.of_nat k) t Hk' Ht) as (Hx & _). rewrite Nat2Z.id in Hx. cbv zeta in Hx.
    rewrite (Hx HF). symmetry. apply Hv, Ht.
Qed.

(** conversely every result of the sequential mode is a result of the parallel mode *)
Theorem C30_sequential_to_parallel_partial depth F w c s n c' rows :
  exact F -> set_up c s n -> comparable c -> may (generate_sequential depth F w c None) (Ok (c', rows)) ->
  exists rows', parallel_may depth F c n (Ok rows') /\ same_rows rows rows'.
Proof.
  intros HF Hu (Hc & Hex) H.
  destruct (C28_rows _ _ _ _ _ _ _ _ _ Hu H) as (Hz & _ & Hrow).
  assert (Hn : 0 <= n) by (destruct Hu as (H1 & _); lia).
  destruct (Hu) as (Hn1 & Hnd & (ds & Hds & Hlen & Hnth) & _).
  (* the answers, day by day *)
  assert (G : forall m ds0 i, (forall k, (k < List.length ds0)%nat -> 0 <= i + Z.of_nat k < n /\ nth k ds0 0 = s + 1440 * (i + Z.of_nat k)) ->
    List.length ds0 = m ->
    exists answers, Forall2 (fun t x => may (work depth F (peak_of c) t) (Ok x)) (tasks_from (users c) i ds0) answers /\
      forall d, i <= d < i + Z.of_nat m -> (forall t, 0 <= t < 1440 ->
        (value_at (nth (Z.to_nat d) rows []) t == minute_sum t (profiles_of_day answers d))%Q) /\ profiles_of_day answers d <> []).
  { induction m as [|m IH]; intros ds0 i Hd Hm.
    - destruct ds0; [|discriminate]. exists []. split; [constructor|]. intros d Hd'. lia.
    - destruct ds0 as [|d0 ds0]; [discriminate|]. injection Hm as Hm.
      destruct (IH ds0 (i + 1)) as (answers & Hw & Hv).
      { intros k Hk. specialize (Hd (S k) ltac:(cbn; lia)). cbn [nth] in Hd.
        replace (i + 1 + Z.of_nat k) with (i + Z.of_nat (S k)) by lia. exact Hd. }
      { exact Hm. }
      destruct (Hd O ltac:(cbn; lia)) as (Hi & Hd0). cbn [nth] in Hd0. replace (i + Z.of_nat 0) with i in * by lia.
      destruct (Hrow i Hi) as (dt & loads & Hdt & Hl & He).
      assert (Edt : dt = get_day_type d0).
      { rewrite Hd0. pose proof (day_type_spec (s + 1440 * i)) as H2. unfold is_day_type in *. cbv zeta in *. congruence. }
      destruct (day_loads_tasks depth F (peak_of c) i dt HF (users c) loads Hc Hl) as (ls & Hls & Hlv).
      exists (map (fun l => (i, l)) ls ++ answers).
      assert (Hday : Forall2 (fun t x => may (work depth F (peak_of c) t) (Ok x)) (tasks_of_day (users c) i (get_day_type d0)) (map (fun l => (i, l)) ls)).
      { rewrite <- Edt. change (tasks_of_day (users c) i dt) with (flat_map (user_tasks i dt) (users c)).
        assert (Hin : Forall (fun t => t_day t = i) (flat_map (user_tasks i dt) (users c))).
        { apply Forall_forall. intros t Ht. apply in_flat_map in Ht. destruct Ht as (u & _ & Ht).
          apply in_flat_map in Ht. destruct Ht as (a & _ & Ht). apply repeat_spec in Ht. subst. reflexivity. }
        clear -Hls Hin. revert Hin. induction Hls as [|t l ts ls Hx Hr IH]; intros Hin; cbn [map]; [constructor|].
        inversion Hin; subst. constructor; [|auto]. apply work_may. cbn [fst snd]. split; [auto|exact Hx]. }
      split; [cbn [tasks_from]; apply Forall2_app; assumption|].
      assert (Hpi : forall d, profiles_of_day (map (fun l => (i, l)) ls) d = if d =? i then ls else []).
      { intros d. unfold profiles_of_day. clear. induction ls as [|l ls IH]; cbn [map filter fst]; [destruct (d =? i); reflexivity|].
        destruct (d =? i); cbn [map snd]; rewrite IH; reflexivity. }
      assert (Hpa : forall d, profiles_of_day (map (fun l => (i, l)) ls ++ answers) d =
        (if d =? i then ls else []) ++ profiles_of_day answers d).
      { intros d. rewrite <- Hpi. apply day_answers_app. }
      intros d Hdd. rewrite Hpa. destruct (Z.eqb_spec d i) as [->|Hne].
      + assert (Hnil : profiles_of_day answers i = []).
        { pose proof (Forall2_day_filter depth F (peak_of c) _ _ i Hw) as Hf.
          assert (Hno : forall ds j, i < j -> filter (fun t => i =? t_day t) (tasks_from (users c) j ds) = []).
          { clear. induction ds as [|d ds IH]; intros j Hj; [reflexivity|]. cbn [tasks_from].
            rewrite filter_app, tasks_of_day_filter. destruct (Z.eqb_spec i j); [lia|]. apply IH. lia. }
          rewrite Hno in Hf by lia. inversion Hf as [Hx Hy|]. symmetry. exact Hy. }
        rewrite Hnil, app_nil_r. split.
        * intros t Ht. rewrite He, (C28_minute depth F i (peak_of c) dt (users c) loads t HF Hl Ht). apply Hlv, Ht.
        * (* at least one task *)
          intros ->. apply Forall2_length in Hls. cbn [List.length] in Hls.
          apply Exists_exists in Hex. destruct Hex as (u & Hin & Hnu & Hap).
          assert (Hcon : In (Task i dt (hd lamp (app_list u)) (rand_daily_pref u)) (flat_map (user_tasks i dt) (users c))).
          { apply in_flat_map. exists u. split; [exact Hin|]. unfold user_tasks. apply in_flat_map.
            exists (hd lamp (app_list u)). split; [destruct (app_list u); [congruence|left; reflexivity]|].
            replace (Z.to_nat (num_users u)) with (S (Z.to_nat (num_users u - 1))) by lia. left. reflexivity. }
          destruct (flat_map (user_tasks i dt) (users c)); [destruct Hcon|discriminate].
      + cbn [app]. apply Hv. lia. }
  destruct (G (List.length ds) ds 0) as (answers & Hw & Hv).
  { intros k Hk. unfold zlen in Hlen. split; [lia|]. specialize (Hnth (Z.of_nat k) ltac:(lia)). rewrite Nat2Z.id in Hnth. rewrite Hnth. lia. }
  { reflexivity. }
  assert (Hw' : Forall2 (fun t x => may (work depth F (peak_of c) t) (Ok x)) (all_tasks c) answers).
  { unfold all_tasks. rewrite Hds. exact Hw. }
  destruct (C29_schedule depth F (peak_of c) _ answers answers n Hw' (Permutation_refl _) Hn) as (Hok & _).
  destruct Hok as (rows' & Hg & Hz' & Hval).
  { intros d Hd. apply Hv. unfold zlen in Hlen. lia. }
  exists rows'. split.
  - rewrite <- Hg. apply parallel_done with (answers := answers); [exact Hw'|apply Permutation_refl].
  - unfold same_rows.
    assert (G2 : forall r r' : list (list Q), List.length r = List.length r' ->
      (forall k, (k < List.length r)%nat -> Forall2 Qeq (nth k r []) (nth k r' [])) -> Forall2 (Forall2 Qeq) r r').
    { clear. induction r as [|x r IH]; intros [|y r'] Hl H; try discriminate; constructor.
      - apply (H O). cbn. lia.
      - apply IH; [now injection Hl|]. intros k Hk. apply (H (S k)). cbn. lia. }
    apply G2; [unfold zlen in *; lia|]. intros k Hk.
    assert (Hk' : 0 <= Z.of_nat k < n) by (unfold zlen in Hz; lia).
    destruct (Hrow (Z.of_nat k) Hk') as (dt & loads & _ & Hl & He). rewrite Nat2Z.id in He.
    apply same_row.
    + rewrite He. apply sum_rows_len. clear -Hl. induction Hl; constructor; [eapply user_day_len; eassumption|exact IHHl].
    + unfold gather in Hg. destruct (Z.ltb_spec n 0); [lia|].
      pose proof (assemble_inv F answers _ _ Hg) as Hne1. rewrite assemble_ok in Hg by exact Hne1. injection Hg as <-.
      assert (Hin : In (nth k (map (fun i => vstack_sum F (day_answers answers i)) (arange 0 n)) []) (map (fun i => vstack_sum F (day_answers answers i)) (arange 0 n))).
      { apply nth_In. rewrite map_length, arange_length. lia. }
      apply in_map_iff in Hin. destruct Hin as (i & <- & _). apply vstack_len. apply (answer_rows_full _ _ _ _ _ i Hw').
    + intros t Ht. destruct (Hval (Z.of_nat k) t Hk' Ht) as (Hx & _). rewrite Nat2Z.id in Hx. cbv zeta in Hx.
      rewrite (Hx HF). destruct (Hv (Z.of_nat k)) as (Hvv & _); [unfold zlen in Hlen; lia|].
      rewrite Nat2Z.id in Hvv. apply Hvv, Ht.
Qed.

(** *** cases *)
(** power spread over the days, as initialize does *)
Definition spread (a : appliance) : appliance := with_series (windowed a) (repeat (hd 0%Q (power a)) 2).
Definition plain_home : user := User "household" 2 3 0 [] [spread lamp].
Definition plain_hamlet : usecase := blank (Some 1051200000) None true (15 # 100) None [plain_home].
(** its set-up for two days with the peak time range 700..719 *)
Definition for_two_days (c : usecase) : usecase :=
  init_index (set_days (set_num_days (set_peak c (Some (arange 700 720))) (Some 2)) (Some (date_range_se 1051200000 (1051200000 + 1440)))).

Lemma for_two_days_set_up c : set_up (for_two_days c) 1051200000 2.
Proof. apply init_index_set_up; [lia|reflexivity|reflexivity]. Qed.

Lemma Forall2_total {A B} (R : A -> B -> Prop) l : (forall x, In x l -> exists y, R x y) -> exists l', Forall2 R l l'.
Proof.
  induction l as [|x l IH]; intros H; [exists []; constructor|].
  destruct IH as (l' & Hl); [intros y Hy; apply H; right; exact Hy|].
  destruct (H x) as (y & Hy); [left; reflexivity|]. exists (y :: l'). constructor; assumption.
Qed.

Example C29_case : exists answers,
  Forall2 (fun t x => may (work 3 exact_fm (peak_of (for_two_days plain_hamlet)) t) (Ok x)) (all_tasks (for_two_days plain_hamlet)) answers /\
  zlen answers = 4 /\ Permutation answers (rev answers) /\ answers <> rev answers /\
  (forall d, 0 <= d < 2 -> profiles_of_day answers d <> []) /\
  parallel_may 3 exact_fm (for_two_days plain_hamlet) 2 (gather exact_fm 2 (rev answers)).
Proof.
  assert (E : all_tasks (for_two_days plain_hamlet) =
      [Task 0 1 (spread lamp) 0; Task 0 1 (spread lamp) 0; Task 1 1 (spread lamp) 0; Task 1 1 (spread lamp) 0]) by (vm_compute; reflexivity).
  destruct (Forall2_total (fun t x => may (work 3 exact_fm (peak_of (for_two_days plain_hamlet)) t) (Ok x)) (all_tasks (for_two_days plain_hamlet))) as (answers & Hw).
  { intros t Ht. rewrite E in Ht. clear E.
    assert (C : forall t, t = Task 0 1 (spread lamp) 0 \/ t = Task 1 1 (spread lamp) 0 ->
      exists x, may (work 3 exact_fm (peak_of (for_two_days plain_hamlet)) t) (Ok x)).
    { clear. intros t Ht.
      destruct (follow_check (work 3 exact_fm (peak_of (for_two_days plain_hamlet)) t) flat_draws (fun _ => true)) as (x & Hx & _); [|eauto].
      destruct Ht as [-> | ->]; vm_compute; reflexivity. }
    apply C. cbn [In] in Ht. intuition auto. }
  exists answers. split; [exact Hw|].
  assert (Hp : Permutation answers (rev answers)) by apply Permutation_rev.
  assert (Hpar : parallel_may 3 exact_fm (for_two_days plain_hamlet) 2 (gather exact_fm 2 (rev answers))) by (econstructor; eassumption).
  assert (Hd : map fst answers = [0; 0; 1; 1]).
  { change [0; 0; 1; 1] with (map t_day [Task 0 1 (spread lamp) 0; Task 0 1 (spread lamp) 0; Task 1 1 (spread lamp) 0; Task 1 1 (spread lamp) 0]).
    rewrite <- E. clear -Hw. induction Hw as [|t x l l' Hx H IH]; [reflexivity|]. cbn [map].
    apply work_may in Hx. f_equal; [apply Hx|exact IH]. }
  clear Hw E. destruct answers as [|[d1 l1] [|[d2 l2] [|[d3 l3] [|[d4 l4] [|]]]]]; try discriminate.
  cbn [map fst] in Hd. injection Hd as -> -> -> ->.
  split; [reflexivity|]. split; [exact Hp|]. split; [discriminate|]. split; [|exact Hpar].
  intros d Hd. assert (H : d = 0 \/ d = 1) by lia. destruct H as [-> | ->]; discriminate.
Qed.

Example C30_case : set_up (for_two_days plain_hamlet) 1051200000 2 /\ comparable (for_two_days plain_hamlet) /\
  exists c' rows rows', may (generate_sequential 3 exact_fm nobody (for_two_days plain_hamlet) None) (Ok (c', rows)) /\
    (value_at (nth 1 rows []) 500 == 200)%Q /\
    parallel_may 3 exact_fm (for_two_days plain_hamlet) 2 (Ok rows') /\ same_rows rows rows'.
Proof.
  assert (Hu := for_two_days_set_up plain_hamlet). split; [exact Hu|].
  assert (Hc : comparable (for_two_days plain_hamlet)).
  { split; [repeat constructor; cbn; lia|]. constructor. split; [cbn; lia|discriminate]. }
  split; [exact Hc|].
  destruct (follow_check (generate_sequential 3 exact_fm nobody (for_two_days plain_hamlet) None)
    (List.concat (repeat (DZ 1 :: flat_draws) 4)) (fun x => Qeq_bool (value_at (nth 1 (snd x) []) 500) 200)) as ([c' rows] & Hx & Hv).
  { vm_compute. reflexivity. }
  apply Qeq_bool_iff in Hv. cbn [snd] in Hv.
  destruct (C30_sequential_to_parallel_partial 3 exact_fm nobody _ _ _ _ _ exact_exact_fm Hu Hc Hx) as (rows' & Hp & Hs).
  exists c', rows, rows'. auto.
Qed.

(** *** what differs *)

(** An appliance that belongs to one preference (pref_index) is used on some days in the
    sequential mode, but never in the parallel mode: the preference is not drawn there. *)
Definition picky_hamlet : usecase := for_two_days (blank (Some 1051200000) None true (15 # 100) None [User "household" 2 3 0 [] [spread special]]).

Theorem C30_preference_refuted :
  set_up picky_hamlet 1051200000 2 /\
  (exists c' rows, may (generate_sequential 3 exact_fm nobody picky_hamlet None) (Ok (c', rows)) /\
     (0 < value_at (nth 0 rows []) 500)%Q) /\
  (forall depth F rows d t, exact F -> parallel_may depth F picky_hamlet 2 (Ok rows) -> 0 <= d < 2 -> 0 <= t < 1440 ->
     (value_at (nth (Z.to_nat d) rows []) t == 0)%Q) /\
  exists rows, parallel_may 3 exact_fm picky_hamlet 2 (Ok rows).
Proof.
  assert (Hu : set_up picky_hamlet 1051200000 2) by apply for_two_days_set_up.
  split; [exact Hu|]. split; [|split].
  - destruct (follow_check (generate_sequential 3 exact_fm nobody picky_hamlet None)
      (List.concat (repeat (DZ 1 :: flat_draws) 4)) (fun x => Qeq_bool (value_at (nth 0 (snd x) []) 500) 14)) as ([c' rows] & Hx & Hv).
    { vm_compute. reflexivity. }
    apply Qeq_bool_iff in Hv. cbn [snd] in Hv. exists c', rows. split; [exact Hx|]. rewrite Hv. reflexivity.
  - intros depth F rows d t HF H Hd Ht. apply C29_parallel_result in H.
    destruct H as [(t0 & e & _ & _ & H)|(answers & arrivals & Hw & Hp & Hg)]; [discriminate|].
    destruct (C29_schedule depth F (peak_of picky_hamlet) _ answers arrivals 2 Hw Hp ltac:(lia)) as (Hok & Herr).
    assert (Hne : forall d, 0 <= d < 2 -> profiles_of_day answers d <> []).
    { intros d' Hd' E. assert (Hx : gather F 2 arrivals = Err KeyError) by (apply Herr; eauto). congruence. }
    destruct (Hok Hne) as (rows1 & Hg1 & _ & Hval). assert (rows1 = rows) by congruence. subst rows1.
    destruct (Hval d t Hd Ht) as (Hx & _). cbv zeta in Hx. rewrite (Hx HF). clear -Hw Ht.
    assert (Hz : Forall (fun l => l = zeros day_minutes) (profiles_of_day answers d)).
    { assert (Hall : Forall (fun t => pref_index (par (t_app t)) = 2 /\ t_pref t = 0) (all_tasks picky_hamlet)).
      { assert (E : all_tasks picky_hamlet = [Task 0 1 (spread special) 0; Task 0 1 (spread special) 0; Task 1 1 (spread special) 0; Task 1 1 (spread special) 0])
          by (vm_compute; reflexivity). rewrite E. repeat constructor. }
      unfold profiles_of_day. induction Hw as [|k x l l' Hx H IH]; [constructor|]. inversion Hall as [|? ? [H1 H2] Hr]; subst.
      cbn [filter map]. specialize (IH Hr). destruct (d =? fst x); [|exact IH]. cbn [map]. constructor; [|exact IH].
      unfold work in Hx. apply may_bind in Hx as [(pw & _ & Hx)|(e & _ & Hx)]; [|discriminate].
      apply may_bind in Hx as [(a' & Ha & Hx)|(e & _ & Hx)]; [|discriminate]. apply may_ret_inv in Hx. injection Hx as ->.
      cbn [snd]. eapply C20_always_skipped; [|exact Ha]. left. rewrite H1, H2. split; discriminate. }
    induction Hz as [|l ls -> H IH]; [reflexivity|]. rewrite minute_sum_cons, IH. unfold value_at, zeros. rewrite nth_repeat. reflexivity.
  - destruct (Forall2_total (fun t x => may (work 3 exact_fm (peak_of picky_hamlet) t) (Ok x)) (all_tasks picky_hamlet)) as (answers & Hw).
    { intros t Ht.
      assert (E : all_tasks picky_hamlet = [Task 0 1 (spread special) 0; Task 0 1 (spread special) 0; Task 1 1 (spread special) 0; Task 1 1 (spread special) 0])
          by (vm_compute; reflexivity). rewrite E in Ht. clear E.
      assert (C : forall t, t = Task 0 1 (spread special) 0 \/ t = Task 1 1 (spread special) 0 ->
        exists x, may (work 3 exact_fm (peak_of picky_hamlet) t) (Ok x)).
      { clear. intros t Ht.
        destruct (follow_check (work 3 exact_fm (peak_of picky_hamlet) t) [DQ (1 # 2)] (fun _ => true)) as (x & Hx & _); [|eauto].
        destruct Ht as [-> | ->]; vm_compute; reflexivity. }
      apply C. cbn [In] in Ht. intuition auto. }
    destruct (C29_schedule 3 exact_fm (peak_of picky_hamlet) _ answers answers 2 Hw (Permutation_refl _) ltac:(lia)) as (Hok & Herr).
    assert (Hday : map fst answers = map t_day (all_tasks picky_hamlet)).
    { clear -Hw. induction Hw as [|t x l l' Hx H IH]; [reflexivity|]. cbn [map].
      apply work_may in Hx. f_equal; [apply Hx|exact IH]. }
    assert (Ed : map t_day (all_tasks picky_hamlet) = [0; 0; 1; 1]) by (vm_compute; reflexivity). rewrite Ed in Hday.
    destruct Hok as (rows & Hg & _).
    { clear -Hday. destruct answers as [|[d1 l1] [|[d2 l2] [|[d3 l3] [|[d4 l4] [|]]]]]; try discriminate.
      cbn [map fst] in Hday. injection Hday as -> -> -> ->. intros d Hd. assert (H : d = 0 \/ d = 1) by lia. destruct H as [-> | ->]; discriminate. }
    exists rows. rewrite <- Hg. econstructor; [exact Hw|apply Permutation_refl].
Qed.

(** A use case with no appliance (or no members): zeros in the sequential mode, KeyError in the
    parallel mode *)
Theorem C30_no_appliance_refuted c s n depth F w :
  set_up c s n -> Forall (fun u => 0 <= user_preference u /\ (num_users u <= 0 \/ app_list u = [])) (users c) ->
  (exists c' rows, may (generate_sequential depth F w c None) (Ok (c', rows)) /\
     forall k t, 0 <= k < n -> 0 <= t < 1440 -> exact F -> (value_at (nth (Z.to_nat k) rows []) t == 0)%Q) /\
  (forall r, parallel_may depth F c n r -> r = Err KeyError).
Proof.
  intros Hu He. assert (Hn : 1 <= n) by apply Hu. split.
  - assert (Hz : forall k dt, exists loads, Forall2 (user_day depth F k (peak_of c) dt) (users c) loads /\
      Forall (fun l => forall t, 0 <= t < 1440 -> (value_at l t == 0)%Q) loads).
    { intros k dt. induction He as [|u us [Hx Hor] H IH]; [exists []; split; constructor|].
      destruct IH as (loads & H1 & H2).
      assert (Hu' : exists u', may (generate_aggregated_load_profile depth F u k (peak_of c) dt) (Ok u')).
      { destruct (Z_le_gt_dec (num_users u) 0) as [Hle|Hgt].
        - destruct (C25_any_members depth F u k (peak_of c) dt []) as (u' & Hm & _); [unfold zlen; cbn; lia|constructor|eauto].
        - destruct Hor as [Hor|Hor]; [lia|].
          destruct (C25_any_members depth F u k (peak_of c) dt (repeat (if user_preference u =? 0 then 0 else 1, []) (Z.to_nat (num_users u)))) as (u' & Hm & _).
          + rewrite zlen_repeat. lia.
          + apply Forall_forall. intros m Hm. apply repeat_spec in Hm. subst m. split; cbn [fst snd].
            * unfold pref_of_day. destruct (Z.eqb_spec (user_preference u) 0); lia.
            * rewrite Hor. constructor.
          + eauto. }
      destruct Hu' as (u' & Hm). exists (load u' :: loads). split; constructor; try assumption.
      - exists u'. auto.
      - intros t Ht. eapply C25_zero; eassumption. }
    assert (G : forall m, exists rows : list (list Q), List.length rows = m /\ forall d, 0 <= d < Z.of_nat m -> exists dt loads,
      is_day_type (s + 1440 * d) dt /\ Forall2 (user_day depth F d (peak_of c) dt) (users c) loads /\
      nth (Z.to_nat d) rows [] = sum_rows F loads /\ Forall (fun l => forall t, 0 <= t < 1440 -> (value_at l t == 0)%Q) loads).
    { induction m as [|m (rows & Hl & Hr)]; [exists []; split; [reflexivity|]; intros d Hd; lia|].
      destruct (Hz (Z.of_nat m) (get_day_type (s + 1440 * Z.of_nat m))) as (loads & H1 & H2).
      exists (rows ++ [sum_rows F loads]). split; [rewrite app_length; cbn; lia|]. intros d Hd.
      destruct (Z.eq_dec d (Z.of_nat m)) as [->|Hneq].
      - rewrite Nat2Z.id, app_nth2, Hl, Nat.sub_diag by lia. cbn [nth]. eexists _, loads.
        split; [apply day_type_spec|]. auto.
      - rewrite app_nth1 by lia. apply Hr. lia. }
    destruct (G (Z.to_nat n)) as (rows & Hl & Hr). rewrite Z2Nat.id in Hr by lia.
    destruct (C28_any_loads depth F w c None s n rows Hu) as (c' & Hc).
    + unfold zlen. lia.
    + intros k Hk. destruct (Hr k Hk) as (dt & loads & A & B & C & _). eauto.
    + exists c', rows. split; [exact Hc|]. intros k t Hk Ht HF. destruct (Hr k Hk) as (dt & loads & A & B & C & D).
      rewrite C, (C28_minute depth F k (peak_of c) dt (users c) loads t HF B Ht). clear -D Ht.
      induction D as [|l ls Hl H IH]; [reflexivity|]. rewrite minute_sum_cons, IH, (Hl t Ht). reflexivity.
  - intros r H.
    assert (Ht : all_tasks c = []).
    { unfold all_tasks. generalize 0 as i. induction (match days c with Some ds => ds | None => [] end) as [|d ds IH]; intros i; [reflexivity|].
      cbn [tasks_from]. rewrite IH, app_nil_r. clear -He. unfold tasks_of_day.
      induction He as [|u us [_ Hx] H IH]; [reflexivity|]. cbn [flat_map]. rewrite IH, app_nil_r.
      destruct Hx as [Hx | ->]; [|reflexivity]. replace (Z.to_nat (num_users u)) with O by lia.
      induction (app_list u) as [|a l IHl]; [reflexivity|exact IHl]. }
    inversion H as [answers arrivals Hw Hp|t e Hin _]; subst.
    + rewrite Ht in Hw. inversion Hw; subst. apply Permutation_nil in Hp. subst arrivals. unfold gather.
      destruct (Z.ltb_spec n 0); [lia|]. unfold arange. replace (Z.to_nat (n - 0)) with (S (Z.to_nat (n - 1))) by lia. reflexivity.
    + rewrite Ht in Hin. destruct Hin.
Qed.

Example C30_no_appliance_case :
  set_up (for_two_days (blank None None true (15 # 100) None [User "empty" 4 0 0 [] []])) 1051200000 2 /\
  Forall (fun u => 0 <= user_preference u /\ (num_users u <= 0 \/ app_list u = []))
    (users (for_two_days (blank None None true (15 # 100) None [User "empty" 4 0 0 [] []]))).
Proof. split; [apply for_two_days_set_up|]. constructor; [|constructor]. split; [cbn; lia|right; reflexivity]. Qed.
