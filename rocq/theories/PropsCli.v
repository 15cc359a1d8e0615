(** * PropsCli: the ramp command (C44-C47, C58) *)
From Coq Require Import Ascii Permutation Sorting.Sorted.
From Verif Require Import Base Wp ListLemmas Utils Appliance Spec SpecDay Tape User Sim SpecUser UseCase SpecUseCase
  ProofsUseCase PropsUseCase PropsInit PropsPeak Calendar PropsCalendar Tabular PostProcess PropsPost Convert PropsConvert Cli.
Open Scope string_scope.
Open Scope list_scope.
Open Scope Z_scope.

(** ** One run *)

Lemma attempt_may {A} (p : prog A) r : may (attempt p) (Ok r) <-> may p r.
Proof.
  split.
  - revert r. induction p as [a|e|k IH|n k IH|c k IH|s k IH]; cbn [attempt]; intros r H.
    + apply may_ret_inv in H. injection H as ->. constructor.
    + apply may_ret_inv in H. injection H as ->. constructor.
    + inversion H; subst. econstructor; eauto.
    + inversion H; subst. econstructor; eauto.
    + inversion H; subst. econstructor; eauto.
    + inversion H; subst. econstructor; eauto.
  - induction 1; cbn [attempt]; econstructor; eauto.
Qed.
Lemma attempt_total {A} (p : prog A) e : ~ may (attempt p) (Err e).
Proof.
  induction p as [a|e'|k IH|n k IH|c k IH|s k IH]; cbn [attempt]; intros H; inversion H; subst; eauto; eapply IH; eauto.
Qed.

Lemma nobody_window F c : users c = [] -> peak_window F c = arange 0 1440.
Proof. intros H. unfold peak_window, total_max_profile. rewrite H. vm_compute. reflexivity. Qed.

Lemma calc_draws F c : calc_peak_time_range F c = draw_peak_range F (peak_enlarge c) (peak_window F c).
Proof. reflexivity. Qed.
Lemma initialize_nobody F w c nd force c' :
  users c = [] -> collected c = [] -> is_initialized c && negb force = false ->
  may (initialize F w c nd None force) (Ok (c', None)) ->
  users c' = [] /\ exists p, peak_time_range c' = Some p /\ may (draw_peak_range F (peak_enlarge c) (arange 0 1440)) (Ok (Ok p)).
Proof.
  intros Hu Hc He H. rewrite initialize_stages, He in H.
  destruct (dates_stage w c nd force) as [c1 [e|]] eqn:E; [apply may_ret_inv in H; discriminate|].
  pose proof (dates_stage_same _ _ _ _ _ _ E) as (_ & _ & _ & Hq & _ & _ & _ & Hus & Hcol).
  unfold init_finish in H. cbv zeta in H.
  destruct (check_powers (users c1) (collected c1) _) as [us oe] eqn:Ec.
  assert (Hnil : us = [] /\ oe = None).
  { rewrite Hus, Hcol, Hu, Hc in Ec. clear -Ec. cbn [check_powers] in Ec. injection Ec as <- <-. split; reflexivity. }
  destruct Hnil as [Hnil Hoe].
  destruct oe as [oe|]; [discriminate|]. clear Hoe.
  apply may_bind in H as [([c2 e] & Hp & H)|(e & _ & H)]; [|discriminate].
  cbn [fst snd] in H.
  apply may_bind in Hp as [(r & Hr & Hp)|(e' & _ & Hp)]; [|discriminate].
  destruct r as [p|e']; apply may_ret_inv in Hp; inversion Hp; subst c2 e.
  2:{ apply may_ret_inv in H. discriminate. }
  apply may_ret_inv in H. injection H as ->.
  assert (Hr' : may (draw_peak_range F (peak_enlarge c) (arange 0 1440)) (Ok (Ok p))).
  { rewrite calc_draws in Hr. rewrite (nobody_window F (set_users c1 us)) in Hr by exact Hnil. rewrite <- Hq. exact Hr. }
  clear Hr. rename Hr' into Hr.
  split; [|exists p; split; [|exact Hr]];
  unfold init_index; cbn [days set_peak set_users]; destruct (days c1) as [[|]|]; first [reflexivity|exact Hnil].
Qed.

(** the days of one run: with both dates the number of days is not looked at *)
Definition days_argument (start stop num_days : option Z) : option Z :=
  match start, stop with Some _, Some _ => None | _, _ => num_days end.

Lemma blank_fresh start stop par enl seed us : is_initialized (blank start stop par enl seed us) = false.
Proof. reflexivity. Qed.

Lemma run_started F w start stop nd c r c' :
  may (new_usecase F w [] start stop false (15 # 100) None) (Ok c) ->
  may (initialize F w c nd None false) (Ok r) -> r = (c', None) ->
  is_initialized c' = true /\ exists s n ds p, set_up c' s n /\ num_days_ c' = Some n /\ days c' = Some ds /\
    requested_days w start stop (days_argument start stop nd) n ds /\
    peak_time_range c' = Some p /\ may (draw_peak_range F (15 # 100) (arange 0 1440)) (Ok (Ok p)).
Proof.
  intros Hn Hi ->. unfold new_usecase in Hn. cbn [seed_of] in Hn.
  assert (Go : forall nd', may (initialize F w (blank start stop false (15 # 100) None []) nd' None false) (Ok (c', None)) ->
    is_initialized c' = true /\ exists s n ds p, set_up c' s n /\ num_days_ c' = Some n /\ days c' = Some ds /\
    requested_days w start stop nd' n ds /\
    peak_time_range c' = Some p /\ may (draw_peak_range F (15 # 100) (arange 0 1440)) (Ok (Ok p))).
  { intros nd' H.
    destruct (initialize_ready F w (blank start stop false (15 # 100) None []) nd' None false c') as (Hini & s & n & Hs).
    { left. split; reflexivity. }
    { exact H. }
    split; [exact Hini|].
    destruct (initialize_nobody F w (blank start stop false (15 # 100) None []) nd' false c' eq_refl eq_refl eq_refl H) as (_ & p & Hp & Hd).
    destruct (C31_dates_partial F w _ nd' None false c' (C31_first_call _ _ _ _ _ _ _ _) H) as (ds & m & Hm & Hds & Hr).
    exists s, m, ds, p. destruct Hs as (H1 & Hn1 & H2). rewrite Hm in Hn1. injection Hn1 as ->.
    repeat split; try assumption; tauto. }
  unfold days_argument.
  destruct start as [s|], stop as [e|];
  apply may_bind in Hn as [(c1 & H1 & Hn)|(e1 & _ & Hn)]; try discriminate;
  apply may_ret_inv in Hn; injection Hn as ->.
  1:{ apply may_bind in H1 as [([c2 [x|]] & H2 & H1)|(e1 & _ & H1)]; try discriminate; cbn [fst snd] in H1.
    { apply may_raise_inv in H1. discriminate. }
    apply may_ret_inv in H1. injection H1 as ->.
    destruct (initialize_ready F w (blank (Some s) (Some e) false (15 # 100) None []) None None false c2) as (Hini & _).
    { left. split; reflexivity. }
    { exact H2. }
    unfold initialize in Hi. rewrite Hini in Hi. cbn [andb negb] in Hi. apply may_ret_inv in Hi. injection Hi as <-.
    apply Go, H2. }
  all: apply may_ret_inv in H1; injection H1 as ->; apply Go, Hi.
Qed.

(** the rows of a run: one for each requested day, each generated by the users of the file with a
    peak time range drawn for a use case without users *)
Definition run_rows (depth : nat) (F : fm) (us : list user) (s n : Z) (p : list Z) (rows : list (list Q)) : Prop :=
  zlen rows = n /\ Forall (fun row => zlen row = 1440) rows /\
  forall k, 0 <= k < n -> row_of_day depth F us p k (s + 1440 * k) (nth (Z.to_nat k) rows []).

Lemma run_xlsx_spec depth F strict w t start stop nd rows :
  may (run_xlsx depth F strict w t start stop nd) (Ok rows) ->
  exists tab us n ds s p, t = Ok tab /\ load_table F strict n tab = Ok us /\ 1 <= n /\
    consecutive_days s n ds /\ requested_days w start stop (days_argument start stop nd) n ds /\
    may (draw_peak_range F (15 # 100) (arange 0 1440)) (Ok (Ok p)) /\ run_rows depth F us s n p rows.
Proof.
  unfold run_xlsx. intros H.
  apply may_bind in H as [(c & Hc & H)|(e & _ & H)]; [|discriminate].
  apply may_bind in H as [([c1 [e|]] & Hi & H)|(e & _ & H)]; [|  |discriminate].
  { cbn [snd] in H. apply may_raise_inv in H. discriminate. }
  cbn [fst snd] in H. cbv zeta in H.
  destruct (run_started _ _ _ _ _ _ _ _ Hc Hi eq_refl) as (Hini & s & n & ds & p & Hs & Hn & Hds & Hreq & Hp & Hdraw).
  rewrite Hini, Hn in H.
  apply may_bind in H as [(us & Hl & H)|(e & _ & H)]; [|discriminate].
  apply may_lift in Hl. destruct t as [tab|e]; [|discriminate]. cbn [rbind] in Hl.
  apply may_bind in H as [([c2 rs] & Hg & H)|(e & _ & H)]; [|discriminate].
  apply may_ret_inv in H. injection H as ->. cbn [snd].
  assert (Hs' : set_up (collect_appliances (set_users c1 us)) s n) by exact Hs.
  destruct (generate_sequential_set_up _ _ _ _ _ _ _ _ _ Hs' Hg) as (Hlen & _ & Hrows).
  destruct (C27_rows _ _ _ _ _ _ _ _ _ Hs' Hg) as (_ & Hf & _).
  exists tab, us, n, ds, s, p. split; [reflexivity|]. split; [symmetry; exact Hl|].
  destruct Hs as (Hn1 & _ & (ds' & Hds' & Hcd) & _). rewrite Hds in Hds'. injection Hds' as <-.
  split; [exact Hn1|]. split; [exact Hcd|]. split; [exact Hreq|]. split; [exact Hdraw|].
  split; [exact Hlen|]. split; [exact Hf|]. intros k Hk.
  assert (Hpk : peak_of (collect_appliances (set_users c1 us)) = p) by (unfold peak_of; cbn; now rewrite Hp).
  rewrite <- Hpk. apply Hrows, Hk.
Qed.

(** ** Every combination of daily loads is a possible run *)

Lemma initialize_conv F w c s e p :
  users c = [] -> collected c = [] -> is_initialized c = false -> days c = None -> num_days_ c = None ->
  date_start c = Some s -> date_end c = Some e -> s <= e ->
  may (draw_peak_range F (peak_enlarge c) (arange 0 1440)) (Ok (Ok p)) ->
  exists c', may (initialize F w c None None false) (Ok (c', None)) /\ set_up c' s ((e - s) / 1440 + 1) /\
    is_initialized c' = true /\ peak_time_range c' = Some p /\ users c' = [].
Proof.
  intros Hu Hc Hi Hd Hn Hs He Hle Hp.
  assert (HN : 1 <= (e - s) / 1440 + 1) by (pose proof (Z.div_pos (e - s) 1440); lia).
  set (N := (e - s) / 1440 + 1) in *.
  assert (Ed : exists c1, dates_stage w c None false = (c1, None) /\ days c1 = Some (day_list s N) /\ num_days_ c1 = Some N /\
    users c1 = [] /\ collected c1 = [] /\ peak_enlarge c1 = peak_enlarge c).
  { unfold dates_stage. rewrite Hi. cbn [andb]. unfold init_num_days_arg, init_both_dates. rewrite Hs, He. cbv zeta.
    cbn [num_days_ set_days]. rewrite Hn. unfold init_prompt. cbn [num_days_ set_num_days set_days].
    unfold init_days. cbn [num_days_ set_num_days set_days days]. rewrite date_range_se_list. fold N.
    assert (Z : zlen (day_list s N) = N) by (rewrite zlen_day_list; lia). rewrite Z.
    assert (L : match day_list s N with [] => Some IndexError | _ => None end = None) by (rewrite day_list_cons by lia; reflexivity).
    rewrite L. eexists. split; [reflexivity|]. repeat split; try reflexivity; assumption. }
  destruct Ed as (c1 & Ed & Hd1 & Hn1 & Hu1 & Hc1 & Hq1).
  set (c2 := set_peak (set_users c1 (users c1)) (Some p)).
  exists (init_index c2).
  assert (Hd2 : days c2 = Some (day_list s N)) by exact Hd1.
  assert (Hn2 : num_days_ c2 = Some N) by exact Hn1.
  split; [|split; [|split; [|split]]].
  - rewrite initialize_stages, Hi. cbn [andb]. rewrite Ed. unfold init_finish. cbv zeta.
    destruct (check_powers (users c1) (collected c1) _) as [us oe] eqn:Ec.
    assert (Hnil : us = users c1 /\ oe = None).
    { rewrite Hc1 in Ec. clear -Ec. cbn [check_powers] in Ec. injection Ec as <- <-. split; reflexivity. }
    destruct Hnil as (-> & ->).
    apply may_bind. left. exists (c2, None). split.
    + apply may_bind. left. exists (Ok p). split; [|constructor].
      rewrite calc_draws. rewrite (nobody_window F (set_users c1 (users c1))) by exact Hu1.
      cbn [peak_enlarge set_users]. rewrite Hq1. exact Hp.
    + cbn [fst snd]. constructor.
  - apply init_index_set_up; assumption.
  - apply init_index_initialized; [discriminate|rewrite Hn2; discriminate|]. rewrite Hd2, day_list_cons by lia. eauto.
  - unfold init_index. rewrite Hd2. destruct (day_list s N); reflexivity.
  - unfold init_index. rewrite Hd2. destruct (day_list s N); exact Hu1.
Qed.

Lemma run_xlsx_conv depth F strict w tab us s e nd p rows :
  s <= e -> load_table F strict ((e - s) / 1440 + 1) tab = Ok us ->
  may (draw_peak_range F (15 # 100) (arange 0 1440)) (Ok (Ok p)) ->
  run_rows depth F us s ((e - s) / 1440 + 1) p rows ->
  may (run_xlsx depth F strict w (Ok tab) (Some s) (Some e) nd) (Ok rows).
Proof.
  intros Hle Hl Hp (Hz & _ & Hrows). set (N := (e - s) / 1440 + 1) in *.
  destruct (initialize_conv F w (blank (Some s) (Some e) false (15 # 100) None []) s e p) as (c & Hi & Hs & Hini & Hpk & Hu);
    try reflexivity; try assumption.
  fold N in Hs.
  unfold run_xlsx. apply may_bind. left. exists c. split.
  { unfold new_usecase. apply may_bind. left. exists c. split; [|constructor].
    apply may_bind. left. exists (c, None). split; [exact Hi|constructor]. }
  apply may_bind. left. exists (c, None). split.
  { unfold initialize. rewrite Hini. cbn [andb negb]. constructor. }
  cbn [fst snd]. cbv zeta. rewrite Hini.
  assert (Hn : num_days_ c = Some N) by apply Hs. rewrite Hn.
  apply may_bind. left. exists us. split; [apply may_lift; cbn [rbind]; now symmetry|].
  assert (Hs' : set_up (collect_appliances (set_users c us)) s N) by exact Hs.
  destruct (C28_any_loads depth F w (collect_appliances (set_users c us)) None s N rows Hs' Hz) as (c' & Hg).
  { intros k Hk. destruct (Hrows k Hk) as (dt & loads & Hdt & HF & Hr). exists dt, loads. split; [exact Hdt|]. split; [|exact Hr].
    assert (Hpk' : peak_of (collect_appliances (set_users c us)) = p) by (unfold peak_of; cbn; now rewrite Hpk).
    rewrite Hpk'. exact HF. }
  apply may_bind. left. eexists. split; [exact Hg|]. constructor.
Qed.

(** ** Days between two dates *)

Lemma month_length_fun y m l l' : month_length y m l -> month_length y m l' -> l = l'.
Proof. intros H H'. apply month_length_days in H, H'. lia. Qed.

Lemma next_day_fun x y z : next_day x y -> next_day x z -> y = z.
Proof.
  intros H H'. inversion H; subst; inversion H'; subst; try reflexivity;
  repeat match goal with
  | A : month_length ?y ?m ?l, B : month_length ?y ?m ?l' |- _ =>
      lazymatch l with l' => fail | _ => pose proof (month_length_fun _ _ _ _ A B); clear B end
  end; subst; try lia; try reflexivity.
Qed.

Lemma after_0_inv x y : after 0 x y -> x = y.
Proof.
  intros H. remember 0 as k eqn:E. destruct H as [x|k x y z H N]; [reflexivity|].
  apply after_ord in H. lia.
Qed.
Lemma after_S_inv k x z : 0 <= k -> after (k + 1) x z -> exists y, after k x y /\ next_day y z.
Proof.
  intros Hk H. remember (k + 1) as j eqn:E. destruct H as [x|j x y z H N]; [lia|].
  assert (j = k) by lia. subst. now exists y.
Qed.

Lemma after_fun k x y z : after k x y -> after k x z -> y = z.
Proof.
  intros H. revert z. induction H as [x|k x y y' H IH N]; intros z Hz.
  - apply after_0_inv, Hz.
  - pose proof (after_ord _ _ _ H) as [Hk _].
    destruct (after_S_inv _ _ _ Hk Hz) as (u & Hu & Nu). specialize (IH u Hu). subst u.
    apply (next_day_fun y); assumption.
Qed.

Lemma after_split K a y : after K a y -> forall k x, after k a x -> k <= K -> after (K - k) x y.
Proof.
  induction 1 as [a|K a y y' H IH N]; intros k x Hx Hle.
  - pose proof (after_ord _ _ _ Hx). assert (k = 0) by lia. subst k. apply after_0_inv in Hx. subst. constructor.
  - destruct (Z.eq_dec k (K + 1)) as [->|Hne].
    + assert (x = y') by (apply (after_fun _ _ _ _ Hx); econstructor; eauto). subst. rewrite Z.sub_diag. constructor.
    + replace (K + 1 - k) with (K - k + 1) by lia. econstructor; [apply IH; [exact Hx|lia]|exact N].
Qed.

Lemma next_day_is_date x y : next_day x y -> is_date y.
Proof.
  intros H. inversion H; subst; unfold is_date.
  - exists l. split; [assumption|lia].
  - pose proof (month_length_days _ _ _ H0). exists (days_in_month y0 (m + 1)).
    pose proof (month_length_total y0 (m + 1) ltac:(lia)) as M. split; [exact M|]. apply month_length_pos in M. lia.
  - exists 31. split; [apply long_month; cbn; tauto|lia].
Qed.
Lemma after_is_date k x y : after k x y -> is_date x -> is_date y.
Proof. induction 1; [trivial|]. intros _. eapply next_day_is_date; eauto. Qed.

Lemma after_years (n : nat) : forall y, exists k, after k (y, 1, 1) (y + Z.of_nat n, 1, 1).
Proof.
  induction n as [|n IH]; intros y.
  - exists 0. rewrite Z.add_0_r. constructor.
  - destruct (IH y) as (k & Hk). eexists. eapply after_S.
    + eapply after_trans; [exact Hk|apply after_year].
    + replace (y + Z.of_nat (S n)) with (y + Z.of_nat n + 1) by lia. apply next_year. apply long_month. cbn; tauto.
Qed.

Lemma date_bounds y m d : is_date (y, m, d) -> ord (y, 1, 1) <= ord (y, m, d) < ord (y + 1, 1, 1).
Proof.
  intros H. pose proof (after_date _ _ _ H) as A.
  destruct H as (l & M & Hd). pose proof (month_length_days _ _ _ M) as (Hm & -> & _).
  apply after_ord in A. split; [lia|].
  assert (E : after (364 + (if is_leap y then 1 else 0) + 1) (y, 1, 1) (y + 1, 1, 1)).
  { econstructor; [apply after_year|]. apply next_year. apply long_month. cbn; tauto. }
  apply after_ord in E.
  assert (days_before_month y m + d <= 365 + (if is_leap y then 1 else 0)); [|lia].
  unfold days_before_month, days_in_month in *. clear -Hm Hd.
  assert (Cm : m = 1 \/ m = 2 \/ m = 3 \/ m = 4 \/ m = 5 \/ m = 6 \/ m = 7 \/ m = 8 \/ m = 9 \/ m = 10 \/ m = 11 \/ m = 12) by lia.
  destruct (is_leap y);
  repeat destruct Cm as [->|Cm]; subst; cbv -[Z.add Z.le Z.lt] in *; lia.
Qed.

(** the days from one date to a later one *)
Lemma after_dates x y : is_date x -> is_date y -> ord x <= ord y -> after (ord y - ord x) x y.
Proof.
  destruct x as [[y1 m1] d1], y as [[y2 m2] d2]. intros H1 H2 Ho.
  assert (Hy : y1 <= y2).
  { destruct (Z_le_gt_dec y1 y2) as [|G]; [assumption|exfalso].
    apply date_bounds in H1, H2.
    destruct (after_years (Z.to_nat (y1 - (y2 + 1))) (y2 + 1)) as (k & Hk).
    replace (y2 + 1 + Z.of_nat (Z.to_nat (y1 - (y2 + 1)))) with y1 in Hk by lia.
    apply after_ord in Hk. lia. }
  destruct (after_years (Z.to_nat (y2 - y1)) y1) as (k & Hk).
  replace (y1 + Z.of_nat (Z.to_nat (y2 - y1))) with y2 in Hk by lia.
  pose proof (after_trans _ _ _ _ _ Hk (after_date _ _ _ H2)) as A2.
  pose proof (after_date _ _ _ H1) as A1.
  pose proof (after_ord _ _ _ A1). pose proof (after_ord _ _ _ A2).
  pose proof (after_split _ _ _ A2 _ _ A1 ltac:(lia)) as R.
  match type of R with after ?a _ _ => replace (ord (y2, m2, d2) - ord (y1, m1, d1)) with a by lia end. exact R.
Qed.

Lemma midnight_ord x : midnight_of x = 1440 * (ord x - 1).
Proof. destruct x as [[y m] d]. reflexivity. Qed.

(** the load of one date: every user contributes a load it may have on a working day or on a
    weekend day, whichever the date is *)
Definition on_date (depth : nat) (F : fm) (us : list user) (peak : list Z) (i : Z) (x : date) (row : list Q) : Prop :=
  exists name dt loads, falls_on x name /\ (weekend name -> dt = 1) /\ (~ weekend name -> dt = 0) /\
    Forall2 (user_day depth F i peak dt) us loads /\ row = sum_rows F loads.

Lemma row_on_date depth F us p k x row : is_date x -> row_of_day depth F us p k (midnight_of x) row -> on_date depth F us p k x row.
Proof.
  intros Hx (dt & loads & Hdt & HF & ->).
  destruct (C04_every_date x Hx) as (name & Hname & _).
  assert (E : dt = get_day_type (midnight_of x)).
  { pose proof (day_type_spec (midnight_of x)) as S. unfold is_day_type in *. congruence. }
  exists name, dt, loads. destruct x as [[y m] d].
  pose proof (C04_day_type y m d 0 name Hname ltac:(lia)) as (W & NW). rewrite Z.add_0_r in *.
  cbn [midnight_of] in E. rewrite <- E in W, NW. repeat split; assumption.
Qed.

(** the rows of the file [f] from the date [first] to the date [final] *)
Definition simulated (depth : nat) (F : fm) (strict : bool) (d : disk) (f : string) (first final : date) (rows : list (list Q)) : Prop :=
  exists n tab us peak, after (n - 1) first final /\ sheet d f = Ok tab /\ load_table F strict n tab = Ok us /\
    zlen rows = n /\
    forall k x, 0 <= k < n -> after k first x ->
      zlen (nth (Z.to_nat k) rows []) = 1440 /\ on_date depth F us peak k x (nth (Z.to_nat k) rows []).

Lemma run_job_dates depth F strict w d f o nd first final rows :
  is_date first -> is_date final -> ord first <= ord final ->
  may (run_job depth F strict w d (Job f o nd (Some first) (Some final))) (Ok rows) ->
  simulated depth F strict d f first final rows.
Proof.
  intros H1 H2 Ho H. unfold run_job in H. cbn [j_file j_start j_end j_days option_map] in H.
  apply run_xlsx_spec in H as (tab & us & n & ds & s & p & Ht & Hl & Hn & Hc & Hr & Hp & Hlen & Hf & Hrows).
  cbn [days_argument requested_days] in Hr. destruct Hr as (Hc' & Hb). rewrite !midnight_ord in *.
  assert (Es : s = 1440 * (ord first - 1)).
  { destruct Hc as (_ & Hc), Hc' as (_ & Hc'). specialize (Hc 0 ltac:(lia)). specialize (Hc' 0 ltac:(lia)). lia. }
  assert (En : n - 1 = ord final - ord first) by lia.
  exists n, tab, us, p. split; [rewrite En; now apply after_dates|].
  split; [exact Ht|]. split; [exact Hl|]. split; [exact Hlen|]. intros k x Hk Hx. split.
  - rewrite Forall_nth in Hf. apply Hf. unfold zlen in Hlen. lia.
  - apply row_on_date; [eapply after_is_date; eauto|]. rewrite midnight_ord.
    apply after_ord in Hx. replace (1440 * (ord x - 1)) with (s + 1440 * k) by lia. apply Hrows, Hk.
Qed.

(** ** Several runs *)

Lemma run_and_export_may depth F strict w d results j evs :
  may (run_and_export depth F strict w d results j) (Ok evs) ->
  (ends_with (j_file j) ".xlsx" = true /\ exists rows path, may (run_job depth F strict w d j) (Ok rows) /\
     export_path results None (Some (j_file j)) (j_out j) = Some path /\ evs = [Wrote path (List.concat rows)]) \/
  (ends_with (j_file j) ".xlsx" = false /\ ends_with (j_file j) ".py" = true /\ exists_py d (j_file j) = true /\
     evs = [Ran_python (j_file j)]).
Proof.
  unfold run_and_export. destruct (ends_with (j_file j) ".xlsx").
  - intros H. left. split; [reflexivity|].
    apply may_bind in H as [(rows & Hr & H)|(e & _ & H)]; [|discriminate].
    apply may_bind in H as [(p & Hp & H)|(e & _ & H)]; [|discriminate].
    apply may_lift in Hp.
    assert (E : snd p = List.concat rows).
    { unfold Profile_formatting in Hp. destruct (add_all F _ rows); [|discriminate]. cbn [rbind] in Hp.
      destruct rows; [discriminate|]. now injection Hp as ->. }
    destruct (export_path results None (Some (j_file j)) (j_out j)) as [path|] eqn:Ep.
    + apply may_ret_inv in H. injection H as ->. exists rows, path. rewrite E. now repeat split.
    + exfalso. unfold export_path in Ep. destruct (j_out j); discriminate.
  - destruct (ends_with (j_file j) ".py"); [|intros H; apply may_raise_inv in H; discriminate].
    destruct (exists_py d (j_file j)); [|intros H; apply may_raise_inv in H; discriminate].
    intros H. apply may_ret_inv in H. injection H as ->. right. now repeat split.
Qed.

(** what one job leaves behind *)
Definition job_done (depth : nat) (F : fm) (strict : bool) (w : world) (d : disk) (results : string) (j : job) (ev : event) : Prop :=
  (ends_with (j_file j) ".xlsx" = true /\ exists rows path, may (run_job depth F strict w d j) (Ok rows) /\
     export_path results None (Some (j_file j)) (j_out j) = Some path /\ ev = Wrote path (List.concat rows)) \/
  (ends_with (j_file j) ".xlsx" = false /\ ends_with (j_file j) ".py" = true /\ exists_py d (j_file j) = true /\
     ev = Ran_python (j_file j)).

Lemma run_each_done depth F strict w d results : forall js evs,
  may (run_each depth F strict w d results js) (Ok (evs, None)) -> Forall2 (job_done depth F strict w d results) js evs.
Proof.
  induction js as [|j js IH]; cbn [run_each]; intros evs H.
  - apply may_ret_inv in H. injection H as ->. constructor.
  - apply may_bind in H as [(r & Hr & H)|(e & _ & H)]; [|discriminate].
    destruct r as [ev|e]; [|apply may_ret_inv in H; discriminate].
    apply (proj1 (attempt_may _ _)) in Hr. apply may_bind in H as [([evs' x] & Hj & H)|(e & _ & H)]; [|discriminate].
    apply may_ret_inv in H. cbn [fst snd] in H. injection H as -> <-.
    apply run_and_export_may in Hr as [(Hx & rows & path & Hr & Hp & ->)|(Hx & Hy & He & ->)]; cbn [app];
    constructor; try (apply IH, Hj).
    + left. split; [exact Hx|]. exists rows, path. now repeat split.
    + right. now repeat split.
Qed.

(** the runs that were finished before an exception ended the command *)
Lemma run_each_prefix depth F strict w d results : forall js evs e,
  may (run_each depth F strict w d results js) (Ok (evs, Some e)) ->
  exists done j rest, js = done ++ j :: rest /\ Forall2 (job_done depth F strict w d results) done evs /\
    may (run_and_export depth F strict w d results j) (Err e).
Proof.
  induction js as [|j js IH]; cbn [run_each]; intros evs e H.
  - apply may_ret_inv in H. discriminate.
  - apply may_bind in H as [(r & Hr & H)|(e' & _ & H)]; [|discriminate].
    apply (proj1 (attempt_may _ _)) in Hr.
    destruct r as [ev|e'].
    + apply may_bind in H as [([evs' x] & Hj & H)|(e' & _ & H)]; [|discriminate].
      apply may_ret_inv in H. cbn [fst snd] in H. injection H as -> <-.
      destruct (IH _ _ Hj) as (dn & j' & rest & -> & HF & He).
      apply run_and_export_may in Hr as [(Hx & rows & path & Hr & Hp & ->)|(Hx & Hy & Hp & ->)]; cbn [app];
      exists (j :: dn), j', rest; (split; [reflexivity|]); (split; [|exact He]); constructor; try exact HF.
      * left. split; [exact Hx|]. exists rows, path. now repeat split.
      * right. now repeat split.
    + apply may_ret_inv in H. injection H as -> ->. exists [], j, js. repeat split; [constructor|exact Hr].
Qed.
Lemma run_each_total depth F strict w d results : forall js e, ~ may (run_each depth F strict w d results js) (Err e).
Proof.
  induction js as [|j js IH]; cbn [run_each]; intros e H.
  - apply may_ret_inv in H. discriminate.
  - apply may_bind in H as [(r & Hr & H)|(e' & Hr & H)].
    + destruct r as [ev|x]; [|apply may_ret_inv in H; discriminate].
      apply may_bind in H as [([evs' x] & Hj & H)|(e' & Hj & H)].
      * apply may_ret_inv in H. discriminate.
      * injection H as <-. exact (IH _ Hj).
    + exact (attempt_total _ _ Hr).
Qed.

(** ** The arguments *)

(** the range of dates the options ask for *)
Inductive asked_range (a : args) : date -> date -> Prop :=
| both_dates first final : a_years a = None -> a_start a = Some first -> a_end a = Some final -> asked_range a first final
| only_start y m d : a_years a = None -> a_days a = None -> a_start a = Some (y, m, d) -> a_end a = None ->
    asked_range a (y, m, d) (y, 12, 31)
| only_end y m d : a_years a = None -> a_days a = None -> a_start a = None -> a_end a = Some (y, m, d) ->
    asked_range a (y, 1, 1) (y, m, d)
| given_years y ys : a_years a = Some (y :: ys) -> a_start a = None -> a_end a = None ->
    asked_range a (y, 1, 1) (last ys y, 12, 31).
(** a date Python has: years 1 to 9999 *)
Definition valid_date (x : date) : Prop := is_date x /\ 1 <= year_of x <= 9999.
(** one file per month: one year and a folder *)
Definition month_mode (d : disk) (a : args) : Prop :=
  exists y f fs, a_years a = Some [y] /\ a_in a = Some (f :: fs) /\ is_dir d f = true.

Lemma valid_mk y m d : 1 <= y <= 9999 -> mk_date y m d = Ok (y, m, d).
Proof. intros H. unfold mk_date. destruct (1 <=? y) eqn:E1, (y <=? 9999) eqn:E2; cbn [andb]; try reflexivity; lia. Qed.

Lemma asked_dates d a first final : asked_range a first final -> valid_date first -> valid_date final -> ~ month_mode d a ->
  exists dates, default_dates a = Ok dates /\ apply_years d a dates = Ok (Some first, Some final, a_in a, None).
Proof.
  intros H (_ & V1) (_ & V2) Hm. inversion H as [x y Hy Hs He|y m dd Hy Hd Hs He|y m dd Hy Hd Hs He|y ys Hy Hs He]; subst;
  unfold default_dates, apply_years; rewrite ?Hy, ?Hs, ?He.
  - exists (Some first, Some final). destruct (a_days a); split; reflexivity.
  - rewrite Hd. cbn [year_of fst] in V1 |- *. rewrite valid_mk by lia. cbn [rbind]. eexists. split; reflexivity.
  - rewrite Hd. cbn [year_of fst] in V2 |- *. rewrite valid_mk by lia. cbn [rbind]. eexists. split; reflexivity.
  - cbn [year_of fst] in V1, V2. exists (None, None). split.
    { destruct (a_days a); reflexivity. }
    rewrite !valid_mk by lia. cbn [rbind].
    destruct ys as [|y2 ys]; [|destruct (a_in a); reflexivity].
    destruct (a_in a) as [[|f fs]|] eqn:Ei; try reflexivity.
    destruct (is_dir d f) eqn:Ed; [|reflexivity].
    exfalso. apply Hm. exists y, f, fs. now repeat split.
Qed.

Lemma spread_length {A} (l : list A) m r : 0 <= m -> spread l m = Ok r -> zlen r = m.
Proof.
  unfold spread. intros Hm. destruct l as [|x [|y l]].
  - destruct (zlen [] =? m) eqn:E; [|discriminate]. intros H. injection H as <-. apply Z.eqb_eq, E.
  - intros H. injection H as <-. rewrite zlen_repeat. lia.
  - destruct (zlen (x :: y :: l) =? m) eqn:E; [|discriminate]. intros H. injection H as <-. apply Z.eqb_eq, E.
Qed.

(** the i-th value belongs to the i-th file, a single value to all of them *)
Definition value_for {A} (given : option (list A)) (i : nat) : option A :=
  match given with None => None | Some [x] => Some x | Some l => nth_error l i end.

Lemma spread_nth {A} (l : list A) m r i : spread l m = Ok r -> (i < List.length r)%nat ->
  nth_error r i = value_for (Some l) i.
Proof.
  unfold spread, value_for. destruct l as [|x [|y l]]; intros H Hi.
  - destruct (zlen [] =? m); inversion H; subst. reflexivity.
  - injection H as <-. rewrite repeat_length in Hi. now apply nth_error_repeat.
  - destruct (zlen (x :: y :: l) =? m); inversion H; subst. reflexivity.
Qed.

Lemma make_jobs_nth s e : forall fs outs days, List.length outs = List.length fs -> List.length days = List.length fs ->
  List.length (make_jobs fs outs days s e) = List.length fs /\
  forall i f, nth_error fs i = Some f -> exists o n, nth_error outs i = Some o /\ nth_error days i = Some n /\
    nth_error (make_jobs fs outs days s e) i = Some (Job f o n s e).
Proof.
  induction fs as [|f fs IH]; intros [|o outs] [|n days] Ho Hd; try discriminate; cbn [make_jobs].
  - split; [reflexivity|]. intros [|i] f H; discriminate.
  - cbn in Ho, Hd. destruct (IH outs days ltac:(lia) ltac:(lia)) as (L & N). split; [cbn; lia|].
    intros [|i] f' H; cbn in H |- *.
    + injection H as <-. now exists o, n.
    + apply N, H.
Qed.

(** the jobs for a list of input files: one per file, in order *)
Lemma resolve_jobs d a js : resolve d a = Ok (Each js) ->
  exists s e fs, a_in a = Some fs /\ List.length js = List.length fs /\
    (exists dates, default_dates a = Ok dates /\ apply_years d a dates = Ok (s, e, a_in a, None)) /\
    forall i f, nth_error fs i = Some f ->
      nth_error js i = Some (Job f (value_for (a_out a) i) (value_for (a_days a) i) s e).
Proof.
  unfold resolve. intros H.
  destruct (default_dates a) as [dates|] eqn:Ed; [|discriminate]. cbn [rbind] in H.
  destruct (apply_years d a dates) as [[[[s e] fs] months]|] eqn:Ey; [|discriminate]. cbn [rbind] in H.
  destruct fs as [fs|]; [|discriminate].
  match type of H with rbind ?x _ = _ => destruct x as [days|] eqn:Edays; [|discriminate] end. cbn [rbind] in H.
  destruct months as [y|]; [discriminate|].
  match type of H with rbind ?x _ = _ => destruct x as [outs|] eqn:Eo; [|discriminate] end. cbn [rbind] in H.
  injection H as <-.
  assert (Ei : a_in a = Some fs).
  { unfold apply_years in Ey. destruct (a_years a) as [ys|]; [|congruence].
    destruct dates as [[|] [|]]; try discriminate. destruct ys as [|y0 rest]; [discriminate|].
    destruct (mk_date y0 1 1) as [s'|]; [|discriminate]. cbn [rbind] in Ey.
    destruct (mk_date (last rest y0) 12 31) as [e'|]; [|discriminate]. cbn [rbind] in Ey.
    destruct rest; [|congruence].
    destruct (a_in a) as [[|f0 fs0]|]; try congruence.
    destruct (is_dir d f0); [|congruence].
    destruct (month_files d f0 (a_ext a)); [|discriminate]. cbn [rbind] in Ey. discriminate. }
  assert (Ldays : List.length days = List.length fs).
  { destruct (a_days a) as [ns|].
    - destruct (spread ns (zlen fs)) as [ns'|] eqn:Es; [|discriminate]. injection Edays as <-.
      rewrite map_length. apply spread_length in Es; unfold zlen in *; lia.
    - injection Edays as <-. apply repeat_length. }
  assert (Louts : List.length outs = List.length fs).
  { apply spread_length in Eo; unfold zlen in *; lia. }
  exists s, e, fs. split; [exact Ei|].
  destruct (make_jobs_nth s e fs outs days Louts Ldays) as (L & N).
  split; [exact L|]. split.
  { exists dates. rewrite Ei. split; [reflexivity|exact Ey]. }
  intros i f Hf. destruct (N i f Hf) as (o & n & Ho & Hn & Hj). rewrite Hj.
  assert (Hi : (i < List.length fs)%nat) by (apply nth_error_Some; congruence).
  f_equal. f_equal.
  - pose proof (spread_nth _ _ _ i Eo ltac:(lia)) as Q. rewrite Ho in Q.
    destruct (a_out a) as [os|]; cbn [value_for] in Q |- *; [|now injection Q].
    destruct os as [|x [|x' os]]; cbn [map] in Q.
    + destruct i; discriminate.
    + now injection Q.
    + rewrite <- !map_cons, nth_error_map in Q. destruct (nth_error (x :: x' :: os) i); [now injection Q|discriminate].
  - destruct (a_days a) as [ns|].
    + destruct (spread ns (zlen fs)) as [ns'|] eqn:Es; [|discriminate]. injection Edays as <-.
      rewrite map_length in Ldays. pose proof (spread_nth _ _ _ i Es ltac:(lia)) as Q. rewrite <- Q.
      rewrite nth_error_map in Hn. destruct (nth_error ns' i); [now injection Hn|discriminate].
    + injection Edays as <-. rewrite nth_error_repeat in Hn by lia. now injection Hn.
Qed.

(** ** C44: which dates are simulated *)

Lemma main_each depth F strict w d results a fs r :
  ~ month_mode d a -> a_in a = Some fs -> may (main depth F strict w d results a) r ->
  exists evs oe, r = Ok (evs, oe) /\
    ((evs = [] /\ oe <> None /\ exists e, oe = Some e /\ resolve d a = Err e) \/
     exists js, resolve d a = Ok (Each js) /\ may (run_each depth F strict w d results js) (Ok (evs, oe))).
Proof.
  intros Hm Hi H. unfold main in H. destruct (resolve d a) as [[|js|y js folder]|e] eqn:E.
  - exfalso. unfold resolve in E. destruct (default_dates a) as [dates|]; [|discriminate]. cbn [rbind] in E.
    destruct (apply_years d a dates) as [[[[s x] fs'] months]|] eqn:Ey; [|discriminate]. cbn [rbind] in E.
    destruct fs' as [fs'|].
    + match type of E with rbind ?x _ = _ => destruct x; [|discriminate] end. cbn [rbind] in E.
      destruct months; [discriminate|]. match type of E with rbind ?x _ = _ => destruct x; discriminate end.
    + unfold apply_years in Ey. rewrite Hi in Ey. destruct (a_years a) as [ys|]; [|discriminate].
      destruct dates as [[|] [|]]; try discriminate. destruct ys as [|y0 rest]; [discriminate|].
      destruct (mk_date y0 1 1); [|discriminate]. cbn [rbind] in Ey.
      destruct (mk_date (last rest y0) 12 31); [|discriminate]. cbn [rbind] in Ey.
      destruct rest; [|discriminate]. destruct fs; [discriminate|]. destruct (is_dir d s0); [|discriminate].
      destruct (month_files d s0 (a_ext a)); discriminate.
  - destruct r as [[evs oe]|e].
    + exists evs, oe. split; [reflexivity|]. right. exists js. now split.
    + exfalso. exact (run_each_total _ _ _ _ _ _ _ _ H).
  - exfalso. apply Hm. unfold resolve in E. destruct (default_dates a) as [dates|]; [|discriminate]. cbn [rbind] in E.
    destruct (apply_years d a dates) as [[[[s x] fs'] months]|] eqn:Ey; [|discriminate]. cbn [rbind] in E.
    destruct months as [y'|].
    2:{ destruct fs'; [|discriminate]. match type of E with rbind ?x _ = _ => destruct x; [|discriminate] end. cbn [rbind] in E.
        match type of E with rbind ?x _ = _ => destruct x; discriminate end. }
    unfold apply_years in Ey. destruct (a_years a) as [ys|] eqn:Eys; [|discriminate].
    destruct dates as [[|] [|]]; try discriminate. destruct ys as [|y0 rest]; [discriminate|].
    destruct (mk_date y0 1 1); [|discriminate]. cbn [rbind] in Ey.
    destruct (mk_date (last rest y0) 12 31); [|discriminate]. cbn [rbind] in Ey.
    destruct rest; [|discriminate]. rewrite Hi in Ey. destruct fs as [|f fs]; [discriminate|].
    destruct (is_dir d f) eqn:Ed; [|discriminate]. exists y0, f, fs. now repeat split.
  - apply may_ret_inv in H. subst. exists [], (Some e). split; [reflexivity|]. left. split; [reflexivity|].
    split; [discriminate|]. now exists e.
Qed.

Lemma Forall2_length {A B} (P : A -> B -> Prop) l r : Forall2 P l r -> List.length l = List.length r.
Proof. induction 1; cbn; congruence. Qed.
Lemma Forall2_nth_intro {A B} (P : A -> B -> Prop) : forall l r, List.length l = List.length r ->
  (forall i x y, nth_error l i = Some x -> nth_error r i = Some y -> P x y) -> Forall2 P l r.
Proof.
  induction l as [|x l IH]; intros [|y r] L H; try discriminate; constructor.
  - apply (H 0%nat); reflexivity.
  - apply IH; [now injection L|]. intros i x' y' Hx Hy. apply (H (S i)); assumption.
Qed.
Lemma Forall2_nth_elim {A B} (P : A -> B -> Prop) l r i x y : Forall2 P l r -> nth_error l i = Some x -> nth_error r i = Some y -> P x y.
Proof.
  intros H. revert i. induction H as [|a b l r Hab H IH]; intros [|i] Hx Hy; try discriminate; cbn in Hx, Hy.
  - now injection Hx as <-; injection Hy as <-.
  - eapply IH; eauto.
Qed.

(** every input file is simulated for exactly the days from [first] to [final] *)
Theorem C44_range depth F strict w d results a first final fs evs k :
  asked_range a first final -> valid_date first -> valid_date final -> after k first final -> ~ month_mode d a -> a_in a = Some fs ->
  may (main depth F strict w d results a) (Ok (evs, None)) ->
  Forall2 (fun f ev =>
    if ends_with f ".xlsx" then exists path rows, ev = Wrote path (List.concat rows) /\ simulated depth F strict d f first final rows
    else ev = Ran_python f) fs evs.
Proof.
  intros Ha V1 V2 Hk Hm Hi H.
  destruct (main_each _ _ _ _ _ _ _ _ _ Hm Hi H) as (evs' & oe & E & [(-> & Hne & _)|(js & Er & Hr)]).
  { congruence. }
  injection E as <- <-. apply run_each_done in Hr.
  destruct (resolve_jobs _ _ _ Er) as (s & e & fs' & Hi' & L & (dates & Hd & Hy) & N).
  rewrite Hi in Hi'. injection Hi' as <-.
  destruct (asked_dates d a first final Ha V1 V2 Hm) as (dates' & Hd' & Hy').
  rewrite Hd in Hd'. injection Hd' as <-. rewrite Hy in Hy'. injection Hy' as -> ->.
  pose proof (Forall2_length _ _ _ Hr) as Lr.
  apply Forall2_nth_intro; [congruence|]. intros i f ev Hf Hev.
  pose proof (N i f Hf) as Hj.
  destruct (Forall2_nth_elim _ _ _ _ _ _ Hr Hj Hev) as [(Hx & rows & path & Hrun & _ & ->)|(Hx & _ & _ & ->)];
  cbn [j_file] in *; rewrite Hx; [|reflexivity].
  exists path, rows. split; [reflexivity|].
  destruct V1 as (V1 & _), V2 as (V2 & _).
  apply (run_job_dates _ _ _ _ _ _ _ _ _ _ _ V1 V2 ltac:(apply after_ord in Hk; lia) Hrun).
Qed.

(** -y and a date option exclude each other, whatever the other arguments *)
Theorem C44_years_and_dates depth F strict w d results a r :
  a_years a <> None -> a_start a <> None \/ a_end a <> None ->
  may (main depth F strict w d results a) r -> r = Ok ([], Some ValueError).
Proof.
  intros Hy Hd H. unfold main in H.
  assert (E : resolve d a = Err ValueError).
  { unfold resolve, default_dates, apply_years, mk_date. destruct (a_years a) as [ys|]; [|contradiction].
    destruct (a_days a), (a_start a) as [s|], (a_end a) as [e|]; try tauto; cbn [rbind]; try reflexivity;
    destruct (_ && _); reflexivity. }
  rewrite E in H. apply may_ret_inv in H. exact H.
Qed.

(** a year Python does not have *)
Theorem C44_bad_year depth F strict w d results a ys y r :
  a_years a = Some ys -> In y ys -> hd_error ys = Some y \/ last ys 0 = y -> ~ (1 <= y <= 9999) ->
  may (main depth F strict w d results a) r -> r = Ok ([], Some ValueError).
Proof.
  intros Hy Hin Hpos Hbad H. unfold main in H.
  assert (E : resolve d a = Err ValueError).
  { destruct (a_start a) as [s|] eqn:Es.
    { unfold resolve, default_dates, apply_years, mk_date. rewrite Hy, Es. destruct (a_days a), (a_end a); cbn [rbind]; try reflexivity;
      destruct (_ && _); reflexivity. }
    destruct (a_end a) as [e|] eqn:Ee.
    { unfold resolve, default_dates, apply_years, mk_date. rewrite Hy, Es, Ee. destruct (a_days a); cbn [rbind]; try reflexivity;
      destruct (_ && _); reflexivity. }
    unfold resolve, default_dates, apply_years. rewrite Hy, Es, Ee.
    assert (Em : forall m dd, mk_date y m dd = Err ValueError).
    { intros m dd. unfold mk_date. destruct (1 <=? y) eqn:E1, (y <=? 9999) eqn:E2; try reflexivity. exfalso. apply Hbad. lia. }
    destruct ys as [|y0 rest]; [destruct Hin|].
    assert (Elast : last (y0 :: rest) 0 = last rest y0).
    { destruct rest; [reflexivity|apply last_cons_cons]. }
    destruct (a_days a); cbn [rbind].
    all: destruct Hpos as [Hpos|Hpos]; [cbn in Hpos; injection Hpos as ->; rewrite Em; reflexivity|].
    all: rewrite Elast in Hpos; rewrite Hpos, Em.
    all: destruct (mk_date y0 1 1) eqn:E0; [reflexivity|]; cbn [rbind]; unfold mk_date in E0; destruct (_ && _); [discriminate|]; congruence. }
  rewrite E in H. apply may_ret_inv in H. exact H.
Qed.

(** an end before the start: nothing is simulated *)
Theorem C44_reversed depth F strict w d results a first final fs f k r :
  asked_range a first final -> valid_date first -> valid_date final -> after k final first -> 1 <= k -> ~ month_mode d a ->
  a_in a = Some (f :: fs) -> ends_with f ".xlsx" = true -> (exists js, resolve d a = Ok (Each js)) ->
  may (main depth F strict w d results a) r -> r = Ok ([], Some IndexError).
Proof.
  intros Ha V1 V2 Hk Hk1 Hm Hi Hx (js0 & Er0) H.
  destruct (main_each _ _ _ _ _ _ _ _ _ Hm Hi H) as (evs & oe & -> & [(_ & _ & e & _ & E)|(js & Er & Hr)]); [congruence|].
  clear js0 Er0.
  destruct (resolve_jobs _ _ _ Er) as (s & e & fs' & Hi' & L & (dates & Hd & Hy) & N).
  rewrite Hi in Hi'. injection Hi' as <-.
  destruct (asked_dates d a first final Ha V1 V2 Hm) as (dates' & Hd' & Hy').
  rewrite Hd in Hd'. injection Hd' as <-. rewrite Hy in Hy'. injection Hy' as -> ->.
  pose proof (N 0%nat f eq_refl) as Hj. destruct js as [|j js]; [discriminate|]. cbn in Hj. injection Hj as ->.
  assert (Run : forall x, may (run_job depth F strict w d (Job f (value_for (a_out a) 0) (value_for (a_days a) 0) (Some first) (Some final))) x ->
    x = Err IndexError).
  { intros x Hr'. unfold run_job, run_xlsx in Hr'. cbn [j_file j_start j_end j_days option_map] in Hr'.
    apply may_bind in Hr' as [(c & Hc & _)|(e & Hc & ->)].
    - exfalso. unfold new_usecase in Hc. apply may_bind in Hc as [(c1 & H1 & _)|(e & _ & Hc)]; [|discriminate].
      apply may_bind in H1 as [([c2 oe2] & H2 & H1)|(e & _ & H1)]; [|discriminate].
      eapply (C31_empty_range F w _ None false (midnight_of first) (midnight_of final)) in H2; try reflexivity.
      + destruct H2 as (c' & H2). injection H2 as -> ->. cbn [snd] in H1. apply may_raise_inv in H1. discriminate.
      + apply C31_first_call.
      + rewrite !midnight_ord. apply after_ord in Hk. lia.
    - f_equal. unfold new_usecase in Hc. apply may_bind in Hc as [(c1 & H1 & Hc)|(e1 & H1 & Hc)].
      { cbn [seed_of] in Hc. apply may_ret_inv in Hc. discriminate. }
      injection Hc as <-. apply may_bind in H1 as [([c2 oe2] & H2 & H1)|(e2 & H2 & H1)].
      + eapply (C31_empty_range F w _ None false (midnight_of first) (midnight_of final)) in H2; try reflexivity.
        * destruct H2 as (c' & H2). injection H2 as -> ->. cbn [snd] in H1. apply may_raise_inv in H1. now injection H1.
        * apply C31_first_call.
        * rewrite !midnight_ord. apply after_ord in Hk. lia.
      + eapply (C31_empty_range F w _ None false (midnight_of first) (midnight_of final)) in H2; try reflexivity.
        * destruct H2 as (c' & H2). discriminate.
        * apply C31_first_call.
        * rewrite !midnight_ord. apply after_ord in Hk. lia. }
  cbn [run_each] in Hr.
  apply may_bind in Hr as [(x & Hx' & Hr)|(e & _ & Hr)]; [|discriminate].
  apply (proj1 (attempt_may _ _)) in Hx'. unfold run_and_export in Hx'. cbn [j_file] in Hx'. rewrite Hx in Hx'.
  apply may_bind in Hx' as [(rows & Hj & _)|(e & Hj & ->)]; apply Run in Hj; [discriminate|].
  injection Hj as ->. apply may_ret_inv in Hr. now injection Hr as -> ->.
Qed.

(** ** Concrete runs: every uniform draw is 1/2, every integer draw the middle, every normal
    deviate [z] *)
Fixpoint middle {A} (z : Q) (p : prog A) : option (res A) :=
  match p with
  | Ret a => Some (Ok a)
  | Raise e => Some (Err e)
  | Random k => middle z (k (1 # 2)%Q)
  | RandBelow n k => if 0 <? n then middle z (k (n / 2)) else None
  | Normal _ k => middle z (k z)
  | Seed _ k => middle z k
  end.
Lemma middle_may {A} z (p : prog A) r : middle z p = Some r -> may p r.
Proof.
  induction p as [a|e|k IH|n k IH|c k IH|s k IH]; cbn [middle]; intros H.
  - injection H as <-. constructor.
  - injection H as <-. constructor.
  - apply (may_random (1 # 2)); [lra|lra|]. apply IH, H.
  - destruct (0 <? n) eqn:E; [|discriminate]. apply Z.ltb_lt in E. apply (may_below n (n / 2)); [|apply IH, H].
    split; [apply Z.div_pos; lia|apply Z.div_lt; lia].
  - apply (may_normal c z). apply IH, H.
  - constructor. apply IH, H.
Qed.
Lemma middle_check {A} z (p : prog A) (P : A -> bool) :
  match middle z p with Some (Ok x) => P x | _ => false end = true -> exists x, may p (Ok x) /\ P x = true.
Proof.
  destruct (middle z p) as [[x|e]|] eqn:E; try discriminate. intros H. exists x. split; [|exact H]. apply (middle_may z), E.
Qed.

(** a disk with two input files *)
Definition shop_row (user app : string) : row :=
  [("user_name", CText user); ("num_users", CNum 1); ("user_preference", CNum 0); ("name", CText app); ("number", CNum 1);
   ("power", CNum 10); ("num_windows", CNum 1); ("func_time", CNum 60); ("func_cycle", CNum 30); ("window_1_start", CNum 480); ("window_1_end", CNum 600)].
Definition small_disk : disk :=
  Disk (fun p => String.eqb p "months") (fun _ => [])
    (fun p => if String.eqb p "a/shop.xlsx" then Ok [shop_row "shop" "light"]
              else if String.eqb p "b/shop.xlsx" then Ok [shop_row "shop" "fan"] else Err FileNotFoundError)
    (fun p => String.eqb p "old.py").
Definition small_args : args :=
  Args (Some ["a/shop.xlsx"; "old.py"; "b/shop.xlsx"]) None None None (Some (2023, 12, 30)) None "xlsx".
Lemma small_not_months : ~ month_mode small_disk small_args.
Proof. intros (y & f & fs & H & _). discriminate. Qed.
Lemma date_2023 : valid_date (2023, 12, 30) /\ valid_date (2023, 12, 31) /\ after 1 (2023, 12, 30) (2023, 12, 31).
Proof.
  assert (M : month_length 2023 12 31) by (apply long_month; cbn; tauto).
  split; [|split]; try (split; [exists 31; split; [exact M|lia]|cbn; lia]).
  apply (after_S 0 _ (2023, 12, 30)); [constructor|]. apply (in_month 2023 12 30 31); [exact M|lia].
Qed.
(** two files and a program run for 30 and 31 December 2023; the reverse range and -y with a date *)
Example C44_case : asked_range small_args (2023, 12, 30) (2023, 12, 31) /\ ~ month_mode small_disk small_args /\
  valid_date (2023, 12, 30) /\ valid_date (2023, 12, 31) /\ after 1 (2023, 12, 30) (2023, 12, 31) /\
  (exists evs, may (main 3 exact_fm true nobody small_disk "results" small_args) (Ok (evs, None)) /\
     map (fun ev => match ev with Wrote p l => (p, zlen l) | Ran_python p => (p, -1) | _ => ("", 0) end) evs =
     [("results/output_file_shop_xlsx.csv", 2880); ("old.py", -1); ("results/output_file_shop_xlsx.csv", 2880)]).
Proof.
  split; [apply only_start; reflexivity|]. split; [apply small_not_months|].
  pose proof date_2023 as (V1 & V2 & A). split; [exact V1|]. split; [exact V2|]. split; [exact A|].
  destruct (middle_check 0 (main 3 exact_fm true nobody small_disk "results" small_args)
    (fun x => match snd x with None => true | _ => false end && match fst x with
       | [Wrote p1 l1; Ran_python p2; Wrote p3 l3] =>
           String.eqb p1 "results/output_file_shop_xlsx.csv" && (zlen l1 =? 2880) && String.eqb p2 "old.py" &&
           String.eqb p3 "results/output_file_shop_xlsx.csv" && (zlen l3 =? 2880)
       | _ => false end)) as ([evs oe] & H & E); [vm_compute; reflexivity|].
  cbn [fst snd] in E. destruct oe; [discriminate|]. cbn [andb] in E.
  destruct evs as [|[p1 l1| |] [|[|p2|] [|[p3 l3| |] [|]]]]; try discriminate.
  apply andb_prop in E as [E E5]. apply andb_prop in E as [E E4]. apply andb_prop in E as [E E3]. apply andb_prop in E as [E1 E2].
  apply String.eqb_eq in E1, E3, E4. apply Z.eqb_eq in E2, E5. subst p1 p2 p3.
  eexists. split; [exact H|]. cbn [map]. now rewrite E2, E5.
Qed.

(** ** C45: number of days and output of each input file *)

(** the file a run writes to without -o *)
Definition default_output (results f : string) : string :=
  (results ++ "/output_file_" ++ dots_to_underscores (path_tail EmptyString f) ++ ".csv")%string.
Definition output_of (results : string) (a : args) (i : nat) (f : string) : string :=
  match value_for (a_out a) i with Some o => o | None => default_output results f end.

(** without -o: the folders of the input file do not count, and in its name every "." becomes "_" *)
Theorem C45_default_name results folder base :
  ~ In "/"%char (list_ascii_of_string base) ->
  default_output results (folder ++ "/" ++ base) = default_output results base /\
  exists name, default_output results base = (results ++ "/output_file_" ++ name ++ ".csv")%string /\
    list_ascii_of_string name = map (fun c => if ascii_dec c "." then "_"%char else c) (list_ascii_of_string base).
Proof.
  intros H.
  assert (Tail : forall b acc, ~ In "/"%char (list_ascii_of_string b) -> path_tail acc b = (acc ++ b)%string).
  { induction b as [|c b IH]; intros acc Hb; cbn [path_tail].
    - induction acc as [|x acc IH]; [reflexivity|]. cbn [String.append]. now rewrite <- IH.
    - cbn [list_ascii_of_string In] in Hb. destruct (Ascii.eqb_spec c "/") as [->|]; [exfalso; apply Hb; left; reflexivity|].
      rewrite IH by (intros Hx; apply Hb; right; exact Hx). clear. induction acc as [|x acc IH]; [reflexivity|]. cbn [String.append]. now rewrite IH. }
  assert (Fold : forall f acc, path_tail acc (f ++ "/" ++ base) = base).
  { induction f as [|c f IH]; intros acc; cbn [String.append path_tail].
    - rewrite Ascii.eqb_refl. rewrite (Tail base EmptyString H). reflexivity.
    - destruct (Ascii.eqb c "/"); apply IH. }
  unfold default_output. rewrite Fold, (Tail base EmptyString H). cbn [String.append]. split; [reflexivity|].
  exists (dots_to_underscores base). split; [reflexivity|]. clear. induction base as [|c b IH]; [reflexivity|].
  cbn [dots_to_underscores list_ascii_of_string map]. rewrite IH. f_equal.
  destruct (Ascii.eqb_spec c "."), (ascii_dec c "."); congruence.
Qed.

(** a number of values that is neither 1 nor the number of input files: nothing is run *)
Theorem C45_counts depth F strict w d results a fs r :
  ~ month_mode d a -> a_in a = Some fs -> a_years a <> Some [] ->
  (exists ns, a_days a = Some ns /\ zlen ns <> 1 /\ zlen ns <> zlen fs) \/
  (exists os, a_out a = Some os /\ zlen os <> 1 /\ zlen os <> zlen fs) ->
  may (main depth F strict w d results a) r -> r = Ok ([], Some ValueError).
Proof.
  intros Hm Hi Hy Hc H.
  assert (Bad : forall A (l : list A), zlen l <> 1 -> zlen l <> zlen fs -> spread l (zlen fs) = Err ValueError).
  { intros A l H1 Hl. unfold spread. destruct l as [|x [|y l]]; [| exfalso; apply H1; reflexivity|];
    (match goal with |- context [zlen ?l =? ?m] => destruct (zlen l =? m) eqn:E end); try reflexivity; apply Z.eqb_eq in E; contradiction. }
  assert (E : resolve d a = Err ValueError).
  { unfold resolve. destruct (default_dates a) as [dates|e] eqn:Ed.
    2:{ unfold default_dates, mk_date in Ed. destruct (a_days a), (a_start a), (a_end a); cbn [rbind] in Ed; try discriminate;
        destruct (_ && _); cbn [rbind] in Ed; try discriminate; now injection Ed as <-. }
    cbn [rbind]. destruct (apply_years d a dates) as [[[[s e] fs'] months]|e] eqn:Ey.
    2:{ unfold apply_years in Ey. destruct (a_years a) as [ys|] eqn:Eys; [|discriminate].
        destruct dates as [[|] [|]]; try (now injection Ey as <-). destruct ys as [|y0 rest]; [contradiction|].
        unfold mk_date in Ey. destruct (_ && _); cbn [rbind] in Ey; [|now injection Ey as <-].
        destruct (_ && _); cbn [rbind] in Ey; [|now injection Ey as <-].
        destruct rest; [|discriminate]. rewrite Hi in Ey. destruct fs as [|f fs]; [discriminate|].
        destruct (is_dir d f) eqn:Edir; [|discriminate]. exfalso. apply Hm. exists y0, f, fs. now repeat split. }
    cbn [rbind].
    assert (Ef : fs' = Some fs /\ months = None).
    { unfold apply_years in Ey. rewrite Hi in Ey. destruct (a_years a) as [ys|] eqn:Eys; [|injection Ey as <- <- <- <-; now split].
      destruct dates as [[|] [|]]; try discriminate. destruct ys as [|y0 rest]; [discriminate|].
      destruct (mk_date y0 1 1); [|discriminate]. cbn [rbind] in Ey.
      destruct (mk_date (last rest y0) 12 31); [|discriminate]. cbn [rbind] in Ey.
      destruct rest; [|injection Ey as <- <- <- <-; now split]. destruct fs as [|f fs]; [injection Ey as <- <- <- <-; now split|].
      destruct (is_dir d f) eqn:Edir; [|injection Ey as <- <- <- <-; now split].
      exfalso. apply Hm. exists y0, f, fs. now repeat split. }
    destruct Ef as [-> ->].
    destruct Hc as [(ns & En & H1 & Hl)|(os & Eo & H1 & Hl)].
    - rewrite En, Bad by assumption. reflexivity.
    - match goal with |- rbind ?x _ = _ => destruct x as [days|e'] eqn:Edays end; cbn [rbind].
      + rewrite Eo. rewrite Bad; [reflexivity| |]; unfold zlen in *; rewrite map_length; assumption.
      + destruct (a_days a) as [ns|]; [|discriminate]. destruct (spread ns (zlen fs)) eqn:Es; [discriminate|].
        cbn [rbind] in Edays. unfold spread in Es. destruct ns as [|x [|y l]]; try discriminate;
        destruct (_ =? _); try discriminate; congruence. }
  unfold main in H. rewrite E in H. apply may_ret_inv in H. exact H.
Qed.

(** every input is run once, in order, with its own number of days and output; after an exception
    the inputs before it have been run *)
Theorem C45_matched depth F strict w d results a fs evs oe :
  ~ month_mode d a -> a_in a = Some fs ->
  may (main depth F strict w d results a) (Ok (evs, oe)) ->
  (oe = None -> zlen evs = zlen fs) /\ zlen evs <= zlen fs /\
  forall i ev, nth_error evs i = Some ev -> exists f, nth_error fs i = Some f /\
    if ends_with f ".xlsx" then
      exists rows, ev = Wrote (output_of results a i f) (List.concat rows) /\
        (forall n, value_for (a_days a) i = Some n -> a_years a = None -> a_start a = None \/ a_end a = None -> zlen rows = n)
    else ev = Ran_python f /\ ends_with f ".py" = true.
Proof.
  intros Hm Hi H.
  destruct (main_each _ _ _ _ _ _ _ _ _ Hm Hi H) as (evs' & oe' & E & [(-> & Hne & _)|(js & Er & Hr)]);
  injection E as -> ->.
  { split; [congruence|]. split; [apply Zle_0_nat|]. intros [|i] ev Hev; discriminate. }
  destruct (resolve_jobs _ _ _ Er) as (s & e & fs' & Hi' & L & (dates & Hd & Hy) & N).
  rewrite Hi in Hi'. injection Hi' as <-.
  assert (Hdone : exists dn rest, js = dn ++ rest /\ Forall2 (job_done depth F strict w d results) dn evs' /\ (oe' = None -> rest = [])).
  { destruct oe' as [x|].
    - apply run_each_prefix in Hr as (dn & j & rest & -> & HF & _). exists dn, (j :: rest). repeat split; [exact HF|discriminate].
    - apply run_each_done in Hr. exists js, []. rewrite app_nil_r. now repeat split. }
  destruct Hdone as (dn & rest & -> & HF & Hrest).
  pose proof (Forall2_length _ _ _ HF) as LF. rewrite app_length in L.
  split. { intros Hn. rewrite (Hrest Hn) in L. cbn in L. unfold zlen. lia. }
  split. { unfold zlen. lia. }
  intros i ev Hev.
  assert (Hlt : (i < List.length dn)%nat) by (rewrite LF; apply nth_error_Some; congruence).
  destruct (nth_error fs i) as [f|] eqn:Ef; [|apply nth_error_None in Ef; lia].
  exists f. split; [reflexivity|].
  pose proof (N i f Ef) as Hj. rewrite nth_error_app1 in Hj by exact Hlt.
  destruct (Forall2_nth_elim _ _ _ _ _ _ HF Hj Hev) as [(Hx & rows & path & Hrun & Hp & ->)|(Hx & Hpy & _ & ->)];
  cbn [j_file j_out] in *; rewrite Hx; [|now split].
  exists rows. split.
  { f_equal. unfold output_of, default_output. unfold export_path in Hp. destruct (value_for (a_out a) i); now injection Hp as <-. }
  intros n Hn Ey Hdates. rewrite Hn in Hrun. unfold run_job in Hrun. cbn [j_start j_end j_days] in Hrun.
  apply run_xlsx_spec in Hrun as (tab & us & m & ds & s' & p & _ & _ & _ & _ & Hreq & _ & Hlen & _).
  rewrite Hlen.
  assert (Es : s = a_start a /\ e = a_end a).
  { unfold apply_years in Hy. rewrite Ey in Hy. injection Hy as Hs He.
    unfold default_dates in Hd. destruct (a_days a) as [ns|]; [injection Hd as <-; now subst|]. discriminate. }
  destruct Es as [-> ->].
  destruct (a_start a), (a_end a); try (destruct Hdates; discriminate); cbn [option_map days_argument requested_days] in Hreq;
  tauto.
Qed.

(** different outputs for different inputs, if the -o paths differ, or without -o if the file
    names differ in more than folder and dots *)
Definition written_paths (evs : list event) : list string :=
  flat_map (fun ev => match ev with Wrote p _ => [p] | _ => [] end) evs.

Theorem C45_distinct_partial depth F strict w d results a fs evs oe :
  ~ month_mode d a -> a_in a = Some fs ->
  may (main depth F strict w d results a) (Ok (evs, oe)) ->
  (exists os, a_out a = Some os /\ zlen os = zlen fs /\ NoDup os) \/
  (a_out a = None /\ NoDup (map (default_output results) fs)) ->
  NoDup (written_paths evs).
Proof.
  intros Hm Hi H Hd. destruct (C45_matched _ _ _ _ _ _ _ _ _ _ Hm Hi H) as (_ & Hle & Hev).
  assert (Ho : forall i j f g, nth_error fs i = Some f -> nth_error fs j = Some g ->
    output_of results a i f = output_of results a j g -> i = j).
  { intros i j f g Hf Hg He. unfold output_of, value_for in He.
    assert (Li : (i < List.length fs)%nat) by (apply nth_error_Some; congruence).
    assert (Lj : (j < List.length fs)%nat) by (apply nth_error_Some; congruence).
    destruct Hd as [(os & Eo & Lo & No)|(Eo & No)]; rewrite Eo in He.
    - destruct os as [|x [|y os]].
      + unfold zlen in Lo. cbn in Lo. lia.
      + unfold zlen in Lo. cbn in Lo. lia.
      + set (l := x :: y :: os) in *.
        destruct (nth_error l i) as [p|] eqn:Ei; [|apply nth_error_None in Ei; unfold zlen in Lo; lia].
        destruct (nth_error l j) as [q|] eqn:Ej; [|apply nth_error_None in Ej; unfold zlen in Lo; lia].
        subst q. rewrite NoDup_nth_error in No. apply No; [apply nth_error_Some; congruence|congruence].
    - rewrite NoDup_nth_error in No. apply No; [rewrite map_length; exact Li|].
      rewrite !nth_error_map, Hf, Hg. cbn. congruence. }
  assert (Go : forall l k, (forall i ev, nth_error l i = Some ev -> nth_error evs (k + i) = Some ev) ->
    NoDup (written_paths l) /\ forall p, In p (written_paths l) -> exists i f, (k <= i)%nat /\ nth_error fs i = Some f /\ p = output_of results a i f).
  { induction l as [|ev l IH]; intros k Hl; [split; [constructor|intros p []]|].
    destruct (IH (S k)) as (ND & Hin).
    { intros i ev' Hi'. replace (S k + i)%nat with (k + S i)%nat by lia. apply Hl. exact Hi'. }
    pose proof (Hl 0%nat ev eq_refl) as H0. rewrite Nat.add_0_r in H0.
    destruct (Hev k ev H0) as (f & Hf & Hev0).
    assert (Cev : (exists l', ev = Wrote (output_of results a k f) l') \/ written_paths [ev] = []).
    { destruct (ends_with f ".xlsx"); [destruct Hev0 as (rows & -> & _); left; eauto|destruct Hev0 as (-> & _); right; reflexivity]. }
    assert (Esp : written_paths (ev :: l) = written_paths [ev] ++ written_paths l) by (unfold written_paths; cbn [flat_map]; now rewrite app_nil_r).
    rewrite Esp. clear Esp.
    destruct Cev as [(l' & ->)| -> ].
    - change (written_paths [Wrote (output_of results a k f) l']) with [output_of results a k f]. cbn [app]. split.
      + constructor; [|exact ND]. intros Hc. destruct (Hin _ Hc) as (i & g & Hki & Hg & Heq).
        pose proof (Ho _ _ _ _ Hf Hg Heq). lia.
      + intros p [<-|Hp]; [exists k, f; repeat split; [lia|exact Hf]|].
        destruct (Hin _ Hp) as (i & g & Hki & Hg & ->). exists i, g. repeat split; [lia|exact Hg].
    - cbn [app]. split; [exact ND|]. intros p Hp. destruct (Hin _ Hp) as (i & g & Hki & Hg & ->). exists i, g. repeat split; [lia|exact Hg]. }
  apply (Go evs 0%nat). trivial.
Qed.

(** one -o for two inputs, and no -o for two files of one name: the second run overwrites the
    results of the first *)
Theorem C45_one_output_refuted : exists a fs evs p l1 l2, a_in a = Some fs /\ NoDup fs /\ ~ month_mode small_disk a /\
  may (main 3 exact_fm true nobody small_disk "results" a) (Ok (evs, None)) /\ evs = [Wrote p l1; Wrote p l2].
Proof.
  set (a := Args (Some ["a/shop.xlsx"; "b/shop.xlsx"]) (Some ["out.csv"]) (Some [1]) None None None "xlsx").
  assert (Hm : ~ month_mode small_disk a) by (intros (y & f & fs & H & _); discriminate).
  destruct (middle_check 0 (main 3 exact_fm true nobody small_disk "results" a)
    (fun x => match x with (evs, None) => true | _ => false end)) as ([evs oe] & H & E); [vm_compute; reflexivity|].
  destruct oe; [discriminate|].
  destruct (C45_matched _ _ _ _ _ _ _ _ _ _ Hm eq_refl H) as (Hl & _ & Hev). specialize (Hl eq_refl).
  destruct evs as [|e1 [|e2 [|]]]; try discriminate Hl; [|unfold zlen in Hl; cbn in Hl; lia].
  destruct (Hev 0%nat e1 eq_refl) as (f1 & H1 & R1). injection H1 as <-. cbn [ends_with] in R1. destruct R1 as (r1 & -> & _).
  destruct (Hev 1%nat e2 eq_refl) as (f2 & H2 & R2). injection H2 as <-. destruct R2 as (r2 & -> & _).
  exists a, ["a/shop.xlsx"; "b/shop.xlsx"], [Wrote "out.csv" (List.concat r1); Wrote "out.csv" (List.concat r2)], "out.csv", (List.concat r1), (List.concat r2).
  split; [reflexivity|]. split; [repeat constructor; cbn; intuition discriminate|]. split; [exact Hm|]. split; [exact H|reflexivity].
Qed.

Theorem C45_same_name_refuted : exists a fs evs p l1 l2, a_in a = Some fs /\ NoDup fs /\ a_out a = None /\ ~ month_mode small_disk a /\
  may (main 3 exact_fm true nobody small_disk "results" a) (Ok (evs, None)) /\ evs = [Wrote p l1; Wrote p l2].
Proof.
  set (a := Args (Some ["a/shop.xlsx"; "b/shop.xlsx"]) None (Some [1]) None None None "xlsx").
  assert (Hm : ~ month_mode small_disk a) by (intros (y & f & fs & H & _); discriminate).
  destruct (middle_check 0 (main 3 exact_fm true nobody small_disk "results" a)
    (fun x => match x with (evs, None) => true | _ => false end)) as ([evs oe] & H & E); [vm_compute; reflexivity|].
  destruct oe; [discriminate|].
  destruct (C45_matched _ _ _ _ _ _ _ _ _ _ Hm eq_refl H) as (Hl & _ & Hev). specialize (Hl eq_refl).
  destruct evs as [|e1 [|e2 [|]]]; try discriminate Hl; [|unfold zlen in Hl; cbn in Hl; lia].
  destruct (Hev 0%nat e1 eq_refl) as (f1 & H1 & R1). injection H1 as <-. destruct R1 as (r1 & -> & _).
  destruct (Hev 1%nat e2 eq_refl) as (f2 & H2 & R2). injection H2 as <-. destruct R2 as (r2 & -> & _).
  exists a, ["a/shop.xlsx"; "b/shop.xlsx"], [Wrote "results/output_file_shop_xlsx.csv" (List.concat r1); Wrote "results/output_file_shop_xlsx.csv" (List.concat r2)],
    "results/output_file_shop_xlsx.csv", (List.concat r1), (List.concat r2).
  split; [reflexivity|]. split; [repeat constructor; cbn; intuition discriminate|]. split; [reflexivity|]. split; [exact Hm|]. split; [exact H|reflexivity].
Qed.

(** the default outputs differ when the names behind the last slash differ and have no dots but
    that of the extension *)
Example C45_case : NoDup (map (default_output "results") ["a/shop.xlsx"; "a/home.xlsx"; "b/mill.xlsx"]) /\
  default_output "results" "a/b.c/shop.v2.xlsx" = "results/output_file_shop_v2_xlsx.csv".
Proof. split; [repeat constructor; cbn; intuition discriminate|reflexivity]. Qed.
