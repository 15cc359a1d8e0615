(** * PropsRuns: whole simulations (C60 the days argument, C61 labelled cases, C62 longer simulations) *)
From Verif Require Import Base Wp Tape ListLemmas Utils Appliance User Spec SpecDay SpecUser ProofsUser ProofsUser2 PropsUser
  UseCase SpecUseCase ProofsUseCase ProofsRun PropsUseCase PropsInit PropsPeak Tabular PostProcess Cases PropsDay PropsCoincidence.
From Coq Require Import ZifyBool ZifyNat.
Open Scope string_scope.
Open Scope list_scope.
Open Scope Z_scope.

(** ** C62: a longer simulation begins with the shorter one *)

(** create a use case that begins on [start] (today if there is none), initialize it for [n] days, simulate *)
Definition simulate (depth : nat) (F : fm) (w : world) (us : list user) (start : option Z) (par : bool) (enl : Q)
    (seed : option Z) (enl' : option enlarge_arg) (n : Z) : prog (list (list Q)) :=
  c <- new_usecase F w us start None par enl seed ;;
  r <- initialize F w c (Some n) enl' false ;;
  match snd r with Some e => Raise e | None =>
    x <- generate_sequential depth F w (fst r) None ;; Ret (snd x) end.

(** every appliance has at least [n] power values (constant powers have 367) *)
Definition powers_for (n : Z) (us : list user) : Prop :=
  Forall (fun u => Forall (fun a => n <= zlen (power a)) (app_list u)) us.

Lemma list_set_same {A} (l : list A) k x : nth_error l k = Some x -> list_set l k x = l.
Proof.
  revert k; induction l as [|y l IH]; intros [|k] H; cbn in *; try discriminate; [congruence|].
  rewrite IH by exact H. reflexivity.
Qed.

Lemma put_get us ij a : get_app us ij = Some a -> put_app us ij a = us.
Proof.
  unfold get_app, put_app. destruct (nth_error us (fst ij)) as [u|] eqn:E; [|discriminate]. intros H.
  rewrite (list_set_same _ _ _ H). apply list_set_same. rewrite E. f_equal. destruct u; reflexivity.
Qed.

Lemma check_powers_enough us n : powers_for n us -> forall refs,
  (forall ij, In ij refs -> get_app us ij <> None) -> check_powers us refs n = (us, None).
Proof.
  intros Hp. induction refs as [|ij refs IH]; intros Hin; cbn [check_powers]; [reflexivity|].
  destruct (get_app us ij) as [a|] eqn:E; [|exfalso; apply (Hin ij); [left; reflexivity|exact E]].
  assert (Hl : n <= zlen (power a)).
  { unfold get_app in E. destruct (nth_error us (fst ij)) as [u|] eqn:Eu; [|discriminate].
    apply nth_error_In in Eu. apply nth_error_In in E. unfold powers_for in Hp. rewrite Forall_forall in Hp.
    specialize (Hp u Eu). rewrite Forall_forall in Hp. apply Hp, E. }
  unfold check_power_values. destruct (Z.ltb_spec (zlen (power a)) n); [lia|]. rewrite (put_get _ _ _ E).
  apply IH. intros x Hx. apply Hin. right. exact Hx.
Qed.

Lemma positions_valid us : forall pre ij, In ij (positions_from (List.length pre) us) -> get_app (pre ++ us) ij <> None.
Proof.
  induction us as [|u us IH]; intros pre ij H; cbn [positions_from] in H; [destruct H|].
  apply in_app_or in H as [H|H].
  - apply in_map_iff in H as (j & <- & Hj). apply in_seq in Hj. unfold get_app. cbn [fst snd].
    rewrite nth_error_app2, Nat.sub_diag by lia. cbn [nth_error]. apply nth_error_Some. lia.
  - specialize (IH (pre ++ [u]) ij). rewrite app_length, Nat.add_1_r, <- app_assoc in IH. apply IH, H.
Qed.

(** what initialize leaves behind, apart from the dates: the drawn peak time range *)
Definition draw_peak (F : fm) (us : list user) (enl : Q) (enl' : option enlarge_arg) : prog (option (Q * list Z)) :=
  let c := blank None None false enl None us in
  match enl' with
  | Some EOther => Ret None
  | Some (EFloat q) => if Qle_bool 0 q
      then r <- draw_peak_range F q (peak_window F c) ;; Ret (match r with Ok p => Some (q, p) | Err _ => None end)
      else Ret None
  | None => r <- draw_peak_range F enl (peak_window F c) ;; Ret (match r with Ok p => Some (enl, p) | Err _ => None end)
  end.

Lemma date_range_sp_list s n : 0 <= n -> date_range_sp s n = Ok (day_list s n).
Proof.
  intros H. unfold date_range_sp. destruct (Z.ltb_spec n 0); [lia|]. reflexivity.
Qed.

(** initialize on a new use case with enough power values *)
Lemma run_initialize_new (G : generator) F w us start par enl seed enl' n s :
  1 <= n -> powers_for n us ->
  let d0 := match start with Some d => d | None => today w end in
  run G (initialize F w (blank start None par enl seed us) (Some n) enl' false) s =
  match run G (draw_peak F us enl enl') s with
  | (Ok (Some (q, p)), s') =>
      (Ok (init_index (set_peak (set_enlarge (set_days (set_num_days (blank start None par enl seed us) (Some n))
        (Some (day_list d0 n))) q) (Some p)), None), s')
  | (Ok None, s') => (fst (run G (initialize F w (blank start None par enl seed us) (Some n) enl' false) s), s')
  | (Err e, s') => (Err e, s')
  end /\
  (fst (run G (draw_peak F us enl enl') s) = Ok None ->
     exists c e, fst (run G (initialize F w (blank start None par enl seed us) (Some n) enl' false) s) = Ok (c, Some e)).
Proof.
  intros Hn Hp. cbv zeta. rewrite initialize_stages.
  set (c0 := blank start None par enl seed us).
  change (is_initialized c0 && negb false) with false. cbv iota.
  assert (Hd : dates_stage w c0 (Some n) false =
    (set_days (set_num_days c0 (Some n)) (Some (day_list (match start with Some d => d | None => today w end) n)), None)).
  { unfold dates_stage. change (is_initialized c0 && false) with false. cbv iota.
    unfold init_num_days_arg. change (days c0) with (@None (list Z)). cbv iota.
    assert (E1 : init_both_dates (set_num_days c0 (Some n)) = set_num_days c0 (Some n)).
    { unfold init_both_dates. unfold c0, blank. cbn. destruct start; reflexivity. }
    rewrite E1. unfold init_prompt. change (num_days_ (set_num_days c0 (Some n))) with (Some n). cbv iota.
    unfold init_days. change (num_days_ (set_num_days c0 (Some n))) with (Some n).
    change (days (set_num_days c0 (Some n))) with (@None (list Z)).
    change (date_start (set_num_days c0 (Some n))) with start. change (date_end (set_num_days c0 (Some n))) with (@None Z).
    destruct start as [d|]; rewrite date_range_sp_list by lia; rewrite day_list_cons by lia; reflexivity. }
  rewrite Hd. set (c1 := set_days (set_num_days c0 (Some n)) _).
  unfold init_finish. change (num_days_ c1) with (Some n). change (users c1) with us.
  change (collected c1) with (positions_from 0 us).
  rewrite check_powers_enough; [|exact Hp|intros ij H; apply (positions_valid us [] ij H)].
  assert (E2 : set_users c1 us = c1) by reflexivity. rewrite E2. unfold draw_peak.
  destruct enl' as [[q|]|].
  - cbn [set_peak_enlarge]. destruct (Qle_bool 0 q).
    + unfold calc_peak_time_range. change (peak_enlarge (set_enlarge c1 q)) with q.
      change (peak_window F (set_enlarge c1 q)) with (peak_window F (blank None None false enl None us)).
      rewrite !run_bind. destruct (run_draw_peak G F q (peak_window F (blank None None false enl None us)) s) as (r & s' & -> & _).
      destruct r as [p|e]; cbn [run fst snd].
      * split; [reflexivity|discriminate].
      * split; [reflexivity|]. intros _. eauto.
    + cbn [bind run fst snd]. split; [reflexivity|eauto].
  - cbn [set_peak_enlarge bind run fst snd]. split; [reflexivity|eauto].
  - unfold calc_peak_time_range. change (peak_enlarge c1) with enl.
    change (peak_window F c1) with (peak_window F (blank None None false enl None us)).
    rewrite !run_bind. destruct (run_draw_peak G F enl (peak_window F (blank None None false enl None us)) s) as (r & s' & -> & _).
    destruct r as [p|e]; cbn [run fst snd].
    + split; [|discriminate]. reflexivity.
    + split; [reflexivity|]. intros _. eauto.
Qed.

(** the loop over the days: the rows of days not yet reached play no part *)
Lemma day_loop_longer (G : generator) depth F peak : forall ds i us rows extra s,
  0 <= i -> i + zlen ds <= zlen rows ->
  run G (day_loop depth F peak i ds us (rows ++ extra)) s =
  match run G (day_loop depth F peak i ds us rows) s with
  | (Ok (us', rows'), s') => (Ok (us', rows' ++ extra), s')
  | (Err e, s') => (Err e, s')
  end.
Proof.
  induction ds as [|d ds IH]; intros i us rows extra s Hi Hz; cbn [day_loop]; [reflexivity|].
  rewrite !run_bind. destruct (run G (day_of_users _ _ _ _ _ _ _) s) as [[[us1 l]|e] s1]; [|reflexivity].
  cbn [fst snd]. rewrite zlen_app. rewrite zlen_cons in Hz. pose proof (zlen_nonneg ds). pose proof (zlen_nonneg extra).
  destruct (Z.leb_spec (zlen rows + zlen extra) i); [lia|]. destruct (Z.leb_spec (zlen rows) i); [lia|].
  replace (list_set (rows ++ extra) (Z.to_nat i) l) with (list_set rows (Z.to_nat i) l ++ extra).
  - apply IH; [lia|]. unfold zlen. rewrite list_set_length. fold (zlen rows). unfold zlen in *. lia.
  - assert (Hk : (Z.to_nat i < List.length rows)%nat) by (unfold zlen in *; lia). revert Hk. generalize (Z.to_nat i) as k.
    clear. induction rows as [|r rows IH]; intros [|k] Hk; cbn in *; try lia; [reflexivity|]. rewrite IH by lia. reflexivity.
Qed.

Lemma day_loop_app (G : generator) depth F peak : forall ds more i us rows s,
  run G (day_loop depth F peak i (ds ++ more) us rows) s =
  match run G (day_loop depth F peak i ds us rows) s with
  | (Ok (us', rows'), s') => run G (day_loop depth F peak (i + zlen ds) more us' rows') s'
  | (Err e, s') => (Err e, s')
  end.
Proof.
  induction ds as [|d ds IH]; intros more i us rows s.
  - cbn [app day_loop run]. rewrite zlen_nil. replace (i + 0) with i by lia. reflexivity.
  - cbn [app day_loop]. rewrite !run_bind. destruct (run G (day_of_users _ _ _ _ _ _ _) s) as [[[us1 l]|e] s1]; [|reflexivity].
    cbn [fst snd]. destruct (zlen rows <=? i); [reflexivity|]. rewrite IH, zlen_cons.
    replace (i + (zlen ds + 1)) with (i + 1 + zlen ds) by lia. reflexivity.
Qed.

Lemma day_loop_keeps (G : generator) depth F peak : forall ds i us rows s us' rows' s',
  0 <= i -> run G (day_loop depth F peak i ds us rows) s = (Ok (us', rows'), s') ->
  firstn (Z.to_nat i) rows' = firstn (Z.to_nat i) rows.
Proof.
  induction ds as [|d ds IH]; intros i us rows s us' rows' s' Hi H; cbn [day_loop] in H.
  - cbn [run] in H. congruence.
  - rewrite run_bind in H. destruct (run G (day_of_users _ _ _ _ _ _ _) s) as [[[us1 l]|e] s1]; [|discriminate].
    cbn [fst snd] in H. destruct (Z.leb_spec (zlen rows) i) as [|Hlt]; [cbn [run] in H; discriminate|].
    apply IH in H; [|lia].
    assert (Hk : (Z.to_nat i < List.length rows)%nat) by (unfold zlen in *; lia).
    assert (E : firstn (Z.to_nat i) (list_set rows (Z.to_nat i) l) = firstn (Z.to_nat i) rows).
    { revert Hk. generalize (Z.to_nat i) as k. clear. induction rows as [|r rows IH]; intros [|k] Hk; cbn in *; try lia; [reflexivity|].
      rewrite IH by lia. reflexivity. }
    assert (T : forall x : list (list Q), firstn (Z.to_nat i) x = firstn (Z.to_nat i) (firstn (Z.to_nat (i + 1)) x)).
    { intros x. rewrite firstn_firstn. f_equal. lia. }
    rewrite T, H, <- T. exact E.
Qed.

Lemma day_list_app s n m : 0 <= n <= m -> day_list s m = day_list s n ++ map (fun k => s + 1440 * k) (arange n m).
Proof. intros H. unfold day_list. rewrite <- map_app. f_equal. apply arange_app; lia. Qed.

Lemma generate_set_up_run (G : generator) depth F w c n ds s :
  0 <= n -> num_days_ c = Some n -> days c = Some ds ->
  run G (x <- generate_sequential depth F w c None ;; Ret (snd x)) s =
  match run G (day_loop depth F (peak_of c) 0 ds (users c) (repeat (zeros day_minutes) (Z.to_nat n))) s with
  | (Ok (_, rows), s') => (Ok rows, s')
  | (Err e, s') => (Err e, s')
  end.
Proof.
  intros Hn Hnd Hd. unfold generate_sequential, choose_days. rewrite Hd. cbn [lift bind]. unfold num_days. rewrite Hnd.
  cbn [bind fst snd]. destruct (Z.ltb_spec n 0); [lia|]. rewrite Hd, run_bind, run_bind. unfold peak_of.
  destruct (run G (day_loop _ _ _ _ _ _ _) s) as [[[us' rows]|e] s']; reflexivity.
Qed.

Lemma init_index_users c : users (init_index c) = users c /\ peak_time_range (init_index c) = peak_time_range c.
Proof. unfold init_index. destruct (days c) as [[|]|]; split; reflexivity. Qed.

(** From the same state of the generator (in particular with the same seed), if the simulation of [m] days succeeds
    then so does the simulation of [n <= m] days, and it gives the first [n] days of the longer one.  Hypothesis: power
    values for [m] days (so that none is extended). *)
Theorem C62_longer_simulation (G : generator) depth F w us start par enl seed enl' n m s rows s' :
  1 <= n <= m -> powers_for m us ->
  run G (simulate depth F w us start par enl seed enl' m) s = (Ok rows, s') ->
  exists s1, run G (simulate depth F w us start par enl seed enl' n) s = (Ok (firstn (Z.to_nat n) rows), s1).
Proof.
  intros Hnm Hp H.
  assert (Hpn : powers_for n us).
  { unfold powers_for in *. eapply Forall_impl; [|exact Hp]. intros u Hu. eapply Forall_impl; [|exact Hu]. cbn. intros; lia. }
  unfold simulate in *. rewrite run_bind in *.
  assert (HN : exists s0, run G (new_usecase F w us start None par enl seed) s = (Ok (blank start None par enl seed us), s0)).
  { unfold new_usecase. cbv zeta. destruct start; cbn [bind]; destruct (seed_of seed); cbn [run]; eauto. }
  destruct HN as (s0 & HN). rewrite HN in *. rewrite run_bind in *.
  destruct (run_initialize_new G F w us start par enl seed enl' m s0 ltac:(lia) Hp) as [Em Em'].
  destruct (run_initialize_new G F w us start par enl seed enl' n s0 ltac:(lia) Hpn) as [En _].
  destruct (run G (draw_peak F us enl enl') s0) as [[[[q p]|]|e] s2].
  - rewrite Em in H. rewrite En. clear Em En Em'.
    set (d0 := match start with Some d => d | None => today w end) in *.
    set (cm := set_peak (set_enlarge (set_days (set_num_days (blank start None par enl seed us) (Some m)) (Some (day_list d0 m))) q) (Some p)) in *.
    set (cn := set_peak (set_enlarge (set_days (set_num_days (blank start None par enl seed us) (Some n)) (Some (day_list d0 n))) q) (Some p)).
    cbn [fst snd] in *.
    destruct (init_index_users cm) as [U1 U2]. destruct (init_index_users cn) as [V1 V2].
    destruct (init_index_days cm) as [D1 D2]. destruct (init_index_days cn) as [D3 D4].
    rewrite (generate_set_up_run G depth F w (init_index cm) m (day_list d0 m)) in H; [|lia|exact D2|exact D1].
    rewrite (generate_set_up_run G depth F w (init_index cn) n (day_list d0 n)); [|lia|exact D4|exact D3].
    unfold peak_of in *. rewrite U1, U2 in H. rewrite V1, V2. clearbody d0.
    change (peak_time_range cm) with (Some p) in H. change (peak_time_range cn) with (Some p).
    change (users cm) with us in H. change (users cn) with us.
    rewrite (day_list_app d0 n m) in H by lia. rewrite day_loop_app in H.
    replace (repeat (zeros day_minutes) (Z.to_nat m))
      with (repeat (zeros day_minutes) (Z.to_nat n) ++ repeat (zeros day_minutes) (Z.to_nat (m - n))) in H
      by (rewrite <- repeat_app; f_equal; lia).
    rewrite day_loop_longer in H by (rewrite ?zlen_day_list, ?zlen_repeat; lia).
    destruct (run G (day_loop depth F p 0 (day_list d0 n) us (repeat (zeros day_minutes) (Z.to_nat n))) s2)
      as [[[us1 rows1]|e] s3] eqn:E1; [|discriminate].
    assert (L1 : zlen rows1 = n).
    { assert (LL : forall ds i us rows s us' rows' s', run G (day_loop depth F p i ds us rows) s = (Ok (us', rows'), s') ->
        List.length rows' = List.length rows).
      { clear. induction ds as [|d ds IH]; intros i us rows s us' rows' s' H; cbn [day_loop] in H; [cbn [run] in H; congruence|].
        rewrite run_bind in H. destruct (run G (day_of_users _ _ _ _ _ _ _) s) as [[[us1 l]|e] s1]; [|discriminate].
        cbn [fst snd] in H. destruct (zlen rows <=? i); [discriminate|]. apply IH in H. rewrite H. apply list_set_length. }
      apply LL in E1. unfold zlen. rewrite E1, repeat_length. lia. }
    destruct (run G (day_loop depth F p _ _ us1 _) s3) as [[[us2 rows2]|e] s4] eqn:E2; [|discriminate].
    injection H as <- <-. apply day_loop_keeps in E2; [|rewrite zlen_day_list; lia].
    rewrite zlen_day_list in E2. replace (Z.to_nat (0 + Z.max 0 n)) with (Z.to_nat n) in E2 by lia.
    rewrite firstn_app, (firstn_all2 rows1) in E2 by (unfold zlen in L1; lia).
    replace (Z.to_nat n - List.length rows1)%nat with O in E2 by (unfold zlen in L1; lia). rewrite firstn_O, app_nil_r in E2.
    rewrite E2. eauto.
  - exfalso. destruct (Em' eq_refl) as (c & e & Hc). rewrite Em in H. rewrite Hc in H. cbn [snd] in H. discriminate.
  - rewrite Em in H. discriminate.
Qed.

(** two days, of which the first is the simulation of one day *)
Definition holiday_home : user := User "household" 2 3 0 [] [windowed still_demo; windowed (set_power special [7%Q; 8%Q])].

Example C62_case : powers_for 2 [holiday_home] /\
  exists rows s', run zero_gen (simulate 5 exact_fm nobody [holiday_home] (Some 1051200000) false (15 # 100) None None 2) tt = (Ok rows, s') /\
    (0 < value_at (nth 0 rows []) 500)%Q.
Proof.
  split; [repeat constructor; vm_compute; discriminate|].
  assert (E : match run zero_gen (simulate 5 exact_fm nobody [holiday_home] (Some 1051200000) false (15 # 100) None None 2) tt with
              | (Ok rows, _) => Qltb 0 (value_at (nth 0 rows []) 500) | _ => false end = true) by (vm_compute; reflexivity).
  destruct (run zero_gen _ tt) as [[rows|e] s']; [|discriminate]. exists rows, s'. split; [reflexivity|].
  apply Qltb_lt. exact E.
Qed.

(** ** C61: labelled cases *)

(** what generate_daily_load_profiles can return for a use case set up for [n] days from [s]: one row per day *)
Definition possible_rows (depth : nat) (F : fm) (us : list user) (peak : list Z) (s n : Z) (rows : list (list Q)) : Prop :=
  zlen rows = n /\ forall k, 0 <= k < n -> row_of_day depth F us peak k (s + 1440 * k) (nth (Z.to_nat k) rows []).

Lemma possible_rows_same depth F us vs peak s n rows :
  Forall2 same_user us vs -> possible_rows depth F us peak s n rows -> possible_rows depth F vs peak s n rows.
Proof. intros Hs [Hz H]. split; [exact Hz|]. intros k Hk. eapply row_of_day_same; [exact Hs|]. apply H, Hk. Qed.

Lemma col_set_names cols k v : map fst (col_set cols k v) = if existsb (String.eqb k) (map fst cols) then map fst cols else map fst cols ++ [k].
Proof.
  induction cols as [|[x y] cols IH]; cbn [col_set map fst existsb app]; [reflexivity|].
  rewrite String.eqb_sym. destruct (String.eqb_spec k x) as [->|Hne]; cbn [orb map fst]; [reflexivity|].
  rewrite IH. destruct (existsb _ _); reflexivity.
Qed.

Lemma existsb_str k l : existsb (String.eqb k) l = true <-> In k l.
Proof.
  rewrite existsb_exists. split.
  - intros (x & Hx & E). apply String.eqb_eq in E. congruence.
  - intros H. exists k. split; [exact H|]. apply String.eqb_refl.
Qed.

Lemma col_set_in cols k v n x : In (n, x) (col_set cols k v) -> (n = k /\ x = v) \/ In (n, x) cols.
Proof.
  induction cols as [|[a b] cols IH]; cbn [col_set].
  - intros [H|[]]. left. split; congruence.
  - destruct (String.eqb_spec a k) as [->|Hne].
    + intros [H|H]; [left; split; congruence|right; right; exact H].
    + intros [H|H]; [right; left; exact H|]. destruct (IH H) as [H'|H']; [left; exact H'|right; right; exact H'].
Qed.

Lemma app_nodup_one (l : list string) k : NoDup l -> ~ In k l -> NoDup (l ++ [k]).
Proof.
  induction 1 as [|x l Hx Hl IH]; intros Hk; cbn; [constructor; [intros []|constructor]|].
  constructor.
  - intros H. apply in_app_or in H as [H|[H|[]]]; [contradiction|]. subst. apply Hk. left. reflexivity.
  - apply IH. intros H. apply Hk. right. exact H.
Qed.

Definition case_name (l : string) : string := "case " ++ l.

Lemma run_cases_may depth F w arg s n : forall cases c acc c' cols,
  set_up c s n -> may (run_cases depth F w c arg cases acc) (Ok (c', cols)) ->
  NoDup (map fst acc) ->
  set_up c' s n /\ (exists us', c' = set_users c us' /\ Forall2 same_user (users c) us') /\
  NoDup (map fst cols) /\
  (forall m, In m (map fst cols) <-> In m (map fst acc) \/ In m (map case_name cases)) /\
  (forall m v, In (m, v) cols -> In (m, v) acc \/
     exists rows, possible_rows depth F (users c) (peak_of c) s n rows /\ v = List.concat rows) /\
  (NoDup (map case_name cases) -> (forall m, In m (map case_name cases) -> ~ In m (map fst acc)) ->
     exists new, cols = acc ++ new /\ map fst new = map case_name cases).
Proof.
  induction cases as [|l cases IH]; intros c acc c' cols Hu H Hnd; cbn [run_cases] in H.
  - apply may_ret_inv in H. injection H as -> ->. split; [exact Hu|]. split.
    + exists (users c). split; [destruct c; reflexivity|]. apply Forall2_refl, same_user_refl.
    + split; [exact Hnd|]. split; [intros m; cbn [map In]; tauto|]. split; [auto|]. intros _ _. exists []. rewrite app_nil_r. auto.
  - apply may_bind in H as [([c1 rows] & H1 & H)|(e & _ & H)]; [|discriminate].
    destruct (generate_sequential_set_up _ _ _ _ _ _ _ _ _ Hu H1) as (Hz & (us1 & -> & Hs1) & Hrow).
    cbn [fst snd] in H. unfold datetimeindex in H.
    destruct Hu as (Hn1 & Hn & Hds & (ix & Hix & Hixn)).
    assert (Hu1 : set_up (set_users c us1) s n) by (split; [exact Hn1|split; [exact Hn|split; [exact Hds|eauto]]]).
    assert (Hx : datetimeindex_ (set_users c us1) = Some ix) by exact Hix. rewrite Hx in H. cbn [bind fst snd] in H.
    destruct (negb (zlen ix =? zlen (flatten rows))); [apply may_raise_inv in H; discriminate|].
    change (String.append "case " l) with (case_name l) in H.
    assert (Hnd1 : NoDup (map fst (col_set acc (case_name l) (flatten rows)))).
    { rewrite col_set_names. destruct (existsb _ _) eqn:E; [exact Hnd|]. apply app_nodup_one; [exact Hnd|].
      intros Hin. apply existsb_str in Hin. congruence. }
    destruct (IH _ _ _ _ Hu1 H Hnd1) as (Hu' & (us2 & -> & Hs2) & Hndc & Hnames & Hvals & Hord).
    assert (Hp : possible_rows depth F (users c) (peak_of c) s n rows) by (split; assumption).
    split; [exact Hu'|]. split; [|split; [exact Hndc|split; [|split]]].
    + exists us2. split; [reflexivity|]. eapply Forall2_same_user_trans; [exact Hs1|exact Hs2].
    + intros m. rewrite Hnames, col_set_names. cbn [map In]. destruct (existsb _ _) eqn:E.
      * apply existsb_str in E. split; [tauto|]. intros [Hm|[<-|Hm]]; auto.
      * rewrite in_app_iff. cbn [In]. tauto.
    + intros m v Hin. apply Hvals in Hin as [Hin|(rows' & Hp' & ->)].
      * apply col_set_in in Hin as [[-> ->]|Hin]; [right; exists rows; split; [exact Hp|reflexivity]|left; exact Hin].
      * right. exists rows'. split; [|reflexivity]. eapply possible_rows_same; [|exact Hp'].
        apply Forall2_sym with (R := same_user); [apply same_user_sym|exact Hs1].
    + intros Hnl Hfresh. cbn [map] in Hnl. inversion Hnl as [|? ? Hl Hnl']; subst.
      assert (Hset : col_set acc (case_name l) (flatten rows) = acc ++ [(case_name l, flatten rows)]).
      { assert (Hk : ~ In (case_name l) (map fst acc)) by (apply Hfresh; left; reflexivity). clear -Hk.
        induction acc as [|[a b] acc IHa]; cbn [col_set app]; [reflexivity|]. cbn [map fst In] in Hk.
        destruct (String.eqb_spec a (case_name l)); [exfalso; apply Hk; left; assumption|]. rewrite IHa; [reflexivity|tauto]. }
      destruct Hord as (new & -> & Hnew).
      * exact Hnl'.
      * intros m Hm. rewrite Hset, map_app, in_app_iff. cbn [map fst In]. intros [Hm'|[<-|[]]].
        -- apply (Hfresh m); [right; exact Hm|exact Hm'].
        -- contradiction.
      * rewrite Hset, <- app_assoc. exists ((case_name l, flatten rows) :: new). cbn [app map fst]. split; [reflexivity|].
        rewrite Hnew. reflexivity.
Qed.

(** The result has the datetimeindex of the use case, one column "case <label>" per distinct label (in the order given
    when the labels are distinct), and each column is a profile generate_daily_load_profiles can return *)
Theorem C61_cases depth F w c arg cases s n c' f :
  set_up c s n -> may (generate_cases depth F w c arg cases) (Ok (c', f)) ->
  datetimeindex_ c = Some (f_index f) /\
  NoDup (map fst (f_cols f)) /\
  (forall m, In m (map fst (f_cols f)) <-> exists l, In l cases /\ m = ("case " ++ l)%string) /\
  (NoDup cases -> map fst (f_cols f) = map (fun l => ("case " ++ l)%string) cases) /\
  (forall m v, In (m, v) (f_cols f) ->
     zlen v = 1440 * n /\ exists rows, possible_rows depth F (users c) (peak_of c) s n rows /\ v = List.concat rows) /\
  Forall2 same_user (users c) (users c').
Proof.
  intros Hu H. unfold generate_cases in H. apply may_bind in H as [([c1 cols] & H1 & H)|(e & _ & H)]; [|discriminate].
  destruct (run_cases_may _ _ _ _ _ _ _ _ _ _ _ Hu H1) as (Hu1 & (us' & -> & Hs) & Hnd & Hnames & Hvals & Hord); [constructor|].
  cbn [fst snd] in H. destruct cols as [|col0 cols]; [apply may_raise_inv in H; discriminate|].
  destruct Hu as (Hn1 & Hn & Hds & (ix & Hix & Hixn)). unfold datetimeindex in H.
  assert (Hx : datetimeindex_ (set_users c us') = Some ix) by exact Hix. rewrite Hx in H. cbn [bind fst snd] in H.
  apply may_ret_inv in H. injection H as -> ->. cbn [f_index f_cols]. split; [exact Hix|]. split; [exact Hnd|]. split; [|split; [|split; [|exact Hs]]].
  - intros m. rewrite Hnames. cbn [map In]. rewrite in_map_iff. split.
    + intros [[]|(l & <- & Hl)]. exists l. auto.
    + intros (l & Hl & ->). right. exists l. auto.
  - intros Hc. destruct Hord as (new & -> & Hnew).
    + clear -Hc. induction Hc as [|x l Hx Hl IH]; cbn [map]; constructor; [|exact IH]. intros H. apply Hx.
      apply in_map_iff in H as (y & E & Hy). unfold case_name in E. inversion E. congruence.
    + intros m _ [].
    + exact Hnew.
  - intros m v Hin. destruct (Hvals m v Hin) as [[]|(rows & Hp & ->)]. split; [|eauto].
    destruct Hp as [Hz Hrow]. rewrite concat_len; [rewrite Hz; reflexivity|].
    apply Forall_forall. intros row Hin'. apply In_nth_error in Hin' as (k & Hk).
    assert (Hlt : (k < List.length rows)%nat) by (apply nth_error_Some; congruence).
    specialize (Hrow (Z.of_nat k)). rewrite Nat2Z.id, (nth_error_nth _ _ [] Hk) in Hrow. unfold zlen.
    rewrite (row_of_day_len _ _ _ _ _ _ _ (Hrow ltac:(unfold zlen in Hz; lia))). reflexivity.
Qed.

(** conversely the cases are independent: any profile is possible for each of them *)
Theorem C61_independent_cases depth F w c arg s n cols :
  set_up c s n -> cols <> [] -> NoDup (map fst cols) ->
  Forall (fun lr => possible_rows depth F (users c) (peak_of c) s n (snd lr)) cols ->
  exists c' f, may (generate_cases depth F w c arg (map fst cols)) (Ok (c', f)) /\
    f_cols f = map (fun lr => (("case " ++ fst lr)%string, List.concat (snd lr))) cols.
Proof.
  intros Hu Hne Hnd Hp.
  assert (G : forall cols c acc, set_up c s n ->
    Forall (fun lr => possible_rows depth F (users c) (peak_of c) s n (snd lr)) cols -> NoDup (map fst cols) ->
    (forall l, In l (map fst cols) -> ~ In (case_name l) (map fst acc)) ->
    exists c', set_up c' s n /\ may (run_cases depth F w c arg (map fst cols) acc)
      (Ok (c', acc ++ map (fun lr => (case_name (fst lr), List.concat (snd lr))) cols))).
  { clear. induction cols as [|[l rows] cols IH]; intros c acc Hu Hp Hnd Hfr; cbn [map fst snd run_cases].
    - exists c. split; [exact Hu|]. rewrite app_nil_r. constructor.
    - inversion Hp as [|? ? Hr Hp']; subst. cbn [snd] in Hr. inversion Hnd as [|? ? Hl Hnd']; subst.
      destruct (C28_any_loads depth F w c arg s n rows Hu (proj1 Hr)) as (c1 & H1).
      { intros k Hk. destruct (proj2 Hr k Hk) as (dt & loads & A & B & C). eauto. }
      destruct (generate_sequential_set_up _ _ _ _ _ _ _ _ _ Hu H1) as (Hz & (us1 & -> & Hs1) & _).
      destruct (C27_flat _ _ _ _ _ _ _ _ _ Hu H1) as (ix & Hix & Hl1 & _ & _).
      assert (Hu1 : set_up (set_users c us1) s n) by (destruct Hu as (A & B & C & D); split; [exact A|split; [exact B|split; [exact C|exact D]]]).
      assert (Hset : col_set acc (case_name l) (flatten rows) = acc ++ [(case_name l, flatten rows)]).
      { assert (Hk : ~ In (case_name l) (map fst acc)) by (apply Hfr; left; reflexivity). clear -Hk.
        induction acc as [|[a b] acc IHa]; cbn [col_set app]; [reflexivity|]. cbn [map fst In] in Hk.
        destruct (String.eqb_spec a (case_name l)); [exfalso; apply Hk; left; assumption|]. rewrite IHa; [reflexivity|tauto]. }
      destruct (IH (set_users c us1) (acc ++ [(case_name l, flatten rows)]) Hu1) as (c' & Hu' & H').
      + eapply Forall_impl; [|exact Hp']. intros [l' r'] Hr'. cbn [snd] in *. eapply possible_rows_same; [exact Hs1|exact Hr'].
      + exact Hnd'.
      + intros m Hm. rewrite map_app, in_app_iff. cbn [map fst In]. intros [H|[H|[]]].
        * apply (Hfr m); [right; exact Hm|exact H].
        * unfold case_name in H. inversion H. subst. contradiction.
      + exists c'. split; [exact Hu'|]. apply may_bind. left. eexists. split; [exact H1|]. cbn [fst snd].
        unfold datetimeindex. rewrite Hix. cbn [bind fst snd]. destruct (Z.eqb_spec (zlen ix) (zlen (flatten rows))); [|lia].
        cbn [negb]. change (String.append "case " l) with (case_name l). rewrite Hset. rewrite <- app_assoc in H'. exact H'. }
  destruct (G cols c [] Hu Hp Hnd) as (c' & Hu' & H'); [intros l _ []|].
  destruct Hu' as (_ & _ & _ & (ix & Hix & _)). cbn [app] in H'.
  exists c', (Frame ix (map (fun lr => (case_name (fst lr), List.concat (snd lr))) cols)). split; [|reflexivity].
  unfold generate_cases. apply may_bind. left. eexists. split; [exact H'|]. cbn [fst snd].
  destruct cols as [|x cols]; [congruence|]. cbn [map]. unfold datetimeindex. rewrite Hix. constructor.
Qed.

Example C61_case : exists c s n c' f, set_up c s n /\
  may (generate_cases 3 exact_fm nobody c None ["A"; "B"]) (Ok (c', f)) /\
  map fst (f_cols f) = ["case A"; "case B"] /\ Forall (fun mv => (value_at (snd mv) (1440 + 500) == 207)%Q) (f_cols f).
Proof.
  destruct C27_case as (_ & c' & c'' & rows & s & n & H1 & Hu & H2 & Hv).
  destruct (generate_sequential_set_up _ _ _ _ _ _ _ _ _ Hu H2) as (Hz & _ & Hrow).
  destruct (C61_independent_cases 3 exact_fm nobody c' None s n [("A", rows); ("B", rows)] Hu) as (c3 & f & H3 & Hf).
  - discriminate.
  - repeat constructor; cbn; intuition discriminate.
  - repeat constructor; assumption.
  - exists c', s, n, c3, f. split; [exact Hu|]. split; [exact H3|]. rewrite Hf. split; [reflexivity|].
    repeat constructor; exact Hv.
Qed.

(** ** C60: the days argument of generate_daily_load_profiles *)

(** full statement: the result has one row per day asked for, and row k is a load of the users on that date *)
Definition days_asked_for (depth : nat) (F : fm) (us : list user) (peak : list Z) (ds : list Z) (rows : list (list Q)) : Prop :=
  zlen rows = zlen ds /\
  forall k d, nth_error ds k = Some d -> row_of_day depth F us peak (Z.of_nat k) d (nth k rows []).

(** An initialized use case ignores the argument: the call is the call without it *)
Theorem C60_ignored depth F w c s n ds :
  set_up c s n -> generate_sequential depth F w c (Some ds) = generate_sequential depth F w c None.
Proof. intros (_ & _ & (ds' & Hd & _) & _). unfold generate_sequential, choose_days. rewrite Hd. reflexivity. Qed.

(** so asking two days of an initialized use case for one day gives two rows *)
Theorem C60_days_argument_refuted : exists c s n ds c' rows,
  set_up c s n /\ may (generate_sequential 3 exact_fm nobody c (Some ds)) (Ok (c', rows)) /\
  zlen rows <> zlen ds /\
  forall depth F w r, may (generate_sequential depth F w c (Some ds)) (Ok r) -> zlen (snd r) <> zlen ds.
Proof.
  destruct C27_case as (_ & c' & c'' & rows & s & n & H1 & Hu & H2 & Hv).
  assert (G : forall depth F w r, may (generate_sequential depth F w c' (Some (repeat 1051200000 (Z.to_nat (n + 1))))) (Ok r) ->
    zlen (snd r) <> zlen (repeat 1051200000 (Z.to_nat (n + 1)))).
  { intros depth F w [c3 rows3] H3. destruct (C27_rows _ _ _ _ _ _ _ _ _ Hu H3) as (Hz & _). cbn [snd]. rewrite Hz, zlen_repeat.
    destruct Hu as (Hn & _). lia. }
  exists c', s, n, (repeat 1051200000 (Z.to_nat (n + 1))), c'', rows. split; [exact Hu|].
  rewrite <- (C60_ignored _ _ _ _ _ _ (repeat 1051200000 (Z.to_nat (n + 1))) Hu) in H2.
  split; [exact H2|]. split; [exact (G _ _ _ _ H2)|exact G].
Qed.

(** Part that holds: on a use case without dates that was never initialized, if the number of days typed at the prompt is
    the number of days asked for, these days are simulated. *)
Theorem C60_days_argument_partial depth F w par enl seed us ds c' rows :
  typed w = Ok (zlen ds) -> powers_for (zlen ds) us ->
  may (generate_sequential depth F w (blank None None par enl seed us) (Some ds)) (Ok (c', rows)) ->
  days_asked_for depth F us (peak_of c') ds rows /\ days c' = Some ds.
Proof.
  intros Ht Hp H. set (c0 := blank None None par enl seed us) in *. unfold generate_sequential in H.
  unfold choose_days in H. change (days c0) with (@None (list Z)) in H. cbn [lift bind] in H.
  apply may_bind in H as [([c1 n] & H1 & H)|(e & _ & H)]; [|discriminate]. cbn [fst snd] in H.
  unfold num_days in H1. change (num_days_ (set_days c0 (Some ds))) with (@None Z) in H1.
  apply may_bind in H1 as [([c2 [e|]] & H2 & H1)|(e & _ & H1)]; [apply may_raise_inv in H1; discriminate| |discriminate].
  cbn [fst snd] in H1. destruct (num_days_ c2) as [n2|] eqn:En2; [|apply may_raise_inv in H1; discriminate].
  apply may_ret_inv in H1. injection H1 as -> ->.
  assert (E : users c2 = us /\ days c2 = Some ds /\ n2 = zlen ds /\ ds <> []).
  { rewrite initialize_stages in H2. change (is_initialized (set_days c0 (Some ds)) && negb false) with false in H2. cbv iota in H2.
    assert (Hd : dates_stage w (set_days c0 (Some ds)) None false =
      (set_days (set_num_days (set_days c0 (Some ds)) (Some (zlen ds))) (Some ds), match ds with [] => Some IndexError | _ => None end)).
    { unfold dates_stage. change (is_initialized (set_days c0 (Some ds)) && false) with false. cbv iota. cbn [init_num_days_arg].
      change (init_both_dates (set_days c0 (Some ds))) with (set_days c0 (Some ds)). unfold init_prompt.
      change (num_days_ (set_days c0 (Some ds))) with (@None Z). rewrite Ht. reflexivity. }
    rewrite Hd in H2. destruct ds as [|d0 ds]; [apply may_ret_inv in H2; discriminate|].
    set (c3 := set_days (set_num_days (set_days c0 (Some (d0 :: ds))) (Some (zlen (d0 :: ds)))) (Some (d0 :: ds))) in *.
    unfold init_finish in H2. change (num_days_ c3) with (Some (zlen (d0 :: ds))) in H2. change (users c3) with us in H2.
    change (collected c3) with (positions_from 0 us) in H2.
    rewrite check_powers_enough in H2; [|exact Hp|intros ij Hij; apply (positions_valid us [] ij Hij)].
    change (set_users c3 us) with c3 in H2. unfold calc_peak_time_range in H2.
    apply may_bind in H2 as [([c4 e4] & H3 & H2)|(e & _ & H2)]; [|discriminate].
    apply may_bind in H3 as [(r & _ & H3)|(e & _ & H3)]; [|discriminate]. apply may_ret_inv in H3.
    destruct r as [p|e]; injection H3 as -> ->; cbn [snd fst] in H2; apply may_ret_inv in H2; [|discriminate].
    injection H2 as ->. destruct (init_index_users (set_peak c3 (Some p))) as [U1 _]. destruct (init_index_days (set_peak c3 (Some p))) as [U2 U3].
    rewrite U1, U2. rewrite U3 in En2. change (num_days_ (set_peak c3 (Some p))) with (Some (zlen (d0 :: ds))) in En2.
    split; [reflexivity|]. split; [reflexivity|]. split; [congruence|discriminate]. }
  destruct E as (Eu & Ed & -> & Hne). destruct (Z.ltb_spec (zlen ds) 0); [pose proof (zlen_nonneg ds); lia|].
  rewrite Ed, Eu in H. apply may_bind in H as [([us' rows'] & H & Hr)|(e & _ & H)]; [|discriminate].
  cbn [fst snd] in Hr. apply may_ret_inv in Hr. injection Hr as -> ->.
  change (repeat (zeros day_minutes) (Z.to_nat (zlen ds))) with ([] ++ repeat (zeros day_minutes) (Z.to_nat (zlen ds))) in H.
  apply day_loop_may in H; [|reflexivity]. destruct H as (Hs & _ & new & Hnew & -> & Hrow).
  rewrite skipn_all2, app_nil_r by (rewrite repeat_length; unfold zlen; lia). cbn [app].
  split; [|exact Ed]. split; [exact Hnew|]. intros k d Hk.
  assert (Hk2 : (k < List.length new)%nat).
  { assert ((k < List.length ds)%nat) by (apply nth_error_Some; congruence). unfold zlen in Hnew. lia. }
  specialize (Hrow k d (nth k new []) Hk (nth_error_nth' _ _ Hk2)). replace (0 + Z.of_nat k) with (Z.of_nat k) in Hrow by lia.
  exact Hrow.
Qed.

Lemma run_result_may {A} (G : generator) (p : prog A) s r s' : below_pos p -> run G p s = (r, s') -> may p r.
Proof. intros Hb E. pose proof (run_may G p s Hb) as H. rewrite E in H. exact H. Qed.

(** a Saturday and a Wednesday *)
Example C60_case : exists c' rows,
  may (generate_sequential 5 exact_fm (World (Ok 2) 0) (blank None None false (15 # 100) None [holiday_home]) (Some [1051200000; 1051205760]))
    (Ok (c', rows)) /\ powers_for 2 [holiday_home] /\ (0 < value_at (nth 1 rows []) 500)%Q.
Proof.
  assert (E : match run zero_gen (generate_sequential 5 exact_fm (World (Ok 2) 0) (blank None None false (15 # 100) None [holiday_home]) (Some [1051200000; 1051205760])) tt with
              | (Ok r, _) => Qltb 0 (value_at (nth 1 (snd r) []) 500) | _ => false end = true) by (vm_compute; reflexivity).
  destruct (run zero_gen _ tt) as [[[c' rows]|e] s'] eqn:ER; [|discriminate]. exists c', rows. split; [|split].
  - exact (run_result_may zero_gen _ tt _ _ (bp_sequential _ _ _ _ _) ER).
  - repeat constructor; vm_compute; discriminate.
  - apply Qltb_lt. exact E.
Qed.
