(** * PropsUseCase: C27, C28, C31-C34, C36 *)
From Verif Require Import Base Wp ListLemmas Utils Appliance User Spec SpecUser ProofsUser ProofsUser2 PropsUser Tape
  UseCase SpecUseCase ProofsUseCase.
Open Scope list_scope.
Open Scope Z_scope.

(** ** C27 *)

Lemma set_up_same c c' s n :
  num_days_ c' = num_days_ c -> days c' = days c -> datetimeindex_ c' = datetimeindex_ c ->
  set_up c s n -> set_up c' s n.
Proof. intros H1 H2 H3. unfold set_up. rewrite H1, H2, H3. exact (fun H => H). Qed.

Lemma init_index_initialized c : peak_time_range c <> None -> num_days_ c <> None ->
  (exists d ds, days c = Some (d :: ds)) -> is_initialized (init_index c) = true.
Proof.
  intros Hp Hn (d & ds & Hd). unfold init_index, is_initialized. rewrite Hd. cbn.
  destruct (num_days_ c); [|congruence]. destruct (peak_time_range c); [reflexivity|congruence].
Qed.

Definition ready (c : usecase) : Prop :=
  not_set_up c \/ (is_initialized c = true /\ exists s n, set_up c s n).

Lemma initialize_ready F w c nd enl force c' :
  ready c -> may (initialize F w c nd enl force) (Ok (c', None)) ->
  is_initialized c' = true /\ exists s n, set_up c' s n.
Proof.
  intros Hr H. rewrite initialize_stages in H.
  destruct (is_initialized c && negb force) eqn:Hf.
  - apply may_ret_inv in H. injection H as ->. apply andb_prop in Hf. destruct Hf as [Hi _].
    destruct Hr as [[_ Hx]|Hr]; [|exact Hr]. unfold is_initialized in Hi. rewrite Hx in Hi.
    destruct (num_days_ c); discriminate.
  - destruct (dates_stage w c nd force) as [c1 [e|]] eqn:E; [apply may_ret_inv in H; discriminate|].
    assert (Hc : days c = None \/ is_initialized c = true) by (destruct Hr as [[Hd _]|[Hi _]]; auto).
    destruct (dates_stage_ok w c nd force c1 Hc Hf E) as (s & n & H1 & Hn & Hd).
    destruct (init_finish_ok F c1 enl c' n Hn H) as (_ & p & q & ->).
    split.
    + apply init_index_initialized; cbn; [discriminate|rewrite Hn; discriminate|].
      rewrite Hd, day_list_cons by lia. eauto.
    + exists s, n. apply init_index_set_up; assumption.
Qed.

Lemma generate_sequential_set_up depth F w c arg s n c' rows :
  set_up c s n -> may (generate_sequential depth F w c arg) (Ok (c', rows)) ->
  zlen rows = n /\ (exists us', c' = set_users c us' /\ Forall2 same_user (users c) us') /\
  forall k, 0 <= k < n -> row_of_day depth F (users c) (peak_of c) k (s + 1440 * k) (nth (Z.to_nat k) rows []).
Proof.
  intros (H1 & Hn & (ds & Hd & Hds) & _) H. unfold generate_sequential in H.
  assert (Hch : choose_days c arg = Ok c) by (unfold choose_days; rewrite Hd; reflexivity).
  rewrite Hch in H. cbn [lift bind] in H. unfold num_days in H. rewrite Hn in H. cbn [bind fst snd] in H.
  destruct (Z.ltb_spec n 0); [lia|]. rewrite Hd in H. destruct Hds as [Hlen Hnth].
  apply may_bind in H as [([us' rows'] & H & Hr)|(e & _ & H)]; [|discriminate].
  cbn [fst snd] in Hr. apply may_ret_inv in Hr. injection Hr as -> ->.
  change (repeat (zeros day_minutes) (Z.to_nat n)) with ([] ++ repeat (zeros day_minutes) (Z.to_nat n)) in H.
  apply day_loop_may in H; [|reflexivity]. destruct H as (Hs & _ & new & Hnew & -> & Hrow).
  rewrite skipn_all2, app_nil_r by (rewrite repeat_length; unfold zlen in Hlen; lia). cbn [app].
  split; [lia|]. split; [eauto|]. intros k Hk.
  assert (Hk1 : (Z.to_nat k < List.length ds)%nat) by (unfold zlen in Hlen; lia).
  assert (Hk2 : (Z.to_nat k < List.length new)%nat) by (unfold zlen in Hlen, Hnew; lia).
  specialize (Hrow (Z.to_nat k) (s + 1440 * k) (nth (Z.to_nat k) new [])).
  rewrite Z2Nat.id in Hrow by lia. apply Hrow.
  - rewrite <- (Hnth k Hk). apply nth_error_nth'. exact Hk1.
  - apply nth_error_nth'. exact Hk2.
Qed.

Lemma ready_call c c' : ready c -> call c c' -> ready c'.
Proof.
  intros Hr H. destruct H as [c u|c x|c x|c|F w c nd enl force c' H|F c x c' H|F w c c' n H|depth F w c c' rows H];
    try (destruct Hr as [Hr|[Hi (s & n & Hr)]]; [left; exact Hr|right; split; [exact Hi|exists s, n; exact Hr]]; fail).
  - right. eapply initialize_ready; eassumption.
  - apply set_peak_enlarge_ok in H. destruct H as (p & Hc). rewrite Hc. destruct Hr as [Hr|[Hi (s & n & Hr)]].
    + left. exact Hr.
    + right. split; [|exists s, n; exact Hr]. unfold is_initialized in *. cbn in *.
      destruct (num_days_ c); [|discriminate]. destruct (datetimeindex_ c); [reflexivity|discriminate].
  - unfold num_days in H. destruct (num_days_ c) as [m|] eqn:Hm.
    + apply may_ret_inv in H. injection H as -> _. exact Hr.
    + apply may_bind in H as [([c1 e] & H & Hx)|(e & _ & H)]; [|discriminate]. cbn [fst snd] in Hx.
      destruct e as [e|]; [apply may_raise_inv in Hx; discriminate|].
      destruct (num_days_ c1); [|apply may_raise_inv in Hx; discriminate].
      apply may_ret_inv in Hx. injection Hx as -> _. right. eapply initialize_ready; eassumption.
  - destruct Hr as [[Hd _]|[Hi (s & n & Hr)]].
    + unfold generate_sequential, choose_days in H. rewrite Hd in H. cbn in H. inversion H.
    + destruct (generate_sequential_set_up _ _ _ _ _ _ _ _ _ Hr H) as (_ & (us' & -> & _) & _).
      right. split; [exact Hi|exists s, n; exact Hr].
Qed.

Lemma built_ready c : built c -> ready c.
Proof.
  induction 1 as [F w us start stop par enl seed c H|c c' _ IH Hc].
  - unfold new_usecase in H. cbv zeta in H. apply may_bind in H as [(c0 & H & Hx)|(e & _ & H)]; [|discriminate].
    assert (c0 = c) as ->.
    { destruct (seed_of seed).
      - inversion Hx; subst. match goal with H : may (Ret _) _ |- _ => apply may_ret_inv in H end. congruence.
      - apply may_ret_inv in Hx. congruence. }
    assert (Hb : ready (blank start stop par enl seed us)) by (left; split; reflexivity).
    destruct start as [s|], stop as [e|]; try (apply may_ret_inv in H; injection H as ->; exact Hb).
    apply may_bind in H as [([c1 e1] & H & H2)|(e1 & _ & H)]; [|discriminate]. cbn [fst snd] in H2.
    destruct e1; [apply may_raise_inv in H2; discriminate|]. apply may_ret_inv in H2. injection H2 as ->.
    right. eapply initialize_ready; eassumption.
  - eapply ready_call; eassumption.
Qed.

(** After a successful initialize on a use case none of whose earlier calls raised: num_days is
    the number of days, days are consecutive and datetimeindex is their minutes. *)
Theorem C27_initialize_partial F w c nd enl force c' :
  built c -> may (initialize F w c nd enl force) (Ok (c', None)) ->
  exists s n, set_up c' s n.
Proof. intros Hb H. eapply initialize_ready; [apply built_ready; exact Hb|exact H]. Qed.

(** reading num_days or generating profiles meets the same situation *)
Theorem C27_any_time_partial c : built c -> days c <> None \/ datetimeindex_ c <> None -> exists s n, set_up c s n.
Proof. intros Hb H. destruct (built_ready c Hb) as [[H1 H2]|[_ H']]; [destruct H; contradiction|exact H']. Qed.

Theorem C27_rows depth F w c arg s n c' rows :
  set_up c s n -> may (generate_sequential depth F w c arg) (Ok (c', rows)) ->
  zlen rows = n /\ Forall (fun row => zlen row = 1440) rows /\ set_up c' s n.
Proof.
  intros Hu H. destruct (generate_sequential_set_up _ _ _ _ _ _ _ _ _ Hu H) as (Hz & (us' & -> & _) & Hrow).
  split; [exact Hz|]. split; [|exact Hu].
  apply Forall_forall. intros row Hin. apply In_nth_error in Hin. destruct Hin as (k & Hk).
  assert (Hlt : (k < List.length rows)%nat) by (apply nth_error_Some; congruence).
  specialize (Hrow (Z.of_nat k)). rewrite Nat2Z.id in Hrow.
  rewrite (nth_error_nth _ _ [] Hk) in Hrow. unfold zlen.
  rewrite (row_of_day_len _ _ _ _ _ _ _ (Hrow ltac:(unfold zlen in Hz; lia))). reflexivity.
Qed.

(** flat=True: entry i belongs to minute [i mod 1440] of row [i / 1440], which is the timestamp
    [days[0] + i minutes], the i-th entry of datetimeindex *)
Lemma concat_nth (rows : list (list Q)) : forall i, Forall (fun row => zlen row = 1440) rows -> 0 <= i < 1440 * zlen rows ->
  nth (Z.to_nat i) (List.concat rows) 0%Q = nth (Z.to_nat (i mod 1440)) (nth (Z.to_nat (i / 1440)) rows []) 0%Q.
Proof.
  induction rows as [|r rows IH]; intros i H Hi; [unfold zlen in Hi; cbn in Hi; lia|].
  inversion H as [|? ? Hr H']; subst. cbn [List.concat]. rewrite zlen_cons in Hi. unfold zlen in Hr.
  destruct (Z_lt_le_dec i 1440) as [Hlt|Hge].
  - rewrite app_nth1 by lia. rewrite Z.mod_small, Z.div_small by lia. reflexivity.
  - rewrite app_nth2 by lia. specialize (IH (i - 1440) H' ltac:(lia)).
    replace (Z.to_nat i - List.length r)%nat with (Z.to_nat (i - 1440)) by lia. rewrite IH.
    replace (i - 1440) with (i + (-1) * 1440) by lia. rewrite Z.mod_add, Z.div_add by lia.
    assert (1 <= i / 1440) by (apply Z.div_le_lower_bound; lia).
    replace (Z.to_nat (i / 1440)) with (S (Z.to_nat (i / 1440 + -1))) by lia. reflexivity.
Qed.

Lemma concat_len (rows : list (list Q)) : Forall (fun row => zlen row = 1440) rows -> zlen (List.concat rows) = 1440 * zlen rows.
Proof.
  induction 1 as [|r rows Hr H IH]; [reflexivity|]. cbn [List.concat]. rewrite zlen_app, zlen_cons, IH, Hr. lia.
Qed.

Theorem C27_flat depth F w c arg s n c' rows :
  set_up c s n -> may (generate_sequential depth F w c arg) (Ok (c', rows)) ->
  exists ix, datetimeindex_ c' = Some ix /\ zlen (flatten rows) = zlen ix /\ zlen ix = 1440 * n /\
  forall i, 0 <= i < 1440 * n ->
    nth (Z.to_nat i) ix 0 = s + i /\
    value_at (flatten rows) i = value_at (nth (Z.to_nat (i / 1440)) rows []) (i mod 1440).
Proof.
  intros Hu H. destruct (C27_rows _ _ _ _ _ _ _ _ _ Hu H) as (Hz & Hr & (_ & _ & _ & ix & Hix & Hlen & Hnth)).
  exists ix. split; [exact Hix|]. unfold flatten. rewrite concat_len, Hz by exact Hr. split; [lia|]. split; [exact Hlen|].
  intros i Hi. split; [apply Hnth; exact Hi|]. unfold value_at. apply concat_nth; [exact Hr|lia].
Qed.

(** *** a use case and its draws *)
Definition windowed (a : appliance) : appliance :=
  App (par a) (power a) true (win a) (cyc1 a) (cyc2 a) (cyc3 a) (set_daily_use (st a) (map (fun t => if (480 <=? t) && (t <? 600) then (1 # 1000)%Q else 0%Q) (arange 0 1440))).
Definition home : user := User "household" 2 3 0 [] [windowed lamp; windowed special].
Definition hamlet (start stop : option Z) (seed : option Z) : usecase := blank start stop false (15 # 100) seed [home].
Definition nobody : world := World (Err ValueError) 1051200000.

Lemma new_built (c : usecase) (F : fm) (w : world) us start stop par enl seed :
  (start = None \/ stop = None) -> c = blank start stop par enl seed us -> built c.
Proof.
  intros H ->. apply (built_new F w us start stop par enl seed). unfold new_usecase. cbv zeta.
  destruct start, stop; destruct H; try discriminate; cbn [bind]; destruct (seed_of seed); repeat constructor.
Qed.

Definition then_generate (r : usecase * option exc) : prog (usecase * usecase * list (list Q)) :=
  match r with
  | (c, Some e) => Raise e
  | (c, None) => x <- generate_sequential 3 exact_fm nobody c None ;; Ret (c, fst x, snd x)
  end.

Lemma then_generate_may (p : prog (usecase * option exc)) x :
  may (bind p then_generate) (Ok x) ->
  may p (Ok (fst (fst x), None)) /\
  may (generate_sequential 3 exact_fm nobody (fst (fst x)) None) (Ok (snd (fst x), snd x)).
Proof.
  intros H. apply may_bind in H as [([c e] & H1 & H2)|(e & _ & H)]; [|discriminate].
  unfold then_generate in H2. destruct e as [e|]; [apply may_raise_inv in H2; discriminate|].
  apply may_bind in H2 as [([c2 rows] & H2 & H3)|(e & _ & H)]; [|discriminate].
  apply may_ret_inv in H3. injection H3 as ->. cbn [fst snd] in *. split; assumption.
Qed.

Example C27_case : built (hamlet (Some 1051200000) None None) /\
  exists c' c'' rows s n,
    may (initialize exact_fm nobody (hamlet (Some 1051200000) None None) (Some 2) None false) (Ok (c', None)) /\
    set_up c' s n /\ may (generate_sequential 3 exact_fm nobody c' None) (Ok (c'', rows)) /\
    (value_at (flatten rows) (1440 + 500) == 207)%Q.
Proof.
  assert (Hb : built (hamlet (Some 1051200000) None None)).
  { apply (new_built _ exact_fm nobody [home] (Some 1051200000) None false (15 # 100) None); [right|]; reflexivity. }
  split; [exact Hb|].
  destruct (follow_check (bind (initialize exact_fm nobody (hamlet (Some 1051200000) None None) (Some 2) None false) then_generate)
    ([DQ (1 # 2); DQ (1 # 2)] ++ household_tape ++ household_tape)
    (fun x => Qeq_bool (value_at (flatten (snd x)) (1440 + 500)) 207)) as (x & Hx & Hv).
  { vm_compute. reflexivity. }
  apply then_generate_may in Hx. destruct Hx as [H1 H2].
  destruct (C27_initialize_partial _ _ _ _ _ _ _ Hb H1) as (s & n & Hu).
  exists (fst (fst x)), (snd (fst x)), (snd x), s, n. repeat (split; [assumption|]). apply Qeq_bool_iff, Hv.
Qed.

(** A failed initialize leaves its days behind: initialize(num_days=5) raises ValueError because
    a power series has 3 values, then initialize(num_days=3) asks for a number of days and, with
    the answer 3, succeeds with num_days = 3 but 5 days and 5 * 1440 timestamps. *)
Definition with_series (a : appliance) (l : list Q) : appliance :=
  App (par a) l false (win a) (cyc1 a) (cyc2 a) (cyc3 a) (st a).
Definition series_home : user := User "household" 2 3 0 [] [with_series (windowed lamp) [10%Q; 20%Q; 30%Q]].
Definition types_3 : world := World (Ok 3) 1051200000.

Theorem C27_retry_refuted : exists c0 c1 c2 n ds ix,
  built c0 /\
  may (initialize exact_fm nobody c0 (Some 5) None false) (Ok (c1, Some ValueError)) /\
  may (initialize exact_fm types_3 c1 (Some 3) None false) (Ok (c2, None)) /\
  num_days_ c2 = Some n /\ n = 3 /\ days c2 = Some ds /\ zlen ds = 5 /\
  datetimeindex_ c2 = Some ix /\ zlen ix = 1440 * 5.
Proof.
  set (c0 := blank (Some 1051200000) None false (15 # 100) None [series_home]).
  assert (Hb : built c0).
  { apply (new_built _ exact_fm nobody [series_home] (Some 1051200000) None false (15 # 100) None); [right|]; reflexivity. }
  set (c1 := set_days (set_num_days c0 (Some 5)) (Some (day_list 1051200000 5))).
  assert (H1 : may (initialize exact_fm nobody c0 (Some 5) None false) (Ok (c1, Some ValueError))).
  { apply (follow_may _ []). vm_compute. reflexivity. }
  destruct (follow_check (initialize exact_fm types_3 c1 (Some 3) None false) [DQ (1 # 2); DQ (1 # 2)]
    (fun x => match snd x with None => true | _ => false end &&
       match num_days_ (fst x), days (fst x), datetimeindex_ (fst x) with
       | Some n, Some ds, Some ix => (n =? 3) && (zlen ds =? 5) && (zlen ix =? 7200)
       | _, _, _ => false end)) as ([c2 e] & H2 & Hv).
  { vm_compute. reflexivity. }
  cbn [fst snd] in Hv. destruct e as [e|]; [discriminate|].
  destruct (num_days_ c2) as [n|] eqn:En; [|discriminate]. destruct (days c2) as [ds|] eqn:Ed; [|discriminate].
  destruct (datetimeindex_ c2) as [ix|] eqn:Ei; [|discriminate]. cbn [andb] in Hv.
  apply andb_prop in Hv. destruct Hv as [Hv Hv3]. apply andb_prop in Hv. destruct Hv as [Hv1 Hv2].
  exists c0, c1, c2, n, ds, ix. repeat (split; [assumption||lia|]). lia.
Qed.

(** ** C28 *)

(** row k of the result is the minute-wise sum of one load per user, each generated with day
    index k, the peak_time_range of the use case and the day type of days[k]; the users keep
    their declaration *)
Theorem C28_rows depth F w c arg s n c' rows :
  set_up c s n -> may (generate_sequential depth F w c arg) (Ok (c', rows)) ->
  zlen rows = n /\ Forall2 same_user (users c) (users c') /\
  forall k, 0 <= k < n -> exists dt loads,
    is_day_type (s + 1440 * k) dt /\
    Forall2 (user_day depth F k (peak_of c) dt) (users c) loads /\
    nth (Z.to_nat k) rows [] = sum_rows F loads.
Proof.
  intros Hu H. destruct (generate_sequential_set_up _ _ _ _ _ _ _ _ _ Hu H) as (Hz & (us' & -> & Hs) & Hrow).
  split; [exact Hz|]. split; [exact Hs|]. intros k Hk. destruct (Hrow k Hk) as (dt & loads & Hdt & Hl & He). eauto.
Qed.

(** conversely every choice of loads is possible *)
Theorem C28_any_loads depth F w c arg s n rows :
  set_up c s n -> zlen rows = n ->
  (forall k, 0 <= k < n -> exists dt loads,
    is_day_type (s + 1440 * k) dt /\
    Forall2 (user_day depth F k (peak_of c) dt) (users c) loads /\
    nth (Z.to_nat k) rows [] = sum_rows F loads) ->
  exists c', may (generate_sequential depth F w c arg) (Ok (c', rows)).
Proof.
  intros (H1 & Hn & (ds & Hd & Hlen & Hnth) & _) Hz Hrow. unfold generate_sequential.
  assert (Hch : choose_days c arg = Ok c) by (unfold choose_days; rewrite Hd; reflexivity).
  rewrite Hch. cbn [lift bind]. unfold num_days. rewrite Hn. cbn [bind fst snd].
  destruct (Z.ltb_spec n 0); [lia|]. rewrite Hd.
  destruct (day_loop_conv depth F (peak_of c) ds 0 (users c) [] (repeat (zeros day_minutes) (Z.to_nat n)) rows) as (us' & H').
  - reflexivity.
  - lia.
  - rewrite zlen_repeat. lia.
  - intros k d row Hk Hr.
    assert (Hlt : (k < List.length ds)%nat) by (apply nth_error_Some; congruence).
    destruct (Hrow (Z.of_nat k)) as (dt & loads & Hdt & Hl & He); [unfold zlen in Hlen; lia|].
    rewrite Nat2Z.id in He. rewrite (nth_error_nth _ _ [] Hr) in He.
    specialize (Hnth (Z.of_nat k) ltac:(unfold zlen in Hlen; lia)). rewrite Nat2Z.id in Hnth.
    rewrite (nth_error_nth _ _ 0 Hk) in Hnth. rewrite Hnth. replace (0 + Z.of_nat k) with (Z.of_nat k) by lia.
    exists dt, loads. auto.
  - rewrite skipn_all2, app_nil_r in H' by (rewrite repeat_length; unfold zlen in Hlen; lia). cbn [app] in H'.
    exists (set_users c us'). apply may_bind. left. eexists. split; [exact H'|]. constructor.
Qed.

(** what the sum says about one minute: exactly the sum, or up to rounding *)
Theorem C28_minute depth F k peak dt us loads t :
  exact F -> Forall2 (user_day depth F k peak dt) us loads -> 0 <= t < 1440 ->
  (value_at (sum_rows F loads) t == minute_sum t loads)%Q.
Proof.
  intros HF Hl Ht. apply sum_rows_exact; [exact HF|exact Ht|].
  induction Hl; constructor; [eapply user_day_len; eassumption|exact IHHl].
Qed.

Lemma user_day_nonneg depth F k peak dt u l t :
  Forall nonneg_app (app_list u) -> user_day depth F k peak dt u l -> 0 <= t < 1440 -> (0 <= value_at l t)%Q.
Proof. intros Ha (u' & H & <-) Ht. eapply C25_nonneg; eassumption. Qed.

Theorem C28_rounding depth F k peak dt us loads t :
  Forall2 (user_day depth F k peak dt) us loads -> Forall (fun u => Forall nonneg_app (app_list u)) us ->
  0 <= t < 1440 -> zlen us <= 2 ^ 52 ->
  (0 <= value_at (sum_rows F loads) t)%Q /\
  (Qabs (value_at (sum_rows F loads) t - minute_sum t loads)
   <= 2 * zq (zlen us) * (eps53 * minute_sum t loads + eta64))%Q.
Proof.
  intros Hl Ha Ht Hz.
  assert (Hlen : Forall (fun l => List.length l = day_minutes) loads).
  { clear -Hl. induction Hl; constructor; [eapply user_day_len; eassumption|exact IHHl]. }
  assert (Hnn : Forall (fun l => (0 <= value_at l t)%Q) loads).
  { clear -Hl Ha Ht. induction Hl; inversion Ha; subst; constructor; [eapply user_day_nonneg; eassumption|auto]. }
  split; [apply sum_rows_nonneg; assumption|].
  assert (Hzz : zlen (map (fun l => value_at l t) loads) = zlen us).
  { rewrite zlen_map. clear -Hl. induction Hl; [reflexivity|]. rewrite !zlen_cons. lia. }
  rewrite sum_rows_value by assumption. rewrite <- Hzz. apply fold_sum_error; [|lia].
  apply Forall_forall. intros x Hx. apply in_map_iff in Hx. destruct Hx as (y & <- & Hy).
  rewrite Forall_forall in Hnn. apply Hnn, Hy.
Qed.

Example C28_case : exists c' s n, set_up c' s n /\ users c' <> [] /\
  is_day_type 1051200000 1 /\ is_day_type (1051200000 + 1440 * 2) 0.
Proof.
  destruct C27_case as (_ & c' & c'' & rows & s & n & H1 & Hu & H2 & Hv).
  exists c', s, n. split; [exact Hu|]. split; [|split; reflexivity].
  intros E. destruct (C28_rows _ _ _ _ _ _ _ _ _ Hu H2) as (Hz & Hs & Hrow).
  destruct (C27_rows _ _ _ _ _ _ _ _ _ Hu H2) as (_ & Hr & _).
  rewrite E in Hrow.
  assert (Hall : Forall (fun row => row = zeros day_minutes) rows).
  { apply Forall_forall. intros row Hin. apply In_nth_error in Hin. destruct Hin as (k & Hk).
    assert (Hlt : (k < List.length rows)%nat) by (apply nth_error_Some; congruence).
    destruct (Hrow (Z.of_nat k)) as (dt & loads & _ & Hl & He); [unfold zlen in Hz; lia|].
    rewrite Nat2Z.id, (nth_error_nth _ _ [] Hk) in He. inversion Hl; subst. reflexivity. }
  assert (Hc : forall i, nth i (List.concat rows) 0%Q = 0%Q).
  { clear -Hall. induction Hall as [|r rows -> H IH]; intros i; [destruct i; reflexivity|].
    cbn [List.concat]. destruct (Nat.lt_ge_cases i (List.length (zeros day_minutes))) as [Hi|Hi].
    - rewrite app_nth1 by exact Hi. apply nth_repeat.
    - rewrite app_nth2 by exact Hi. apply IH. }
  unfold flatten, value_at in Hv. rewrite Hc in Hv. discriminate.
Qed.
