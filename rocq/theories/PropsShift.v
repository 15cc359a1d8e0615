(** * PropsShift: living [k] minutes later moves the load by [k] minutes (C97) *)
From Verif Require Import Base Wp Tape F64 Utils ListLemmas Appliance User Sim UseCase Spec SpecDay SpecUser SpecUseCase ProofsAppliance ProofsEvent
  ProofsDay ProofsUser ProofsUseCase ProofsRun PropsBasic PropsUser PropsUseCase PropsPeak PropsTotal Prob PropsParallel PropsMean SimScale SimShift.
From Coq Require Import ZifyBool ZifyNat.
Open Scope list_scope.
Open Scope Z_scope.

(** ** Specification ([moved], [move_app], [can_move]: SimShift.v) *)

Definition move_user (k : Z) (u : user) : user := set_apps u (map (move_app k) (app_list u)).

(** the use case whose users do everything [k] minutes later, with the same peak time range [k] minutes later *)
Definition move_use_case (k : Z) (c : usecase) : usecase :=
  set_peak (set_users c (map (move_user k) (users c))) (option_map (map (fun t => t + k)) (peak_time_range c)).

(** two outcomes of a simulation: the same exception, or profiles of which each is that of the other moved by [k] minutes *)
Definition same_but_later (k : Z) (r r' : res (usecase * list (list Q))) : Prop :=
  match r, r' with
  | Ok x, Ok y => Forall2 (moved k) (snd x) (snd y)
  | Err e, Err e' => e = e'
  | _, _ => False
  end.

(** ** Users *)

Definition later_app (k : Z) (a b : appliance) : Prop := can_move k a /\ exists d, b = set_st (move_app k a) d /\ state_like (st a) d.

Lemma later_same k a : can_move k a -> later_app k a (move_app k a).
Proof. intros H. split; [exact H|]. exists (st a). split; [destruct a; reflexivity|unfold state_like; auto]. Qed.

Section later.
Variables (depth : nat) (F : fm) (k : Z).

Lemma glp_later a b pref i peak dt pw : later_app k a b ->
  psimd (fun x y => later_app k x y /\ moved k (daily_use (st x)) (daily_use (st y)))
    (generate_load_profile depth F a pref i peak dt pw) (generate_load_profile depth F b pref i (map (fun t => t + k) peak) dt pw).
Proof.
  intros (Hm & d & -> & Hs). unfold generate_load_profile. eapply psimd_bind; [apply traced_later; eassumption|].
  intros x y (M1 & M2 & M3 & M4 & M5). cbn [psimd]. split; [|exact M1]. split; [exact Hm|]. exists (fst y). split; [reflexivity|].
  unfold state_like. auto.
Qed.

Lemma apps_later pref i peak dt : forall l l' acc acc', Forall2 (later_app k) l l' -> moved k acc acc' ->
  psimd (fun x y => Forall2 (later_app k) (fst x) (fst y) /\ moved k (snd x) (snd y))
    (generate_apps depth F pref i peak dt l acc) (generate_apps depth F pref i (map (fun t => t + k) peak) dt l' acc').
Proof.
  induction l as [|a l IH]; intros l' acc acc' Hl Hacc; inversion Hl as [|? b ? l1 Hab Hl1]; subst; cbn [generate_apps].
  { cbn. split; [constructor|exact Hacc]. }
  replace (power b) with (power a) by (destruct Hab as (_ & d & -> & _); reflexivity).
  eapply psimd_bind; [apply psimd_eq, below_pos_lift|]. intros pw ? <-.
  eapply psimd_bind; [apply glp_later; exact Hab|]. intros x y (X1 & X2).
  eapply psimd_bind; [apply IH; [exact Hl1|apply moved_vadd; eassumption]|]. intros p q (P1 & P2). cbn [psimd fst snd].
  split; [constructor; assumption|exact P2].
Qed.

Record later_user (u v : user) : Prop := LaterUser {
  lu_n : num_users v = num_users u;
  lu_p : user_preference v = user_preference u;
  lu_apps : Forall2 (later_app k) (app_list u) (app_list v)
}.

Lemma members_later i peak dt : forall m u v, later_user u v -> moved k (load u) (load v) ->
  psimd (fun x y => later_user x y /\ moved k (load x) (load y))
    (generate_members m depth F u i peak dt) (generate_members m depth F v i (map (fun t => t + k) peak) dt).
Proof.
  induction m as [|m IH]; intros u v Hu Hl; cbn [generate_members]; [cbn; auto|].
  eapply psimd_bind with (R := fun x y => later_user (fst x) (fst y) /\ moved k (load (fst x)) (load (fst y)) /\ moved k (snd x) (snd y)).
  - unfold generate_single_load_profile. replace (draw_pref v) with (draw_pref u) by (unfold draw_pref; rewrite (lu_p _ _ Hu); reflexivity).
    eapply psimd_bind; [apply psimd_eq; unfold draw_pref; destruct (_ =? 0); [exact I|apply below_pos_randint]|]. intros pref ? <-.
    eapply psimd_bind; [apply apps_later; [exact (lu_apps _ _ Hu)|apply moved_zeros]|]. intros x y (X1 & X2). cbn [psimd fst snd].
    split; [constructor; cbn; [apply Hu|apply Hu|exact X1]|]. split; [exact Hl|exact X2].
  - intros x y (X1 & X2 & X3). apply IH.
    + constructor; cbn; apply X1.
    + cbn. apply moved_vadd; assumption.
Qed.

Lemma users_later i peak dt : forall us us' acc acc', Forall2 later_user us us' -> moved k acc acc' ->
  psimd (fun x y => Forall2 later_user (fst x) (fst y) /\ moved k (snd x) (snd y))
    (day_of_users depth F i peak dt us acc) (day_of_users depth F i (map (fun t => t + k) peak) dt us' acc').
Proof.
  induction us as [|u us IH]; intros us' acc acc' H Hacc; inversion H as [|? v ? us1 Huv Hus]; subst; cbn [day_of_users]; [cbn; auto|].
  eapply psimd_bind.
  { unfold generate_aggregated_load_profile. rewrite (lu_n _ _ Huv).
    apply (members_later i peak dt (Z.to_nat (num_users u)) (set_load u (zeros day_minutes)) (set_load v (zeros day_minutes))); [constructor; cbn; apply Huv|apply moved_zeros]. }
  intros x y (X1 & X2). eapply psimd_bind; [apply IH; [exact Hus|apply moved_vadd; eassumption]|]. intros p q (P1 & P2). cbn [psimd fst snd].
  split; [constructor; assumption|exact P2].
Qed.

Lemma days_later peak : forall ds i us us' rows rows', Forall2 later_user us us' -> Forall2 (moved k) rows rows' ->
  psimd (fun x y => Forall2 (moved k) (snd x) (snd y))
    (day_loop depth F peak i ds us rows) (day_loop depth F (map (fun t => t + k) peak) i ds us' rows').
Proof.
  induction ds as [|d ds IH]; intros i us us' rows rows' H Hr; cbn [day_loop]; [exact Hr|].
  eapply psimd_bind; [apply users_later; [exact H|apply moved_zeros]|]. intros x y (X1 & X2).
  rewrite (f2_zlen _ _ _ Hr). destruct (zlen rows' <=? i); [reflexivity|]. apply IH; [exact X1|]. apply f2_set; assumption.
Qed.

Lemma generate_later w w' c c' arg arg' n ds : Forall2 later_user (users c) (users c') -> num_days_ c = Some n -> num_days_ c' = Some n -> days c = Some ds -> days c' = Some ds ->
  peak_of c' = map (fun t => t + k) (peak_of c) ->
  psimd (fun x y => Forall2 (moved k) (snd x) (snd y)) (generate_sequential depth F w c arg) (generate_sequential depth F w' c' arg').
Proof.
  intros Hu Hn Hn' Hd Hd' Hp. unfold generate_sequential, choose_days, UseCase.num_days. rewrite Hd, Hd'. cbn [lift bind]. rewrite Hn, Hn'. cbn [bind fst snd].
  destruct (n <? 0); [reflexivity|]. rewrite Hd, Hd'. fold (peak_of c) (peak_of c'). rewrite Hp.
  eapply psimd_bind; [apply days_later; [exact Hu|apply f2_repeat, moved_zeros]|]. intros x y H. exact H.
Qed.
End later.

Lemma move_later k us : Forall (fun u => Forall (can_move k) (app_list u)) us -> Forall2 (later_user k) us (map (move_user k) us).
Proof.
  induction 1 as [|u us Hu _ IH]; cbn [map]; constructor; [|exact IH]. constructor; try reflexivity. cbn [move_user app_list set_apps].
  induction Hu as [|a l Ha _ IHl]; cbn [map]; constructor; [apply later_same; exact Ha|exact IHl].
Qed.

Lemma expect_psimd {A B} (R : A -> B -> Prop) L (p : prog A) (q : prog B) f g :
  psimd R p q -> (forall a b, R a b -> (f (Ok a) == g (Ok b))%Q) -> (forall e, (f (Err e) == g (Err e))%Q) ->
  (expect L p f == expect L q g)%Q.
Proof.
  intros H HR HE. revert q H.
  induction p as [a|e|j IH|n j IH|c j IH|s j IH]; intros [b|e'|k'|n' k'|c' k'|s' k'] H; cbn [psimd expect] in *; try contradiction.
  - auto.
  - subst. auto.
  - apply average_ext. intros i Hi. apply IH, H. pose proof (steps_pos L) as Hs.
    assert (P : (0 < zq (steps L))%Q) by (change 0%Q with (zq 0); apply zq_lt; exact Hs).
    split.
    + apply Qle_shift_div_l; [exact P|]. setoid_replace (0 * zq (steps L))%Q with 0%Q by ring. change 0%Q with (zq 0). apply zq_le. lia.
    + apply Qlt_shift_div_r; [exact P|]. setoid_replace (1 * zq (steps L))%Q with (zq (steps L)) by ring. apply zq_lt. lia.
  - destruct H as (-> & Hn & H). apply average_ext. intros i Hi. apply IH, H. exact Hi.
  - destruct H as [-> H]. apply weighted_ext. intros z. apply IH, H.
  - destruct H as [-> H]. apply IH, H.
Qed.

(** ** C97 *)

(** One day of one appliance: whatever is drawn, the moved appliance draws the same and its profile is the profile, [k] minutes later. *)
Theorem C97_appliance depth F a pref i peak dt pw k (G : generator) s : can_move k a ->
  let r := run G (generate_load_profile depth F a pref i peak dt pw) s in
  let r' := run G (generate_load_profile depth F (move_app k a) pref i (map (fun t => t + k) peak) dt pw) s in
  snd r' = snd r /\
  match fst r, fst r' with Ok x, Ok y => moved k (daily_use (st x)) (daily_use (st y)) | Err e, Err e' => e = e' | _, _ => False end.
Proof.
  intros H r r'. destruct (psimd_run _ _ _ G s (glp_later depth F k a (move_app k a) pref i peak dt pw (later_same k a H))) as (E & M). fold r r' in E, M.
  split; [congruence|]. destruct (fst r), (fst r'); try contradiction; [apply M|exact M].
Qed.

Lemma use_case_later depth F w w' c arg arg' k s n : set_up c s n -> Forall (fun u => Forall (can_move k) (app_list u)) (users c) ->
  psimd (fun x y => Forall2 (moved k) (snd x) (snd y)) (generate_sequential depth F w c arg) (generate_sequential depth F w' (move_use_case k c) arg').
Proof.
  intros (Hn1 & Hn & (ds & Hds & _) & _) Hm. apply generate_later with (n := n) (ds := ds); try assumption.
  - apply move_later, Hm.
  - unfold peak_of, move_use_case. cbn [peak_time_range set_peak]. destruct (peak_time_range c); reflexivity.
Qed.

(** The simulation of an initialized use case: whatever is drawn, the use case that does everything [k] minutes later draws the same, ends
    the same way, and every one of its daily profiles is the profile moved by [k] minutes. *)
Theorem C97_use_case depth F w w' c arg arg' k s n (G : generator) z : set_up c s n -> Forall (fun u => Forall (can_move k) (app_list u)) (users c) ->
  let r := run G (generate_sequential depth F w c arg) z in
  let r' := run G (generate_sequential depth F w' (move_use_case k c) arg') z in
  snd r' = snd r /\ same_but_later k (fst r) (fst r').
Proof.
  intros Hs Hm r r'. destruct (psimd_run _ _ _ G z (use_case_later depth F w w' c arg arg' k s n Hs Hm)) as (E & M). fold r r' in E, M.
  split; [congruence|]. unfold same_but_later. destruct (fst r), (fst r'); try contradiction; exact M.
Qed.

(** Hence every measurement that reads the moved profiles as it read the original ones has the same mean, whatever the law of the draws. *)
Theorem C97_law L depth F w w' c arg arg' k s n (f g : res (list (list Q)) -> Q) :
  set_up c s n -> Forall (fun u => Forall (can_move k) (app_list u)) (users c) ->
  (forall rows rows', Forall2 (moved k) rows rows' -> (f (Ok rows) == g (Ok rows'))%Q) -> (forall e, (f (Err e) == g (Err e))%Q) ->
  (expect L (generate_sequential depth F w c arg) (fun r => f (match r with Ok x => Ok (snd x) | Err e => Err e end)) ==
   expect L (generate_sequential depth F w' (move_use_case k c) arg') (fun r => g (match r with Ok x => Ok (snd x) | Err e => Err e end)))%Q.
Proof.
  intros Hs Hm Hf He. eapply expect_psimd; [apply (use_case_later depth F w w' c arg arg' k s n Hs Hm)| |].
  - intros x y H. apply Hf, H.
  - intros e. apply He.
Qed.

Lemma f2_moved_nth k : forall rows rows' d, Forall2 (moved k) rows rows' -> forall t, (load_at (nth d rows' []) (t + k) == load_at (nth d rows []) t)%Q.
Proof.
  intros rows rows' d H t. revert d. induction H as [|x y l l' (_ & _ & Hxy) _ IH]; intros d.
  - assert (E : forall z, load_at (nth d [] []) z = 0%Q) by (intros z; replace (nth d [] []) with (@nil Q) by (destruct d; reflexivity); unfold load_at, value_at; destruct (_ && _); [destruct (Z.to_nat z)|]; reflexivity).
    rewrite !E. reflexivity.
  - destruct d; cbn [nth]; [apply Hxy|apply IH].
Qed.

(** The mean load of every minute of every day is the mean load [k] minutes earlier. *)
Theorem C97_mean L depth F w w' c arg arg' k s n d t : set_up c s n -> Forall (fun u => Forall (can_move k) (app_list u)) (users c) ->
  (expect L (generate_sequential depth F w' (move_use_case k c) arg') (fun r => match r with Ok x => load_at (nth d (snd x) []) (t + k) | Err _ => 0 end) ==
   expect L (generate_sequential depth F w c arg) (fun r => match r with Ok x => load_at (nth d (snd x) []) t | Err _ => 0 end))%Q.
Proof.
  intros Hs Hm. symmetry.
  pose proof (C97_law L depth F w w' c arg arg' k s n
    (fun r => match r with Ok rows => load_at (nth d rows []) t | Err _ => 0%Q end)
    (fun r => match r with Ok rows => load_at (nth d rows []) (t + k) | Err _ => 0%Q end) Hs Hm) as H.
  etransitivity; [|etransitivity; [apply H|]].
  - apply expect_ext. intros [x|e] _; reflexivity.
  - intros rows rows' Hr. symmetry. apply f2_moved_nth, Hr.
  - intros e. reflexivity.
  - apply expect_ext. intros [x|e] _; reflexivity.
Qed.

(** ** The declaration *)

(** nothing has been declared yet: neither windows of use nor duty cycle windows *)
Definition undeclared (a : appliance) : Prop :=
  window_1 (win a) = (0, 0) /\ window_2 (win a) = (0, 0) /\ window_3 (win a) = (0, 0) /\
  Forall (fun c => cwa c = (0, 0) /\ cwb c = (0, 0)) [cyc1 a; cyc2 a; cyc3 a].

Lemma move_none k : move_window k (0, 0) = (0, 0).
Proof. reflexivity. Qed.
Lemma move_diff k w : diff (move_window k w) = diff w.
Proof. unfold move_window, diff. destruct (_ && _); cbn [fst snd]; lia. Qed.

Lemma window_time_moved k w n : window_time (move_wins k w) n = window_time w n.
Proof.
  unfold window_time. generalize 0 as acc. induction (arange 1 (n + 1)) as [|i l IH]; intros acc; cbn [window_time_loop]; [reflexivity|].
  assert (E : window_i (move_wins k w) i = option_map (move_window k) (window_i w i)).
  { unfold window_i. destruct (i =? 1); [reflexivity|]. destruct (i =? 2); [reflexivity|]. destruct (i =? 3); reflexivity. }
  rewrite E. destruct (window_i w i) as [x|]; [|reflexivity]. cbn [option_map]. rewrite move_diff. apply IH.
Qed.

Lemma room_drawn first k w rv : 0 <= first -> window_room first k w rv -> drawn first k w (move_window k w).
Proof.
  intros Hf [(-> & _)|(H0 & H1 & H2 & H3 & H4)]; [left; split; reflexivity|]. unfold move_window. destruct w as [x y]. cbn [fst snd] in *.
  destruct ((x =? 0) && (y =? 0)) eqn:E; [left; split; f_equal; lia|]. right. split; [|reflexivity]. unfold drawn_room. cbn [fst snd]. lia.
Qed.

(** the part of windows() after the choice of the windows [W] (proof device: [windows_unfold]) *)
Definition declare (F : fm) (a : appliance) (w : wins) (rvw : Q) : appliance * option exc :=
  match window_time w (num_windows (par a)) with
  | Err e => (set_win a w, Some e)
  | Ok wt =>
    if wt <? func_time (par a) then (set_win a w, Some InvalidWindow) else
    let w := Wins (window_1 w) (window_2 w) (window_3 w) rvw (random_var_1 w) (random_var_2 w) (random_var_3 w) in
    let a := set_win a w in
    match fill_window (zeros day_minutes) (window_1 w) (mask_value F) with
    | Err e => (set_daily a (zeros day_minutes), Some e)
    | Ok d1 => match fill_window d1 (window_2 w) (mask_value F) with
      | Err e => (set_daily a d1, Some e)
      | Ok d2 => match fill_window d2 (window_3 w) (mask_value F) with
        | Err e => (set_daily a d2, Some e)
        | Ok d3 =>
          let a := set_win (set_daily a d3) (Wins (window_1 w) (window_2 w) (window_3 w) rvw (py_int (fmul F rvw (zq (diff (window_1 w))))) (py_int (fmul F rvw (zq (diff (window_2 w))))) (py_int (fmul F rvw (zq (diff (window_3 w)))))) in
          if fixed_cycle (par a) =? 1 then
            (set_cyc1 a (Cycle (cp1 (cyc1 a)) (ct1 (cyc1 a)) (cp2 (cyc1 a)) (ct2 (cyc1 a)) (cr (cyc1 a)) (window_1 w) (window_2 w)), None)
          else (a, None)
        end end end
  end.

Lemma windows_unfold F a w1 w2 rvw w3 : windows F a (Some w1) w2 rvw w3 =
  let W y z := Wins w1 y z (random_var_w (win a)) (random_var_1 (win a)) (random_var_2 (win a)) (random_var_3 (win a)) in
  if match w2 with None => num_windows (par a) >=? 2 | Some _ => false end then (set_win a (W (window_2 (win a)) (window_3 (win a))), Some InvalidWindow) else
  let y := match w2 with None => window_2 (win a) | Some x => x end in
  if match w3 with None => num_windows (par a) =? 3 | Some _ => false end then (set_win a (W y (window_3 (win a))), Some InvalidWindow) else
  declare F a (W y (match w3 with None => window_3 (win a) | Some x => x end)) rvw.
Proof. reflexivity. Qed.

Lemma declare_moved F a b k W rvw : Forall (fun c => cwa c = (0, 0) /\ cwb c = (0, 0)) [cyc1 a; cyc2 a; cyc3 a] -> declare F a W rvw = (b, None) -> can_move k b ->
  exists b', declare F a (move_wins k W) rvw = (b', None) /\
    b' = set_st (move_app k b) (st b') /\ state_like (st b) (st b') /\ moved k (daily_use (st b)) (daily_use (st b')).
Proof.
  intros UC H (_ & R1 & R2 & R3). unfold declare in *. rewrite window_time_moved.
  destruct (window_time W (num_windows (par a))) as [wt|e]; [|discriminate].
  destruct (wt <? func_time (par a)); [discriminate|]. destruct W as [x1 x2 x3 v0 v1 v2 v3].
  cbv zeta in *. cbn [move_wins window_1 window_2 window_3 random_var_w random_var_1 random_var_2 random_var_3] in *. rewrite !move_diff.
  set (first := if fixed_cycle (par b) >? 0 then 1 else 0) in *. assert (Hf : 0 <= first) by (unfold first; destruct (_ >? 0); lia).
  clearbody first.
  destruct (fill_window (zeros day_minutes) x1 (mask_value F)) as [d1|] eqn:E1; [|discriminate].
  destruct (fill_window d1 x2 (mask_value F)) as [d2|] eqn:E2; [|discriminate].
  destruct (fill_window d2 x3 (mask_value F)) as [d3|] eqn:E3; [|discriminate].
  assert (G : window_1 (win b) = x1 /\ window_2 (win b) = x2 /\ window_3 (win b) = x3).
  { clear - H. destruct a as [pa po cp wi c1 c2 c3 sa]. unfold set_daily, set_win, set_st, set_cyc1 in H. cbn [par cyc1 win] in H. destruct (fixed_cycle pa =? 1); injection H as <-; cbn; auto. }
  destruct G as (G1 & G2 & G3). rewrite G1 in R1. rewrite G2 in R2. rewrite G3 in R3.
  pose proof (moved_fills first k (mask_value F) Hf [x1; x2; x3] [move_window k x1; move_window k x2; move_window k x3]
      (Forall2_cons _ _ (room_drawn _ _ _ _ Hf R1) (Forall2_cons _ _ (room_drawn _ _ _ _ Hf R2) (Forall2_cons _ _ (room_drawn _ _ _ _ Hf R3) (Forall2_nil _))))
      _ _ (moved_zeros k)) as G.
  cbn [fill_windows] in G. rewrite E1 in G. cbn [rbind] in G. rewrite E2 in G. cbn [rbind] in G. rewrite E3 in G. cbn [rbind] in G.
  destruct (fill_window (zeros day_minutes) (move_window k x1) (mask_value F)) as [d1'|]; [|contradiction]. cbn [rbind] in G.
  destruct (fill_window d1' (move_window k x2) (mask_value F)) as [d2'|]; [|contradiction]. cbn [rbind] in G.
  destruct (fill_window d2' (move_window k x3) (mask_value F)) as [d3'|]; [|contradiction]. cbn [rbind rrel] in G.
  assert (UM : Forall (fun c => move_cycle k c = c) [cyc1 a; cyc2 a; cyc3 a]).
  { eapply Forall_impl; [|exact UC]. intros c (A1 & A2). destruct c. cbn in A1, A2. subst. reflexivity. }
  apply Forall_cons_iff in UM as (UM1 & UM). apply Forall_cons_iff in UM as (UM2 & UM). apply Forall_cons_iff in UM as (UM3 & _).
  clear E1 E2 E3 R1 R2 R3 UC G1 G2 G3.
  destruct a as [pa po cp wi c1 c2 c3 sa]. unfold set_daily, set_win, set_st, set_cyc1 in *. cbn [par cyc1 cyc2 cyc3 win st] in *.
  destruct (fixed_cycle pa =? 1); injection H as <-; (eexists; split; [reflexivity|]); unfold move_app, state_like; cbn [st set_st set_daily set_daily_use daily_use random_cycle1 random_cycle2 random_cycle3 current_duty_cycle_id par power constant_power win cyc1 cyc2 cyc3];
    rewrite ?UM1, UM2, UM3; (split; [|split; [auto|exact G]]); reflexivity.
Qed.

(** Declaring the windows [k] minutes later - by the same call of windows(), each window moved - succeeds as the original declaration does,
    and it makes the moved appliance: same parameters, moved windows and duty cycle windows, moved daily mask. *)
Theorem C97_declaration F a b k w1 w2 w3 rvw : undeclared a -> windows F a (Some w1) w2 rvw w3 = (b, None) -> can_move k b ->
  exists b', windows F a (Some (move_window k w1)) (option_map (move_window k) w2) rvw (option_map (move_window k) w3) = (b', None) /\
    b' = set_st (move_app k b) (st b') /\ state_like (st b) (st b') /\ moved k (daily_use (st b)) (daily_use (st b')).
Proof.
  intros (U1 & U2 & U3 & UC) H Hm. rewrite windows_unfold in *. rewrite U2, U3 in *.
  destruct w2 as [x2|]; cbn [option_map] in *; [|destruct (num_windows (par a) >=? 2); [discriminate|]];
    (destruct w3 as [x3|]; cbn [option_map] in *; [|destruct (num_windows (par a) =? 3); [discriminate|]]); cbv zeta in *; cbv iota in *;
    exact (declare_moved F a b k _ rvw UC H Hm).
Qed.

(** so one day of the appliance declared later is one day of the original appliance, later *)
Theorem C97_declared_day depth F a b k w1 w2 w3 rvw pref i peak dt pw (G : generator) s : undeclared a -> windows F a (Some w1) w2 rvw w3 = (b, None) -> can_move k b ->
  exists b', windows F a (Some (move_window k w1)) (option_map (move_window k) w2) rvw (option_map (move_window k) w3) = (b', None) /\
  let r := run G (generate_load_profile depth F b pref i peak dt pw) s in
  let r' := run G (generate_load_profile depth F b' pref i (map (fun t => t + k) peak) dt pw) s in
  snd r' = snd r /\
  match fst r, fst r' with Ok x, Ok y => moved k (daily_use (st x)) (daily_use (st y)) | Err e, Err e' => e = e' | _, _ => False end.
Proof.
  intros Hu H Hm. destruct (C97_declaration F a b k w1 w2 w3 rvw Hu H Hm) as (b' & E & Eb & Hst & _). exists b'. split; [exact E|]. intros r r'.
  assert (L : later_app k b b') by (split; [exact Hm|]; exists (st b'); split; [exact Eb|exact Hst]).
  destruct (psimd_run _ _ _ G s (glp_later depth F k b b' pref i peak dt pw L)) as (E1 & M). fold r r' in E1, M.
  split; [congruence|]. destruct (fst r), (fst r'); try contradiction; [apply M|exact M].
Qed.

(** ** The peak time range *)

Lemma py_round_later x k : Z.even k = true -> py_round (x + zq k) = py_round x + k.
Proof.
  intros Hk. unfold py_round.
  assert (E : Qfloor (x + zq k) = Qfloor x + k).
  { destruct x as [p q]. unfold zq, inject_Z, Qplus, Qfloor. cbn [Qnum Qden]. rewrite Z.mul_1_r, Pos.mul_1_r, Z.div_add by lia. reflexivity. }
  rewrite E. unfold zq. rewrite inject_Z_plus.
  assert (D : (x + inject_Z k - (inject_Z (Qfloor x) + inject_Z k) == x - inject_Z (Qfloor x))%Q) by ring.
  assert (LT : forall u v w, (u == v)%Q -> Qltb u w = Qltb v w /\ Qltb w u = Qltb w v).
  { intros u v w Huv. unfold Qltb. split; rewrite Huv; reflexivity. }
  destruct (LT _ _ (1 # 2)%Q D) as (L1 & L2). rewrite L1, L2. clear L1 L2 D LT E.
  rewrite Z.even_add, Hk. destruct (Qltb _ _); [reflexivity|]. destruct (Qltb _ _); [lia|].
  destruct (Z.even (Qfloor x)); cbn [Bool.eqb]; lia.
Qed.

Lemma zsum_later k ms : zsum (map (fun t => t + k) ms) = zsum ms + zlen ms * k.
Proof.
  unfold zsum. assert (G : forall l a b, fold_left Z.add (map (fun t => t + k) l) (a + b) = fold_left Z.add l a + b + zlen l * k).
  { induction l as [|x l IH]; intros a b; cbn [map fold_left]; [unfold zlen; cbn; lia|]. replace (a + b + (x + k)) with (a + x + (b + k)) by lia. rewrite IH, zlen_cons. lia. }
  specialize (G ms 0 0). rewrite Z.add_0_r in G. rewrite G. lia.
Qed.

Lemma last_later k : forall l x, last (map (fun t => t + k) l) (x + k) = last l x + k.
Proof. induction l as [|y l IH]; intros x; [reflexivity|]. cbn [map]. destruct l as [|z l]; [reflexivity|]. change (last (map (fun t => t + k) (z :: l)) (x + k) = last (z :: l) x + k). apply IH. Qed.

Lemma draw_two F enl m0 rest : rest <> [] -> draw_peak_range F enl (m0 :: rest) =
  (x <- py_normalvariate F (zq (py_round (fdiv F (zq (zsum (m0 :: rest))) (zq (zlen (m0 :: rest)))))) (fmul F (fdiv F 1 3) (zq (last rest m0 - m0))) ;;
   g <- py_gauss F (zq (py_round x)) (fmul F enl (zq (py_round x))) ;;
   Ret (Ok (arange (py_round x - Z.max (py_round (Qabs (fsub F (zq (py_round x)) g))) 1) (py_round x + Z.max (py_round (Qabs (fsub F (zq (py_round x)) g))) 1)))).
Proof. destruct rest; [congruence|reflexivity]. Qed.

Lemma draw_peak_later F enl ms k : exact F -> Z.even k = true -> (enl == 0)%Q ->
  psimd (fun x y => y = match x with Ok l => Ok (map (fun t => t + k) l) | Err e => Err e end) (draw_peak_range F enl ms) (draw_peak_range F enl (map (fun t => t + k) ms)).
Proof.
  intros HF0 Hk He. assert (HF : forall x, (rnd F x == x)%Q) by exact HF0.
  destruct ms as [|m0 rest]; [reflexivity|]. destruct rest as [|m1 rest0]; [reflexivity|]. remember (m1 :: rest0) as rest eqn:Er.
    assert (Hne : rest <> []) by (subst; discriminate). clear Er m1 rest0. cbn [map].
    assert (Hne' : map (fun t => t + k) rest <> []) by (destruct rest; [congruence|discriminate]).
    rewrite !draw_two by assumption.
    assert (Es : zsum ((m0 + k) :: map (fun t => t + k) rest) = zsum (m0 :: rest) + zlen (m0 :: rest) * k) by apply (zsum_later k (m0 :: rest)).
    assert (El : zlen ((m0 + k) :: map (fun t => t + k) rest) = zlen (m0 :: rest)) by (unfold zlen; cbn [List.length]; rewrite map_length; reflexivity).
    assert (Ed : last (map (fun t => t + k) rest) (m0 + k) - (m0 + k) = last rest m0 - m0) by (rewrite last_later; lia).
    assert (Hz : 0 < zlen (m0 :: rest)) by (unfold zlen; cbn [List.length]; lia).
    rewrite Es, El, Ed.
    set (S0 := zsum (m0 :: rest)) in *. set (N := zlen (m0 :: rest)) in *.
    assert (Emu : py_round (fdiv F (zq (S0 + N * k)) (zq N)) = py_round (fdiv F (zq S0) (zq N)) + k).
    { rewrite <- py_round_later by exact Hk. apply py_round_comp. unfold fdiv. rewrite !HF. unfold zq. rewrite inject_Z_plus, inject_Z_mult. field.
      intros E. change 0%Q with (inject_Z 0) in E. rewrite inject_Z_injective in E. lia. }
    rewrite Emu. unfold py_normalvariate, py_gauss. cbn [bind psimd]. split; [reflexivity|]. intros z.
    set (sig := fmul F (fdiv F 1 3) (zq (last rest m0 - m0))). set (mu := py_round (fdiv F (zq S0) (zq N))).
    assert (Ept : py_round (fadd F (zq (mu + k)) (fmul F z sig)) = py_round (fadd F (zq mu) (fmul F z sig)) + k).
    { rewrite <- py_round_later by exact Hk. apply py_round_comp. unfold fadd. rewrite !HF. unfold zq. rewrite inject_Z_plus. ring. }
    rewrite Ept. set (pt := py_round (fadd F (zq mu) (fmul F z sig))). split; [reflexivity|]. intros z'.
    assert (E1 : forall p, Z.max (py_round (Qabs (fsub F (zq p) (fadd F (zq p) (fmul F z' (fmul F enl (zq p))))))) 1 = 1).
    { intros p. replace (py_round _) with 0; [reflexivity|]. symmetry. change 0 with (py_round 0). apply py_round_comp.
      assert (E : (fsub F (zq p) (fadd F (zq p) (fmul F z' (fmul F enl (zq p)))) == 0)%Q) by (unfold fsub, fadd, fmul; rewrite !HF, He; ring).
      rewrite E. reflexivity. }
    rewrite !E1. f_equal. rewrite <- arange_later. f_equal; lia.
Qed.

(** whatever is drawn, the range drawn around the moved minutes is the range, moved - if [k] is even and nothing is enlarged *)
Theorem C97_peak_range_partial F enl ms k (G : generator) s : exact F -> Z.even k = true -> (enl == 0)%Q ->
  let r := run G (draw_peak_range F enl ms) s in
  let r' := run G (draw_peak_range F enl (map (fun t => t + k) ms)) s in
  snd r' = snd r /\
  fst r' = match fst r with Ok (Ok l) => Ok (Ok (map (fun t => t + k) l)) | x => x end.
Proof.
  intros HF Hk He r r'. destruct (psimd_run _ _ _ G s (draw_peak_later F enl ms k HF Hk He)) as (E & M). fold r r' in E, M. split; [congruence|].
  destruct (fst r) as [[l|e]|e], (fst r') as [y|e']; try contradiction; congruence.
Qed.

(** the minutes of the maximum are those of the original profile, moved, if there is any load *)
Theorem C97_peak_minutes p p' k ms ms' : moved k p p' -> (exists t, 0 <= t < 1440 /\ (0 < value_at p t)%Q) ->
  maximal_minutes p ms -> maximal_minutes p' ms' -> ms' = map (fun t => t + k) ms.
Proof.
  intros (L1 & L2 & M) (t0 & Ht0 & Hp0) (H1 & S1) H'. apply (maximal_minutes_unique p'); [exact H'|]. clear H' ms'.
  apply zlen_day in L1, L2. rewrite L1 in H1.
  assert (K : forall u, 0 <= u < 1440 -> (0 < value_at p u)%Q -> 0 <= u + k < 1440 /\ (value_at p' (u + k) == value_at p u)%Q).
  { intros u Hu Hpos. specialize (M u). rewrite (load_at_in p u) in M by exact Hu.
    destruct ((0 <=? u + k) && (u + k <? 1440)) eqn:E; [split; [lia|rewrite <- (load_at_in p') by lia; exact M]|].
    rewrite load_at_out in M by lia. rewrite <- M in Hpos. discriminate Hpos. }
  destruct (K t0 Ht0 Hp0) as (Ht0k & Ev0). split.
  - intros t. rewrite L2, in_map_iff. split.
    + intros (u & <- & Hu). apply H1 in Hu as (Hu & Hmax).
      assert (Hpos : (0 < value_at p u)%Q) by (eapply Qlt_le_trans; [exact Hp0|apply Hmax, Ht0]).
      destruct (K u Hu Hpos) as (Hin & Ev). split; [exact Hin|]. intros t' Ht'. rewrite Ev. rewrite <- (load_at_in p' t') by exact Ht'.
      replace t' with (t' - k + k) by lia. rewrite (M (t' - k)).
      destruct ((0 <=? t' - k) && (t' - k <? 1440)) eqn:E; [rewrite load_at_in by lia; apply Hmax; lia|rewrite load_at_out by lia; apply Qlt_le_weak, Hpos].
    + intros (Ht & Hmax). exists (t - k). split; [lia|]. apply H1.
      assert (Hpos : (0 < value_at p' t)%Q) by (eapply Qlt_le_trans; [exact Hp0|rewrite <- Ev0; apply Hmax, Ht0k]).
      assert (Et : (value_at p' t == load_at p (t - k))%Q) by (rewrite <- (M (t - k)); replace (t - k + k) with t by lia; rewrite load_at_in by exact Ht; reflexivity).
      assert (Hin : 0 <= t - k < 1440).
      { destruct ((0 <=? t - k) && (t - k <? 1440)) eqn:E; [lia|]. rewrite load_at_out in Et by lia. rewrite Et in Hpos. discriminate Hpos. }
      split; [exact Hin|]. intros u Hu. rewrite <- (load_at_in p (t - k)) by exact Hin. rewrite <- Et.
      destruct (Qlt_le_dec 0 (value_at p u)) as [Hu0|Hu0]; [|eapply Qle_trans; [exact Hu0|apply Qlt_le_weak, Hpos]].
      destruct (K u Hu Hu0) as (Huk & Eu). rewrite <- Eu. apply Hmax, Huk.
  - intros i j Hij. rewrite map_length in Hij. rewrite (nth_indep _ 0 (0 + k)), (nth_indep (map _ ms) 0 (0 + k)) by (rewrite map_length; lia).
    rewrite !(map_nth (fun t => t + k)). pose proof (S1 i j Hij). lia.
Qed.

(** an appliance and the same declared later: a later profile is drawn, and the mask of the declaration is later *)
Definition declared_later (k : Z) (a b : appliance) : Prop :=
  power b = power a /\ number (par b) = number (par a) /\ moved k (daily_use (st a)) (daily_use (st b)).
Definition user_declared_later (k : Z) (u v : user) : Prop :=
  num_users v = num_users u /\ Forall2 (declared_later k) (app_list u) (app_list v).

Lemma value_at_map (f : Q -> Q) l t : (f 0 == 0)%Q -> 0 <= t -> (value_at (map f l) t == f (value_at l t))%Q.
Proof.
  intros H0 _. unfold value_at. generalize (Z.to_nat t) as n. induction l as [|x l IH]; intros [|n]; cbn [map nth]; try (symmetry; exact H0); [reflexivity|apply IH].
Qed.

Lemma moved_map k (f : Q -> Q) x y : (forall u v, (u == v)%Q -> (f u == f v)%Q) -> (f 0 == 0)%Q -> moved k x y -> moved k (map f x) (map f y).
Proof.
  intros Hf H0 (L1 & L2 & M). split; [rewrite map_length; exact L1|]. split; [rewrite map_length; exact L2|]. intros t.
  assert (G : forall l z, (load_at (map f l) z == f (load_at l z))%Q).
  { intros l z. unfold load_at. destruct ((0 <=? z) && (z <? 1440)) eqn:E; [apply value_at_map; [exact H0|lia]|symmetry; exact H0]. }
  rewrite !G. apply Hf, M.
Qed.

Lemma total_later F k : forall us us' acc acc', Forall2 (user_declared_later k) us us' -> moved k acc acc' ->
  moved k (fold_left (fun acc u => vadd F acc (user_maximum_profile F u)) us acc) (fold_left (fun acc u => vadd F acc (user_maximum_profile F u)) us' acc').
Proof.
  assert (R0 : forall n, (fmul F 0 n == 0)%Q) by (intros n; unfold fmul; etransitivity; [apply rnd_proper, Qmult_0_l|apply rnd_0]).
  assert (RP : forall n u v, (u == v)%Q -> (fmul F u n == fmul F v n)%Q) by (intros n u v H; unfold fmul; apply rnd_proper; rewrite H; reflexivity).
  induction us as [|u us IH]; intros us' acc acc' H Hacc; inversion H as [|? v ? us1 (Hn & Ha) Hus]; subst; cbn [fold_left]; [exact Hacc|].
  apply IH; [exact Hus|]. apply moved_vadd; [exact Hacc|]. unfold user_maximum_profile. rewrite Hn. apply moved_map; [intros; apply RP; assumption|apply R0|].
  assert (G : forall b0 b1, moved k b0 b1 -> moved k (fold_left (fun acc a => vadd F acc (app_maximum_profile F a)) (app_list u) b0) (fold_left (fun acc a => vadd F acc (app_maximum_profile F a)) (app_list v) b1)); [|apply G, moved_zeros].
  clear - Ha R0 RP.
  induction Ha as [|a b l l' (E1 & E2 & E3) _ IH]; intros b0 b1 Hb; cbn [fold_left]; [exact Hb|]. apply IH. apply moved_vadd; [exact Hb|].
  unfold app_maximum_profile. rewrite E1, E2. apply moved_map; [| |exact E3].
  - intros x y E. apply RP, RP, E.
  - etransitivity; [apply RP, R0|apply R0].
Qed.

(** The peak time range of a use case declared an even number of minutes later, with no enlargement: whatever is drawn, it is the range
    of the original use case, moved. *)
Theorem C97_peak_partial F c c' k (G : generator) s : exact F -> Z.even k = true -> (peak_enlarge c == 0)%Q -> peak_enlarge c' = peak_enlarge c ->
  Forall2 (user_declared_later k) (users c) (users c') -> (exists t, 0 <= t < 1440 /\ (0 < value_at (total_max_profile F c) t)%Q) ->
  let r := run G (calc_peak_time_range F c) s in
  let r' := run G (calc_peak_time_range F c') s in
  snd r' = snd r /\
  fst r' = match fst r with Ok (Ok l) => Ok (Ok (map (fun t => t + k) l)) | x => x end.
Proof.
  intros HF Hk He He' Hu Hp. unfold calc_peak_time_range. rewrite He'.
  rewrite (C97_peak_minutes (total_max_profile F c) (total_max_profile F c') k (peak_window F c) (peak_window F c')
    (total_later F k _ _ _ _ Hu (moved_zeros k)) Hp (peak_window_maximal F c) (peak_window_maximal F c')).
  apply C97_peak_range_partial; assumption.
Qed.

(** *** A lamp declared at different times *)

Definition new_lamp : appliance := App (par lamp) (power lamp) true default_wins default_cycle default_cycle default_cycle default_dyn.
Definition lamp_at (w : Z * Z) : appliance := fst (windows f64 new_lamp (Some w) None 0 None).
Definition lamps_at (enl : Q) (w : Z * Z) : usecase := blank (Some 1051200000) None false enl None [User "household" 2 0 0 [] [lamp_at w]].

Lemma lamps_enlarge enl w : peak_enlarge (lamps_at enl w) = enl.
Proof. reflexivity. Qed.
Lemma lamps_users enl w : users (lamps_at enl w) = [User "household" 2 0 0 [] [lamp_at w]].
Proof. reflexivity. Qed.

Lemma lamp_movable k : -480 <= k <= 840 -> exists b, windows f64 new_lamp (Some (480, 600)) None 0 None = (b, None) /\ can_move k b.
Proof.
  intros H. eexists. split; [vm_compute; reflexivity|]. (split; [cbn; lia|]); cbn -[Z.add Z.sub Z.le]; (split; [right; cbn -[Z.add Z.sub Z.le]; lia|split; left; split; reflexivity]).
Qed.

Lemma lamps_declared enl k w : -480 <= k <= 840 -> w = (480 + k, 600 + k) -> Forall2 (user_declared_later k) (users (lamps_at enl (480, 600))) (users (lamps_at enl w)).
Proof.
  intros H ->. destruct (lamp_movable k H) as (b & E & M).
  assert (U : undeclared new_lamp) by (repeat (split; [reflexivity|]); repeat constructor).
  destruct (C97_declaration f64 new_lamp b k (480, 600) None None 0 U E M) as (b' & E' & Eb & _ & D). cbn [option_map] in E'.
  assert (Ew : move_window k (480, 600) = (480 + k, 600 + k)) by reflexivity.
  rewrite Ew in E'. rewrite !lamps_users. unfold lamp_at. rewrite E, E'. cbn [fst]. constructor; [|constructor]. split; [reflexivity|]. cbn [app_list]. constructor; [|constructor].
  split; [rewrite Eb; reflexivity|]. split; [rewrite Eb; reflexivity|exact D].
Qed.

(** The enlargement of the peak time range grows with the clock time of the peak: the same draws give a village that lives ten hours later
    a peak time range more than twice as long (86 minutes each side instead of 40). *)
Theorem C97_peak_grows_refuted : exists k c c' l l' tape,
  Forall2 (user_declared_later k) (users c) (users c') /\ peak_enlarge c' = peak_enlarge c /\ Z.even k = true /\
  follow (calc_peak_time_range f64 c) tape = Some (Ok (Ok l)) /\ follow (calc_peak_time_range f64 c') tape = Some (Ok (Ok l')) /\
  2 * zlen l < zlen l'.
Proof.
  exists 600, (lamps_at (15 # 100) (480, 600)), (lamps_at (15 # 100) (1080, 1200)), (arange 500 580), (arange 1054 1226), [DQ 0; DQ (1 # 2)].
  split; [apply lamps_declared; [lia|reflexivity]|]. rewrite !lamps_enlarge. split; [reflexivity|]. split; [reflexivity|].
  split; [vm_compute; reflexivity|]. split; [vm_compute; reflexivity|]. rewrite !zlen_arange. lia.
Qed.

(** The middle of the maximum is rounded to an even minute: the peak time range of a village that lives one minute later does not move. *)
Theorem C97_odd_refuted : exists c c' l tape,
  Forall2 (user_declared_later 1) (users c) (users c') /\ (peak_enlarge c == 0)%Q /\ peak_enlarge c' = peak_enlarge c /\
  follow (calc_peak_time_range f64 c) tape = Some (Ok (Ok l)) /\ follow (calc_peak_time_range f64 c') tape = Some (Ok (Ok l)) /\ l <> [].
Proof.
  exists (lamps_at 0 (480, 600)), (lamps_at 0 (481, 601)), (arange 539 541), [DQ 0; DQ (1 # 2)].
  split; [apply lamps_declared; [lia|reflexivity]|]. rewrite !lamps_enlarge. split; [reflexivity|]. split; [reflexivity|].
  split; [vm_compute; reflexivity|]. split; [vm_compute; reflexivity|discriminate].
Qed.

(** *** A village that gets up an hour later *)

Example C97_case : set_up mean_village 1051200000 2 /\ Forall (fun u => Forall (can_move 60) (app_list u)) (users mean_village) /\
  undeclared new_lamp /\ (exists b, windows f64 new_lamp (Some (480, 600)) None 0 None = (b, None) /\ can_move 60 b) /\
  (exists x, may (generate_sequential 3 exact_fm nobody mean_village None) (Ok x) /\ (0 < load_at (nth 0 (snd x) []) 500)%Q).
Proof.
  split; [apply for_two_days_set_up|]. split.
  { constructor; [|constructor]. constructor; [|constructor; [|constructor]]; (split; [cbn; lia|]); cbn;
      (split; [right; cbn; lia|split; left; split; reflexivity]). }
  split; [repeat (split; [reflexivity|]); repeat constructor|]. split.
  { apply lamp_movable. lia. }
  destruct (follow_check (generate_sequential 3 exact_fm nobody mean_village None)
    (List.concat (repeat (DZ 1 :: flat_draws ++ flat_draws) 4)) (fun x => Qltb 0 (load_at (nth 0 (snd x) []) 500))) as (x & Hx & Hv); [vm_compute; reflexivity|].
  exists x. split; [exact Hx|]. apply Qltb_lt. exact Hv.
Qed.
