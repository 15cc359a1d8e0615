(** * PropsMeanEnergy: the mean daily energy of an appliance (C94) *)
From Verif Require PropsDayCases PropsPeak.
From Verif Require Import Base Wp Tape F64 Utils ListLemmas Appliance User Sim Spec SpecUser SpecDay ProofsUtils ProofsAppliance ProofsEvent ProofsDay ProofsDay2 ProofsUser ProofsRun PropsBasic PropsDay
  PropsTotal Prob PropsProb PropsThermal PropsIndep.
From Coq Require Import ZifyBool ZifyNat.

(** ** Specification *)

(** the energy of a daily profile: power times minutes, in Wmin *)
Definition watt_minutes (row : list Q) : Q := Qsum (map (value_at row) (arange 0 1440)).

(** the windows however far they are drawn, and that they always leave a minute between them *)
Definition widened (w : Z * Z) (rv : Z) : Z * Z := (fst w - rv, snd w + rv).
Definition always_separated (a : appliance) : Prop :=
  let W := win a in
  separated (map (fun x => widened (fst x) (snd x)) (filter (fun x => negb (fst (fst x) =? snd (fst x)))
    [(window_1 W, random_var_1 W); (window_2 W, random_var_2 W); (window_3 W, random_var_3 W)])).

(** the windows and the time of use of one day *)
Definition windows_and_time (F : fm) (a : appliance) : prog (list (Z * Z) * Z) :=
  rw1 <- calc_rand_window (window_1 (win a)) (random_var_1 (win a)) ;;
  rw2 <- calc_rand_window (window_2 (win a)) (random_var_2 (win a)) ;;
  rw3 <- calc_rand_window (window_3 (win a)) (random_var_3 (win a)) ;;
  rt <- rand_total_time_of_use F a rw1 rw2 rw3 ;;
  Ret ([rw1; rw2; rw3], rt).

(** their means: the time of use, and the length of the windows, in minutes *)
Definition mean_time (L : law) (F : fm) (a : appliance) : Q :=
  expect L (windows_and_time F a) (fun r => match r with Ok x => zq (snd x) | Err _ => 0%Q end).
Definition mean_window (L : law) (F : fm) (a : appliance) : Q :=
  expect L (windows_and_time F a) (fun r => match r with Ok x => zq (total_length (fst x)) | Err _ => 0%Q end).

(** all pieces of the appliance switch on together *)
Definition together (a : appliance) : Prop := number (par a) = 1 \/ fixed (par a) <> "no"%string.

(** ** Minutes *)

Lemma near_apart w v rw w' v' rw' : near w v rw -> near w' v' rw' -> apart (widened w v) (widened w' v') -> apart rw rw'.
Proof.
  intros (x0 & x1 & -> & X0 & X1) (y0 & y1 & -> & Y0 & Y1) H. unfold apart, widened in *. cbn [fst snd] in *. lia.
Qed.

Lemma near_empty w v rw : inside_day w -> v = 0 -> fst w = snd w -> near w v rw -> fst rw = snd rw.
Proof. intros [I1 I2] -> E (x0 & x1 & -> & X0 & X1). cbn [fst snd]. lia. Qed.

Lemma always_separated_day F a rws : well_declared F a -> always_separated a -> rand_windows a rws -> separated (nonempty rws).
Proof.
  intros (Hin & Hw & V1 & V2 & V3) Hs (rw1 & rw2 & rw3 & -> & N1 & N2 & N3).
  inversion Hin as [|? ? I1 Hin1]; subst. inversion Hin1 as [|? ? I2 Hin2]; subst. inversion Hin2 as [|? ? I3 _]; subst.
  assert (Z0 : forall rv w, rv = py_int (fmul F (random_var_w (win a)) (zq (length_of w))) -> fst w = snd w -> rv = 0).
  { intros rv w -> E. unfold length_of. replace (snd w - fst w) with 0 by lia. unfold fmul.
    assert (Er : (rnd F (random_var_w (win a) * zq 0) == 0)%Q) by (transitivity (rnd F 0); [apply Qle_antisym; apply rnd_mono; change (zq 0) with 0%Q; rewrite Qmult_0_r; apply Qle_refl|apply rnd_0]).
    apply Z.le_antisymm; [rewrite <- (py_int_zq 0) at 2|rewrite <- (py_int_zq 0) at 1]; apply py_int_mono; change (zq 0) with 0%Q; rewrite Er; apply Qle_refl. }
  set (v1 := random_var_1 (win a)) in *. set (v2 := random_var_2 (win a)) in *. set (v3 := random_var_3 (win a)) in *.
  pose proof (Z0 _ _ V1) as Z1. pose proof (Z0 _ _ V2) as Z2. pose proof (Z0 _ _ V3) as Z3. clear Z0 V1 V2 V3 Hw Hin.
  unfold always_separated in Hs. cbv zeta in Hs. fold v1 v2 v3 in Hs.
  set (w1 := window_1 (win a)) in *. set (w2 := window_2 (win a)) in *. set (w3 := window_3 (win a)) in *. clearbody w1 w2 w3 v1 v2 v3.
  assert (P12 : fst w1 <> snd w1 -> fst w2 <> snd w2 -> apart rw1 rw2).
  { intros E1 E2. apply (near_apart _ _ _ _ _ _ N1 N2). cbn [filter fst snd] in Hs. replace (fst w1 =? snd w1) with false in Hs by (clear -E1; lia). replace (fst w2 =? snd w2) with false in Hs by (clear -E2; lia). cbn [negb map] in Hs.
    inversion Hs as [|? ? Ha _]; subst. inversion Ha as [|? ? Hb _]; subst. exact Hb. }
  assert (P13 : fst w1 <> snd w1 -> fst w3 <> snd w3 -> apart rw1 rw3).
  { intros E1 E2. apply (near_apart _ _ _ _ _ _ N1 N3). cbn [filter fst snd] in Hs. replace (fst w1 =? snd w1) with false in Hs by (clear -E1; lia). replace (fst w3 =? snd w3) with false in Hs by (clear -E2; lia). cbn [negb map] in Hs.
    inversion Hs as [|? ? Ha _]; subst. destruct (fst w2 =? snd w2); cbn [negb map] in Ha.
    - inversion Ha as [|? ? Hb _]; subst. exact Hb.
    - inversion Ha as [|? ? _ Ha']; subst. inversion Ha' as [|? ? Hb _]; subst. exact Hb. }
  assert (P23 : fst w2 <> snd w2 -> fst w3 <> snd w3 -> apart rw2 rw3).
  { intros E1 E2. apply (near_apart _ _ _ _ _ _ N2 N3). cbn [filter fst snd] in Hs. replace (fst w2 =? snd w2) with false in Hs by (clear -E1; lia). replace (fst w3 =? snd w3) with false in Hs by (clear -E2; lia).
    destruct (fst w1 =? snd w1); cbn [negb map] in Hs.
    - inversion Hs as [|? ? Ha _]; subst. inversion Ha as [|? ? Hb _]; subst. exact Hb.
    - inversion Hs as [|? ? _ Hs']; subst. inversion Hs' as [|? ? Ha _]; subst. inversion Ha as [|? ? Hb _]; subst. exact Hb. }
  assert (D1 : fst rw1 <> snd rw1 -> fst w1 <> snd w1) by (intros D E; apply D; exact (near_empty _ _ _ I1 (Z1 E) E N1)).
  assert (D2 : fst rw2 <> snd rw2 -> fst w2 <> snd w2) by (intros D E; apply D; exact (near_empty _ _ _ I2 (Z2 E) E N2)).
  assert (D3 : fst rw3 <> snd rw3 -> fst w3 <> snd w3) by (intros D E; apply D; exact (near_empty _ _ _ I3 (Z3 E) E N3)).
  unfold nonempty, separated. cbn [filter]. clear Hs N1 N2 N3 Z1 Z2 Z3 I1 I2 I3.
  destruct (Z.eqb_spec (fst rw1) (snd rw1)), (Z.eqb_spec (fst rw2) (snd rw2)), (Z.eqb_spec (fst rw3) (snd rw3)); cbn [negb];
    repeat first [apply FOP_nil | apply FOP_cons | apply Forall_nil | apply Forall_cons]; auto.
Qed.

Lemma count_window w : inside_day w -> zlen (filter (fun t => in_win t w) (arange 0 1440)) = length_of w.
Proof.
  intros [H1 H2]. rewrite (arange_app 0 (fst w) 1440) by lia. rewrite (arange_app (fst w) (snd w) 1440) by lia. rewrite !filter_app.
  unfold zlen. rewrite !app_length.
  assert (E : forall l, (forall t, In t l -> in_win t w = false) -> filter (fun t => in_win t w) l = []).
  { induction l as [|t l IH]; intros H; [reflexivity|]. cbn [filter]. rewrite (H t) by now left. apply IH. intros s Hs. apply H. now right. }
  rewrite (E (arange 0 (fst w))), (E (arange (snd w) 1440)).
  - assert (Ef : filter (fun t => in_win t w) (arange (fst w) (snd w)) = arange (fst w) (snd w)).
    { assert (G : forall l, (forall t, In t l -> in_win t w = true) -> filter (fun t => in_win t w) l = l).
      { induction l as [|t l IH]; intros H; [reflexivity|]. cbn [filter]. rewrite (H t) by now left. f_equal. apply IH. intros s Hs. apply H. now right. }
      apply G. intros t Ht. apply in_arange in Ht. unfold in_win. lia. }
    rewrite Ef. pose proof (zlen_arange (fst w) (snd w)) as Hz. unfold zlen in Hz. unfold length_of. cbn [List.length]. lia.
  - intros t Ht. apply in_arange in Ht. unfold in_win. lia.
  - intros t Ht. apply in_arange in Ht. unfold in_win. lia.
Qed.

Lemma count_windows ws : Forall inside_day ws -> separated ws -> zlen (filter (fun t => existsb (in_win t) ws) (arange 0 1440)) = total_length ws.
Proof.
  induction ws as [|w ws IH]; intros H1 H2; cbn [existsb total_length fold_right].
  { induction (arange 0 1440); [reflexivity|assumption]. }
  inversion H1; subst. inversion H2 as [|? ? Ha Hs]; subst. rewrite filter_or_disj; [rewrite count_window, IH by assumption; reflexivity|].
  intros t _ E1 E2. apply existsb_exists in E2 as (w' & Hw' & E2). rewrite Forall_forall in Ha. pose proof (Ha w' Hw') as G. unfold apart, in_win in *. lia.
Qed.

Lemma nonempty_total rws : total_length (nonempty rws) = total_length rws.
Proof.
  unfold nonempty. induction rws as [|w rws IH]; [reflexivity|]. cbn [filter]. destruct (Z.eqb_spec (fst w) (snd w)); cbn [negb]; unfold total_length in *; cbn [fold_right]; unfold length_of in *; lia.
Qed.

Lemma nonempty_in t rws : existsb (in_win t) (nonempty rws) = existsb (in_win t) rws.
Proof.
  unfold nonempty. induction rws as [|w rws IH]; [reflexivity|]. cbn [filter]. destruct (Z.eqb_spec (fst w) (snd w)); cbn [negb existsb]; rewrite IH; [|reflexivity].
  replace (in_win t w) with false; [reflexivity|]. unfold in_win. lia.
Qed.

Lemma count_split {A} (f g : A -> bool) l : (forall x, In x l -> g x = true -> f x = true) ->
  zlen (filter (fun x => f x && negb (g x)) l) = zlen (filter f l) - zlen (filter g l).
Proof.
  induction l as [|x l IH]; intros H; [reflexivity|]. cbn [filter]. pose proof (H x (or_introl eq_refl)) as Hx. specialize (IH (fun y Hy => H y (or_intror Hy))).
  destruct (f x), (g x); cbn [andb negb]; rewrite ?zlen_cons; try lia.
Qed.

(** ** One day *)

Lemma idle_count rws rt evs l : (forall t, existsb (ev_covers t) evs = true -> existsb (in_win t) rws = true) ->
  zlen (filter (fun t => idle t (UsedDay rws rt evs)) l) = zlen (filter (fun t => existsb (in_win t) rws) l) - zlen (filter (fun t => existsb (ev_covers t) evs) l).
Proof.
  intros Hsub. rewrite <- count_split by (intros t _; apply Hsub). apply (f_equal zlen). apply filter_ext. intros t. cbn [idle].
  apply (f_equal (andb (existsb (in_win t) rws))). unfold last_event.
  destruct (find (ev_covers t) (rev evs)) as [e|] eqn:E.
  - apply find_some in E as [E1 E2]. symmetry. apply negb_false_iff. apply existsb_exists. exists e. split; [apply in_rev; exact E1|exact E2].
  - symmetry. apply negb_true_iff. destruct (existsb (ev_covers t) evs) eqn:K; [|reflexivity]. exfalso. apply existsb_exists in K as (e & He & K).
    apply in_rev in He. pose proof (find_none _ _ E e He). congruence.
Qed.

Lemma count_same (f g : Z -> bool) l : (forall t, In t l -> f t = g t) -> zlen (filter f l) = zlen (filter g l).
Proof. intros H. apply (f_equal zlen). apply filter_ext_in. exact H. Qed.

Lemma counting M rws rt evs :
  (forall t, existsb (ev_covers t) evs = true <-> exists e, In e evs /\ In t (ev_indexes e)) ->
  (forall t, existsb (ev_covers t) evs = true -> existsb (in_win t) rws = true) ->
  zlen (filter (fun t => existsb (in_win t) rws) M) = total_length rws ->
  zlen (filter (fun t => existsb (ev_covers t) evs) M) = ev_total evs ->
  (ev_total evs = rt \/ forall s, ~ free_run rws evs s 1) ->
  ev_total evs <= rt -> 100 * rt <= 99 * total_length rws -> 1 <= rt ->
  zlen (filter (fun t => existsb (ev_covers t) evs) M) = rt /\
  zlen (filter (fun t => idle t (UsedDay rws rt evs)) M) = total_length rws - rt.
Proof.
  intros Hcov Hsub Hwin Hon Hfull Htot H99 Hrt. rewrite (idle_count rws rt evs M Hsub), Hwin, Hon.
  cut (ev_total evs = rt); [lia|].
  destruct Hfull as [E|Hfull]; [exact E|exfalso].
  assert (Hall : forall t, In t M -> existsb (in_win t) rws = existsb (ev_covers t) evs).
  { intros t Ht. apply eq_true_iff_eq. split; [|apply Hsub]. intros K. destruct (existsb (ev_covers t) evs) eqn:E; [reflexivity|exfalso].
    apply (Hfull t). intros t' Ht'. replace t' with t by lia. split.
    - apply existsb_exists in K as (w & Hin & Kw). exists w. split; [exact Hin|]. unfold minute_in. unfold in_win in Kw. lia.
    - intros e He Hi. assert (C : existsb (ev_covers t) evs = true) by (apply Hcov; eauto). congruence. }
  pose proof (count_same _ _ _ Hall) as Hc. rewrite Hwin, Hon in Hc. lia.
Qed.

Lemma cover_iff evs : (forall e, In e evs -> exists v, ev_values e = [v]) ->
  forall t, existsb (ev_covers t) evs = true <-> exists e, In e evs /\ In t (ev_indexes e).
Proof.
  intros Hval t. rewrite existsb_exists. split; intros (e & He & K); exists e; (split; [exact He|]).
  - unfold ev_covers in K. apply andb_prop in K as [K _]. apply existsb_exists in K as (y & Hy & E). apply Z.eqb_eq in E. subst. exact Hy.
  - unfold ev_covers. destruct (Hval e He) as (v & ->). change (zlen [v]) with 1. cbn [Z.eqb negb]. rewrite andb_true_r. apply existsb_exists. exists t. split; [exact K|apply Z.eqb_refl].
Qed.

Lemma count_day rws : Forall inside_day rws -> separated (nonempty rws) ->
  zlen (filter (fun t => existsb (in_win t) rws) (arange 0 1440)) = total_length rws.
Proof.
  intros Hday Hs. rewrite <- nonempty_total, <- count_windows; [|apply Forall_forall; intros w Hin; apply in_nonempty in Hin; rewrite Forall_forall in Hday; apply Hday; tauto|exact Hs].
  apply count_same. intros t _. symmetry. apply nonempty_in.
Qed.

Lemma day_events depth F a pref i peak dt pw d rws rt evs :
  func_cycle (par a) = 1 -> fixed_cycle (par a) <= 0 -> 1 <= number (par a) ->
  may (generate_load_profile_traced depth F a pref i peak dt pw) (Ok (d, UsedDay rws rt evs)) ->
  1 <= rt /\ (forall e, In e evs -> exists v, ev_values e = [v]) /\ forall e, In e evs -> together a -> ev_coincidence e = number (par a).
Proof.
  intros Hfc Hfx Hnum H. pose proof (wp_elim _ _ _ (day_spec F depth a pref i peak dt pw ltac:(lia)) H) as G. cbn in G.
  destruct G as (_ & _ & _ & _ & _ & Hrt & _ & [(cyc & HI & _) _ _ _ _]).
  pose proof (inv_ev _ _ _ _ _ _ _ _ _ _ _ HI) as Hok. rewrite Forall_forall in Hok. split; [lia|]. split.
  - intros e He. destruct (Hok e He) as (s & n & n0 & _ & _ & _ & _ & _ & _ & Hv). replace (fixed_cycle (par a) >? 0) with false in Hv by lia. destruct Hv as (v & Hv & _). eauto.
  - intros e He Ht. destruct (Hok e He) as (s & n & n0 & _ & _ & _ & _ & _ & Hc & _). unfold coincidence_ok in Hc.
    destruct Hc as (p0 & pl & _ & _ & Hc). destruct (C10_coincidence F a _ _ Hnum Hc) as (c & [= ->] & Hr & Hfix). destruct Ht as [Ht|Ht]; [lia|auto].
Qed.

Lemma minutes_on_eq evs : minutes_on evs = filter (fun t => existsb (ev_covers t) evs) (arange 0 1440).
Proof. unfold minutes_on. generalize (arange 0 1440). reflexivity. Qed.

(** the minutes on are exactly the drawn time of use, the other minutes of the windows are idle *)
Lemma day_minutes_used depth F a pref i peak dt pw d rws rt evs :
  well_declared F a -> always_separated a -> func_cycle (par a) = 1 -> fixed_cycle (par a) <= 0 -> 1 <= number (par a) ->
  may (generate_load_profile_traced depth F a pref i peak dt pw) (Ok (d, UsedDay rws rt evs)) ->
  zlen (filter (fun t => existsb (ev_covers t) evs) (arange 0 1440)) = rt /\
  zlen (filter (fun t => idle t (UsedDay rws rt evs)) (arange 0 1440)) = total_length rws - rt.
Proof.
  intros Hw Hsep Hfc Hfx Hnum H.
  destruct (C13_overlay depth F a pref i peak dt pw d rws rt evs ltac:(lia) H) as (Hrw & Hday & Hev & _).
  pose proof (always_separated_day F a rws Hw Hsep Hrw) as Hs.
  destruct (C15_exact_on_time depth F a pref i peak dt pw d rws rt evs ltac:(lia) Hs H) as [Hno Hfull]. rewrite Hfc in Hfull.
  destruct (C14_total_on_time depth F a pref i peak dt pw d rws rt evs ltac:(lia) H) as (_ & Htot & _ & H99).
  destruct (day_events depth F a pref i peak dt pw d rws rt evs Hfc Hfx Hnum H) as (Hrt & Hval & _).
  pose proof (cover_iff evs Hval) as Hcov.
  apply counting; try assumption.
  - intros t K. apply Hcov in K as (e & He & Ht). destruct (Hev e He) as (s & n & w & Hr & Hn & Hin & H1 & H2).
    rewrite (run_of_minutes_arange _ _ _ Hr) in Ht. apply in_arange in Ht. apply existsb_exists. exists w. split; [exact Hin|]. unfold in_win. lia.
  - apply count_day; assumption.
  - rewrite <- minutes_on_eq. apply C15_minutes_on; [exact Hno|]. intros e He. split; [destruct (Hval e He) as (v & ->); discriminate|].
    destruct (Hev e He) as (s & n & w & Hr & Hn & Hin & H1 & H2). exists s, n. split; [exact Hr|]. rewrite Forall_forall in Hday. destruct (Hday w Hin). lia.
Qed.

(** ** Means *)

Lemma qsum_count_z (f : Z -> bool) l : (Qsum (map (fun t => if f t then 1 else 0)%Q l) == zq (zlen (filter f l)))%Q.
Proof.
  induction l as [|x l IH]; [reflexivity|]. cbn [map filter]. rewrite qsum_cons, IH. destruct (f x); [rewrite zlen_cons, zq_add; change (zq 1) with 1%Q; ring|ring].
Qed.

Lemma pieces_total a evs : (forall e, In e evs -> ev_coincidence e = number (par a)) ->
  (Qsum (map (fun t => zq (pieces_at t evs)) (arange 0 1440)) == zq (number (par a)) * zq (zlen (filter (fun t => existsb (ev_covers t) evs) (arange 0 1440))))%Q.
Proof.
  intros H. rewrite <- qsum_count_z, <- qsum_scale. apply qsum_ext. intros t _. unfold pieces_at, last_event.
  destruct (find (ev_covers t) (rev evs)) as [e|] eqn:E.
  - apply find_some in E as [E1 E2]. apply in_rev in E1. rewrite (H e E1).
    replace (existsb (ev_covers t) evs) with true; [ring|]. symmetry. apply existsb_exists. eauto.
  - replace (existsb (ev_covers t) evs) with false; [unfold zq at 1; change (inject_Z 0) with 0%Q; ring|]. symmetry.
    destruct (existsb (ev_covers t) evs) eqn:K; [|reflexivity]. exfalso. apply existsb_exists in K as (e & He & K).
    apply in_rev in He. pose proof (find_none _ _ E e He). congruence.
Qed.

(** a day in use of [a] is a day of the same appliance used every day *)
Lemma in_use_traced depth F a pref i peak dt pw r : func_time (par a) <> 0 -> may (day_in_use depth F a i peak pw) r ->
  may (generate_load_profile_traced depth F (every_day a) pref i peak dt pw) r.
Proof.
  intros Hft H. assert (H' : may (day_in_use depth F (every_day a) i peak pw) r).
  { pose proof (psim_may _ _ _ r (psim_sym _ _ _ (in_use_every depth F a i peak pw)) H) as G. destruct r as [x|e]; [|exact G].
    destruct G as (y & Hy & E). subst. exact Hy. }
  rewrite traced_split. apply (may_random 0%Q); [apply Qle_refl|reflexivity|].
  rewrite (skip_allowed (every_day a) pref dt) by (split; [left; reflexivity|]; split; [right; reflexivity|exact Hft]).
  assert (E : (occ_draw F 0 <= 1)%Q) by (apply occ_draw_range; [apply Qle_refl|reflexivity]).
  change (occasional_use (par (every_day a))) with 1%Q. rewrite (proj2 (Qle_bool_iff _ _) E). exact H'.
Qed.

(** a measurement of the windows and the time of use of a day in use *)
Lemma mean_of_day L depth F a i peak pw (g : list (Z * Z) -> Z -> Q) :
  sound_app F a -> fixed_cycle (par a) <= 0 -> flat (par a) <> "yes"%string -> func_time (par a) <> 0 ->
  peak <> [] -> (0 < depth)%nat -> 0 <= i < zlen (power a) ->
  (expect L (day_in_use depth F a i peak pw) (trace_value (fun tr => match tr with UsedDay rws rt _ => g rws rt | _ => 0 end)) ==
   expect L (windows_and_time F a) (fun r => match r with Ok x => g (fst x) (snd x) | Err _ => 0 end))%Q.
Proof.
  intros Hs Hfx Hfl Hft Hp Hd Hi.
  assert (Hne : forall e, ~ may (day_in_use depth F a i peak pw) (Err e)).
  { intros e He. apply (in_use_traced depth F a 0 i peak 0 pw _ Hft) in He.
    destruct (day_total depth F (every_day a) 0 i peak 0 pw _ Hs Hp Hd Hi He) as [(x & [=])|(_ & [_ C] & _)].
    change (fixed_cycle (par (every_day a))) with (fixed_cycle (par a)) in C. lia. }
  unfold day_in_use in *. unfold windows_and_time. rewrite !expect_bind. apply expect_ext. intros [rw1|e] H1; [|reflexivity]. cbn [onward].
  rewrite !expect_bind. apply expect_ext. intros [rw2|e] H2; [|reflexivity]. cbn [onward].
  rewrite !expect_bind. apply expect_ext. intros [rw3|e] H3; [|reflexivity]. cbn [onward]. cbv zeta.
  rewrite !expect_bind. apply expect_ext. intros [rt|e] H4; [|reflexivity]. cbn [onward expect fst snd].
  assert (Hne' : forall e, ~ may (if String.eqb (flat (par a)) "yes"
      then p <- lift (py_index (power a) i) ;; du <- lift (fill_windows (zeros day_minutes) [rw1; rw2; rw3] (fmul F p (zq (number (par a))))) ;; Ret (set_daily_use (set_daily_use (st a) (zeros day_minutes)) du, FlatDay [rw1; rw2; rw3] rt)
      else du <- lift (fill_windows (zeros day_minutes) [rw1; rw2; rw3] (mask_value F)) ;; d1 <- assign_random_cycles F a (set_daily_use (set_daily_use (st a) (zeros day_minutes)) du) ;;
        r <- use_loop (Z.to_nat rt + 2) depth F a peak pw rt 0 (set_free_spots d1 (filter (fun w => negb (fst w =? snd w)) [rw1; rw2; rw3])) [] ;; Ret (fst r, UsedDay [rw1; rw2; rw3] rt (snd r))) (Err e)).
  { intros e He. apply (Hne e). apply may_bind. left. exists rw1. split; [exact H1|]. apply may_bind. left. exists rw2. split; [exact H2|].
    apply may_bind. left. exists rw3. split; [exact H3|]. cbv zeta. apply may_bind. left. exists rt. split; [exact H4|]. exact He. }
  replace (String.eqb (flat (par a)) "yes") with false in * by (symmetry; apply String.eqb_neq; exact Hfl).
  apply expect_sure.
  - apply below_pos_bind; [apply below_pos_lift|intros ?]. apply below_pos_bind; [apply bp_cycles|intros ?]. apply below_pos_bind; [apply bp_loop|intros ?]. exact I.
  - intros [[d tr]|e] Hr; [|exfalso; exact (Hne' e Hr)]. cbn [trace_value].
    apply may_bind in Hr as [(du & _ & Hr)|(x & _ & [=])]. apply may_bind in Hr as [(d1 & _ & Hr)|(x & _ & [=])].
    apply may_bind in Hr as [([d2 evs] & _ & Hr)|(x & _ & [=])]. apply may_ret_inv in Hr. cbn [fst snd] in Hr. injection Hr as -> ->. reflexivity.
Qed.

(** ** C94 *)

(** The mean daily energy of an appliance without duty cycles all of whose pieces switch on together, with the default
    func_cycle of 1 and windows that never touch: the probability of use, times number and power and the mean time of use; and
    the standby mask during the other minutes of the windows. *)
Theorem C94_mean_energy L depth F a pref i peak dt pw :
  exact F -> (0 < depth)%nat -> peak <> [] -> 0 <= i < zlen (power a) -> sound_app F a -> allowed a pref dt ->
  fixed_cycle (par a) <= 0 -> flat (par a) <> "yes"%string -> func_cycle (par a) = 1 -> always_separated a -> together a ->
  (expect L (generate_load_profile depth F a pref i peak dt pw)
     (fun r => match r with Ok a' => watt_minutes (daily_use (st a')) | Err _ => 0 end) ==
   use_chance L (occasional_use (par a)) *
     (zq (number (par a)) * pw * mean_factor L (thermal_p_var (par a)) * mean_time L F a + mask_value F * (mean_window L F a - mean_time L F a)))%Q.
Proof.
  intros HF Hd Hp Hi Hs HA Hfx Hfl Hfc Hsep Htog. pose proof Hs as (Hw & _ & _ & Hnum & _).
  set (k := mean_factor L (thermal_p_var (par a))).
  set (day := generate_load_profile_traced depth F a pref i peak dt pw).
  rewrite (expect_ext L _ _ (fun r => Qsum (map (fun t => profile_value t r) (arange 0 1440)))).
  2: { intros [a'|e] _; [reflexivity|]. cbn [profile_value]. rewrite qsum_const. ring. }
  rewrite (expect_qsum L _ (fun t r => profile_value t r)).
  rewrite (qsum_ext _ (fun t => expect L day (fun r => mask_value F * trace_value (fun tr => if idle t tr then 1 else 0) r + k * pw * trace_value (fun tr => zq (pieces_on t tr)) r))%Q).
  2: { intros t Ht. apply in_arange in Ht. rewrite (C90_mean_power L depth F a pref i peak dt pw t HF Hfx Hfl ltac:(lia) ltac:(lia)). cbv zeta. fold day k.
       rewrite expect_add, !expect_scale. reflexivity. }
  rewrite <- (expect_qsum L day (fun t r => mask_value F * trace_value (fun tr => if idle t tr then 1 else 0) r + k * pw * trace_value (fun tr => zq (pieces_on t tr)) r)%Q).
  set (g := fun (rws : list (Z * Z)) (rt : Z) => (mask_value F * (zq (total_length rws) - zq rt) + k * pw * (zq (number (par a)) * zq rt))%Q).
  rewrite (expect_ext L day _ (trace_value (fun tr => match tr with UsedDay rws rt _ => g rws rt | _ => 0%Q end))).
  - unfold day. rewrite (day_mix depth F L a pref i peak dt pw _ (grid_exact F L HF) HA). cbn [trace_value].
    rewrite (mean_of_day L depth F a i peak pw g Hs Hfx Hfl (proj2 (proj2 HA)) Hp Hd Hi).
    rewrite (expect_ext L (windows_and_time F a) _ (fun r => mask_value F * match r with Ok x => zq (total_length (fst x)) | Err _ => 0 end
       + (k * pw * zq (number (par a)) - mask_value F) * match r with Ok x => zq (snd x) | Err _ => 0 end)%Q).
    + rewrite expect_add, !expect_scale. fold (mean_time L F a) (mean_window L F a). ring.
    + intros [x|e] _; unfold g; ring.
  - intros r Hr. rewrite qsum_add, !qsum_scale. destruct r as [[d tr]|e].
    2: { cbn [trace_value]. rewrite !qsum_const. ring. }
    cbn [trace_value]. destruct tr as [|rws rt|rws rt evs].
    1,2: cbn [idle pieces_on]; unfold zq; change (inject_Z 0) with 0%Q; rewrite !qsum_const; ring.
    destruct (day_minutes_used depth F a pref i peak dt pw d rws rt evs Hw Hsep Hfc Hfx Hnum Hr) as (M1 & M2).
    destruct (day_events depth F a pref i peak dt pw d rws rt evs Hfc Hfx Hnum Hr) as (_ & _ & M3).
    rewrite qsum_count_z, M2. cbn [pieces_on]. rewrite (pieces_total a evs) by (intros e He; apply M3; assumption). rewrite M1. unfold g.
    unfold Z.sub. rewrite zq_add, zq_opp. ring.
Qed.


(** ** The mean time of use *)

(** every time of use that can be drawn is at least func_cycle, and fits in 99% of the narrowest windows *)
Definition roomy (a : appliance) : Prop :=
  let W := win a in let ft := zq (func_time (par a)) in let v := time_var (par a) in
  (0 <= v <= 1)%Q /\ 1 <= func_cycle (par a) /\ (zq (func_cycle (par a)) <= ft * (1 - v))%Q /\
  (100 * (ft * (1 + v)) <= 99 * zq ((length_of (window_1 W) - 2 * random_var_1 W) + (length_of (window_2 W) - 2 * random_var_2 W)
        + (length_of (window_3 W) - 2 * random_var_3 W)))%Q.

Lemma py_round_close x : (x - (1 # 2) <= zq (py_round x) <= x + (1 # 2))%Q.
Proof.
  unfold py_round. cbv zeta. pose proof (Qfloor_le x) as H1. pose proof (Qlt_floor x) as H2. change (inject_Z (Qfloor x)) with (zq (Qfloor x)) in *.
  change (inject_Z (Qfloor x + 1)) with (zq (Qfloor x + 1)) in H2. rewrite zq_add in H2. change (zq 1) with 1%Q in H2.
  destruct (Qltb (x - zq (Qfloor x)) (1 # 2)) eqn:E1; [apply Qltb_lt in E1; lra|]. assert (E1' : ~ (x - zq (Qfloor x) < 1 # 2)%Q) by (intros C; apply Qltb_lt in C; congruence).
  destruct (Qltb (1 # 2) (x - zq (Qfloor x))) eqn:E2; [rewrite zq_add; change (zq 1) with 1%Q; lra|]. assert (E2' : ~ (1 # 2 < x - zq (Qfloor x))%Q) by (intros C; apply Qltb_lt in C; congruence).
  destruct (Z.even (Qfloor x)); [lra|rewrite zq_add; change (zq 1) with 1%Q; lra].
Qed.

Section Inner.
Context (L : law) (F : fm) (a : appliance) (HF : exact F) (Hr : roomy a) (Hw : well_declared F a).
Context (rw1 rw2 rw3 : Z * Z).
Context (N1 : near (window_1 (win a)) (random_var_1 (win a)) rw1) (N2 : near (window_2 (win a)) (random_var_2 (win a)) rw2) (N3 : near (window_3 (win a)) (random_var_3 (win a)) rw3).

Lemma narrowest : (100 * (zq (func_time (par a)) * (1 + time_var (par a))) <= 99 * zq (diff rw1 + diff rw2 + diff rw3))%Q.
Proof.
  destruct Hr as (Hv & Hc0 & Hc & H99). destruct Hw as (Hin & Hvw & V1 & V2 & V3).
  inversion Hin as [|? ? I1 Hin1]; subst. inversion Hin1 as [|? ? I2 Hin2]; subst. inversion Hin2 as [|? ? I3 _]; subst.
  assert (K : forall w rv rw, inside_day w -> rv = py_int (fmul F (random_var_w (win a)) (zq (length_of w))) -> near w rv rw -> length_of w - 2 * rv <= diff rw).
  { intros w rv rw [I0 I0'] Erv (y0 & y1 & -> & Y0 & Y1). destruct (random_var_half F (random_var_w (win a)) (length_of w) (proj1 Hvw) (proj2 Hvw)) as [R1 R2]; [unfold length_of; lia|].
    rewrite <- Erv in R1, R2. unfold length_of, diff in *. cbn [fst snd]. lia. }
  pose proof (K _ _ _ I1 V1 N1). pose proof (K _ _ _ I2 V2 N2). pose proof (K _ _ _ I3 V3 N3).
  eapply Qle_trans; [exact H99|]. apply Qmult_le_l; [reflexivity|]. apply zq_le. lia.
Qed.

(** one pair of draws *)
Lemma one_draw i j : 0 <= i < steps L -> 0 <= j < steps L ->
  let ft := zq (func_time (par a)) in let v := time_var (par a) in
  let u := (zq i / zq (steps L))%Q in let w := (zq j / zq (steps L))%Q in
  let r := rand_total_time_of_use F a rw1 rw2 rw3 in
  exists t : Z, (match r with Random k => match k u with Random k' => k' w | q => q end | q => q end) = Ret t /\
    (ft + (ft * (2 * v * u - v) - 1) * w - (1 # 2) <= zq t <= ft + ft * (2 * v * u - v) * w + (1 # 2))%Q /\ (v == 0 -> t = func_time (par a))%Q.
Proof.
  intros Hi Hj ft v u w r. destruct Hr as (Hv & Hc0 & Hc & _). fold ft v in Hc, Hv.
  destruct (draw_in L i Hi) as [U0 U1]. destruct (draw_in L j Hj) as [W0 W1]. fold u in U0, U1. fold w in W0, W1.
  pose proof narrowest as Hn. fold ft v in Hn.
  unfold r, rand_total_time_of_use, random_variation, py_uniform. cbv zeta. cbn [bind]. fold ft v. fold (diff rw1) in *.
  set (m := py_int _). set (T := diff rw1 + diff rw2 + diff rw3) in *.
  assert (Hc0' : (1 <= zq (func_cycle (par a)))%Q) by (apply (proj2 (zq_le 1 _)); exact Hc0).
  assert (Hft : (0 <= ft)%Q) by (destruct (Qlt_le_dec ft 0) as [C|C]; [exfalso; nra|exact C]).
  set (x := (ft * (1 + (2 * v * u - v)))%Q).
  assert (Hx : (ft * (1 - v) <= x <= ft * (1 + v))%Q) by (unfold x; assert (G : (0 <= v * u <= v)%Q) by nra; split; rewrite !(Qmult_comm ft); apply Qmult_le_compat_r; lra).
  assert (Em : m = py_int x).
  { unfold m. unfold fmul, fadd, fsub. apply Z.le_antisymm; apply py_int_mono; apply Qle_of_eq; rewrite !(HF _); unfold x; ring. }
  clearbody m. subst m.
  destruct (py_int_cases x) as [(_ & P1 & P2)|(C & _)]; [|lra].
  assert (B1 : func_cycle (par a) <= py_int x) by (rewrite <- (py_int_zq (func_cycle (par a))); apply py_int_mono; lra).
  assert (B2 : func_cycle (par a) <= func_time (par a)) by (apply zq_le; fold ft; nra).
  set (y := (ft + (zq (py_int x) - ft) * w)%Q).
  assert (Hy : (zq (Z.min (py_int x) (func_time (par a))) <= y <= zq (Z.max (py_int x) (func_time (par a))))%Q).
  { unfold y. destruct (Z.le_ge_cases (py_int x) (func_time (par a))) as [G|G].
    - rewrite Z.min_l, Z.max_r by exact G. fold ft. apply zq_le in G. fold ft in G. split; nra.
    - rewrite Z.min_r, Z.max_l by exact G. fold ft. apply zq_le in G. fold ft in G. split; nra. }
  exists (py_round y).
  pose proof (py_round_range _ _ _ Hy) as Hry. pose proof (py_round_close y) as Hcl.
  assert (Ey : forall z, (z == y)%Q -> py_round z = py_round y) by (intros z; apply PropsPeak.py_round_comp).
  rewrite Ey by (unfold fmul, fadd, fsub; rewrite !(HF _); unfold y; ring).
  assert (Ht : (100 * zq (py_round y) <= 99 * zq T)%Q).
  { eapply Qle_trans; [|exact Hn]. apply Qmult_le_l; [reflexivity|].
    assert (G : (zq (Z.max (py_int x) (func_time (par a))) <= ft * (1 + v))%Q) by (destruct (Z.max_spec (py_int x) (func_time (par a))) as [[_ ->]|[_ ->]]; [fold ft; nra|lra]).
    eapply Qle_trans; [|exact G]. apply zq_le. lia. }
  replace (py_round y <? func_cycle (par a)) with false by lia.
  replace (Qltb _ _) with false.
  - replace (py_round y <? func_cycle (par a)) with false by lia. split; [reflexivity|].
    assert (Yd : (y == ft + (zq (py_int x) - ft) * w)%Q) by reflexivity. assert (G1 : ((zq (py_int x) - ft) * w <= (x - ft) * w)%Q) by (apply Qmult_le_compat_r; lra).
    assert (G2 : ((x - ft - 1) * w <= (zq (py_int x) - ft) * w)%Q) by (apply Qmult_le_compat_r; lra).
    assert (E : (ft * (2 * v * u - v) == x - ft)%Q) by (unfold x; ring). split; [rewrite E; lra|]. intros V0.
    assert (Xe : py_int x = func_time (par a)).
    { rewrite <- (py_int_zq (func_time (par a))). apply Z.le_antisymm; apply py_int_mono; apply Qle_of_eq; unfold x; rewrite V0; fold ft; ring. }
    rewrite <- (py_round_zq (func_time (par a))). apply PropsPeak.py_round_comp. rewrite Yd, Xe. fold ft. ring.
  - symmetry. apply not_true_iff_false. intros C. apply Qltb_lt in C. unfold fmul, flit in C. rewrite !(HF _) in C. lra.
Qed.

(** the mean over the two draws *)
Lemma mean_inner :
  let ft := zq (func_time (par a)) in
  let m := expect L (rand_total_time_of_use F a rw1 rw2 rw3) (fun r => match r with Ok t => zq t | Err _ => 0%Q end) in
  (ft - 1 - ft * time_var (par a) / (2 * zq (steps L)) <= m <= ft + (1 # 2))%Q.
Proof.
  intros ft m. set (v := time_var (par a)). pose proof (zq_pos _ (steps_pos L)) as Hq. pose proof (steps_pos L) as Hs0.
  set (n := zq (steps L)) in *. set (U := fun i : Z => (zq i / n)%Q).
  assert (Hd : forall i j, 0 <= i < steps L -> 0 <= j < steps L -> exists t : Z,
     (match rand_total_time_of_use F a rw1 rw2 rw3 with Random k => match k (U i) with Random k' => k' (U j) | q => q end | q => q end) = Ret t /\
     (ft + (ft * (2 * v * U i - v) - 1) * U j - (1 # 2) <= zq t <= ft + ft * (2 * v * U i - v) * U j + (1 # 2))%Q) by (intros i j Hi Hj; destruct (one_draw i j Hi Hj) as (t & E & H & _); exists t; split; [exact E|exact H]).
  unfold m, rand_total_time_of_use, random_variation, py_uniform in *. cbv zeta in *. cbn [bind expect] in *. fold n.
  match goal with |- (_ <= average _ (fun i => average _ (fun j => @?G i j)) <= _)%Q => set (g := G) end.
  assert (B : forall i j, 0 <= i < steps L -> 0 <= j < steps L ->
     (ft + (ft * (2 * v * U i - v) - 1) * U j - (1 # 2) <= g i j <= ft + ft * (2 * v * U i - v) * U j + (1 # 2))%Q).
  { intros i j Hi Hj. destruct (Hd i j Hi Hj) as (t & E & H). unfold g. cbv beta. change (zq i / n)%Q with (U i). change (zq j / n)%Q with (U j). rewrite E. exact H. }
  change (ft - 1 - ft * v / (2 * n) <= average (steps L) (fun i => average (steps L) (g i)) <= ft + (1 # 2))%Q.
  clearbody g. clear m Hd. set (c := ((1 - 1 / n) * (1 # 2))%Q).
  assert (Hc : (0 <= c <= 1 # 2)%Q).
  { assert (1 <= n)%Q by (apply (proj2 (zq_le 1 _)); lia). assert (0 < 1 / n <= 1)%Q by (split; [apply Qlt_shift_div_l; lra|apply Qle_shift_div_r; lra]). unfold c. lra. }
  assert (A : forall (p q : Q) (h : Z -> Q), (forall j, (h j == p + q * U j)%Q) -> (average (steps L) h == p + q * c)%Q).
  { intros p q h Hh. rewrite (average_ext _ h (fun j => p + q * (zq j / zq (steps L)))%Q) by (intros; apply Hh). rewrite average_affine. fold n. unfold c. ring. }
  assert (Ec : (2 * c == 1 - 1 / n)%Q) by (unfold c; ring).
  assert (Hv : (0 <= v)%Q) by apply Hr.
  assert (Hft : (0 <= ft)%Q).
  { destruct Hr as (Hv1 & Hc0 & Hc1 & _). fold v ft in Hc1, Hv1. assert (1 <= zq (func_cycle (par a)))%Q by (apply (proj2 (zq_le 1 _)); exact Hc0). destruct (Qlt_le_dec ft 0) as [C|C]; [exfalso; nra|exact C]. }
  assert (Hk : (0 <= ft * v / n)%Q) by (apply Qle_shift_div_l; [exact Hq|]; rewrite Qmult_0_l; nra).
  assert (Hk2 : (ft * v / n * c <= ft * v / n * (1 # 2))%Q) by (rewrite !(Qmult_comm (ft * v / n)); apply Qmult_le_compat_r; lra).
  assert (Ek : (ft * v / (2 * n) == ft * v / n * (1 # 2))%Q) by (field; lra).
  split.
  - apply Qle_trans with (average (steps L) (fun i => average (steps L) (fun j => ft - (1 # 2) + (ft * (2 * v * U i - v) - 1) * U j)))%Q.
    2: { apply average_le; [lia|]. intros i Hi. apply average_le; [lia|]. intros j Hj. destruct (B i j Hi Hj). lra. }
    rewrite (average_ext _ _ (fun i => (ft - (1 # 2) - (ft * v + 1) * c) + (2 * ft * v * c) * U i)%Q) by (intros i _; rewrite (A _ _ _ (fun j => Qeq_refl _)); ring).
    rewrite (A _ _ _ (fun j => Qeq_refl _)).
    assert (E : (2 * ft * v * c * c == (ft * v - ft * v / n) * c)%Q) by (transitivity (ft * v * c * (2 * c))%Q; [ring|rewrite Ec; field; lra]).
    rewrite E, Ek. lra.
  - apply Qle_trans with (average (steps L) (fun i => average (steps L) (fun j => ft + (1 # 2) + (ft * (2 * v * U i - v)) * U j)))%Q.
    { apply average_le; [lia|]. intros i Hi. apply average_le; [lia|]. intros j Hj. destruct (B i j Hi Hj). lra. }
    rewrite (average_ext _ _ (fun i => (ft + (1 # 2) - ft * v * c) + (2 * ft * v * c) * U i)%Q) by (intros i _; rewrite (A _ _ _ (fun j => Qeq_refl _)); ring).
    rewrite (A _ _ _ (fun j => Qeq_refl _)).
    assert (E : (2 * ft * v * c * c == (ft * v - ft * v / n) * c)%Q) by (transitivity (ft * v * c * (2 * c))%Q; [ring|rewrite Ec; field; lra]).
    assert (0 <= ft * v / n * c)%Q by (apply Qmult_le_0_compat; lra).
    rewrite E. lra.
Qed.

Lemma no_variation_inner : (time_var (par a) == 0)%Q ->
  (expect L (rand_total_time_of_use F a rw1 rw2 rw3) (fun r => match r with Ok t => zq t | Err _ => 0%Q end) == zq (func_time (par a)))%Q.
Proof.
  intros V0. pose proof one_draw as Hd. cbv zeta in Hd. unfold rand_total_time_of_use, random_variation, py_uniform in *. cbv zeta in *. cbn [bind expect] in *.
  rewrite <- (average_const (steps L) (zq (func_time (par a))) (steps_pos L)). apply average_ext. intros i Hi.
  rewrite <- (average_const (steps L) (zq (func_time (par a))) (steps_pos L)). apply average_ext. intros j Hj.
  destruct (Hd i j Hi Hj) as (t & E & _ & Ht). rewrite E. rewrite (Ht V0). reflexivity.
Qed.
End Inner.

Lemma never_raises F a w rv r : (0 <= random_var_w (win a) <= 1 # 2)%Q -> inside_day w -> rv = py_int (fmul F (random_var_w (win a)) (zq (length_of w))) ->
  may (calc_rand_window w rv) r -> exists rw, r = Ok rw /\ near w rv rw.
Proof.
  intros Hv [I0 I1] E H. destruct (random_var_half F (random_var_w (win a)) (length_of w) (proj1 Hv) (proj2 Hv)) as [R1 R2]; [unfold length_of; lia|]. rewrite <- E in R1.
  destruct (wp_elim _ _ _ (calc_rand_window_spec w rv) H) as [[C _]|(y0 & y1 & _ & -> & Y0 & Y1)]; [lia|]. eexists. split; [reflexivity|]. exists y0, y1. auto.
Qed.

(** The mean time of use is func_time, to a minute: the first draw is cut to whole minutes, so it errs on the low side. *)
Theorem C94_mean_time L F a :
  exact F -> well_declared F a -> roomy a ->
  let ft := zq (func_time (par a)) in
  (ft - 1 - ft * time_var (par a) / (2 * zq (steps L)) <= mean_time L F a <= ft + (1 # 2))%Q /\
  (time_var (par a) == 0 -> mean_time L F a == ft)%Q.
Proof.
  intros HF Hw Hr ft.
  assert (K : forall lo hi : Q, (forall rw1 rw2 rw3, near (window_1 (win a)) (random_var_1 (win a)) rw1 -> near (window_2 (win a)) (random_var_2 (win a)) rw2 -> near (window_3 (win a)) (random_var_3 (win a)) rw3 ->
     (lo <= expect L (rand_total_time_of_use F a rw1 rw2 rw3) (fun r => match r with Ok t => zq t | Err _ => 0%Q end) <= hi)%Q) -> (lo <= mean_time L F a <= hi)%Q).
  { intros lo hi H. destruct Hw as (Hin & Hvw & V1 & V2 & V3).
    inversion Hin as [|? ? I1 Hin1]; subst. inversion Hin1 as [|? ? I2 Hin2]; subst. inversion Hin2 as [|? ? I3 _]; subst.
    assert (W : forall A (p : prog A) f, below_pos p -> (forall r, may p r -> (lo <= f r <= hi)%Q) -> (lo <= expect L p f <= hi)%Q).
    { intros A p f Hb Hf. split; [rewrite <- (expect_const L p lo Hb)|rewrite <- (expect_const L p hi Hb)]; apply expect_le; try exact Hb; intros r Hr'; apply Hf; exact Hr'. }
    unfold mean_time, windows_and_time. rewrite expect_bind. apply W; [apply bp_window|]. intros r1 M1. destruct (never_raises F a _ _ _ Hvw I1 V1 M1) as (rw1 & -> & N1). cbn [onward].
    rewrite expect_bind. apply W; [apply bp_window|]. intros r2 M2. destruct (never_raises F a _ _ _ Hvw I2 V2 M2) as (rw2 & -> & N2). cbn [onward].
    rewrite expect_bind. apply W; [apply bp_window|]. intros r3 M3. destruct (never_raises F a _ _ _ Hvw I3 V3 M3) as (rw3 & -> & N3). cbn [onward].
    rewrite expect_bind. rewrite (expect_ext L _ _ (fun r => match r with Ok t => zq t | Err _ => 0%Q end)) by (intros [t|e] _; reflexivity). apply H; assumption. }
  split.
  - apply K. intros rw1 rw2 rw3 N1 N2 N3. exact (mean_inner L F a HF Hr Hw rw1 rw2 rw3 N1 N2 N3).
  - intros V0. destruct (K ft ft) as [G1 G2]; [|apply Qle_antisym; assumption].
    intros rw1 rw2 rw3 N1 N2 N3. pose proof (no_variation_inner L F a HF Hr Hw rw1 rw2 rw3 N1 N2 N3 V0) as E. fold ft in E. split; apply Qle_of_eq; [symmetry|]; exact E.
Qed.

(** ** A case: three 50 W lamps, 120 minutes a day, on together, in the morning and in the evening *)

Definition three_lamps : appliance :=
  App (Params "lamps" 3 2 120 (1 # 10) 1 "yes" 0 1 1 "no" (1 # 10) 0 2) [50%Q; 60%Q] false demo_wins default_cycle default_cycle default_cycle default_dyn.

Example C94_case :
  exact exact_fm /\ 0 <= 0 < zlen (power three_lamps) /\ sound_app exact_fm three_lamps /\ allowed three_lamps 0 0 /\ fixed_cycle (par three_lamps) <= 0 /\
  flat (par three_lamps) <> "yes"%string /\ func_cycle (par three_lamps) = 1 /\ always_separated three_lamps /\ together three_lamps /\ roomy three_lamps.
Proof.
  split; [exact exact_exact_fm|]. split; [cbn; lia|]. split.
  { split; [|split; [|split; [|split]]]; [|vm_compute; reflexivity|cbn; lia|cbn; lia|intros [_ C]; cbn in C; lia].
    split; [repeat (apply Forall_cons; [unfold inside_day; cbn; lia|]); apply Forall_nil|]. split; [vm_compute; split; discriminate|]. repeat split; vm_compute; reflexivity. }
  split; [repeat split; cbn; auto; discriminate|]. split; [cbn; lia|]. split; [discriminate|]. split; [reflexivity|]. split.
  { unfold always_separated. cbn. repeat first [apply FOP_nil | apply FOP_cons | apply Forall_nil | apply Forall_cons]; unfold apart, widened; cbn [fst snd]; lia. }
  split; [right; discriminate|]. unfold roomy. cbv zeta. split; [cbn; split; discriminate|]. split; [cbn; lia|]. split; vm_compute; discriminate.
Qed.
