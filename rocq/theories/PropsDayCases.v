(** * PropsDayCases: concrete days for C12-C24 (non-vacuity) and refutations *)
From Verif Require Import Base Wp Tape Utils ListLemmas Appliance Spec SpecDay ProofsUtils ProofsUtils2
  ProofsAppliance ProofsEvent ProofsEvent2 PropsBasic ProofsDay ProofsDay2 ProofsDay3 PropsDay.
From Coq Require Import ZifyBool ZifyNat.

(** ** A used day of [demo]: four events, the last one cut to one minute *)

Definition demo_tape : list draw :=
  [DQ (1 # 2);                                              (* occasional use *)
   DZ 12; DZ 12; DZ 24; DZ 24; DZ 0; DZ 0;                  (* windows: declared bounds *)
   DQ (1 # 2); DQ (1 # 2);                                  (* total time: 120 *)
   DZ 0; DQ (1 # 2); DQ (1 # 2); DQ (1 # 2);
   DZ 0; DQ 0; DQ (1 # 2); DQ (1 # 2);
   DZ 0; DQ (99 # 100); DQ (1 # 2); DQ (1 # 2);
   DZ 0; DQ 0; DQ (1 # 2); DQ (1 # 2)].

Definition demo_day := day 5 exact_fm demo 0 0 (arange 700 720) 0 50%Q.

Definition ev_minutes (evs : list event) : list (Z * Z) := map (fun e => (ev_start e, ev_dur e)) evs.

Example day_case : exists d evs,
  may demo_day (Ok (d, UsedDay [(480, 600); (1080, 1320); (0, 0)] 120 evs)) /\
  ev_minutes evs = [(480, 65); (545, 10); (555, 44); (1080, 1)] /\
  map ev_values evs = [[100%Q]; [100%Q]; [100%Q]; [100%Q]].
Proof.
  destruct (follow demo_day demo_tape) as [[[d tr]|]|] eqn:E; [|vm_compute in E; discriminate|vm_compute in E; discriminate].
  pose proof (follow_may _ _ _ E) as H. vm_compute in E.
  injection E as <- <-. eexists. eexists. split; [exact H|]. split; vm_compute; reflexivity.
Qed.

(** its randomised windows are separated, so C15 applies to it *)
Example day_case_separated : separated (nonempty [(480, 600); (1080, 1320); (0, 0)]).
Proof. vm_compute. repeat constructor. Qed.

Lemma ev_minutes_durs evs : map snd (ev_minutes evs) = map ev_dur evs.
Proof. unfold ev_minutes. rewrite map_map. reflexivity. Qed.

(** ** C16 refuted: the fourth event lasts 1 minute although func_cycle is 10 *)

Theorem C16_minimum_duration_refuted :
  exists depth F a pref i peak dt pw d rws rt evs e,
    func_cycle (par a) = 10 /\ fixed_cycle (par a) = 0 /\
    may (day depth F a pref i peak dt pw) (Ok (d, UsedDay rws rt evs)) /\
    In e evs /\ ev_dur e = 1.
Proof.
  destruct day_case as (d & evs & H & Hm & _).
  destruct evs as [|e1 [|e2 [|e3 [|e4 [|]]]]]; try discriminate Hm.
  injection Hm as _ _ _ _ _ _ _ Hd.
  exists 5%nat, exact_fm, demo, 0, 0, (arange 700 720), 0, 50%Q, d, [(480, 600); (1080, 1320); (0, 0)], 120,
    [e1; e2; e3; e4], e4.
  split; [reflexivity|]. split; [reflexivity|]. split; [exact H|]. split; [cbn; tauto|exact Hd].
Qed.

(** ** C21 refuted: the draw u = 0 uses an appliance with occasional_use = 0 *)

Definition demo_never : appliance :=
  set_par demo (Params "tv" 3 2 120 (1 # 10) 10 "no" 0 1 0 "no" (1 # 10) 0 2).

Theorem C21_occasional_zero_refuted :
  exists depth F a pref i peak dt pw a' t,
    (occasional_use (par a) == 0)%Q /\
    may (generate_load_profile depth F a pref i peak dt pw) (Ok a') /\
    (value_at (daily_use (st a')) t == 100)%Q.
Proof.
  exists 5%nat, exact_fm, demo_never, 0, 0, (arange 700 720), 0, 50%Q.
  destruct (follow_check (generate_load_profile 5 exact_fm demo_never 0 0 (arange 700 720) 0 50)
    (DQ 0 :: tl demo_tape)
    (fun a' => Qeq_bool (value_at (daily_use (st a')) 480) 100)) as (a' & H & Hc).
  { vm_compute. reflexivity. }
  exists a', 480. split; [reflexivity|]. split; [exact H|]. apply Qeq_bool_eq. exact Hc.
Qed.

(** ** C15: separation is needed.  Two touching windows let two events share a minute. *)

Definition touching : appliance :=
  App (Params "radio" 1 2 2 0 1 "yes" 0 1 1 "no" 0 0 2) (repeat 50%Q 3) true
      (Wins (0, 10) (10, 20) (0, 0) 0 0 0 0) default_cycle default_cycle default_cycle default_dyn.

Definition touching_tape : list draw :=
  [DQ (1 # 2); DZ 0; DZ 0; DZ 0; DZ 0; DZ 0; DZ 0; DQ (1 # 2); DQ (1 # 2);
   DZ 10; DQ 0; DQ (1 # 2);
   DZ 10; DQ 0; DQ (1 # 2);
   DZ 0; DQ 0].

Theorem C15_touching_windows_refuted :
  exists depth F a pref i peak dt pw d rws rt evs,
    1 <= func_cycle (par a) /\ pairwise_disjoint (nonempty rws) /\
    may (day depth F a pref i peak dt pw) (Ok (d, UsedDay rws rt evs)) /\
    ~ no_overlap evs /\ ev_total evs = rt /\ zlen (minutes_on evs) < rt.
Proof.
  exists 5%nat, exact_fm, touching, 0, 0, (arange 700 720), 0, 50%Q.
  destruct (follow (day 5 exact_fm touching 0 0 (arange 700 720) 0 50) touching_tape) as [[[d tr]|]|] eqn:E;
    [|vm_compute in E; discriminate|vm_compute in E; discriminate].
  pose proof (follow_may _ _ _ E) as H. vm_compute in E. injection E as <- <-.
  do 4 eexists. split; [vm_compute; discriminate|]. split; [|split; [exact H|]].
  - vm_compute. repeat constructor. all: discriminate.
  - split; [|split; vm_compute; reflexivity].
    intros Hc. inversion Hc as [|e l Hh Ht]; subst. inversion Hh as [|e' l' Hd _]; subst.
    apply (Hd 10); cbn; auto.
Qed.

(** ** C19 refuted *)

Definition two_cycles (fc ft cont : Z) (w1 w2 v1 v2 : Z * Z) : appliance :=
  App (Params "fridge" 1 1 ft 0 fc "yes" 2 cont 1 "no" 0 0 2) (repeat 100%Q 3) true
      (Wins (0, 200) (0, 0) (0, 0) 0 0 0 0)
      (Cycle 100 5 20 5 0 w1 w2) (Cycle 200 5 40 5 0 v1 v2) default_cycle default_dyn.

Definition cycle_day (a : appliance) := day 5 exact_fm a 0 0 (arange 700 720) 0 100%Q.
Definition draws_before : list draw :=
  DQ (1 # 2) :: repeat (DZ 0) 6 ++ repeat (DQ (1 # 2)) 10.

(** (a) cycle 2 was never given a window (both keep the constructor's [0,0]), yet the event
    starting at minute 0 uses it *)
Theorem C19_undeclared_cycle_refuted :
  exists depth F a pref i peak dt pw d rws rt evs e,
    declared_windows a 2 = [(0, 0); (0, 0)] /\ declared_windows a 2 = [cwa default_cycle; cwb default_cycle] /\
    may (day depth F a pref i peak dt pw) (Ok (d, UsedDay rws rt evs)) /\ In e evs /\
    ev_cycle e = 2 /\ ev_dur e = 50.
Proof.
  set (a := two_cycles 50 100 1 (100, 200) (100, 200) (0, 0) (0, 0)).
  exists 5%nat, exact_fm, a, 0, 0, (arange 700 720), 0, 100%Q.
  destruct (follow (cycle_day a) (draws_before ++ [DZ 0; DQ 0; DZ 50; DQ 0; DZ 1])) as [[[d tr]|]|] eqn:E;
    [|vm_compute in E; discriminate|vm_compute in E; discriminate].
  pose proof (follow_may _ _ _ E) as H. vm_compute in E. injection E as <- <-.
  do 5 eexists. split; [reflexivity|]. split; [reflexivity|]. split; [exact H|].
  split; [left; reflexivity|]. split; vm_compute; reflexivity.
Qed.

(** (b) an event of cycle 1 that meets none of the windows of cycle 1: the range it was
    selected for was cut to one cycle afterwards *)
Theorem C19_cut_event_refuted :
  exists depth F a pref i peak dt pw d rws rt evs e,
    may (day depth F a pref i peak dt pw) (Ok (d, UsedDay rws rt evs)) /\ In e evs /\ ev_cycle e = 1 /\
    forall w, In w (declared_windows a 1) -> ~ meets (ev_start e) (ev_start e + ev_dur e - 1) w.
Proof.
  set (a := two_cycles 20 20 0 (15, 30) (15, 30) (0, 0) (0, 0)).
  exists 5%nat, exact_fm, a, 0, 0, (arange 700 720), 0, 100%Q.
  destruct (follow (cycle_day a) (draws_before ++ [DZ 0; DZ 0; DZ 0])) as [[[d tr]|]|] eqn:E;
    [|vm_compute in E; discriminate|vm_compute in E; discriminate].
  pose proof (follow_may _ _ _ E) as H. vm_compute in E. injection E as <- <-.
  do 5 eexists. split; [exact H|]. split; [left; reflexivity|]. split; [reflexivity|].
  intros w [<-|[<-|[]]] (m & M1 & M2); cbn in M1, M2; lia.
Qed.

(** the hypotheses of C18 and C19 are met by the same day *)
Example C18_case : exists d rws rt evs,
  may (cycle_day (two_cycles 50 100 1 (100, 200) (100, 200) (0, 0) (0, 0))) (Ok (d, UsedDay rws rt evs)) /\
  ev_minutes evs = [(0, 50); (100, 50)] /\ map ev_cycle evs = [2; 1] /\
  (value_at (daily_use d) 7 == 40)%Q /\ (value_at (daily_use d) 110 == 100)%Q.
Proof.
  destruct (follow (cycle_day (two_cycles 50 100 1 (100, 200) (100, 200) (0, 0) (0, 0)))
    (draws_before ++ [DZ 0; DQ 0; DZ 50; DQ 0; DZ 1])) as [[[d tr]|]|] eqn:E;
    [|vm_compute in E; discriminate|vm_compute in E; discriminate].
  pose proof (follow_may _ _ _ E) as H. vm_compute in E. injection E as <- <-.
  do 4 eexists. split; [exact H|]. repeat split; vm_compute; reflexivity.
Qed.

(** ** C24 refuted: documented parameters that make the day raise *)

Definition with_par (p : params) : appliance :=
  App p (repeat 50%Q 3) true (Wins (100, 200) (0, 0) (0, 0) 0 0 0 0) default_cycle default_cycle default_cycle default_dyn.

Lemma follow_err {A} (p : prog A) ds e : follow p ds = Some (Err e) -> may p (Err e).
Proof. apply follow_may. Qed.

(** number = 0, off peak: division by zero *)
Theorem C24_zero_number_refuted :
  exists depth F a pref i peak dt pw,
    number (par a) = 0 /\ func_cycle (par a) = 1 /\ well_declared F a /\ cycle_fits a /\ peak <> [] /\
    may (day depth F a pref i peak dt pw) (Err ZeroDivisionError).
Proof.
  exists 5%nat, exact_fm, (with_par (Params "tv" 0 1 10 0 1 "no" 0 1 1 "no" 0 0 2)), 0, 0, (arange 700 720), 0, 50%Q.
  split; [reflexivity|]. split; [reflexivity|]. split; [|split; [vm_compute; reflexivity|split; [discriminate|]]].
  - unfold well_declared. cbn [win with_par window_1 window_2 window_3 random_var_w].
    split; [repeat constructor; cbn; discriminate|]. split; [split; discriminate|]. repeat split.
  - apply (follow_may _ ([DQ (1 # 2)] ++ repeat (DZ 0) 6 ++ [DQ (1 # 2); DQ (1 # 2); DZ 0; DQ 0])).
    vm_compute. reflexivity.
Qed.

(** func_cycle = 0: an event of zero minutes, indexes[0] fails *)
Theorem C24_zero_cycle_refuted :
  exists depth F a pref i peak dt pw,
    number (par a) = 1 /\ func_cycle (par a) = 0 /\ well_declared F a /\ cycle_fits a /\ peak <> [] /\
    may (day depth F a pref i peak dt pw) (Err IndexError).
Proof.
  exists 5%nat, exact_fm, (with_par (Params "tv" 1 1 10 0 0 "no" 0 1 1 "no" 0 0 2)), 0, 0, (arange 700 720), 0, 50%Q.
  split; [reflexivity|]. split; [reflexivity|]. split; [|split; [vm_compute; reflexivity|split; [discriminate|]]].
  - unfold well_declared. cbn [win with_par window_1 window_2 window_3 random_var_w].
    split; [repeat constructor; cbn; discriminate|]. split; [split; discriminate|]. repeat split.
  - apply (follow_may _ ([DQ (1 # 2)] ++ repeat (DZ 0) 6 ++ [DQ (1 # 2); DQ (1 # 2); DZ 0; DQ 0])).
    vm_compute. reflexivity.
Qed.

(** random_var_w = 1 (documented range [0,1]): the randomised window is inverted *)
Definition full_variability : appliance :=
  fst (windows exact_fm (with_par (Params "tv" 1 1 10 0 5 "no" 0 1 1 "no" 0 0 2)) (Some (100, 200)) None 1 None).
Theorem C24_inverted_window_refuted :
  exists depth F a pref i peak dt pw,
    1 <= number (par a) /\ 1 <= func_cycle (par a) /\ (random_var_w (win a) == 1)%Q /\
    (* the appliance comes from a successful call of windows() *)
    windows F (with_par (par a)) (Some (100, 200)) None 1 None = (a, None) /\ peak <> [] /\
    may (day depth F a pref i peak dt pw) (Err ValueError).
Proof.
  exists 5%nat, exact_fm, full_variability, 0, 0, (arange 700 720), 0, 50%Q.
  split; [vm_compute; discriminate|]. split; [vm_compute; discriminate|]. split; [vm_compute; reflexivity|].
  split; [vm_compute; reflexivity|]. split; [discriminate|].
  apply (follow_may _ ([DQ (1 # 2); DZ 150; DZ 20; DZ 0; DZ 0; DZ 0; DZ 0; DQ (1 # 2); DQ (1 # 2)])).
  vm_compute. reflexivity.
Qed.

(** *** hypotheses of C24_no_crash_partial are met by [demo] *)
Example C24_case : well_declared exact_fm demo /\ cycle_fits demo /\ 1 <= func_cycle (par demo) /\
  1 <= number (par demo) /\ fixed_cycle (par demo) <= 0 /\ 0 <= 0 < zlen (power demo).
Proof.
  split; [|vm_compute; repeat split; try reflexivity; discriminate].
  unfold well_declared. vm_compute. repeat split; try reflexivity; repeat constructor; try discriminate.
Qed.
