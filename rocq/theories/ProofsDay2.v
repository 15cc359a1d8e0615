(** * ProofsDay2: one day of one appliance as a whole (C12-C24) *)
From Verif Require Import Base Wp Utils ListLemmas Appliance Spec SpecDay ProofsUtils ProofsAppliance
  ProofsEvent ProofsEvent2 ProofsDay.
From Coq Require Import ZifyBool ZifyNat.

(** ** The randomised duty cycles of the day *)

(** the declared duty cycle from which randomised cycle i is made (core.py:1450-1494) *)
Definition declared_cycle (a : appliance) (i : Z) : cycle :=
  if fixed_cycle (par a) >=? 3 then (if i =? 1 then cyc1 a else if i =? 2 then cyc2 a else cyc3 a)
  else if fixed_cycle (par a) =? 2 then (if i =? 2 then cyc2 a else cyc1 a)
  else cyc1 a.

Definition cycle_drawn (F : fm) (a : appliance) (i : Z) (l : list Q) : Prop :=
  let c := declared_cycle a i in
  exists p1 p2,
    may (random_variation F (thermal_p_var (par a)) (cp1 c)) (Ok p1) /\
    may (random_variation F (thermal_p_var (par a)) (cp2 c)) (Ok p2) /\
    (may (duty_cycle F (cr c) (ct1 c) p1 (ct2 c) p2) (Ok l) \/
     (3 <= fixed_cycle (par a) /\ may (random_choice F (cr c) (ct1 c) p1 (ct2 c) p2) (Ok l))).

Lemma wp_keep {A} (p : prog A) : wp p (fun r => may p r).
Proof. apply wp_may. auto. Qed.

Ltac draw_rv x Hx :=
  apply wp_bind_ok;
  match goal with |- wp (random_variation ?F ?v ?n) _ =>
    eapply wp_mono; [|apply wp_and; [apply (wp_keep (random_variation F v n))|apply (random_variation_total F v n)]];
    intros ? [Hx (x & ->)]; cbn [wpk] end.

(** a duty cycle that cannot be drawn: negative length *)
Definition bad_cycle (F : fm) (a : appliance) : Prop :=
  fixed_cycle (par a) >= 1 /\
  exists i p1 p2, let c := declared_cycle a i in
    may (duty_cycle F (cr c) (ct1 c) p1 (ct2 c) p2) (Err ValueError) \/
    (3 <= fixed_cycle (par a) /\ may (random_choice F (cr c) (ct1 c) p1 (ct2 c) p2) (Err ValueError)).

Ltac bad i := left; split; [reflexivity|]; split; [lia|]; exists i; do 2 eexists; unfold declared_cycle.

Lemma arc_spec (F : fm) a d :
  wp (assign_random_cycles F a d)
     (fun r => (r = Err ValueError /\ bad_cycle F a) \/
        exists d', r = Ok d' /\ daily_use d' = daily_use d /\
          (fixed_cycle (par a) <= 0 -> d' = d) /\
          (fixed_cycle (par a) > 0 -> forall i, i = 1 \/ i = 2 \/ i = 3 -> cycle_drawn F a i (cycle_of d' i))).
Proof.
  unfold assign_random_cycles. cbv zeta.
  destruct (fixed_cycle (par a) >=? 1) eqn:E1.
  2: { cbn [wp]. right. exists d. split; [reflexivity|]. split; [reflexivity|]. split; [auto|lia]. }
  draw_rv p11 H11. draw_rv p12 H12.
  apply wp_bind_ok.
  eapply wp_mono; [|apply wp_and; [apply wp_keep|apply duty_cycle_shape]].
  intros r [Hc1 [->|(n1 & n2 & ->)]]; cbn [wpk].
  { bad 1. left. destruct (_ >=? 3); [exact Hc1|]. destruct (_ =? 2); exact Hc1. }
  set (c1 := _ ++ _) in *.
  destruct (fixed_cycle (par a) >=? 2) eqn:E2.
  2: { cbn [wp]. right. eexists; split; [reflexivity|]. split; [reflexivity|]. split; [lia|].
       intros _ i Hi. unfold cycle_drawn, declared_cycle.
       replace (fixed_cycle (par a) >=? 3) with false by lia.
       replace (fixed_cycle (par a) =? 2) with false by lia.
       exists p11, p12. split; [exact H11|]. split; [exact H12|]. left.
       destruct Hi as [->|[->| ->]]; exact Hc1. }
  draw_rv p21 H21. draw_rv p22 H22.
  apply wp_bind_ok.
  eapply wp_mono; [|apply wp_and; [apply wp_keep|apply duty_cycle_shape]].
  intros r [Hc2 [->|(m1 & m2 & ->)]]; cbn [wpk].
  { bad 2. left. destruct (fixed_cycle (par a) >=? 3) eqn:E3; [exact Hc2|].
    replace (fixed_cycle (par a) =? 2) with true by lia. exact Hc2. }
  set (c2 := _ ++ _) in *.
  destruct (fixed_cycle (par a) >=? 3) eqn:E3.
  2: { cbn [wp]. right. eexists; split; [reflexivity|]. split; [reflexivity|]. split; [lia|].
       intros _ i Hi. unfold cycle_drawn, declared_cycle. rewrite E3.
       replace (fixed_cycle (par a) =? 2) with true by lia.
       destruct Hi as [->|[->| ->]]; cbn [Z.eqb Pos.eqb];
         [exists p11, p12|exists p21, p22|exists p11, p12]; (split; [assumption|]); (split; [assumption|]);
         left; [exact Hc1|exact Hc2|exact Hc1]. }
  draw_rv p31 H31. draw_rv p32 H32.
  apply wp_bind_ok.
  eapply wp_mono; [|apply wp_and; [apply wp_keep|apply random_choice_shape]].
  intros r [Hx1 [->|(k1 & k2 & Hr1)]]; [cbn [wpk]|].
  { bad 1. rewrite E3. right. split; [lia|exact Hx1]. }
  assert (G1 : exists c, r = Ok c) by (destruct Hr1 as [-> | ->]; eauto).
  destruct G1 as (c1' & ->). cbn [wpk]. clear Hr1.
  apply wp_bind_ok.
  eapply wp_mono; [|apply wp_and; [apply wp_keep|apply random_choice_shape]].
  intros r [Hx2 [->|(k3 & k4 & Hr1)]]; [cbn [wpk]|].
  { bad 2. rewrite E3. right. split; [lia|exact Hx2]. }
  assert (G2 : exists c, r = Ok c) by (destruct Hr1 as [-> | ->]; eauto).
  destruct G2 as (c2' & ->). cbn [wpk]. clear Hr1.
  apply wp_bind_ok.
  eapply wp_mono; [|apply wp_and; [apply wp_keep|apply random_choice_shape]].
  intros r [Hx3 [->|(k5 & k6 & Hr1)]]; [cbn [wpk]|].
  { bad 3. rewrite E3. right. split; [lia|exact Hx3]. }
  assert (G3 : exists c, r = Ok c) by (destruct Hr1 as [-> | ->]; eauto).
  destruct G3 as (c3' & ->). cbn [wpk wp]. clear Hr1.
  right. eexists; split; [reflexivity|]. split; [reflexivity|]. split; [lia|].
  intros _ i Hi. unfold cycle_drawn, declared_cycle. rewrite E3.
  destruct Hi as [->|[->| ->]]; cbn [Z.eqb Pos.eqb];
    [exists p11, p12|exists p21, p22|exists p31, p32]; (split; [assumption|]); (split; [assumption|]);
    right; (split; [lia|]); [exact Hx1|exact Hx2|exact Hx3].
Qed.

(** ** The three randomised windows *)

Definition negative_var (a : appliance) : Prop :=
  random_var_1 (win a) < 0 \/ random_var_2 (win a) < 0 \/ random_var_3 (win a) < 0.

(** the occasional-use draw of the day *)
Definition occ_draw (F : fm) (u : Q) : Q := fadd F 0 (fmul F (fsub F 1 0) u).

Lemma occ_draw_range F u : (0 <= u)%Q -> (u < 1)%Q -> (0 <= occ_draw F u <= 1)%Q.
Proof.
  intros H0 H1. pose proof (uniform_range_int F 0 1 u ltac:(cbn; lia) ltac:(cbn; lia) H0 H1) as H.
  cbv zeta in H. exact H.
Qed.

Definition not_skipped (F : fm) (a : appliance) (pref dt : Z) : Prop :=
  exists u, (0 <= u)%Q /\ (u < 1)%Q /\ skip_day a pref dt (occ_draw F u) = false.

Lemma total_rws (rw1 rw2 rw3 : Z * Z) : diff rw1 + diff rw2 + diff rw3 = total_length [rw1; rw2; rw3].
Proof. unfold total_length, length_of, diff. cbn. lia. Qed.

Lemma in_nonempty w rws : In w (nonempty rws) <-> In w rws /\ fst w <> snd w.
Proof. unfold nonempty. rewrite filter_In. split; (intros [H1 H2]; split; [exact H1|lia]). Qed.

(** what a used day looks like *)
Record used (F : fm) (depth : nat) (a : appliance) (peak : list Z) (pw : Q) (rws : list (Z * Z)) (rt : Z)
    (evs : list event) (d : dyn) : Prop := Used {
  us_cyc : exists cyc : Z -> list Q,
     inv F a peak pw (nonempty rws) rt cyc
       (fun t => if existsb (in_win t) rws then mask_value F else 0%Q) d evs (ev_total evs) /\
     (fixed_cycle (par a) > 0 -> forall i, i = 1 \/ i = 2 \/ i = 3 -> cycle_drawn F a i (cyc i));
  us_sep : separated (nonempty rws) -> inv_sep (nonempty rws) d evs;
  us_dur : dur_ok a rt evs;
  us_tot : ev_total evs <= rt;
  us_full : ev_total evs = rt \/ no_room (func_cycle (par a)) (free_spots d)
}.

Definition day_err (F : fm) (depth : nat) (a : appliance) (prof_i : Z) (peak : list Z) (e : exc) : Prop :=
  (e = ValueError /\
     (negative_var a \/
      (exists rws, rand_windows a rws /\
        ((exists rw, In rw rws /\ snd rw < fst rw) \/
         (Forall inside_day rws /\ 99 * total_length rws <= 100 * func_cycle (par a)))) \/
      (String.eqb (flat (par a)) "yes" = false /\ bad_cycle F a))) \/
  (e = IndexError /\ String.eqb (flat (par a)) "yes" = true /\ py_index (power a) prof_i = Err IndexError) \/
  (String.eqb (flat (par a)) "yes" = false /\
   exists rws d, rand_windows a rws /\ Forall inside_day rws /\
     (fixed_cycle (par a) > 0 -> forall i, i = 1 \/ i = 2 \/ i = 3 -> cycle_drawn F a i (cycle_of d i)) /\
     loop_err depth a peak (nonempty rws) d e).

Lemma Forall_dec_ordered (rws : list (Z * Z)) :
  Forall (fun w => fst w <= snd w) rws \/ exists w, In w rws /\ snd w < fst w.
Proof.
  induction rws as [|w rws [IH|IH]]; [left; constructor| |].
  - destruct (Z_le_gt_dec (fst w) (snd w)); [left; constructor; auto|right; exists w; split; [left; reflexivity|lia]].
  - right. destruct IH as (w' & H1 & H2). exists w'. split; [right; exact H1|exact H2].
Qed.

Theorem day_spec (F : fm) depth a pref prof_i peak dt pw :
  0 <= func_cycle (par a) ->
  wp (generate_load_profile_traced depth F a pref prof_i peak dt pw)
     (fun r => match r with
       | Ok (d, Skipped) => daily_use d = zeros day_minutes /\
           exists u, (0 <= u)%Q /\ (u < 1)%Q /\ skip_day a pref dt (occ_draw F u) = true
       | Ok (d, FlatDay rws rt) =>
           not_skipped F a pref dt /\ String.eqb (flat (par a)) "yes" = true /\
           rand_windows a rws /\ Forall inside_day rws /\
           drawn_time F a rws rt /\ func_cycle (par a) <= rt /\ 100 * rt <= 99 * total_length rws /\
           zlen (daily_use d) = 1440 /\
           exists p, py_index (power a) prof_i = Ok p /\
             forall t, 0 <= t < 1440 -> at_minute t (daily_use d) =
               if existsb (in_win t) rws then fmul F p (zq (number (par a))) else 0%Q
       | Ok (d, UsedDay rws rt evs) =>
           not_skipped F a pref dt /\ String.eqb (flat (par a)) "yes" = false /\
           rand_windows a rws /\ Forall inside_day rws /\
           drawn_time F a rws rt /\ func_cycle (par a) <= rt /\ 100 * rt <= 99 * total_length rws /\
           used F depth a peak pw rws rt evs d
       | Err e => day_err F depth a prof_i peak e
       end).
Proof.
  intros Hfc. unfold generate_load_profile_traced. cbv zeta.
  apply wp_bind_ok. apply wp_uniform. intros u Hu0 Hu1. cbn [wpk]. fold (occ_draw F u).
  destruct (skip_day a pref dt (occ_draw F u)) eqn:Esk.
  { cbn [wp]. split; [reflexivity|]. exists u. auto. }
  assert (Hns : not_skipped F a pref dt) by (exists u; auto).
  apply wp_bind_ok. eapply wp_mono; [|apply calc_rand_window_spec].
  intros r [[Hv ->]|(x0 & x1 & Hv1 & -> & X0 & X1)]; cbn [wpk].
  { left. split; [reflexivity|]. left. left. exact Hv. }
  apply wp_bind_ok. eapply wp_mono; [|apply calc_rand_window_spec].
  intros r [[Hv ->]|(y0 & y1 & Hv2 & -> & Y0 & Y1)]; cbn [wpk].
  { left. split; [reflexivity|]. left. right; left. exact Hv. }
  apply wp_bind_ok. eapply wp_mono; [|apply calc_rand_window_spec].
  intros r [[Hv ->]|(z0 & z1 & Hv3 & -> & Z0 & Z1)]; cbn [wpk].
  { left. split; [reflexivity|]. left. right; right. exact Hv. }
  set (rw1 := (Z.max 0 x0, Z.min 1440 x1)). set (rw2 := (Z.max 0 y0, Z.min 1440 y1)).
  set (rw3 := (Z.max 0 z0, Z.min 1440 z1)).
  assert (Hrw : rand_windows a [rw1; rw2; rw3]).
  { exists rw1, rw2, rw3. split; [reflexivity|]. split; [exists x0, x1; auto|].
    split; [exists y0, y1; auto|exists z0, z1; auto]. }
  assert (Hb : Forall (fun w => 0 <= fst w /\ snd w <= 1440) [rw1; rw2; rw3]).
  { repeat constructor; cbn; lia. }
  clearbody rw1 rw2 rw3. clear x0 x1 y0 y1 z0 z1 X0 X1 Y0 Y1 Z0 Z1 Hv1 Hv2 Hv3.
  set (rws := [rw1; rw2; rw3]) in *.
  (* the fill fails unless the windows are ordered *)
  destruct (Forall_dec_ordered rws) as [Hord|Hinv].
  2: { (* an inverted window: ValueError, or IndexError of the flat branch *)
    assert (Hfail : forall d v, zlen d = 1440 -> fill_windows d rws v = Err ValueError).
    { intros d v Hd. destruct (fill_windows d rws v) as [d'|e] eqn:E.
      - destruct (fill_windows_spec rws v d d' Hd Hb E) as (_ & Ho & _).
        destruct Hinv as (w & Hw1 & Hw2). rewrite Forall_forall in Ho. pose proof (Ho w Hw1). lia.
      - apply fill_windows_err in E. now subst. }
    assert (HVE : day_err F depth a prof_i peak ValueError).
    { left. split; [reflexivity|]. right; left. exists rws. split; [exact Hrw|left; exact Hinv]. }
    apply wp_bind_ok. eapply wp_mono; [|apply rtt_min]. intros r [->|(rt & -> & _)]; cbn [wpk]; [exact HVE|].
    destruct (String.eqb (flat (par a)) "yes") eqn:Ef.
    - apply wp_bind_ok. rewrite wp_lift. destruct (py_index (power a) prof_i) as [p|e] eqn:Ep; cbn [wpk].
      + apply wp_bind_ok. rewrite wp_lift. cbn [daily_use set_daily_use].
        rewrite Hfail by apply zlen_zeros. cbn [wpk]. exact HVE.
      + pose proof (py_index_err _ _ _ Ep); subst e. right; left. auto.
    - apply wp_bind_ok. rewrite wp_lift. cbn [daily_use set_daily_use].
      rewrite Hfail by apply zlen_zeros. cbn [wpk]. exact HVE. }
  assert (Hday : Forall inside_day rws).
  { rewrite Forall_forall in *. intros w Hw. specialize (Hb w Hw). specialize (Hord w Hw).
    unfold inside_day. lia. }
  assert (HT : 0 <= total_length rws <= 4320).
  { unfold rws in *. unfold total_length, length_of; cbn [fold_right].
    repeat match goal with H : Forall inside_day (_ :: _) |- _ => apply Forall_cons_iff in H; destruct H as [[? ?] ?] end.
    lia. }
  apply wp_bind_ok. eapply wp_mono; [|apply wp_and; [apply wp_keep|apply rtt_spec; rewrite ?total_rws; fold rws; lia]].
  rewrite total_rws. fold rws.
  intros r [Hdr [(-> & H99 & _)|(rt & -> & Hrt1 & Hrt2)]]; cbn [wpk].
  { left. split; [reflexivity|]. right; left. exists rws. split; [exact Hrw|right; auto]. }
  destruct (String.eqb (flat (par a)) "yes") eqn:Ef.
  - apply wp_bind_ok. rewrite wp_lift. destruct (py_index (power a) prof_i) as [p|e] eqn:Ep; cbn [wpk].
    2: { pose proof (py_index_err _ _ _ Ep); subst e. right; left. auto. }
    apply wp_bind_ok. rewrite wp_lift. cbn [daily_use set_daily_use].
    destruct (fill_windows_ok rws (fmul F p (zq (number (par a)))) _ zlen_zeros Hday) as (d' & Hd').
    rewrite Hd'. cbn [wpk wp].
    destruct (fill_windows_spec _ _ _ _ zlen_zeros Hb Hd') as (L1 & _ & L2).
    split; [exact Hns|]. split; [reflexivity|]. split; [exact Hrw|]. split; [exact Hday|].
    split; [exists rw1, rw2, rw3; auto|]. split; [exact Hrt1|]. split; [exact Hrt2|]. split; [exact L1|].
    exists p. split; [reflexivity|]. intros t Ht. cbn [daily_use set_daily_use]. rewrite L2 by exact Ht.
    now rewrite at_zeros.
  - apply wp_bind_ok. rewrite wp_lift. cbn [daily_use set_daily_use].
    destruct (fill_windows_ok rws (mask_value F) _ zlen_zeros Hday) as (d' & Hd').
    rewrite Hd'. cbn [wpk].
    destruct (fill_windows_spec _ _ _ _ zlen_zeros Hb Hd') as (L1 & _ & L2).
    apply wp_bind_ok. eapply wp_mono; [|apply arc_spec].
    intros r [[-> Hbad]|(d1 & -> & Ed1 & _ & Hcyc)]; cbn [wpk].
    { left. split; [reflexivity|]. right; right. auto. }
    cbn [daily_use set_daily_use] in Ed1.
    apply wp_bind_ok. fold (nonempty rws).
    assert (Hday' : Forall inside_day (nonempty rws)).
    { rewrite Forall_forall in *. intros w Hw. apply Hday. now apply in_nonempty in Hw. }
    eapply wp_mono.
    2: { apply wp_and.
         - apply (use_loop_general F depth a peak pw rt (Z.to_nat rt + 2) 0 _ []). lia.
         - apply (use_loop_inv F depth a peak pw (nonempty rws) rt (cycle_of d1)
                    (fun t => if existsb (in_win t) rws then mask_value F else 0%Q)
                    (separated (nonempty rws)) Hday').
           + split; lia.
           + constructor; cbn [set_free_spots daily_use free_spots]; try rewrite Ed1.
             * exact L1.
             * intros t Ht. unfold overlay, last_event. cbn [rev find]. rewrite L2 by exact Ht.
               now rewrite at_zeros.
             * reflexivity.
             * intros w Hw. exists w. split; [exact Hw|lia].
             * constructor.
             * reflexivity.
           + intros Hsep. constructor; cbn [set_free_spots free_spots].
             * exact Hsep.
             * intros t. split; [intros H; split; [exact H|intros e []]|tauto].
             * constructor.
           + left. constructor.
           + lia. }
    intros r [Hgen [->|[(e & -> & He)|(d2 & evs & tot & -> & HI & HS & Hdur & Htot & Hfull)]]]; cbn [wpk wp fst snd].
    + exfalso. exact (Hgen eq_refl).
    + right; right. split; [exact Ef|]. exists rws, (set_free_spots d1 (nonempty rws)). auto.
    + pose proof (inv_tot _ _ _ _ _ _ _ _ _ _ _ HI) as Et.
      split; [exact Hns|]. split; [reflexivity|]. split; [exact Hrw|]. split; [exact Hday|].
      split; [exists rw1, rw2, rw3; auto|]. split; [exact Hrt1|]. split; [exact Hrt2|].
      rewrite <- Et in HI, Hfull. constructor; auto; [|lia].
      exists (cycle_of d1). split; [exact HI|]. exact Hcyc.
Qed.
