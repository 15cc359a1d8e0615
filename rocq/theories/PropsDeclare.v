(** * PropsDeclare: declaring windows and duty cycles in any order (C65) *)
From Verif Require Import Base Wp Tape ListLemmas Utils Appliance User Spec SpecDay ProofsAppliance Declare PropsBasic PropsDay PropsDayCases.
From Coq Require Import ZifyBool ZifyNat.
Open Scope Z_scope.

(** ** Specification *)

(** what the last call that gives something gives; [dflt] if none does *)
Fixpoint in_force {A} (gives : decl -> option A) (dflt : A) (ds : list decl) : A :=
  match ds with
  | [] => dflt
  | d :: ds' => in_force gives (match gives d with Some x => x | None => dflt end) ds'
  end.

(** windows() gives window 1 always (the whole day if there is none), the others if they are passed *)
Definition gives_window (j : Z) (d : decl) : option (Z * Z) :=
  match d with
  | DWindows w1 w2 _ w3 =>
      if j =? 1 then Some (match w1 with Some x => x | None => (0, 1440) end) else if j =? 2 then w2 else w3
  | _ => None
  end.
Definition gives_variability (d : decl) : option Q := match d with DWindows _ _ rvw _ => Some rvw | _ => None end.

(** specific_cycle_i gives the powers, durations and variability of cycle i, 0 for those not passed *)
Definition gives_cycle (i : Z) (d : decl) : option (Q * Z * Q * Z * Q) :=
  match d with
  | DCycle j args =>
      if j =? i then
        let q o := match o with Some x => x | None => 0%Q end in
        let z o := match o with Some x => x | None => 0 end in
        Some (q (ca_p1 args), z (ca_t1 args), q (ca_p2 args), z (ca_t2 args), q (ca_r args))
      else None
  | _ => None
  end.

(** the call gives a window to part [k] (1 or 2) of cycle [i] explicitly; cycle_behaviour gives all six ([0,0] if not
    passed) *)
Definition gives_cycle_window (i k : Z) (d : decl) : option (Z * Z) :=
  match d with
  | DCycle j args => if j =? i then (if k =? 1 then ca_w1 args else ca_w2 args) else None
  | DBehaviour w11 w12 w21 w22 w31 w32 =>
      let o := if i =? 1 then (if k =? 1 then w11 else w12) else if i =? 2 then (if k =? 1 then w21 else w22)
               else (if k =? 1 then w31 else w32) in
      Some (match o with Some x => x | None => (0, 0) end)
  | _ => None
  end.

Definition use_window (j : Z) (a : appliance) : Z * Z :=
  if j =? 1 then window_1 (win a) else if j =? 2 then window_2 (win a) else window_3 (win a).
Definition use_variability (j : Z) (a : appliance) : Z :=
  if j =? 1 then random_var_1 (win a) else if j =? 2 then random_var_2 (win a) else random_var_3 (win a).
Definition cycle_num (i : Z) (a : appliance) : cycle := if i =? 1 then cyc1 a else if i =? 2 then cyc2 a else cyc3 a.
Definition cycle_values (c : cycle) : Q * Z * Q * Z * Q := (cp1 c, ct1 c, cp2 c, ct2 c, cr c).
Definition cycle_window (k : Z) (c : cycle) : Z * Z := if k =? 1 then cwa c else cwb c.

(** ** Proofs *)

Lemma in_force_app {A} (g : decl -> option A) x ds es : in_force g x (ds ++ es) = in_force g (in_force g x ds) es.
Proof. revert x. induction ds as [|d ds IH]; intros x; [reflexivity|]. cbn [app in_force]. apply IH. Qed.

Definition one_two_three (i : Z) : Prop := i = 1 \/ i = 2 \/ i = 3.

(** one call *)
Lemma declare1_effect F a d a' : declare1 F a d = (a', None) ->
  par a' = par a /\ power a' = power a /\ constant_power a' = constant_power a /\
  (forall j, one_two_three j -> use_window j a' = match gives_window j d with Some x => x | None => use_window j a end) /\
  random_var_w (win a') = match gives_variability d with Some x => x | None => random_var_w (win a) end /\
  (forall j, one_two_three j -> use_variability j a' =
     match gives_variability d with Some v => py_int (fmul F v (zq (length_of (use_window j a')))) | None => use_variability j a end) /\
  (forall i, one_two_three i -> cycle_values (cycle_num i a') = match gives_cycle i d with Some x => x | None => cycle_values (cycle_num i a) end) /\
  (forall i k, one_two_three i -> cycle_window k (cycle_num i a') =
     match gives_cycle_window i k d with
     | Some x => x
     | None => match d with
               | DWindows _ _ _ _ => if (fixed_cycle (par a) =? 1) && (i =? 1) then use_window (if k =? 1 then 1 else 2) a' else cycle_window k (cycle_num i a)
               | _ => cycle_window k (cycle_num i a)
               end
     end).
Proof.
  destruct d as [w1 w2 rvw w3|i args|w11 w12 w21 w22 w31 w32]; cbn [declare1].
  - intros H. destruct (windows_ok F a w1 w2 rvw w3 a' H) as (E1 & E2 & E3 & _ & _ & _ & W1 & W2 & W3 & V & V1 & V2 & V3 & _ & _ & _ & _ & _ & C1 & C2 & C3).
    repeat (split; [assumption|]). cbn [gives_window gives_variability gives_cycle gives_cycle_window].
    split; [intros j [->|[->| ->]]; unfold use_window; cbn [Z.eqb Pos.eqb]; assumption|]. split; [assumption|].
    split; [intros j [->|[->| ->]]; unfold use_window, use_variability; cbn [Z.eqb Pos.eqb]; assumption|].
    split; [intros j [->|[->| ->]]; unfold cycle_num; cbn [Z.eqb Pos.eqb]; [|rewrite C2; reflexivity|rewrite C3; reflexivity]|].
    { rewrite C1. destruct (_ =? 1); reflexivity. }
    intros j k [->|[->| ->]]; unfold cycle_num; cbn [Z.eqb Pos.eqb]; rewrite ?andb_false_r, ?andb_true_r; [|rewrite C2; reflexivity|rewrite C3; reflexivity].
    rewrite C1. destruct (_ =? 1); [|reflexivity]. unfold cycle_window, use_window. cbn [cwa cwb]. destruct (k =? 1); reflexivity.
  - unfold specific_cycle_num.
    intros H. set (upd := fun c => fst (apply_cycle_args c args)).
    assert (E : a' = if i =? 1 then set_cyc1 a (upd (cyc1 a)) else if i =? 2 then set_cyc2 a (upd (cyc2 a))
                     else if i =? 3 then set_cyc3 a (upd (cyc3 a)) else a).
    { unfold upd. destruct (i =? 1); [|destruct (i =? 2); [|destruct (i =? 3)]]; try (destruct (apply_cycle_args _ args); cbn [fst]); congruence. }
    clear H. subst a'.
    assert (K : forall j, one_two_three j ->
      cycle_num j (if i =? 1 then set_cyc1 a (upd (cyc1 a)) else if i =? 2 then set_cyc2 a (upd (cyc2 a))
                   else if i =? 3 then set_cyc3 a (upd (cyc3 a)) else a)
      = if i =? j then upd (cycle_num j a) else cycle_num j a).
    { intros j [->|[->| ->]]; unfold cycle_num; cbn [Z.eqb Pos.eqb]; destruct (Z.eqb_spec i 1) as [->|]; try reflexivity;
      destruct (Z.eqb_spec i 2) as [->|]; try reflexivity; destruct (Z.eqb_spec i 3) as [->|]; reflexivity. }
    cbn [gives_window gives_variability].
    set (b := if i =? 1 then _ else _) in *.
    assert (B : par b = par a /\ power b = power a /\ constant_power b = constant_power a /\ win b = win a).
    { unfold b. destruct (i =? 1); [|destruct (i =? 2); [|destruct (i =? 3)]]; repeat split; reflexivity. }
    clearbody b. destruct B as (B1 & B2 & B3 & B4). repeat (split; [assumption|]).
    unfold use_window, use_variability. rewrite B4. split; [reflexivity|]. split; [reflexivity|]. split; [reflexivity|]. split.
    + intros j Hj. rewrite (K j Hj). cbn [gives_cycle]. destruct (i =? j); reflexivity.
    + intros j k Hj. rewrite (K j Hj). cbn [gives_cycle_window]. destruct (i =? j); [|reflexivity].
      unfold upd, apply_cycle_args, specific_cycle, cycle_window. cbn [fst cwa cwb].
      destruct (k =? 1); [destruct (ca_w1 args)|destruct (ca_w2 args)]; reflexivity.
  - intros H. injection H as <-. cbn. repeat (split; [reflexivity|]). repeat (split; [intros j [->|[->| ->]]; reflexivity|]).
    intros j k [->|[->| ->]]; unfold cycle_window; cbn; destruct (k =? 1); reflexivity.
Qed.

(** ** C65 *)

(** After any sequence of declaration calls that raises nothing: the appliance's other parameters are untouched; each use
    window, their variability and each cycle's powers and durations are those of the last call that gave them, whatever the
    calls made in between. *)
Theorem C65_last_declaration F a ds a' : declare F a ds = (a', None) ->
  par a' = par a /\ power a' = power a /\
  (forall j, one_two_three j -> use_window j a' = in_force (gives_window j) (use_window j a) ds) /\
  random_var_w (win a') = in_force gives_variability (random_var_w (win a)) ds /\
  (forall i, one_two_three i -> cycle_values (cycle_num i a') = in_force (gives_cycle i) (cycle_values (cycle_num i a)) ds).
Proof.
  revert a. induction ds as [|d ds IH]; intros a H; cbn [declare] in H.
  - injection H as <-. repeat split; reflexivity.
  - destruct (declare1 F a d) as [a1 [e|]] eqn:E; [discriminate|].
    destruct (declare1_effect F a d a1 E) as (E1 & E2 & _ & E3 & E4 & _ & E5 & _).
    destruct (IH a1 H) as (I1 & I2 & I3 & I4 & I5). rewrite I1, I2, E1, E2. repeat (split; [reflexivity|]).
    split; [intros j Hj; rewrite (I3 j Hj), (E3 j Hj); reflexivity|]. split; [rewrite I4, E4; reflexivity|].
    intros i Hi. rewrite (I5 i Hi), (E5 i Hi). reflexivity.
Qed.

(** the variability in minutes belongs to the windows in force: int(random_var_w * length) *)
Theorem C65_variability F a ds a' :
  (exists d, In d ds /\ gives_variability d <> None) -> declare F a ds = (a', None) ->
  forall j, one_two_three j -> use_variability j a' = py_int (fmul F (random_var_w (win a')) (zq (length_of (use_window j a')))).
Proof.
  intros (d & Hd & Hg) H j Hj.
  assert (G : forall ds a, (use_variability j a = py_int (fmul F (random_var_w (win a)) (zq (length_of (use_window j a)))) \/
                            exists d, In d ds /\ gives_variability d <> None) ->
              declare F a ds = (a', None) -> use_variability j a' = py_int (fmul F (random_var_w (win a')) (zq (length_of (use_window j a'))))).
  { clear - Hj. induction ds as [|d ds IH]; intros a Hor H; cbn [declare] in H.
    - injection H as <-. destruct Hor as [Hor|(d & [] & _)]. exact Hor.
    - destruct (declare1 F a d) as [a1 [e|]] eqn:E; [discriminate|].
      destruct (declare1_effect F a d a1 E) as (_ & _ & _ & E3 & E4 & E5 & _). specialize (E3 j Hj). specialize (E5 j Hj).
      apply (IH a1); [|exact H]. destruct (gives_variability d) as [v|] eqn:Ev.
      + left. rewrite E4. exact E5.
      + destruct Hor as [Hor|(d' & [->|Hd] & Hg)]; [|congruence|right; eauto].
        left. rewrite E5, E4. destruct d; cbn [gives_variability gives_window] in *; [discriminate| |]; rewrite E3; exact Hor. }
  apply (G ds a); [right; eauto|exact H].
Qed.

(** The window of a part of a cycle: that of the last call that gave it, where cycle_behaviour gives [0,0] for each window
    not passed; for an appliance with one duty cycle every windows() call makes use windows 1 and 2 those of cycle 1. *)
Theorem C65_cycle_windows F a pre d post a' i k : one_two_three i -> k = 1 \/ k = 2 ->
  declare F a (pre ++ d :: post) = (a', None) ->
  Forall (fun d => gives_cycle_window i k d = None) post ->
  (fixed_cycle (par a) = 1 -> i = 1 -> Forall (fun d => gives_variability d = None) post) ->
  (forall w, gives_cycle_window i k d = Some w -> cycle_window k (cycle_num i a') = w) /\
  (fixed_cycle (par a) = 1 -> i = 1 -> gives_variability d <> None ->
     cycle_window k (cycle_num i a') = in_force (gives_window k) (use_window k a) (pre ++ [d])).
Proof.
  intros Hi Hk H Hpost Hone.
  assert (App : forall ds es a, declare F a (ds ++ es) = match declare F a ds with (b, None) => declare F b es | r => r end).
  { clear. induction ds as [|x ds IH]; intros es a; [reflexivity|]. cbn [app declare].
    destruct (declare1 F a x) as [b [e|]]; [reflexivity|]. apply IH. }
  assert (Keep : forall ds b b', declare F b ds = (b', None) -> Forall (fun d => gives_cycle_window i k d = None) ds ->
     (fixed_cycle (par b) = 1 -> i = 1 -> Forall (fun d => gives_variability d = None) ds) ->
     cycle_window k (cycle_num i b') = cycle_window k (cycle_num i b)).
  { clear - Hi. induction ds as [|x ds IH]; intros b b' H Hp Ho; cbn [declare] in H; [injection H as <-; reflexivity|].
    destruct (declare1 F b x) as [c [e|]] eqn:E; [discriminate|]. inversion Hp as [|? ? Hx Hp']; subst.
    destruct (declare1_effect F b x c E) as (E1 & _ & _ & _ & _ & _ & _ & E8). specialize (E8 i k Hi). rewrite Hx in E8.
    rewrite (IH c b' H Hp').
    - rewrite E8. destruct x; try reflexivity. destruct (fixed_cycle (par b) =? 1) eqn:Ef; [|reflexivity].
      destruct (i =? 1) eqn:Ei; [|reflexivity]. specialize (Ho ltac:(lia) ltac:(lia)). inversion Ho; subst. discriminate.
    - rewrite E1. intros A B. specialize (Ho A B). inversion Ho; assumption. }
  rewrite App in H. destruct (declare F a pre) as [b [e|]] eqn:Eb; [discriminate|]. cbn [declare] in H.
  destruct (declare1 F b d) as [c [e|]] eqn:Ec; [discriminate|].
  destruct (C65_last_declaration F a pre b Eb) as (P1 & _).
  destruct (declare1_effect F b d c Ec) as (E1 & _ & _ & E3 & _ & _ & _ & E8).
  assert (HK : cycle_window k (cycle_num i a') = cycle_window k (cycle_num i c)).
  { apply (Keep post c a' H Hpost). rewrite E1, P1. exact Hone. }
  specialize (E8 i k Hi). split.
  - intros w Hw. rewrite HK, E8, Hw. reflexivity.
  - intros Hf Hi1 Hd. subst i.
    assert (Hc : declare F a (pre ++ [d]) = (c, None)) by (rewrite App, Eb; cbn [declare]; rewrite Ec; reflexivity).
    destruct (C65_last_declaration F a _ c Hc) as (_ & _ & L & _).
    assert (Hk' : one_two_three k) by (unfold one_two_three; tauto).
    rewrite <- (L k Hk'), HK, E8. destruct d as [w1 w2 rvw w3| |]; [|destruct (Hd eq_refl)|destruct (Hd eq_refl)].
    cbn [gives_cycle_window]. rewrite P1, Hf. cbn [Z.eqb Pos.eqb andb]. destruct Hk as [->| ->]; reflexivity.
Qed.

(** a freezer: three cycles, then their windows, then the use windows, then cycle 2 again *)
Definition freezer : appliance :=
  App (Params "freezer" 1 1 1440 0 30 "yes" 3 1 1 "no" 0 0 2) [0%Q] true default_wins default_cycle default_cycle default_cycle default_dyn.
Definition cyc_args (p1 : Q) (t1 : Z) (p2 : Q) (t2 : Z) : cycle_args := CycleArgs (Some p1) (Some t1) None (Some p2) (Some t2) None None.
Definition freezer_calls : list decl :=
  [DCycle 1 (cyc_args 200 20 5 10); DCycle 2 (cyc_args 200 15 5 15); DCycle 3 (cyc_args 200 10 5 20);
   DBehaviour (Some (480, 1200)) None (Some (300, 479)) None (Some (0, 299)) (Some (1201, 1440));
   DWindows None None 0 None; DCycle 2 (cyc_args 150 15 5 15)].
Example C65_case : exists a', declare exact_fm freezer freezer_calls = (a', None) /\
  cycle_values (cycle_num 2 a') = (150%Q, 15, 5%Q, 15, 0%Q) /\ cycle_window 1 (cycle_num 2 a') = (300, 479) /\
  cycle_window 2 (cycle_num 1 a') = (0, 0) /\ use_window 1 a' = (0, 1440).
Proof. eexists. split; [vm_compute; reflexivity|]. repeat split; reflexivity. Qed.
