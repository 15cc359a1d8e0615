(** * PropsBlank: theorems for C43 and C52 *)
From Verif Require Import Base Wp Utils ListLemmas Appliance Attributes User Tabular Spec SpecDay SpecTabular
  ProofsUtils ProofsAppliance ProofsEq PropsUser PropsReg ProofsTabular PropsLoad.
From Coq Require Import ZifyBool ZifyNat.
Open Scope string_scope.
Open Scope list_scope.
Open Scope Z_scope.

(** ** The arguments made from a row *)

Lemma assoc_app {A} k (l l' : list (string * A)) :
  assoc k (l ++ l') = match assoc k l with Some v => Some v | None => assoc k l' end.
Proof. induction l as [|(k', x) l IH]; [reflexivity|]. cbn [app assoc]. destruct (String.eqb k k'); [reflexivity|exact IH]. Qed.
Lemma assoc_self {A} k (v : A) : assoc k [(k, v)] = Some v.
Proof. cbn [assoc]. rewrite String.eqb_refl. reflexivity. Qed.
Lemma assoc_other {A} k k' (v : A) : k <> k' -> assoc k [(k', v)] = None.
Proof. intros H. cbn [assoc]. apply String.eqb_neq in H. rewrite H. reflexivity. Qed.

Lemma appliance_args_assoc r k :
  assoc k (appliance_args r) = if in_dec string_dec k APPLIANCE_ARGS then option_map ACell (assoc k r) else None.
Proof.
  unfold appliance_args. induction APPLIANCE_ARGS as [|k0 l IH]; [reflexivity|]. cbn [flat_map]. rewrite assoc_app, IH.
  destruct (string_dec k k0) as [->|Hne].
  - destruct (in_dec string_dec k0 (k0 :: l)) as [_|C]; [|exfalso; apply C; left; reflexivity].
    destruct (assoc k0 r) as [c|] eqn:E; [rewrite assoc_self; reflexivity|]. cbn [assoc option_map].
    destruct (in_dec string_dec k0 l); reflexivity.
  - assert (E : assoc k (match assoc k0 r with Some c => [(k0, ACell c)] | None => [] end) = None).
    { destruct (assoc k0 r); [apply assoc_other; exact Hne|reflexivity]. }
    rewrite E. destruct (in_dec string_dec k l) as [I|I]; destruct (in_dec string_dec k (k0 :: l)) as [J|J]; try reflexivity.
    + exfalso. apply J. right. exact I.
    + exfalso. destruct J as [J|J]; [congruence|contradiction].
Qed.

Lemma param_arg_shape sub r k l : param_arg sub r k = Ok l -> l = [] \/ exists v, l = [(k, v)].
Proof.
  unfold param_arg, window_arg, value_arg. destruct (contains sub k).
  - destruct (is_nan (row_get r (k ++ "_start")%string)) as [[|]|]; cbn [rbind]; intros H; try discriminate; [left; congruence|].
    destruct (is_nan (row_get r (k ++ "_end")%string)) as [[|]|]; cbn [rbind] in H; try discriminate; injection H as <-; eauto.
  - destruct (is_nan (row_get r k)) as [[|]|]; cbn [rbind]; intros H; try discriminate; injection H as <-; eauto.
Qed.

Lemma params_assoc sub r ks : NoDup ks -> forall ws, map_res (param_arg sub r) ks = Ok ws ->
  (forall k, ~ In k ks -> assoc k (List.concat ws) = None) /\
  (forall k, In k ks -> exists l, param_arg sub r k = Ok l /\ assoc k (List.concat ws) = assoc k l).
Proof.
  induction 1 as [|k0 ks Hni Hnd IH]; intros ws H; cbn [map_res] in H.
  - injection H as <-. split; [reflexivity|]. intros k [].
  - destruct (param_arg sub r k0) as [l0|] eqn:E0; [|discriminate]. cbn [rbind] in H.
    destruct (map_res (param_arg sub r) ks) as [ws'|] eqn:E; [|discriminate]. injection H as <-.
    destruct (IH ws' eq_refl) as [IH1 IH2]. cbn [List.concat]. split.
    + intros k Hk. rewrite assoc_app, IH1 by (intros C; apply Hk; right; exact C).
      destruct (param_arg_shape _ _ _ _ E0) as [->|(v & ->)]; [reflexivity|].
      rewrite assoc_other; [reflexivity|]. intros ->. apply Hk. left. reflexivity.
    + intros k [<-|Hk].
      * exists l0. split; [exact E0|]. rewrite assoc_app, IH1 by exact Hni. destruct (assoc k0 l0); reflexivity.
      * destruct (IH2 k Hk) as (l & El & Al). exists l. split; [exact El|]. rewrite assoc_app, Al.
        destruct (param_arg_shape _ _ _ _ E0) as [->|(v & ->)]; [reflexivity|].
        rewrite assoc_other; [reflexivity|]. intros ->. contradiction.
Qed.

(** cells of the windows and duty cycles: blank cells are left out *)
Lemma row_kwargs_assoc r kw k : row_kwargs r = Ok kw ->
  (In k APPLIANCE_ARGS -> assoc k kw = option_map ACell (assoc k r)) /\
  (In k WINDOWS_PARAMETERS -> exists l, param_arg "window" r k = Ok l /\ assoc k kw = assoc k l) /\
  (In k (List.concat DUTY_CYCLE_PARAMETERS) -> exists l, param_arg "cw" r k = Ok l /\ assoc k kw = assoc k l).
Proof.
  unfold row_kwargs. intros H.
  destruct (map_res (param_arg "window" r) WINDOWS_PARAMETERS) as [ws|] eqn:E1; [|discriminate]. cbn [rbind] in H.
  destruct (map_res (param_arg "cw" r) (List.concat DUTY_CYCLE_PARAMETERS)) as [cs|] eqn:E2; [|discriminate]. cbn [rbind] in H.
  injection H as <-.
  assert (N1 : NoDup WINDOWS_PARAMETERS) by (unfold WINDOWS_PARAMETERS; repeat (constructor; [cbn; intuition discriminate|]); constructor).
  assert (N2 : NoDup (List.concat DUTY_CYCLE_PARAMETERS)) by (cbn; repeat (constructor; [cbn; intuition discriminate|]); constructor).
  destruct (params_assoc _ _ _ N1 _ E1) as [A1 A2]. destruct (params_assoc _ _ _ N2 _ E2) as [B1 B2].
  assert (D1 : forall x, In x WINDOWS_PARAMETERS -> ~ In x APPLIANCE_ARGS /\ ~ In x (List.concat DUTY_CYCLE_PARAMETERS)).
  { intros x Hx. cbn in Hx. destruct Hx as [<-|[<-|[<-|[<-|[]]]]]; split; intros C; cbn in C; intuition discriminate. }
  assert (D2 : forall x, In x (List.concat DUTY_CYCLE_PARAMETERS) -> ~ In x APPLIANCE_ARGS).
  { intros x Hx C. cbn in Hx. repeat (destruct Hx as [<-|Hx]; [cbn in C; intuition discriminate|]). destruct Hx. }
  rewrite !assoc_app, appliance_args_assoc. split; [|split]; intros Hk.
  - destruct (in_dec string_dec k APPLIANCE_ARGS) as [_|C]; [|contradiction].
    rewrite A1, B1.
    + destruct (option_map ACell (assoc k r)); reflexivity.
    + intros C. exact (D2 k C Hk).
    + intros C. destruct (D1 k C). contradiction.
  - destruct (D1 k Hk) as [N M]. destruct (in_dec string_dec k APPLIANCE_ARGS) as [C|_]; [contradiction|].
    destruct (A2 k Hk) as (l & El & Al). exists l. split; [exact El|]. rewrite Al, B1 by exact M. destruct (assoc k l); reflexivity.
  - destruct (in_dec string_dec k APPLIANCE_ARGS) as [C|_]; [exfalso; exact (D2 k Hk C)|].
    destruct (B2 k Hk) as (l & El & Al). exists l. split; [exact El|]. rewrite A1, Al; [reflexivity|]. intros C. destruct (D1 k C). contradiction.
Qed.

Lemma blank_value sub r k l : param_arg sub r k = Ok l -> contains sub k = false -> row_get r k = CBlank -> assoc k l = None.
Proof. unfold param_arg, value_arg. intros H E B. rewrite E, B in H. cbn in H. injection H as <-. reflexivity. Qed.
Lemma blank_window sub r k l : param_arg sub r k = Ok l -> contains sub k = true ->
  row_get r (k ++ "_start")%string = CBlank \/ row_get r (k ++ "_end")%string = CBlank -> assoc k l = None.
Proof.
  unfold param_arg, window_arg. intros H E B. rewrite E in H. destruct B as [B|B]; rewrite B in H.
  - cbn in H. injection H as <-. reflexivity.
  - destruct (is_nan (row_get r (k ++ "_start")%string)) as [[|]|]; cbn in H; try discriminate; injection H as <-; reflexivity.
Qed.

(** ** The appliance made from the arguments *)

(** the object being added is the last of the store *)
Definition last_object (objs : list appliance) (rs0 : list nat) (x : appliance) (g : registry) : Prop :=
  exists rs, g = Registry (objs ++ [x]) rs /\ (rs = rs0 \/ rs = rs0 ++ [List.length objs]).

Definition with_args (base : cycle) (c : cycle_args) : cycle := if any_cycle_arg c then fst (apply_cycle_args base c) else base.

(** equal up to the name *)
Definition renamed (x y : appliance) : Prop := y = x \/ exists n, y = set_name x n.

Lemma member_self strict g a self rs e : In self rs -> User.member strict g a self rs = Ok e -> e = true.
Proof.
  induction rs as [|r rs IH]; intros Hin H; [destruct Hin|]. cbn [User.member] in H.
  destruct (Nat.eqb r self) eqn:E; [injection H as <-; reflexivity|]. apply Nat.eqb_neq in E.
  destruct (deref g r) as [b|]; [|discriminate]. destruct (app_eq strict b a) as [[|]|]; cbn [rbind] in H; try discriminate; [congruence|].
  apply IH; [|exact H]. destruct Hin; [contradiction|assumption].
Qed.

Lemma register_last_object strict objs rs0 x g g' : last_object objs rs0 x g -> register strict g (List.length objs) = Ok g' ->
  exists y, last_object objs rs0 y g' /\ renamed x y.
Proof.
  intros (rs & -> & Hrs). unfold register. rewrite deref_last. cbn [refs objects].
  destruct (User.member strict _ x _ rs) as [[|]|] eqn:M; cbn [rbind]; intros H; try discriminate; injection H as <-.
  - exists x. split; [exists rs; auto|left; reflexivity].
  - rewrite list_set_last. eexists. split.
    + eexists. split; [reflexivity|]. destruct Hrs as [-> | ->]; [right; reflexivity|]. exfalso.
      apply member_self in M; [discriminate|]. apply in_or_app. right. left. reflexivity.
    + destruct (String.eqb (name (par x)) "") ; [right; eexists; reflexivity|left; reflexivity].
Qed.
Lemma cycles_last_object objs rs0 x g i c g' : last_object objs rs0 x g ->
  (if any_cycle_arg c then cycle_on g (List.length objs) i c else (g, None)) = (g', None) ->
  last_object objs rs0 (if i =? 1 then set_cyc1 x (with_args (cyc1 x) c) else if i =? 2 then set_cyc2 x (with_args (cyc2 x) c) else set_cyc3 x (with_args (cyc3 x) c)) g'.
Proof.
  intros (rs & -> & Hrs) H. unfold with_args. destruct (any_cycle_arg c).
  - unfold cycle_on in H. rewrite deref_last in H.
    destruct (apply_cycle_args (if i =? 1 then cyc1 x else if i =? 2 then cyc2 x else cyc3 x) c) as [c' e] eqn:E.
    rewrite update_last in H. injection H as <- _. exists rs. split; [|exact Hrs].
    destruct (i =? 1); [rewrite E; reflexivity|]. destruct (i =? 2); rewrite E; reflexivity.
  - injection H as <-. exists rs. split; [|exact Hrs]. destruct (i =? 1); [destruct x; reflexivity|]. destruct (i =? 2); destruct x; reflexivity.
Qed.

(** what the appliance made by add_appliance( **kwargs ) looks like *)
Lemma added_appliance F strict nd g0 kw g : add_kwargs F strict nd g0 kw = Ok g ->
  exists p wa c1 c2 c3 a b,
    params_of kw = Ok p /\ window_args_of kw = Ok wa /\
    cycle_args_of kw "p_11" "t_11" "cw11" "p_12" "t_12" "cw12" "r_c1" = Ok c1 /\
    cycle_args_of kw "p_21" "t_21" "cw21" "p_22" "t_22" "cw22" "r_c2" = Ok c2 /\
    cycle_args_of kw "p_31" "t_31" "cw31" "p_32" "t_32" "cw32" "r_c3" = Ok c3 /\
    last_object (objects g0) (refs g0) b g /\ renamed a b /\ (par a = p \/ exists n, par a = par (set_name (set_par a p) n)) /\
    random_var_w (win a) = (if any_window_arg wa then match wa_rvw wa with Some x => x | None => 0%Q end else 0%Q) /\
    cyc1 a = with_args (if any_window_arg wa && (fixed_cycle p =? 1) then Cycle 0 0 0 0 0 (window_1 (win a)) (window_2 (win a)) else default_cycle) c1 /\
    cyc2 a = with_args default_cycle c2 /\ cyc3 a = with_args default_cycle c3.
Proof.
  unfold add_kwargs. intros H.
  destruct (params_of kw) as [p|]; [|discriminate]. cbn [rbind] in H.
  destruct (arg as_power (PConst 0) "power" kw) as [pw|]; [|discriminate]. cbn [rbind] in H.
  destruct (window_args_of kw) as [wa|]; [|discriminate]. cbn [rbind] in H.
  destruct (cycle_args_of kw "p_11" "t_11" "cw11" "p_12" "t_12" "cw12" "r_c1") as [c1|]; [|discriminate]. cbn [rbind] in H.
  destruct (cycle_args_of kw "p_21" "t_21" "cw21" "p_22" "t_22" "cw22" "r_c2") as [c2|]; [|discriminate]. cbn [rbind] in H.
  destruct (cycle_args_of kw "p_31" "t_31" "cw31" "p_32" "t_32" "cw32" "r_c3") as [c3|]; [|discriminate]. cbn [rbind] in H.
  exists p, wa, c1, c2, c3. unfold add_appliance_kw in H.
  destruct (new_appliance p pw nd) as [a0|] eqn:E0; [|discriminate].
  assert (A0 : par a0 = p /\ win a0 = default_wins /\ cyc1 a0 = default_cycle /\ cyc2 a0 = default_cycle /\ cyc3 a0 = default_cycle).
  { destruct pw; cbn in E0; try discriminate; injection E0 as <-; cbn; auto. }
  destruct A0 as (P0 & W0 & C1 & C2 & C3). set (objs := objects g0) in *. set (n := List.length objs) in *.
  assert (K : forall (gw : registry * option exc) g1, gw = (g1, None) -> gw =
      (if any_window_arg wa then windows_on F strict (Registry (objs ++ [a0]) (refs g0)) n (wa1 wa) (wa2 wa) (match wa_rvw wa with Some x => x | None => 0%Q end) (wa3 wa) else (Registry (objs ++ [a0]) (refs g0), None)) ->
      exists x, last_object objs (refs g0) x g1 /\ (par x = p \/ exists n, par x = par (set_name (set_par x p) n)) /\
        random_var_w (win x) = (if any_window_arg wa then match wa_rvw wa with Some x => x | None => 0%Q end else 0%Q) /\
        cyc1 x = (if any_window_arg wa && (fixed_cycle p =? 1) then Cycle 0 0 0 0 0 (window_1 (win x)) (window_2 (win x)) else default_cycle) /\
        cyc2 x = default_cycle /\ cyc3 x = default_cycle).
  { intros gw g1 Eg Hg. rewrite Eg in Hg. clear H gw Eg. destruct (any_window_arg wa); cbn [andb].
    - unfold windows_on in Hg. unfold n in Hg. rewrite deref_last in Hg.
      destruct (windows F a0 (wa1 wa) (wa2 wa) (match wa_rvw wa with Some x => x | None => 0%Q end) (wa3 wa)) as [a1 [e|]] eqn:Ew; [discriminate|].
      pose proof (windows_ok F a0 _ _ _ _ a1 Ew) as G. cbv zeta in G.
      destruct G as (Gp & _ & _ & _ & _ & _ & _ & _ & _ & Gr & _ & _ & _ & _ & _ & _ & _ & _ & G1 & G2 & G3).
      rewrite update_last in Hg.
      destruct (register strict (Registry (objs ++ [set_cyc1 a1 (cyc1 a0)]) (refs g0)) (List.length objs)) as [g2|] eqn:Er; [|discriminate].
      destruct (register_last_object strict objs (refs g0) (set_cyc1 a1 (cyc1 a0)) _ _ (ex_intro _ _ (conj eq_refl (or_introl eq_refl))) Er) as (y & (rs & -> & Hrs) & Hy).
      rewrite update_last in Hg.
      injection Hg as ->. exists (set_cyc1 y (cyc1 a1)). split; [exists rs; auto|].
      rewrite P0, C1 in G1. rewrite C2 in G2. rewrite C3 in G3. rewrite P0 in Gp.
      destruct Hy as [->|(nm & ->)]; cbn [set_cyc1 set_name set_par par win cyc1 cyc2 cyc3 fixed_cycle];
        rewrite ?Gp, Gr, G1, G2, G3; (split; [try (left; reflexivity); right; exists nm; reflexivity|]); repeat split; destruct (fixed_cycle p =? 1); reflexivity.
    - injection Hg as ->. exists a0. split; [eexists; auto|]. rewrite P0, W0, C1, C2, C3. repeat split. left. reflexivity. }
  destruct (if any_window_arg wa then _ else _) as [g1 [e|]] eqn:Ew in H; [discriminate|].
  destruct (K _ g1 eq_refl (eq_sym Ew)) as (x & Sx & X1 & X2 & X3 & X4 & X5).
  destruct (if any_cycle_arg c1 then _ else _) as [g2 [e|]] eqn:E1 in H; [discriminate|].
  apply cycles_last_object with (i := 1) (1 := Sx) in E1. cbn [Z.eqb] in E1.
  destruct (if any_cycle_arg c2 then _ else _) as [g3 [e|]] eqn:E2 in H; [discriminate|].
  apply cycles_last_object with (i := 2) (1 := E1) in E2. cbn [Z.eqb Pos.eqb] in E2.
  destruct (if any_cycle_arg c3 then _ else _) as [g4 [e|]] eqn:E3 in H; [discriminate|].
  apply cycles_last_object with (i := 3) (1 := E2) in E3. cbn [Z.eqb Pos.eqb] in E3.
  destruct (register strict g4 n) as [g5|] eqn:Er; [|discriminate]. injection H as <-.
  match type of E3 with last_object _ _ ?z _ => set (y := z) in * end.
  destruct (register_last_object strict objs _ y _ _ E3 Er) as (b & Lb & Hb). exists y, b.
  repeat (split; [reflexivity|]). split; [exact Lb|]. split; [exact Hb|]. split; [exact X1|]. unfold y. cbn [set_cyc1 set_cyc2 set_cyc3 par win cyc1 cyc2 cyc3].
  rewrite X2, X3, X4, X5. repeat split.
Qed.

(** ** C43: what a row says about duty cycles and the variability of the windows *)

(** the number in a cell, the default value if it is blank *)
Definition number_or (dflt : Q) (c : cell) : Q := match c with CNum q => q | _ => dflt end.

Definition float_columns : list string :=
  ["p_11"; "p_12"; "r_c1"; "p_21"; "p_22"; "r_c2"; "p_31"; "p_32"; "r_c3"; "random_var_w"].
Definition time_columns : list string := ["t_11"; "t_12"; "t_21"; "t_22"; "t_31"; "t_32"].
Definition window_columns : list string := ["cw11"; "cw12"; "cw21"; "cw22"; "cw31"; "cw32"].

(** the attributes an appliance gets from these columns: the value of the cell, 0 if it is blank; a pair of
    window cells, [0, 0] if one of them is blank (for fixed_cycle = 1, the first duty cycle then
    takes the use windows instead) *)
Definition cycle_cells (r : row) (a : appliance) : Prop :=
  (forall k, In k float_columns -> getattr a k = Some (VFloat (number_or 0 (row_get r k)))) /\
  (forall k, In k time_columns -> exists z, getattr a k = Some (VInt z) /\ (zq z == number_or 0 (row_get r k))%Q) /\
  (forall k, In k window_columns ->
     (row_get r (k ++ "_start") = CBlank \/ row_get r (k ++ "_end") = CBlank ->
      fixed_cycle (par a) <> 1 \/ ~ In k ["cw11"; "cw12"] -> getattr a k = Some (VWin (0, 0))) /\
     (forall x y, row_get r (k ++ "_start") = CNum (zq x) -> row_get r (k ++ "_end") = CNum (zq y) ->
      getattr a k = Some (VWin (x, y))))%string.

Definition dq (o : option Q) : Q := match o with Some x => x | None => 0%Q end.
Definition dz (o : option Z) : Z := match o with Some x => x | None => 0 end.

Lemma with_args_values base c : cp1 base = 0%Q -> ct1 base = 0 -> cp2 base = 0%Q -> ct2 base = 0 -> cr base = 0%Q ->
  cp1 (with_args base c) = dq (ca_p1 c) /\ ct1 (with_args base c) = dz (ca_t1 c) /\
  cp2 (with_args base c) = dq (ca_p2 c) /\ ct2 (with_args base c) = dz (ca_t2 c) /\ cr (with_args base c) = dq (ca_r c) /\
  cwa (with_args base c) = (match ca_w1 c with Some x => x | None => cwa base end) /\
  cwb (with_args base c) = (match ca_w2 c with Some x => x | None => cwb base end).
Proof.
  intros H1 H2 H3 H4 H5. destruct c as [p1 t1 w1 p2 t2 w2 r]. unfold with_args.
  destruct (any_cycle_arg _) eqn:E; [cbn; repeat split; reflexivity|].
  unfold any_cycle_arg in E. cbn in E. destruct p1, t1, w1, p2, t2, w2, r; try discriminate. cbn. auto 10.
Qed.

Definition value_column (k : string) : Prop :=
  (In k WINDOWS_PARAMETERS /\ contains "window" k = false) \/ (In k (List.concat DUTY_CYCLE_PARAMETERS) /\ contains "cw" k = false).

Lemma value_column_assoc r kw k : row_kwargs r = Ok kw -> value_column k ->
  (row_get r k = CBlank /\ assoc k kw = None) \/ exists q, row_get r k = CNum q /\ assoc k kw = Some (ACell (CNum q)).
Proof.
  intros H Hk. destruct (row_kwargs_assoc r kw k H) as (_ & A & B).
  assert (G : exists sub l, param_arg sub r k = Ok l /\ contains sub k = false /\ assoc k kw = assoc k l).
  { destruct Hk as [[I E]|[I E]]; [destruct (A I) as (l & L1 & L2)|destruct (B I) as (l & L1 & L2)]; eauto 6. }
  destruct G as (sub & l & L1 & L2 & L3). rewrite L3. unfold param_arg, value_arg in L1. rewrite L2 in L1.
  destruct (row_get r k) as [|q| | |]; cbn [is_nan rbind] in L1; try discriminate; injection L1 as <-.
  - left. auto.
  - right. exists q. split; [reflexivity|apply assoc_self].
Qed.

Lemma opt_arg_Q r kw k o : row_kwargs r = Ok kw -> value_column k -> opt_arg as_Q k kw = Ok o -> dq o = number_or 0 (row_get r k).
Proof.
  intros H Hk Ho. unfold opt_arg in Ho. destruct (value_column_assoc r kw k H Hk) as [[E A]|(q & E & A)]; rewrite A in Ho; rewrite E; cbn in Ho; injection Ho as <-; reflexivity.
Qed.
Lemma opt_arg_Z r kw k o : row_kwargs r = Ok kw -> value_column k -> opt_arg as_Z k kw = Ok o -> (zq (dz o) == number_or 0 (row_get r k))%Q.
Proof.
  intros H Hk Ho. unfold opt_arg in Ho. destruct (value_column_assoc r kw k H Hk) as [[E A]|(q & E & A)]; rewrite A in Ho; rewrite E.
  - injection Ho as <-. reflexivity.
  - destruct (as_Z (CNum q)) as [z|] eqn:Z; [|discriminate]. cbn [rbind] in Ho. injection Ho as <-. cbn [dz number_or].
    destruct (as_Z_inv _ _ Z) as (q' & Q & Hq). injection Q as <-. symmetry. exact Hq.
Qed.

Lemma win_arg_cells r kw k : row_kwargs r = Ok kw -> In k (List.concat DUTY_CYCLE_PARAMETERS) -> contains "cw" k = true ->
  (row_get r (k ++ "_start")%string = CBlank \/ row_get r (k ++ "_end")%string = CBlank -> win_arg k kw = None) /\
  (forall x y, row_get r (k ++ "_start")%string = CNum (zq x) -> row_get r (k ++ "_end")%string = CNum (zq y) -> win_arg k kw = Some (x, y)).
Proof.
  intros H Hk Hc. destruct (row_kwargs_assoc r kw k H) as (_ & _ & B). destruct (B Hk) as (l & L1 & L2). unfold win_arg. rewrite L2. split.
  - intros Hb. rewrite (blank_window _ _ _ _ L1 Hc Hb). reflexivity.
  - intros x y Hx Hy. unfold param_arg in L1. rewrite Hc in L1. rewrite (window_arg_num r k (x, y) Hx Hy) in L1. injection L1 as <-.
    rewrite assoc_self. reflexivity.
Qed.

Definition listed (k : string) (l : list string) : bool := existsb (String.eqb k) l.
Lemma listed_in k l : listed k l = true -> In k l.
Proof. intros H. apply existsb_exists in H. destruct H as (x & Hx & E). apply String.eqb_eq in E. subst. exact Hx. Qed.
Lemma value_columns ks :
  forallb (fun k => (listed k WINDOWS_PARAMETERS && negb (contains "window" k)) ||
                    (listed k (List.concat DUTY_CYCLE_PARAMETERS) && negb (contains "cw" k))) ks = true -> Forall value_column ks.
Proof.
  intros H. apply Forall_forall. intros k Hk. rewrite forallb_forall in H. specialize (H k Hk).
  apply orb_prop in H. destruct H as [H|H]; apply andb_prop in H; destruct H as [H1 H2]; apply negb_true_iff in H2;
    [left|right]; (split; [apply listed_in; exact H1|exact H2]).
Qed.
Lemma window_columns_ok ks : forallb (fun k => listed k (List.concat DUTY_CYCLE_PARAMETERS) && contains "cw" k) ks = true ->
  Forall (fun w => In w (List.concat DUTY_CYCLE_PARAMETERS) /\ contains "cw" w = true) ks.
Proof.
  intros H. apply Forall_forall. intros k Hk. rewrite forallb_forall in H. specialize (H k Hk).
  apply andb_prop in H. destruct H as [H1 H2]. split; [apply listed_in; exact H1|exact H2].
Qed.

Lemma cycle_args_inv kw p1 t1 w1 p2 t2 w2 r c : cycle_args_of kw p1 t1 w1 p2 t2 w2 r = Ok c ->
  opt_arg as_Q p1 kw = Ok (ca_p1 c) /\ opt_arg as_Z t1 kw = Ok (ca_t1 c) /\ ca_w1 c = win_arg w1 kw /\
  opt_arg as_Q p2 kw = Ok (ca_p2 c) /\ opt_arg as_Z t2 kw = Ok (ca_t2 c) /\ ca_w2 c = win_arg w2 kw /\ opt_arg as_Q r kw = Ok (ca_r c).
Proof.
  unfold cycle_args_of. intros H. destruct (opt_arg as_Q p1 kw); [|discriminate]. cbn [rbind] in H.
  destruct (opt_arg as_Z t1 kw); [|discriminate]. cbn [rbind] in H. destruct (opt_arg as_Q p2 kw); [|discriminate]. cbn [rbind] in H.
  destruct (opt_arg as_Z t2 kw); [|discriminate]. cbn [rbind] in H. destruct (opt_arg as_Q r kw); [|discriminate]. cbn [rbind] in H.
  injection H as <-. cbn. auto 10.
Qed.

(** the three numbers and two windows of one duty cycle *)
Lemma cycle_from_row r kw p1 t1 w1 p2 t2 w2 rc c base :
  row_kwargs r = Ok kw -> cycle_args_of kw p1 t1 w1 p2 t2 w2 rc = Ok c ->
  Forall value_column [p1; t1; p2; t2; rc] ->
  Forall (fun w => In w (List.concat DUTY_CYCLE_PARAMETERS) /\ contains "cw" w = true) [w1; w2] ->
  cp1 base = 0%Q -> ct1 base = 0 -> cp2 base = 0%Q -> ct2 base = 0 -> cr base = 0%Q ->
  let C := with_args base c in
  cp1 C = number_or 0 (row_get r p1) /\ (zq (ct1 C) == number_or 0 (row_get r t1))%Q /\
  cp2 C = number_or 0 (row_get r p2) /\ (zq (ct2 C) == number_or 0 (row_get r t2))%Q /\ cr C = number_or 0 (row_get r rc) /\
  ((row_get r (w1 ++ "_start")%string = CBlank \/ row_get r (w1 ++ "_end")%string = CBlank -> cwa C = cwa base) /\
   (forall x y, row_get r (w1 ++ "_start")%string = CNum (zq x) -> row_get r (w1 ++ "_end")%string = CNum (zq y) -> cwa C = (x, y))) /\
  ((row_get r (w2 ++ "_start")%string = CBlank \/ row_get r (w2 ++ "_end")%string = CBlank -> cwb C = cwb base) /\
   (forall x y, row_get r (w2 ++ "_start")%string = CNum (zq x) -> row_get r (w2 ++ "_end")%string = CNum (zq y) -> cwb C = (x, y))).
Proof.
  intros Hr Hc Hv Hw B1 B2 B3 B4 B5 C. destruct (with_args_values base c B1 B2 B3 B4 B5) as (V1 & V2 & V3 & V4 & V5 & V6 & V7).
  destruct (cycle_args_inv _ _ _ _ _ _ _ _ _ Hc) as (O1 & O2 & O3 & O4 & O5 & O6 & O7).
  inversion Hv as [|? ? Y1 Hv1]; subst. inversion Hv1 as [|? ? Y2 Hv2]; subst. inversion Hv2 as [|? ? Y3 Hv3]; subst.
  inversion Hv3 as [|? ? Y4 Hv4]; subst. inversion Hv4 as [|? ? Y5 _]; subst.
  inversion Hw as [|? ? [W1 W1'] Hw1]; subst. inversion Hw1 as [|? ? [W2 W2'] _]; subst.
  unfold C. rewrite V1, V2, V3, V4, V5, V6, V7, O3, O6.
  destruct (win_arg_cells r kw w1 Hr W1 W1') as [X1 X2]. destruct (win_arg_cells r kw w2 Hr W2 W2') as [X3 X4].
  split; [eapply opt_arg_Q; eassumption|]. split; [eapply opt_arg_Z; eassumption|].
  split; [eapply opt_arg_Q; eassumption|]. split; [eapply opt_arg_Z; eassumption|]. split; [eapply opt_arg_Q; eassumption|].
  split; split.
  - intros Hb. rewrite (X1 Hb). reflexivity.
  - intros x y Hx Hy. rewrite (X2 x y Hx Hy). reflexivity.
  - intros Hb. rewrite (X3 Hb). reflexivity.
  - intros x y Hx Hy. rewrite (X4 x y Hx Hy). reflexivity.
Qed.

Lemma row_appliance F strict nd g0 r kw g : row_kwargs r = Ok kw -> add_kwargs F strict nd g0 kw = Ok g ->
  exists b, last_object (objects g0) (refs g0) b g /\ cycle_cells r b.
Proof.
  intros Hr Ha. destruct (added_appliance F strict nd g0 kw g Ha) as
    (p & wa & c1 & c2 & c3 & a & b & E1 & E2 & E3 & E4 & E5 & E6 & E7 & E8 & E9 & E10 & E11 & E12).
  exists b. split; [exact E6|].
  assert (Hfc : fixed_cycle (par a) = fixed_cycle p) by (destruct E8 as [->|(n & ->)]; reflexivity).
  set (base := if any_window_arg wa && (fixed_cycle p =? 1) then Cycle 0 0 0 0 0 (window_1 (win a)) (window_2 (win a)) else default_cycle) in *.
  assert (R1 : cp1 base = 0%Q /\ ct1 base = 0 /\ cp2 base = 0%Q /\ ct2 base = 0 /\ cr base = 0%Q)
    by (unfold base; destruct (any_window_arg wa && (fixed_cycle p =? 1)); auto 10).
  assert (R2 : fixed_cycle (par a) <> 1 -> cwa base = (0, 0) /\ cwb base = (0, 0)).
  { intros N. rewrite Hfc in N. apply Z.eqb_neq in N. unfold base. rewrite N, andb_false_r. auto. }
  destruct R1 as (R11 & R12 & R13 & R14 & R15).
  assert (K1 := cycle_from_row r kw "p_11" "t_11" "cw11" "p_12" "t_12" "cw12" "r_c1" c1 base Hr E3 (value_columns ["p_11"; "t_11"; "p_12"; "t_12"; "r_c1"] eq_refl) (window_columns_ok ["cw11"; "cw12"] eq_refl) R11 R12 R13 R14 R15).
  assert (K2 := cycle_from_row r kw "p_21" "t_21" "cw21" "p_22" "t_22" "cw22" "r_c2" c2 default_cycle Hr E4 (value_columns ["p_21"; "t_21"; "p_22"; "t_22"; "r_c2"] eq_refl) (window_columns_ok ["cw21"; "cw22"] eq_refl) eq_refl eq_refl eq_refl eq_refl eq_refl).
  assert (K3 := cycle_from_row r kw "p_31" "t_31" "cw31" "p_32" "t_32" "cw32" "r_c3" c3 default_cycle Hr E5 (value_columns ["p_31"; "t_31"; "p_32"; "t_32"; "r_c3"] eq_refl) (window_columns_ok ["cw31"; "cw32"] eq_refl) eq_refl eq_refl eq_refl eq_refl eq_refl).
  cbv zeta in K1, K2, K3. rewrite <- E10 in K1. rewrite <- E11 in K2. rewrite <- E12 in K3.
  assert (Kw : random_var_w (win a) = number_or 0 (row_get r "random_var_w")).
  { unfold window_args_of in E2. destruct (opt_arg as_Q "random_var_w" kw) as [o|] eqn:Eo; [|discriminate]. cbn [rbind] in E2. injection E2 as <-.
    cbn [wa_rvw] in E9. assert (D : dq o = number_or 0 (row_get r "random_var_w")) by (eapply opt_arg_Q; [exact Hr|left; split; [apply listed_in; reflexivity|reflexivity]|exact Eo]).
    rewrite E9, <- D. destruct o; [|destruct (any_window_arg _); reflexivity]. unfold any_window_arg. cbn [wa1 wa2 wa3 wa_rvw].
    destruct (win_arg "window_1" kw), (win_arg "window_2" kw), (win_arg "window_3" kw); reflexivity. }
  destruct K1 as (A1 & A2 & A3 & A4 & A5 & (A6 & A6') & (A7 & A7')).
  destruct K2 as (B1 & B2 & B3 & B4 & B5 & (B6 & B6') & (B7 & B7')).
  destruct K3 as (D1 & D2 & D3 & D4 & D5 & (D6 & D6') & (D7 & D7')).
  assert (Hb : win b = win a /\ cyc1 b = cyc1 a /\ cyc2 b = cyc2 a /\ cyc3 b = cyc3 a /\ fixed_cycle (par b) = fixed_cycle (par a)).
  { destruct E7 as [->|(n & ->)]; repeat split; reflexivity. }
  destruct Hb as (HW & H1 & H2 & H3 & H4).
  split; [|split].
  - intros k Hk. cbn in Hk.
    repeat (destruct Hk as [<-|Hk]; [cbn [getattr String.eqb Ascii.eqb Bool.eqb]; rewrite ?HW, ?H1, ?H2, ?H3; congruence|]). destruct Hk.
  - intros k Hk. cbn in Hk.
    repeat (destruct Hk as [<-|Hk]; [eexists; cbn [getattr String.eqb Ascii.eqb Bool.eqb]; rewrite ?H1, ?H2, ?H3; split; [reflexivity|assumption]|]). destruct Hk.
  - intros k Hk. rewrite H4. cbn in Hk. destruct Hk as [<-|[<-|[<-|[<-|[<-|[<-|[]]]]]]];
      cbn [getattr String.eqb Ascii.eqb Bool.eqb append] in *; rewrite ?H1, ?H2, ?H3; split; intros;
      try (do 2 f_equal; first [apply A6'|apply A7'|apply B6'|apply B7'|apply D6'|apply D7']; assumption).
    + rewrite A6 by assumption. destruct H0 as [N|N]; [destruct (R2 N) as [-> _]; reflexivity|exfalso; apply N; cbn; tauto].
    + rewrite A7 by assumption. destruct H0 as [N|N]; [destruct (R2 N) as [_ ->]; reflexivity|exfalso; apply N; cbn; tauto].
    + rewrite B6 by assumption. reflexivity.
    + rewrite B7 by assumption. reflexivity.
    + rewrite D6 by assumption. reflexivity.
    + rewrite D7 by assumption. reflexivity.
Qed.

(** all rows of a user: one appliance each, of which some may be left out as equal to an earlier one *)
Lemma registered_snoc objs rs b : Forall (fun r => (r < List.length objs)%nat) rs ->
  registered (Registry (objs ++ [b]) rs) = registered (Registry objs rs).
Proof.
  intros H. unfold registered, deref. cbn [refs objects]. induction H as [|r rs Hr _ IH]; [reflexivity|]. cbn [flat_map].
  rewrite IH, nth_error_app1 by exact Hr. reflexivity.
Qed.
Lemma sublist_snoc {A} (l l' : list A) x : sublist l l' -> sublist l (l' ++ [x]) /\ sublist (l ++ [x]) (l' ++ [x]).
Proof.
  induction 1 as [|y l l' H [IH1 IH2]|y l l' H [IH1 IH2]]; cbn [app].
  - split; repeat constructor.
  - split; constructor; assumption.
  - split; constructor; assumption.
Qed.

Lemma rows_appliances F strict nd rows : forall g0 g,
  add_rows F strict nd g0 rows = Ok g -> Forall (fun r => (r < List.length (objects g0))%nat) (refs g0) ->
  sublist (registered g0) (objects g0) ->
  exists made, objects g = objects g0 ++ made /\ Forall2 cycle_cells rows made /\ sublist (registered g) (objects g).
Proof.
  induction rows as [|r rows IH]; intros g0 g H Hlt Hsub; cbn [add_rows] in H.
  - injection H as <-. exists []. rewrite app_nil_r. repeat split; [constructor|exact Hsub].
  - destruct (row_kwargs r) as [kw|] eqn:Ek; [|discriminate]. cbn [rbind] in H.
    destruct (add_kwargs F strict nd g0 kw) as [g1|] eqn:Ea; [|discriminate]. cbn [rbind] in H.
    destruct (row_appliance F strict nd g0 r kw g1 Ek Ea) as (b & (rs & -> & Hrs) & Hb).
    destruct (IH _ _ H) as (made & M1 & M2 & M3).
    + cbn [objects refs]. rewrite app_length. cbn [List.length].
      assert (L : Forall (fun r => (r < List.length (objects g0) + 1)%nat) (refs g0)) by (eapply Forall_impl; [|exact Hlt]; cbn; intros; lia).
      destruct Hrs as [-> | ->]; [exact L|]. apply Forall_app. split; [exact L|]. constructor; [lia|constructor].
    + cbn [objects]. destruct (sublist_snoc _ _ b Hsub) as [S1 S2]. destruct Hrs as [-> | ->].
      * rewrite registered_snoc by exact Hlt. destruct g0. exact S1.
      * pose proof (registered_snoc (objects g0) (refs g0) b Hlt) as RS. unfold registered, deref in *. cbn [refs objects] in *.
        rewrite flat_map_app, RS. cbn [flat_map]. rewrite nth_error_app2, Nat.sub_diag by lia. cbn [nth_error app]. exact S2.
    + exists (b :: made). cbn [objects] in M1. rewrite M1, <- app_assoc. split; [reflexivity|].
      split; [constructor; assumption|]. rewrite M1, <- app_assoc in M3. exact M3.
Qed.

Lemma cycle_cells_read r r' a : read_row r = Ok r' -> cycle_cells r' a -> cycle_cells r a.
Proof.
  intros H (C1 & C2 & C3). split; [|split].
  - intros k Hk. rewrite (C1 k Hk). rewrite (read_row_get _ _ k H); [reflexivity|]. intros ->. cbn in Hk. intuition discriminate.
  - intros k Hk. destruct (C2 k Hk) as (z & E & Q). exists z. split; [exact E|].
    rewrite (read_row_get _ _ k H) in Q; [exact Q|]. intros ->. cbn in Hk. intuition discriminate.
  - intros k Hk. destruct (C3 k Hk) as [D1 D2].
    assert (N : (k ++ "_start")%string <> "power" /\ (k ++ "_end")%string <> "power").
    { cbn in Hk. destruct Hk as [<-|[<-|[<-|[<-|[<-|[<-|[]]]]]]]; split; discriminate. }
    rewrite !(read_row_get _ _ _ H) in D1, D2 by apply N. split; assumption.
Qed.

(** Every row of a table that loads makes one appliance, which has the value of each duty cycle and
    variability cell and the default value 0 (or [0, 0]) where the cell is blank; the
    appliances of a user are those of its rows in order, duplicates left out. *)
Theorem C43_cycle_cells_partial F strict nd t us u : load_table F strict nd t = Ok us -> In u us ->
  exists made, Forall2 cycle_cells (rows_of_user (user_name u) t) made /\ sublist (app_list u) made.
Proof.
  intros H Hu. destruct (C42_grouping _ _ _ _ _ H) as (_ & _ & _ & Hall). rewrite Forall_forall in Hall.
  destruct (Hall u Hu) as (rows' & g & R & _ & _ & _ & A & Ea).
  destruct (rows_appliances F strict nd rows' (Registry [] []) g A (Forall_nil _) sub_nil) as (made & M1 & M2 & M3).
  exists made. cbn [objects app] in M1. split; [|rewrite Ea, <- M1; exact M3].
  apply map_res_Forall2 in R. clear -R M2. revert made M2. induction R as [|r r' rows rows' Hr _ IH]; intros made M2; inversion M2; subst; constructor.
  - eapply cycle_cells_read; eassumption.
  - apply IH. assumption.
Qed.

(** a constructor argument whose column is missing altogether takes its default *)
Theorem C43_missing_column_partial r kw : row_kwargs r = Ok kw ->
  forall k, In k APPLIANCE_ARGS -> assoc k r = None -> assoc k kw = None.
Proof. intros H k Hk Hr. destruct (row_kwargs_assoc r kw k H) as (A & _). rewrite (A Hk), Hr. reflexivity. Qed.
Theorem C43_defaults_partial kw p : params_of kw = Ok p ->
  (assoc "number" kw = None -> number p = 1) /\ (assoc "num_windows" kw = None -> num_windows p = 1) /\
  (assoc "func_time" kw = None -> func_time p = 0) /\
  (assoc "time_fraction_random_variability" kw = None -> time_var p = 0%Q) /\
  (assoc "func_cycle" kw = None -> func_cycle p = 1) /\ (assoc "fixed" kw = None -> fixed p = "no") /\
  (assoc "fixed_cycle" kw = None -> fixed_cycle p = 0) /\
  (assoc "continuous_duty_cycle" kw = None -> continuous_duty_cycle p = 1) /\
  (assoc "occasional_use" kw = None -> occasional_use p = 1%Q) /\ (assoc "flat" kw = None -> flat p = "no") /\
  (assoc "thermal_p_var" kw = None -> thermal_p_var p = 0%Q) /\ (assoc "pref_index" kw = None -> pref_index p = 0) /\
  (assoc "wd_we_type" kw = None -> wd_we_type p = 2).
Proof.
  unfold params_of. intros H.
  assert (G : forall A conv (d : A) k x, arg conv d k kw = Ok x -> assoc k kw = None -> x = d).
  { intros A conv d k x Ha Hn. unfold arg in Ha. rewrite Hn in Ha. congruence. }
  repeat match type of H with rbind (arg ?c ?d ?k kw) _ = _ =>
    let E := fresh "E" in destruct (arg c d k kw) eqn:E in H; [|discriminate]; pose proof (G _ _ _ _ _ E); clear E; cbn [rbind] in H end.
  injection H as <-. repeat (split; [assumption|]). assumption.
Qed.

(** but a blank cell of an existing column is handed to add_appliance as NaN, although the documentation says that
    the default value is used for an empty cell of time_fraction_random_variability, fixed, fixed_cycle,
    occasional_use, flat, thermal_p_var, pref_index and wd_we_type *)
Theorem C43_blank_argument_refuted r kw k : row_kwargs r = Ok kw -> In k APPLIANCE_ARGS -> assoc k r = Some CBlank ->
  assoc k kw = Some (ACell CBlank).
Proof. intros H Hk Hr. destruct (row_kwargs_assoc r kw k H) as (A & _). rewrite (A Hk), Hr. reflexivity. Qed.

Definition blank_row : row := lamp_row "a" 1 "lamp" ++
  [("occasional_use", CBlank); ("p_11", CNum 20); ("t_11", CBlank); ("cw21_start", CNum 5); ("cw21_end", CBlank)].
Example C43_blank_argument_case : exists kw, row_kwargs blank_row = Ok kw /\
  assoc "occasional_use" kw = Some (ACell CBlank) /\ assoc "thermal_p_var" kw = None.
Proof. eexists. split; [vm_compute; reflexivity|]. split; reflexivity. Qed.
Example C43_case : exists us, load_table exact_fm true 366
  [lamp_row "a" 1 "one"; lamp_row "a" 1 "two" ++ [("p_11", CNum 20); ("t_11", CBlank); ("cw21_start", CNum 5); ("cw21_end", CBlank)]] = Ok us /\
  map (fun u => map (fun a => (cp1 (cyc1 a), ct1 (cyc1 a), cwa (cyc2 a))) (app_list u)) us = [[(0%Q, 0, (0, 0)); (20%Q, 0, (0, 0))]].
Proof. eexists. split; [vm_compute; reflexivity|reflexivity]. Qed.

(** ** C52: a power range of two columns *)

(** one column of 366 values gives these values *)
Theorem C52_one_column_partial vals : zlen vals = 366 ->
  exists c, read_power (CRange [vals]) = Ok c /\ as_power c = Ok (PSeries vals).
Proof.
  intros H. unfold read_power. rewrite H. cbn [Z.eqb Pos.eqb]. eexists. split; [reflexivity|].
  unfold as_power. rewrite map_map. cbn [hd]. rewrite map_id. reflexivity.
Qed.
(** two columns, timestamps and values, give the timestamps *)
Theorem C52_two_columns_refuted times vals : zlen times = 366 -> zlen vals = 366 ->
  exists c, read_power (CRange [times; vals]) = Ok c /\ as_power c = Ok (PSeries times).
Proof.
  intros Ht Hv. unfold read_power. rewrite Ht. cbn [Z.eqb Pos.eqb]. eexists. split; [reflexivity|].
  unfold as_power. rewrite map_map. cbn [hd fst]. do 2 f_equal.
  assert (L : List.length times = List.length vals) by (unfold zlen in *; lia). clear Ht Hv. revert vals L.
  induction times as [|x times IH]; intros [|y vals] L; try discriminate; [reflexivity|]. cbn [combine map fst]. f_equal. apply IH.
  cbn in L. lia.
Qed.
Example C52_case : zlen (repeat 40%Q 366) = 366.
Proof. reflexivity. Qed.
(** any other shape is rejected *)
Theorem C52_other_shapes cols : (forall v, cols <> [v]) -> (forall v w, cols <> [v; w]) \/ zlen (hd [] cols) <> 366 ->
  read_power (CRange cols) = Err ValueError.
Proof.
  intros H1 H. destruct cols as [|v [|w [|x cols]]]; try reflexivity; [destruct (H1 v eq_refl)|].
  cbn [read_power hd] in *. destruct (Z.eqb_spec (zlen v) 366); [|reflexivity]. destruct H as [H|H]; [destruct (H v w eq_refl)|contradiction].
Qed.
Theorem C52_one_column_length vals : zlen vals <> 366 -> read_power (CRange [vals]) = Err ValueError.
Proof. intros H. cbn [read_power]. destruct (Z.eqb_spec (zlen vals) 366); [contradiction|reflexivity]. Qed.
