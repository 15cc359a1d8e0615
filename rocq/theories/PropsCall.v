(** * PropsCall: the ways to call add_appliance (C80) *)
From Verif Require Import Base ListLemmas Utils Appliance Attributes User Tabular Call Declare Script ProofsEq PropsReg PropsDeclare PropsScript PropsHeap PropsSession.
From Coq Require Import ZifyBool ZifyNat String.
Open Scope string_scope.
Open Scope list_scope.
Open Scope Z_scope.

(** ** Specification *)

(** the order of the positional arguments, and the value of a parameter that is not given *)
Definition parameters : list (string * cell) :=
  [("number", CNum 1); ("power", CNum 0); ("num_windows", CNum 1); ("func_time", CNum 0);
   ("time_fraction_random_variability", CNum 0); ("func_cycle", CNum 1); ("fixed", CText "no"); ("fixed_cycle", CNum 0);
   ("continuous_duty_cycle", CNum 1); ("occasional_use", CNum 1); ("flat", CText "no"); ("thermal_p_var", CNum 0);
   ("pref_index", CNum 0); ("wd_we_type", CNum 2); ("name", CText "")].
Definition order : list string := map fst parameters.
(** the further keywords: windows and duty cycles *)
Definition declaration_keywords : list string :=
  ["window_1"; "window_2"; "window_3"; "random_var_w";
   "p_11"; "t_11"; "cw11"; "p_12"; "t_12"; "cw12"; "r_c1";
   "p_21"; "t_21"; "cw21"; "p_22"; "t_22"; "cw22"; "r_c2";
   "p_31"; "t_31"; "cw31"; "p_32"; "t_32"; "cw32"; "r_c3"].

(** the positional argument for parameter [k] *)
Fixpoint at_position (names : list string) (args : list argv) (k : string) : option argv :=
  match names, args with
  | n :: names', v :: args' => if String.eqb k n then Some v else at_position names' args' k
  | _, _ => None
  end.
(** what a call gives for [k]: its positional argument, else the keyword *)
Definition meant (args : list argv) (kw : kwargs) (k : string) : option argv :=
  match at_position order args k with Some v => Some v | None => assoc k kw end.

(** ... else the default of the parameter *)
Definition effective (args : list argv) (kw : kwargs) (k : string) : option argv :=
  match meant args kw k with
  | Some v => Some v
  | None => match assoc k parameters with Some d => Some (ACell d) | None => None end
  end.

(** attribute [k] of an appliance holds [given] (or the default) *)
Definition shows (nd : Z) (a : appliance) (k : string) (dflt : cell) (given : option argv) : Prop :=
  match match given with Some v => v | None => ACell dflt end with
  | AWin _ => False
  | ACell c =>
      if String.eqb k "power" then
        match c with
        | CNum q => power a = repeat q (Z.to_nat (nd + 1))            (* the same power on every day *)
        | CArray rows => power a = map (fun r => hd 0%Q r) rows        (* the first column *)
        | _ => False
        end
      else
        match c, getattr a k with
        | CNum q, Some (VInt z) => (zq z == q)%Q
        | CNum q, Some (VFloat x) => x = q
        | CText s, Some (VStr t) => t = s \/ (k = "name" /\ s = "")    (* an empty name may be replaced *)
        | _, _ => False
        end
  end.

(** ** Proofs *)

Lemma assoc_set_kw kw n v k : assoc k (set_kw kw n v) = if String.eqb k n then Some v else assoc k kw.
Proof.
  induction kw as [|[k' x] kw IH]; cbn [set_kw assoc]; [reflexivity|].
  destruct (String.eqb_spec n k') as [->|N]; cbn [assoc].
  - destruct (String.eqb k k'); reflexivity.
  - rewrite IH. destruct (String.eqb_spec k k') as [->|]; [|reflexivity].
    destruct (String.eqb_spec k' n); [congruence|reflexivity].
Qed.

Lemma at_position_in names args k v : at_position names args k = Some v -> In k names.
Proof.
  revert args. induction names as [|n names IH]; intros [|x args]; cbn; try discriminate.
  destruct (String.eqb_spec k n); [auto|eauto].
Qed.

Lemma zip_meaning names args : NoDup names -> forall kw, exists kw', zip_args names (map PVal args) kw = Ok kw' /\
  forall k, assoc k kw' = match at_position names args k with Some v => Some v | None => assoc k kw end.
Proof.
  intros Hn. revert args. induction Hn as [|n names Hin _ IH]; intros args kw.
  - exists kw. destruct args; auto.
  - destruct args as [|v args]; [exists kw; auto|]. cbn [map zip_args].
    destruct (IH args (set_kw kw n v)) as (kw' & -> & H). exists kw'. split; [reflexivity|].
    intros k. rewrite H, assoc_set_kw. cbn [at_position].
    destruct (String.eqb_spec k n) as [->|]; [|reflexivity].
    destruct (at_position names args n) eqn:E; [|reflexivity]. apply at_position_in in E. contradiction.
Qed.

Lemma order_nodup : NoDup APPLIANCE_ARGS.
Proof. repeat constructor; cbn; intuition discriminate. Qed.

Lemma call_keywords F strict nd g args kw : exists kw',
  (forall k, assoc k kw' = meant args kw k) /\
  add_appliance_call F strict nd g (map PVal args) kw =
    if forallb (fun x => known_keyword (fst x)) kw' then add_keywords F strict nd g kw' else (g, Some TypeError).
Proof.
  destruct (zip_meaning APPLIANCE_ARGS args order_nodup kw) as (kw' & Hz & H). exists kw'. split; [exact H|].
  unfold add_appliance_call. destruct args as [|v args]; cbn [map] in *; rewrite Hz; reflexivity.
Qed.

Lemma known_assoc (p : string -> bool) (kw : kwargs) : forallb (fun x => p (fst x)) kw = true <->
  forall k, assoc k kw <> None -> p k = true.
Proof.
  induction kw as [|[k' x] kw IH]; cbn [forallb assoc fst].
  - split; [intros _ k H; congruence|reflexivity].
  - rewrite Bool.andb_true_iff, IH. split.
    + intros [H1 H2] k. destruct (String.eqb_spec k k') as [->|]; auto.
    + intros H. split; [apply (H k'); rewrite String.eqb_refl; discriminate|].
      intros k Hk. apply H. destruct (String.eqb_spec k k'); [discriminate|exact Hk].
Qed.

Lemma bool_iff b c : (b = true <-> c = true) -> b = c.
Proof. destruct b, c; intuition congruence. Qed.

Definition eff_kw (kw : kwargs) (k : string) : option argv :=
  match assoc k kw with
  | Some v => Some v
  | None => match assoc k parameters with Some d => Some (ACell d) | None => None end
  end.
Definition same_kw (a b : kwargs) : Prop := forall k, eff_kw a k = eff_kw b k.
Lemma arg_same {A} (conv : cell -> res A) d k d0 a b : same_kw a b -> assoc k parameters = Some d0 -> conv d0 = Ok d ->
  arg conv d k a = arg conv d k b.
Proof.
  intros H H0 Hc. specialize (H k). unfold eff_kw in H. rewrite H0 in H. unfold arg.
  destruct (assoc k a) as [[]|], (assoc k b) as [[]|]; congruence.
Qed.
Lemma opt_same {A} (conv : cell -> res A) k a b : same_kw a b -> assoc k parameters = None -> opt_arg conv k a = opt_arg conv k b.
Proof. intros H H0. specialize (H k). unfold eff_kw in H. rewrite H0 in H. unfold opt_arg. destruct (assoc k a), (assoc k b); try discriminate; [injection H as ->|]; reflexivity. Qed.
Lemma win_same k a b : same_kw a b -> assoc k parameters = None -> win_arg k a = win_arg k b.
Proof. intros H H0. specialize (H k). unfold eff_kw in H. rewrite H0 in H. unfold win_arg. destruct (assoc k a), (assoc k b); try discriminate; [injection H as ->|]; reflexivity. Qed.
Lemma params_same a b : same_kw a b -> params_of a = params_of b.
Proof.
  intros H. unfold params_of.
  rewrite (arg_same as_text "" "name" _ a b H eq_refl eq_refl), (arg_same as_Z 1 "number" _ a b H eq_refl eq_refl),
    (arg_same as_Z 1 "num_windows" _ a b H eq_refl eq_refl), (arg_same as_Z 0 "func_time" _ a b H eq_refl eq_refl),
    (arg_same as_Q 0%Q "time_fraction_random_variability" _ a b H eq_refl eq_refl), (arg_same as_Z 1 "func_cycle" _ a b H eq_refl eq_refl),
    (arg_same as_text "no" "fixed" _ a b H eq_refl eq_refl), (arg_same as_Z 0 "fixed_cycle" _ a b H eq_refl eq_refl),
    (arg_same as_Z 1 "continuous_duty_cycle" _ a b H eq_refl eq_refl), (arg_same as_Q 1%Q "occasional_use" _ a b H eq_refl eq_refl),
    (arg_same as_text "no" "flat" _ a b H eq_refl eq_refl), (arg_same as_Q 0%Q "thermal_p_var" _ a b H eq_refl eq_refl),
    (arg_same as_Z 0 "pref_index" _ a b H eq_refl eq_refl), (arg_same as_Z 2 "wd_we_type" _ a b H eq_refl eq_refl).
  reflexivity.
Qed.
Lemma windows_same a b : same_kw a b -> window_args_of a = window_args_of b.
Proof.
  intros H. unfold window_args_of.
  rewrite (opt_same as_Q "random_var_w" a b H eq_refl), (win_same "window_1" a b H eq_refl), (win_same "window_2" a b H eq_refl), (win_same "window_3" a b H eq_refl).
  reflexivity.
Qed.
Lemma cycle_same a b p1 t1 w1 p2 t2 w2 r : same_kw a b -> Forall (fun k => assoc k parameters = None) [p1; t1; w1; p2; t2; w2; r] ->
  cycle_args_of a p1 t1 w1 p2 t2 w2 r = cycle_args_of b p1 t1 w1 p2 t2 w2 r.
Proof.
  intros H N. repeat match goal with N : Forall _ (_ :: _) |- _ => apply Forall_cons_iff in N; let M := fresh "M" in destruct N as [M N] end.
  unfold cycle_args_of.
  rewrite (opt_same as_Q p1 a b), (opt_same as_Z t1 a b), (opt_same as_Q p2 a b), (opt_same as_Z t2 a b), (opt_same as_Q r a b),
    (win_same w1 a b), (win_same w2 a b) by assumption. reflexivity.
Qed.
Lemma keywords_same F strict nd g a b : same_kw a b -> add_keywords F strict nd g a = add_keywords F strict nd g b.
Proof.
  intros H. unfold add_keywords.
  rewrite (params_same a b H), (arg_same as_power (PConst 0) "power" _ a b H eq_refl eq_refl), (windows_same a b H),
    (cycle_same a b "p_11" "t_11" "cw11" "p_12" "t_12" "cw12" "r_c1" H), (cycle_same a b "p_21" "t_21" "cw21" "p_22" "t_22" "cw22" "r_c2" H),
    (cycle_same a b "p_31" "t_31" "cw31" "p_32" "t_32" "cw32" "r_c3" H) by (repeat constructor). reflexivity.
Qed.

Lemma param_known k : assoc k parameters <> None -> known_keyword k = true.
Proof.
  intros H. unfold known_keyword. apply existsb_exists. exists k. split; [|apply String.eqb_refl]. apply in_or_app. left.
  assert (G : forall l, assoc k l <> None -> In k (map (@fst string cell) l)).
  { induction l as [|[k' c] l IH]; cbn [assoc map fst In]; [congruence|]. destruct (String.eqb_spec k k'); auto. }
  exact (G _ H).
Qed.
Lemma known_same a b : same_kw a b -> forallb (fun x : string * argv => known_keyword (fst x)) a = true ->
  forallb (fun x : string * argv => known_keyword (fst x)) b = true.
Proof.
  rewrite !known_assoc. intros H G k Hk. destruct (assoc k parameters) eqn:Ep; [apply param_known; congruence|].
  apply G. specialize (H k). unfold eff_kw in H. rewrite Ep in H. destruct (assoc k a), (assoc k b); congruence.
Qed.

(** C80: only the value of each parameter counts, not whether it is given by position, by keyword or left to its default,
    nor the order of the keywords. *)
Theorem C80_meaning F strict nd g args1 kw1 args2 kw2 : (forall k, effective args1 kw1 k = effective args2 kw2 k) ->
  add_appliance_call F strict nd g (map PVal args1) kw1 = add_appliance_call F strict nd g (map PVal args2) kw2.
Proof.
  intros H. destruct (call_keywords F strict nd g args1 kw1) as (k1 & H1 & ->). destruct (call_keywords F strict nd g args2 kw2) as (k2 & H2 & ->).
  assert (S12 : same_kw k1 k2) by (intros k; unfold eff_kw; rewrite H1, H2; apply H).
  rewrite (keywords_same _ _ _ _ _ _ S12).
  replace (forallb (fun x => known_keyword (fst x)) k1) with (forallb (fun x => known_keyword (fst x)) k2); [reflexivity|].
  apply bool_iff. split; apply known_same; [|exact S12]. intros k. symmetry. apply S12.
Qed.

(** C80: a keyword that does not exist is refused and nothing changes. *)
Theorem C80_unknown F strict nd g args kw k : assoc k kw <> None -> ~ In k order -> ~ In k declaration_keywords ->
  add_appliance_call F strict nd g (map PVal args) kw = (g, Some TypeError).
Proof.
  intros Hk Ho Hd. destruct (call_keywords F strict nd g args kw) as (kw' & H & ->).
  destruct (forallb (fun x => known_keyword (fst x)) kw') eqn:E; [|reflexivity]. exfalso.
  rewrite known_assoc in E. specialize (E k). unfold known_keyword in E. rewrite existsb_exists in E.
  destruct E as (x & Hx & Ex).
  - rewrite H. unfold meant. destruct (at_position order args k) eqn:Ep; [discriminate|exact Hk].
  - apply String.eqb_eq in Ex. subst x. change (In k (order ++ declaration_keywords)) in Hx. apply in_app_or in Hx. tauto.
Qed.

(** what a call gives ends up in the appliance *)
Definition renamed (a b : appliance) : Prop :=
  power b = power a /\ exists n, par b = par (set_name a n) /\ (name (par a) <> "" -> n = name (par a)).
Definition reg_renamed (g g' : registry) : Prop :=
  forall r a, nth_error (objects g) r = Some a -> exists a', nth_error (objects g') r = Some a' /\ renamed a a'.
Lemma same_renamed a b : power b = power a -> par b = par a -> renamed a b.
Proof. intros P Q0. split; [exact P|]. exists (name (par a)). split; [|auto]. rewrite Q0. unfold set_name. cbn [par set_par]. destruct (par a); reflexivity. Qed.
Lemma renamed_trans a b c : renamed a b -> renamed b c -> renamed a c.
Proof.
  intros (P1 & n & H1 & N1) (P2 & m & H2 & N2). split; [congruence|]. exists m.
  unfold set_name in *. cbn [par set_par] in *. split.
  - rewrite H2, H1. reflexivity.
  - intros H. rewrite N2; [|rewrite H1; cbn [name]; rewrite N1 by exact H; exact H]. rewrite H1. cbn [name]. apply N1, H.
Qed.
Lemma rr_refl g : reg_renamed g g. Proof. intros r a H. exists a. split; [exact H|]. apply same_renamed; reflexivity. Qed.
Lemma rr_trans a b c : reg_renamed a b -> reg_renamed b c -> reg_renamed a c.
Proof.
  intros A B r x H. destruct (A r x H) as (y & Hy & P). destruct (B r y Hy) as (z & Hz & P').
  exists z. split; [exact Hz|]. eapply renamed_trans; eassumption.
Qed.
Lemma rr_set objs rs rs' r a b : nth_error objs r = Some a -> renamed a b -> reg_renamed (Registry objs rs) (Registry (list_set objs r b) rs').
Proof.
  intros H P r' x Hx. cbn [objects] in *. destruct (Nat.eq_dec r' r) as [->|N].
  - rewrite (list_set_here _ _ _ _ H). exists b. replace x with a by congruence. auto.
  - rewrite list_set_other by exact N. exists x. split; [exact Hx|]. apply same_renamed; reflexivity.
Qed.
Lemma rr_update g r f : (forall a, deref g r = Some a -> renamed a (f a)) -> reg_renamed g (update_object g r f).
Proof.
  intros H. unfold update_object. destruct (deref g r) as [a|] eqn:E; [|apply rr_refl]. destruct g as [objs rs].
  exact (rr_set objs rs rs r a (f a) E (H a eq_refl)).
Qed.
Lemma rr_register strict g r g' : register strict g r = Ok g' -> reg_renamed g g'.
Proof.
  unfold register. destruct (deref g r) as [a|] eqn:E; [|discriminate]. destruct (User.member strict g a r (refs g)) as [[]|]; cbn; try discriminate.
  - intros H. injection H as <-. apply rr_refl.
  - intros H. injection H as <-. destruct g as [objs rs]. apply (rr_set objs rs _ r a _ E).
    destruct (String.eqb_spec (name (par a)) "") as [En|En].
    + split; [reflexivity|]. eexists. split; [reflexivity|]. intros N. contradiction.
    + apply same_renamed; reflexivity.
Qed.
Lemma rr_windows F strict g r w1 w2 rvw w3 g' e : windows_on F strict g r w1 w2 rvw w3 = (g', e) -> reg_renamed g g'.
Proof.
  unfold windows_on. destruct (deref g r) as [a|] eqn:E; [|intros H; injection H as <- _; apply rr_refl].
  destruct (windows F a w1 w2 rvw w3) as [a' [e'|]] eqn:W; pose proof (windows_keeps F a w1 w2 rvw w3) as [P C]; rewrite W in P, C; cbn [fst] in P, C.
  - intros H. injection H as <- _. apply rr_update. intros b Hb. rewrite E in Hb. injection Hb as <-. apply same_renamed; assumption.
  - assert (K : reg_renamed g (update_object g r (fun _ => set_cyc1 a' (cyc1 a)))).
    { apply rr_update. intros b Hb. rewrite E in Hb. injection Hb as <-. apply same_renamed; assumption. }
    destruct (register strict (update_object g r (fun _ => set_cyc1 a' (cyc1 a))) r) as [g2|] eqn:R; intros H; injection H as <- _; [|exact K].
    eapply rr_trans; [exact K|]. eapply rr_trans; [exact (rr_register _ _ _ _ R)|]. apply rr_update. intros. apply same_renamed; reflexivity.
Qed.
Lemma rr_cycle g r i c g' e : cycle_on g r i c = (g', e) -> reg_renamed g g'.
Proof.
  unfold cycle_on. destruct (deref g r) as [a|] eqn:E; [|intros H; injection H as <- _; apply rr_refl]. cbv zeta.
  destruct (apply_cycle_args _ c) as [c' e']. intros H. injection H as <- _. apply rr_update.
  intros b Hb. rewrite E in Hb. injection Hb as <-. destruct (i =? 1); [|destruct (i =? 2)]; apply same_renamed; reflexivity.
Qed.
Lemma rr_add F strict g p pw nd wa c1 c2 c3 g' : add_appliance_kw F strict g p pw nd wa c1 c2 c3 = (g', None) ->
  exists a, new_appliance p pw nd = Ok a /\ reg_renamed (Registry (objects g ++ [a]) (refs g)) g'.
Proof.
  unfold add_appliance_kw. destruct (new_appliance p pw nd) as [a|]; [|discriminate]. intros H. exists a. split; [reflexivity|]. cbv zeta in H.
  set (g0 := Registry (objects g ++ [a]) (refs g)) in *. set (r := List.length (objects g)) in *.
  destruct (if any_window_arg wa then _ else _) as [g1 [e|]] eqn:E1; [discriminate|].
  assert (K1 : reg_renamed g0 g1) by (destruct (any_window_arg wa); [eapply rr_windows; exact E1|injection E1 as <-; apply rr_refl]). clear E1.
  destruct (if any_cycle_arg c1 then _ else _) as [g2 [e|]] eqn:E1; [discriminate|].
  assert (K2 : reg_renamed g1 g2) by (destruct (any_cycle_arg c1); [eapply rr_cycle; exact E1|injection E1 as <-; apply rr_refl]). clear E1.
  destruct (if any_cycle_arg c2 then _ else _) as [g3 [e|]] eqn:E1; [discriminate|].
  assert (K3 : reg_renamed g2 g3) by (destruct (any_cycle_arg c2); [eapply rr_cycle; exact E1|injection E1 as <-; apply rr_refl]). clear E1.
  destruct (if any_cycle_arg c3 then _ else _) as [g4 [e|]] eqn:E1; [discriminate|].
  assert (K4 : reg_renamed g3 g4) by (destruct (any_cycle_arg c3); [eapply rr_cycle; exact E1|injection E1 as <-; apply rr_refl]). clear E1.
  destruct (register strict g4 r) as [g5|] eqn:R; [|discriminate]. injection H as <-.
  repeat (eapply rr_trans; [eassumption|]). exact (rr_register _ _ _ _ R).
Qed.

Lemma arg_inv {A} (conv : cell -> res A) d k kw x : arg conv d k kw = Ok x ->
  (assoc k kw = None /\ x = d) \/ exists c, assoc k kw = Some (ACell c) /\ conv c = Ok x.
Proof. unfold arg. destruct (assoc k kw) as [[c|w]|]; intros H; [eauto|discriminate|injection H as <-; auto]. Qed.
Lemma as_Z_inv c z : as_Z c = Ok z -> exists q, c = CNum q /\ (zq z == q)%Q.
Proof.
  destruct c; cbn; try discriminate. destruct (Qeq_bool q (zq (py_int q))) eqn:E; [|discriminate]. intros H. injection H as <-.
  exists q. split; [reflexivity|]. symmetry. apply Qeq_bool_iff, E.
Qed.
Lemma as_Q_inv c z : as_Q c = Ok z -> c = CNum z.
Proof. destruct c; cbn; try discriminate. congruence. Qed.
Lemma as_text_inv c z : as_text c = Ok z -> c = CText z.
Proof. destruct c; cbn; try discriminate. congruence. Qed.

(** C80: after a successful call every parameter of the new appliance has the value given for it, or its default. *)
Theorem C80_values F strict nd g args kw g' : add_appliance_call F strict nd g (map PVal args) kw = (g', None) ->
  exists a, nth_error (objects g') (List.length (objects g)) = Some a /\
    forall k dflt, In (k, dflt) parameters -> shows nd a k dflt (meant args kw k).
Proof.
  intros H. destruct (call_keywords F strict nd g args kw) as (kw' & Hm & E). rewrite E in H. clear E.
  destruct (forallb _ kw'); [|discriminate]. unfold add_keywords in H.
  destruct (params_of kw') as [p|] eqn:Ep; cbn [rbind] in H; [|discriminate].
  destruct (arg as_power (PConst 0) "power" kw') as [pw|] eqn:Epw; cbn [rbind] in H; [|discriminate].
  destruct (window_args_of kw') as [wa|]; cbn [rbind] in H; [|discriminate].
  destruct (cycle_args_of kw' "p_11" _ _ _ _ _ _) as [c1|]; cbn [rbind] in H; [|discriminate].
  destruct (cycle_args_of kw' "p_21" _ _ _ _ _ _) as [c2|]; cbn [rbind] in H; [|discriminate].
  destruct (cycle_args_of kw' "p_31" _ _ _ _ _ _) as [c3|]; cbn [rbind] in H; [|discriminate].
  destruct (rr_add _ _ _ _ _ _ _ _ _ _ _ H) as (a0 & Ha0 & K). clear H.
  destruct (K (List.length (objects g)) a0) as (a & Ha & Hp & n & Hn & Hne).
  { cbn [objects]. rewrite nth_error_app2, Nat.sub_diag by lia. reflexivity. }
  exists a. split; [exact Ha|].
  assert (Hpar : par a0 = p) by (destruct pw; cbn in Ha0; try discriminate; injection Ha0 as <-; reflexivity).
  assert (Hpow : match pw with PConst q => power a0 = repeat q (Z.to_nat (nd + 1)) | PSeries l => power a0 = l | PBad => False end)
    by (destruct pw; cbn in Ha0; try discriminate; injection Ha0 as <-; reflexivity).
  rewrite <- Hp in Hpow. unfold set_name in Hn. cbn [par set_par] in Hn. rewrite Hpar in *. clear Hpar Ha0 K Ha Hp.
  unfold params_of in Ep.
  repeat match type of Ep with rbind ?x _ = _ => let E := fresh "A" in destruct x eqn:E; cbn [rbind] in Ep; [|discriminate] end.
  injection Ep as <-. cbn [name number num_windows func_time time_var func_cycle fixed fixed_cycle continuous_duty_cycle occasional_use flat thermal_p_var pref_index wd_we_type] in Hn, Hne.
  intros k dflt Hin. rewrite <- Hm. unfold parameters in Hin. cbn [In] in Hin.
  repeat (destruct Hin as [Hin|Hin]; [injection Hin as <- <-|]); try contradiction Hin.
  all: unfold shows; cbn [String.eqb Ascii.eqb Bool.eqb]; unfold getattr; cbn [String.eqb Ascii.eqb Bool.eqb]; rewrite ?Hn;
    cbn [name number num_windows func_time time_var func_cycle fixed fixed_cycle continuous_duty_cycle occasional_use flat thermal_p_var pref_index wd_we_type].
  2:{ apply arg_inv in Epw. destruct Epw as [[-> ->]|(c & -> & Hc)]; [exact Hpow|]. destruct c; cbn in Hc; try discriminate; injection Hc as <-; exact Hpow. }
  all: match goal with |- context [assoc ?k ?m] => match goal with B : arg _ _ k m = Ok _ |- _ => apply arg_inv in B; destruct B as [[-> B]|(c & -> & B)] end end.
  all: match goal with
       | B : as_Z _ = Ok _ |- _ => apply as_Z_inv in B; destruct B as (q & -> & B); exact B
       | B : as_Q _ = Ok _ |- _ => apply as_Q_inv in B; rewrite B; reflexivity
       | B : as_text _ = Ok _ |- _ => apply as_text_inv in B; rewrite B
       | B : _ = _ |- _ => idtac
       end.
  all: try (subst; first [reflexivity|left; reflexivity]).
  all: try (left; reflexivity).
  - right. auto.
  - match goal with |- _ = ?s \/ _ => destruct (String.eqb_spec s "") as [->|N]; [right; auto|left; auto] end.
Qed.

(** C80: positional arguments beyond the fifteenth are ignored. *)
Theorem C80_extra F strict nd g args extra kw : List.length args = 15%nat ->
  add_appliance_call F strict nd g (map PVal (args ++ extra)) kw = add_appliance_call F strict nd g (map PVal args) kw.
Proof.
  intros H. apply C80_meaning. intros k. unfold effective, meant.
  replace (at_position order (args ++ extra) k) with (at_position order args k); [reflexivity|].
  change 15%nat with (List.length order) in H. revert args H. generalize order as names.
  induction names as [|n names IH]; intros [|x args] H; try discriminate; cbn [app at_position]; [reflexivity|].
  destruct (String.eqb k n); [reflexivity|]. apply IH. cbn in H. lia.
Qed.

(** a number and a text as arguments *)
Definition num (q : Q) : argv := ACell (CNum q).
Definition text (t : string) : argv := ACell (CText t).
Definition attribute (r : registry * option exc) (i : nat) (k : string) : option value :=
  match nth_error (objects (fst r)) i with Some a => getattr a k | None => None end.

(** "A parameter given twice is refused, as for any Python function" fails: the keyword is silently dropped. *)
Theorem C80_given_twice_refuted : ~ (forall F strict nd g args kw k, at_position order args k <> None -> assoc k kw <> None ->
  snd (add_appliance_call F strict nd g (map PVal args) kw) <> None).
Proof.
  intros H. specialize (H exact_fm true 366 (Registry [] []) [num 2] [("number", num 5)] "number").
  apply H; [discriminate|discriminate|]. vm_compute. reflexivity.
Qed.
(** the value given by position wins *)
Theorem C80_given_twice F strict nd g args kw k v g' : at_position order args k = Some v ->
  add_appliance_call F strict nd g (map PVal args) kw = (g', None) ->
  exists a dflt, nth_error (objects g') (List.length (objects g)) = Some a /\ In (k, dflt) parameters /\ shows nd a k dflt (Some v).
Proof.
  intros Hp H. destruct (C80_values _ _ _ _ _ _ _ H) as (a & Ha & Hs). pose proof (at_position_in _ _ _ _ Hp) as Hin.
  unfold order in Hin. apply in_map_iff in Hin. destruct Hin as ([k' d] & E & Hin). cbn [fst] in E. subst k'.
  exists a, d. split; [exact Ha|]. split; [exact Hin|]. specialize (Hs k d Hin). unfold meant in Hs. rewrite Hp in Hs. exact Hs.
Qed.

(** the order in which the documentation of add_appliance lists the parameters *)
Definition documented_order : list string :=
  ["number"; "power"; "num_windows"; "func_time"; "time_fraction_random_variability"; "func_cycle"; "fixed"; "fixed_cycle";
   "occasional_use"; "flat"; "thermal_p_var"; "pref_index"; "wd_we_type"; "name"].
(** "Positional arguments are taken in the documented order" fails from the ninth on: an occasional use of 0 becomes the
    continuous_duty_cycle, and the appliance is used every day. *)
Theorem C80_documented_order_refuted :
  let args := [num 1; num 100; num 1; num 60; num 0; num 1; text "no"; num 0; num 0] in
  nth_error documented_order 8 = Some "occasional_use" /\
  exists g, add_appliance_call exact_fm true 366 (Registry [] []) (map PVal args) [] = (g, None) /\
    attribute (g, None) 0 "occasional_use" = Some (VFloat 1) /\ attribute (g, None) 0 "continuous_duty_cycle" = Some (VInt 0).
Proof.
  intros args. split; [reflexivity|].
  assert (E : match add_appliance_call exact_fm true 366 (Registry [] []) (map PVal args) [] with
    | (g, None) => attribute (g, None) 0 "occasional_use" = Some (VFloat 1) /\ attribute (g, None) 0 "continuous_duty_cycle" = Some (VInt 0)
    | _ => False end) by (vm_compute; auto).
  destruct (add_appliance_call _ _ _ _ _ _) as [g [e|]]; [contradiction|]. exists g. tauto.
Qed.

(** ** Appliance instances *)

(** C80: appliances given by reference are registered in order; keywords are ignored; an argument that is no appliance
    raises TypeError, the appliances before it stay registered. *)
Theorem C80_instances F strict nd g rs rest kw g' : rs <> [] -> register_all strict g rs = Ok g' ->
  (match rest with PApp _ :: _ => False | _ => True end) ->
  add_appliance_call F strict nd g (map PApp rs ++ rest) kw = (g', match rest with [] => None | _ => Some TypeError end).
Proof.
  intros Hr H Hrest. destruct rs as [|r0 rs0]; [congruence|]. unfold add_appliance_call. cbn [map app].
  change (PApp r0 :: map PApp rs0 ++ rest) with (map PApp (r0 :: rs0) ++ rest). clear Hr.
  revert g H. generalize (r0 :: rs0) as rs. induction rs as [|r rs IH]; intros g H; cbn [map app add_instances register_all] in *.
  - injection H as <-. destruct rest as [|[] rest]; [reflexivity|reflexivity|contradiction].
  - destruct (register strict g r) as [g1|]; cbn [rbind] in H; [|discriminate]. apply IH, H.
Qed.

(** ** The legacy name User.Appliance *)

Definition legacy_order : list string :=
  ["number"; "power"; "num_windows"; "func_time"; "time_fraction_random_variability"; "func_cycle"; "fixed"; "fixed_cycle";
   "occasional_use"; "flat"; "thermal_P_var"; "pref_index"; "wd_we_type"; "name"].
(** the name of a parameter of add_appliance in User.Appliance *)
Definition legacy_name (k : string) : string := if String.eqb k "thermal_p_var" then "thermal_P_var" else k.
Definition legacy_meant (args : list argv) (kw : kwargs) (k : string) : option argv :=
  match at_position legacy_order args k with Some v => Some v | None => assoc k kw end.

Lemma bind_meaning params : forall names args kw, List.length names = List.length params -> NoDup names ->
  NoDup (map fst params) ->
  (List.length args <= List.length params)%nat -> (forall k, at_position (map fst params) args k <> None -> assoc k kw = None) ->
  exists vs, bind_legacy params (map PVal args) kw = Ok vs /\ List.length vs = List.length params /\
    forall i n k d, nth_error names i = Some n -> nth_error params i = Some (k, d) ->
      assoc n (combine names vs) = Some (match at_position (map fst params) args k with Some v => v
        | None => match assoc k kw with Some v => v | None => ACell d end end).
Proof.
  induction params as [|[k0 d0] params IH]; intros [|n0 names] args kw Hl Hn Hk Ha Hc; try discriminate.
  - destruct args; [|cbn in Ha; lia]. exists []. repeat split. intros [|i] n k d; discriminate.
  - cbn [map fst] in *. apply NoDup_cons_iff in Hn, Hk. destruct Hn as [Hn0 Hn], Hk as [Hk0 Hk].
    assert (Hin : forall i n, nth_error names i = Some n -> String.eqb n n0 = false).
    { intros i n Hi. apply String.eqb_neq. intros ->. apply Hn0. eapply nth_error_In. exact Hi. }
    assert (Hik : forall i k d, nth_error params i = Some (k, d) -> String.eqb k k0 = false).
    { intros i k d Hi. apply String.eqb_neq. intros ->. apply Hk0. apply (in_map fst _ (k0, d)). eapply nth_error_In. exact Hi. }
    destruct args as [|v args]; cbn [map bind_legacy].
    + destruct (IH names [] kw ltac:(cbn in Hl; lia) Hn Hk ltac:(cbn; lia)) as (vs & Hb & Hv & H).
      { intros k. destruct (map fst params); cbn; congruence. }
      cbn [map] in Hb. rewrite Hb. cbn [rbind]. eexists. split; [reflexivity|]. split; [cbn; lia|].
      intros [|i] n k d E1 E2; cbn [nth_error combine assoc] in *.
      * injection E1 as <-. injection E2 as <- <-. rewrite String.eqb_refl. cbn [at_position]. destruct (assoc k0 kw); reflexivity.
      * rewrite (Hin i n E1). cbn [at_position]. rewrite (H i n k d E1 E2). destruct (map fst params); reflexivity.
    + destruct (IH names args kw ltac:(cbn in Hl; lia) Hn Hk ltac:(cbn in Ha; lia)) as (vs & Hb & Hv & H).
      { intros k E. apply Hc. cbn [at_position]. destruct (String.eqb k k0); [discriminate|exact E]. }
      rewrite (Hc k0) by (cbn [at_position]; rewrite String.eqb_refl; discriminate). rewrite Hb. cbn [rbind].
      eexists. split; [reflexivity|]. split; [cbn; lia|].
      intros [|i] n k d E1 E2; cbn [nth_error combine assoc] in *.
      * injection E1 as <-. injection E2 as <- <-. rewrite String.eqb_refl. cbn [at_position]. rewrite String.eqb_refl. reflexivity.
      * rewrite (Hin i n E1). cbn [at_position]. rewrite (Hik i k d E2). exact (H i n k d E1 E2).
Qed.

Lemma assoc_combine_none names (vs : list argv) k : ~ In k names -> assoc k (combine names vs) = None.
Proof.
  revert vs. induction names as [|n names IH]; intros [|v vs] H; try reflexivity. cbn [combine assoc].
  destruct (String.eqb_spec k n) as [->|]; [exfalso; apply H; left; reflexivity|]. apply IH. intros G. apply H. right. exact G.
Qed.

(** C80: User.Appliance with values for some of its parameters is add_appliance with the same values, thermal_P_var being
    thermal_p_var; the duty cycle is continuous. *)
Theorem C80_legacy F strict nd g args kw args2 kw2 :
  (List.length args <= 14)%nat ->
  (forall k, assoc k kw <> None -> In k legacy_order /\ at_position legacy_order args k = None) ->
  (forall k, In k order -> k <> "continuous_duty_cycle" -> meant args2 kw2 k = legacy_meant args kw (legacy_name k)) ->
  (forall k, ~ In k order \/ k = "continuous_duty_cycle" -> meant args2 kw2 k = None) ->
  legacy_appliance F strict nd g (map PVal args) kw = add_appliance_call F strict nd g (map PVal args2) kw2.
Proof.
  intros Hl Hkw Hm Hn. unfold legacy_appliance.
  assert (Hkn : forallb (fun x => legacy_keyword (fst x)) kw = true).
  { apply known_assoc. intros k Hk. destruct (Hkw k Hk) as [Hin _]. unfold legacy_keyword. apply existsb_exists.
    change legacy_order with (map fst LEGACY_ARGS) in Hin. apply in_map_iff in Hin. destruct Hin as (x & <- & Hx). exists x.
    split; [exact Hx|apply String.eqb_refl]. }
  rewrite Hkn.
  destruct (bind_meaning LEGACY_ARGS legacy_names args kw eq_refl) as (vs & Hb & Hv & Has).
  - repeat constructor; cbn; intuition discriminate.
  - repeat constructor; cbn; intuition discriminate.
  - exact Hl.
  - intros k Hk. destruct (assoc k kw) eqn:E; [|reflexivity]. exfalso. destruct (Hkw k ltac:(congruence)) as [_ H].
    change (map fst LEGACY_ARGS) with legacy_order in Hk. congruence.
  - rewrite Hb. change (map fst LEGACY_ARGS) with legacy_order in Has.
    apply (C80_meaning F strict nd g [] (combine legacy_names vs) args2 kw2). intros k. unfold effective.
    change (meant [] (combine legacy_names vs) k) with (assoc k (combine legacy_names vs)).
    destruct (in_dec string_dec k order) as [Hin|Hin].
    2:{ rewrite Hn by (left; exact Hin). rewrite assoc_combine_none; [reflexivity|].
        intros G. apply Hin. revert G. clear. cbn. intuition. }
    destruct (string_dec k "continuous_duty_cycle") as [->|Nc].
    { rewrite Hn by (right; reflexivity). rewrite assoc_combine_none; [reflexivity|]. cbn. intuition discriminate. }
    rewrite (Hm k Hin Nc). unfold legacy_meant.
    assert (Hi : exists i d, nth_error legacy_names i = Some k /\ nth_error LEGACY_ARGS i = Some (legacy_name k, d) /\ assoc k parameters = Some d).
    { clear - Hin Nc. cbn [order parameters map fst In] in Hin.
      repeat (destruct Hin as [<-|Hin]); try contradiction.
      - exists 0%nat. eexists. repeat split.
      - exists 1%nat. eexists. repeat split.
      - exists 2%nat. eexists. repeat split.
      - exists 3%nat. eexists. repeat split.
      - exists 4%nat. eexists. repeat split.
      - exists 5%nat. eexists. repeat split.
      - exists 6%nat. eexists. repeat split.
      - exists 7%nat. eexists. repeat split.
      - exists 8%nat. eexists. repeat split.
      - exists 9%nat. eexists. repeat split.
      - exists 10%nat. eexists. repeat split.
      - exists 11%nat. eexists. repeat split.
      - exists 12%nat. eexists. repeat split.
      - exists 13%nat. eexists. repeat split. }
    destruct Hi as (i & d & H1 & H2 & H3). rewrite (Has i k (legacy_name k) d H1 H2), H3.
    destruct (at_position legacy_order args (legacy_name k)); [reflexivity|]. destruct (assoc (legacy_name k) kw); reflexivity.
Qed.

(** C80: unlike add_appliance, User.Appliance refuses an unknown keyword, a parameter given twice and a fifteenth argument. *)
Theorem C80_legacy_refused F strict nd g args kw :
  (exists k, assoc k kw <> None /\ (~ In k legacy_order \/ at_position legacy_order args k <> None)) \/ (14 < List.length args)%nat ->
  legacy_appliance F strict nd g (map PVal args) kw = (g, Some TypeError).
Proof.
  intros H. unfold legacy_appliance. destruct (forallb (fun x => legacy_keyword (fst x)) kw) eqn:E; [|reflexivity].
  assert (Hb : bind_legacy LEGACY_ARGS (map PVal args) kw = Err TypeError); [|rewrite Hb; reflexivity].
  assert (H' : (exists k, assoc k kw <> None /\ at_position (map fst LEGACY_ARGS) args k <> None) \/ (List.length LEGACY_ARGS < List.length args)%nat).
  { destruct H as [(k & Hk & [Hin|Hp])|H]; [|left; exists k; auto|right; exact H]. exfalso. apply Hin.
    rewrite known_assoc in E. specialize (E k Hk). unfold legacy_keyword in E. apply existsb_exists in E. destruct E as (x & Hx & Ex).
    apply String.eqb_eq in Ex. subst k. change legacy_order with (map fst LEGACY_ARGS). apply in_map. exact Hx. }
  clear H E. revert args H'. generalize LEGACY_ARGS as params. induction params as [|[k0 d0] params IH]; intros args H.
  - destruct args; cbn in *; [|reflexivity]. destruct H as [(k & _ & H)|H]; [congruence|lia].
  - destruct args as [|v args].
    { exfalso. destruct H as [(k & _ & H)|H]; cbn in H; [congruence|lia]. }
    cbn [map bind_legacy]. destruct (assoc k0 kw) eqn:E0; [reflexivity|]. rewrite IH; [reflexivity|].
    destruct H as [(k & Hk & H)|H]; [left|right; cbn in H; lia]. exists k. split; [exact Hk|]. cbn [map fst at_position] in H.
    destruct (String.eqb_spec k k0); [congruence|exact H].
Qed.

(** the same appliance three times: by position, by keyword, by the legacy name *)
Definition radio_values : list argv := [num 2; num 7; num 2; num 60; num (1 # 10); num 5; text "no"; num 0; num 1; num (4 # 10)].
Definition radio_keywords : kwargs :=
  [("name", text "radio"); ("window_1", AWin (390, 450)); ("window_2", AWin (1140, 1260)); ("random_var_w", num (35 # 100))].
Example C80_case :
  let by_position := add_appliance_call exact_fm true 366 (Registry [] []) (map PVal radio_values) radio_keywords in
  snd by_position = None /\ attribute by_position 0 "name" = Some (VStr "radio") /\ attribute by_position 0 "number" = Some (VInt 2) /\
  attribute by_position 0 "occasional_use" = Some (VFloat (4 # 10)) /\ attribute by_position 0 "window_2" = Some (VWin (1140, 1260)) /\
  add_appliance_call exact_fm true 366 (Registry [] [])
    [] ([("occasional_use", num (4 # 10)); ("power", num 7); ("number", num 2); ("num_windows", num 2); ("func_cycle", num 5);
         ("time_fraction_random_variability", num (1 # 10)); ("func_time", num 60)] ++ radio_keywords) = by_position /\
  attribute (legacy_appliance exact_fm true 366 (Registry [] []) (map PVal [num 2; num 7; num 1; num 60]) [("thermal_P_var", num (2 # 10))])
    0 "thermal_p_var" = Some (VFloat (2 # 10)) /\
  snd (add_appliance_call exact_fm true 366 (fst by_position) [PApp 0; PVal (num 3)] []) = Some TypeError.
Proof.
  intros b. split; [vm_compute; reflexivity|]. split; [vm_compute; reflexivity|]. split; [vm_compute; reflexivity|].
  split; [vm_compute; reflexivity|]. split; [vm_compute; reflexivity|].
  split; [|split; vm_compute; reflexivity].
  apply (C80_meaning exact_fm true 366 (Registry [] []) [] _ radio_values radio_keywords).
  intros k. unfold effective, meant, radio_values, radio_keywords. cbn [order parameters map fst at_position app assoc].
  repeat match goal with |- context [String.eqb k ?s] => destruct (String.eqb_spec k s) as [->|?]; [reflexivity|] end. reflexivity.
Qed.
