(** * ProofsTabular: lemmas about saving and loading *)
From Verif Require Import Base Wp Utils ListLemmas Appliance Attributes User Tabular Spec SpecDay
  ProofsUtils ProofsAppliance ProofsEq PropsReg SpecTabular.
From Coq Require Import ZifyBool ZifyNat.
Open Scope string_scope.
Open Scope list_scope.
Open Scope Z_scope.

(** ** Cells *)

Lemma as_Z_zq z : as_Z (CNum (zq z)) = Ok z.
Proof. unfold as_Z. rewrite py_int_zq. rewrite (proj2 (Qeq_bool_iff _ _) (Qeq_refl _)). reflexivity. Qed.
Lemma excel_text s : s <> "" -> excel_cell (CText s) = CText s.
Proof. destruct s; [congruence|reflexivity]. Qed.

(** ** Power *)

Lemma rnd_zero F x : (x == 0)%Q -> (rnd F x == 0)%Q.
Proof.
  intros H. transitivity (rnd F 0); [|apply rnd_0].
  apply Qle_antisym; apply rnd_mono; rewrite H; apply Qle_refl.
Qed.
Lemma np_diff_cons F x y l : np_diff F (x :: y :: l) = fsub F y x :: np_diff F (y :: l).
Proof. reflexivity. Qed.
Lemma fold_fadd_zero F l : forall acc, Forall (fun x => (x == 0)%Q) l -> (acc == 0)%Q ->
  (fold_left (fadd F) l acc == 0)%Q.
Proof.
  induction l as [|x l IH]; intros acc Hl Ha; cbn [fold_left]; [exact Ha|]. inversion Hl; subst.
  apply IH; [assumption|]. unfold fadd. apply rnd_zero. rewrite Ha, H1. reflexivity.
Qed.
Lemma np_diff_const F l : forall x, Forall (fun y => (y == x)%Q) l -> Forall (fun z => (z == 0)%Q) (np_diff F (x :: l)).
Proof.
  induction l as [|y l IH]; intros x H; [constructor|]. inversion H as [|? ? Hy Hl]; subst. rewrite np_diff_cons. constructor.
  - unfold fsub. apply rnd_zero. rewrite Hy. ring.
  - apply IH. eapply Forall_impl; [|exact Hl]. cbn. intros z Hz. rewrite Hz, Hy. reflexivity.
Qed.
Lemma save_power_const F x l : Forall (fun y => (y == x)%Q) l -> save_power F (x :: l) = Ok (CNum x).
Proof.
  intros H. unfold save_power. rewrite (proj2 (Qeq_bool_iff _ _)); [reflexivity|].
  apply fold_fadd_zero; [apply np_diff_const; exact H|reflexivity].
Qed.
Lemma np_diff_telescope F l : exact F -> forall x acc,
  (fold_left (fadd F) (np_diff F (x :: l)) acc == acc + (last l x - x))%Q.
Proof.
  intros HF. induction l as [|y l IH]; intros x acc; [cbn; ring|].
  rewrite np_diff_cons. cbn [fold_left]. rewrite IH. unfold fadd, fsub. rewrite (HF _), (HF _).
  destruct l as [|z l]; [cbn; ring|]. change (last (y :: z :: l) x) with (last (z :: l) x).
  assert (E : last (z :: l) y = last (z :: l) x).
  { clear. revert z. induction l as [|w l IH]; intros z; [reflexivity|]. exact (IH w). }
  rewrite E. ring.
Qed.
Lemma save_power_exact F x l : exact F -> save_power F (x :: l) =
  if Qeq_bool (last l x) x then Ok (CNum x) else Ok (CArray (map (fun v => [v]) (x :: l))).
Proof.
  intros HF. unfold save_power.
  destruct (Qeq_bool (fold_left (fadd F) (np_diff F (x :: l)) 0%Q) 0) eqn:E.
  - apply Qeq_bool_iff in E. rewrite (np_diff_telescope F l HF) in E.
    rewrite (proj2 (Qeq_bool_iff _ _)); [reflexivity|].
    rewrite <- (Qplus_0_l (last l x)). setoid_replace (0 + last l x)%Q with (0 + (last l x - x) + x)%Q by ring. rewrite E. ring.
  - destruct (Qeq_bool (last l x) x) eqn:E'; [|reflexivity]. apply Qeq_bool_iff in E'.
    apply Qeq_bool_neq in E. exfalso. apply E. rewrite (np_diff_telescope F l HF), E'. ring.
Qed.

(** ** One row *)

(** the row written for an appliance, its power cell given *)
Definition saved_row (u : user) (a : appliance) (c : cell) : row :=
  let p := par a in
  let w s x := [((s ++ "_start")%string, CNum (zq (fst x))); ((s ++ "_end")%string, CNum (zq (snd x)))] in
  [("user_name", CText (user_name u)); ("num_users", CNum (zq (num_users u)));
   ("user_preference", CNum (zq (user_preference u)));
   ("name", CText (name p)); ("number", CNum (zq (number p))); ("power", c);
   ("num_windows", CNum (zq (num_windows p))); ("func_time", CNum (zq (func_time p)));
   ("time_fraction_random_variability", CNum (time_var p)); ("func_cycle", CNum (zq (func_cycle p)));
   ("fixed", CText (fixed p)); ("fixed_cycle", CNum (zq (fixed_cycle p)));
   ("continuous_duty_cycle", CNum (zq (continuous_duty_cycle p))); ("occasional_use", CNum (occasional_use p));
   ("flat", CText (flat p)); ("thermal_p_var", CNum (thermal_p_var p)); ("pref_index", CNum (zq (pref_index p)));
   ("wd_we_type", CNum (zq (wd_we_type p)))]
  ++ [("p_11", CNum (cp1 (cyc1 a))); ("t_11", CNum (zq (ct1 (cyc1 a))))] ++ w "cw11" (cwa (cyc1 a))
  ++ [("p_12", CNum (cp2 (cyc1 a))); ("t_12", CNum (zq (ct2 (cyc1 a))))] ++ w "cw12" (cwb (cyc1 a))
  ++ [("r_c1", CNum (cr (cyc1 a)))]
  ++ [("p_21", CNum (cp1 (cyc2 a))); ("t_21", CNum (zq (ct1 (cyc2 a))))] ++ w "cw21" (cwa (cyc2 a))
  ++ [("p_22", CNum (cp2 (cyc2 a))); ("t_22", CNum (zq (ct2 (cyc2 a))))] ++ w "cw22" (cwb (cyc2 a))
  ++ [("r_c2", CNum (cr (cyc2 a)))]
  ++ [("p_31", CNum (cp1 (cyc3 a))); ("t_31", CNum (zq (ct1 (cyc3 a))))] ++ w "cw31" (cwa (cyc3 a))
  ++ [("p_32", CNum (cp2 (cyc3 a))); ("t_32", CNum (zq (ct2 (cyc3 a))))] ++ w "cw32" (cwb (cyc3 a))
  ++ [("r_c3", CNum (cr (cyc3 a)))]
  ++ w "window_1" (window_1 (win a)) ++ w "window_2" (window_2 (win a)) ++ w "window_3" (window_3 (win a))
  ++ [("random_var_w", CNum (random_var_w (win a)))].

Lemma save_appliance_row F u a c : save_power F (power a) = Ok c -> save_appliance F u a = Ok (saved_row u a c).
Proof.
  intros H. unfold save_appliance, APPLIANCE_ATTRIBUTES.
  cbn [save_attributes]. unfold save_attribute.
  cbn [getattr String.eqb Ascii.eqb Bool.eqb]. rewrite H. cbn [rbind]. reflexivity.
Qed.

Lemma excel_row u a c : user_name u <> "" -> name (par a) <> "" -> fixed (par a) <> "" -> flat (par a) <> "" ->
  excel_cell c = c ->
  map (fun kc : string * cell => (fst kc, excel_cell (snd kc))) (saved_row u a c) = saved_row u a c.
Proof.
  intros H1 H2 H3 H4 Hc. unfold saved_row. cbn [map app fst snd].
  rewrite Hc, !excel_text by assumption. reflexivity.
Qed.

Lemma read_saved_row u a c : read_row (saved_row u a c) = rbind (read_power c) (fun c' => Ok (saved_row u a c')).
Proof. unfold read_row. cbn [assoc saved_row app String.eqb Ascii.eqb Bool.eqb]. destruct (read_power c); reflexivity. Qed.

(** the arguments read back from a saved row *)
Definition saved_kwargs (a : appliance) (c : cell) : kwargs :=
  let p := par a in
  [("number", ACell (CNum (zq (number p)))); ("power", ACell c); ("num_windows", ACell (CNum (zq (num_windows p))));
   ("func_time", ACell (CNum (zq (func_time p)))); ("time_fraction_random_variability", ACell (CNum (time_var p)));
   ("func_cycle", ACell (CNum (zq (func_cycle p)))); ("fixed", ACell (CText (fixed p)));
   ("fixed_cycle", ACell (CNum (zq (fixed_cycle p)))); ("continuous_duty_cycle", ACell (CNum (zq (continuous_duty_cycle p))));
   ("occasional_use", ACell (CNum (occasional_use p))); ("flat", ACell (CText (flat p)));
   ("thermal_p_var", ACell (CNum (thermal_p_var p))); ("pref_index", ACell (CNum (zq (pref_index p))));
   ("wd_we_type", ACell (CNum (zq (wd_we_type p)))); ("name", ACell (CText (name p)));
   ("window_1", AWin (window_1 (win a))); ("window_2", AWin (window_2 (win a))); ("window_3", AWin (window_3 (win a)));
   ("random_var_w", ACell (CNum (random_var_w (win a))));
   ("p_11", ACell (CNum (cp1 (cyc1 a)))); ("t_11", ACell (CNum (zq (ct1 (cyc1 a))))); ("cw11", AWin (cwa (cyc1 a)));
   ("p_12", ACell (CNum (cp2 (cyc1 a)))); ("t_12", ACell (CNum (zq (ct2 (cyc1 a))))); ("cw12", AWin (cwb (cyc1 a)));
   ("r_c1", ACell (CNum (cr (cyc1 a))));
   ("p_21", ACell (CNum (cp1 (cyc2 a)))); ("t_21", ACell (CNum (zq (ct1 (cyc2 a))))); ("cw21", AWin (cwa (cyc2 a)));
   ("p_22", ACell (CNum (cp2 (cyc2 a)))); ("t_22", ACell (CNum (zq (ct2 (cyc2 a))))); ("cw22", AWin (cwb (cyc2 a)));
   ("r_c2", ACell (CNum (cr (cyc2 a))));
   ("p_31", ACell (CNum (cp1 (cyc3 a)))); ("t_31", ACell (CNum (zq (ct1 (cyc3 a))))); ("cw31", AWin (cwa (cyc3 a)));
   ("p_32", ACell (CNum (cp2 (cyc3 a)))); ("t_32", ACell (CNum (zq (ct2 (cyc3 a))))); ("cw32", AWin (cwb (cyc3 a)));
   ("r_c3", ACell (CNum (cr (cyc3 a))))].

Lemma window_arg_num r k x : row_get r (k ++ "_start")%string = CNum (zq (fst x)) ->
  row_get r (k ++ "_end")%string = CNum (zq (snd x)) -> window_arg r k = Ok [(k, AWin x)].
Proof. intros H1 H2. unfold window_arg. rewrite H1, H2. cbn [rbind is_nan number_of_cell]. rewrite !py_int_zq, <- surjective_pairing. reflexivity. Qed.
Lemma value_arg_num r k q : row_get r k = CNum q -> value_arg r k = Ok [(k, ACell (CNum q))].
Proof. intros H. unfold value_arg. rewrite H. reflexivity. Qed.

Ltac get_row := unfold row_get, saved_row; cbn [assoc app append String.eqb Ascii.eqb Bool.eqb]; reflexivity.

Lemma saved_row_kwargs u a c : row_kwargs (saved_row u a c) = Ok (saved_kwargs a c).
Proof.
  unfold row_kwargs, WINDOWS_PARAMETERS, DUTY_CYCLE_PARAMETERS. cbn [List.concat app map_res].
  unfold param_arg.
  repeat match goal with |- context [contains ?x ?y] =>
    let v := eval vm_compute in (contains x y) in change (contains x y) with v end.
  cbv iota.
  repeat match goal with
  | |- context [window_arg ?r ?k] => erewrite (window_arg_num r k) by get_row; cbn [rbind]
  | |- context [value_arg ?r ?k] => erewrite (value_arg_num r k) by get_row; cbn [rbind]
  end.
  reflexivity.
Qed.

Definition full_cycle_args (c : cycle) : cycle_args :=
  CycleArgs (Some (cp1 c)) (Some (ct1 c)) (Some (cwa c)) (Some (cp2 c)) (Some (ct2 c)) (Some (cwb c)) (Some (cr c)).

Lemma params_of_saved a c : params_of (saved_kwargs a c) = Ok (par a).
Proof.
  unfold params_of, arg, saved_kwargs. cbn [assoc String.eqb Ascii.eqb Bool.eqb rbind as_text as_Q].
  rewrite !as_Z_zq. cbn [rbind]. destruct (par a). reflexivity.
Qed.
Lemma window_args_of_saved a c : window_args_of (saved_kwargs a c) =
  Ok (WindowArgs (Some (window_1 (win a))) (Some (window_2 (win a))) (Some (window_3 (win a))) (Some (random_var_w (win a)))).
Proof. reflexivity. Qed.
Lemma power_of_saved a c : arg as_power (PConst 0) "power" (saved_kwargs a c) = as_power c.
Proof. reflexivity. Qed.
Ltac cyc_saved := unfold cycle_args_of, opt_arg, win_arg, saved_kwargs;
  cbn [assoc String.eqb Ascii.eqb Bool.eqb rbind as_Q]; rewrite !as_Z_zq; reflexivity.
Lemma cyc1_saved a c : cycle_args_of (saved_kwargs a c) "p_11" "t_11" "cw11" "p_12" "t_12" "cw12" "r_c1" = Ok (full_cycle_args (cyc1 a)).
Proof. cyc_saved. Qed.
Lemma cyc2_saved a c : cycle_args_of (saved_kwargs a c) "p_21" "t_21" "cw21" "p_22" "t_22" "cw22" "r_c2" = Ok (full_cycle_args (cyc2 a)).
Proof. cyc_saved. Qed.
Lemma cyc3_saved a c : cycle_args_of (saved_kwargs a c) "p_31" "t_31" "cw31" "p_32" "t_32" "cw32" "r_c3" = Ok (full_cycle_args (cyc3 a)).
Proof. cyc_saved. Qed.

(** ** Registration of a reloaded appliance *)

Definition blank (p : params) (pw : list Q) (const : bool) : appliance :=
  App p pw const default_wins default_cycle default_cycle default_cycle default_dyn.
Definition reloaded (F : fm) (a : appliance) (pw : list Q) (const : bool) (d : list Q) : appliance :=
  let rv x := py_int (fmul F (random_var_w (win a)) (zq (diff x))) in
  App (par a) pw const
    (Wins (window_1 (win a)) (window_2 (win a)) (window_3 (win a)) (random_var_w (win a))
       (rv (window_1 (win a))) (rv (window_2 (win a))) (rv (window_3 (win a))))
    (cyc1 a) (cyc2 a) (cyc3 a) (set_daily_use default_dyn d).

Lemma windows_reload F a pw const : valid_windows a ->
  exists d, forall r, r = reloaded F a pw const d ->
  exists c, windows F (blank (par a) pw const) (Some (window_1 (win a))) (Some (window_2 (win a))) (random_var_w (win a))
    (Some (window_3 (win a))) = (set_cyc3 (set_cyc2 (set_cyc1 r c) default_cycle) default_cycle, None).
Proof.
  intros (Hd & Hn & Ht). inversion Hd as [|? ? D1 Hd1]; subst. inversion Hd1 as [|? ? D2 Hd2]; subst.
  inversion Hd2 as [|? ? D3 _]; subst. clear Hd Hd1 Hd2.
  destruct (fill_window_ok (zeros day_minutes) _ (mask_value F) D1 zlen_zeros) as (d1 & E1).
  assert (L1 : zlen d1 = 1440).
  { pose proof zlen_zeros as ZZ. destruct D1 as [Da Db]. destruct (fill_window_spec (zeros day_minutes) (window_1 (win a)) (mask_value F) d1 ltac:(lia) ltac:(lia) E1) as (_ & -> & _). apply zlen_zeros. }
  destruct (fill_window_ok d1 _ (mask_value F) D2 L1) as (d2 & E2).
  assert (L2 : zlen d2 = 1440).
  { destruct D2 as [Da Db]. destruct (fill_window_spec d1 (window_2 (win a)) (mask_value F) d2 ltac:(lia) ltac:(lia) E2) as (_ & -> & _). exact L1. }
  destruct (fill_window_ok d2 _ (mask_value F) D3 L2) as (d3 & E3).
  exists d3. intros r ->. unfold windows.
  cbn [par blank win default_wins num_windows func_time fixed_cycle].
  rewrite window_time_ok by exact Hn. cbn [window_1 window_2 window_3].
  match goal with |- context [if ?x <? ?y then _ else _] => replace (x <? y) with false end.
  2: { symmetry. apply Z.ltb_ge. revert Ht. unfold used_windows.
       assert (num_windows (par a) = 1 \/ num_windows (par a) = 2 \/ num_windows (par a) = 3) as [E|[E|E]] by lia; rewrite E;
       [change (Z.to_nat 1) with 1%nat|change (Z.to_nat 2) with 2%nat|change (Z.to_nat 3) with 3%nat];
       cbn [firstn total_length fold_right Z.leb Z.compare Pos.compare Pos.compare_cont]; unfold length_of, diff; lia. }
  rewrite E1, E2, E3.
  exists (if fixed_cycle (par a) =? 1 then Cycle 0 0 0 0 0 (window_1 (win a)) (window_2 (win a)) else default_cycle).
  cbn [set_win set_daily set_st set_daily_use par power constant_power cyc1 cyc2 cyc3 st win blank default_dyn window_1 window_2 window_3].
  destruct (fixed_cycle (par a) =? 1); reflexivity.
Qed.

Lemma app_eq_power_total strict a b e : power_eq strict (power a) (power b) = Ok e -> exists e', app_eq strict a b = Ok e'.
Proof.
  intros H. unfold app_eq. apply eq_loop_total. apply Forall_forall. intros s Hs. unfold attr_eq.
  destruct (getattr_some a s Hs) as (v & Hv). destruct (getattr_some b s Hs) as (w & Hw). rewrite Hv, Hw.
  destruct v, w; try (eexists; reflexivity).
  rewrite (getattr_arr _ _ _ Hv), (getattr_arr _ _ _ Hw). exists e. exact H.
Qed.
Lemma eq_loop_power strict a b l : In "power"%string l -> forall acc e, eq_loop strict a b l acc = Ok e ->
  exists e', power_eq strict (power a) (power b) = Ok e'.
Proof.
  induction l as [|s l IH]; intros Hin acc e H; [destruct Hin|]. rewrite eq_loop_unfold in H.
  destruct (attr_eq strict a b s) as [x|] eqn:E; [|discriminate]. cbn [rbind] in H.
  destruct Hin as [->|Hin]; [|eapply IH; eassumption]. exists x. exact E.
Qed.
Lemma app_eq_power strict a b e : app_eq strict a b = Ok e -> exists e', power_eq strict (power a) (power b) = Ok e'.
Proof. apply eq_loop_power. cbn. tauto. Qed.
Lemma app_eq_total_power strict x y z e : app_eq strict x y = Ok e -> power z = power y -> exists e', app_eq strict x z = Ok e'.
Proof. intros H Hp. destruct (app_eq_power _ _ _ _ H) as (e' & H'). apply (app_eq_power_total strict x z e'). rewrite Hp. exact H'. Qed.

Lemma member_total strict g a self rs :
  (forall r, In r rs -> exists x e, deref g r = Some x /\ app_eq strict x a = Ok e) ->
  exists e, User.member strict g a self rs = Ok e.
Proof.
  induction rs as [|r rs IH]; intros H; cbn [User.member]; [eexists; reflexivity|].
  destruct (Nat.eqb r self); [eexists; reflexivity|]. destruct (H r) as (x & e & -> & ->); [left; reflexivity|]. cbn [rbind].
  destruct e; [eexists; reflexivity|]. apply IH. intros s Hs. apply H. right. exact Hs.
Qed.
Lemma member_skip strict g a self rs rs' :
  (forall r, In r rs -> r <> self /\ exists x, deref g r = Some x /\ app_eq strict x a = Ok false) ->
  User.member strict g a self (rs ++ rs') = User.member strict g a self rs'.
Proof.
  induction rs as [|r rs IH]; intros H; cbn [User.member app]; [reflexivity|].
  destruct (H r) as (Hr & x & -> & ->); [left; reflexivity|]. apply Nat.eqb_neq in Hr. rewrite Hr. cbn [rbind].
  apply IH. intros s Hs. apply H. right. exact Hs.
Qed.

Lemma deref_last objs a rs : deref (Registry (objs ++ [a]) rs) (List.length objs) = Some a.
Proof. unfold deref. cbn [objects]. rewrite nth_error_app2, Nat.sub_diag by lia. reflexivity. Qed.
Lemma deref_old objs a rs r x : nth_error objs r = Some x -> deref (Registry (objs ++ [a]) rs) r = Some x.
Proof. intros H. unfold deref. cbn [objects]. rewrite nth_error_app1; [exact H|]. apply nth_error_Some. congruence. Qed.
Lemma list_set_last {A} (l : list A) x y : list_set (l ++ [x]) (List.length l) y = l ++ [y].
Proof. induction l as [|z l IH]; [reflexivity|]. cbn [app List.length list_set]. rewrite IH. reflexivity. Qed.
Lemma update_last objs a rs f : update_object (Registry (objs ++ [a]) rs) (List.length objs) f = Registry (objs ++ [f a]) rs.
Proof. unfold update_object. rewrite deref_last. cbn [objects refs]. rewrite list_set_last. reflexivity. Qed.

(** the state while an appliance is being added: stored last, on the list or not yet *)
Definition adding (objs : list appliance) (a : appliance) (g : registry) : Prop :=
  exists rs, g = Registry (objs ++ [a]) rs /\
    (rs = seq 0 (List.length objs) \/ rs = seq 0 (List.length objs) ++ [List.length objs]).

Lemma in_seq_objs (objs : list appliance) r : In r (seq 0 (List.length objs)) -> exists x, In x objs /\ nth_error objs r = Some x /\ r <> List.length objs.
Proof.
  intros H. apply in_seq in H. destruct (nth_error objs r) as [x|] eqn:E.
  - exists x. split; [exact (nth_error_In _ _ E)|]. split; [reflexivity|lia].
  - apply nth_error_None in E. lia.
Qed.

(** first registration (by windows): possible whatever the result of the comparisons *)
Lemma register_first strict objs a : name (par a) <> "" ->
  (forall x, In x objs -> exists e, app_eq strict x a = Ok e) ->
  exists g', register strict (Registry (objs ++ [a]) (seq 0 (List.length objs))) (List.length objs) = Ok g' /\ adding objs a g'.
Proof.
  intros Hn Heq. unfold register. rewrite deref_last. cbn [refs].
  destruct (member_total strict (Registry (objs ++ [a]) (seq 0 (List.length objs))) a (List.length objs) (seq 0 (List.length objs))) as ([|] & ->).
  - intros r Hr. destruct (in_seq_objs _ _ Hr) as (x & Hx & Ex & _). destruct (Heq x Hx) as (e & He).
    exists x, e. split; [apply deref_old; exact Ex|exact He].
  - cbn [rbind]. eexists. split; [reflexivity|]. eexists. split; [reflexivity|left; reflexivity].
  - cbn [rbind]. apply String.eqb_neq in Hn. rewrite Hn. cbn [objects]. rewrite list_set_last. eexists. split; [reflexivity|].
    eexists. split; [reflexivity|right; reflexivity].
Qed.
(** last registration: the appliance differs from all others *)
Lemma register_last strict objs a g : name (par a) <> "" -> adding objs a g ->
  (forall x, In x objs -> app_eq strict x a = Ok false) ->
  register strict g (List.length objs) = Ok (Registry (objs ++ [a]) (seq 0 (List.length objs) ++ [List.length objs])).
Proof.
  intros Hn (rs & -> & Hrs) Heq. unfold register. rewrite deref_last. cbn [refs].
  assert (K : forall r, In r (seq 0 (List.length objs)) -> r <> List.length objs /\
    exists x, deref (Registry (objs ++ [a]) rs) r = Some x /\ app_eq strict x a = Ok false).
  { intros r Hr. destruct (in_seq_objs _ _ Hr) as (x & Hx & Ex & Hne). split; [exact Hne|]. exists x.
    split; [apply deref_old; exact Ex|apply Heq; exact Hx]. }
  destruct Hrs as [-> | ->].
  - rewrite <- (app_nil_r (seq 0 (List.length objs))) at 2. rewrite member_skip by exact K. cbn [User.member rbind].
    apply String.eqb_neq in Hn. rewrite Hn. cbn [objects]. rewrite list_set_last. reflexivity.
  - rewrite member_skip by exact K. cbn [User.member]. rewrite Nat.eqb_refl. reflexivity.
Qed.

Lemma cycle_on_adding objs a g (i : Z) c : adding objs a g -> 0 <= ct1 c -> 0 <= ct2 c ->
  exists g', cycle_on g (List.length objs) i (full_cycle_args c) = (g', None) /\
  adding objs (if i =? 1 then set_cyc1 a c else if i =? 2 then set_cyc2 a c else set_cyc3 a c) g'.
Proof.
  intros (rs & -> & Hrs) H1 H2. unfold cycle_on. rewrite deref_last.
  unfold apply_cycle_args, specific_cycle, full_cycle_args. cbn [ca_p1 ca_t1 ca_w1 ca_p2 ca_t2 ca_w2 ca_r].
  destruct (Z.ltb_spec (ct1 c) 0); [lia|]. destruct (Z.ltb_spec (ct2 c) 0); [lia|]. cbn [orb].
  rewrite update_last. eexists. split; [reflexivity|]. exists rs. split; [|exact Hrs]. destruct c. reflexivity.
Qed.

(** adding one saved row *)
Lemma add_saved F strict nd a c pwa pw const : name (par a) <> "" -> valid_windows a -> cycles_ok a ->
  as_power c = Ok pwa -> new_appliance (par a) pwa nd = Ok (blank (par a) pw const) ->
  exists d, forall objs,
  (forall x, In x objs -> app_eq strict x (reloaded F a pw const d) = Ok false) ->
  add_kwargs F strict nd (Registry objs (seq 0 (List.length objs))) (saved_kwargs a c) =
    Ok (Registry (objs ++ [reloaded F a pw const d]) (seq 0 (List.length (objs ++ [reloaded F a pw const d])))).
Proof.
  intros Hname Hw Hc Hpw Hnew. destruct (windows_reload F a pw const Hw) as (d & Hd). exists d. intros objs Hne.
  specialize (Hd _ eq_refl). destruct Hd as (cx & Hd).
  unfold add_kwargs. rewrite params_of_saved, power_of_saved, window_args_of_saved, cyc1_saved, cyc2_saved, cyc3_saved, Hpw.
  cbn [rbind]. unfold add_appliance_kw. rewrite Hnew. cbn [objects refs any_window_arg wa1 wa2 wa3 wa_rvw].
  unfold windows_on. rewrite deref_last, Hd.
  set (R := reloaded F a pw const d) in *.
  rewrite update_last. cbn [cyc1 blank].
  set (a1 := set_cyc1 (set_cyc3 (set_cyc2 (set_cyc1 R cx) default_cycle) default_cycle) default_cycle).
  destruct (register_first strict objs a1 Hname) as (g1 & -> & (rs & -> & Hrs)).
  { intros x Hx. apply (app_eq_total_power strict x R a1 false); [apply Hne; exact Hx|reflexivity]. }
  rewrite update_last.
  match goal with |- context [Registry (objs ++ [?z]) rs] => set (a2 := z) end.
  assert (A2 : adding objs a2 (Registry (objs ++ [a2]) rs)) by (exists rs; auto).
  destruct Hc as (T1 & T2 & T3 & T4 & T5 & T6).
  cbn [any_cycle_arg full_cycle_args ca_p1 ca_t1 ca_w1 ca_p2 ca_t2 ca_w2 ca_r].
  change (CycleArgs (Some (cp1 (cyc1 a))) (Some (ct1 (cyc1 a))) (Some (cwa (cyc1 a))) (Some (cp2 (cyc1 a)))
    (Some (ct2 (cyc1 a))) (Some (cwb (cyc1 a))) (Some (cr (cyc1 a)))) with (full_cycle_args (cyc1 a)).
  change (CycleArgs (Some (cp1 (cyc2 a))) (Some (ct1 (cyc2 a))) (Some (cwa (cyc2 a))) (Some (cp2 (cyc2 a)))
    (Some (ct2 (cyc2 a))) (Some (cwb (cyc2 a))) (Some (cr (cyc2 a)))) with (full_cycle_args (cyc2 a)).
  change (CycleArgs (Some (cp1 (cyc3 a))) (Some (ct1 (cyc3 a))) (Some (cwa (cyc3 a))) (Some (cp2 (cyc3 a)))
    (Some (ct2 (cyc3 a))) (Some (cwb (cyc3 a))) (Some (cr (cyc3 a)))) with (full_cycle_args (cyc3 a)).
  destruct (cycle_on_adding objs a2 _ 1 (cyc1 a) A2 T1 T2) as (g3 & -> & A3).
  destruct (cycle_on_adding objs _ _ 2 (cyc2 a) A3 T3 T4) as (g4 & -> & A4).
  destruct (cycle_on_adding objs _ _ 3 (cyc3 a) A4 T5 T6) as (g5 & -> & A5).
  change (if 3 =? 1 then _ else if 3 =? 2 then _ else ?x) with x in A5.
  assert (E : adding objs R g5).
  { match type of A5 with adding _ ?z _ => replace z with R in A5 end; [exact A5|]. reflexivity. }
  rewrite (register_last strict objs R g5 Hname E Hne).
  rewrite app_length. cbn [List.length]. rewrite seq_app. reflexivity.
Qed.

(** ** All rows of a user *)

Lemma Forall2_flip_in {A B} (R : A -> B -> Prop) l l' : Forall2 R l l' -> (forall y, In y l' -> exists x, In x l /\ R x y) /\ True.
Proof.
  intros H. split; [|exact I]. induction H as [|x y l l' Hxy H IH]; intros z Hz; [destruct Hz|].
  destruct Hz as [<-|Hz]; [exists x; split; [left; reflexivity|exact Hxy]|]. destruct (IH z Hz) as (w & Hw & Rw). exists w. split; [right; exact Hw|exact Rw].
Qed.
Lemma app_eq_attributes strict a a' b b' : same_attributes a a' -> same_attributes b b' -> app_eq strict a b = app_eq strict a' b'.
Proof.
  intros Ha Hb. unfold app_eq. assert (H : forall s, In s APPLIANCE_ATTRIBUTES -> getattr a s = getattr a' s /\ getattr b s = getattr b' s) by auto.
  clear Ha Hb. revert H. generalize true. induction APPLIANCE_ATTRIBUTES as [|s l IH]; intros acc H; [reflexivity|].
  cbn [eq_loop]. destruct (H s) as [-> ->]; [left; reflexivity|].
  assert (IH' : forall acc, eq_loop strict a b l acc = eq_loop strict a' b' l acc) by (intros; apply IH; intros; apply H; right; assumption).
  destruct (getattr a' s), (getattr b' s); rewrite ?IH'; [|reflexivity..].
  destruct (value_eq strict v v0); cbn [rbind]; [apply IH'|reflexivity].
Qed.

Lemma reloaded_attributes F a const d : same_attributes (reloaded F a (power_back (power a)) const d) (returned a).
Proof. intros s _. reflexivity. Qed.

Lemma last_eq_of_all (l : list Q) x : Forall (fun y => (y == x)%Q) l -> (last l x == x)%Q.
Proof.
  induction l as [|y l IH]; intros H; [reflexivity|]. inversion H; subst. destruct l as [|z l]; [assumption|].
  change (last (y :: z :: l) x) with (last (z :: l) x). apply IH. assumption.
Qed.

Lemma power_round_trip F nd p l : nd = 366 -> storable_power F l ->
  exists c c' pwa const, save_power F l = Ok c /\ excel_cell c = c /\ read_power c = Ok c' /\ as_power c' = Ok pwa /\
    new_appliance p pwa nd = Ok (blank p (power_back l) const).
Proof.
  intros -> (x & l' & -> & [H|(HF & H366 & Hne)]).
  - exists (CNum x), (CNum x), (PConst x), true. rewrite save_power_const by exact H.
    repeat split. unfold new_appliance, blank. do 2 f_equal. cbn [power_back].
    replace (forallb (fun y => Qeq_bool y x) l') with true; [reflexivity|]. symmetry. apply forallb_forall.
    intros y Hy. apply Qeq_bool_iff. rewrite Forall_forall in H. apply H. exact Hy.
  - exists (CArray (map (fun v => [v]) (x :: l'))), (CArray (map (fun v => [v]) (x :: l'))), (PSeries (x :: l')), false.
    rewrite save_power_exact by exact HF. split.
    + destruct (Qeq_bool (last l' x) x) eqn:E; [apply Qeq_bool_iff in E; contradiction|reflexivity].
    + split; [reflexivity|]. split.
      * unfold read_power. rewrite zlen_map, H366. reflexivity.
      * split.
        -- unfold as_power. rewrite map_map. cbn [hd]. rewrite map_id. reflexivity.
        -- unfold new_appliance, blank. f_equal. f_equal. unfold power_back.
           destruct (forallb (fun y => Qeq_bool y x) l') eqn:E; [|reflexivity]. exfalso. apply Hne. apply last_eq_of_all.
           apply Forall_forall. intros y Hy. rewrite forallb_forall in E. apply Qeq_bool_iff. apply E. exact Hy.
Qed.

(** one appliance: the row it gives, and its effect when read *)
Lemma app_round_trip F strict u a : user_name u <> "" -> storable_app F a ->
  exists c c', save_appliance F u a = Ok (saved_row u a c) /\
    read_row (map (fun kc : string * cell => (fst kc, excel_cell (snd kc))) (saved_row u a c)) = Ok (saved_row u a c') /\
    exists a', same_attributes a' (returned a) /\
    forall objs, (forall x, In x objs -> app_eq strict x a' = Ok false) ->
      rbind (row_kwargs (saved_row u a c')) (fun kw => add_kwargs F strict 366 (Registry objs (seq 0 (List.length objs))) kw) =
      Ok (Registry (objs ++ [a']) (seq 0 (List.length (objs ++ [a'])))).
Proof.
  intros Hu (N1 & N2 & N3 & Hw & Hc & Hp).
  destruct (power_round_trip F 366 (par a) _ eq_refl Hp) as (c & c' & pwa & const & E1 & E2 & E3 & E4 & E5).
  exists c, c'. split; [apply save_appliance_row; exact E1|]. split.
  - rewrite excel_row by assumption. rewrite read_saved_row, E3. reflexivity.
  - destruct (add_saved F strict 366 a c' pwa _ const N1 Hw Hc E4 E5) as (d & Hd).
    exists (reloaded F a (power_back (power a)) const d). split; [apply reloaded_attributes|].
    intros objs Ho. rewrite saved_row_kwargs. cbn [rbind]. apply Hd. exact Ho.
Qed.

Lemma registered_seq objs : registered (Registry objs (seq 0 (List.length objs))) = objs.
Proof.
  unfold registered. cbn [refs]. induction objs as [|x objs IH] using rev_ind; [reflexivity|].
  rewrite app_length. cbn [List.length]. rewrite seq_app, flat_map_app. cbn [seq flat_map Nat.add]. rewrite deref_last, app_nil_r.
  f_equal. rewrite <- IH at 2. assert (G : forall l, Forall (fun r => (r < List.length objs)%nat) l ->
    flat_map (fun r => match deref (Registry (objs ++ [x]) (seq 0 (List.length objs) ++ [List.length objs])) r with Some a => [a] | None => [] end) l =
    flat_map (fun r => match deref (Registry objs (seq 0 (List.length objs))) r with Some a => [a] | None => [] end) l).
  { induction l as [|r l IHl]; intros H; [reflexivity|]. inversion H; subst. cbn [flat_map]. rewrite IHl by assumption.
    unfold deref. cbn [objects]. rewrite nth_error_app1 by assumption. reflexivity. }
  apply G. apply Forall_forall. intros r Hr. apply in_seq in Hr. lia.
Qed.

(** [row'] is the row that loading sees when appliance [a] of user [u] was saved *)
Definition row_of (u : user) (a : appliance) (r : row) : Prop := exists c, r = saved_row u a c.

Lemma user_round_trip F strict u : user_name u <> "" -> Forall (storable_app F) (app_list u) ->
  ForallOrdPairs (fun a b => app_eq strict (returned a) (returned b) = Ok false) (app_list u) ->
  exists rows rows' apps', map_res (save_appliance F u) (app_list u) = Ok rows /\
    read_input_file (excel rows) = Ok rows' /\
    Forall2 (row_of u) (app_list u) rows' /\
    Forall2 (fun a a' => same_attributes a' (returned a)) (app_list u) apps' /\
    add_rows F strict 366 (Registry [] []) rows' = Ok (Registry apps' (seq 0 (List.length apps'))).
Proof.
  intros Hu Hs Hd.
  assert (G : forall l, Forall (storable_app F) l -> ForallOrdPairs (fun a b => app_eq strict (returned a) (returned b) = Ok false) l ->
    forall pre objs, Forall2 (fun a a' => same_attributes a' (returned a)) pre objs ->
    Forall (fun b => Forall (fun a => app_eq strict (returned b) (returned a) = Ok false) l) pre ->
    exists rows rows' apps', map_res (save_appliance F u) l = Ok rows /\
    read_input_file (excel rows) = Ok rows' /\
    Forall2 (row_of u) l rows' /\
    Forall2 (fun a a' => same_attributes a' (returned a)) l apps' /\
    add_rows F strict 366 (Registry objs (seq 0 (List.length objs))) rows' = Ok (Registry (objs ++ apps') (seq 0 (List.length (objs ++ apps'))))).
  { induction l as [|a l IH]; intros HS HD pre objs Hpre Hno.
    - exists [], [], []. rewrite app_nil_r. repeat split; constructor.
    - inversion HS as [|? ? Sa Sl]; subst. inversion HD as [|? ? Da Dl]; subst.
      destruct (app_round_trip F strict u a Hu Sa) as (c & c' & E1 & E2 & a' & Ea & Hadd).
      assert (Hnew : forall x, In x objs -> app_eq strict x a' = Ok false).
      { intros x Hx. destruct (proj1 (Forall2_flip_in _ _ _ Hpre) x Hx) as (b & Hb & Sb).
        rewrite (app_eq_attributes strict x (returned b) a' (returned a) Sb Ea).
        rewrite Forall_forall in Hno. specialize (Hno b Hb). inversion Hno; subst. assumption. }
      destruct (IH Sl Dl (pre ++ [a]) (objs ++ [a'])) as (rows & rows' & apps' & R1 & R2 & R3 & R4 & R5).
      + apply Forall2_app; [exact Hpre|]. constructor; [exact Ea|constructor].
      + apply Forall_app. split; [|constructor; [exact Da|constructor]].
        eapply Forall_impl; [|exact Hno]. cbn. intros b Hb. inversion Hb; subst; assumption.
      + exists (saved_row u a c :: rows), (saved_row u a c' :: rows'), (a' :: apps').
        cbn [map_res]. rewrite E1, R1. split; [reflexivity|].
        unfold read_input_file, excel in *. cbn [map map_res]. rewrite E2. cbn [rbind]. rewrite R2. split; [reflexivity|].
        split; [constructor; [exists c'; reflexivity|exact R3]|]. split; [constructor; assumption|].
        cbn [add_rows]. specialize (Hadd objs Hnew). destruct (row_kwargs (saved_row u a c')) as [kw|]; [|discriminate].
        cbn [rbind] in Hadd |- *. rewrite Hadd. cbn [rbind]. rewrite R5, <- app_assoc. reflexivity. }
  destruct (G (app_list u) Hs Hd [] [] (Forall2_nil _) (Forall_nil _)) as (rows & rows' & apps' & H). eauto.
Qed.

(** ** The whole table *)

Lemma map_res_app {A B} (f : A -> res B) l l' :
  map_res f (l ++ l') = rbind (map_res f l) (fun y => rbind (map_res f l') (fun y' => Ok (y ++ y'))).
Proof.
  induction l as [|x l IH]; cbn [app map_res rbind]; [destruct (map_res f l'); reflexivity|].
  destruct (f x); cbn [rbind]; [|reflexivity]. rewrite IH. destruct (map_res f l); cbn [rbind]; [|reflexivity].
  destruct (map_res f l'); reflexivity.
Qed.
Lemma excel_app t t' : excel (t ++ t') = excel t ++ excel t'.
Proof. apply map_app. Qed.

Lemma cell_same_text_ne s s' : s <> s' -> cell_same (CText s) (CText s') = false.
Proof. intros H. cbn. apply String.eqb_neq. exact H. Qed.
Lemma filter_all {A} (f : A -> bool) l : Forall (fun x => f x = true) l -> filter f l = l.
Proof. induction 1 as [|x l H _ IH]; [reflexivity|]. cbn [filter]. rewrite H, IH. reflexivity. Qed.
Lemma filter_none {A} (f : A -> bool) l : Forall (fun x => f x = false) l -> filter f l = [].
Proof. induction 1 as [|x l H _ IH]; [reflexivity|]. cbn [filter]. rewrite H, IH. reflexivity. Qed.
Lemma unique_in x l : In x (unique l) -> In x l.
Proof.
  induction l as [|y l IH]; cbn [unique]; [auto|]. intros [->|H]; [left; reflexivity|].
  apply filter_In in H. right. apply IH. apply H.
Qed.
Lemma unique_repeat c n l : cell_same c c = true -> Forall (fun x => cell_same c x = false) l ->
  unique (repeat c (S n) ++ l) = c :: unique l.
Proof.
  intros Hc Hl. assert (K : filter (fun y => negb (cell_same c y)) (unique l) = unique l).
  { apply filter_all. apply Forall_forall. intros x Hx. apply unique_in in Hx. rewrite Forall_forall in Hl. rewrite Hl by exact Hx. reflexivity. }
  induction n as [|n IH].
  - cbn [repeat app unique]. rewrite K. reflexivity.
  - change (repeat c (S (S n)) ++ l) with (c :: (repeat c (S n) ++ l)). cbn [unique]. rewrite IH.
    cbn [filter]. rewrite Hc. cbn [negb]. rewrite K. reflexivity.
Qed.

Lemma unique_const c n : cell_same c c = true -> unique (repeat c (S n)) = [c].
Proof. intros H. rewrite <- (app_nil_r (repeat c (S n))). rewrite unique_repeat; [reflexivity|exact H|constructor]. Qed.

(** rows grouped by user, one group per user name *)
Definition group : Type := string * table.
Definition group_ok (g : group) : Prop := snd g <> [] /\ Forall (fun r => row_get r "user_name" = CText (fst g)) (snd g).

Lemma map_const {A B} (f : A -> B) c l : Forall (fun x => f x = c) l -> map f l = repeat c (List.length l).
Proof. induction 1 as [|x l H _ IH]; [reflexivity|]. cbn. rewrite H, IH. reflexivity. Qed.

Lemma unique_groups gs : NoDup (map fst gs) -> Forall group_ok gs ->
  unique (map (fun r => row_get r "user_name") (List.concat (map snd gs))) = map (fun g => CText (fst g)) gs.
Proof.
  induction gs as [|g gs IH]; intros Hnd Hok; [reflexivity|]. inversion Hnd as [|? ? Hni Hnd']; subst.
  inversion Hok as [|? ? [Hne Hg] Hok']; subst. cbn [map List.concat]. rewrite map_app, (map_const _ _ _ Hg).
  destruct (snd g) as [|r0 rs] eqn:E; [contradiction|]. cbn [List.length].
  rewrite unique_repeat; [rewrite IH by assumption; reflexivity|cbn; apply String.eqb_refl|].
  apply Forall_forall. intros x Hx. apply in_map_iff in Hx. destruct Hx as (r & <- & Hr).
  apply in_concat in Hr. destruct Hr as (rows & Hrows & Hr). apply in_map_iff in Hrows. destruct Hrows as (g' & <- & Hg').
  rewrite Forall_forall in Hok'. destruct (Hok' g' Hg') as [_ Hall]. rewrite Forall_forall in Hall. rewrite (Hall r Hr).
  apply cell_same_text_ne. intros Heq. apply Hni. rewrite Heq. apply in_map. exact Hg'.
Qed.

Lemma rows_named_groups gs : NoDup (map fst gs) -> Forall group_ok gs -> forall g, In g gs ->
  rows_named (List.concat (map snd gs)) (CText (fst g)) = snd g.
Proof.
  intros Hnd Hok g Hg. unfold rows_named. induction gs as [|g0 gs IH]; [destruct Hg|].
  inversion Hnd as [|? ? Hni Hnd']; subst. inversion Hok as [|? ? [Hne H0] Hok']; subst.
  cbn [map List.concat]. rewrite filter_app.
  assert (Other : forall n, n <> fst g0 -> filter (fun r => cell_eq (row_get r "user_name") (CText n)) (snd g0) = []).
  { intros n Hn. apply filter_none. eapply Forall_impl; [|exact H0]. cbn. intros r ->. cbn. apply String.eqb_neq. congruence. }
  destruct Hg as [->|Hg].
  - rewrite filter_all by (eapply Forall_impl; [|exact H0]; cbn; intros r ->; cbn; apply String.eqb_refl).
    rewrite filter_none; [apply app_nil_r|]. apply Forall_forall. intros r Hr.
    apply in_concat in Hr. destruct Hr as (rows & Hrows & Hr). apply in_map_iff in Hrows. destruct Hrows as (g' & <- & Hg').
    rewrite Forall_forall in Hok'. destruct (Hok' g' Hg') as [_ Hall]. rewrite Forall_forall in Hall. rewrite (Hall r Hr).
    cbn. apply String.eqb_neq. intros Heq. apply Hni. rewrite <- Heq. apply in_map. exact Hg'.
  - rewrite Other by (intros Heq; apply Hni; rewrite <- Heq; apply in_map; exact Hg). apply IH; assumption.
Qed.

Lemma save_all F strict us : Forall (storable_user F strict) us ->
  exists ts gs us', map_res (save_user F) us = Ok ts /\ read_input_file (excel (List.concat ts)) = Ok (List.concat (map snd gs)) /\
    map fst gs = map user_name us /\ Forall group_ok gs /\ Forall2 same_user us us' /\
    forall t, (forall g, In g gs -> rows_named t (CText (fst g)) = snd g) ->
      map_res (load_user F strict 366 t) (map (fun g => CText (fst g)) gs) = Ok us'.
Proof.
  induction us as [|u us IH]; intros H.
  - exists [], [], []. repeat split; constructor.
  - inversion H as [|? ? (Hu & Hne & Hs & Hd) Hus]; subst. destruct (IH Hus) as (ts & gs & us' & R1 & R2 & R3 & R4 & R5 & R6).
    destruct (user_round_trip F strict u Hu Hs Hd) as (rows & rows' & apps' & E1 & E2 & E3 & E4 & E5).
    exists (rows :: ts), ((user_name u, rows') :: gs), (User (user_name u) (num_users u) (user_preference u) 0 [] apps' :: us').
    assert (Hrows : rows' <> []). { intros ->. inversion E3 as [Hx|]. congruence. }
    split.
    { cbn [map_res]. unfold save_user at 1. destruct (app_list u) eqn:Ea; [contradiction|]. rewrite <- Ea in E1 |- *. rewrite E1, R1. reflexivity. }
    split.
    { cbn [List.concat map snd]. unfold read_input_file in *. rewrite excel_app, map_res_app, E2, R2. reflexivity. }
    split; [cbn [map fst]; rewrite R3; reflexivity|].
    assert (Hget : forall k c, (forall r a, row_of u a r -> row_get r k = c) -> Forall (fun r => row_get r k = c) rows').
    { intros k c Hk. clear -E3 Hk. induction E3; constructor; [eapply Hk; eassumption|assumption]. }
    split.
    { constructor; [|exact R4]. split; [exact Hrows|]. apply Hget. intros r a (c & ->). reflexivity. }
    split.
    { constructor; [|exact R5]. repeat split. exact E4. }
    intros t Ht. cbn [map map_res fst]. rewrite R6 by (intros g Hg; apply Ht; right; exact Hg).
    unfold load_user. pose proof (Ht (user_name u, rows') (or_introl eq_refl)) as Hu'. cbn [fst snd] in Hu'. rewrite Hu'.
    rewrite (map_const _ (CNum (zq (num_users u))) rows') by (apply Hget; intros r a (c & ->); reflexivity).
    rewrite (map_const _ (CNum (zq (user_preference u))) rows') by (apply Hget; intros r a (c & ->); reflexivity).
    destruct rows' as [|r0 rows']; [contradiction|]. cbn [List.length].
    rewrite !unique_const by (cbn; apply Qeq_bool_iff; reflexivity).
    cbn [as_text rbind]. rewrite !as_Z_zq. cbn [rbind]. rewrite E5. cbn [rbind]. rewrite registered_seq. reflexivity.
Qed.

Lemma round_trip F strict us : us <> [] -> NoDup (map user_name us) -> Forall (storable_user F strict) us ->
  exists us', save_and_load F strict us = Ok us' /\ Forall2 same_user us us'.
Proof.
  intros Hne Hnd H. destruct (save_all F strict us H) as (ts & gs & us' & R1 & R2 & R3 & R4 & R5 & R6).
  exists us'. split; [|exact R5]. unfold save_and_load, save. destruct us as [|u us]; [contradiction|]. rewrite R1. cbn [rbind].
  unfold load_table. rewrite R2. cbn [rbind]. rewrite <- R3 in Hnd. rewrite unique_groups by assumption.
  apply R6. intros g Hg. apply rows_named_groups; assumption.
Qed.
