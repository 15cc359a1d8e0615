(** * PropsScript: declaring a user (C68) *)
From Verif Require Import Base ListLemmas Utils Appliance Attributes User Declare Script ProofsEq PropsReg PropsDeclare.
From Coq Require Import ZifyBool ZifyNat.
Open Scope list_scope.
Open Scope Z_scope.

(** ** Specification *)

Definition is_given {A} (o : option A) : bool := match o with Some _ => true | None => false end.
(** at least one keyword argument of windows(), of one duty cycle *)
Definition some_window (w : window_args) : bool := is_given (wa1 w) || is_given (wa2 w) || is_given (wa3 w) || is_given (wa_rvw w).
Definition some_cycle (c : cycle_args) : bool :=
  is_given (ca_p1 c) || is_given (ca_t1 c) || is_given (ca_w1 c) || is_given (ca_p2 c) || is_given (ca_t2 c) || is_given (ca_w2 c) || is_given (ca_r c).

(** the declaration calls that add_appliance makes itself for its keyword arguments *)
Definition own_calls (wa : window_args) (c1 c2 c3 : cycle_args) : list decl :=
  (if some_window wa then [DWindows (wa1 wa) (wa2 wa) (match wa_rvw wa with Some x => x | None => 0%Q end) (wa3 wa)] else []) ++
  (if some_cycle c1 then [DCycle 1 c1] else []) ++
  (if some_cycle c2 then [DCycle 2 c2] else []) ++
  (if some_cycle c3 then [DCycle 3 c3] else []).

Lemma some_window_any w : some_window w = any_window_arg w.
Proof. destruct w as [[] [] [] []]; reflexivity. Qed.
Lemma some_cycle_any c : some_cycle c = any_cycle_arg c.
Proof. destruct c as [[] [] [] [] [] [] []]; reflexivity. Qed.

(** the declaration calls made on variable [k] *)
Fixpoint calls_on (k : nat) (cs : list call) : list decl :=
  match cs with
  | [] => []
  | COn j d :: cs' => if Nat.eqb j k then d :: calls_on k cs' else calls_on k cs'
  | CAdd _ _ _ _ _ _ :: cs' => calls_on k cs'
  end.

(** the parameters of the add_appliance calls, in order *)
Fixpoint added (cs : list call) : list (params * power_arg * list decl) :=
  match cs with
  | [] => []
  | CAdd p pw wa c1 c2 c3 :: cs' => (p, pw, own_calls wa c1 c2 c3) :: added cs'
  | COn _ _ :: cs' => added cs'
  end.

(** every call is made on a variable that exists already ([m] of them exist at the start) *)
Fixpoint scoped (m : nat) (cs : list call) : Prop :=
  match cs with
  | [] => True
  | CAdd _ _ _ _ _ _ :: cs' => scoped (S m) cs'
  | COn k _ :: cs' => (k < m)%nat /\ scoped m cs'
  end.

(** an appliance on its own: created, then the declaration calls one after the other *)
Definition declared_alone (F : fm) (nd : Z) (x : params * power_arg * list decl) (later : list decl) (a : appliance) : Prop :=
  let '(p, pw, own) := x in
  exists a0, new_appliance p pw nd = Ok a0 /\ declare F a0 (own ++ later) = (a, None).

(** the names are given and differ *)
Definition names_differ (cs : list call) : Prop :=
  NoDup (map (fun x => name (fst (fst x))) (added cs)) /\ Forall (fun x => name (fst (fst x)) <> ""%string) (added cs).

(** power series that can be compared: all of the same length (a constant power has one value per day), or an old numpy
    and no series of one value *)
Definition power_values (nd : Z) (pw : power_arg) : Z :=
  match pw with PConst _ => Z.max 0 (nd + 1) | PSeries l => zlen l | PBad => 0 end.
Definition powers_agree (strict : bool) (nd : Z) (cs : list call) : Prop :=
  (exists n, Forall (fun x => power_values nd (snd (fst x)) = n) (added cs)) \/
  (strict = false /\ Forall (fun x => power_values nd (snd (fst x)) <> 1) (added cs)).

(** ** Proofs *)

(** what registration looks at *)
Definition key (a : appliance) : string * Z := (name (par a), zlen (power a)).
Definition keys_ok (strict : bool) (ks : list (string * Z)) : Prop :=
  NoDup (map fst ks) /\ Forall (fun k => fst k <> ""%string) ks /\
  ((exists n, Forall (fun k => snd k = n) ks) \/ (strict = false /\ Forall (fun k => snd k <> 1) ks)).

Definition keeps (a b : appliance) : Prop := par b = par a /\ power b = power a.
Lemma keeps_win a w : keeps a (set_win a w). Proof. split; reflexivity. Qed.
Lemma keeps_daily a b d : keeps a b -> keeps a (set_daily b d). Proof. intros H. exact H. Qed.
Lemma keeps_win2 a b w : keeps a b -> keeps a (set_win b w). Proof. intros H. exact H. Qed.
Lemma keeps_cyc1 a b c : keeps a b -> keeps a (set_cyc1 b c). Proof. intros H. exact H. Qed.
Lemma pair_fst {A B} (x a : A) (y b : B) : (x, y) = (a, b) -> a = x. Proof. intros H. injection H as -> _. reflexivity. Qed.
Ltac done_keeps H := rewrite (pair_fst _ _ _ _ H); repeat first [apply keeps_win|apply keeps_daily|apply keeps_win2|apply keeps_cyc1].
Lemma nth_error_ext {A} (l l' : list A) : (forall k, nth_error l k = nth_error l' k) -> l = l'.
Proof.
  revert l'. induction l as [|x l IH]; intros [|y l'] H; [reflexivity|exfalso; specialize (H 0%nat); discriminate H|exfalso; specialize (H 0%nat); discriminate H|].
  pose proof (H 0%nat) as H0. cbn in H0. injection H0 as ->. f_equal. apply IH. intros k. exact (H (S k)).
Qed.

Lemma windows_keeps F a w1 w2 rvw w3 : keeps a (fst (windows F a w1 w2 rvw w3)).
Proof.
  destruct (windows F a w1 w2 rvw w3) as [a' e] eqn:H. cbn [fst]. unfold windows in H.
  destruct (match w2 with None => num_windows (par a) >=? 2 | Some _ => false end); [done_keeps H|].
  destruct (match w3 with None => num_windows (par a) =? 3 | Some _ => false end); [done_keeps H|].
  cbn [window_1 window_2 window_3 random_var_w random_var_1 random_var_2 random_var_3] in H.
  destruct (window_time _ _) as [wt|e1]; [|done_keeps H].
  destruct (wt <? func_time (par a)); [done_keeps H|].
  destruct (fill_window _ _ _) as [d1|e1] in H; [|done_keeps H].
  destruct (fill_window d1 _ _) as [d2|e1] in H; [|done_keeps H].
  destruct (fill_window d2 _ _) as [d3|e1] in H; [|done_keeps H].
  cbv zeta in H. destruct (fixed_cycle _ =? 1); done_keeps H.
Qed.
Lemma declare1_keys F a d : key (fst (declare1 F a d)) = key a.
Proof.
  destruct d as [w1 w2 rvw w3|i args|]; [|cbn [declare1]; unfold specific_cycle_num|reflexivity].
  - cbn [declare1]. unfold key. destruct (windows_keeps F a w1 w2 rvw w3) as [-> ->]. reflexivity.
  - repeat match goal with |- context [if ?b then _ else _] => destruct b end; try reflexivity;
      destruct (apply_cycle_args _ _) as [c e]; reflexivity.
Qed.

Lemma nodup_front {A} (xs ys : list A) : NoDup (xs ++ ys) -> NoDup xs.
Proof.
  induction xs as [|x xs IH]; cbn; intros H; [constructor|]. inversion H; subst. constructor; [|auto].
  intros Hin. match goal with N : ~ In _ _ |- _ => apply N end. apply in_or_app. left. exact Hin.
Qed.
Lemma keys_app strict ks k : keys_ok strict (ks ++ k) -> keys_ok strict ks.
Proof.
  intros (H1 & H2 & H3). rewrite map_app in H1. split; [exact (nodup_front _ _ H1)|].
  apply Forall_app in H2 as [H2 _]. split; [exact H2|].
  destruct H3 as [(n & H3)|(-> & H3)]; apply Forall_app in H3 as [H3 _]; [left|right]; eauto.
Qed.

(** the store of the script: every object is registered, in order *)
Definition store (l : list appliance) : registry := Registry l (seq 0 (List.length l)).

Lemma keys_differ strict l i j a b : keys_ok strict (map key l) -> nth_error l i = Some a -> nth_error l j = Some b -> i <> j ->
  app_eq strict a b = Ok false.
Proof.
  intros (H1 & H2 & H3) Ha Hb Hij.
  assert (Hc : comparable strict (power a) (power b)).
  { apply nth_error_In in Ha, Hb. apply (in_map key) in Ha, Hb.
    destruct H3 as [(n & H3)|(-> & H3)]; rewrite Forall_forall in H3; apply H3 in Ha, Hb; cbn in Ha, Hb; [left; lia|right; auto]. }
  destruct (proj1 (app_eq_comparable strict a b Hc)) as ([|] & E); [exfalso|exact E].
  apply app_eq_names in E. apply Hij. rewrite map_map in H1.
  assert (Hi : (i < List.length l)%nat) by (apply nth_error_Some; congruence).
  apply (proj1 (NoDup_nth_error (map (fun x => fst (key x)) l)) H1); [rewrite map_length; exact Hi|].
  rewrite !nth_error_map, Ha, Hb. cbn. congruence.
Qed.

Lemma member_alone strict l rs a self g : keys_ok strict (map key l) -> objects g = l -> nth_error l self = Some a ->
  (forall r, In r rs -> (r < List.length l)%nat) ->
  User.member strict g a self rs = Ok (existsb (fun r => Nat.eqb r self) rs).
Proof.
  intros Hk Hg Ha. induction rs as [|r rs IH]; intros Hr; cbn [User.member existsb]; [reflexivity|].
  destruct (Nat.eqb r self) eqn:E; cbn [orb]; [reflexivity|].
  assert (Hlt : (r < List.length l)%nat) by (apply Hr; left; reflexivity).
  unfold deref. rewrite Hg. destruct (nth_error l r) as [b|] eqn:Hb; [|apply nth_error_None in Hb; lia].
  rewrite (keys_differ strict l r self b a Hk Hb Ha); [|apply Nat.eqb_neq; exact E].
  cbn [rbind]. apply IH. intros x Hx. apply Hr. right. exact Hx.
Qed.

Lemma seq_existsb m k : existsb (fun r => Nat.eqb r k) (seq 0 m) = Nat.ltb k m.
Proof.
  destruct (Nat.ltb_spec k m).
  - apply existsb_exists. exists k. split; [apply in_seq; lia|apply Nat.eqb_refl].
  - destruct (existsb _ _) eqn:E; [|reflexivity]. apply existsb_exists in E as (x & Hx & Ex). apply in_seq in Hx.
    apply Nat.eqb_eq in Ex. lia.
Qed.

Lemma list_set_id {A} (l : list A) n x : nth_error l n = Some x -> list_set l n x = l.
Proof. revert n. induction l as [|y l IH]; intros [|n] H; cbn in *; try discriminate; [congruence|f_equal; auto]. Qed.
Lemma list_set_twice {A} (l : list A) n x y : list_set (list_set l n x) n y = list_set l n y.
Proof. revert n. induction l as [|z l IH]; intros [|n]; cbn; try reflexivity. f_equal. apply IH. Qed.
Lemma list_set_end {A} (l : list A) x y : list_set (l ++ [x]) (List.length l) y = l ++ [y].
Proof. induction l as [|z l IH]; cbn; [reflexivity|f_equal; exact IH]. Qed.
Lemma list_set_len {A} (l : list A) n x : List.length (list_set l n x) = List.length l.
Proof. revert n. induction l as [|z l IH]; intros [|n]; cbn; try reflexivity. f_equal. apply IH. Qed.

(** a store with objects [l], the first [m] of them registered; every object is registered or is the last one *)
Definition part (l : list appliance) (m : nat) : registry := Registry l (seq 0 m).

Lemma map_key_set l k a a' : nth_error l k = Some a -> key a' = key a -> map key (list_set l k a') = map key l.
Proof. revert k. induction l as [|x l IH]; intros [|k] H E; cbn in *; try discriminate; [congruence|f_equal; eauto]. Qed.

Lemma register_part strict l m k a : keys_ok strict (map key l) -> nth_error l k = Some a -> (m <= List.length l)%nat ->
  register strict (part l m) k = Ok (if Nat.ltb k m then part l m else Registry l (seq 0 m ++ [k])).
Proof.
  intros Hk Ha Hm. unfold register, deref, part. cbn [objects refs]. rewrite Ha.
  rewrite (member_alone strict l); [|exact Hk|reflexivity|exact Ha|intros r Hr; apply in_seq in Hr; lia].
  cbn [rbind]. rewrite seq_existsb. destruct (Nat.ltb k m); [reflexivity|].
  assert (Hn : String.eqb (name (par a)) "" = false).
  { apply String.eqb_neq. destruct Hk as (_ & Hk & _). rewrite Forall_forall in Hk. apply nth_error_In in Ha.
    apply (in_map key) in Ha. exact (Hk _ Ha). }
  rewrite Hn. rewrite list_set_id by exact Ha. reflexivity.
Qed.

(** a call on object [k]: it is registered already, or it is the last one and windows() registers it *)
Lemma decl_on_part F strict l m k a d : keys_ok strict (map key l) -> nth_error l k = Some a ->
  (m = List.length l \/ (List.length l = S m /\ k = m)) ->
  exists m', decl_on F strict (part l m) k d = (part (list_set l k (fst (declare1 F a d))) m', snd (declare1 F a d)) /\
    (m' = m \/ m' = List.length l) /\ (m <= m')%nat.
Proof.
  intros Hk Ha Hm. pose proof (declare1_keys F a d) as Hkey.
  assert (Hlt : (k < List.length l)%nat) by (apply nth_error_Some; congruence).
  assert (Hup : forall f, update_object (part l m) k f = part (list_set l k (f a)) m).
  { intros f. unfold update_object, deref, part. cbn [objects refs]. rewrite Ha. reflexivity. }
  destruct d as [w1 w2 rvw w3|i args|w11 w12 w21 w22 w31 w32]; cbn [decl_on declare1] in *.
  - unfold windows_on. change (deref (part l m) k) with (nth_error l k). rewrite Ha.
    destruct (windows F a w1 w2 rvw w3) as [a' [e|]] eqn:Ew; cbn [fst snd] in *.
    { exists m. rewrite Hup. repeat split; [left; reflexivity|lia]. }
    rewrite Hup. cbv zeta. cbn beta.
    set (l1 := list_set l k (set_cyc1 a' (cyc1 a))).
    assert (Hl1 : List.length l1 = List.length l) by apply list_set_len.
    assert (Ha1 : nth_error l1 k = Some (set_cyc1 a' (cyc1 a))).
    { unfold l1. rewrite list_set_nth_error, Nat.eqb_refl. apply Nat.ltb_lt in Hlt. rewrite Hlt. reflexivity. }
    assert (Hk1 : keys_ok strict (map key l1)) by (unfold l1; rewrite (map_key_set l k a _ Ha); [exact Hk|exact Hkey]).
    rewrite (register_part strict l1 m k _ Hk1 Ha1) by lia.
    assert (Hfin : list_set l1 k (set_cyc1 (set_cyc1 a' (cyc1 a)) (cyc1 a')) = list_set l k a').
    { unfold l1. rewrite list_set_twice. destruct a'; reflexivity. }
    destruct (Nat.ltb_spec k m) as [Hkm|Hkm].
    + exists m. split; [|split; [left; reflexivity|lia]]. unfold update_object, deref, part. cbn [objects refs]. rewrite Ha1.
      cbn beta. rewrite Hfin. reflexivity.
    + exists (List.length l). split; [|split; [right; reflexivity|lia]].
      assert (k = m /\ List.length l = S m) as [-> Hlen] by lia.
      unfold update_object, deref, part. cbn [objects refs]. rewrite Ha1. cbn beta. rewrite Hfin, Hlen, seq_S. reflexivity.
  - assert (Hin : ((i =? 1) || (i =? 2) || (i =? 3)) = true \/ ((i =? 1) || (i =? 2) || (i =? 3)) = false) by (destruct ((i =? 1) || (i =? 2) || (i =? 3)); auto).
    unfold specific_cycle_num in *. destruct Hin as [Hin|Hin]; rewrite Hin.
    + unfold cycle_on. change (deref (part l m) k) with (nth_error l k). rewrite Ha.
      assert (i = 1 \/ i = 2 \/ i = 3) as [->|[->| ->]] by lia;
        rewrite ?Z.eqb_refl in *; cbn [Z.eqb Pos.eqb] in *;
        destruct (apply_cycle_args _ _) as [c e]; cbn [fst snd] in *;
        (exists m; rewrite Hup; repeat split; [left; reflexivity|lia]).
    + replace (i =? 1) with false by lia. replace (i =? 2) with false by lia. replace (i =? 3) with false by lia.
      exists m. cbn [fst snd]. rewrite list_set_id by exact Ha. repeat split; [left; reflexivity|lia].
  - exists m. rewrite Hup. repeat split; [left; reflexivity|lia].
Qed.

Lemma store_part l : store l = part l (List.length l).
Proof. reflexivity. Qed.

Lemma declare_app F a xs ys : declare F a (xs ++ ys) =
  match declare F a xs with (a', None) => declare F a' ys | r => r end.
Proof.
  revert a. induction xs as [|d xs IH]; intros a; cbn [app declare]; [reflexivity|].
  destruct (declare1 F a d) as [a' [e|]]; [reflexivity|apply IH].
Qed.

Lemma declare_keys F ds : forall a, key (fst (declare F a ds)) = key a.
Proof.
  induction ds as [|d ds IH]; intros a; cbn [declare]; [reflexivity|].
  pose proof (declare1_keys F a d) as H. destruct (declare1 F a d) as [a' [e|]]; [exact H|]. cbn [fst] in H. rewrite IH. exact H.
Qed.

(** declarations on the last object, not yet registered perhaps *)
Lemma own_step F strict l a m xs : keys_ok strict (map key (l ++ [a])) -> m = List.length l \/ m = S (List.length l) ->
  forall b e, declare F a xs = (b, e) ->
  exists m', (fix go g xs := match xs with [] => (g, None) | d :: xs' => match decl_on F strict g (List.length l) d with (g', None) => go g' xs' | r => r end end)
     (part (l ++ [a]) m) xs = (part (l ++ [b]) m', e) /\ (m' = List.length l \/ m' = S (List.length l)).
Proof.
  intros Hk Hm. revert a m Hk Hm. induction xs as [|d xs IH]; intros a m Hk Hm b e H; cbn [declare] in H.
  - injection H as <- <-. exists m. auto.
  - assert (Ha : nth_error (l ++ [a]) (List.length l) = Some a) by (rewrite nth_error_app2, Nat.sub_diag by lia; reflexivity).
    assert (Hm' : m = List.length (l ++ [a]) \/ List.length (l ++ [a]) = S m /\ List.length l = m) by (rewrite app_length; cbn; lia).
    destruct (decl_on_part F strict (l ++ [a]) m (List.length l) a d Hk Ha Hm') as (m' & Hd & Hm1 & Hm2).
    rewrite list_set_end in Hd. rewrite Hd. rewrite app_length in Hm1. cbn in Hm1.
    pose proof (declare1_keys F a d) as Hkey.
    destruct (declare1 F a d) as [a' [e'|]]; cbn [fst snd] in *.
    + injection H as <- <-. exists m'. split; [reflexivity|lia].
    + apply IH; [|lia|exact H]. rewrite map_app in *. cbn [map] in *. rewrite Hkey. exact Hk.
Qed.

Lemma add_step F strict nd l p pw wa c1 c2 c3 :
  keys_ok strict (map key l ++ [(name p, power_values nd pw)]) ->
  match new_appliance p pw nd with
  | Err e => add_appliance_kw F strict (store l) p pw nd wa c1 c2 c3 = (store l, Some e)
  | Ok a0 => match declare F a0 (own_calls wa c1 c2 c3) with
             | (b, None) => add_appliance_kw F strict (store l) p pw nd wa c1 c2 c3 = (store (l ++ [b]), None)
             | (b, Some e) => exists m, add_appliance_kw F strict (store l) p pw nd wa c1 c2 c3 = (part (l ++ [b]) m, Some e) /\
                                (m = List.length l \/ m = S (List.length l))
             end
  end.
Proof.
  intros Hk. unfold add_appliance_kw. destruct (new_appliance p pw nd) as [a0|e] eqn:E0; [|reflexivity].
  assert (Hkey : key a0 = (name p, power_values nd pw)).
  { destruct pw; cbn in E0; try discriminate; injection E0 as <-; try reflexivity. unfold key. cbn [par power power_values]. f_equal. unfold zlen. rewrite repeat_length. lia. }
  rewrite <- Hkey in Hk. assert (Hk' : keys_ok strict (map key (l ++ [a0]))) by (rewrite map_app; exact Hk).
  cbv zeta. change (objects (store l)) with l. change (refs (store l)) with (seq 0 (List.length l)).
  change (Registry (l ++ [a0]) (seq 0 (List.length l))) with (part (l ++ [a0]) (List.length l)).
  set (W := DWindows (wa1 wa) (wa2 wa) (match wa_rvw wa with Some x => x | None => 0%Q end) (wa3 wa)).
  assert (Hone : forall (use : bool) a m d, keys_ok strict (map key (l ++ [a])) -> m = List.length l \/ m = S (List.length l) ->
     exists m', (if use then decl_on F strict (part (l ++ [a]) m) (List.length l) d else (part (l ++ [a]) m, None)) =
       (part (l ++ [fst (declare F a (if use then [d] else []))]) m', snd (declare F a (if use then [d] else []))) /\
       (m' = List.length l \/ m' = S (List.length l)) /\ keys_ok strict (map key (l ++ [fst (declare F a (if use then [d] else []))]))).
  { intros use a m d Ka Hm. assert (Kb : keys_ok strict (map key (l ++ [fst (declare F a (if use then [d] else []))]))).
    { rewrite map_app in *. cbn [map] in *. rewrite declare_keys. exact Ka. }
    destruct use; [|exists m; cbn [declare fst snd]; auto].
    destruct (declare F a [d]) as [b e] eqn:Ed. destruct (own_step F strict l a m [d] Ka Hm b e Ed) as (m' & H & Hm').
    exists m'. cbn [fst snd] in *. destruct (decl_on F strict (part (l ++ [a]) m) (List.length l) d) as [g' [e'|]]; cbn beta iota in H; auto. }
  unfold own_calls. rewrite some_window_any, !some_cycle_any.
  (* windows *)
  destruct (Hone (any_window_arg wa) a0 (List.length l) W Hk' (or_introl eq_refl)) as (m1 & H1 & M1 & K1).
  unfold W in H1 at 1. cbn [decl_on] in H1. rewrite H1. clear H1. fold W.
  rewrite declare_app. destruct (declare F a0 (if any_window_arg wa then [W] else [])) as [a1 [e1|]] eqn:E1; cbn [fst snd] in *; [eauto|].
  (* cycle 1 *)
  destruct (Hone (any_cycle_arg c1) a1 m1 (DCycle 1 c1) K1 M1) as (m2 & H2 & M2 & K2).
  cbn [decl_on Z.eqb Pos.eqb orb] in H2. rewrite H2. clear H2.
  rewrite declare_app. destruct (declare F a1 (if any_cycle_arg c1 then [DCycle 1 c1] else [])) as [a2 [e2|]] eqn:E2; cbn [fst snd] in *; [eauto|].
  (* cycle 2 *)
  destruct (Hone (any_cycle_arg c2) a2 m2 (DCycle 2 c2) K2 M2) as (m3 & H3 & M3 & K3).
  cbn [decl_on Z.eqb Pos.eqb orb] in H3. rewrite H3. clear H3.
  rewrite declare_app. destruct (declare F a2 (if any_cycle_arg c2 then [DCycle 2 c2] else [])) as [a3 [e3|]] eqn:E3; cbn [fst snd] in *; [eauto|].
  (* cycle 3 *)
  destruct (Hone (any_cycle_arg c3) a3 m3 (DCycle 3 c3) K3 M3) as (m4 & H4 & M4 & K4).
  cbn [decl_on Z.eqb Pos.eqb orb] in H4. rewrite H4. clear H4.
  destruct (declare F a3 (if any_cycle_arg c3 then [DCycle 3 c3] else [])) as [a4 [e4|]] eqn:E4; cbn [fst snd] in *; [eauto|].
  (* registration *)
  rewrite (register_part strict (l ++ [a4]) m4 (List.length l) a4 K4).
  - rewrite store_part, app_length. cbn [List.length]. rewrite Nat.add_1_r.
    destruct M4 as [-> | ->].
    + rewrite Nat.ltb_irrefl. unfold part. rewrite seq_S. reflexivity.
    + replace (Nat.ltb (List.length l) (S (List.length l))) with true by (symmetry; apply Nat.ltb_lt; lia). reflexivity.
  - rewrite nth_error_app2, Nat.sub_diag by lia. reflexivity.
  - rewrite app_length. cbn. lia.
Qed.

Definition added_keys (nd : Z) (cs : list call) : list (string * Z) :=
  map (fun x => (name (fst (fst x)), power_values nd (snd (fst x)))) (added cs).


Definition is_decl (c : call) : Prop := match c with COn _ _ => True | _ => False end.

(** after a run from a store of [l]: the objects, each declared on its own *)
Lemma run_store F strict nd cs : forall l, keys_ok strict (map key l ++ added_keys nd cs) ->
  forall g', run_script F strict nd (store l) cs = (g', None) <->
  (scoped (List.length l) cs /\ exists old new, g' = store (old ++ new) /\
    List.length old = List.length l /\ List.length new = List.length (added cs) /\
    (forall k a, nth_error l k = Some a -> exists b, nth_error old k = Some b /\ declare F a (calls_on k cs) = (b, None)) /\
    (forall k x, nth_error (added cs) k = Some x ->
       exists b, nth_error new k = Some b /\ declared_alone F nd x (calls_on (List.length l + k) cs) b)).
Proof.
  induction cs as [|c cs IH]; intros l Hk g'; cbn [run_script].
  - split.
    + intros H. injection H as <-. split; [exact I|]. exists l, []. rewrite app_nil_r. repeat split.
      * intros k a Ha. exists a. split; [exact Ha|reflexivity].
      * intros [|k] x Hx; discriminate.
    + intros (_ & old & new & -> & Ho & Hn & Hold & _). destruct new; [|discriminate]. rewrite app_nil_r.
      assert (old = l); [|subst; reflexivity]. apply nth_error_ext. intros k.
      destruct (nth_error l k) as [a|] eqn:Ha.
      * destruct (Hold k a Ha) as (b & Hb & E). injection E as <-. exact Hb.
      * apply nth_error_None. apply nth_error_None in Ha. lia.
  - destruct c as [p pw wa c1 c2 c3|k d]; cbn [call_step added calls_on scoped] in *.
    + unfold added_keys in Hk. cbn [added map fst snd] in Hk.
      assert (Hk1 : keys_ok strict (map key l ++ [(name p, power_values nd pw)])).
      { apply (keys_app strict _ (added_keys nd cs)). rewrite <- app_assoc. exact Hk. }
      pose proof (add_step F strict nd l p pw wa c1 c2 c3 Hk1) as Hadd.
      assert (Hbad : forall (P : Prop) old new e, ~ (scoped (S (List.length l)) cs /\ False /\ P /\ old = new :> nat /\ e = e :> nat)) by tauto.
      clear Hbad.
      destruct (new_appliance p pw nd) as [a0|e] eqn:E0.
      * destruct (declare F a0 (own_calls wa c1 c2 c3)) as [b [e|]] eqn:Ed.
        -- destruct Hadd as (g & -> & _). split; [discriminate|].
           intros (_ & old & new & _ & _ & _ & _ & Hnew). destruct (Hnew 0%nat _ eq_refl) as (b' & _ & Hb).
           cbn [declared_alone] in Hb. destruct Hb as (a0' & E0' & Hb). rewrite E0 in E0'. injection E0' as <-.
           rewrite declare_app, Ed in Hb. discriminate.
        -- rewrite Hadd.
           assert (Hkey : key b = (name p, power_values nd pw)).
           { pose proof (declare_keys F (own_calls wa c1 c2 c3) a0) as K. rewrite Ed in K. cbn [fst] in K. rewrite K.
             destruct pw; cbn in E0; try discriminate; injection E0 as <-; try reflexivity.
             unfold key. cbn [par power power_values]. f_equal. unfold zlen. rewrite repeat_length. lia. }
           specialize (IH (l ++ [b])). rewrite map_app in IH. cbn [map] in IH. rewrite Hkey, <- app_assoc in IH. specialize (IH Hk g').
           rewrite IH, app_length. cbn [List.length]. rewrite Nat.add_1_r. clear IH Hadd.
           split; intros (Hs & old & new & -> & Ho & Hn & Hold & Hnew); (split; [exact Hs|]).
           ++ assert (exists o1 o2, old = o1 ++ [o2]) as (o1 & o2 & ->).
              { destruct (rev old) as [|x r] eqn:E; [apply (f_equal (@List.length _)) in E; rewrite rev_length in E; cbn in E; lia|].
                exists (rev r), x. rewrite <- (rev_involutive old), E. reflexivity. }
              rewrite app_length in Ho. cbn in Ho. exists o1, (o2 :: new). rewrite <- app_assoc. cbn [app].
              repeat split; [lia|cbn [List.length]; lia| |].
              ** intros k a Ha. assert (Hl : (k < List.length l)%nat) by (apply nth_error_Some; congruence).
                 destruct (Hold k a) as (y & Hy & E); [rewrite nth_error_app1 by lia; exact Ha|].
                 rewrite nth_error_app1 in Hy by lia. eauto.
              ** intros [|k] x Hx.
                 --- cbn in Hx. injection Hx as <-. exists o2. split; [reflexivity|]. cbn [declared_alone]. exists a0. split; [exact E0|].
                     rewrite Nat.add_0_r, declare_app, Ed.
                     destruct (Hold (List.length l) b) as (y & Hy & E); [rewrite nth_error_app2, Nat.sub_diag by lia; reflexivity|].
                     replace (List.length l) with (List.length o1) in Hy by lia.
                     rewrite nth_error_app2, Nat.sub_diag in Hy by lia. injection Hy as <-. exact E.
                 --- cbn [nth_error] in Hx |- *. destruct (Hnew k x Hx) as (y & Hy & E). exists y. split; [exact Hy|].
                     replace (List.length l + S k)%nat with (S (List.length l) + k)%nat by lia. exact E.
           ++ destruct new as [|y new]; [discriminate|]. cbn [List.length] in Hn.
              exists (old ++ [y]), new. rewrite <- app_assoc. split; [reflexivity|].
              split; [rewrite app_length; cbn; lia|]. split; [lia|]. split.
              ** intros k a Ha. destruct (Nat.ltb_spec k (List.length l)) as [Hl|Hl].
                 --- rewrite nth_error_app1 in Ha by lia. destruct (Hold k a Ha) as (z & Hz & E). exists z.
                     rewrite nth_error_app1 by lia. auto.
                 --- rewrite nth_error_app2 in Ha by lia. assert (k = List.length l).
                     { destruct (k - List.length l)%nat as [|[|j]] eqn:Ek; cbn in Ha; try discriminate; lia. }
                     subst k. rewrite Nat.sub_diag in Ha. injection Ha as <-.
                     destruct (Hnew 0%nat _ eq_refl) as (z & Hz & Hb). cbn in Hz. injection Hz as <-.
                     cbn [declared_alone] in Hb. destruct Hb as (a0' & E0' & Hb). rewrite E0 in E0'. injection E0' as <-.
                     rewrite Nat.add_0_r, declare_app, Ed in Hb. exists y. split; [|exact Hb].
                     rewrite <- Ho, nth_error_app2, Nat.sub_diag by lia. reflexivity.
              ** intros k x Hx. destruct (Hnew (S k) x Hx) as (z & Hz & E). exists z. split; [exact Hz|].
                 replace (S (List.length l) + k)%nat with (List.length l + S k)%nat by lia. exact E.
      * rewrite Hadd. split; [discriminate|].
        intros (_ & old & new & _ & _ & _ & _ & Hnew). destruct (Hnew 0%nat _ eq_refl) as (b' & _ & Hb).
        cbn [declared_alone] in Hb. destruct Hb as (a0' & E0' & _). congruence.
    + change (deref (store l) k) with (nth_error l k).
      change (added_keys nd (COn k d :: cs)) with (added_keys nd cs) in Hk.
      destruct (nth_error l k) as [a|] eqn:Ha.
      2:{ split; [discriminate|]. intros ((Hlt & _) & _). apply nth_error_None in Ha. lia. }
      assert (Hlt : (k < List.length l)%nat) by (apply nth_error_Some; congruence).
      destruct (decl_on_part F strict l (List.length l) k a d (keys_app _ _ _ Hk) Ha (or_introl eq_refl)) as (m' & Hd & Hm & _).
      assert (m' = List.length l) as -> by lia. rewrite store_part, Hd. clear Hd Hm.
      pose proof (declare1_keys F a d) as Hkey.
      destruct (declare1 F a d) as [a' [e|]] eqn:Ed; cbn [fst snd] in *.
      * split; [discriminate|]. intros (_ & old & new & _ & _ & _ & Hold & _).
        destruct (Hold k a Ha) as (b & _ & E). rewrite Nat.eqb_refl in E. cbn [declare] in E. rewrite Ed in E. discriminate.
      * specialize (IH (list_set l k a')). rewrite (map_key_set l k a a' Ha Hkey) in IH. specialize (IH Hk g').
        rewrite store_part, list_set_len in IH. rewrite IH. clear IH.
        split; [intros (Hs & H)|intros ((_ & Hs) & H)]; destruct H as (old & new & -> & Ho & Hn & Hold & Hnew).
        -- split; [split; [exact Hlt|exact Hs]|]. exists old, new. split; [reflexivity|]. split; [exact Ho|]. split; [exact Hn|]. split.
           ++ intros j x Hx. destruct (Nat.eqb k j) eqn:E.
              ** apply Nat.eqb_eq in E. subst j. rewrite Ha in Hx. injection Hx as <-. cbn [declare]. rewrite Ed. apply Hold.
                 rewrite list_set_nth_error, Nat.eqb_refl. apply Nat.ltb_lt in Hlt. rewrite Hlt. reflexivity.
              ** apply Hold. rewrite list_set_nth_error, Nat.eqb_sym, E. exact Hx.
           ++ intros j x Hx. replace (Nat.eqb k (List.length l + j)) with false by (symmetry; apply Nat.eqb_neq; lia). exact (Hnew j x Hx).
        -- split; [exact Hs|]. exists old, new. split; [reflexivity|]. split; [exact Ho|]. split; [exact Hn|]. split.
           ++ intros j x Hx. rewrite list_set_nth_error in Hx. destruct (Nat.eqb j k) eqn:E.
              ** apply Nat.eqb_eq in E. subst j. destruct (Nat.ltb k (List.length l)); [|discriminate]. injection Hx as <-.
                 destruct (Hold k a Ha) as (b & Hb & Eb). rewrite Nat.eqb_refl in Eb. cbn [declare] in Eb. rewrite Ed in Eb. eauto.
              ** destruct (Hold j x Hx) as (b & Hb & Eb). rewrite Nat.eqb_sym, E in Eb. eauto.
           ++ intros j x Hx. destruct (Hnew j x Hx) as (b & Hb & Eb). exists b. split; [exact Hb|].
              replace (Nat.eqb k (List.length l + j)) with false in Eb by (symmetry; apply Nat.eqb_neq; lia). exact Eb.
Qed.

(** C68: a program that declares a user, with the calls in any order, ends without exception exactly when every appliance
    on its own accepts its declaration calls in their order; the user then holds every appliance once, in the order of the
    add_appliance calls, each one as if it had been declared alone. *)
Theorem C68_declarations F strict nd cs g' : names_differ cs -> powers_agree strict nd cs ->
  run_script F strict nd (Registry [] []) cs = (g', None) <->
  (scoped 0 cs /\ List.length (registered g') = List.length (added cs) /\ g' = store (registered g') /\
   forall k x, nth_error (added cs) k = Some x ->
     exists a, nth_error (registered g') k = Some a /\ declared_alone F nd x (calls_on k cs) a).
Proof.
  intros [N1 N2] Hp.
  assert (Hk : keys_ok strict (map key [] ++ added_keys nd cs)).
  { cbn [map app]. unfold added_keys. split; [rewrite map_map; exact N1|]. split; [apply Forall_map; exact N2|].
    destruct Hp as [(n & Hp)|(-> & Hp)]; [left; exists n|right; split; [reflexivity|]]; apply Forall_map; exact Hp. }
  assert (Hreg : forall l, registered (store l) = l).
  { intros l. unfold registered, store, deref. cbn [refs objects].
    enough (G : forall l2 l1, flat_map (fun r => match nth_error (l1 ++ l2) r with Some a => [a] | None => [] end) (seq (List.length l1) (List.length l2)) = l2) by exact (G l []).
    clear. induction l2 as [|x l2 IH]; intros l1; [reflexivity|]. cbn [List.length seq flat_map].
    rewrite nth_error_app2, Nat.sub_diag by lia. cbn [nth_error app]. f_equal.
    specialize (IH (l1 ++ [x])). rewrite <- app_assoc in IH. cbn [app] in IH. rewrite app_length in IH. cbn in IH.
    rewrite Nat.add_1_r in IH. exact IH. }
  change (Registry [] []) with (store []). rewrite (run_store F strict nd cs [] Hk g'). cbn [List.length Nat.add].
  split.
  - intros (Hs & old & new & -> & Ho & Hn & _ & Hnew). destruct old; [|discriminate]. cbn [app]. rewrite Hreg. auto.
  - intros (Hs & Hl & Hg & H). split; [exact Hs|]. exists [], (registered g'). cbn [app List.length].
    repeat split; [exact Hg|exact Hl|intros [|k] a E; discriminate|exact H].
Qed.

(** a concrete program: two appliances, the calls on them interleaved; the fridge is given its windows by add_appliance *)
Definition tv : params := Params "tv" 1 1 60 (1 # 10) 5 "no" 0 1 1 "no" 0 0 2.
Definition fridge : params := Params "fridge" 1 1 1440 0 30 "yes" 2 1 1 "no" 0 0 2.
Definition kitchen : list call :=
  [CAdd tv (PConst 60) no_windows no_cycle no_cycle no_cycle;
   CAdd fridge (PConst 200) (WindowArgs (Some (0, 1440)) None None None) no_cycle (cyc_args 150 15 5 15) no_cycle;
   COn 1 (DBehaviour (Some (480, 1200)) None (Some (300, 479)) None None None);
   COn 0 (DWindows (Some (1170, 1440)) None (35 # 100) None);
   COn 1 (DCycle 1 (cyc_args 200 20 5 10))].

Example C68_case : names_differ kitchen /\ powers_agree true 2 kitchen /\
  exists g, run_script exact_fm true 2 (Registry [] []) kitchen = (g, None) /\
    map (fun a => (name (par a), window_1 (win a), cwa (cyc1 a), ct1 (cyc2 a))) (registered g) =
    [("tv"%string, (1170, 1440), (0, 0), 0); ("fridge"%string, (0, 1440), (480, 1200), 15)].
Proof.
  split; [split; [repeat constructor; cbn; intuition discriminate|repeat constructor; discriminate]|].
  split; [left; exists 3; repeat constructor|].
  assert (E : match run_script exact_fm true 2 (Registry [] []) kitchen with
    | (g, None) => map (fun a => (name (par a), window_1 (win a), cwa (cyc1 a), ct1 (cyc2 a))) (registered g) =
       [("tv"%string, (1170, 1440), (0, 0), 0); ("fridge"%string, (0, 1440), (480, 1200), 15)]
    | _ => False end) by (vm_compute; reflexivity).
  destruct (run_script exact_fm true 2 (Registry [] []) kitchen) as [g [e|]]; [contradiction|]. exists g. auto.
Qed.

(** a program that ends with exception [e]: everything declared before the failing statement stays ([l]: the appliances
    then); the failing call leaves what it had changed of its own appliance before it raised. *)
Definition stopped (F : fm) (nd : Z) (l : list appliance) (c : call) (e : exc) (left : list appliance) : Prop :=
  match c with
  | COn k d =>
      match nth_error l k with
      | None => left = l /\ e = TypeError          (* the variable does not exist: NameError *)
      | Some a => exists a', declare1 F a d = (a', Some e) /\
          List.length left = List.length l /\
          forall j, nth_error left j = if Nat.eqb j k then Some a' else nth_error l j
      end
  | CAdd p pw wa c1 c2 c3 =>
      match new_appliance p pw nd with
      | Err e' => left = l /\ e = e'
      | Ok a0 => exists b, declare F a0 (own_calls wa c1 c2 c3) = (b, Some e) /\ (left = l \/ left = l ++ [b])
      end
  end.

Lemma run_stop F strict nd cs : forall g g' e, run_script F strict nd g cs = (g', Some e) ->
  exists cs1 c cs2 g1, cs = cs1 ++ c :: cs2 /\ run_script F strict nd g cs1 = (g1, None) /\ call_step F strict nd g1 c = (g', Some e).
Proof.
  induction cs as [|c cs IH]; intros g g' e H; cbn [run_script] in H; [discriminate|].
  destruct (call_step F strict nd g c) as [g1 [e1|]] eqn:E.
  - injection H as <- <-. exists [], c, cs, g. cbn [app run_script]. auto.
  - destruct (IH g1 g' e H) as (cs1 & c' & cs2 & g2 & -> & H1 & H2). exists (c :: cs1), c', cs2, g2.
    cbn [app run_script]. rewrite E. auto.
Qed.

Lemma added_app cs1 cs2 : added (cs1 ++ cs2) = added cs1 ++ added cs2.
Proof. induction cs1 as [|[]]; cbn [app added]; [reflexivity|f_equal|]; assumption. Qed.

Lemma registered_store l : registered (store l) = l.
Proof.
  unfold registered, store, deref. cbn [refs objects].
  enough (G : forall l2 l1, flat_map (fun r => match nth_error (l1 ++ l2) r with Some a => [a] | None => [] end) (seq (List.length l1) (List.length l2)) = l2) by exact (G l []).
  clear. induction l2 as [|x l2 IH]; intros l1; [reflexivity|]. cbn [List.length seq flat_map].
  rewrite nth_error_app2, Nat.sub_diag by lia. cbn [nth_error app]. f_equal.
  specialize (IH (l1 ++ [x])). rewrite <- app_assoc in IH. cbn [app] in IH. rewrite app_length in IH. cbn in IH.
  rewrite Nat.add_1_r in IH. exact IH.
Qed.

Lemma registered_part l b : registered (part (l ++ [b]) (List.length l)) = l.
Proof.
  rewrite <- (registered_store l) at 3. unfold registered, store, part, deref. cbn [refs objects].
  assert (G : forall rs, Forall (fun r => (r < List.length l)%nat) rs ->
    flat_map (fun r => match nth_error (l ++ [b]) r with Some a => [a] | None => [] end) rs =
    flat_map (fun r => match nth_error l r with Some a => [a] | None => [] end) rs).
  { induction 1 as [|r rs Hr _ IH]; cbn [flat_map]; [reflexivity|]. rewrite nth_error_app1 by exact Hr. f_equal. exact IH. }
  apply G. apply Forall_forall. intros r Hr. apply in_seq in Hr. lia.
Qed.

Lemma new_key p pw nd a0 : new_appliance p pw nd = Ok a0 -> key a0 = (name p, power_values nd pw).
Proof.
  intros E0. destruct pw; cbn in E0; try discriminate; injection E0 as <-; try reflexivity.
  unfold key. cbn [par power power_values]. f_equal. unfold zlen. rewrite repeat_length. lia.
Qed.

(** C68: when the program raises, it stopped at one of its statements: the ones before it had their effect (as
    C68_declarations describes it) and it is kept; of the failing call the appliance it was made on may be half-changed, and
    no other appliance is. *)
Theorem C68_exception F strict nd cs g' e : names_differ cs -> powers_agree strict nd cs ->
  run_script F strict nd (Registry [] []) cs = (g', Some e) ->
  exists before c after g, cs = before ++ c :: after /\
    run_script F strict nd (Registry [] []) before = (g, None) /\
    List.length (registered g) = List.length (added before) /\
    (forall k x, nth_error (added before) k = Some x ->
       exists a, nth_error (registered g) k = Some a /\ declared_alone F nd x (calls_on k before) a) /\
    stopped F nd (registered g) c e (registered g').
Proof.
  intros [N1 N2] Hp H. destruct (run_stop F strict nd cs _ _ _ H) as (cs1 & c & cs2 & g & -> & H1 & H2).
  exists cs1, c, cs2, g. split; [reflexivity|]. split; [exact H1|].
  assert (Hk : keys_ok strict (added_keys nd (cs1 ++ c :: cs2))).
  { unfold added_keys. split; [rewrite map_map; exact N1|]. split; [apply Forall_map; exact N2|].
    destruct Hp as [(n & Hp)|(-> & Hp)]; [left; exists n|right; split; [reflexivity|]]; apply Forall_map; exact Hp. }
  unfold added_keys in Hk. rewrite added_app, map_app in Hk.
  change (Registry [] []) with (store []) in H1. apply (run_store F strict nd cs1 [] (keys_app _ _ _ Hk) g) in H1.
  cbn [List.length Nat.add] in H1. destruct H1 as (_ & old & new & -> & Ho & Hn & _ & Hnew). destruct old; [|discriminate].
  cbn [app] in *. rewrite registered_store. split; [exact Hn|]. split; [exact Hnew|].
  assert (Hkeys : map key new = map (fun x => (name (fst (fst x)), power_values nd (snd (fst x)))) (added cs1)).
  { clear - Hn Hnew. revert new Hn Hnew. generalize 0%nat as i.
    enough (G : forall i xs new, List.length new = List.length xs ->
      (forall k x, nth_error xs k = Some x -> exists b, nth_error new k = Some b /\ declared_alone F nd x (calls_on (i + k) cs1) b) ->
      map key new = map (fun x => (name (fst (fst x)), power_values nd (snd (fst x)))) xs).
    { intros _ new Hn Hnew. exact (G 0%nat (added cs1) new Hn Hnew). }
    intros i xs. revert i. induction xs as [|x xs IH]; intros i [|b new] Hn Hnew; try discriminate; [reflexivity|].
    cbn [map]. f_equal.
    - destruct (Hnew 0%nat x eq_refl) as (b' & Hb & Hd). injection Hb as <-. destruct x as [[p pw] own]. cbn [declared_alone fst snd] in *.
      destruct Hd as (a0 & E0 & Hd). rewrite <- (new_key _ _ _ _ E0). pose proof (declare_keys F (own ++ calls_on (i + 0) cs1) a0) as K.
      rewrite Hd in K. exact K.
    - apply (IH (S i)); [cbn in Hn; lia|]. intros k y Hy. destruct (Hnew (S k) y Hy) as (z & Hz & E). exists z. split; [exact Hz|].
      replace (S i + k)%nat with (i + S k)%nat by lia. exact E. }
  rewrite <- Hkeys in Hk. clear Hkeys H.
  destruct c as [p pw wa c1 c2 c3|k d]; cbn [call_step stopped added map fst snd] in *.
  - change ((name p, power_values nd pw) :: ?l) with ([(name p, power_values nd pw)] ++ l) in Hk. rewrite app_assoc in Hk.
    pose proof (add_step F strict nd new p pw wa c1 c2 c3 (keys_app _ _ _ Hk)) as Hadd.
    destruct (new_appliance p pw nd) as [a0|e0] eqn:E0.
    + destruct (declare F a0 (own_calls wa c1 c2 c3)) as [b [e1|]] eqn:Ed.
      * destruct Hadd as (m & Hadd & Hm). rewrite Hadd in H2. injection H2 as <- <-. exists b. split; [reflexivity|].
        destruct Hm as [-> | ->]; [left; apply registered_part|right].
        transitivity (registered (store (new ++ [b]))); [|apply registered_store]. unfold store, part. rewrite app_length, Nat.add_comm. reflexivity.
      * rewrite Hadd in H2. discriminate.
    + rewrite Hadd in H2. injection H2 as <- <-. rewrite registered_store. auto.
  - change (deref (store new) k) with (nth_error new k) in H2. destruct (nth_error new k) as [a|] eqn:Ha.
    + destruct (decl_on_part F strict new (List.length new) k a d (keys_app _ _ _ Hk) Ha (or_introl eq_refl)) as (m' & Hd & Hm & _).
      assert (m' = List.length new) as -> by lia. rewrite store_part, Hd in H2. injection H2 as <- H2.
      destruct (declare1 F a d) as [a' e'] eqn:Ed. cbn [fst snd] in *. subst e'. exists a'. split; [reflexivity|].
      replace (part (list_set new k a') (List.length new)) with (store (list_set new k a')) by (rewrite store_part, list_set_len; reflexivity).
      rewrite registered_store, list_set_len. split; [reflexivity|]. intros j. rewrite list_set_nth_error.
      destruct (Nat.eqb j k); [|reflexivity].
      assert (Hlt : (k < List.length new)%nat) by (apply nth_error_Some; congruence). apply Nat.ltb_lt in Hlt. rewrite Hlt. reflexivity.
    + injection H2 as <- <-. rewrite registered_store. auto.
Qed.

(** a program that stops half-way: the second call of windows() on the tv gives 30 minutes for 60 minutes of use; the tv
    stays with that window, the fridge is untouched *)
Definition kitchen_wrong : list call := kitchen ++ [COn 0 (DWindows (Some (0, 30)) None 0 None); COn 1 (DCycle 1 (cyc_args 100 20 5 10))].
Example C68_exception_case : names_differ kitchen_wrong /\ powers_agree true 2 kitchen_wrong /\
  exists g, run_script exact_fm true 2 (Registry [] []) kitchen_wrong = (g, Some InvalidWindow) /\
    map (fun a => (name (par a), window_1 (win a), cp1 (cyc1 a))) (registered g) =
    [("tv"%string, (0, 30), 0%Q); ("fridge"%string, (0, 1440), 200%Q)].
Proof.
  split; [split; [repeat constructor; cbn; intuition discriminate|repeat constructor; discriminate]|].
  split; [left; exists 3; repeat constructor|].
  assert (E : match run_script exact_fm true 2 (Registry [] []) kitchen_wrong with
    | (g, Some InvalidWindow) => map (fun a => (name (par a), window_1 (win a), cp1 (cyc1 a))) (registered g) =
       [("tv"%string, (0, 30), 0%Q); ("fridge"%string, (0, 1440), 200%Q)]
    | _ => False end) by (vm_compute; reflexivity).
  destruct (run_script exact_fm true 2 (Registry [] []) kitchen_wrong) as [g [[]|]]; try contradiction. exists g. auto.
Qed.
