(** * PropsReg: theorems for C05, C35, C37, C38, C39 *)
From Verif Require Import Base Wp Tape Utils ListLemmas Appliance Attributes User Spec SpecDay SpecUser Sim
  ProofsUtils ProofsAppliance ProofsUser ProofsUser2 ProofsEq PropsBasic PropsDay PropsDayCases PropsUser.
From Coq Require Import ZifyBool ZifyNat.
Open Scope Z_scope.

(** ** C38: equality of appliances *)

(** [attributes_equal] (ProofsEq.v): every attribute listed in APPLIANCE_ATTRIBUTES has the same
    value.  Holds when the two power series have the same length (the normal case: 366 values,
    or the series of one use case), or with numpy < 1.25 when none has exactly one value. *)
Theorem C38_equality_partial strict a b :
  zlen (power a) = zlen (power b) \/ (strict = false /\ zlen (power a) <> 1 /\ zlen (power b) <> 1) ->
  (exists e, app_eq strict a b = Ok e) /\ (app_eq strict a b = Ok true <-> attributes_equal a b).
Proof. exact (app_eq_comparable strict a b). Qed.

Theorem C38_reflexive strict a : app_eq strict a a = Ok true.
Proof. apply C38_equality_partial; [left; reflexivity|apply attributes_equal_refl]. Qed.

Theorem C38_symmetric strict a b : app_eq strict a b = app_eq strict b a.
Proof. exact (app_eq_sym strict a b). Qed.

Theorem C38_transitive_partial strict a b c :
  zlen (power a) = zlen (power b) -> zlen (power b) = zlen (power c) ->
  app_eq strict a b = Ok true -> app_eq strict b c = Ok true -> app_eq strict a c = Ok true.
Proof.
  intros L1 L2 H1 H2. apply C38_equality_partial; [left; congruence|].
  apply attributes_equal_trans with b.
  - apply (proj2 (C38_equality_partial strict a b (or_introl L1))). exact H1.
  - apply (proj2 (C38_equality_partial strict b c (or_introl L2))). exact H2.
Qed.

(** the limits: a series of one value is broadcast, so it equals series of any length with that
    value; equality is then not transitive and other lengths raise with a recent numpy *)
Definition with_power (p : list Q) : appliance := set_power lamp p.

Theorem C38_broadcast_refuted :
  exists a b c : appliance,
    app_eq false a b = Ok true /\ ~ attributes_equal a b /\
    app_eq false b c = Ok true /\ app_eq false a c = Ok false /\ app_eq true a c = Err ValueError.
Proof.
  exists (with_power [50%Q; 50%Q]), (with_power [50%Q]), (with_power [50%Q; 50%Q; 50%Q]).
  split; [reflexivity|]. split.
  - intros H. destruct (H "power"%string) as (v & w & Hv & Hw & S); [cbn; tauto|].
    cbn in Hv, Hw. injection Hv as <-. injection Hw as <-. cbn in S. inversion S as [|? ? ? ? _ S']; subst. inversion S'.
  - split; [reflexivity|]. split; reflexivity.
Qed.

Example C38_case : app_eq true lamp lamp = Ok true /\ app_eq true lamp special = Ok false /\
  zlen (power lamp) = zlen (power special).
Proof. repeat split; reflexivity. Qed.

(** ** C39: equality of users *)

Definition users_agree (u v : user) : Prop :=
  user_name u = user_name v /\ num_users u = num_users v /\ user_preference u = user_preference v /\
  Forall2 attributes_equal (app_list u) (app_list v).

(** users that agree compare equal ... *)
Theorem C39_agreeing_users_partial strict u v : users_agree u v -> user_eq strict u v = Ok true.
Proof. reflexivity. Qed.

(** ... but so do all others *)
Theorem C39_user_equality_refuted :
  (forall strict u v, user_eq strict u v = Ok true) /\
  exists u v, user_eq true u v = Ok true /\ ~ users_agree u v /\
    user_name u <> user_name v /\ num_users u <> num_users v.
Proof.
  split; [reflexivity|]. exists household, (new_user "hospital" 1 0). split; [reflexivity|].
  split; [intros (H & _); discriminate|]. split; discriminate.
Qed.

(** ** C37: registration *)

Lemma register_spec strict g r g' : register strict g r = Ok g' ->
  exists a, deref g r = Some a /\
  ((g' = g /\ exists r', In r' (refs g) /\ (r' = r \/ exists x, deref g r' = Some x /\ app_eq strict x a = Ok true)) \/
   (refs g' = refs g ++ [r] /\
    (forall r', In r' (refs g) -> r' <> r /\ exists x, deref g r' = Some x /\ app_eq strict x a = Ok false) /\
    deref g' r = Some (if String.eqb (name (par a)) "" then set_name a (auto_name (S (List.length (refs g)))) else a) /\
    (forall s, s <> r -> deref g' s = deref g s) /\ List.length (objects g') = List.length (objects g))).
Proof.
  unfold register. destruct (deref g r) as [a|] eqn:D; [|discriminate]. intros H. exists a. split; [reflexivity|].
  destruct (User.member strict g a r (refs g)) as [found|] eqn:M; cbn [rbind] in H; [|discriminate].
  apply member_spec in M. destruct found.
  - injection H as <-. left. split; [reflexivity|exact M].
  - injection H as <-. right. cbn [refs objects]. split; [reflexivity|]. split; [exact M|].
    pose proof (deref_lt _ _ _ D) as Hlt. split; [|split].
    + unfold deref. cbn [objects]. rewrite list_set_nth_error, Nat.eqb_refl. apply Nat.ltb_lt in Hlt. rewrite Hlt. reflexivity.
    + intros s Hs. unfold deref. cbn [objects]. rewrite list_set_nth_error. apply Nat.eqb_neq in Hs. rewrite Hs. reflexivity.
    + apply list_set_length.
Qed.

(** add_appliance(app): an appliance that is stored already (the same object or an equal
    one) changes nothing; any other is appended at the end, keeps its attributes, and gets the name
    appliance_k, k its position counted from 1, if it has none *)
Theorem C37_register strict g r g' a :
  deref g r = Some a -> register strict g r = Ok g' ->
  ((exists r', In r' (refs g) /\ (r' = r \/ exists x, deref g r' = Some x /\ app_eq strict x a = Ok true)) /\ g' = g) \/
  ((forall r', In r' (refs g) -> r' <> r /\ exists x, deref g r' = Some x /\ app_eq strict x a = Ok false) /\
   refs g' = refs g ++ [r] /\
   (name (par a) <> ""%string -> deref g' r = Some a) /\
   (name (par a) = ""%string ->
      deref g' r = Some (set_name a ("appliance_" ++ py_str_nat (List.length (refs g')))%string)) /\
   (forall s, s <> r -> deref g' s = deref g s)).
Proof.
  intros D H. destruct (register_spec _ _ _ _ H) as (a' & D' & G). rewrite D in D'. injection D' as <-.
  destruct G as [(-> & G)|(G1 & G2 & G3 & G4 & _)]; [left; auto|]. right.
  split; [exact G2|]. split; [exact G1|]. split; [|split; [|exact G4]].
  - intros Hn. apply String.eqb_neq in Hn. rewrite Hn in G3. exact G3.
  - intros Hn. apply String.eqb_eq in Hn. rewrite Hn in G3. rewrite G3, G1, app_length. cbn [List.length].
    rewrite Nat.add_1_r. reflexivity.
Qed.

(** order: the stored references are the old ones followed by a sublist of the arguments in
    their order; nothing stored is ever removed *)
Inductive sublist {A} : list A -> list A -> Prop :=
| sub_nil : sublist [] []
| sub_keep x l l' : sublist l l' -> sublist (x :: l) (x :: l')
| sub_drop x l l' : sublist l l' -> sublist l (x :: l').

Theorem C37_order strict rs : forall g g', register_all strict g rs = Ok g' ->
  exists new, refs g' = refs g ++ new /\ sublist new rs.
Proof.
  induction rs as [|r rs IH]; intros g g' H; cbn [register_all] in H.
  - injection H as <-. exists []. split; [rewrite app_nil_r; reflexivity|constructor].
  - destruct (register strict g r) as [g1|] eqn:E; cbn [rbind] in H; [|discriminate].
    destruct (IH _ _ H) as (new & Hr & Hs).
    destruct (register_spec _ _ _ _ E) as (a & _ & [(-> & _)|(G1 & _)]).
    + exists new. split; [exact Hr|]. constructor. exact Hs.
    + exists (r :: new). split; [rewrite Hr, G1, <- app_assoc; reflexivity|]. constructor. exact Hs.
Qed.

Lemma register_keeps strict g r g' s x : register strict g r = Ok g' -> In s (refs g) -> deref g s = Some x ->
  In s (refs g') /\ deref g' s = Some x.
Proof.
  intros H Hs Hx. destruct (register_spec _ _ _ _ H) as (a & _ & [(-> & _)|(G1 & G2 & _ & G4 & _)]); [auto|].
  rewrite G1. split; [apply in_or_app; auto|]. rewrite G4; [exact Hx|]. apply G2. exact Hs.
Qed.
Lemma register_all_keeps strict rs : forall g g' s x, register_all strict g rs = Ok g' -> In s (refs g) ->
  deref g s = Some x -> In s (refs g') /\ deref g' s = Some x.
Proof.
  induction rs as [|r rs IH]; intros g g' s x H Hs Hx; cbn [register_all] in H; [injection H as <-; auto|].
  destruct (register strict g r) as [g1|] eqn:E; cbn [rbind] in H; [|discriminate].
  destruct (register_keeps _ _ _ _ _ _ E Hs Hx) as [K1 K2]. eapply IH; eassumption.
Qed.

(** completeness: every argument is stored, unless an appliance equal to it is *)
Theorem C37_nothing_dropped strict rs : forall g g' r a,
  NoDup rs -> register_all strict g rs = Ok g' -> In r rs -> deref g r = Some a ->
  In r (refs g') \/ exists s x, In s (refs g') /\ deref g' s = Some x /\ app_eq strict x a = Ok true.
Proof.
  induction rs as [|r0 rs IH]; intros g g' r a Hnd H Hr Ha; [destruct Hr|]. cbn [register_all] in H.
  destruct (register strict g r0) as [g1|] eqn:E; cbn [rbind] in H; [|discriminate].
  inversion Hnd as [|? ? Hni Hnd']; subst.
  destruct (register_spec _ _ _ _ E) as (a0 & D0 & G).
  destruct Hr as [->|Hr].
  - rewrite Ha in D0. injection D0 as <-.
    destruct G as [(-> & s & Hs & [->|(x & Hx & Q)])|(G1 & _ & G3 & _)].
    + destruct (register_all_keeps _ _ _ _ _ _ H Hs Ha). auto.
    + right. destruct (register_all_keeps _ _ _ _ _ _ H Hs Hx). eauto.
    + left. refine (proj1 (register_all_keeps _ _ _ _ _ _ H _ G3)). rewrite G1. apply in_or_app. right. left. reflexivity.
  - apply (IH g1 g' r a Hnd' H Hr). destruct G as [(-> & _)|(_ & _ & _ & G4 & _)]; [exact Ha|].
    rewrite G4; [exact Ha|]. intros ->. contradiction.
Qed.

(** never two equal appliances, provided no appliance was given a name of the automatic form
    appliance_k by hand *)
Definition distinct_stored (strict : bool) (g : registry) : Prop :=
  forall i j r s x y, (i < j)%nat -> nth_error (refs g) i = Some r -> nth_error (refs g) j = Some s ->
    deref g r = Some x -> deref g s = Some y -> r <> s /\ app_eq strict x y <> Ok true.
Definition no_auto_name (a : appliance) : Prop := forall k, name (par a) <> ("appliance_" ++ py_str_nat k)%string.

Definition reg_inv (strict : bool) (g : registry) : Prop :=
  distinct_stored strict g /\
  forall k r x, nth_error (refs g) k = Some r -> deref g r = Some x ->
    no_auto_name x \/ name (par x) = auto_name (S k).

Lemma register_inv strict g r g' a : deref g r = Some a -> no_auto_name a \/ In r (refs g) ->
  reg_inv strict g -> register strict g r = Ok g' -> reg_inv strict g'.
Proof.
  intros D Hna [HD HN] H. destruct (register_spec _ _ _ _ H) as (a' & D' & G). rewrite D in D'. injection D' as <-.
  destruct G as [(-> & _)|(G1 & G2 & G3 & G4 & _)]; [split; assumption|].
  assert (Hnew : no_auto_name a). { destruct Hna as [Hna|Hin]; [exact Hna|]. destruct (G2 r Hin) as [C _]. contradiction. }
  set (n := List.length (refs g)) in *.
  assert (Hold : forall k s, nth_error (refs g') k = Some s -> (k < n)%nat -> nth_error (refs g) k = Some s /\ s <> r).
  { intros k s Hs Hk. rewrite G1, nth_error_app1 in Hs by exact Hk. split; [exact Hs|].
    apply G2. exact (nth_error_In _ _ Hs). }
  assert (Hlast : forall k s, nth_error (refs g') k = Some s -> ~ (k < n)%nat -> k = n /\ s = r).
  { intros k s Hs Hk. rewrite G1, nth_error_app2 in Hs by lia. fold n in Hs.
    destruct (k - n)%nat as [|m] eqn:Em; [|destruct m; discriminate]. injection Hs as <-. split; [lia|reflexivity]. }
  split.
  - intros i j p q x y Hij Hi Hj Hx Hy.
    destruct (lt_dec j n) as [Lj|Lj].
    + destruct (Hold _ _ Hj Lj) as [Oj Nj]. destruct (Hold _ _ Hi ltac:(lia)) as [Oi Ni].
      rewrite G4 in Hx, Hy by assumption. exact (HD i j p q x y Hij Oi Oj Hx Hy).
    + destruct (Hlast _ _ Hj Lj) as [-> ->].
      destruct (lt_dec i n) as [Li|Li]; [|destruct (Hlast _ _ Hi Li); lia].
      destruct (Hold _ _ Hi Li) as [Oi Ni]. split; [exact Ni|]. rewrite G4 in Hx by assumption.
      rewrite G3 in Hy. injection Hy as <-.
      destruct (G2 p (nth_error_In _ _ Oi)) as (_ & x' & Dx & Ex). rewrite Hx in Dx. injection Dx as <-.
      destruct (String.eqb (name (par a)) "") eqn:En; [|congruence].
      intros Heq. apply app_eq_names in Heq. cbn [set_name set_par par name] in Heq.
      destruct (HN i p x Oi Hx) as [Hno|Hau].
      * exact (Hno _ Heq).
      * rewrite Hau in Heq. apply auto_name_inj in Heq. lia.
  - intros k s x Hk Hx. destruct (lt_dec k n) as [L|L].
    + destruct (Hold _ _ Hk L) as [O N]. rewrite G4 in Hx by assumption. eapply HN; eassumption.
    + destruct (Hlast _ _ Hk L) as [-> ->]. rewrite G3 in Hx. injection Hx as <-.
      destruct (String.eqb (name (par a)) ""); [right; reflexivity|left; exact Hnew].
Qed.

Lemma register_others strict g r g' s : register strict g r = Ok g' -> s <> r -> deref g' s = deref g s.
Proof. intros H Hs. destruct (register_spec _ _ _ _ H) as (a & _ & [(-> & _)|(_ & _ & _ & G4 & _)]); auto. Qed.

Theorem C37_no_duplicates_partial strict rs g g' :
  refs g = [] -> (forall r, In r rs -> exists a, deref g r = Some a /\ no_auto_name a) ->
  register_all strict g rs = Ok g' -> distinct_stored strict g'.
Proof.
  intros H0 Hn H.
  assert (I0 : reg_inv strict g).
  { split.
    - intros i j r s x y _ Hi. rewrite H0 in Hi. destruct i; discriminate.
    - intros k r x Hk. rewrite H0 in Hk. destruct k; discriminate. }
  assert (K : forall r, In r rs -> exists a, deref g r = Some a /\ (no_auto_name a \/ In r (refs g))).
  { intros r Hr. destruct (Hn r Hr) as (a & Ha & Hb). eauto. }
  clear H0 Hn. revert g I0 K H. induction rs as [|r rs IH]; intros g I0 K H; cbn [register_all] in H.
  - injection H as <-. apply I0.
  - destruct (register strict g r) as [g1|] eqn:E; cbn [rbind] in H; [|discriminate].
    destruct (K r) as (a & Ha & Hb); [left; reflexivity|].
    apply (IH g1); [eapply register_inv; eassumption| |exact H].
    intros s Hs. destruct (K s) as (b & Hb1 & Hb2); [right; exact Hs|].
    destruct (Nat.eq_dec s r) as [->|Hsr].
    + (* the same object again: it is stored now, unless it was left out as equal to another *)
      destruct (register_spec _ _ _ _ E) as (a' & Da & [(-> & _)|(G1 & _ & G3 & _)]); [eauto|].
      eexists. split; [exact G3|]. right. rewrite G1. apply in_or_app. right. left. reflexivity.
    + exists b. rewrite (register_others _ _ _ _ _ E Hsr). split; [exact Hb1|].
      destruct Hb2 as [Hb2|Hb2]; [left; exact Hb2|]. right.
      exact (proj1 (register_keeps _ _ _ _ _ _ E Hb2 Hb1)).
Qed.

Definition unnamed : appliance := set_name lamp "".
Definition store3 : registry := Registry [unnamed; lamp; unnamed; lamp] [].

(** two unnamed and two named lamps: the second named lamp is a duplicate *)
Example C37_case :
  (forall r, In r [0; 1; 2; 3; 1]%nat -> exists a, deref store3 r = Some a /\ no_auto_name a) /\
  exists g, register_all true store3 [0; 1; 2; 3; 1]%nat = Ok g /\ refs g = [0; 1; 2]%nat /\
    map (fun a => name (par a)) (registered g) = ["appliance_1"; "lamp"; "appliance_3"]%string.
Proof.
  split.
  - intros r Hr. destruct Hr as [<-|[<-|[<-|[<-|[<-|[]]]]]]; eexists; (split; [reflexivity|intros k; discriminate]).
  - eexists. split; [vm_compute; reflexivity|]. split; reflexivity.
Qed.

(** the two ways in which equal appliances do get stored *)

(** an appliance was named by hand like an automatic name *)
Theorem C37_auto_name_refuted : exists g g' x y,
  refs g = [] /\ register_all true g [0; 1]%nat = Ok g' /\ registered g' = [x; y] /\ app_eq true x y = Ok true.
Proof.
  exists (Registry [set_name lamp "appliance_2"; unnamed] []). eexists. eexists. eexists.
  split; [reflexivity|]. split; [vm_compute; reflexivity|]. split; reflexivity.
Qed.

(** add_appliance with window arguments registers the appliance before its duty cycle
    is complete: the same call made twice stores two equal appliances *)
Theorem C37_add_twice_refuted : exists p pw nd wa c,
  let add g := add_appliance_kw exact_fm true g p pw nd wa c c c in
  let g1 := fst (add (Registry [] [])) in
  let g2 := fst (add g1) in
  snd (add (Registry [] [])) = None /\ snd (add g1) = None /\
  exists x y, registered g2 = [x; y] /\ app_eq true x y = Ok true.
Proof.
  exists (Params "fridge" 1 1 600 0 10 "no" 1 1 1 "no" 0 0 2), (PConst 100%Q), 0,
    (WindowArgs (Some (0, 1440)) None None None), (CycleArgs None None None None None None None).
  cbv zeta. split; [vm_compute; reflexivity|]. split; [vm_compute; reflexivity|].
  eexists. eexists. split; vm_compute; reflexivity.
Qed.

(** ** C05 *)

Lemma update_refs g r f : refs (update_object g r f) = refs g.
Proof. unfold update_object. destruct (deref g r); reflexivity. Qed.

Lemma update_deref g r f a : deref g r = Some a -> deref (update_object g r f) r = Some (f a).
Proof.
  intros D. unfold update_object. rewrite D. unfold deref. cbn [objects]. rewrite list_set_nth_error, Nat.eqb_refl.
  pose proof (deref_lt _ _ _ D) as H. apply Nat.ltb_lt in H. rewrite H. reflexivity.
Qed.
Lemma update_deref_other g r f s : s <> r -> deref (update_object g r f) s = deref g s.
Proof.
  intros Hs. unfold update_object. destruct (deref g r); [|reflexivity]. unfold deref. cbn [objects].
  rewrite list_set_nth_error. apply Nat.eqb_neq in Hs. rewrite Hs. reflexivity.
Qed.

(** if it raises, nothing is registered *)
Theorem C05_raise_registers_nothing F strict g r w1 w2 rvw w3 g' e :
  windows_on F strict g r w1 w2 rvw w3 = (g', Some e) -> refs g' = refs g.
Proof.
  unfold windows_on. destruct (deref g r) as [a|]; [|intros H; injection H as <- _; reflexivity].
  destruct (windows F a w1 w2 rvw w3) as [a' [e'|]].
  - intros H. injection H as <- _. apply update_refs.
  - destruct (register strict _ r) as [g2|]; intros H; [discriminate|]. injection H as <- _. apply update_refs.
Qed.

(** total length of the windows that are used (the first num_windows) *)
Definition used_windows (n : Z) (w : wins) : list (Z * Z) := firstn (Z.to_nat n) [window_1 w; window_2 w; window_3 w].

Theorem C05_windows_valid F strict g r a w1 w2 rvw w3 g' :
  deref g r = Some a -> windows_on F strict g r w1 w2 rvw w3 = (g', None) ->
  exists a', deref g' r = Some a' /\
    (* the appliance now has the given windows *)
    window_1 (win a') = match w1 with Some x => x | None => (0, 1440) end /\
    (forall w, w2 = Some w -> window_2 (win a') = w) /\ (forall w, w3 = Some w -> window_3 (win a') = w) /\
    random_var_w (win a') = rvw /\
    (* they are valid *)
    num_windows (par a) <= 3 /\
    (2 <= num_windows (par a) -> w2 <> None) /\ (3 <= num_windows (par a) -> w3 <> None) /\
    (forall w, In w [window_1 (win a'); window_2 (win a'); window_3 (win a')] -> fst w <= snd w) /\
    func_time (par a) <= total_length (used_windows (num_windows (par a)) (win a')) /\
    (* it is registered, or an appliance equal to it (before the duty cycle windows were set) was there *)
    ((refs g' = refs g ++ [r] /\ ~ In r (refs g)) \/
     (refs g' = refs g /\ (In r (refs g) \/ exists s x y, In s (refs g) /\ deref g s = Some x /\
        y = set_cyc1 a' (cyc1 a) /\ app_eq strict x y = Ok true))).
Proof.
  intros D H. unfold windows_on in H. rewrite D in H.
  destruct (windows F a w1 w2 rvw w3) as [a1 [e'|]] eqn:W; [discriminate|].
  pose proof (windows_ok F a w1 w2 rvw w3 a1 W) as G. cbv zeta in G.
  destruct G as (Gp & _ & _ & G3 & Gw2 & Gw3 & E1 & E2 & E3 & Ev & _ & _ & _ & L1 & L2 & L3 & Ht & _ & Gc & _).
  set (g1 := update_object g r (fun _ => set_cyc1 a1 (cyc1 a))) in *.
  destruct (register strict g1 r) as [g2|] eqn:R; [|discriminate]. injection H as <-.
  destruct (register_spec _ _ _ _ R) as (a2 & D2 & RS).
  assert (D1 : deref g1 r = Some (set_cyc1 a1 (cyc1 a))) by (unfold g1; apply (update_deref _ _ (fun _ => _)) with (1 := D)).
  rewrite D1 in D2. injection D2 as <-.
  assert (HD2 : exists b, deref g2 r = Some b /\ win b = win a1 /\ (refs g2 = refs g1 -> b = set_cyc1 a1 (cyc1 a))).
  { destruct RS as [(-> & _)|(G1 & _ & Gd & _)]; [eexists; split; [exact D1|split; reflexivity]|].
    eexists. split; [exact Gd|]. split; [destruct (String.eqb _ _); reflexivity|].
    intros Hr. rewrite G1 in Hr. apply (f_equal (@List.length nat)) in Hr. rewrite app_length in Hr. cbn in Hr. lia. }
  destruct HD2 as (b & Db & Wb & Hsame).
  exists (set_cyc1 b (cyc1 a1)). split; [apply (update_deref _ _ (fun x => set_cyc1 x (cyc1 a1))); exact Db|].
  cbn [win set_cyc1]. rewrite Wb.
  split; [exact E1|]. split; [intros w ->; exact E2|]. split; [intros w ->; exact E3|]. split; [exact Ev|].
  split; [exact G3|]. split; [exact Gw2|]. split; [exact Gw3|].
  split; [intros w [<-|[<-|[<-|[]]]]; assumption|]. split.
  - unfold used_windows. clear -Ht G3. revert Ht. generalize (num_windows (par a)) (func_time (par a)) G3.
    intros n ft Hn3 Ht.
    destruct (Z_le_gt_dec n 0) as [H0|H0].
    + replace (Z.to_nat n) with O by lia. cbn [firstn total_length fold_right].
      destruct (Z.leb_spec 1 n); destruct (Z.leb_spec 2 n); destruct (Z.leb_spec 3 n); lia.
    + assert (n = 1 \/ n = 2 \/ n = 3) as [Hn|[Hn|Hn]] by lia; subst n;
        [change (Z.to_nat 1) with 1%nat|change (Z.to_nat 2) with 2%nat|change (Z.to_nat 3) with 3%nat];
        cbn [Z.leb Z.compare Pos.compare Pos.compare_cont] in Ht; cbn [firstn total_length fold_right];
        unfold length_of, diff in *; lia.
  - destruct RS as [(-> & s & Hs & Hc)|(G1 & G2 & _)].
    + right. rewrite update_refs. unfold g1. rewrite update_refs. split; [reflexivity|].
      unfold g1 in Hs. rewrite update_refs in Hs.
      destruct Hc as [->|(x & Dx & Q)]; [left; exact Hs|].
      destruct (Nat.eq_dec s r) as [->|Hsr]; [left; exact Hs|]. right.
      exists s, x, (set_cyc1 a1 (cyc1 a)). split; [exact Hs|]. split; [unfold g1 in Dx; rewrite update_deref_other in Dx by exact Hsr; exact Dx|].
      split; [|exact Q]. rewrite (Hsame eq_refl). reflexivity.
    + left. rewrite update_refs, G1. unfold g1. rewrite update_refs. split; [reflexivity|].
      intros Hin. destruct (G2 r) as [C _]; [unfold g1; rewrite update_refs; exact Hin|]. contradiction.
Qed.

(** a declared window that is missing, or too little time in the windows, always raises InvalidWindow *)
Theorem C05_missing_window_2 F strict g r a w1 rvw w3 :
  deref g r = Some a -> 2 <= num_windows (par a) ->
  snd (windows_on F strict g r w1 None rvw w3) = Some InvalidWindow.
Proof.
  intros D Hn. unfold windows_on. rewrite D. pose proof (windows_missing_2 F a w1 rvw w3 Hn) as E.
  destruct (windows F a w1 None rvw w3) as [a' [e|]]; cbn in *; congruence.
Qed.
Theorem C05_missing_window_3 F strict g r a w1 w2 rvw :
  deref g r = Some a -> num_windows (par a) = 3 ->
  snd (windows_on F strict g r w1 w2 rvw None) = Some InvalidWindow.
Proof.
  intros D Hn. unfold windows_on. rewrite D. pose proof (windows_missing_3 F a w1 w2 rvw Hn) as E.
  destruct (windows F a w1 w2 rvw None) as [a' [e|]]; cbn in *; congruence.
Qed.
Theorem C05_too_short F strict g r a x1 x2 x3 rvw :
  deref g r = Some a -> 1 <= num_windows (par a) <= 3 ->
  total_length (firstn (Z.to_nat (num_windows (par a))) [x1; x2; x3]) < func_time (par a) ->
  snd (windows_on F strict g r (Some x1) (Some x2) rvw (Some x3)) = Some InvalidWindow.
Proof.
  intros D Hn Hlt. unfold windows_on. rewrite D.
  assert (E : snd (windows F a (Some x1) (Some x2) rvw (Some x3)) = Some InvalidWindow).
  { eapply windows_too_short; [discriminate|discriminate|exact Hn|reflexivity|].
    assert (num_windows (par a) = 1 \/ num_windows (par a) = 2 \/ num_windows (par a) = 3) as [E|[E|E]] by lia;
      rewrite E in *;
      [change (Z.to_nat 1) with 1%nat in Hlt|change (Z.to_nat 2) with 2%nat in Hlt|change (Z.to_nat 3) with 3%nat in Hlt];
      cbn [firstn total_length fold_right] in Hlt; cbn [Z.leb Z.compare Pos.compare Pos.compare_cont];
      unfold length_of, diff in *; lia. }
  destruct (windows F a (Some x1) (Some x2) rvw (Some x3)) as [a' [e|]]; cbn in *; congruence.
Qed.

(** two declared windows, 120 minutes of use: accepted with 6 hours of windows, rejected with 100 minutes *)
Example C05_case :
  let g := Registry [set_win demo default_wins] [] in
  let ok := windows_on exact_fm true g 0 (Some (480, 600)) (Some (1080, 1320)) (1 # 10) None in
  let bad := windows_on exact_fm true g 0 (Some (480, 540)) (Some (1080, 1120)) (1 # 10) None in
  snd ok = None /\ refs (fst ok) = [0%nat] /\ snd bad = Some InvalidWindow /\ refs (fst bad) = [].
Proof. vm_compute. repeat split; reflexivity. Qed.

(** with numpy >= 1.25 a user cannot hold an appliance with a constant power next to one with a power
    series: comparing 367 values with 366 raises ValueError *)
Theorem C37_mixed_powers_refuted : exists p q a b,
  new_appliance p (PConst 40) 366 = Ok a /\ new_appliance q (PSeries (map zq (arange 0 366))) 366 = Ok b /\
  name p <> name q /\
  register_all true (Registry [a; b] []) [0; 1]%nat = Err ValueError /\
  exists g, register_all false (Registry [a; b] []) [0; 1]%nat = Ok g /\ registered g = [a; b].
Proof.
  exists (par lamp), (par special). eexists. eexists. split; [reflexivity|]. split; [reflexivity|].
  split; [discriminate|]. split; [vm_compute; reflexivity|]. eexists. split; [vm_compute; reflexivity|]. vm_compute. reflexivity.
Qed.

(** ** C35 *)

(** value of [maximum_profile] at a minute, right after windows() *)
Theorem C35_declared_windows_partial F a w1 w2 rvw w3 a' t :
  windows F a w1 w2 rvw w3 = (a', None) ->
  Forall inside_day [window_1 (win a'); window_2 (win a'); window_3 (win a')] -> 0 <= t < 1440 ->
  let x := value_at (app_maximum_profile F a') t in
  zlen (app_maximum_profile F a') = 1440 /\
  (minute_in_some t [window_1 (win a'); window_2 (win a'); window_3 (win a')] ->
     x = fmul F (fmul F (mask_value F) (np_mean F (power a'))) (zq (number (par a'))) /\
     (exact F -> (x == (1 # 1000) * (Qsum (power a') / zq (zlen (power a'))) * zq (number (par a')))%Q)) /\
  (~ minute_in_some t [window_1 (win a'); window_2 (win a'); window_3 (win a')] -> (x == 0)%Q).
Proof.
  intros H Hd Ht x. pose proof (windows_ok F a w1 w2 rvw w3 a' H) as G. cbv zeta in G.
  destruct G as (_ & _ & _ & _ & _ & _ & _ & _ & _ & _ & _ & _ & _ & _ & _ & _ & _ & Hf & _).
  assert (Hd' : Forall (fun w : Z * Z => 0 <= fst w /\ snd w <= 1440) [window_1 (win a'); window_2 (win a'); window_3 (win a')]).
  { eapply Forall_impl; [|exact Hd]. intros w [I0 I1]. lia. }
  destruct (fill_windows_spec _ _ _ _ zlen_zeros Hd' Hf) as (Hlen & _ & Hat).
  assert (Hx : x = fmul F (fmul F (value_at (daily_use (st a')) t) (np_mean F (power a'))) (zq (number (par a'))) ).
  { unfold x, app_maximum_profile, value_at.
    set (f := fun y => fmul F (fmul F y (np_mean F (power a'))) (zq (number (par a')))).
    rewrite (nth_indep _ 0%Q (f 0%Q)) by (rewrite map_length; unfold zlen in Hlen; lia).
    rewrite map_nth. reflexivity. }
  split; [unfold app_maximum_profile; rewrite zlen_map; exact Hlen|].
  rewrite value_at_minute, Hat in Hx by exact Ht.
  split.
  - intros Hin. apply existsb_in_win in Hin. rewrite Hin in Hx. split; [exact Hx|]. intros HF. rewrite Hx.
    unfold fmul, mask_value, flit, np_mean, fdiv. rewrite !(HF _). rewrite (np_sum_exact F _ HF). reflexivity.
  - intros Hout. destruct (existsb _ _) eqn:E in Hx; [apply existsb_in_win in E; contradiction|].
    rewrite at_zeros in Hx. rewrite Hx. unfold fmul.
    assert (Z0 : forall y, (rnd F (0 * y) == 0)%Q).
    { intros y. transitivity (rnd F 0); [|apply rnd_0]. apply Qle_antisym; apply rnd_mono; rewrite Qmult_0_l; apply Qle_refl. }
    transitivity (rnd F 0); [|apply rnd_0].
    apply Qle_antisym; apply rnd_mono; rewrite (Z0 _), Qmult_0_l; apply Qle_refl.
Qed.

(** the profile of a user: the sum over its appliances, times num_users *)
Theorem C35_user_profile F u t :
  exact F -> 0 <= t < 1440 -> Forall (fun a => zlen (daily_use (st a)) = 1440) (app_list u) ->
  (value_at (user_maximum_profile F u) t ==
   zq (num_users u) * minute_sum t (map (app_maximum_profile F) (app_list u)))%Q.
Proof.
  intros HF Ht Hl. unfold user_maximum_profile.
  assert (E : fold_left (fun acc a => vadd F acc (app_maximum_profile F a)) (app_list u) (zeros day_minutes)
    = sum_rows F (map (app_maximum_profile F) (app_list u))).
  { unfold sum_rows. generalize (zeros day_minutes). induction (app_list u) as [|a l IH]; intros acc; [reflexivity|].
    cbn [map fold_left]. apply IH. inversion Hl; assumption. }
  rewrite E.
  assert (HL : Forall (fun l => List.length l = day_minutes) (map (app_maximum_profile F) (app_list u))).
  { apply Forall_forall. intros l Hin. apply in_map_iff in Hin. destruct Hin as (a & <- & Ha).
    rewrite Forall_forall in Hl. specialize (Hl a Ha). unfold app_maximum_profile. rewrite map_length.
    unfold zlen in Hl. unfold day_minutes. lia. }
  unfold value_at at 1. set (f := fun x => fmul F x (zq (num_users u))).
  rewrite (nth_indep _ 0%Q (f 0%Q)) by (rewrite map_length, sum_rows_len by exact HL; unfold day_minutes; lia).
  rewrite map_nth. unfold f, fmul. rewrite (HF _).
  change (nth (Z.to_nat t) (sum_rows F (map (app_maximum_profile F) (app_list u))) 0%Q)
    with (value_at (sum_rows F (map (app_maximum_profile F) (app_list u))) t).
  rewrite (sum_rows_exact F _ t HF Ht HL). ring.
Qed.

Example C35_case : exists a',
  windows exact_fm (set_win demo default_wins) (Some (480, 600)) (Some (1080, 1320)) (1 # 10) None = (a', None) /\
  (value_at (app_maximum_profile exact_fm a') 500 == (1 # 1000) * 55 * 3)%Q /\
  (value_at (app_maximum_profile exact_fm a') 700 == 0)%Q.
Proof. eexists. split; [vm_compute; reflexivity|]. split; vm_compute; reflexivity. Qed.

(** after a simulated day the maximum profile shows that day, not the declared windows: here it
    is zero everywhere because the appliance was skipped *)
Theorem C35_after_simulation_refuted : exists a a' t,
  windows exact_fm (set_win demo_never default_wins) (Some (480, 600)) (Some (1080, 1320)) (1 # 10) None = (a, None) /\
  may (generate_load_profile 5 exact_fm a 0 0 (arange 700 720) 0 50%Q) (Ok a') /\
  minute_in t (window_1 (win a')) /\ win a' = win a /\
  (0 < value_at (app_maximum_profile exact_fm a) t)%Q /\ (value_at (app_maximum_profile exact_fm a') t == 0)%Q.
Proof.
  eexists. eexists. exists 500. split; [vm_compute; reflexivity|].
  split.
  - apply (follow_may _ [DQ (1 # 2)]). vm_compute. reflexivity.
  - split; [unfold minute_in; cbn; lia|]. split; [reflexivity|]. split; vm_compute; reflexivity.
Qed.
