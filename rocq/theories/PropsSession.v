(** * PropsSession: C74, a power given as a number

    The number given to the constructor is the power of the appliance on every simulated day, whatever the program does in between. *)
From Verif Require Import Base Wp Utils Appliance User UseCase Declare Script Heap Session SpecUser ProofsUser ListLemmas ProofsEq ProofsUseCase PropsHeap Tape PropsInit.
Open Scope list_scope.
Open Scope Z_scope.

(** ** Specification *)

(** appliance [r] was given the number [v] as power: all its values are [v], and there are at least [n] *)
Definition constant_load (s : session) (r : nat) (v : Q) (n : Z) : Prop :=
  exists x, nth_error (h_apps (s_heap s)) r = Some x /\ constant_power (obj x) = true /\
            Forall (fun p => p = v) (power (obj x)) /\ n <= zlen (power (obj x)).

(** the power used on day [d] (core.py:1014) *)
Definition power_on (s : session) (r : nat) (d : Z) : res Q :=
  match nth_error (h_apps (s_heap s)) r with Some x => py_index (power (obj x)) d | None => Err AttributeError end.

Lemma constant_power_on s r v n d : constant_load s r v n -> 0 <= d < n -> power_on s r d = Ok v.
Proof.
  intros (x & E & _ & Hf & Hn) Hd. unfold power_on. rewrite E. unfold py_index. cbv zeta.
  replace (d <? 0) with false by lia. replace ((d <? 0) || (zlen (power (obj x)) <=? d)) with false by lia.
  unfold zlen in Hn. destruct (nth_error (power (obj x)) (Z.to_nat d)) as [q|] eqn:Q.
  - apply nth_error_In in Q. f_equal. exact (proj1 (Forall_forall _ _) Hf q Q).
  - apply nth_error_None in Q. lia.
Qed.

(** ** Growth *)

Definition grow_rel (a a' : appliance) : Prop :=
  constant_power a' = constant_power a /\ zlen (power a) <= zlen (power a') /\
  (constant_power a = false -> power a' = power a) /\
  forall v, constant_power a = true -> Forall (fun p => p = v) (power a) -> Forall (fun p => p = v) (power a').

Definition heap_grow (h h' : heap) : Prop :=
  forall r x, nth_error (h_apps h) r = Some x -> exists x', nth_error (h_apps h') r = Some x' /\ owner x' = owner x /\ grow_rel (obj x) (obj x').

Lemma grow_same a a' : power a' = power a -> constant_power a' = constant_power a -> grow_rel a a'.
Proof. intros H K. unfold grow_rel. rewrite H, K. repeat split; auto. lia. Qed.
Lemma grow_refl a : grow_rel a a. Proof. apply grow_same; reflexivity. Qed.
Lemma grow_trans a b c : grow_rel a b -> grow_rel b c -> grow_rel a c.
Proof.
  intros (A1 & A2 & A3 & A4) (B1 & B2 & B3 & B4). repeat split; [congruence|lia| |].
  - intros H. rewrite B3 by congruence. auto.
  - intros v H K. apply B4; [congruence|]. apply A4; assumption.
Qed.
Lemma heap_refl h : heap_grow h h.
Proof. intros r x H. exists x. repeat split; auto using Z.le_refl. Qed.
Lemma heap_trans a b c : heap_grow a b -> heap_grow b c -> heap_grow a c.
Proof.
  intros A B r x H. destruct (A r x H) as (y & Y & O & G). destruct (B r y Y) as (z & Hz & O' & G').
  exists z. split; [exact Hz|]. split; [congruence|]. eapply grow_trans; eassumption.
Qed.

Lemma put_happ_grow h r x a : nth_error (h_apps h) r = Some x -> grow_rel (obj x) a -> heap_grow h (put_happ h r a).
Proof.
  intros H G r' y Hy. unfold put_happ. rewrite H. cbn [h_apps]. destruct (Nat.eq_dec r' r) as [->|N].
  - rewrite (list_set_here _ _ _ _ H). eexists. split; [reflexivity|]. replace y with x by congruence. split; [reflexivity|exact G].
  - rewrite list_set_other by exact N. exists y. repeat split; auto using Z.le_refl.
Qed.
Lemma put_huser_grow h k v : heap_grow h (put_huser h k v).
Proof. exact (heap_refl h). Qed.
Lemma hload_grow h k f : heap_grow h (hload h k f).
Proof. unfold hload. destruct (nth_error (h_users h) k); exact (heap_refl h). Qed.

Lemma check_power_grow a n a' : check_power_values a n = Ok a' -> grow_rel a a' /\ n <= zlen (power a').
Proof.
  intros H. pose proof (check_power_extended _ _ _ H) as E. split; [|exact (extended_len _ _ _ E)].
  destruct E as [[L ->]|(L & C & p & N & ->)]; [apply grow_refl|].
  unfold grow_rel. cbn [power set_power constant_power]. rewrite zlen_repeat. pose proof (zlen_nonneg (power a)).
  split; [reflexivity|]. split; [lia|]. split; [congruence|]. intros v _ Hf.
  destruct (power a) as [|q l]; [discriminate|]. cbn in N. injection N as <-. inversion Hf; subst. apply Forall_forall. intros y Hy.
  apply repeat_spec in Hy. exact Hy.
Qed.

Lemma hcheck_grow n : forall rs h h', hcheck_powers h rs n = (h', None) -> heap_grow h h' /\
  forall r, In r rs -> exists x, nth_error (h_apps h') r = Some x /\ n <= zlen (power (obj x)).
Proof.
  induction rs as [|r rs IH]; intros h h' H; cbn [hcheck_powers] in H.
  - injection H as <-. split; [apply heap_refl|intros r []].
  - destruct (nth_error (h_apps h) r) as [x|] eqn:E; [|discriminate].
    destruct (check_power_values (obj x) n) as [a'|] eqn:C; [|discriminate].
    destruct (check_power_grow _ _ _ C) as [G L]. destruct (IH _ _ H) as [G' A]. split.
    + eapply heap_trans; [|exact G']. eapply put_happ_grow; eassumption.
    + intros r' [<-|Hr]; [|apply A; exact Hr].
      destruct (G' r (HApp a' (owner x))) as (y & Hy & _ & (_ & Ly & _)).
      { unfold put_happ. rewrite E. cbn [h_apps]. apply (list_set_here _ _ _ _ E). }
      exists y. split; [exact Hy|]. cbn [obj] in Ly. lia.
Qed.

(** generation *)
Lemma hgen_apps_grow depth F i peak dt : forall rs h acc h' l, may (hgen_apps depth F h i peak dt rs acc) (Ok (h', l)) -> heap_grow h h'.
Proof.
  induction rs as [|r rs IH]; intros h acc h' l H; cbn [hgen_apps] in H.
  - apply may_ret_inv in H. injection H as -> _. apply heap_refl.
  - destruct (nth_error (h_apps h) r) as [x|] eqn:E; [|apply may_raise_inv in H; discriminate].
    apply may_bind in H. destruct H as [(pw & _ & H)|(e & _ & H)]; [|discriminate].
    apply may_bind in H. destruct H as [(a' & Ha & H)|(e & _ & H)]; [|discriminate].
    apply glp_same in Ha. eapply heap_trans; [|exact (IH _ _ _ _ H)].
    eapply put_happ_grow; [exact E|]. destruct Ha as [d ->]. apply grow_same; reflexivity.
Qed.
Lemma hgen_single_grow depth F h k i peak dt h' l : may (hgen_single depth F h k i peak dt) (Ok (h', l)) -> heap_grow h h'.
Proof.
  unfold hgen_single. destruct (nth_error (h_users h) k) as [v|]; [|intros H; apply may_raise_inv in H; discriminate].
  intros H. apply may_bind in H. destruct H as [(p & _ & H)|(e & _ & H)]; [|discriminate].
  apply hgen_apps_grow in H. exact H.
Qed.
Lemma hmembers_grow depth F k i peak dt : forall n h h', may (hmembers n depth F h k i peak dt) (Ok h') -> heap_grow h h'.
Proof.
  induction n as [|n IH]; intros h h' H; cbn [hmembers] in H.
  - apply may_ret_inv in H. injection H as ->. apply heap_refl.
  - apply may_bind in H. destruct H as [([h1 l] & H1 & H)|(e & _ & H)]; [|discriminate].
    apply hgen_single_grow in H1. apply IH in H. cbn [fst snd] in H. eapply heap_trans; [exact H1|]. eapply heap_trans; [|exact H]. apply hload_grow.
Qed.
Lemma haggregated_grow depth F h k i peak dt h' l : may (haggregated depth F h k i peak dt) (Ok (h', l)) -> heap_grow h h'.
Proof.
  unfold haggregated. destruct (nth_error (h_users h) k) as [v|]; [|intros H; apply may_raise_inv in H; discriminate].
  intros H. apply may_bind in H. destruct H as [(h1 & H1 & H)|(e & _ & H)]; [|discriminate].
  apply may_ret_inv in H. injection H as -> _. apply hmembers_grow in H1. eapply heap_trans; [|exact H1]. apply hload_grow.
Qed.
Lemma hday_of_users_grow depth F i peak dt : forall ks h acc h' l, may (hday_of_users depth F h i peak dt ks acc) (Ok (h', l)) -> heap_grow h h'.
Proof.
  induction ks as [|k ks IH]; intros h acc h' l H; cbn [hday_of_users] in H.
  - apply may_ret_inv in H. injection H as -> _. apply heap_refl.
  - apply may_bind in H. destruct H as [([h1 l1] & H1 & H)|(e & _ & H)]; [|discriminate].
    apply haggregated_grow in H1. apply IH in H. eapply heap_trans; eassumption.
Qed.
Lemma hday_loop_grow depth F peak ks : forall ds i h rows h' l, may (hday_loop depth F h peak i ds ks rows) (Ok (h', l)) -> heap_grow h h'.
Proof.
  induction ds as [|d ds IH]; intros i h rows h' l H; cbn [hday_loop] in H.
  - apply may_ret_inv in H. injection H as -> _. apply heap_refl.
  - apply may_bind in H. destruct H as [([h1 l1] & H1 & H)|(e & _ & H)]; [|discriminate].
    destruct (zlen rows <=? i); [apply may_raise_inv in H; discriminate|].
    apply hday_of_users_grow in H1. apply IH in H. eapply heap_trans; eassumption.
Qed.

(** initialize *)
Lemma set_peak_enlarge_days F c y r : may (set_peak_enlarge F c y) (Ok r) -> num_days_ (fst r) = num_days_ c.
Proof.
  unfold set_peak_enlarge. intros H. destruct y as [q|]; [|apply may_ret_inv in H; injection H as ->; reflexivity].
  destruct (Qle_bool 0 q); [|apply may_ret_inv in H; injection H as ->; reflexivity].
  apply may_bind in H. destruct H as [(p & _ & H)|(e & _ & H)]; [|discriminate].
  apply may_ret_inv in H. injection H as ->. destruct p; reflexivity.
Qed.

Lemma hinit_finish_grow F h x enl h' x' e : may (hinit_finish F h x enl) (Ok (h', x', e)) -> e = None ->
  heap_grow h h' /\ num_days_ (hc x') = num_days_ (hc x) /\
  forall r n, num_days_ (hc x) = Some n -> In r (hc_apps x) -> exists y, nth_error (h_apps h') r = Some y /\ n <= zlen (power (obj y)).
Proof.
  unfold hinit_finish. set (n := match num_days_ (hc x) with Some n => n | None => 0 end).
  destruct (hcheck_powers h (hc_apps x) n) as [h1 [e1|]] eqn:C; intros H ->.
  - apply may_ret_inv in H. discriminate.
  - destruct (hcheck_grow _ _ _ _ C) as [G A].
    apply may_bind in H. destruct H as [(r & Hr & H)|(e & _ & H)]; [|discriminate].
    assert (N : num_days_ (fst r) = num_days_ (hc x)).
    { destruct enl as [y|].
      - apply set_peak_enlarge_days in Hr. exact Hr.
      - apply may_bind in Hr. destruct Hr as [(p & _ & Hr)|(e & _ & Hr)]; [|discriminate].
        apply may_ret_inv in Hr. injection Hr as ->. destruct p; reflexivity. }
    destruct (snd r); apply may_ret_inv in H; [discriminate|]. injection H as -> ->.
    split; [exact G|]. split; [cbn [hc hset_hc]; rewrite (proj2 (init_index_days _)); exact N|].
    intros r' m Hm Hin. unfold n in A. rewrite Hm in A. apply A. exact Hin.
Qed.

Lemma hinitialize_grow F w h x nd enl force h' x' e : may (hinitialize F w h x nd enl force) (Ok (h', x', e)) -> e = None ->
  heap_grow h h' /\
  (is_initialized (hc x) && negb force = false -> forall r n, num_days_ (hc x') = Some n -> In r (hc_apps x) ->
     exists y, nth_error (h_apps h') r = Some y /\ n <= zlen (power (obj y))).
Proof.
  rewrite hinitialize_stages. intros H He. destruct (is_initialized (hc x) && negb force).
  - apply may_ret_inv in H. injection H as -> -> ->. split; [apply heap_refl|discriminate].
  - destruct (dates_stage w (hc x) nd force) as [c [e1|]]; [apply may_ret_inv in H; injection H as -> -> ->; discriminate|].
    destruct (hinit_finish_grow _ _ _ _ _ _ _ H He) as (G & N & A). split; [exact G|].
    intros _ r n Hn Hin. apply A; [rewrite <- N; exact Hn|exact Hin].
Qed.

Lemma hnum_days_grow F w h x h' x' n : may (hnum_days F w h x) (Ok (h', x', n)) -> heap_grow h h'.
Proof.
  unfold hnum_days. destruct (num_days_ (hc x)).
  - intros H. apply may_ret_inv in H. injection H as -> _ _. apply heap_refl.
  - intros H. apply may_bind in H. destruct H as [([[h1 x1] e] & H1 & H)|(e & _ & H)]; [|discriminate]. cbn [fst snd] in H.
    destruct e; [apply may_raise_inv in H; discriminate|].
    destruct (num_days_ (hc x1)); [|apply may_raise_inv in H; discriminate].
    apply may_ret_inv in H. injection H as -> _ _. exact (proj1 (hinitialize_grow _ _ _ _ _ _ _ _ _ _ H1 eq_refl)).
Qed.

Lemma hgenerate_grow depth F w h x arg h' x' rows : may (hgenerate depth F w h x arg) (Ok (h', x', rows)) -> heap_grow h h'.
Proof.
  unfold hgenerate. intros H. apply may_bind in H. destruct H as [(c & _ & H)|(e & _ & H)]; [|discriminate].
  apply may_bind in H. destruct H as [([[h1 x1] n] & H1 & H)|(e & _ & H)]; [|discriminate]. cbn [fst snd] in H.
  destruct (n <? 0); [apply may_raise_inv in H; discriminate|].
  apply may_bind in H. destruct H as [([h2 r2] & H2 & H)|(e & _ & H)]; [|discriminate].
  apply may_ret_inv in H. injection H as -> _ _. eapply heap_trans; [exact (hnum_days_grow _ _ _ _ _ _ _ H1)|exact (hday_loop_grow _ _ _ _ _ _ _ _ _ _ H2)].
Qed.

Lemma hadd_grow uc h ks it h' ks' e : hadd_user uc h ks it = (h', ks', e) -> heap_grow h h'.
Proof. rewrite hadd_spec. intros H. injection H as <- _ _. intros r x. rewrite bind_users_apps. apply heap_refl. Qed.

Lemma hnew_usecase_grow F w uc h us start stop par enl seed h' x : may (hnew_usecase F w uc h us start stop par enl seed) (Ok (h', x)) -> heap_grow h h'.
Proof.
  unfold hnew_usecase. destruct (hadd_user uc h [] us) as [[h1 ks] [e|]] eqn:E; [intros H; apply may_raise_inv in H; discriminate|].
  apply hadd_grow in E. intros H. apply may_bind in H. destruct H as [([h2 x2] & H1 & H)|(e & _ & H)]; [|discriminate].
  assert (K : (h2, x2) = (h', x)) by (destruct (seed_of seed); [inversion H; subst; apply may_ret_inv in H4; congruence|apply may_ret_inv in H; congruence]).
  injection K as <- <-. eapply heap_trans; [exact E|]. clear H.
  assert (J : forall y, may (Ret (h1, y)) (Ok (h2, x2)) -> heap_grow h1 h2).
  { intros y Hy. apply may_ret_inv in Hy. injection Hy as -> _. apply heap_refl. }
  destruct start; [destruct stop|]; [|eapply J; exact H1|eapply J; exact H1].
  apply may_bind in H1. destruct H1 as [([[h3 x3] e] & H1 & H)|(e & _ & H)]; [|discriminate]. cbn [fst snd] in H.
  destruct e; [apply may_raise_inv in H; discriminate|]. apply may_ret_inv in H. injection H as -> _.
  exact (proj1 (hinitialize_grow _ _ _ _ _ _ _ _ _ _ H1 eq_refl)).
Qed.

(** registration and declarations leave the power alone *)
Definition reg_keep (g g' : registry) : Prop :=
  forall r a, nth_error (objects g) r = Some a -> exists a', nth_error (objects g') r = Some a' /\ power a' = power a /\ constant_power a' = constant_power a.
Lemma reg_refl g : reg_keep g g. Proof. intros r a H. exists a. auto. Qed.
Lemma reg_trans a b c : reg_keep a b -> reg_keep b c -> reg_keep a c.
Proof.
  intros A B r x H. destruct (A r x H) as (y & Hy & P & C). destruct (B r y Hy) as (z & Hz & P' & C').
  exists z. repeat split; congruence.
Qed.
Lemma set_keep objs rs rs' r a b : nth_error objs r = Some a -> power b = power a -> constant_power b = constant_power a ->
  reg_keep (Registry objs rs) (Registry (list_set objs r b) rs').
Proof.
  intros H P C r' x Hx. cbn [objects] in *. destruct (Nat.eq_dec r' r) as [->|N].
  - rewrite (list_set_here _ _ _ _ H). exists b. replace x with a by congruence. auto.
  - rewrite list_set_other by exact N. exists x. auto.
Qed.
Lemma update_keep g r f : (forall a, deref g r = Some a -> power (f a) = power a /\ constant_power (f a) = constant_power a) -> reg_keep g (update_object g r f).
Proof.
  intros H. unfold update_object. destruct (deref g r) as [a|] eqn:E; [|apply reg_refl]. destruct g as [objs rs].
  destruct (H a eq_refl) as [P C]. exact (set_keep objs rs rs r a (f a) E P C).
Qed.
Lemma register_keep strict g r g' : register strict g r = Ok g' -> reg_keep g g'.
Proof.
  unfold register. destruct (deref g r) as [a|] eqn:E; [|discriminate]. destruct (User.member strict g a r (refs g)) as [[]|]; cbn; try discriminate.
  - intros H. injection H as <-. apply reg_refl.
  - intros H. injection H as <-. destruct g as [objs rs]. apply (set_keep objs rs _ r a _ E); destruct (String.eqb _ _); reflexivity.
Qed.
Lemma windows_power F a w1 w2 rvw w3 : power (fst (windows F a w1 w2 rvw w3)) = power a /\ constant_power (fst (windows F a w1 w2 rvw w3)) = constant_power a.
Proof.
  set (K := fun r : appliance * option exc => power (fst r) = power a /\ constant_power (fst r) = constant_power a).
  change (K (windows F a w1 w2 rvw w3)). unfold windows.
  assert (KW : forall w e, K (set_win a w, e)) by (intros; split; reflexivity).
  assert (KD : forall w d e, K (set_daily (set_win a w) d, e)) by (intros; split; reflexivity).
  set (W1 := Wins _ _ _ _ _ _ _). clearbody W1.
  destruct (match w2 with None => _ | Some _ => _ end); [apply KW|].
  set (W2 := Wins _ _ _ _ _ _ _). clearbody W2.
  destruct (match w3 with None => _ | Some _ => _ end); [apply KW|].
  set (W3 := Wins _ _ _ _ _ _ _). clearbody W3.
  destruct (window_time _ _); [|apply KW]. destruct (_ <? _); [apply KW|].
  set (W4 := Wins _ _ _ _ _ _ _). clearbody W4. cbv zeta.
  generalize (zeros day_minutes). intros d0. generalize (mask_value F). intros m.
  destruct (fill_window _ _ _) as [d1|]; [|apply KD]. destruct (fill_window _ _ _) as [d2|]; [|apply KD].
  destruct (fill_window _ _ _) as [d3|]; [|apply KD]. set (W5 := Wins _ _ _ _ _ _ _). clearbody W5.
  unfold K. destruct (_ =? 1); split; reflexivity.
Qed.
Lemma windows_on_keep F strict g r w1 w2 rvw w3 g' e : windows_on F strict g r w1 w2 rvw w3 = (g', e) -> reg_keep g g'.
Proof.
  unfold windows_on. destruct (deref g r) as [a|] eqn:E; [|intros H; injection H as <- _; apply reg_refl].
  destruct (windows F a w1 w2 rvw w3) as [a' [e'|]] eqn:W; pose proof (windows_power F a w1 w2 rvw w3) as [P C]; rewrite W in P, C; cbn [fst] in P, C.
  - intros H. injection H as <- _. apply update_keep. intros b Hb. rewrite E in Hb. injection Hb as <-. auto.
  - assert (K : reg_keep g (update_object g r (fun _ => set_cyc1 a' (cyc1 a)))).
    { apply update_keep. intros b Hb. rewrite E in Hb. injection Hb as <-. auto. }
    destruct (register strict (update_object g r (fun _ => set_cyc1 a' (cyc1 a))) r) as [g2|] eqn:R; intros H; injection H as <- _; [|exact K].
    eapply reg_trans; [exact K|]. eapply reg_trans; [exact (register_keep _ _ _ _ R)|]. apply update_keep. auto.
Qed.
Lemma cycle_on_keep g r i c g' e : cycle_on g r i c = (g', e) -> reg_keep g g'.
Proof.
  unfold cycle_on. destruct (deref g r) as [a|] eqn:E; [|intros H; injection H as <- _; apply reg_refl]. cbv zeta.
  destruct (apply_cycle_args _ c) as [c' e']. intros H. injection H as <- _. apply update_keep.
  intros b Hb. rewrite E in Hb. injection Hb as <-. destruct (i =? 1); [split; reflexivity|]. destruct (i =? 2); split; reflexivity.
Qed.
Lemma cycle_behaviour_power a w1 w2 w3 w4 w5 w6 : power (cycle_behaviour a w1 w2 w3 w4 w5 w6) = power a /\ constant_power (cycle_behaviour a w1 w2 w3 w4 w5 w6) = constant_power a.
Proof. unfold cycle_behaviour. cbv zeta. repeat match goal with |- context [if ?b then _ else _] => destruct b end; split; reflexivity. Qed.
Lemma decl_on_keep F strict g r d g' e : decl_on F strict g r d = (g', e) -> reg_keep g g'.
Proof.
  destruct d; cbn [decl_on].
  - apply windows_on_keep.
  - destruct (_ || _); [apply cycle_on_keep|]. intros H. injection H as <- _. apply reg_refl.
  - intros H. injection H as <- _. apply update_keep. intros b _. apply cycle_behaviour_power.
Qed.

Lemma back_nth h k v g r a : nth_error (objects g) r = Some a ->
  nth_error (h_apps (back h k v g)) r = Some (HApp a (match nth_error (h_apps h) r with Some x => owner x | None => k end)).
Proof.
  intros H. unfold back, owned_by. cbn [h_apps]. rewrite nth_error_map.
  assert (L : (r < List.length (objects g))%nat) by (apply nth_error_Some; congruence).
  assert (S0 : nth_error (combine (seq 0 (List.length (objects g))) (objects g)) r = Some (r, a)).
  { clear -H L. generalize (objects g) L H. clear. intros l.
    assert (X : forall (l : list appliance) b r, nth_error l r = Some a -> nth_error (combine (seq b (List.length l)) l) r = Some ((b + r)%nat, a)).
    { clear. induction l as [|y l IH]; intros b r Hr; [destruct r; discriminate|]. destruct r as [|r]; cbn in *.
      - injection Hr as ->. do 2 f_equal. lia.
      - rewrite (IH (S b) r Hr). do 2 f_equal. lia. }
    intros _ Hr. exact (X l 0%nat r Hr). }
  rewrite S0. reflexivity.
Qed.
Lemma reg_heap h k v g : reg_keep (reg_of h v) g -> heap_grow h (back h k v g).
Proof.
  intros K r x H. destruct (K r (obj x)) as (a & Ha & P & C).
  { cbn [objects reg_of]. rewrite nth_error_map, H. reflexivity. }
  rewrite (back_nth _ _ _ _ _ _ Ha), H. eexists. split; [reflexivity|]. split; [reflexivity|]. apply grow_same; assumption.
Qed.

Lemma add_kw_keep F strict g p pw nd wa c1 c2 c3 g' : add_appliance_kw F strict g p pw nd wa c1 c2 c3 = (g', None) ->
  exists a, new_appliance p pw nd = Ok a /\ reg_keep (Registry (objects g ++ [a]) (refs g)) g'.
Proof.
  unfold add_appliance_kw. destruct (new_appliance p pw nd) as [a|]; [|discriminate]. intros H. exists a. split; [reflexivity|]. cbv zeta in H.
  set (g0 := Registry (objects g ++ [a]) (refs g)) in *. set (r := List.length (objects g)) in *.
  destruct (if any_window_arg wa then _ else _) as [g1 [e|]] eqn:E1; [discriminate|].
  assert (K1 : reg_keep g0 g1) by (destruct (any_window_arg wa); [eapply windows_on_keep; exact E1|injection E1 as <-; apply reg_refl]). clear E1.
  destruct (if any_cycle_arg c1 then _ else _) as [g2 [e|]] eqn:E1; [discriminate|].
  assert (K2 : reg_keep g1 g2) by (destruct (any_cycle_arg c1); [eapply cycle_on_keep; exact E1|injection E1 as <-; apply reg_refl]). clear E1.
  destruct (if any_cycle_arg c2 then _ else _) as [g3 [e|]] eqn:E1; [discriminate|].
  assert (K3 : reg_keep g2 g3) by (destruct (any_cycle_arg c2); [eapply cycle_on_keep; exact E1|injection E1 as <-; apply reg_refl]). clear E1.
  destruct (if any_cycle_arg c3 then _ else _) as [g4 [e|]] eqn:E1; [discriminate|].
  assert (K4 : reg_keep g3 g4) by (destruct (any_cycle_arg c3); [eapply cycle_on_keep; exact E1|injection E1 as <-; apply reg_refl]). clear E1.
  destruct (register strict g4 r) as [g5|] eqn:R; [|discriminate]. injection H as <-.
  repeat (eapply reg_trans; [eassumption|]). exact (register_keep _ _ _ _ R).
Qed.

Lemma or_raise_inv {A} (x : A) e r : may (or_raise x e) (Ok r) -> e = None /\ r = x.
Proof. destruct e; cbn; intros H; [apply may_raise_inv in H; discriminate|]. apply may_ret_inv in H. injection H as ->. auto. Qed.

Lemma step_grow depth F strict w s t s' : may (stmt_step depth F strict w s t) (Ok s') -> heap_grow (s_heap s) (s_heap s').
Proof.
  destruct t; cbn [stmt_step]; intros H.
  - apply may_ret_inv in H. injection H as ->. exact (heap_refl _).
  - destruct (nth_error (h_users (s_heap s)) k) as [v|]; [|apply may_raise_inv in H; discriminate].
    destruct (add_appliance_kw _ _ _ _ _ _ _ _ _ _) as [g e] eqn:E. apply or_raise_inv in H. destruct H as [-> ->].
    destruct (add_kw_keep _ _ _ _ _ _ _ _ _ _ _ E) as (a & _ & K). apply reg_heap. intros r b Hb. apply K. cbn [objects].
    rewrite nth_error_app1; [exact Hb|]. apply nth_error_Some. congruence.
  - destruct (nth_error (h_users (s_heap s)) k) as [v|]; [|apply may_raise_inv in H; discriminate].
    apply may_bind in H. destruct H as [(g & Hg & H)|(e & _ & H)]; [|discriminate]. apply may_ret_inv in H. injection H as ->.
    apply may_lift in Hg. apply reg_heap. exact (register_keep _ _ _ _ (eq_sym Hg)).
  - destruct (nth_error (h_apps (s_heap s)) r) as [x|]; [|apply may_raise_inv in H; discriminate].
    destruct (nth_error (h_users (s_heap s)) (owner x)) as [v|]; [|apply may_raise_inv in H; discriminate].
    destruct (decl_on _ _ _ _ _) as [g e] eqn:E. apply or_raise_inv in H. destruct H as [-> ->]. apply reg_heap. exact (decl_on_keep _ _ _ _ _ _ _ E).
  - apply may_bind in H. destruct H as [([h x] & Hg & H)|(e & _ & H)]; [|discriminate]. apply may_ret_inv in H. injection H as ->.
    exact (hnew_usecase_grow _ _ _ _ _ _ _ _ _ _ _ _ Hg).
  - destruct (nth_error (s_cases s) c) as [x|]; [|apply may_raise_inv in H; discriminate].
    destruct (hadd_user _ _ _ _) as [[h' ks] e] eqn:E. apply or_raise_inv in H. destruct H as [-> ->]. exact (hadd_grow _ _ _ _ _ _ _ E).
  - destruct (nth_error (s_cases s) c) as [x|]; [|apply may_raise_inv in H; discriminate]. apply may_ret_inv in H. injection H as ->. exact (heap_refl _).
  - destruct (nth_error (s_cases s) c) as [x|]; [|apply may_raise_inv in H; discriminate]. apply may_ret_inv in H. injection H as ->. exact (heap_refl _).
  - destruct (nth_error (s_cases s) c) as [x|]; [|apply may_raise_inv in H; discriminate]. apply may_ret_inv in H. injection H as ->. exact (heap_refl _).
  - destruct (nth_error (s_cases s) c) as [x|]; [|apply may_raise_inv in H; discriminate].
    apply may_bind in H. destruct H as [([[h' x'] e] & Hg & H)|(e & _ & H)]; [|discriminate]. apply or_raise_inv in H. cbn [fst snd] in H. destruct H as [-> ->].
    exact (proj1 (hinitialize_grow _ _ _ _ _ _ _ _ _ _ Hg eq_refl)).
  - destruct (nth_error (s_cases s) c) as [x|]; [|apply may_raise_inv in H; discriminate].
    apply may_bind in H. destruct H as [([[h' x'] e] & Hg & H)|(e & _ & H)]; [|discriminate]. apply may_ret_inv in H. injection H as ->.
    exact (hgenerate_grow _ _ _ _ _ _ _ _ _ Hg).
Qed.
Lemma run_grow depth F strict w : forall ts s s', may (run_session depth F strict w s ts) (Ok s') -> heap_grow (s_heap s) (s_heap s').
Proof.
  induction ts as [|t ts IH]; intros s s' H; cbn [run_session] in H.
  - apply may_ret_inv in H. injection H as ->. apply heap_refl.
  - apply may_bind in H. destruct H as [(s1 & H1 & H)|(e & _ & H)]; [|discriminate].
    eapply heap_trans; [exact (step_grow _ _ _ _ _ _ _ H1)|exact (IH _ _ H)].
Qed.

(** ** C74 *)

(** the power stays the number given, and the number of values never shrinks *)
Theorem C74_constant depth F strict w ts s s' r v n :
  may (run_session depth F strict w s ts) (Ok s') -> constant_load s r v n -> constant_load s' r v n.
Proof.
  intros H (x & Hx & C & V & L). destruct (run_grow _ _ _ _ _ _ _ H r x Hx) as (x' & Hx' & _ & (G1 & G2 & _ & G4)).
  exists x'. split; [exact Hx'|]. split; [congruence|]. split; [apply G4; assumption|lia].
Qed.

(** a series stays the series given *)
Theorem C74_series depth F strict w ts s s' r x :
  may (run_session depth F strict w s ts) (Ok s') -> nth_error (h_apps (s_heap s)) r = Some x -> constant_power (obj x) = false ->
  exists x', nth_error (h_apps (s_heap s')) r = Some x' /\ constant_power (obj x') = false /\ power (obj x') = power (obj x).
Proof.
  intros H Hx C. destruct (run_grow _ _ _ _ _ _ _ H r x Hx) as (x' & Hx' & _ & (G1 & _ & G3 & _)).
  exists x'. split; [exact Hx'|]. split; [congruence|]. exact (G3 C).
Qed.

(** add_appliance(power=v): one value more than the days of the user's use case if that is initialized, else 367 *)
Theorem C74_created depth F strict w s k p v wa c1 c2 c3 s' :
  may (stmt_step depth F strict w s (SAppliance k p (PConst v) wa c1 c2 c3)) (Ok s') ->
  exists u n x, nth_error (h_users (s_heap s)) k = Some u /\
    n = match hu_case u with
        | Some c => match days_of s c with Some m => m + 1 | None => 367 end
        | None => 367
        end /\
    constant_load s' (List.length (h_apps (s_heap s))) v n /\
    nth_error (h_apps (s_heap s')) (List.length (h_apps (s_heap s))) = Some x /\ owner x = k /\ zlen (power (obj x)) = Z.max 0 n.
Proof.
  cbn [stmt_step]. intros H. destruct (nth_error (h_users (s_heap s)) k) as [u|] eqn:U; [|apply may_raise_inv in H; discriminate].
  destruct (add_appliance_kw _ _ _ _ _ _ _ _ _ _) as [g e] eqn:E. apply or_raise_inv in H. destruct H as [-> ->].
  destruct (add_kw_keep _ _ _ _ _ _ _ _ _ _ _ E) as (a & A & K). cbn [new_appliance] in A.
  set (n := user_num_days (days_of s) u) in *. set (r := List.length (h_apps (s_heap s))).
  destruct (K r a) as (a' & Ha & P & C).
  { cbn [objects reg_of]. rewrite nth_error_app2; rewrite map_length; [|unfold r; lia]. unfold r. rewrite Nat.sub_diag. reflexivity. }
  injection A as <-. cbn [power constant_power] in P, C.
  pose proof (back_nth (s_heap s) k u g r a' Ha) as B.
  assert (N : nth_error (h_apps (s_heap s)) r = None) by (apply nth_error_None; unfold r; lia). rewrite N in B.
  exists u, (n + 1), (HApp a' k). split; [reflexivity|]. split.
  { unfold n, user_num_days. destruct (hu_case u) as [c|]; [destruct (days_of s c)|]; reflexivity. }
  cbn [s_heap]. assert (L : zlen (power a') = Z.max 0 (n + 1)) by (rewrite P, zlen_repeat; lia). split.
  { exists (HApp a' k). split; [exact B|]. cbn [obj]. split; [exact C|]. split; [|lia].
    rewrite P. apply Forall_forall. intros q Hq. exact (repeat_spec _ _ _ Hq). }
  split; [exact B|]. split; [reflexivity|exact L].
Qed.

(** After a successful initialize that was not skipped, each appliance the use case has collected has its number on each of the
    days, and keeps it in every continuation of the program. *)
Theorem C74_days_partial depth F strict w s c num enl force s1 ts s2 x r v n d :
  nth_error (s_cases s) c = Some x -> (is_initialized (hc x) = true -> force = true) ->
  In r (hc_apps x) -> constant_load s r v 0 ->
  may (stmt_step depth F strict w s (SInit c num enl force)) (Ok s1) -> days_of s1 c = Some n ->
  may (run_session depth F strict w s1 ts) (Ok s2) -> 0 <= d < n -> power_on s2 r d = Ok v.
Proof.
  intros Hx Hf Hr Hc H1 Hn H2 Hd. apply (constant_power_on s2 r v n d); [|exact Hd].
  eapply C74_constant; [exact H2|].
  assert (Hc1 : constant_load s1 r v 0).
  { apply (C74_constant depth F strict w [SInit c num enl force] s); [|exact Hc]. cbn [run_session]. apply may_bind. left. exists s1. split; [exact H1|constructor]. }
  cbn [stmt_step] in H1. rewrite Hx in H1. apply may_bind in H1. destruct H1 as [([[h' x'] e] & Hg & H)|(e & _ & H)]; [|discriminate].
  apply or_raise_inv in H. cbn [fst snd] in H. destruct H as [-> ->].
  destruct (hinitialize_grow _ _ _ _ _ _ _ _ _ _ Hg eq_refl) as [_ A].
  assert (Hi : is_initialized (hc x) && negb force = false).
  { destruct (is_initialized (hc x)); [rewrite Hf; reflexivity|reflexivity]. }
  unfold days_of in Hn. cbn [s_cases] in Hn. rewrite (list_set_here _ _ _ _ Hx) in Hn. destruct (is_initialized (hc x')); [|discriminate].
  destruct (A Hi r n Hn Hr) as (y & Hy & Ly). destruct Hc1 as (y' & Hy' & Cy & Vy & _). cbn [s_heap] in *.
  exists y'. split; [exact Hy'|]. split; [exact Cy|]. split; [exact Vy|]. replace y' with y by congruence. exact Ly.
Qed.

(** the same for UseCase(users, date_start, date_end), which initializes at once: all appliances of its users *)
Theorem C74_constructor_partial depth F strict w s us start stop par enl seed s1 ts s2 k u r v n d :
  may (stmt_step depth F strict w s (SCase us (Some start) (Some stop) par enl seed)) (Ok s1) ->
  In (Some k) (leaves us) -> nth_error (h_users (s_heap s)) k = Some u -> In r (hu_apps u) -> constant_load s r v 0 ->
  days_of s1 (List.length (s_cases s)) = Some n ->
  may (run_session depth F strict w s1 ts) (Ok s2) -> 0 <= d < n -> power_on s2 r d = Ok v.
Proof.
  intros H1 Hk Hu Hr Hc Hn H2 Hd. apply (constant_power_on s2 r v n d); [|exact Hd].
  eapply C74_constant; [exact H2|].
  assert (Hc1 : constant_load s1 r v 0).
  { apply (C74_constant depth F strict w [SCase us (Some start) (Some stop) par enl seed] s); [|exact Hc]. cbn [run_session]. apply may_bind. left. exists s1. split; [exact H1|constructor]. }
  cbn [stmt_step] in H1. apply may_bind in H1. destruct H1 as [([h' x'] & Hg & H)|(e & _ & H)]; [|discriminate].
  apply may_ret_inv in H. injection H as ->. unfold days_of in Hn. cbn [s_cases fst snd] in Hn.
  rewrite nth_error_app2, Nat.sub_diag in Hn by lia. cbn [nth_error] in Hn. destruct (is_initialized (hc x')); [|discriminate].
  unfold hnew_usecase in Hg. destruct (hadd_user (List.length (s_cases s)) (s_heap s) [] us) as [[h1 ks] [e|]] eqn:E; [apply may_raise_inv in Hg; discriminate|].
  rewrite hadd_spec in E. cbn [app] in E.
  destruct (existsb is_bad (leaves us)) eqn:B; [discriminate|].
  injection E as <- <-.
  assert (Ink : In k (first_users (leaves us))).
  { clear -Hk B. induction (leaves us) as [|[j|] l IH]; cbn in *; [contradiction| |discriminate].
    destruct Hk as [Hk|Hk]; [injection Hk as ->; left; reflexivity|right; apply IH; assumption]. }
  set (h1 := bind_users (s_heap s) (List.length (s_cases s)) (first_users (leaves us))) in *.
  assert (Inr : In r (hcollect h1 (first_users (leaves us)))).
  { unfold hcollect. apply in_flat_map. exists k. split; [exact Ink|]. unfold h1. rewrite (bind_users_at _ _ _ _ _ Hu). destruct (existsb (Nat.eqb k) (first_users (leaves us))); exact Hr. }
  apply may_bind in Hg. destruct Hg as [([h2 x2] & Hi & Hg)|(e & _ & Hg)]; [|discriminate].
  assert (K : (h2, x2) = (h', x')).
  { destruct (seed_of seed); [inversion Hg as [| | | | |? ? ? Hz]; subst; apply may_ret_inv in Hz; congruence|apply may_ret_inv in Hg; congruence]. }
  injection K as -> ->. apply may_bind in Hi. destruct Hi as [([[h3 x3] e] & Hi & H)|(e & _ & H)]; [|discriminate]. cbn [fst snd] in H.
  destruct e; [apply may_raise_inv in H; discriminate|]. apply may_ret_inv in H. injection H as <- <-.
  destruct (hinitialize_grow _ _ _ _ _ _ _ _ _ _ Hi eq_refl) as [_ A]. destruct (A eq_refl r n Hn Inr) as (y & Hy & Ly).
  destruct Hc1 as (y' & Hy' & Cy & Vy & _). cbn [s_heap fst] in *.
  exists y'. split; [exact Hy'|]. split; [exact Cy|]. split; [exact Vy|]. replace y' with y by congruence. exact Ly.
Qed.

(** Created while the user has no initialized use case: the number holds on the days 0..366 of every simulation, collected or not. *)
Theorem C74_year_partial depth F strict w s k u p v wa c1 c2 c3 s1 ts s2 d :
  nth_error (h_users (s_heap s)) k = Some u -> (forall c, hu_case u = Some c -> days_of s c = None) ->
  may (stmt_step depth F strict w s (SAppliance k p (PConst v) wa c1 c2 c3)) (Ok s1) ->
  may (run_session depth F strict w s1 ts) (Ok s2) -> 0 <= d < 367 -> power_on s2 (List.length (h_apps (s_heap s))) d = Ok v.
Proof.
  intros Hu Hi H1 H2 Hd. destruct (C74_created _ _ _ _ _ _ _ _ _ _ _ _ _ H1) as (u' & n & x & Hu' & Hn & Hc & _).
  replace u' with u in Hn by congruence. apply (constant_power_on s2 _ v 367 d); [|exact Hd]. eapply C74_constant; [exact H2|].
  replace 367 with n; [exact Hc|]. rewrite Hn. destruct (hu_case u) as [c|]; [rewrite (Hi c eq_refl)|]; reflexivity.
Qed.

(** ** Listing and collecting *)

Lemma upd_refs g r f : refs (update_object g r f) = refs g.
Proof. unfold update_object. destruct (deref g r); reflexivity. Qed.
Lemma register_refs strict g r g' : register strict g r = Ok g' -> (exists new, refs g' = refs g ++ new) /\
  exists a, nth_error (objects g') r = Some a /\
    (In r (refs g') \/ exists r' x, In r' (refs g') /\ nth_error (objects g') r' = Some x /\ app_eq strict x a = Ok true).
Proof.
  intros H. unfold register in H. destruct (deref g r) as [a|] eqn:D; [|discriminate].
  destruct (User.member strict g a r (refs g)) as [found|] eqn:M; cbn [rbind] in H; [|discriminate].
  apply member_spec in M. destruct found; injection H as <-.
  - split; [exists []; now rewrite app_nil_r|]. exists a. split; [exact D|]. destruct M as (r' & Hr & [->|(x & Hx & E)]); [left; exact Hr|right; exists r', x; auto].
  - cbn [refs objects]. split; [eauto|]. assert (L : (r < List.length (objects g))%nat) by (apply nth_error_Some; unfold deref in D; congruence).
    rewrite list_set_nth_error, Nat.eqb_refl. apply Nat.ltb_lt in L. rewrite L. eexists. split; [reflexivity|]. left. apply in_or_app. right. left. reflexivity.
Qed.
Lemma windows_on_refs F strict g r w1 w2 rvw w3 g' e : windows_on F strict g r w1 w2 rvw w3 = (g', e) -> exists new, refs g' = refs g ++ new.
Proof.
  unfold windows_on. destruct (deref g r) as [a|]; [|intros H; injection H as <- _; exists []; now rewrite app_nil_r].
  destruct (windows F a w1 w2 rvw w3) as [a' [x|]]; [intros H; injection H as <- _; exists []; now rewrite upd_refs, app_nil_r|].
  cbv zeta. set (g1 := update_object g r _). assert (E1 : refs g1 = refs g) by apply upd_refs.
  destruct (register strict g1 r) as [g2|] eqn:R.
  - intros H. injection H as <- _. destruct (register_refs _ _ _ _ R) as ((new & Hn) & _). exists new. rewrite <- E1, <- Hn. apply upd_refs.
  - intros H. injection H as <- _. exists []. rewrite app_nil_r. exact E1.
Qed.
Lemma cycle_on_refs g r i c g' e : cycle_on g r i c = (g', e) -> refs g' = refs g.
Proof.
  unfold cycle_on. destruct (deref g r) as [a|]; [|intros H; now injection H as <- _]. destruct (apply_cycle_args _ _) as [c' e'].
  intros H. injection H as <- _. apply upd_refs.
Qed.

(** add_appliance: the user's list is kept and the new appliance is in it, or one equal to it is; the other users' lists stay *)
Theorem C74_listed depth F strict w s k p pw wa c1 c2 c3 s' :
  may (stmt_step depth F strict w s (SAppliance k p pw wa c1 c2 c3)) (Ok s') ->
  exists u u' x, nth_error (h_users (s_heap s)) k = Some u /\ nth_error (h_users (s_heap s')) k = Some u' /\
    (exists new, hu_apps u' = hu_apps u ++ new) /\ hu_case u' = hu_case u /\
    nth_error (h_apps (s_heap s')) (List.length (h_apps (s_heap s))) = Some x /\ owner x = k /\
    (In (List.length (h_apps (s_heap s))) (hu_apps u') \/
     exists r' x', In r' (hu_apps u') /\ nth_error (h_apps (s_heap s')) r' = Some x' /\ app_eq strict (obj x') (obj x) = Ok true) /\
    (forall j, j <> k -> nth_error (h_users (s_heap s')) j = nth_error (h_users (s_heap s)) j) /\ s_cases s' = s_cases s.
Proof.
  cbn [stmt_step]. intros H. destruct (nth_error (h_users (s_heap s)) k) as [u|] eqn:U; [|apply may_raise_inv in H; discriminate].
  destruct (add_appliance_kw _ _ _ _ _ _ _ _ _ _) as [g e] eqn:E. apply or_raise_inv in H. destruct H as [-> ->].
  assert (K : (exists new, refs g = hu_apps u ++ new) /\ exists a, nth_error (objects g) (List.length (h_apps (s_heap s))) = Some a /\
    (In (List.length (h_apps (s_heap s))) (refs g) \/ exists r' x, In r' (refs g) /\ nth_error (objects g) r' = Some x /\ app_eq strict x a = Ok true)).
  { unfold add_appliance_kw in E. destruct (new_appliance _ _ _) as [a|]; [|discriminate]. cbv zeta in E. cbn [reg_of objects refs] in E.
    rewrite map_length in E. set (r := List.length (h_apps (s_heap s))) in *. set (g0 := Registry _ _) in E.
    destruct (if any_window_arg wa then _ else _) as [g1 [e|]] eqn:E1; [discriminate|].
    assert (K1 : exists new, refs g1 = refs g0 ++ new) by (destruct (any_window_arg wa); [eapply windows_on_refs; exact E1|injection E1 as <-; exists []; now rewrite app_nil_r]). clear E1.
    destruct (if any_cycle_arg c1 then _ else _) as [g2 [e|]] eqn:E1; [discriminate|].
    assert (K2 : refs g2 = refs g1) by (destruct (any_cycle_arg c1); [eapply cycle_on_refs; exact E1|injection E1 as <-; reflexivity]). clear E1.
    destruct (if any_cycle_arg c2 then _ else _) as [g3 [e|]] eqn:E1; [discriminate|].
    assert (K3 : refs g3 = refs g2) by (destruct (any_cycle_arg c2); [eapply cycle_on_refs; exact E1|injection E1 as <-; reflexivity]). clear E1.
    destruct (if any_cycle_arg c3 then _ else _) as [g4 [e|]] eqn:E1; [discriminate|].
    assert (K4 : refs g4 = refs g3) by (destruct (any_cycle_arg c3); [eapply cycle_on_refs; exact E1|injection E1 as <-; reflexivity]). clear E1.
    destruct (register strict g4 r) as [g5|] eqn:R; [|discriminate]. injection E as <-. destruct (register_refs _ _ _ _ R) as ((new & Hn) & Ha).
    destruct K1 as (new1 & K1). split; [|exact Ha]. exists (new1 ++ new). rewrite Hn, K4, K3, K2, K1, app_assoc. reflexivity. }
  destruct K as (Hnew & a & Ha & Hin). pose proof (back_nth (s_heap s) k u g _ a Ha) as B.
  rewrite (proj2 (nth_error_None (h_apps (s_heap s)) (List.length (h_apps (s_heap s)))) ltac:(lia)) in B.
  exists u, (hset_apps u (refs g)), (HApp a k). cbn [s_heap s_cases back h_users]. split; [reflexivity|].
  split; [rewrite list_set_nth_error, Nat.eqb_refl; assert (L : (k < List.length (h_users (s_heap s)))%nat) by (apply nth_error_Some; congruence); apply Nat.ltb_lt in L; now rewrite L|].
  split; [exact Hnew|]. split; [reflexivity|]. split; [exact B|]. split; [reflexivity|]. cbn [hset_apps hu_apps obj]. split.
  - destruct Hin as [Hin|(r' & x & Hr & Hx & He)]; [left; exact Hin|]. right. exists r'. eexists. split; [exact Hr|].
    split; [apply (back_nth (s_heap s) k u g r' x Hx)|exact He].
  - split; [|reflexivity]. intros j Hj. rewrite list_set_nth_error. apply Nat.eqb_neq in Hj. now rewrite Hj.
Qed.

(** collect_appliances_from_users, then initialize: every appliance then in the list of a user of the use case has its number on each day *)
Theorem C74_collected_partial depth F strict w s c num enl force s1 s2 ts s3 x k u r v n d :
  nth_error (s_cases s) c = Some x -> (is_initialized (hc x) = true -> force = true) ->
  In k (hc_users x) -> nth_error (h_users (s_heap s)) k = Some u -> In r (hu_apps u) -> constant_load s r v 0 ->
  may (stmt_step depth F strict w s (SCollect c)) (Ok s1) ->
  may (stmt_step depth F strict w s1 (SInit c num enl force)) (Ok s2) -> days_of s2 c = Some n ->
  may (run_session depth F strict w s2 ts) (Ok s3) -> 0 <= d < n -> power_on s3 r d = Ok v.
Proof.
  intros Hx Hf Hk Hu Hr Hc H1 H2 Hn H3 Hd. cbn [stmt_step] in H1. rewrite Hx in H1. apply may_ret_inv in H1. injection H1 as ->.
  refine (C74_days_partial depth F strict w _ c num enl force s2 ts s3 (HCase (hc x) (hc_users x) (hcollect (s_heap s) (hc_users x))) r v n d _ Hf _ _ H2 Hn H3 Hd).
  - cbn [s_cases]. rewrite list_set_nth_error, Nat.eqb_refl. assert (L : (c < List.length (s_cases s))%nat) by (apply nth_error_Some; congruence).
    apply Nat.ltb_lt in L. now rewrite L.
  - cbn [hc_apps]. unfold hcollect. apply in_flat_map. exists k. split; [exact Hk|]. now rewrite Hu.
  - exact Hc.
Qed.
