(** * ProofsUser: lemmas about the User model *)
From Verif Require Import Base Wp Utils ListLemmas Appliance User Spec SpecUser Sim.
From Coq Require Import ZifyBool ZifyNat.

(** ** Profiles have 1440 entries, whatever the parameters *)

Lemma np_fill_slice_len d a b n v d' : np_fill_slice d a b n v = Ok d' -> List.length d' = List.length d.
Proof.
  unfold np_fill_slice. destruct (n <? 0); [discriminate|]. cbv zeta.
  destruct (_ || _); [|discriminate]. intros H. injection H as <-. apply write_from_length.
Qed.

Lemma fill_windows_len ws : forall d v d', fill_windows d ws v = Ok d' -> List.length d' = List.length d.
Proof.
  induction ws as [|w ws IH]; intros d v d' H; cbn in H; [injection H as <-; reflexivity|].
  unfold fill_window in H. destruct (np_fill_slice d (fst w) (snd w) (diff w) v) as [d1|] eqn:E; [|discriminate].
  cbn in H. rewrite (IH _ _ _ H). exact (np_fill_slice_len _ _ _ _ _ _ E).
Qed.

Lemma np_put_from_len ix : forall j d vals d', np_put_from j d ix vals = Ok d' -> List.length d' = List.length d.
Proof.
  induction ix as [|i ix IH]; intros j d vals d' H; cbn [np_put_from] in H; [injection H as <-; reflexivity|].
  destruct (_ || _); [discriminate|]. rewrite (IH _ _ _ _ H). apply list_set_length.
Qed.

Lemma np_put_len d ix vals d' : np_put d ix vals = Ok d' -> List.length d' = List.length d.
Proof. destruct vals; cbn; [intros H; injection H as <-; reflexivity|apply np_put_from_len]. Qed.

Lemma rsw_daily depth F a rt : forall d,
  wp (rand_switch_on_window depth F a d rt)
     (fun r => match r with Ok x => daily_use (snd x) = daily_use d | Err _ => True end).
Proof.
  induction depth as [|depth IH]; intros d; cbn [rand_switch_on_window]; [exact I|].
  destruct (_ >? 0); [|reflexivity].
  apply wp_bind_ok, wp_intro. intros [j|] _; cbn [wpk]; [|exact I].
  apply wp_bind_ok, wp_intro. intros [x|] _; cbn [wpk]; [|exact I].
  destruct (find_spot _ _ _) as [s|]; [|exact I].
  apply wp_bind_ok, wp_intro. intros [ix|] _; cbn [wpk]; [|exact I].
  destruct (_ >? 0); [|reflexivity].
  apply wp_bind_ok, wp_intro. intros [lo|] _; cbn [wpk]; [|exact I].
  apply wp_bind_ok, wp_intro. intros [hi|] _; cbn [wpk]; [|exact I].
  destruct (select_cycle a lo hi); [reflexivity|apply IH].
Qed.

Lemma use_event_len F a d peak pw ix :
  wp (use_event F a d peak pw ix)
     (fun r => match r with Ok x => List.length (daily_use (fst x)) = List.length (daily_use d) | Err _ => True end).
Proof.
  unfold use_event.
  do 5 (apply wp_bind_ok, wp_intro; intros [?|] _; cbn [wpk]; [|exact I]).
  apply wp_bind_ok. unfold update_daily_use.
  apply wp_bind_ok, wp_intro. intros [vals|] _; cbn [wpk]; [|exact I].
  apply wp_bind_ok. apply wp_lift. destruct (np_put (daily_use d) ix vals) as [du|] eqn:E; cbn [wpk]; [|exact I].
  apply wp_bind_ok. apply wp_lift. destruct (update_available_time _ _); cbn [wpk]; [|exact I].
  cbn. exact (np_put_len _ _ _ _ E).
Qed.

Lemma use_loop_len fuel depth F a peak pw rt : forall tot d evs,
  wp (use_loop fuel depth F a peak pw rt tot d evs)
     (fun r => match r with Ok x => List.length (daily_use (fst x)) = List.length (daily_use d) | Err _ => True end).
Proof.
  induction fuel as [|fuel IH]; intros tot d evs; cbn [use_loop]; [exact I|].
  destruct (_ && _); [|reflexivity].
  apply wp_bind_ok. eapply wp_mono; [|apply rsw_daily]. intros [[o d1]|] Hd; cbn [wpk]; [|exact I].
  cbn [fst snd] in *. destruct o as [ix|]; [|cbn; congruence]. cbv zeta.
  destruct (_ >? rt).
  - destruct (_ >? 0); [|cbn; congruence].
    apply wp_bind_ok. eapply wp_mono; [|apply use_event_len]. intros [x|] Hx; cbn [wpk wp]; [|exact I]. cbn. congruence.
  - apply wp_bind_ok. eapply wp_mono; [|apply use_event_len]. intros [x|] Hx; cbn [wpk]; [|exact I].
    eapply wp_mono; [|apply IH]. intros [y|]; [congruence|auto].
Qed.

Lemma arc_daily F a d :
  wp (assign_random_cycles F a d) (fun r => match r with Ok x => daily_use x = daily_use d | Err _ => True end).
Proof.
  unfold assign_random_cycles. destruct (_ >=? 1); [|reflexivity].
  do 3 (apply wp_bind_ok, wp_intro; intros [?|] _; cbn [wpk]; [|exact I]).
  destruct (_ >=? 2); [|reflexivity].
  do 3 (apply wp_bind_ok, wp_intro; intros [?|] _; cbn [wpk]; [|exact I]).
  destruct (_ >=? 3); [|reflexivity].
  do 5 (apply wp_bind_ok, wp_intro; intros [?|] _; cbn [wpk]; [|exact I]). reflexivity.
Qed.

Lemma glp_len depth F a pref i peak dt pw a' :
  may (generate_load_profile depth F a pref i peak dt pw) (Ok a') ->
  List.length (daily_use (st a')) = day_minutes.
Proof.
  intros H. pattern (Ok a'). set (P := fun r : res appliance => _).
  assert (W : wp (generate_load_profile depth F a pref i peak dt pw)
     (fun r => match r with Ok x => List.length (daily_use (st x)) = day_minutes | Err _ => True end)).
  2:{ exact (wp_elim _ _ _ W H). }
  unfold generate_load_profile. apply wp_bind_ok.
  unfold generate_load_profile_traced. cbv zeta.
  assert (Z0 : List.length (zeros day_minutes) = day_minutes) by apply repeat_length.
  apply wp_bind_ok, wp_intro. intros [u|] _; cbn [wpk]; [|exact I].
  destruct (skip_day a pref dt u); [cbn [wp wpk]; exact Z0|].
  do 3 (apply wp_bind_ok, wp_intro; intros [?|] _; cbn [wpk]; [|exact I]).
  apply wp_bind_ok, wp_intro. intros [rt|] _; cbn [wpk]; [|exact I].
  destruct (String.eqb (flat (par a)) "yes").
  - apply wp_bind_ok, wp_intro. intros [p|] _; cbn [wpk]; [|exact I].
    apply wp_bind_ok. apply wp_lift. destruct (fill_windows _ _ _) as [du|] eqn:E; cbn [wpk]; [|exact I].
    apply fill_windows_len in E. cbn [daily_use set_daily_use] in E. cbn [wp wpk]. cbn [fst st set_st daily_use set_daily_use]. congruence.
  - apply wp_bind_ok. apply wp_lift. destruct (fill_windows _ _ _) as [du|] eqn:E; cbn [wpk]; [|exact I].
    apply fill_windows_len in E. cbn [daily_use set_daily_use] in E.
    apply wp_bind_ok. eapply wp_mono; [|apply arc_daily]. intros [d1|] Hd; cbn [wpk]; [|exact I].
    apply wp_bind_ok. eapply wp_mono; [|apply use_loop_len]. intros [x|] Hx; cbn [wpk]; [|exact I].
    cbn [wp wpk fst st set_st]. cbn [daily_use set_free_spots set_daily_use] in Hx, Hd. congruence.
Qed.

(** ** Independence of the run-time state *)

Lemma same_declared_app a b : same_declared a b <-> same_app a b.
Proof. reflexivity. Qed.

Lemma glp_same depth F a pref i peak dt pw a' :
  may (generate_load_profile depth F a pref i peak dt pw) (Ok a') -> same_declared a a'.
Proof.
  intros H. destruct (psim_may _ _ _ _ (glp_sim depth F a a pref i peak dt pw (same_app_refl a)) H) as (b & _ & K & _). exact K.
Qed.

Lemma app_day_len depth F i peak dt pref a l : app_day depth F i peak dt pref a l -> List.length l = day_minutes.
Proof. intros (pw & a' & _ & H & <-). exact (glp_len _ _ _ _ _ _ _ _ _ H). Qed.

Lemma app_day_same depth F i peak dt pref a b l :
  same_declared a b -> app_day depth F i peak dt pref a l -> app_day depth F i peak dt pref b l.
Proof.
  intros Hs (pw & a' & Hp & H & <-).
  destruct (psim_may _ _ _ _ (glp_sim depth F a b pref i peak dt pw Hs) H) as (b' & Hb & _ & _ & E).
  exists pw, b'. split; [rewrite (same_app_power a b Hs); exact Hp|]. split; [exact Hb|congruence].
Qed.

Lemma same_declared_refl a : same_declared a a. Proof. apply same_app_refl. Qed.
Lemma same_declared_sym a b : same_declared a b -> same_declared b a. Proof. apply same_app_sym. Qed.
Lemma same_declared_trans a b c : same_declared a b -> same_declared b c -> same_declared a c. Proof. apply same_app_trans. Qed.

Lemma Forall2_refl {A} (R : A -> A -> Prop) l : (forall x, R x x) -> Forall2 R l l.
Proof. intros H; induction l; constructor; auto. Qed.
Lemma Forall2_sym {A} (R : A -> A -> Prop) l l' : (forall x y, R x y -> R y x) -> Forall2 R l l' -> Forall2 R l' l.
Proof. intros H; induction 1; constructor; auto. Qed.
Lemma Forall2_trans {A B C} (R : A -> B -> Prop) (S : B -> C -> Prop) (T : A -> C -> Prop) l l' l'' :
  (forall x y z, R x y -> S y z -> T x z) -> Forall2 R l l' -> Forall2 S l' l'' -> Forall2 T l l''.
Proof.
  intros H H1. revert l''. induction H1; intros l'' H2; inversion H2; subst; constructor; eauto.
Qed.

Lemma same_user_refl u : same_user u u.
Proof. repeat split. apply Forall2_refl. apply same_declared_refl. Qed.
Lemma same_user_sym u v : same_user u v -> same_user v u.
Proof.
  intros (H1 & H2 & H3 & H4). repeat split; try congruence.
  eapply Forall2_sym; [|exact H4]. apply same_declared_sym.
Qed.
Lemma same_user_trans u v w : same_user u v -> same_user v w -> same_user u w.
Proof.
  intros (H1 & H2 & H3 & H4) (K1 & K2 & K3 & K4). repeat split; try congruence.
  eapply Forall2_trans; [|exact H4|exact K4]. apply same_declared_trans.
Qed.

Lemma same_user_load u v l : same_user u v -> same_user u (set_load v l).
Proof. intros H; exact H. Qed.

(** ** Generation *)

Lemma generate_apps_may depth F pref i peak dt : forall apps acc apps' l,
  may (generate_apps depth F pref i peak dt apps acc) (Ok (apps', l)) ->
  Forall2 same_declared apps apps' /\
  exists ls, Forall2 (app_day depth F i peak dt pref) apps ls /\ l = fold_left (vadd F) ls acc.
Proof.
  induction apps as [|a apps IH]; intros acc apps' l H; cbn [generate_apps] in H.
  - apply may_ret_inv in H. injection H as -> ->. split; [constructor|]. exists []. split; [constructor|reflexivity].
  - apply may_bind in H. destruct H as [(pw & Hp & H)|(e & _ & H)]; [|discriminate].
    apply may_lift in Hp. symmetry in Hp.
    apply may_bind in H. destruct H as [(a' & Ha & H)|(e & _ & H)]; [|discriminate].
    apply may_bind in H. destruct H as [([apps1 l1] & Hr & H)|(e & _ & H)]; [|discriminate].
    apply may_ret_inv in H. cbn in H. injection H as -> ->.
    destruct (IH _ _ _ Hr) as (Hs & ls & Hls & ->). split.
    + constructor; [|exact Hs]. exact (glp_same _ _ _ _ _ _ _ _ _ Ha).
    + exists (daily_use (st a') :: ls). split; [|reflexivity]. constructor; [|exact Hls].
      exists pw, a'. auto.
Qed.

Lemma generate_apps_conv depth F pref i peak dt : forall apps acc ls,
  Forall2 (app_day depth F i peak dt pref) apps ls ->
  exists apps', may (generate_apps depth F pref i peak dt apps acc) (Ok (apps', fold_left (vadd F) ls acc)).
Proof.
  intros apps acc ls H. revert acc. induction H as [|a l apps ls (pw & a' & Hp & Ha & <-) H IH]; intros acc.
  - exists []. constructor.
  - destruct (IH (vadd F acc (daily_use (st a')))) as (apps' & Hr). exists (a' :: apps').
    cbn [generate_apps]. apply may_bind. left. exists pw. split; [apply may_lift; congruence|].
    apply may_bind. left. exists a'. split; [exact Ha|].
    apply may_bind. left. eexists. split; [exact Hr|]. constructor.
Qed.

Lemma draw_pref_may u p : may (draw_pref u) (Ok p) <-> pref_of_day u p.
Proof.
  unfold draw_pref, pref_of_day. destruct (Z.eqb_spec (user_preference u) 0) as [E|E].
  - rewrite may_ret_inv. split; [intros H; injection H as ->; left; auto|intros [[_ ->]|[H _]]; [reflexivity|contradiction]].
  - rewrite may_randint. split.
    + intros [[_ H]|(x & Hx & H)]; [discriminate|injection H as ->; right; auto].
    + intros [[H _]|[_ H]]; [contradiction|]. right. exists p. auto.
Qed.

Lemma member_day_same depth F u v i peak dt m :
  same_user u v -> member_day depth F u i peak dt m -> member_day depth F v i peak dt m.
Proof.
  intros (H1 & H2 & H3 & H4) [Hp Hd]. split.
  - unfold pref_of_day in *. rewrite H3. exact Hp.
  - apply Forall2_sym with (R := same_declared) in H4; [|apply same_declared_sym].
    eapply Forall2_trans; [|exact H4|exact Hd]. intros x y z Hxy. apply app_day_same. now apply same_declared_sym.
Qed.

Lemma generate_single_may depth F u i peak dt u' l :
  may (generate_single_load_profile depth F u i peak dt) (Ok (u', l)) ->
  same_user u u' /\ load u' = load u /\ exists m, member_day depth F u i peak dt m /\ l = sum_rows F (snd m) /\ rand_daily_pref u' = fst m.
Proof.
  unfold generate_single_load_profile. intros H.
  apply may_bind in H. destruct H as [(p & Hp & H)|(e & _ & H)]; [|discriminate].
  apply draw_pref_may in Hp.
  apply may_bind in H. destruct H as [([apps l1] & Ha & H)|(e & _ & H)]; [|discriminate].
  apply may_ret_inv in H. cbn in H. injection H as -> ->.
  destruct (generate_apps_may _ _ _ _ _ _ _ _ _ _ Ha) as (Hs & ls & Hls & ->).
  split; [repeat split; auto|]. split; [reflexivity|]. exists (p, ls). split; [split; assumption|]. auto.
Qed.

Lemma generate_single_conv depth F u i peak dt m :
  member_day depth F u i peak dt m ->
  exists u', may (generate_single_load_profile depth F u i peak dt) (Ok (u', sum_rows F (snd m))).
Proof.
  intros [Hp Hd]. destruct (generate_apps_conv _ _ _ _ _ _ _ (zeros day_minutes) _ Hd) as (apps' & Ha).
  eexists. unfold generate_single_load_profile. apply may_bind. left. exists (fst m).
  split; [apply draw_pref_may; exact Hp|]. apply may_bind. left. eexists. split; [exact Ha|]. constructor.
Qed.

Lemma generate_members_may depth F i peak dt : forall n u u',
  may (generate_members n depth F u i peak dt) (Ok u') ->
  same_user u u' /\ exists ms, List.length ms = n /\ Forall (member_day depth F u i peak dt) ms /\
    load u' = fold_left (vadd F) (map (fun m => sum_rows F (snd m)) ms) (load u).
Proof.
  induction n as [|n IH]; intros u u' H; cbn [generate_members] in H.
  - apply may_ret_inv in H. injection H as ->. split; [apply same_user_refl|]. exists []. repeat split; constructor.
  - apply may_bind in H. destruct H as [([u1 l] & H1 & H)|(e & _ & H)]; [|discriminate]. cbn [fst snd] in H.
    destruct (generate_single_may _ _ _ _ _ _ _ _ H1) as (Hs & Hl & m & Hm & -> & _).
    destruct (IH _ _ H) as (Hs2 & ms & Hlen & Hms & Hload).
    split.
    + eapply same_user_trans; [exact Hs|]. exact Hs2.
    + exists (m :: ms). split; [cbn; congruence|]. split.
      * constructor; [exact Hm|]. eapply Forall_impl; [|exact Hms]. intros m' Hm'.
        eapply member_day_same; [|exact Hm']. apply same_user_sym. exact Hs.
      * rewrite Hload. cbn [map fold_left set_load load]. rewrite Hl. reflexivity.
Qed.

Lemma generate_members_conv depth F i peak dt : forall ms u,
  Forall (member_day depth F u i peak dt) ms ->
  exists u', may (generate_members (List.length ms) depth F u i peak dt) (Ok u') /\
    load u' = fold_left (vadd F) (map (fun m => sum_rows F (snd m)) ms) (load u).
Proof.
  induction ms as [|m ms IH]; intros u H; [exists u; split; [constructor|reflexivity]|].
  inversion H as [|? ? Hm Hms]; subst.
  destruct (generate_single_conv _ _ _ _ _ _ _ Hm) as (u1 & H1).
  destruct (generate_single_may _ _ _ _ _ _ _ _ H1) as (Hs & Hl & _).
  destruct (IH (set_load u1 (vadd F (load u1) (sum_rows F (snd m))))) as (u' & Hu & Hload).
  { eapply Forall_impl; [|exact Hms]. intros m' Hm'. eapply member_day_same; [|exact Hm']. exact Hs. }
  exists u'. split.
  - cbn [List.length generate_members]. apply may_bind. left. eexists. split; [exact H1|]. exact Hu.
  - rewrite Hload. cbn [map fold_left set_load load]. rewrite Hl. reflexivity.
Qed.

Lemma aggregated_may depth F u i peak dt u' :
  may (generate_aggregated_load_profile depth F u i peak dt) (Ok u') ->
  same_user u u' /\ exists ms, List.length ms = Z.to_nat (num_users u) /\
    Forall (member_day depth F u i peak dt) ms /\ load u' = sum_rows F (map (fun m => sum_rows F (snd m)) ms).
Proof.
  intros H. destruct (generate_members_may _ _ _ _ _ _ _ _ H) as (Hs & ms & Hl & Hm & Hload).
  split; [exact Hs|]. exists ms. split; [exact Hl|]. split; [|exact Hload].
  eapply Forall_impl; [|exact Hm]. intros m Hm'. eapply member_day_same; [|exact Hm']. apply same_user_sym, same_user_load, same_user_refl.
Qed.

Lemma aggregated_conv depth F u i peak dt ms :
  List.length ms = Z.to_nat (num_users u) -> Forall (member_day depth F u i peak dt) ms ->
  exists u', may (generate_aggregated_load_profile depth F u i peak dt) (Ok u') /\
    load u' = sum_rows F (map (fun m => sum_rows F (snd m)) ms).
Proof.
  intros Hl Hm. unfold generate_aggregated_load_profile. rewrite <- Hl.
  destruct (generate_members_conv depth F i peak dt ms (set_load u (zeros day_minutes))) as (u' & H & Hload).
  { eapply Forall_impl; [|exact Hm]. intros m Hm'. eapply member_day_same; [|exact Hm']. apply same_user_load, same_user_refl. }
  exists u'. split; [exact H|exact Hload].
Qed.

(** ** Minute-wise sums *)

Lemma vadd_len F : forall x y, List.length (vadd F x y) = Nat.min (List.length x) (List.length y).
Proof. induction x as [|a x IH]; intros [|b y]; cbn; auto. Qed.

Lemma sum_from_len F rows : forall acc, List.length acc = day_minutes -> Forall (fun l => List.length l = day_minutes) rows ->
  List.length (fold_left (vadd F) rows acc) = day_minutes.
Proof.
  induction rows as [|r rows IH]; intros acc Ha H; [exact Ha|].
  inversion H; subst. cbn [fold_left]. apply IH; [|assumption]. rewrite vadd_len, Ha. lia.
Qed.

Lemma sum_rows_len F rows : Forall (fun l => List.length l = day_minutes) rows -> List.length (sum_rows F rows) = day_minutes.
Proof. apply sum_from_len. apply repeat_length. Qed.

Lemma value_at_zeros t : value_at (zeros day_minutes) t = 0%Q.
Proof. exact (at_zeros t day_minutes). Qed.

Lemma value_at_vadd F x y t : List.length x = day_minutes -> List.length y = day_minutes -> 0 <= t < 1440 ->
  value_at (vadd F x y) t = fadd F (value_at x t) (value_at y t).
Proof.
  intros Hx Hy Ht. unfold value_at. apply vadd_nth; [congruence|]. rewrite Hx. unfold day_minutes. lia.
Qed.

Lemma sum_from_value F rows t : 0 <= t < 1440 -> forall acc, List.length acc = day_minutes ->
  Forall (fun l => List.length l = day_minutes) rows ->
  value_at (fold_left (vadd F) rows acc) t = fold_left (fadd F) (map (fun l => value_at l t) rows) (value_at acc t).
Proof.
  intros Ht. induction rows as [|r rows IH]; intros acc Ha H; [reflexivity|].
  inversion H; subst. cbn [fold_left map]. rewrite IH; [|rewrite vadd_len, Ha; lia|assumption].
  rewrite value_at_vadd by assumption. reflexivity.
Qed.

Lemma sum_rows_value F rows t : 0 <= t < 1440 -> Forall (fun l => List.length l = day_minutes) rows ->
  value_at (sum_rows F rows) t = fold_left (fadd F) (map (fun l => value_at l t) rows) 0%Q.
Proof.
  intros Ht H. unfold sum_rows. rewrite sum_from_value; [|assumption|apply repeat_length|assumption].
  rewrite value_at_zeros. reflexivity.
Qed.

Lemma fold_fadd_exact F l : exact F -> forall x, (fold_left (fadd F) l x == x + Qsum l)%Q.
Proof.
  intros HF. induction l as [|y l IH]; intros x; cbn [fold_left Qsum fold_right]; [ring|].
  rewrite IH. unfold fadd at 1. rewrite (HF (x + y)%Q). fold (Qsum l). ring.
Qed.

(** numpy's sum is the sum, in exact arithmetic *)
Lemma sum_lanes_exact F : exact F -> forall n l, (List.length l <= n)%nat -> forall r0 r1 r2 r3 r4 r5 r6 r7,
  (sum_lanes F r0 r1 r2 r3 r4 r5 r6 r7 l == r0 + r1 + r2 + r3 + r4 + r5 + r6 + r7 + Qsum l)%Q.
Proof.
  intros HF. assert (A : forall x y, (fadd F x y == x + y)%Q) by (intros; unfold fadd; apply HF).
  induction n as [|n IH]; intros l Hn r0 r1 r2 r3 r4 r5 r6 r7.
  - destruct l; [|cbn in Hn; lia]. cbn [sum_lanes fold_left Qsum fold_right]. rewrite !A. ring.
  - do 8 (destruct l as [|? l]; [cbn [sum_lanes]; rewrite (fold_fadd_exact F _ HF), !A; ring|]).
    cbn [sum_lanes]. rewrite IH by (cbn [List.length] in Hn; lia). rewrite !A. cbn [Qsum fold_right]. fold (Qsum l). ring.
Qed.
Lemma sum_block_exact F l : exact F -> (sum_block F l == Qsum l)%Q.
Proof.
  intros HF. do 8 (destruct l as [|? l]; [cbn [sum_block]; rewrite (fold_fadd_exact F _ HF); ring|]).
  cbn [sum_block]. rewrite (sum_lanes_exact F HF (List.length l) l (Nat.le_refl _)). cbn [Qsum fold_right]. fold (Qsum l). ring.
Qed.
Lemma Qsum_split n l : (Qsum l == Qsum (firstn n l) + Qsum (skipn n l))%Q.
Proof.
  revert l. induction n as [|n IH]; intros l; [change (Qsum l == 0 + Qsum l)%Q; ring|]. destruct l as [|x l]; [reflexivity|]. cbn [firstn skipn].
  change (x + Qsum l == (x + Qsum (firstn n l)) + Qsum (skipn n l))%Q. rewrite (IH l). ring.
Qed.
Lemma sum_halves_exact F : exact F -> forall n l, (sum_halves n F l == Qsum l)%Q.
Proof.
  intros HF. induction n as [|n IH]; intros l; cbn [sum_halves]; [apply sum_block_exact; exact HF|].
  destruct (Nat.leb (List.length l) 128); [apply sum_block_exact; exact HF|]. unfold fadd. rewrite (HF _), !IH. symmetry. apply Qsum_split.
Qed.
Lemma np_sum_exact F l : exact F -> (np_sum F l == Qsum l)%Q.
Proof. intros HF. apply sum_halves_exact. exact HF. Qed.

Lemma fold_fadd_nonneg F l : Forall (fun x => 0 <= x)%Q l -> forall x, (0 <= x)%Q -> (0 <= fold_left (fadd F) l x)%Q.
Proof.
  induction 1 as [|y l Hy H IH]; intros x Hx; [exact Hx|]. cbn [fold_left]. apply IH.
  unfold fadd. apply rnd_nonneg. lra.
Qed.

Lemma sum_rows_exact F rows t : exact F -> 0 <= t < 1440 -> Forall (fun l => List.length l = day_minutes) rows ->
  (value_at (sum_rows F rows) t == minute_sum t rows)%Q.
Proof.
  intros HF Ht H. rewrite sum_rows_value by assumption. rewrite fold_fadd_exact by assumption.
  unfold minute_sum. ring.
Qed.

Lemma sum_rows_nonneg F rows t : 0 <= t < 1440 -> Forall (fun l => List.length l = day_minutes) rows ->
  Forall (fun l => (0 <= value_at l t)%Q) rows -> (0 <= value_at (sum_rows F rows) t)%Q.
Proof.
  intros Ht H Hp. rewrite sum_rows_value by assumption. apply fold_fadd_nonneg; [|apply Qle_refl].
  rewrite Forall_forall in *. intros x Hx. apply in_map_iff in Hx. destruct Hx as (l & <- & Hl). auto.
Qed.

(** float sums of non negative numbers: relative error at most 2n * 2^-53 (plus underflow) *)
Lemma Qsum_nonneg l : Forall (fun x => 0 <= x)%Q l -> (0 <= Qsum l)%Q.
Proof. induction 1 as [|x l Hx H IH]; cbn; [apply Qle_refl|]. fold (Qsum l). lra. Qed.

Lemma Qmult_le_l_nonneg (a b c : Q) : (0 <= c)%Q -> (a <= b)%Q -> (c * a <= c * b)%Q.
Proof. intros Hc H. rewrite !(Qmult_comm c). now apply Qmult_le_compat_r. Qed.

Lemma fold_fadd_error F l : Forall (fun x => 0 <= x)%Q l ->
  forall k x S, (0 <= S)%Q -> (0 <= x)%Q -> (0 <= k)%Q -> (k + zq (zlen l) <= zq (2 ^ 52))%Q ->
  (Qabs (x - S) <= 2 * k * (eps53 * S + eta64))%Q ->
  (Qabs (fold_left (fadd F) l x - (S + Qsum l)) <= 2 * (k + zq (zlen l)) * (eps53 * (S + Qsum l) + eta64))%Q.
Proof.
  induction 1 as [|y l Hy H IH]; intros k x S HS Hx Hk Hb HE.
  - cbn [fold_left Qsum fold_right]. change (zq (zlen (@nil Q))) with 0%Q.
    setoid_replace (x - (S + 0))%Q with (x - S)%Q by ring. 
    setoid_replace (2 * (k + 0) * (eps53 * (S + 0) + eta64))%Q with (2 * k * (eps53 * S + eta64))%Q by ring. exact HE.
  - assert (Hz : (zq (zlen (y :: l)) == 1 + zq (zlen l))%Q).
    { rewrite zlen_cons. unfold zq. rewrite inject_Z_plus. change (inject_Z 1) with 1%Q. ring. }
    assert (Hl0 : (0 <= zq (zlen l))%Q) by (apply (proj2 (zq_le 0 (zlen l))), zlen_nonneg).
    cbn [fold_left Qsum fold_right]. fold (Qsum l).
    assert (E1 : (S + (y + Qsum l) == (S + y) + Qsum l)%Q) by ring. rewrite Hz in *. rewrite E1.
    assert (E2 : (k + (1 + zq (zlen l)) == (k + 1) + zq (zlen l))%Q) by ring. rewrite E2 in *.
    assert (HSy : (0 <= S + y)%Q) by lra.
    assert (He : (0 < eps53)%Q) by reflexivity. assert (Ht : (0 < eta64)%Q) by reflexivity.
    set (B := (eps53 * (S + y) + eta64)%Q).
    assert (HB : (eps53 * S + eta64 <= B)%Q) by (unfold B; nra).
    assert (HB0 : (0 <= eps53 * S + eta64)%Q) by nra.
    assert (H2k : (2 * k * eps53 <= 1)%Q).
    { assert (Hk2 : (k <= zq (2 ^ 52))%Q) by lra.
      apply Qle_trans with (2 * zq (2 ^ 52) * eps53)%Q; [|vm_compute; discriminate]. nra. }
    apply IH; try lra.
    + unfold fadd. apply rnd_nonneg. lra.
    + apply Qabs_Qle_condition in HE. destruct HE as [E3 E4].
      pose proof (rnd_err F (x + y)%Q) as R. rewrite (Qabs_pos (x + y)%Q) in R by lra.
      apply Qabs_Qle_condition in R. destruct R as [R1 R2]. unfold fadd.
      (* rounding of this step: at most eps (S + y) + eta, plus eps times the error so far *)
      assert (D : (2 * k * (eps53 * S + eta64) <= 2 * k * B)%Q) by (apply Qmult_le_l_nonneg; lra).
      assert (K : ((x + y) * eps53 + eta64 <= 2 * B)%Q).
      { assert (Hxy : (x + y <= S + y + 2 * k * B)%Q) by lra.
        assert (HxB : ((x + y) * eps53 <= (S + y) * eps53 + (2 * k * eps53) * B)%Q) by nra.
        assert (HkB : ((2 * k * eps53) * B <= 1 * B)%Q) by (apply Qmult_le_compat_r; lra).
        unfold B in *. lra. }
      fold B. apply Qabs_Qle_condition. split; lra.
Qed.
