(** * PropsLoad: theorems for C42, C43 and C52 *)
From Verif Require Import Base Wp Utils ListLemmas Appliance Attributes User Tabular Spec SpecDay SpecTabular
  ProofsUtils ProofsAppliance ProofsEq PropsUser PropsReg ProofsTabular.
From Coq Require Import ZifyBool ZifyNat.
Open Scope string_scope.
Open Scope list_scope.
Open Scope Z_scope.

(** ** C42: grouping and contradictions *)

(** [d] lists the elements of [l] in order of first appearance *)
Inductive first_seen {A} : list A -> list A -> Prop :=
| fs_nil : first_seen [] []
| fs_again l d x : first_seen l d -> In x l -> first_seen (l ++ [x]) d
| fs_new l d x : first_seen l d -> ~ In x l -> first_seen (l ++ [x]) (d ++ [x]).

(** the rows of one user name, in table order *)
Definition names_user (n : string) (r : row) : bool :=
  match row_get r "user_name" with CText s => String.eqb s n | _ => false end.
Definition rows_of_user (n : string) (t : table) : table := filter (names_user n) t.

(** two cells hold the same value *)
Definition same_cell (c c' : cell) : Prop :=
  match c, c' with
  | CBlank, CBlank => True
  | CNum x, CNum y => (x == y)%Q
  | CText s, CText s' => s = s'
  | _, _ => False
  end.

Lemma cell_same_iff c c' : cell_same c c' = true <-> same_cell c c'.
Proof.
  destruct c, c'; cbn; split; intros H; try discriminate; try contradiction; try reflexivity; try exact I.
  - apply Qeq_bool_iff. exact H.
  - apply Qeq_bool_iff. exact H.
  - apply String.eqb_eq. exact H.
  - apply String.eqb_eq. exact H.
Qed.
Lemma same_cell_sym c c' : same_cell c c' -> same_cell c' c.
Proof. destruct c, c'; cbn; auto; intros H; symmetry; exact H. Qed.
Lemma same_cell_trans c c' c'' : same_cell c c' -> same_cell c' c'' -> same_cell c c''.
Proof. destruct c, c', c''; cbn; try tauto; intros H H'; [rewrite H; exact H'|congruence]. Qed.

Lemma unique_snoc l x : unique (l ++ [x]) = unique l ++ (if existsb (fun y => cell_same y x) l then [] else [x]).
Proof.
  induction l as [|y l IH]; [reflexivity|]. cbn [app unique existsb]. rewrite IH, filter_app.
  f_equal. f_equal. destruct (existsb (fun z => cell_same z x) l); [rewrite orb_true_r; reflexivity|].
  rewrite orb_false_r. cbn [filter]. destruct (cell_same y x); reflexivity.
Qed.

Lemma unique_covers l x : In x l -> exists y, In y (unique l) /\ (y = x \/ cell_same y x = true).
Proof.
  induction l as [|y l IH]; intros H; [destruct H|]. cbn [unique]. destruct (cell_same y x) eqn:E; [exists y; split; [left; reflexivity|right; exact E]|].
  destruct H as [->|H]; [exists x; split; [left; reflexivity|left; reflexivity]|].
  destruct (IH H) as (z & Hz & Hs). exists z. split; [|exact Hs]. right. apply filter_In. split; [exact Hz|].
  destruct Hs as [->|Hs]; [rewrite E; reflexivity|]. destruct (cell_same y z) eqn:E2; [|reflexivity].
  exfalso. apply cell_same_iff in Hs, E2. assert (cell_same y x = true) by (apply cell_same_iff; eapply same_cell_trans; eassumption). congruence.
Qed.

Lemma first_seen_unique (l : list string) : exists d, first_seen l d /\ unique (map CText l) = map CText d.
Proof.
  induction l as [|x l (d & H & E)] using rev_ind; [exists []; split; [constructor|reflexivity]|].
  rewrite map_app. cbn [map]. rewrite unique_snoc, E. destruct (existsb (fun y => cell_same y (CText x)) (map CText l)) eqn:B.
  - exists d. split; [|rewrite app_nil_r; reflexivity]. constructor; [exact H|].
    apply existsb_exists in B. destruct B as (c & Hc & Hs). apply in_map_iff in Hc. destruct Hc as (s & <- & Hin).
    cbn in Hs. apply String.eqb_eq in Hs. subst. exact Hin.
  - exists (d ++ [x]). split; [|rewrite map_app; reflexivity]. constructor; [exact H|]. intros Hin.
    assert (C : existsb (fun y => cell_same y (CText x)) (map CText l) = true); [|congruence].
    apply existsb_exists. exists (CText x). split; [apply in_map; exact Hin|cbn; apply String.eqb_refl].
Qed.

(** reading changes the power cells only *)
Lemma set_cell_other r k k' c : k <> k' -> row_get (set_cell r k c) k' = row_get r k'.
Proof.
  intros H. unfold row_get. induction r as [|(k0, x) r IH]; [reflexivity|]. cbn [set_cell].
  destruct (String.eqb k k0) eqn:E; cbn [assoc].
  - apply String.eqb_eq in E. subst k0. destruct (String.eqb k' k) eqn:E'; [apply String.eqb_eq in E'; congruence|reflexivity].
  - destruct (String.eqb k' k0); [reflexivity|exact IH].
Qed.
Lemma read_row_get r r' k : read_row r = Ok r' -> k <> "power" -> row_get r' k = row_get r k.
Proof.
  intros H Hk. unfold read_row in H. destruct (assoc "power" r) as [c|]; [|discriminate].
  destruct (read_power c); [|discriminate]. injection H as <-. apply set_cell_other. congruence.
Qed.
Lemma map_res_Forall2 {A B} (f : A -> res B) l l' : map_res f l = Ok l' <-> Forall2 (fun x y => f x = Ok y) l l'.
Proof.
  split.
  - revert l'. induction l as [|x l IH]; intros l' H; cbn [map_res] in H.
    + injection H as <-. constructor.
    + destruct (f x) as [y|] eqn:E; [|discriminate]. cbn [rbind] in H. destruct (map_res f l) as [ys|] eqn:E2; [|discriminate].
      injection H as <-. constructor; [exact E|]. apply IH. reflexivity.
  - induction 1 as [|x y l l' H _ IH]; [reflexivity|]. cbn [map_res]. rewrite H. cbn [rbind]. rewrite IH. reflexivity.
Qed.
Lemma read_column t t' k : read_input_file t = Ok t' -> k <> "power" ->
  map (fun r => row_get r k) t' = map (fun r => row_get r k) t.
Proof.
  intros H Hk. apply map_res_Forall2 in H. induction H as [|r r' t t' Hr _ IH]; [reflexivity|]. cbn [map].
  rewrite IH, (read_row_get _ _ _ Hr Hk). reflexivity.
Qed.
Lemma rows_named_of t n : rows_named t (CText n) = rows_of_user n t.
Proof.
  unfold rows_named, rows_of_user. apply filter_ext. intros r. unfold names_user. destruct (row_get r "user_name"); reflexivity.
Qed.
Lemma read_rows_of t t' n : read_input_file t = Ok t' -> read_input_file (rows_of_user n t) = Ok (rows_of_user n t').
Proof.
  unfold read_input_file. intros H. apply map_res_Forall2 in H. apply map_res_Forall2. unfold rows_of_user.
  induction H as [|r r' t t' Hr _ IH]; [constructor|]. cbn [filter].
  assert (E : names_user n r' = names_user n r) by (unfold names_user; rewrite (read_row_get _ _ "user_name" Hr ltac:(discriminate)); reflexivity).
  rewrite E. destruct (names_user n r); [constructor; assumption|exact IH].
Qed.

(** what a successful load says about one user *)
Definition user_of_rows (F : fm) (strict : bool) (nd : Z) (rows : table) (u : user) : Prop :=
  exists rows' g, read_input_file rows = Ok rows' /\ rows <> [] /\
    Forall (fun r => exists q, row_get r "num_users" = CNum q /\ (q == zq (num_users u))%Q) rows /\
    Forall (fun r => exists q, row_get r "user_preference" = CNum q /\ (q == zq (user_preference u))%Q) rows /\
    add_rows F strict nd (Registry [] []) rows' = Ok g /\ app_list u = registered g.

Lemma unique_single l c : unique l = [c] -> l <> [] /\ Forall (fun x => x = c \/ cell_same c x = true) l.
Proof.
  intros H. split; [intros ->; discriminate|]. apply Forall_forall. intros x Hx.
  destruct (unique_covers l x Hx) as (y & Hy & Hs). rewrite H in Hy. destruct Hy as [<-|[]]. destruct Hs; auto.
Qed.
Lemma as_Z_inv c z : as_Z c = Ok z -> exists q, c = CNum q /\ (q == zq z)%Q.
Proof.
  destruct c; try discriminate. cbn. destruct (Qeq_bool q (zq (py_int q))) eqn:E; [|discriminate].
  intros H. injection H as <-. exists q. split; [reflexivity|]. apply Qeq_bool_iff. exact E.
Qed.
Lemma column_num t k c z : unique (map (fun r => row_get r k) t) = [c] -> as_Z c = Ok z ->
  Forall (fun r => exists q, row_get r k = CNum q /\ (q == zq z)%Q) t.
Proof.
  intros H Hz. destruct (as_Z_inv _ _ Hz) as (q & -> & Hq). apply unique_single in H. destruct H as [_ H].
  apply Forall_forall. intros r Hr. rewrite Forall_forall in H. destruct (H (row_get r k)) as [E|E].
  - apply in_map_iff. exists r. auto.
  - exists q. auto.
  - destruct (row_get r k) as [|q'| | |]; try discriminate. exists q'. split; [reflexivity|]. cbn in E. apply Qeq_bool_iff in E.
    rewrite <- E. exact Hq.
Qed.

Lemma load_user_ok F strict nd t c u : load_user F strict nd t c = Ok u ->
  c = CText (user_name u) /\ exists n p g,
    unique (map (fun r => row_get r "num_users") (rows_named t c)) = [n] /\ as_Z n = Ok (num_users u) /\
    unique (map (fun r => row_get r "user_preference") (rows_named t c)) = [p] /\ as_Z p = Ok (user_preference u) /\
    add_rows F strict nd (Registry [] []) (rows_named t c) = Ok g /\ app_list u = registered g /\ rand_daily_pref u = 0 /\ load u = [].
Proof.
  unfold load_user. destruct (unique (map (fun r => row_get r "num_users") (rows_named t c))) as [|n [|]]; try discriminate.
  destruct (unique (map (fun r => row_get r "user_preference") (rows_named t c))) as [|p [|]]; try discriminate.
  destruct c as [| |s| |]; try discriminate. cbn [as_text rbind].
  destruct (as_Z n) as [zn|] eqn:En; [|discriminate]. destruct (as_Z p) as [zp|] eqn:Ep; [|discriminate]. cbn [rbind].
  destruct (add_rows F strict nd (Registry [] []) (rows_named t (CText s))) as [g|] eqn:Eg; [|discriminate]. cbn [rbind].
  intros H. injection H as <-. split; [reflexivity|]. exists n, p, g. cbn. auto 10.
Qed.

(** A table that loads: all user names are texts, the users come in the order in which their names first
    appear, and each is made of its own rows in table order, which all agree on num_users and
    user_preference. *)
Theorem C42_grouping F strict nd t us : load_table F strict nd t = Ok us ->
  exists names, map (fun r => row_get r "user_name") t = map CText names /\
    first_seen names (map user_name us) /\
    Forall (fun u => user_of_rows F strict nd (rows_of_user (user_name u) t) u) us.
Proof.
  unfold load_table. destruct (read_input_file t) as [t'|] eqn:R; [|discriminate]. cbn [rbind]. intros H.
  pose proof (read_column t t' "user_name" R ltac:(discriminate)) as Hcol.
  set (col := map (fun r => row_get r "user_name") t') in *.
  apply map_res_Forall2 in H.
  assert (T : exists names, col = map CText names).
  { assert (A : Forall (fun c => exists s, c = CText s) col).
    { apply Forall_forall. intros c Hc. destruct (unique_covers _ _ Hc) as (y & Hy & Hs).
      assert (Y : exists s, y = CText s).
      { clear -H Hy. induction H as [|c u cs us Hu _ IH]; [destruct Hy|]. destruct Hy as [<-|Hy]; [|auto].
        apply load_user_ok in Hu. destruct Hu as [-> _]. eexists. reflexivity. }
      destruct Y as (s & ->). destruct Hs as [<-|Hs]; [eexists; reflexivity|]. apply cell_same_iff in Hs.
      destruct c; try contradiction. eexists. reflexivity. }
    clear -A. induction A as [|c l (s & ->) _ (names & ->)]; [exists []; reflexivity|]. exists (s :: names). reflexivity. }
  destruct T as (names & Hn). exists names. split; [rewrite <- Hcol; exact Hn|].
  destruct (first_seen_unique names) as (d & Hd & Ed). rewrite Hn, Ed in H.
  assert (E : d = map user_name us /\ Forall (fun u => load_user F strict nd t' (CText (user_name u)) = Ok u) us).
  { clear -H. remember (map CText d) as cs eqn:Ec. revert d Ec. induction H as [|c u cs us Hu _ IH]; intros d Ec.
    - destruct d; [|discriminate]. split; [reflexivity|constructor].
    - destruct d as [|s d]; [discriminate|]. injection Ec as -> ->. destruct (IH d eq_refl) as [-> IH2].
      pose proof (load_user_ok _ _ _ _ _ _ Hu) as [Hs _]. injection Hs as Hs. subst s. split; [reflexivity|]. constructor; assumption. }
  destruct E as [<- Hall]. split; [exact Hd|].
  eapply Forall_impl; [|exact Hall]. clear -R. intros u Hu. apply load_user_ok in Hu.
  destruct Hu as (_ & n & p & g & E1 & E2 & E3 & E4 & E5 & E6 & _).
  rewrite rows_named_of in *. exists (rows_of_user (user_name u) t'), g.
  pose proof (read_rows_of t t' (user_name u) R) as R'. split; [exact R'|].
  split. { intros C. rewrite C in R'. cbn in R'. injection R' as R'. rewrite <- R' in E1. discriminate. }
  rewrite (read_column _ _ "num_users" R' ltac:(discriminate)) in E1.
  rewrite (read_column _ _ "user_preference" R' ltac:(discriminate)) in E3.
  split; [eapply column_num; eassumption|]. split; [eapply column_num; eassumption|]. auto.
Qed.

(** how the rows of different users are interleaved makes no difference to a user *)
Theorem C42_interleaving F strict nd t t' us us' u u' :
  load_table F strict nd t = Ok us -> load_table F strict nd t' = Ok us' -> In u us -> In u' us' ->
  user_name u = user_name u' -> rows_of_user (user_name u) t = rows_of_user (user_name u) t' -> u = u'.
Proof.
  intros H H' Hu Hu' Hn Hr.
  assert (G : forall t us u, load_table F strict nd t = Ok us -> In u us ->
    exists t1, read_input_file t = Ok t1 /\ load_user F strict nd t1 (CText (user_name u)) = Ok u).
  { clear. intros t us u H Hu. unfold load_table in H. destruct (read_input_file t) as [t1|]; [|discriminate]. exists t1.
    split; [reflexivity|]. cbn [rbind] in H. apply map_res_Forall2 in H. induction H as [|c v cs us Hv _ IH]; [destruct Hu|].
    destruct Hu as [->|Hu]; [|auto]. pose proof (load_user_ok _ _ _ _ _ _ Hv) as [-> _]. exact Hv. }
  destruct (G _ _ _ H Hu) as (t1 & R & L). destruct (G _ _ _ H' Hu') as (t1' & R' & L').
  apply read_rows_of with (n := user_name u) in R, R'. rewrite Hr, R' in R. injection R as R.
  rewrite <- Hn in L'. unfold load_user in L, L'. rewrite !rows_named_of in L, L'. rewrite R in L'. rewrite L in L'. congruence.
Qed.

(** two rows of one user that disagree on num_users or user_preference *)
Definition contradictory (n : string) (t : table) : Prop :=
  exists r r' k, In k ["num_users"; "user_preference"] /\ In r (rows_of_user n t) /\ In r' (rows_of_user n t) /\
    ~ same_cell (row_get r k) (row_get r' k).

(** never loads ... *)
Theorem C42_contradiction_never_loads F strict nd t n : contradictory n t -> exists e, load_table F strict nd t = Err e.
Proof.
  intros (r & r' & k & Hk & Hr & Hr' & Hne). destruct (load_table F strict nd t) as [us|e] eqn:L; [|eauto]. exfalso.
  destruct (C42_grouping _ _ _ _ _ L) as (names & Hcol & Hfs & Hall).
  assert (Hin : In n (map user_name us)).
  { assert (In n names).
    { apply filter_In in Hr. destruct Hr as [Hin Hn]. unfold names_user in Hn.
      assert (I : In (row_get r "user_name") (map CText names)) by (rewrite <- Hcol; apply (in_map (fun r => row_get r "user_name")); exact Hin).
      apply in_map_iff in I. destruct I as (s & Es & Hs). rewrite <- Es in Hn. apply String.eqb_eq in Hn. subst. exact Hs. }
    clear -Hfs H. induction Hfs as [|l d x _ IH Hx|l d x _ IH Hx]; [destruct H| |].
    - apply in_app_or in H. destruct H as [H|[<-|[]]]; auto.
    - apply in_or_app. apply in_app_or in H. destruct H as [H|H]; [left; auto|right; exact H]. }
  apply in_map_iff in Hin. destruct Hin as (u & Hu & Hin). rewrite Forall_forall in Hall.
  destruct (Hall u Hin) as (rows' & g & _ & _ & A & B & _). rewrite Hu in A, B.
  assert (K : forall k q', (forall x, In x (rows_of_user n t) -> exists q, row_get x k = CNum q /\ (q == q')%Q) ->
    same_cell (row_get r k) (row_get r' k)).
  { intros k' q' Q. destruct (Q r Hr) as (q1 & -> & E1). destruct (Q r' Hr') as (q2 & -> & E2). cbn. rewrite E1, E2. reflexivity. }
  rewrite Forall_forall in A, B. destruct Hk as [<-|[<-|[]]]; apply Hne; eapply K; eassumption.
Qed.

(** ... and raises ValueError as soon as the user is reached: [t1] loads, the rows of [t2] belong to a
    further user and contradict each other *)
Lemma unique_app_const l c n : Forall (fun y => cell_same y c = false) l -> cell_same c c = true ->
  unique (l ++ repeat c (S n)) = unique l ++ [c].
Proof.
  intros H Hc. assert (G : forall n, unique (l ++ repeat c (S n)) = unique l ++ [c] ).
  { clear n. induction n as [|n IH].
    - cbn [repeat]. rewrite unique_snoc. replace (existsb (fun y => cell_same y c) l) with false; [reflexivity|].
      symmetry. rewrite Forall_forall in H. destruct (existsb (fun y => cell_same y c) l) eqn:E; [|reflexivity].
      apply existsb_exists in E. destruct E as (y & Hy & E). rewrite (H y Hy) in E. discriminate.
    - assert (E : repeat c (S (S n)) = repeat c (S n) ++ [c]).
      { clear. change [c] with (repeat c 1). rewrite <- repeat_app. f_equal. lia. }
      rewrite E, app_assoc, unique_snoc, IH.
      replace (existsb (fun y => cell_same y c) (l ++ repeat c (S n))) with true; [apply app_nil_r|].
      symmetry. apply existsb_exists. exists c. split; [apply in_or_app; right; left; reflexivity|exact Hc]. }
  apply G.
Qed.

Lemma two_values l x y : In x l -> In y l -> ~ same_cell x y -> x <> y -> forall c, unique l <> [c].
Proof.
  intros Hx Hy Hne Hxy c H. apply unique_single in H. destruct H as [_ H]. rewrite Forall_forall in H.
  destruct (H x Hx) as [->|E1]; destruct (H y Hy) as [->|E2].
  - congruence.
  - apply Hne. apply cell_same_iff. exact E2.
  - apply Hne. apply same_cell_sym. apply cell_same_iff. exact E1.
  - apply Hne. apply cell_same_iff in E1, E2. eapply same_cell_trans; [apply same_cell_sym; exact E1|exact E2].
Qed.

Theorem C42_contradiction_value_error F strict nd t1 t2 us t2' n r r' k :
  load_table F strict nd t1 = Ok us -> read_input_file t2 = Ok t2' ->
  Forall (fun r => row_get r "user_name" = CText n) t2 -> ~ In n (map user_name us) ->
  In k ["num_users"; "user_preference"] -> In r t2 -> In r' t2 ->
  row_get r k <> row_get r' k -> ~ same_cell (row_get r k) (row_get r' k) ->
  load_table F strict nd (t1 ++ t2) = Err ValueError.
Proof.
  intros L1 R2 Hn Hnew Hk Hr Hr' Hd Hne. destruct (C42_grouping _ _ _ _ _ L1) as (names & Hcol & Hfs & _).
  assert (Hnames : ~ In n names).
  { intros C. apply Hnew. clear -Hfs C. induction Hfs as [|l d x _ IH Hx|l d x _ IH Hx]; [destruct C| |].
    - apply in_app_or in C. destruct C as [H|[<-|[]]]; auto.
    - apply in_or_app. apply in_app_or in C. destruct C as [H|H]; [left; auto|right; exact H]. }
  unfold load_table in *. destruct (read_input_file t1) as [t1'|] eqn:R1; [|discriminate]. cbn [rbind] in L1.
  assert (R : read_input_file (t1 ++ t2) = Ok (t1' ++ t2')).
  { unfold read_input_file in *. rewrite map_res_app, R1, R2. reflexivity. }
  rewrite R. cbn [rbind]. rewrite map_app, (read_column _ _ "user_name" R1 ltac:(discriminate)), (read_column _ _ "user_name" R2 ltac:(discriminate)).
  rewrite (read_column _ _ "user_name" R1 ltac:(discriminate)) in L1. rewrite Hcol in *.
  rewrite (map_const _ _ _ Hn). destruct (List.length t2) as [|m] eqn:Em; [destruct t2; [destruct Hr|discriminate]|].
  rewrite unique_app_const.
  2: { apply Forall_forall. intros y Hy. apply in_map_iff in Hy. destruct Hy as (s & <- & Hs). cbn. apply String.eqb_neq. congruence. }
  2: { cbn. apply String.eqb_refl. }
  rewrite map_res_app.
  assert (Same : map_res (load_user F strict nd (t1' ++ t2')) (unique (map CText names)) = Ok us).
  { apply map_res_Forall2 in L1. apply map_res_Forall2.
    assert (Q : Forall (fun c => exists s, c = CText s /\ s <> n) (unique (map CText names))).
    { apply Forall_forall. intros c Hc. apply unique_in in Hc. apply in_map_iff in Hc. destruct Hc as (s & <- & Hs).
      exists s. split; [reflexivity|]. congruence. }
    clear -L1 Q R2 Hn. induction L1 as [|c u cs us Hu _ IH]; [constructor|]. inversion Q as [|? ? (s & -> & Hs) Q']; subst.
    constructor; [|apply IH; exact Q'].
    assert (E : rows_named (t1' ++ t2') (CText s) = rows_named t1' (CText s)).
    { unfold rows_named. rewrite filter_app. rewrite (filter_none _ t2'); [apply app_nil_r|].
      apply Forall_forall. intros r Hr.
      assert (N : row_get r "user_name" = CText n).
      { pose proof (read_column _ _ "user_name" R2 ltac:(discriminate)) as C. rewrite (map_const _ _ t2 Hn) in C.
        assert (I : In (row_get r "user_name") (repeat (CText n) (List.length t2))) by (rewrite <- C; apply (in_map (fun r => row_get r "user_name")); exact Hr).
        apply repeat_spec in I. exact I. }
      rewrite N. cbn. apply String.eqb_neq. congruence. }
    unfold load_user in *. rewrite E. exact Hu. }
  rewrite Same. cbn [rbind map_res].
  assert (Own : rows_named (t1' ++ t2') (CText n) = t2').
  { unfold rows_named. rewrite filter_app, filter_none, filter_all; [reflexivity| |].
    - apply Forall_forall. intros x Hx.
      pose proof (read_column _ _ "user_name" R2 ltac:(discriminate)) as C. rewrite (map_const _ _ t2 Hn) in C.
      assert (I : In (row_get x "user_name") (repeat (CText n) (List.length t2))) by (rewrite <- C; apply (in_map (fun r => row_get r "user_name")); exact Hx).
      apply repeat_spec in I. rewrite I. cbn. apply String.eqb_refl.
    - apply Forall_forall. intros x Hx.
      pose proof (read_column _ _ "user_name" R1 ltac:(discriminate)) as C. rewrite Hcol in C.
      assert (I : In (row_get x "user_name") (map CText names)) by (rewrite <- C; apply (in_map (fun r => row_get r "user_name")); exact Hx).
      apply in_map_iff in I. destruct I as (s & <- & Hs). cbn. apply String.eqb_neq. congruence. }
  unfold load_user at 1. rewrite Own.
  rewrite (read_column _ _ "num_users" R2 ltac:(discriminate)), (read_column _ _ "user_preference" R2 ltac:(discriminate)).
  assert (U : forall c, unique (map (fun r => row_get r k) t2) <> [c]).
  { apply two_values with (x := row_get r k) (y := row_get r' k); try assumption; apply (in_map (fun r => row_get r k)); assumption. }
  destruct Hk as [<-|[<-|[]]].
  - destruct (unique (map (fun r => row_get r "num_users") t2)) as [|c [|]]; try reflexivity. destruct (U c eq_refl).
  - destruct (unique (map (fun r => row_get r "num_users") t2)) as [|c [|]]; try reflexivity.
    destruct (unique (map (fun r => row_get r "user_preference") t2)) as [|c' [|]]; try reflexivity. destruct (U c' eq_refl).
Qed.

(** interleaved rows of two users *)
Definition lamp_row (user : string) (num : Z) (app : string) : row :=
  [("user_name", CText user); ("num_users", CNum (zq num)); ("user_preference", CNum 0); ("name", CText app);
   ("number", CNum 2); ("power", CNum 40); ("num_windows", CNum 1); ("func_time", CNum 60); ("func_cycle", CNum 10);
   ("window_1_start", CNum 480); ("window_1_end", CNum 600)].
Example C42_case :
  let t := [lamp_row "b" 2 "one"; lamp_row "a" 1 "two"; lamp_row "b" 2 "three"] in
  (exists us, load_table exact_fm true 366 t = Ok us /\
    map (fun u => (user_name u, map (fun a => name (par a)) (app_list u))) us = [("b", ["one"; "three"]); ("a", ["two"])]) /\
  load_table exact_fm true 366 (t ++ [lamp_row "c" 2 "x"; lamp_row "c" 3 "y"]) = Err ValueError.
Proof. cbv zeta. split; [eexists; split; [vm_compute; reflexivity|reflexivity]|vm_compute; reflexivity]. Qed.
