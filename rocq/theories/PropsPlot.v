(** * PropsPlot: C75 (what a Plot shares), C76 (selections), C77 (shadow plots) *)
From Coq Require Import Sorted.
From Verif Require Import Base ListLemmas Tabular PostProcess ProofsEq ProofsTabular SpecUser ProofsUser PropsPost PropsHeap PropsSaved Plots.
Open Scope string_scope.
Open Scope list_scope.
Open Scope Z_scope.

(** ** C75: specification *)

(** the data of Plot [p] *)
Definition data_of (s : store) (p : nat) : option frame :=
  match nth_error (plots s) p with Some i => nth_error (frames s) i | None => None end.

(** statement [t] writes into the DataFrame of Plot [p] *)
Definition writes_plot (t : pstmt) (p : nat) : Prop :=
  match t with PAddFrame q _ | PAddPlot q _ | PRename q _ => q = p | _ => False end.
(** statement [t] makes Plot [p] refer to another DataFrame *)
Definition redirects (t : pstmt) (p : nat) : Prop :=
  match t with PSetFrame q _ | PResample q _ _ _ true => q = p | _ => False end.
(** statement [t] of the program hands DataFrame [i] itself to a Plot, or writes into it *)
Definition shares (t : pstmt) (i : nat) : Prop :=
  match t with PPlot j None | PSetFrame _ j => j = i | _ => False end.
Definition overwrites (t : pstmt) (i : nat) : Prop := match t with PWrite j _ => j = i | _ => False end.

(** Plot [p] refers to DataFrame [i], no other Plot does *)
Definition private (s : store) (p i : nat) : Prop :=
  nth_error (plots s) p = Some i /\ (i < List.length (frames s))%nat /\
  forall q, nth_error (plots s) q = Some i -> q = p.

(** every Plot refers to an existing DataFrame *)
Definition well_formed (s : store) : Prop := forall p i, nth_error (plots s) p = Some i -> (i < List.length (frames s))%nat.

(** *** One statement *)

Lemma frame_of_inv s p i f : frame_of s p = Some (i, f) -> nth_error (plots s) p = Some i /\ nth_error (frames s) i = Some f.
Proof.
  unfold frame_of. destruct (nth_error (plots s) p) as [j|]; [|discriminate]. destruct (nth_error (frames s) j) as [g|] eqn:E; [|discriminate].
  intros H. injection H as -> ->. auto.
Qed.

Lemma fresh_frames s f i : (i < List.length (frames s))%nat -> nth_error (frames (fresh_plot s f)) i = nth_error (frames s) i.
Proof. intros H. cbn [fresh_plot frames]. apply nth_error_app1. exact H. Qed.
Lemma fresh_plots s f p i : nth_error (plots (fresh_plot s f)) p = Some i -> nth_error (plots s) p = Some i \/ (p = List.length (plots s) /\ i = List.length (frames s)).
Proof.
  cbn [fresh_plot plots]. destruct (Nat.lt_ge_cases p (List.length (plots s))) as [H|H].
  - rewrite nth_error_app1 by exact H. auto.
  - rewrite nth_error_app2 by exact H. destruct (p - List.length (plots s))%nat as [|k] eqn:E; cbn [nth_error].
    + intros K. injection K as <-. right. split; [lia|reflexivity].
    + destruct k; discriminate.
Qed.

Ltac on_plot H := unfold pstep; cbv beta iota zeta; match goal with |- context [match frame_of ?s ?p with _ => _ end] =>
  destruct (frame_of s p) as [[?i0 ?f0]|] eqn:H; [apply frame_of_inv in H; destruct H as [?Hp ?Hf]|]; cbv beta iota end.

(** what a statement can do to the objects: nothing; new objects; a write; a redirection *)
Inductive effect (s : store) (t : pstmt) : store -> Prop :=
| eff_none : effect s t s
| eff_frame f : effect s t (Store (frames s ++ [f]) (plots s))
| eff_fresh f : effect s t (fresh_plot s f)
| eff_share i : shares t i -> (i < List.length (frames s))%nat -> effect s t (Store (frames s) (plots s ++ [i]))
| eff_redirect p i : redirects t p -> shares t i -> (i < List.length (frames s))%nat -> effect s t (Store (frames s) (list_set (plots s) p i))
| eff_inplace p f : redirects t p -> effect s t (Store (frames s ++ [f]) (list_set (plots s) p (List.length (frames s))))
| eff_overwrite i f : overwrites t i -> effect s t (Store (list_set (frames s) i f) (plots s))
| eff_write p i f : writes_plot t p -> nth_error (plots s) p = Some i -> effect s t (Store (list_set (frames s) i f) (plots s)).

Lemma step_effect F s t : effect s t (fst (pstep F s t)).
Proof.
  assert (M : forall r, effect s t (fst (match r with Ok f => (fresh_plot s f, None) | Err e => (s, Some e) end : store * option exc))).
  { intros [f|e]; constructor. }
  destruct t; try (on_plot E; [first [apply M|apply eff_fresh]|constructor]).
  - cbn. constructor.
  - cbn. destruct (nth_error (frames s) i); [|constructor]. constructor. reflexivity.
  - unfold pstep. cbv zeta. destruct (nth_error (frames s) i) as [f|] eqn:E; [|constructor]. destruct index as [ix|]; [apply M|].
    apply eff_share; [reflexivity|]. exact (nth_error_lt _ _ _ E).
  - cbn. destruct (nth_error (plots s) p); [|constructor]. destruct (nth_error (frames s) i) as [f|] eqn:E; [|constructor].
    apply eff_redirect; [reflexivity|reflexivity|]. exact (nth_error_lt _ _ _ E).
  - on_plot E; [|constructor]. destruct (resample_frame F w r conversion f0); [|constructor]. destruct inplace; [apply eff_inplace; reflexivity|constructor].
  - on_plot E; [|constructor]. destruct (nth_error (frames s) i) as [g|]; [|constructor].
    destruct (add_column f0 g); [|constructor]. eapply eff_write; [reflexivity|exact Hp].
  - on_plot E; [|constructor]. destruct (frame_of s q) as [[j g]|]; [|constructor].
    destruct (add_column f0 g); [|constructor]. eapply eff_write; [reflexivity|exact Hp].
  - on_plot E; [|constructor]. destruct (_ =? _); [|constructor]. eapply eff_write; [reflexivity|exact Hp].
Qed.

(** A DataFrame changes only when the program writes into it, or when a Plot that refers to it gets a column or new column names. *)
Theorem C75_changes F s t i : (i < List.length (frames s))%nat ->
  nth_error (frames (fst (pstep F s t))) i = nth_error (frames s) i \/
  overwrites t i \/ exists p, writes_plot t p /\ nth_error (plots s) p = Some i.
Proof.
  intros L. destruct (step_effect F s t) as [|f|f|j S1 B|p j R1 S1 B|p f R1|j f O|p j f W P]; cbn [frames plots]; try (left; reflexivity).
  - left. apply nth_error_app1. exact L.
  - left. apply fresh_frames. exact L.
  - left. apply nth_error_app1. exact L.
  - destruct (Nat.eq_dec i j) as [->|N]; [right; left; exact O|]. left. apply list_set_other. exact N.
  - destruct (Nat.eq_dec i j) as [->|N]; [right; right; exists p; auto|]. left. apply list_set_other. exact N.
Qed.

(** A Plot refers to a DataFrame of the program only through Plot(df) without index, or through the setter of DataFrame. *)
Theorem C75_references F s t p i : nth_error (plots (fst (pstep F s t))) p = Some i -> (i < List.length (frames s))%nat ->
  nth_error (plots s) p = Some i \/ shares t i.
Proof.
  intros H L. destruct (step_effect F s t) as [|f|f|j S1 B|q j R1 S1 B|q f R1|j f O|q j f W P]; cbn [frames plots] in H; try (left; exact H).
  - apply fresh_plots in H. destruct H as [H|[_ ->]]; [left; exact H|lia].
  - destruct (Nat.lt_ge_cases p (List.length (plots s))) as [K|K]; [rewrite nth_error_app1 in H by exact K; left; exact H|].
    rewrite nth_error_app2 in H by exact K. destruct (p - List.length (plots s))%nat as [|k]; cbn in H; [|destruct k; discriminate].
    injection H as ->. right. exact S1.
  - rewrite list_set_nth_error in H. destruct (Nat.eqb p q); [|left; exact H].
    destruct ((q <? List.length (plots s))%nat); [|discriminate]. injection H as ->. right. exact S1.
  - rewrite list_set_nth_error in H. destruct (Nat.eqb p q); [|left; exact H].
    destruct ((q <? List.length (plots s))%nat); [|discriminate]. injection H as <-. lia.
Qed.

Lemma effect_frames s t s' : effect s t s' -> (List.length (frames s) <= List.length (frames s'))%nat.
Proof.
  intros [|f|f|j S1 B|p j R1 S1 B|p f R1|j f O|p j f W P]; cbn [frames fresh_plot]; rewrite ?app_length, ?list_set_length; lia.
Qed.
Lemma step_frames F s t : (List.length (frames s) <= List.length (frames (fst (pstep F s t))))%nat.
Proof. exact (effect_frames _ _ _ (step_effect F s t)). Qed.

(** Data of the program that no Plot refers to and that is never handed over itself stays as it is: whatever the Plots made from
    it (with an index), from its columns or from other data do. *)
Theorem C75_program_data F ts : forall s i,
  (i < List.length (frames s))%nat -> (forall p, nth_error (plots s) p <> Some i) ->
  Forall (fun t => ~ overwrites t i /\ ~ shares t i) ts ->
  nth_error (frames (prun F s ts)) i = nth_error (frames s) i /\ forall p, nth_error (plots (prun F s ts)) p <> Some i.
Proof.
  induction ts as [|t ts IH]; intros s i L N H; [auto|]. inversion H as [|? ? [O S1] Ht]; subst. unfold prun. cbn [fold_left].
  set (s' := fst (pstep F s t)).
  assert (L' : (i < List.length (frames s'))%nat) by (pose proof (step_frames F s t) as K0; fold s' in K0; lia).
  assert (N' : forall p, nth_error (plots s') p <> Some i).
  { intros p Hp. destruct (C75_references F s t p i Hp L) as [K|K]; [exact (N p K)|exact (S1 K)]. }
  assert (E : nth_error (frames s') i = nth_error (frames s) i).
  { destruct (C75_changes F s t i L) as [K|[K|(p & _ & K)]]; [exact K|contradiction|exfalso; exact (N p K)]. }
  destruct (IH s' i L' N' Ht) as [A B]. split; [|exact B]. unfold prun in A. rewrite A. exact E.
Qed.

(** A Plot whose DataFrame nobody else refers to keeps its data, whatever is done with all other objects. *)
Theorem C75_private_data F ts : forall s p i, private s p i ->
  Forall (fun t => ~ overwrites t i /\ ~ shares t i /\ ~ writes_plot t p /\ ~ redirects t p) ts ->
  private (prun F s ts) p i /\ data_of (prun F s ts) p = data_of s p.
Proof.
  induction ts as [|t ts IH]; intros s p i P H; [auto|]. inversion H as [|? ? (O & S1 & W & R1) Ht]; subst. unfold prun. cbn [fold_left].
  set (s' := fst (pstep F s t)). destruct P as (Hp & L & U).
  assert (Q : private s' p i /\ nth_error (frames s') i = nth_error (frames s) i).
  { split.
    - split; [|split].
      + unfold s'. destruct (step_effect F s t) as [|f|f|j S2 B|q j R2 S2 B|q f R2|j f O2|q j f W2 P2]; cbn [frames plots fresh_plot]; try exact Hp.
        * rewrite nth_error_app1; [exact Hp|]. exact (nth_error_lt _ _ _ Hp).
        * rewrite nth_error_app1; [exact Hp|]. exact (nth_error_lt _ _ _ Hp).
        * rewrite list_set_other; [exact Hp|]. intros ->. contradiction.
        * rewrite list_set_other; [exact Hp|]. intros ->. contradiction.
      + pose proof (step_frames F s t). fold s' in H0. lia.
      + intros q Hq. destruct (C75_references F s t q i Hq L) as [K|K]; [exact (U q K)|contradiction].
    - destruct (C75_changes F s t i L) as [K|[K|(q & Wq & K)]]; [exact K|contradiction|].
      rewrite (U q K) in Wq. contradiction. }
  destruct Q as [Q1 Q2]. destruct (IH s' p i Q1 Ht) as [A B]. split; [exact A|]. unfold prun in B. rewrite B. unfold data_of.
  destruct Q1 as (Q1 & _). rewrite Q1, Hp. exact Q2.
Qed.

(** what the methods that give a new Plot compute *)
Inductive derived (F : fm) (f : frame) : pstmt -> nat -> frame -> Prop :=
| der_copy p : derived F f (PCopy p) p f
| der_resample p w r conv g : resample_frame F w r conv f = Ok g -> derived F f (PResample p w r conv false) p g
| der_sum p : derived F f (PSum p) p (plot_sum F f)
| der_mean p g : plot_mean F f = Ok g -> derived F f (PMean p) p g
| der_columns p ks g : get_columns f ks = Ok g -> derived F f (PColumns p ks) p g
| der_loc p r c g : plot_loc f r c = Ok g -> derived F f (PLoc p r c) p g
| der_iloc p a b : derived F f (PIloc p a b) p (plot_iloc f a b)
| der_head p n : derived F f (PHead p n) p (plot_head f n).

(** A Plot made by a method of another one has its data in a DataFrame of its own; nothing else changes. *)
Theorem C75_derived F s t p f g : well_formed s -> data_of s p = Some f -> derived F f t p g ->
  exists s', pstep F s t = (s', None) /\ private s' (List.length (plots s)) (List.length (frames s)) /\
    data_of s' (List.length (plots s)) = Some g /\
    (forall q, (q < List.length (plots s))%nat -> data_of s' q = data_of s q).
Proof.
  intros W D H. exists (fresh_plot s g). split.
  { unfold data_of in D. destruct (nth_error (plots s) p) as [i|] eqn:Hp; [|discriminate].
    assert (E : frame_of s p = Some (i, f)) by (unfold frame_of; rewrite Hp, D; reflexivity).
    destruct H; unfold pstep; cbv beta iota zeta; rewrite E; cbv beta iota; try reflexivity; rewrite H; reflexivity. }
  assert (N : nth_error (plots (fresh_plot s g)) (List.length (plots s)) = Some (List.length (frames s))).
  { cbn [fresh_plot plots]. rewrite nth_error_app2, Nat.sub_diag by lia. reflexivity. }
  split; [split; [exact N|split]|split].
  - cbn [fresh_plot frames]. rewrite app_length. cbn. lia.
  - intros q Hq. apply fresh_plots in Hq. destruct Hq as [Hq|[-> _]]; [|reflexivity]. apply W in Hq. lia.
  - unfold data_of. rewrite N. cbn [fresh_plot frames]. rewrite nth_error_app2, Nat.sub_diag by lia. reflexivity.
  - intros q Hq. unfold data_of. cbn [fresh_plot plots]. rewrite nth_error_app1 by exact Hq.
    destruct (nth_error (plots s) q) as [j|] eqn:E; [|reflexivity]. apply fresh_frames. apply (W q). exact E.
Qed.

(** Plot(df, index) too *)
Theorem C75_with_index F s i f ix : well_formed s -> nth_error (frames s) i = Some f -> zlen ix = zlen (f_index f) ->
  exists s', pstep F s (PPlot i (Some ix)) = (s', None) /\ private s' (List.length (plots s)) (List.length (frames s)) /\
    data_of s' (List.length (plots s)) = Some (Frame ix (f_cols f)) /\ nth_error (frames s') i = Some f.
Proof.
  intros W H E. exists (fresh_plot s (Frame ix (f_cols f))). split.
  { unfold pstep. cbv zeta. rewrite H, E, Z.eqb_refl. reflexivity. }
  assert (N : nth_error (plots (fresh_plot s (Frame ix (f_cols f)))) (List.length (plots s)) = Some (List.length (frames s))).
  { cbn [fresh_plot plots]. rewrite nth_error_app2, Nat.sub_diag by lia. reflexivity. }
  split; [split; [exact N|split]|split].
  - cbn [fresh_plot frames]. rewrite app_length. cbn. lia.
  - intros q Hq. apply fresh_plots in Hq. destruct Hq as [Hq|[-> _]]; [|reflexivity]. apply W in Hq. lia.
  - unfold data_of. rewrite N. cbn [fresh_plot frames]. rewrite nth_error_app2, Nat.sub_diag by lia. reflexivity.
  - rewrite fresh_frames; [exact H|]. exact (nth_error_lt _ _ _ H).
Qed.

(** every reachable set of objects is well formed *)
Theorem C75_well_formed F ts : well_formed (prun F (Store [] []) ts).
Proof.
  assert (A : forall s t, well_formed s -> well_formed (fst (pstep F s t))).
  { intros s t W p i H. destruct (step_effect F s t) as [|f|f|j S2 B|q j R2 S2 B|q f R2|j f O2|q j f W2 P2]; cbn [frames plots] in *.
    - exact (W p i H).
    - rewrite app_length. cbn. specialize (W p i H). lia.
    - cbn [fresh_plot frames]. rewrite app_length. cbn. apply fresh_plots in H. destruct H as [H|[_ ->]]; [specialize (W p i H)|]; lia.
    - destruct (Nat.lt_ge_cases p (List.length (plots s))) as [K|K]; [rewrite nth_error_app1 in H by exact K; exact (W p i H)|].
      rewrite nth_error_app2 in H by exact K. destruct (p - List.length (plots s))%nat as [|k]; cbn in H; [|destruct k; discriminate]. injection H as <-. exact B.
    - rewrite list_set_nth_error in H. destruct (Nat.eqb p q); [|exact (W p i H)].
      destruct ((q <? List.length (plots s))%nat); [|discriminate]. injection H as <-. exact B.
    - rewrite app_length. cbn. rewrite list_set_nth_error in H. destruct (Nat.eqb p q); [|specialize (W p i H); lia].
      destruct ((q <? List.length (plots s))%nat); [|discriminate]. injection H as <-. lia.
    - rewrite list_set_length. exact (W p i H).
    - rewrite list_set_length. exact (W p i H). }
  assert (B : forall ts s, well_formed s -> well_formed (prun F s ts)).
  { clear ts. induction ts as [|t ts IH]; intros s W; [exact W|]. unfold prun. cbn [fold_left]. apply IH. apply A. exact W. }
  apply B. intros p i H. destruct p; discriminate.
Qed.

(** *** Refuted: Plot(df) keeps the program's own DataFrame *)

Definition two_columns : frame := Frame [0; 1] [("a", [1%Q; 2%Q]); ("b", [3%Q; 4%Q])].
(** the column added to the Plot is in the DataFrame of the program; renaming the columns of one Plot renames those of the other *)
Theorem C75_shared_refuted :
  let ts := [PFrame two_columns; PPlot 0 None; PPlot 0 None; PFrame (Frame [0; 1] [("c", [5%Q; 6%Q])])] in
  let s := prun exact_fm (Store [] []) ts in
  nth_error (frames s) 0 = Some two_columns /\
  nth_error (frames (prun exact_fm s [PAddFrame 0 1])) 0 = Some (Frame [0; 1] [("a", [1%Q; 2%Q]); ("b", [3%Q; 4%Q]); ("c", [5%Q; 6%Q])]) /\
  data_of (prun exact_fm s [PRename 0 ["x"; "y"]]) 1 = Some (Frame [0; 1] [("x", [1%Q; 2%Q]); ("y", [3%Q; 4%Q])]).
Proof. vm_compute. repeat split. Qed.

(** the hypotheses of the theorems above *)
Example C75_case :
  let s := prun exact_fm (Store [] []) [PFrame two_columns; PPlot 0 (Some [60; 61]); PSum 0; PFrame (Frame [60; 61] [("c", [5%Q; 6%Q])])] in
  let ts := [PAddFrame 0 3; PRename 0 ["x"; "y"; "z"]; PResample 0 60 Mean 1 true; PCopy 0; PAddPlot 1 0] in
  well_formed s /\ private s 1 2 /\ data_of s 1 = Some (Frame [60; 61] [("Sum", [4%Q; 6%Q])]) /\
  (forall p, nth_error (plots s) p <> Some 0%nat) /\ Forall (fun t => ~ overwrites t 0 /\ ~ shares t 0) ts /\
  Forall (fun t => ~ overwrites t 2 /\ ~ shares t 2 /\ ~ writes_plot t 1 /\ ~ redirects t 1) (removelast ts) /\
  nth_error (frames (prun exact_fm s ts)) 0 = Some two_columns /\ data_of (prun exact_fm s (removelast ts)) 1 = data_of s 1.
Proof.
  cbv zeta. split; [apply C75_well_formed|]. split.
  { split; [reflexivity|]. split; [vm_compute; lia|]. intros [|[|q]] H; vm_compute in H; try discriminate; try reflexivity. destruct q; discriminate. }
  split; [reflexivity|]. split; [intros [|[|q]] H; vm_compute in H; try discriminate; destruct q; discriminate|].
  split; [repeat constructor; intros C; cbn in C; try contradiction; discriminate|].
  split; [cbn [removelast]; repeat constructor; intros C; cbn in C; try contradiction; discriminate|].
  split; vm_compute; reflexivity.
Qed.

(** ** C76: selections *)

(** *** Specification *)

(** every column has one value for each time of the index; no time and no column name twice *)
Definition shaped (f : frame) : Prop :=
  Forall (fun nv => List.length (snd nv) = List.length (f_index f)) (f_cols f) /\ NoDup (f_index f) /\ NoDup (map fst (f_cols f)).
(** the value of column [k] at time [t] is [v] *)
Definition value_at (f : frame) (t : Z) (k : string) (v : Q) : Prop :=
  exists i vs, nth_error (f_index f) i = Some t /\ In (k, vs) (f_cols f) /\ nth_error vs i = Some v.
(** the times and the columns asked for *)
Definition times_asked (f : frame) (r : rows_arg) : list Z :=
  match r with RAll => f_index f | RSlice a b => filter (fun t => (a <=? t) && (t <=? b)) (f_index f) | RList ts => ts | ROne t => [t] end.
Definition columns_asked (f : frame) (c : cols_arg) : list string :=
  match c with CAll => map fst (f_cols f) | CList ks => ks | COne k => [k] end.
(** a single label *)
Definition single (r : rows_arg) (c : cols_arg) : Prop := (exists t, r = ROne t) \/ (exists k, c = COne k).
(** every label asked for is there *)
Definition labels_found (f : frame) (r : rows_arg) (c : cols_arg) : Prop :=
  incl (times_asked f r) (f_index f) /\ incl (columns_asked f c) (map fst (f_cols f)).

(** *** Proofs *)

Lemma position_of_spec ix t : match position_of ix t with Some i => nth_error ix i = Some t | None => ~ In t ix end.
Proof.
  induction ix as [|x ix IH]; cbn [position_of]; [intros []|]. destruct (x =? t) eqn:E; [apply Z.eqb_eq in E; subst; reflexivity|].
  apply Z.eqb_neq in E. destruct (position_of ix t) as [i|]; cbn [option_map]; [exact IH|]. intros [->|H]; contradiction.
Qed.

Lemma col_find_in cols k vs : col_find cols k = Some vs -> In (k, vs) cols.
Proof.
  induction cols as [|[n w] cols IH]; cbn [col_find]; [discriminate|]. destruct (String.eqb n k) eqn:E.
  - apply String.eqb_eq in E. intros H. injection H as ->. left. congruence.
  - intros H. right. auto.
Qed.
Lemma col_find_none cols k : col_find cols k = None <-> ~ In k (map fst cols).
Proof.
  induction cols as [|[n w] cols IH]; cbn [col_find map fst]; [split; [intros _ []|reflexivity]|].
  destruct (String.eqb n k) eqn:E.
  - apply String.eqb_eq in E. split; [discriminate|]. intros H. exfalso. apply H. left. exact E.
  - apply String.eqb_neq in E. rewrite IH. split; [intros H [K|K]; contradiction|intros H K; apply H; right; exact K].
Qed.
Lemma names_inj {A} (cols : list (string * A)) k v w : NoDup (map fst cols) -> In (k, v) cols -> In (k, w) cols -> v = w.
Proof.
  induction cols as [|[n u] cols IH]; cbn [map fst]; intros N H K; [destruct H|]. inversion N as [|? ? N1 N2]; subst.
  destruct H as [H|H], K as [K|K].
  - congruence.
  - exfalso. injection H as <- _. apply N1. change n with (fst (n, w)). apply in_map. exact K.
  - exfalso. injection K as <- _. apply N1. change n with (fst (n, v)). apply in_map. exact H.
  - exact (IH N2 H K).
Qed.

Lemma map_res_ok_in {A B} (g : A -> res B) : forall l l', map_res g l = Ok l' -> forall x, In x l -> exists y, g x = Ok y /\ In y l'.
Proof.
  induction l as [|a l IH]; intros l' H x; cbn [map_res] in *; [intros []|].
  destruct (g a) as [b|e] eqn:E; cbn [rbind] in H; [|discriminate]. destruct (map_res g l) as [l1|e] eqn:E1; cbn [rbind] in H; [|discriminate].
  injection H as <-. intros [->|K]; [exists b; split; [exact E|left; reflexivity]|].
  destruct (IH l1 eq_refl x K) as (y & A1 & A2). exists y. split; [exact A1|right; exact A2].
Qed.
Lemma map_res_ok_back {A B} (g : A -> res B) : forall l l', map_res g l = Ok l' -> forall y, In y l' -> exists x, g x = Ok y /\ In x l.
Proof.
  induction l as [|a l IH]; intros l' H y; cbn [map_res] in *; [injection H as <-; intros []|].
  destruct (g a) as [b|e] eqn:E; cbn [rbind] in H; [|discriminate]. destruct (map_res g l) as [l1|e] eqn:E1; cbn [rbind] in H; [|discriminate].
  injection H as <-. intros [->|K]; [exists a; split; [exact E|left; reflexivity]|].
  destruct (IH l1 eq_refl y K) as (x & A1 & A2). exists x. split; [exact A1|right; exact A2].
Qed.
Lemma map_res_total {A B} (g : A -> res B) : forall l, (forall x, In x l -> exists y, g x = Ok y) -> exists l', map_res g l = Ok l'.
Proof.
  induction l as [|a l IH]; intros H; cbn [map_res]; [eauto|]. destruct (H a (or_introl eq_refl)) as [b ->]. cbn [rbind].
  destruct IH as [l' ->]; [intros x K; apply H; right; exact K|]. cbn [rbind]. eauto.
Qed.
Lemma map_res_err {A B} (g : A -> res B) e : (forall x e', g x = Err e' -> e' = e) ->
  forall l, (exists x e', In x l /\ g x = Err e') -> map_res g l = Err e.
Proof.
  intros U. induction l as [|a l IH]; intros (x & e' & H & K); [destruct H|]. cbn [map_res].
  destruct (g a) as [b|e1] eqn:E; cbn [rbind].
  - destruct H as [->|H]; [congruence|]. rewrite IH by (exists x, e'; auto). reflexivity.
  - f_equal. exact (U a e1 E).
Qed.

(** the columns chosen *)
Lemma loc_cols_ok f c g : loc_cols f c = Ok g ->
  f_index g = f_index f /\ map fst (f_cols g) = columns_asked f c /\ forall k vs, In (k, vs) (f_cols g) -> In (k, vs) (f_cols f).
Proof.
  assert (A : forall ks, get_columns f ks = Ok g -> f_index g = f_index f /\ map fst (f_cols g) = ks /\ forall k vs, In (k, vs) (f_cols g) -> In (k, vs) (f_cols f)).
  { intros ks H. unfold get_columns in H. destruct (map_res _ ks) as [cols|e] eqn:E; cbn [rbind] in H; [|discriminate]. injection H as <-. cbn [f_index f_cols].
    split; [reflexivity|]. split.
    - revert cols E. induction ks as [|k ks IH]; intros cols E; cbn [map_res] in E; [injection E as <-; reflexivity|].
      destruct (get_col f k) as [v|e]; cbn [rbind] in E; [|discriminate]. destruct (map_res _ ks) as [l1|e] eqn:E1; cbn [rbind] in E; [|discriminate].
      injection E as <-. cbn [map fst]. f_equal. apply IH. reflexivity.
    - intros k vs H. destruct (map_res_ok_back _ _ _ E _ H) as (x & B & _). unfold get_col in B.
      destruct (col_find (f_cols f) x) as [v|] eqn:C; cbn [rbind] in B; [|discriminate]. injection B as <- <-. apply col_find_in. exact C. }
  destruct c as [|ks|k]; cbn [loc_cols columns_asked]; [|apply A|apply A].
  intros H. injection H as <-. auto.
Qed.
Lemma get_columns_dec f ks : (incl ks (map fst (f_cols f)) /\ exists g, get_columns f ks = Ok g) \/ (~ incl ks (map fst (f_cols f)) /\ get_columns f ks = Err KeyError).
Proof.
  unfold get_columns. set (h := fun k => rbind (get_col f k) (fun v => Ok (k, v))).
  assert (D : forall k, (exists y, h k = Ok y /\ In k (map fst (f_cols f))) \/ (h k = Err KeyError /\ ~ In k (map fst (f_cols f)))).
  { intros k. unfold h, get_col. destruct (col_find (f_cols f) k) as [v|] eqn:E; cbn [rbind].
    - left. eexists. split; [reflexivity|]. apply col_find_in in E. change k with (fst (k, v)). apply in_map. exact E.
    - right. split; [reflexivity|]. apply col_find_none. exact E. }
  assert (I : forall l, {incl l (map fst (f_cols f))} + {exists k, In k l /\ ~ In k (map fst (f_cols f))}).
  { induction l as [|k l IH]; [left; intros ? []|]. destruct (in_dec string_dec k (map fst (f_cols f))) as [K|K].
    - destruct IH as [J|J]; [left; intros x [<-|X]; [exact K|apply J; exact X]|]. right. destruct J as (y & J1 & J2). exists y. split; [right; exact J1|exact J2].
    - right. exists k. split; [left; reflexivity|exact K]. }
  destruct (I ks) as [J|(k & J1 & J2)].
  - left. split; [exact J|]. destruct (map_res_total h ks) as [l' ->]; [|cbn [rbind]; eauto].
    intros x X. destruct (D x) as [(y & E & _)|(_ & N)]; [eauto|]. exfalso. apply N. apply J. exact X.
  - right. split; [intros K; apply J2; apply K; exact J1|]. rewrite (map_res_err h KeyError); [reflexivity| |].
    + intros x e' E. destruct (D x) as [(y & E' & _)|(E' & _)]; congruence.
    + exists k, KeyError. split; [exact J1|]. destruct (D k) as [(y & _ & E)|(E & _)]; [contradiction|exact E].
Qed.

(** rows taken *)
Lemma take_rows_names f ps : map fst (f_cols (take_rows f ps)) = map fst (f_cols f).
Proof. cbn [take_rows f_cols]. rewrite map_map. reflexivity. Qed.

Lemma take_rows_values f ps t k v : shaped f -> Forall (fun i => (i < List.length (f_index f))%nat) ps -> In t (f_index (take_rows f ps)) ->
  (value_at (take_rows f ps) t k v <-> value_at f t k v).
Proof.
  intros (Hs & N & _) B T. unfold value_at. cbn [take_rows f_index f_cols] in *. split.
  - intros (i & vs & H1 & H2 & H3). rewrite nth_error_map in H1. destruct (nth_error ps i) as [j|] eqn:J; [|discriminate]. cbn [option_map] in H1. injection H1 as <-.
    assert (Bj : (j < List.length (f_index f))%nat) by (rewrite Forall_forall in B; apply B; eapply nth_error_In; exact J).
    apply in_map_iff in H2. destruct H2 as ([k' ws] & E & H2). injection E as <- <-. cbn [snd] in H3.
    rewrite nth_error_map, J in H3. cbn [option_map] in H3. injection H3 as <-.
    exists j, ws. split; [apply nth_error_nth'; exact Bj|]. split; [exact H2|]. apply nth_error_nth'.
    rewrite Forall_forall in Hs. specialize (Hs _ H2). cbn [snd] in Hs. rewrite Hs. exact Bj.
  - intros (i & vs & H1 & H2 & H3). apply in_map_iff in T. destruct T as (j & T1 & T2).
    assert (Bj : (j < List.length (f_index f))%nat) by (rewrite Forall_forall in B; apply B; exact T2).
    assert (i = j).
    { apply (NoDup_nth_error (f_index f)); [exact N|eapply nth_error_lt; exact H1|]. rewrite H1. symmetry. rewrite <- T1. apply nth_error_nth'. exact Bj. }
    subst j. destruct (In_nth_error _ _ T2) as [n Hn]. exists n, (map (fun i0 => nth i0 vs 0%Q) ps). split; [|split].
    + rewrite nth_error_map, Hn. cbn [option_map]. rewrite T1. reflexivity.
    + apply in_map_iff. exists (k, vs). auto.
    + rewrite nth_error_map, Hn. cbn [option_map]. f_equal. apply nth_error_nth with (d := 0%Q) in H3. exact H3.
Qed.

Lemma map_nth_seq {A} (l : list A) d : map (fun i => nth i l d) (seq 0 (List.length l)) = l.
Proof.
  induction l as [|x l IH]; [reflexivity|]. cbn [List.length seq map nth]. f_equal. rewrite <- seq_shift, map_map. exact IH.
Qed.
Lemma filter_map_comm {A B} (h : A -> B) (p : B -> bool) l : map h (filter (fun a => p (h a)) l) = filter p (map h l).
Proof. induction l as [|x l IH]; [reflexivity|]. cbn [filter map]. destruct (p (h x)); cbn [map]; rewrite IH; reflexivity. Qed.

Lemma positions_index f p : map (fun i => nth i (f_index f) 0) (positions f p) = filter p (f_index f).
Proof. unfold positions. rewrite (filter_map_comm (fun i => nth i (f_index f) 0) p). rewrite map_nth_seq. reflexivity. Qed.

(** the positions a selection of rows takes *)
Lemma loc_rows_ok f r g : loc_rows f r = Ok g ->
  f_index g = times_asked f r /\ (g = f \/ exists ps, g = take_rows f ps /\ Forall (fun i => (i < List.length (f_index f))%nat) ps).
Proof.
  destruct r as [|a b|ts|t]; cbn [loc_rows times_asked].
  - intros H. injection H as <-. auto.
  - intros H. injection H as <-. split; [cbn [take_rows f_index]; apply positions_index|]. right. eexists. split; [reflexivity|].
    apply Forall_forall. intros i H. apply filter_In in H. destruct H as [H _]. apply in_seq in H. lia.
  - destruct (map_res _ ts) as [ps|e] eqn:E; cbn [rbind]; [|discriminate]. intros H. injection H as <-. split.
    + cbn [take_rows f_index]. revert ps E. induction ts as [|t ts IH]; intros ps E; cbn [map_res] in E; [injection E as <-; reflexivity|].
      pose proof (position_of_spec (f_index f) t) as P. destruct (position_of (f_index f) t) as [i|]; cbn [rbind] in E; [|discriminate].
      destruct (map_res _ ts) as [l1|e] eqn:E1; cbn [rbind] in E; [|discriminate]. injection E as <-. cbn [map]. f_equal; [|apply IH; reflexivity].
      apply nth_error_nth with (d := 0) in P. exact P.
    + right. exists ps. split; [reflexivity|]. apply Forall_forall. intros i H. destruct (map_res_ok_back _ _ _ E _ H) as (x & B & _).
      pose proof (position_of_spec (f_index f) x) as P. destruct (position_of (f_index f) x) as [j|]; [|discriminate]. injection B as <-. eapply nth_error_lt. exact P.
  - pose proof (position_of_spec (f_index f) t) as P. destruct (position_of (f_index f) t) as [i|]; [|discriminate]. intros H. injection H as <-. split.
    + cbn [take_rows f_index map]. f_equal. apply nth_error_nth with (d := 0) in P. exact P.
    + right. exists [i]. split; [reflexivity|]. constructor; [eapply nth_error_lt; exact P|constructor].
Qed.
Lemma loc_rows_dec f r : (incl (times_asked f r) (f_index f) /\ exists g, loc_rows f r = Ok g) \/ (~ incl (times_asked f r) (f_index f) /\ loc_rows f r = Err KeyError).
Proof.
  set (h := fun t => match position_of (f_index f) t with Some i => Ok i | None => Err KeyError end).
  assert (D : forall t, (exists y, h t = Ok y /\ In t (f_index f)) \/ (h t = Err KeyError /\ ~ In t (f_index f))).
  { intros t. unfold h. pose proof (position_of_spec (f_index f) t) as P. destruct (position_of (f_index f) t) as [i|]; [left; exists i|right; auto].
    split; [reflexivity|]. eapply nth_error_In. exact P. }
  destruct r as [|a b|ts|t]; cbn [loc_rows times_asked].
  - left. split; [apply incl_refl|eauto].
  - left. split; [intros t H; apply filter_In in H; apply H|eauto].
  - fold h. assert (I : {incl ts (f_index f)} + {exists t, In t ts /\ ~ In t (f_index f)}).
    { induction ts as [|t ts IH]; [left; intros ? []|]. destruct (in_dec Z.eq_dec t (f_index f)) as [K|K].
      - destruct IH as [J|J]; [left; intros x [<-|X]; [exact K|apply J; exact X]|]. right. destruct J as (y & J1 & J2). exists y. split; [right; exact J1|exact J2].
      - right. exists t. split; [left; reflexivity|exact K]. }
    destruct I as [J|(t & J1 & J2)].
    + left. split; [exact J|]. destruct (map_res_total h ts) as [l' ->]; [|cbn [rbind]; eauto].
      intros x X. destruct (D x) as [(y & E & _)|(_ & N)]; [eauto|]. exfalso. apply N. apply J. exact X.
    + right. split; [intros K; apply J2; apply K; exact J1|]. rewrite (map_res_err h KeyError); [reflexivity| |].
      * intros x e' E. destruct (D x) as [(y & E' & _)|(E' & _)]; congruence.
      * exists t, KeyError. split; [exact J1|]. destruct (D t) as [(y & _ & E)|(E & _)]; [contradiction|exact E].
  - pose proof (position_of_spec (f_index f) t) as P. destruct (position_of (f_index f) t) as [i|].
    + left. split; [|eauto]. intros x [<-|[]]. eapply nth_error_In. exact P.
    + right. split; [|reflexivity]. intros K. apply P. apply K. left. reflexivity.
Qed.

(** loc(index, columns) has the times and the columns asked for, in that order, and the values of the data there. *)
Theorem C76_loc f r c g : shaped f -> plot_loc f r c = Ok g ->
  f_index g = times_asked f r /\ map fst (f_cols g) = columns_asked f c /\
  forall t k v, In t (times_asked f r) -> In k (columns_asked f c) -> (value_at g t k v <-> value_at f t k v).
Proof.
  intros Hs H. unfold plot_loc in H. destruct (loc_rows f r) as [g1|e] eqn:E1; cbn [rbind] in H; [|discriminate].
  destruct (loc_cols g1 c) as [g2|e] eqn:E2; cbn [rbind] in H; [|discriminate].
  assert (g2 = g) by (destruct r, c; try discriminate; injection H as ->; reflexivity). subst g2. clear H.
  destruct (loc_rows_ok _ _ _ E1) as [I1 G1]. destruct (loc_cols_ok _ _ _ E2) as (I2 & C2 & S2).
  assert (Nm : map fst (f_cols g1) = map fst (f_cols f)) by (destruct G1 as [->|(ps & -> & _)]; [reflexivity|apply take_rows_names]).
  assert (Ca : columns_asked g1 c = columns_asked f c) by (destruct c; cbn [columns_asked]; rewrite ?Nm; reflexivity).
  split; [congruence|]. split; [congruence|]. intros t k v T K.
  assert (V1 : value_at g1 t k v <-> value_at f t k v).
  { destruct G1 as [->|(ps & -> & B)]; [reflexivity|]. apply take_rows_values; [exact Hs|exact B|]. rewrite I1. exact T. }
  rewrite <- V1. unfold value_at. split.
  - intros (i & vs & A1 & A2 & A3). exists i, vs. rewrite <- I2. auto.
  - intros (i & vs & A1 & A2 & A3). exists i, vs. rewrite I2. split; [exact A1|]. split; [|exact A3].
    rewrite <- Ca, <- C2 in K. apply in_map_iff in K. destruct K as ([k' ws] & Ek & K). cbn [fst] in Ek. subst k'.
    pose proof (S2 _ _ K) as K1. assert (N1 : NoDup (map fst (f_cols g1))) by (rewrite Nm; apply Hs).
    rewrite (names_inj _ _ _ _ N1 A2 K1). exact K.
Qed.

(** loc gives a Plot exactly when every label is there and neither argument is a single label; it raises KeyError exactly when a
    label is missing, and ValueError otherwise. *)
Theorem C76_loc_result f r c :
  ((exists g, plot_loc f r c = Ok g) <-> labels_found f r c /\ ~ single r c) /\
  (plot_loc f r c = Err KeyError <-> ~ labels_found f r c) /\
  (plot_loc f r c = Err ValueError <-> labels_found f r c /\ single r c).
Proof.
  unfold plot_loc, labels_found.
  assert (Sg : single r c \/ ~ single r c).
  { destruct r; destruct c; try (left; left; eexists; reflexivity); try (left; right; eexists; reflexivity); right; intros [[x X]|[x X]]; discriminate. }
  destruct (loc_rows_dec f r) as [[R1 [g1 R2]]|[R1 R2]]; rewrite R2; cbn [rbind].
  2: { split; [split; [intros [g H]; discriminate|intros [[? _] _]; contradiction]|]. split; [split; [intros _ [? _]; contradiction|reflexivity]|].
       split; [discriminate|intros [[? _] _]; contradiction]. }
  destruct (loc_rows_ok _ _ _ R2) as [I1 G1].
  assert (Nm : map fst (f_cols g1) = map fst (f_cols f)) by (destruct G1 as [->|(ps & -> & _)]; [reflexivity|apply take_rows_names]).
  assert (D : (incl (columns_asked f c) (map fst (f_cols f)) /\ exists g, loc_cols g1 c = Ok g) \/ (~ incl (columns_asked f c) (map fst (f_cols f)) /\ loc_cols g1 c = Err KeyError)).
  { destruct c as [|ks|k]; cbn [loc_cols columns_asked].
    - left. split; [apply incl_refl|eauto].
    - rewrite <- Nm. apply get_columns_dec.
    - rewrite <- Nm. apply get_columns_dec. }
  destruct D as [[D1 [g2 D2]]|[D1 D2]]; rewrite D2; cbn [rbind].
  2: { split; [split; [intros [g H]; discriminate|intros [[_ ?] _]; contradiction]|]. split; [split; [intros _ [_ ?]; contradiction|reflexivity]|].
       split; [discriminate|intros [[_ ?] _]; contradiction]. }
  assert (V : (single r c /\ forall g, match r, c with ROne _, _ | _, COne _ => Err ValueError | _, _ => Ok g end = Err ValueError :> res frame) \/
              (~ single r c /\ forall g : frame, match r, c with ROne _, _ | _, COne _ => Err ValueError | _, _ => Ok g end = Ok g)).
  { destruct Sg as [Sg|Sg]; [left|right]; (split; [exact Sg|]); intros g; destruct r; destruct c; try reflexivity; exfalso.
    1-6: destruct Sg as [[x X]|[x X]]; discriminate.
    all: apply Sg; first [left; eexists; reflexivity|right; eexists; reflexivity]. }
  destruct V as [[V1 V2]|[V1 V2]]; rewrite V2.
  - split; [split; [intros [g H]; discriminate|intros [_ ?]; contradiction]|]. split; [split; [discriminate|intros H; exfalso; apply H; auto]|]. split; auto.
  - split; [split; [auto|eauto]|]. split; [split; [discriminate|intros H; exfalso; apply H; auto]|]. split; [discriminate|intros [_ ?]; contradiction].
Qed.

(** The documentation allows one label (str) for either argument: it raises ValueError. *)
Theorem C76_one_label_refuted :
  let f := Frame [0; 1] [("a", [1%Q; 2%Q]); ("b", [3%Q; 4%Q])] in
  shaped f /\ plot_loc f RAll (COne "a") = Err ValueError /\ plot_loc f (ROne 1) CAll = Err ValueError /\
  plot_loc f RAll (CList ["a"]) = Ok (Frame [0; 1] [("a", [1%Q; 2%Q])]).
Proof.
  split; [|repeat split; reflexivity]. split; [repeat constructor|]. split; (constructor; [|constructor; [|constructor]]); cbn; intuition discriminate.
Qed.

(** A slice of a slice is the slice of the common times. *)
Theorem C76_loc_twice f a b c d g : shaped f -> plot_loc f (RSlice a b) CAll = Ok g ->
  exists h, plot_loc g (RSlice c d) CAll = Ok h /\ f_index h = times_asked f (RSlice (Z.max a c) (Z.min b d)) /\
    map fst (f_cols h) = map fst (f_cols f) /\
    forall t k v, In t (f_index h) -> In k (map fst (f_cols h)) -> (value_at h t k v <-> value_at f t k v).
Proof.
  intros Hs H. destruct (C76_loc _ _ _ _ Hs H) as (I & C & V). cbn [times_asked columns_asked] in *.
  assert (Hs' : shaped g).
  { cbn [plot_loc loc_rows loc_cols rbind] in H. injection H as <-. destruct Hs as (S1 & S2 & S3). split; [|split].
    - apply Forall_forall. intros nv K. cbn [take_rows f_cols] in K. apply in_map_iff in K. destruct K as (w & <- & K). cbn [take_rows f_index snd]. rewrite !map_length. reflexivity.
    - rewrite I. apply NoDup_filter. exact S2.
    - rewrite C. exact S3. }
  eexists. split; [reflexivity|]. destruct (C76_loc g (RSlice c d) CAll _ Hs' eq_refl) as (I' & C' & V'). cbn [times_asked columns_asked] in *.
  assert (E : filter (fun t => (c <=? t) && (t <=? d)) (f_index g) = filter (fun t => (Z.max a c <=? t) && (t <=? Z.min b d)) (f_index f)).
  { rewrite I. clear. induction (f_index f) as [|t l IH]; [reflexivity|]. cbn [filter].
    destruct ((a <=? t) && (t <=? b)) eqn:E1; cbn [filter]; [|destruct ((Z.max a c <=? t) && (t <=? Z.min b d)) eqn:E2; [exfalso; lia|exact IH]].
    destruct ((c <=? t) && (t <=? d)) eqn:E3; destruct ((Z.max a c <=? t) && (t <=? Z.min b d)) eqn:E4; try lia; rewrite IH; reflexivity. }
  split; [rewrite I'; exact E|]. split; [congruence|]. intros t k v T K. rewrite C' in K. rewrite I' in T. rewrite (V' t k v T K).
  apply V; [|rewrite <- C; exact K]. apply filter_In in T. rewrite <- I. apply T.
Qed.

(** *** iloc and head *)

(** what Python's [l[a:b]] is *)
Definition py_index (n : nat) (x : Z) : nat := if x <? 0 then (n - Z.to_nat (- x))%nat else Nat.min n (Z.to_nat x).
Definition py_slice {A} (l : list A) (a b : Z) : list A :=
  let lo := py_index (List.length l) a in let hi := py_index (List.length l) b in firstn (hi - lo) (skipn lo l).

Lemma slice_bound_py n x : Z.to_nat (slice_bound (Z.of_nat n) x) = py_index n x.
Proof. unfold slice_bound, py_index. destruct (x <? 0) eqn:E; lia. Qed.

Lemma map_nth_window {A} (l : list A) d : forall lo k, (lo + k <= List.length l)%nat -> map (fun i => nth i l d) (seq lo k) = firstn k (skipn lo l).
Proof.
  intros lo. revert l. induction lo as [|lo IH]; intros l k H; cbn [skipn].
  - revert l H. induction k as [|k IHk]; intros l H; [reflexivity|]. destruct l as [|x l]; [cbn in H; lia|].
    cbn [seq map nth firstn]. f_equal. rewrite <- seq_shift, map_map. apply IHk. cbn in H. lia.
  - destruct l as [|x l]; [cbn in H; destruct k; [reflexivity|lia]|]. rewrite <- IH by (cbn in H; lia).
    rewrite <- seq_shift, map_map. reflexivity.
Qed.

Lemma slice_positions_seq n a b : slice_positions (Z.of_nat n) a b = seq (py_index n a) (py_index n b - py_index n a).
Proof.
  unfold slice_positions. rewrite <- !slice_bound_py. set (x := slice_bound (Z.of_nat n) a). set (y := slice_bound (Z.of_nat n) b).
  assert (0 <= x) by (unfold x, slice_bound; lia). assert (0 <= y) by (unfold y, slice_bound; lia).
  unfold arange. rewrite map_map. clearbody x y.
  replace (Z.to_nat y - Z.to_nat x)%nat with (Z.to_nat (y - x)) by lia. set (k := Z.to_nat (y - x)). clearbody k.
  replace (seq (Z.to_nat x) k) with (map (fun i => (Z.to_nat x + i)%nat) (seq 0 k)).
  - apply map_ext_in. intros i _. lia.
  - clear. generalize (Z.to_nat x) as m. intros m. revert m. induction k as [|k IH]; intros m; [reflexivity|]. cbn [seq map]. rewrite Nat.add_0_r. f_equal.
    rewrite <- (IH (S m)). rewrite <- seq_shift, map_map. apply map_ext. intros i. lia.
Qed.

Lemma py_slice_map_nth {A} (l : list A) d a b : map (fun i => nth i l d) (slice_positions (Z.of_nat (List.length l)) a b) = py_slice l a b.
Proof.
  rewrite slice_positions_seq. unfold py_slice. cbv zeta. set (n := List.length l).
  destruct (Nat.le_gt_cases (py_index n a) (py_index n b)) as [L|L].
  - apply map_nth_window. fold n. assert (py_index n b <= n)%nat by (unfold py_index; destruct (b <? 0); lia). lia.
  - replace (py_index n b - py_index n a)%nat with 0%nat by lia. reflexivity.
Qed.

(** iloc[a:b] is Python's slice of the index and of each column. *)
Theorem C76_iloc f a b : shaped f ->
  plot_iloc f a b = Frame (py_slice (f_index f) a b) (map (fun nv => (fst nv, py_slice (snd nv) a b)) (f_cols f)).
Proof.
  intros (Hs & _ & _). unfold plot_iloc, take_rows. f_equal; [apply py_slice_map_nth|].
  apply map_ext_in. intros nv H. f_equal. rewrite Forall_forall in Hs. unfold zlen. rewrite <- (Hs nv H). apply py_slice_map_nth.
Qed.

(** head(n): the first n times, or all but the last -n when n is negative. *)
Theorem C76_head f n : shaped f ->
  let first {A} (l : list A) := firstn (if n <? 0 then List.length l - Z.to_nat (- n) else Z.to_nat n) l in
  plot_head f n = Frame (first (f_index f)) (map (fun nv => (fst nv, first (snd nv))) (f_cols f)).
Proof.
  intros Hs first. unfold plot_head. rewrite (C76_iloc f 0 n Hs).
  assert (E : forall A (l : list A), py_slice l 0 n = first A l).
  { intros A l. unfold py_slice, first, py_index. cbv zeta. change (0 <? 0) with false. cbv iota. rewrite Nat.min_0_r. cbn [skipn]. rewrite Nat.sub_0_r.
    destruct (n <? 0); [reflexivity|]. destruct (Nat.le_gt_cases (List.length l) (Z.to_nat n)) as [L|L].
    - rewrite Nat.min_l by exact L. rewrite !firstn_all2 by lia. reflexivity.
    - rewrite Nat.min_r by lia. reflexivity. }
  f_equal; [apply E|]. apply map_ext. intros nv. f_equal. apply E.
Qed.

(** the hypotheses of the theorems above *)
Example C76_case :
  let f := Frame [0; 10; 20] [("a", [1%Q; 2%Q; 3%Q]); ("b", [4%Q; 5%Q; 6%Q])] in
  shaped f /\ labels_found f (RList [20; 0]) (CList ["b"]) /\
  plot_loc f (RList [20; 0]) (CList ["b"]) = Ok (Frame [20; 0] [("b", [6%Q; 4%Q])]) /\
  plot_loc f (RSlice 5 20) CAll = Ok (Frame [10; 20] [("a", [2%Q; 3%Q]); ("b", [5%Q; 6%Q])]) /\
  plot_loc f (RList [15]) CAll = Err KeyError /\
  plot_iloc f (-2) 10 = Frame [10; 20] [("a", [2%Q; 3%Q]); ("b", [5%Q; 6%Q])] /\
  plot_head f (-1) = Frame [0; 10] [("a", [1%Q; 2%Q]); ("b", [4%Q; 5%Q])].
Proof.
  split; [|split; [|vm_compute; repeat split]].
  - split; [repeat constructor|]. split; repeat (constructor; [cbn; intuition discriminate|]); constructor.
  - split; intros x; cbn; intuition.
Qed.

(** ** C77: shadow plots *)

(** *** Specification *)

(** the two engines, whatever the capitals *)
Definition engine_known (e : string) : Prop := lower e = "matplotlib" \/ lower e = "plotly".
(** the mean of row [i] *)
Definition row_mean (f : frame) (i : nat) : Q := (fold_right Qplus 0 (map (fun nv => nth i (snd nv) 0) (f_cols f)) / inject_Z (zlen (f_cols f)))%Q.
(** all the columns are asked for *)
Definition all_asked (s : string) : Prop := lower s = "all".

(** what the arguments must be *)
Definition shadow_ok (f : frame) (main : option string) (columns : shadow_cols) (average : bool) (engine : string) : Prop :=
  engine_known engine /\
  (match main with Some m => average = false /\ In m (map fst (f_cols f)) | None => average = true end) /\
  (match columns with SText s => all_asked s \/ In s (map fst (f_cols f)) | SColumns _ => False end).

Lemma check_engine_spec e : match check_engine e with Ok _ => engine_known e | Err x => x = ValueError /\ ~ engine_known e end.
Proof.
  unfold check_engine, engine_known. destruct (String.eqb (lower e) "matplotlib") eqn:E1; [apply String.eqb_eq in E1; auto|].
  destruct (String.eqb (lower e) "plotly") eqn:E2; [apply String.eqb_eq in E2; auto|]. apply String.eqb_neq in E1, E2. split; [reflexivity|]. intros [H|H]; contradiction.
Qed.
Lemma get_col_dec f k : (exists v, get_col f k = Ok v /\ In (k, v) (f_cols f)) \/ (get_col f k = Err KeyError /\ ~ In k (map fst (f_cols f))).
Proof.
  unfold get_col. destruct (col_find (f_cols f) k) as [v|] eqn:E; [left; exists v; split; [reflexivity|apply col_find_in; exact E]|].
  right. split; [reflexivity|apply col_find_none; exact E].
Qed.
Lemma mean_line F f : exact F -> f_cols f <> [] -> exists v, plot_mean F f = Ok (Frame (f_index f) [("Mean", v)]) /\
  List.length v = List.length (f_index f) /\ forall i, (i < List.length (f_index f))%nat -> (nth i v 0 == row_mean f i)%Q.
Proof.
  intros HF N. unfold plot_mean. destruct (f_cols f) as [|c cs] eqn:E; [contradiction|]. rewrite <- E.
  eexists. split; [reflexivity|]. split; [rewrite map_length, seq_length; reflexivity|]. intros i Hi.
  set (h := fun i0 => _). rewrite (nth_indep _ 0%Q (h 0%nat)) by (rewrite map_length, seq_length; exact Hi). rewrite map_nth, seq_nth by exact Hi.
  unfold h, row_mean, row_at, fdiv. rewrite (HF _). cbn [Nat.add]. unfold zq. apply Qdiv_comp; [|reflexivity].
  rewrite fold_fadd_exact by exact HF. rewrite Qplus_0_l. reflexivity.
Qed.

(** shadow() draws exactly when the arguments are as they must be (and there is at least one column). *)
Theorem C77_draws F f main columns average engine : exact F -> f_cols f <> [] ->
  ((exists l, shadow F f main columns average engine = Ok l) <-> shadow_ok f main columns average engine).
Proof.
  intros HF N. unfold shadow, shadow_ok. pose proof (check_engine_spec engine) as P. destruct (check_engine engine) as [e|x]; cbn [rbind].
  2: { destruct P as [-> P]. split; [intros [l H]; discriminate|intros [H _]; contradiction]. }
  destruct (mean_line F f HF N) as (v & M & _). rewrite M.
  assert (Cc : forall ml : string * list Q, (exists l, match columns with SColumns _ => Err AttributeError | SText s => if String.eqb (lower s) "all" then Ok (ml, f_cols f) else rbind (get_col f s) (fun v0 => Ok (ml, [(s, v0)])) end = Ok l) <->
      match columns with SText s => all_asked s \/ In s (map fst (f_cols f)) | SColumns _ => False end).
  { intros ml. destruct columns as [s|l]; [|split; [intros [? H]; discriminate|intros []]]. unfold all_asked.
    destruct (String.eqb (lower s) "all") eqn:E; [apply String.eqb_eq in E; split; [auto|eauto]|]. apply String.eqb_neq in E.
    destruct (get_col_dec f s) as [(w & -> & H)|[-> H]]; cbn [rbind].
    - split; [intros _; right; change s with (fst (s, w)); apply in_map; exact H|eauto].
    - split; [intros [? K]; discriminate|intros [K|K]; contradiction]. }
  destruct main as [m|], average; cbn [rbind].
  - split; [intros [l H]; discriminate|intros (_ & [H _] & _); discriminate].
  - destruct (get_col_dec f m) as [(w & -> & H)|[-> H]]; cbn [rbind].
    + rewrite Cc. split; [intros K; split; [exact P|]; split; [split; [reflexivity|]|exact K]|intros (_ & _ & K); exact K]. change m with (fst (m, w)). apply in_map. exact H.
    + split; [intros [l K]; discriminate|intros (_ & [_ K] & _); contradiction].
  - change (get_col (Frame (f_index f) [("Mean", v)]) "Mean") with (Ok v : res (list Q)). cbn [rbind]. rewrite Cc.
    split; [intros K; auto|intros (_ & _ & K); exact K].
  - split; [intros [l H]; discriminate|intros (_ & H & _); discriminate].
Qed.

(** What it draws: the dark line is the given column, or the mean of all columns (not of those drawn); the other lines are all
    columns, or the one that was named. *)
Theorem C77_lines F f main columns average engine label line others : exact F -> f_cols f <> [] ->
  shadow F f main columns average engine = Ok ((label, line), others) ->
  (match main with
   | Some m => label = m /\ In (m, line) (f_cols f)
   | None => label = "Average" /\ List.length line = List.length (f_index f) /\ forall i, (i < List.length (f_index f))%nat -> (nth i line 0 == row_mean f i)%Q
   end) /\
  exists s, columns = SText s /\ (all_asked s -> others = f_cols f) /\ (~ all_asked s -> exists v, others = [(s, v)] /\ In (s, v) (f_cols f)).
Proof.
  intros HF N. unfold shadow. destruct (check_engine engine) as [e|x]; cbn [rbind]; [|discriminate].
  destruct (mean_line F f HF N) as (v & M & M1 & M2). rewrite M.
  assert (Cc : forall ml : string * list Q, match columns with SColumns _ => Err AttributeError | SText s => if String.eqb (lower s) "all" then Ok (ml, f_cols f) else rbind (get_col f s) (fun v0 => Ok (ml, [(s, v0)])) end = Ok ((label, line), others) ->
      ml = (label, line) /\ exists s, columns = SText s /\ (all_asked s -> others = f_cols f) /\ (~ all_asked s -> exists v, others = [(s, v)] /\ In (s, v) (f_cols f))).
  { intros ml H. destruct columns as [s|l]; [|discriminate]. unfold all_asked.
    destruct (String.eqb (lower s) "all") eqn:E.
    - apply String.eqb_eq in E. injection H as -> <-. split; [reflexivity|]. exists s. split; [reflexivity|]. split; [reflexivity|intros K; contradiction].
    - apply String.eqb_neq in E. destruct (get_col_dec f s) as [(w & Hw & K)|[Hw K]]; rewrite Hw in H; cbn [rbind] in H; [|discriminate].
      injection H as -> <-. split; [reflexivity|]. exists s. split; [reflexivity|]. split; [intros ?; contradiction|intros _; exists w; auto]. }
  destruct main as [m|], average; cbn [rbind]; try discriminate.
  - destruct (get_col_dec f m) as [(w & -> & H)|[-> H]]; cbn [rbind]; [|discriminate]. intros K. destruct (Cc _ K) as [E1 E2]. injection E1 as <- <-. auto.
  - change (get_col (Frame (f_index f) [("Mean", v)]) "Mean") with (Ok v : res (list Q)). cbn [rbind]. intros K. destruct (Cc _ K) as [E1 E2]. injection E1 as <- <-. auto.
Qed.

(** Otherwise: which exception. *)
Theorem C77_exceptions F f main columns average engine e : exact F -> f_cols f <> [] -> shadow F f main columns average engine = Err e ->
  (e = ValueError /\ (~ engine_known engine \/ (main = None /\ average = false) \/ ((exists m, main = Some m) /\ average = true))) \/
  (e = KeyError /\ ((exists m, main = Some m /\ ~ In m (map fst (f_cols f))) \/ (exists s, columns = SText s /\ ~ all_asked s /\ ~ In s (map fst (f_cols f))))) \/
  (e = AttributeError /\ exists l, columns = SColumns l).
Proof.
  intros HF N. unfold shadow. pose proof (check_engine_spec engine) as P. destruct (check_engine engine) as [x|x]; cbn [rbind].
  2: { destruct P as [-> P]. intros H. injection H as <-. left. auto. }
  destruct (mean_line F f HF N) as (v & M & _). rewrite M.
  assert (Cc : forall ml : string * list Q, match columns with SColumns _ => Err AttributeError | SText s => if String.eqb (lower s) "all" then Ok (ml, f_cols f) else rbind (get_col f s) (fun v0 => Ok (ml, [(s, v0)])) end = Err e ->
      (e = KeyError /\ exists s, columns = SText s /\ ~ all_asked s /\ ~ In s (map fst (f_cols f))) \/ (e = AttributeError /\ exists l, columns = SColumns l)).
  { intros ml H. destruct columns as [s|l]; [|injection H as <-; eauto]. left. unfold all_asked.
    destruct (String.eqb (lower s) "all") eqn:E; [discriminate|]. apply String.eqb_neq in E.
    destruct (get_col_dec f s) as [(w & Hw & K)|[Hw K]]; rewrite Hw in H; cbn [rbind] in H; [discriminate|]. injection H as <-. eauto. }
  destruct main as [m|], average; cbn [rbind].
  - intros H. injection H as <-. left. split; [reflexivity|]. right. right. eauto.
  - destruct (get_col_dec f m) as [(w & -> & H)|[-> H]]; cbn [rbind].
    + intros K. destruct (Cc _ K) as [[E1 E2]|[E1 E2]]; right; [left|right]; auto.
    + intros K. injection K as <-. right. left. split; [reflexivity|]. left. eauto.
  - change (get_col (Frame (f_index f) [("Mean", v)]) "Mean") with (Ok v : res (list Q)). cbn [rbind].
    intros K. destruct (Cc _ K) as [[E1 E2]|[E1 E2]]; right; [left|right]; auto.
  - intros H. injection H as <-. left. auto.
Qed.

(** The documented list of columns raises AttributeError, whatever else is right; and a column called "All" is not drawn alone. *)
Theorem C77_columns_refuted :
  (forall F f l engine, exact F -> f_cols f <> [] -> engine_known engine -> shadow F f None (SColumns l) true engine = Err AttributeError) /\
  let f := Frame [0] [("All", [1%Q]); ("b", [3%Q])] in
  exists line, shadow exact_fm f None (SText "All") true "matplotlib" = Ok (line, [("All", [1%Q]); ("b", [3%Q])]).
Proof.
  split.
  - intros F f l engine HF N K. unfold shadow. pose proof (check_engine_spec engine) as P. destruct (check_engine engine) as [x|x]; [|destruct P; contradiction].
    destruct (mean_line F f HF N) as (v & M & _). cbn [rbind]. rewrite M. reflexivity.
  - eexists. reflexivity.
Qed.

(** the hypotheses of the theorems above *)
Example C77_case :
  let f := Frame [0; 1] [("a", [1%Q; 2%Q]); ("b", [3%Q; 4%Q])] in
  shadow_ok f None (SText "ALL") true "Plotly" /\ shadow_ok f (Some "b") (SText "a") false "matplotlib" /\
  (exists l, shadow exact_fm f None (SText "ALL") true "Plotly" = Ok (("Average", l), f_cols f) /\ Forall2 Qeq l [2%Q; 3%Q]) /\
  shadow exact_fm f (Some "b") (SText "a") false "matplotlib" = Ok (("b", [3%Q; 4%Q]), [("a", [1%Q; 2%Q])]) /\
  shadow exact_fm f (Some "b") (SText "a") true "matplotlib" = Err ValueError.
Proof.
  cbv zeta. split; [|split; [|split; [|split; reflexivity]]].
  - split; [right; reflexivity|]. split; [reflexivity|]. left. reflexivity.
  - split; [left; reflexivity|]. split; [split; [reflexivity|right; left; reflexivity]|]. right. left. reflexivity.
  - eexists. split; [reflexivity|]. repeat constructor.
Qed.
