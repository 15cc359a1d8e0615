(** * PropsConvert: C51, C57 *)
From Coq Require Import Ascii.
From Verif Require Import Base ListLemmas PostProcess Convert.
Open Scope string_scope.
Open Scope list_scope.
Open Scope Z_scope.

(** ** Text lemmas *)

Lemma sapp_assoc (a b c : string) : ((a ++ b) ++ c = a ++ (b ++ c))%string.
Proof. induction a as [|x a IH]; [reflexivity|]. cbn. f_equal. exact IH. Qed.
Lemma sapp_nil (a : string) : (a ++ "" = a)%string.
Proof. induction a as [|x a IH]; [reflexivity|]. cbn. f_equal. exact IH. Qed.
Lemma join_app a b : join (a ++ b) = (join a ++ join b)%string.
Proof. induction a as [|l a IH]; [reflexivity|]. cbn [join app]. rewrite IH, sapp_assoc. reflexivity. Qed.

Lemma join_readlines s : join (readlines s) = s.
Proof.
  induction s as [|c s IH]; [reflexivity|]. cbn [readlines]. destruct (Ascii.eqb_spec c newline) as [->|].
  - cbn [join]. rewrite IH. reflexivity.
  - destruct (readlines s) as [|l ls]; cbn [join] in *; [rewrite <- IH; reflexivity|]. cbn. f_equal. exact IH.
Qed.

(** the text is empty or its last character is a newline *)
Fixpoint complete (s : string) : bool :=
  match s with
  | EmptyString => true
  | String c EmptyString => Ascii.eqb c newline
  | String _ s' => complete s'
  end.
Lemma complete_cons c s : s <> "" -> complete (String c s) = complete s.
Proof. destruct s; [contradiction|reflexivity]. Qed.
Lemma readlines_nil s : readlines s = [] -> s = "".
Proof. intros H. rewrite <- (join_readlines s), H. reflexivity. Qed.

Lemma readlines_app s t : complete s = true -> readlines (s ++ t) = readlines s ++ readlines t.
Proof.
  induction s as [|c s IH]; intros H; [reflexivity|]. cbn [readlines append]. destruct (Ascii.eqb_spec c newline) as [->|Hc].
  - cbn [app]. f_equal. destruct s as [|d s]; [reflexivity|]. apply IH. exact H.
  - destruct s as [|d s]; [cbn in H; apply Ascii.eqb_eq in H; contradiction|].
    rewrite IH by exact H. destruct (readlines (String d s)) as [|l ls] eqn:E; [|reflexivity].
    apply readlines_nil in E. discriminate.
Qed.
Lemma complete_nl s : complete (s ++ nl) = true.
Proof. induction s as [|c s IH]; [reflexivity|]. cbn [append]. rewrite complete_cons; [exact IH|]. destruct s; discriminate. Qed.

(** a line *)
Inductive line : string -> Prop :=
| line_end : line nl
| line_cons c l : c <> newline -> line l -> line (String c l)
| line_last c : c <> newline -> line (String c "").
Lemma readlines_lines s : Forall line (readlines s).
Proof.
  induction s as [|c s IH]; [constructor|]. cbn [readlines]. destruct (Ascii.eqb_spec c newline) as [->|Hc].
  - constructor; [constructor|exact IH].
  - destruct (readlines s) as [|l ls]; [repeat constructor; exact Hc|]. inversion IH; subst. constructor; [constructor; assumption|assumption].
Qed.
Lemma line_readlines l : line l -> readlines l = [l].
Proof.
  induction 1 as [|c l Hc H IH|c Hc]; [reflexivity| |].
  - cbn [readlines]. destruct (Ascii.eqb_spec c newline); [contradiction|]. rewrite IH. reflexivity.
  - cbn [readlines]. destruct (Ascii.eqb_spec c newline); [contradiction|]. reflexivity.
Qed.
(** lines as a file gives them: all but the last end with a newline *)
Inductive lines : list string -> Prop :=
| lines_nil : lines []
| lines_one l : line l -> lines [l]
| lines_cons l l' ls : line l -> complete l = true -> lines (l' :: ls) -> lines (l :: l' :: ls).
Lemma readlines_shape s : lines (readlines s).
Proof.
  induction s as [|c s IH]; [constructor|]. cbn [readlines]. destruct (Ascii.eqb_spec c newline) as [->|Hc].
  - destruct (readlines s) as [|l ls]; [repeat constructor|]. constructor; [constructor|reflexivity|exact IH].
  - destruct (readlines s) as [|l ls]; [repeat constructor; exact Hc|].
    inversion IH as [|? Hl|? l' ? Hl Hc' Hr]; subst.
    + constructor. constructor; assumption.
    + constructor; [constructor; assumption| |exact Hr]. rewrite complete_cons; [exact Hc'|]. inversion Hl; discriminate.
Qed.
Lemma lines_join ls : lines ls -> readlines (join ls) = ls.
Proof.
  induction 1 as [|l Hl|l l' ls Hl Hc H IH]; [reflexivity| |].
  - cbn [join]. rewrite sapp_nil. apply line_readlines, Hl.
  - cbn [join] in *. rewrite readlines_app by exact Hc. rewrite line_readlines by exact Hl. cbn [app]. f_equal. exact IH.
Qed.

(** ** Replacement of the import *)

Definition F_ : ascii := "f"%char.
Definition no_f (p : string) : Prop := contains "f" p = false.
Lemma no_f_cons a p : no_f (String a p) -> a <> F_ /\ no_f p.
Proof.
  unfold no_f. cbn [contains]. intros H. apply orb_false_iff in H. destruct H as [H1 H2]. split; [|exact H2].
  intros ->. cbn in H1. destruct p; discriminate.
Qed.

Notation rep := (replace_from old_import new_import).

Lemma prefix_cons a p c s : String.prefix (String a p) (String c s) = true <-> a = c /\ String.prefix p s = true.
Proof. cbn. destruct (ascii_dec a c) as [->|H]; split; [tauto|tauto|discriminate|intros [? _]; contradiction]. Qed.

(** text without f that begins the result began the original *)
Lemma prefix_rep p : forall s, no_f p -> String.prefix p (rep 0 s) = true -> String.prefix p s = true.
Proof.
  induction p as [|a p IH]; intros s Hp H; [destruct s; reflexivity|]. apply no_f_cons in Hp. destruct Hp as [Ha Hp].
  destruct s as [|c s]; [exact H|]. cbn [replace_from] in H. destruct (String.prefix old_import (String c s)).
  - unfold new_import in H. apply prefix_cons in H. destruct H as [-> _]. exfalso. apply Ha. reflexivity.
  - apply prefix_cons in H. destruct H as [-> H]. apply prefix_cons. split; [reflexivity|]. apply IH; assumption.
Qed.

Lemma rep_clean : forall s k, contains old_import (rep k s) = false.
Proof.
  induction s as [|c s IH]; intros k; [destruct k; reflexivity|]. cbn [replace_from]. destruct k as [|k]; [|apply IH].
  destruct (String.prefix old_import (String c s)) eqn:E.
  - specialize (IH (pred (String.length old_import))). unfold new_import. cbn [append].
    set (R := rep _ s) in *. unfold old_import in *. cbn [contains]. cbn [String.prefix ascii_dec]. cbn. exact IH.
  - cbn [contains]. rewrite IH, orb_false_r.
    destruct (String.prefix old_import (String c (rep 0 s))) eqn:G; [|reflexivity]. exfalso.
    unfold old_import in G. apply prefix_cons in G. destruct G as [<- G].
    apply prefix_rep in G; [|reflexivity].
    assert (X : String.prefix old_import (String "f" s) = true) by (apply prefix_cons; split; [reflexivity|exact G]). congruence.
Qed.


Lemma contains_cons old c s : contains old (String c s) = String.prefix old (String c s) || contains old s.
Proof. reflexivity. Qed.
Lemma prefix_none a p : String.prefix (String a p) "" = false.
Proof. reflexivity. Qed.
Lemma prefix_diff a p c s : a <> c -> String.prefix (String a p) (String c s) = false.
Proof. intros H. cbn [String.prefix]. destruct (ascii_dec a c); [contradiction|reflexivity]. Qed.
Lemma prefix_same a p s : String.prefix (String a p) (String a s) = String.prefix p s.
Proof. cbn [String.prefix]. destruct (ascii_dec a a); [reflexivity|contradiction]. Qed.
Lemma prefix_empty s : String.prefix "" s = true.
Proof. destruct s; reflexivity. Qed.

(** the newline at the end of a line is not part of the import *)
Fixpoint no_nl (p : string) : bool :=
  match p with EmptyString => true | String c p' => negb (Ascii.eqb c newline) && no_nl p' end.
Lemma no_nl_cons a p : no_nl (String a p) = true <-> a <> newline /\ no_nl p = true.
Proof.
  cbn [no_nl]. rewrite andb_true_iff, negb_true_iff. destruct (Ascii.eqb_spec a newline); split; intros [H1 H2]; split; congruence.
Qed.
Lemma no_nl_app a b : no_nl (a ++ b) = no_nl a && no_nl b.
Proof. induction a as [|c a IH]; [reflexivity|]. cbn [append no_nl]. rewrite IH, andb_assoc. reflexivity. Qed.
Lemma prefix_nl p : no_nl p = true -> p <> "" -> forall s, String.prefix p (s ++ nl) = String.prefix p s.
Proof.
  induction p as [|a p IH]; intros Hp Hne s; [contradiction|]. apply no_nl_cons in Hp. destruct Hp as [Ha Hp].
  destruct s as [|c s].
  - unfold nl. cbn [append]. rewrite prefix_diff by exact Ha. reflexivity.
  - cbn [append]. destruct (ascii_dec a c) as [->|H]; [|rewrite !prefix_diff by exact H; reflexivity].
    rewrite !prefix_same. destruct p as [|b p]; [rewrite !prefix_empty; reflexivity|]. apply IH; [exact Hp|discriminate].
Qed.
Lemma contains_nl old s : no_nl old = true -> old <> "" -> contains old (s ++ nl) = contains old s.
Proof.
  intros Ho Hne. induction s as [|c s IH].
  - pose proof (prefix_nl old Ho Hne "") as H. cbn [append] in *. unfold nl in *. rewrite contains_cons, H.
    destruct old; [contradiction|reflexivity].
  - cbn [append]. rewrite !contains_cons, IH. f_equal. change (String c (s ++ nl)) with ((String c s ++ nl)%string).
    apply prefix_nl; assumption.
Qed.

Lemma line_cases l : line l -> exists m, no_nl m = true /\ ((l = m /\ m <> "") \/ l = (m ++ nl)%string).
Proof.
  induction 1 as [|c l H Hl IH|c H].
  - exists "". split; [reflexivity|]. right. reflexivity.
  - destruct IH as (m & Hm & [[-> Hne]| ->]); exists (String c m); (split; [apply no_nl_cons; auto|]); [left|right]; [split; [reflexivity|discriminate]|reflexivity].
  - exists (String c ""). split; [apply no_nl_cons; auto|]. left. split; [reflexivity|discriminate].
Qed.
Lemma line_of m : no_nl m = true -> m <> "" -> line m /\ complete m = false.
Proof.
  induction m as [|c m IH]; intros Hm Hne; [contradiction|]. apply no_nl_cons in Hm. destruct Hm as [Hc Hm].
  destruct m as [|d m].
  - split; [apply line_last, Hc|]. cbn. apply Ascii.eqb_neq, Hc.
  - destruct IH as [H1 H2]; [exact Hm|discriminate|]. split; [constructor; assumption|]. rewrite complete_cons by discriminate. exact H2.
Qed.
Lemma line_of_nl m : no_nl m = true -> line (m ++ nl).
Proof.
  induction m as [|c m IH]; intros Hm; [constructor|]. apply no_nl_cons in Hm. destruct Hm as [Hc Hm]. cbn [append]. constructor; auto.
Qed.

Lemma prefix_length p : forall s, String.prefix p s = true -> (String.length p <= String.length s)%nat.
Proof.
  induction p as [|a p IH]; intros [|c s] H; cbn [String.length]; try lia; [rewrite prefix_none in H; discriminate|].
  apply prefix_cons in H. destruct H as [_ H]. apply IH in H. lia.
Qed.
Lemma rep_nl : forall m k, (k <= String.length m)%nat -> rep k (m ++ nl) = (rep k m ++ nl)%string.
Proof.
  induction m as [|c m IH]; intros k Hk.
  - cbn [String.length] in Hk. destruct k; [reflexivity|lia].
  - cbn [append]. cbn [replace_from]. destruct k as [|k]; [|apply IH; cbn [String.length] in Hk; lia].
    change (String c (m ++ nl)) with ((String c m ++ nl)%string). rewrite prefix_nl by (reflexivity || discriminate).
    destruct (String.prefix old_import (String c m)) eqn:E.
    + apply prefix_length in E. rewrite IH by (cbn [String.length old_import] in *; cbn; lia). rewrite sapp_assoc. reflexivity.
    + rewrite IH by lia. reflexivity.
Qed.
Lemma rep_no_nl : forall m k, no_nl m = true -> no_nl (rep k m) = true.
Proof.
  induction m as [|c m IH]; intros k H; [destruct k; reflexivity|]. pose proof H as H'. apply no_nl_cons in H'. destruct H' as [Hc Hm].
  cbn [replace_from]. destruct k as [|k]; [|apply IH, Hm]. destruct (String.prefix old_import (String c m)).
  - rewrite no_nl_app, IH by exact Hm. reflexivity.
  - apply no_nl_cons. auto.
Qed.
Lemma rep_line l : line l -> line (rep 0 l) /\ complete (rep 0 l) = complete l.
Proof.
  intros H. apply line_cases in H. destruct H as (m & Hm & [[-> Hne]| ->]).
  - assert (Hr : rep 0 m <> "").
    { destruct m as [|c m]; [contradiction|]. cbn [replace_from]. destruct (String.prefix old_import (String c m)); discriminate. }
    destruct (line_of (rep 0 m) (rep_no_nl m 0 Hm) Hr) as [H1 H2]. destruct (line_of m Hm Hne) as [_ H3]. split; [exact H1|congruence].
  - rewrite rep_nl by lia. split; [apply line_of_nl, rep_no_nl, Hm|]. rewrite !complete_nl. reflexivity.
Qed.

(** ** The lines of a file and its import lines *)

Definition imports (ls : list string) : nat := List.length (filter (contains old_import) ls).
Definition marked (ls : list string) : bool := existsb (String.eqb marker) ls.

Lemma imports_app a b : imports (a ++ b) = (imports a + imports b)%nat.
Proof. unfold imports. rewrite filter_app, app_length. reflexivity. Qed.

Lemma ltc_spec ls : forall i found,
  let k := line_to_change i found ls in
  (k = found /\ imports ls = 0%nat) \/
  (i <= k < i + zlen ls /\ exists a l b, ls = a ++ l :: b /\ zlen a = k - i /\ contains old_import l = true /\ imports b = 0%nat).
Proof.
  induction ls as [|l ls IH]; intros i found; cbn [line_to_change]; [left; split; reflexivity|]. cbv zeta.
  destruct (contains old_import l) eqn:E.
  - destruct (IH (i + 1) i) as [[Hk H0]|[Hk (a & l' & b & E1 & E2 & E3 & E4)]]; rewrite zlen_cons.
    + right. rewrite Hk. pose proof (zlen_nonneg ls). split; [lia|]. exists [], l, ls. split; [reflexivity|]. split; [rewrite zlen_nil; lia|]. split; [exact E|exact H0].
    + right. split; [lia|]. exists (l :: a), l', b. split; [rewrite E1; reflexivity|]. split; [rewrite zlen_cons; lia|]. split; [exact E3|exact E4].
  - destruct (IH (i + 1) found) as [[Hk H0]|[Hk (a & l' & b & E1 & E2 & E3 & E4)]]; rewrite zlen_cons.
    + left. split; [exact Hk|]. unfold imports in *. cbn [filter]. rewrite E. exact H0.
    + right. split; [lia|]. exists (l :: a), l', b. split; [rewrite E1; reflexivity|]. split; [rewrite zlen_cons; lia|]. split; [exact E3|exact E4].
Qed.

Lemma list_set_app {A} (a b : list A) l x : list_set (a ++ l :: b) (List.length a) x = a ++ x :: b.
Proof. induction a as [|y a IH]; [reflexivity|]. cbn. f_equal. exact IH. Qed.
Lemma nth_app_mid {A} (a b : list A) l d : nth (List.length a) (a ++ l :: b) d = l.
Proof. rewrite app_nth2 by lia. rewrite Nat.sub_diag. reflexivity. Qed.

Lemma lines_swap a l x b : lines (a ++ l :: b) -> line x -> complete x = complete l -> lines (a ++ x :: b).
Proof.
  induction a as [|y a IH]; intros H Hx Hc.
  - cbn [app] in *. inversion H; subst; constructor; try assumption. congruence.
  - cbn [app] in *. destruct a as [|z a]; cbn [app] in *.
    + inversion H as [|? Hl|? ? ? Hl Hcc Hr]; subst. constructor; [assumption|assumption|]. apply IH; assumption.
    + inversion H as [|? Hl|? ? ? Hl Hcc Hr]; subst. constructor; [assumption|assumption|]. apply IH; assumption.
Qed.
Lemma lines_Forall ls : lines ls -> Forall line ls.
Proof. induction 1; repeat (constructor; try assumption). Qed.
Lemma lines_in a l b : lines (a ++ l :: b) -> line l.
Proof. intros H. apply lines_Forall in H. rewrite Forall_forall in H. apply H, in_or_app. right. left. reflexivity. Qed.

Lemma complete_app a b : complete b = true -> b <> "" -> complete (a ++ b) = true.
Proof. intros Hb Hne. induction a as [|c a IH]; [exact Hb|]. cbn [append]. rewrite complete_cons; [exact IH|]. destruct a; [exact Hne|discriminate]. Qed.
Lemma lines_front ls l : lines (ls ++ [l]) -> complete (join ls) = true.
Proof.
  induction ls as [|x ls IH]; intros H; [reflexivity|]. cbn [app] in H.
  assert (E : exists y ys, ls ++ [l] = y :: ys) by (destruct ls; eexists _, _; reflexivity). destruct E as (y & ys & E).
  rewrite E in H. inversion H as [| |? ? ? Hx Hc Hr]; subst. cbn [join].
  destruct ls as [|z ls]; [cbn [join]; rewrite sapp_nil; exact Hc|].
  apply complete_app; [apply IH; rewrite E; exact Hr|]. cbn [join]. cbn [app] in E. injection E as -> _.
  apply lines_Forall in Hr. inversion Hr as [|? ? Hy _]; subst. inversion Hy; discriminate.
Qed.

Lemma readlines_nl s : (readlines (s ++ nl) = readlines s ++ [nl] /\ complete s = true) \/
  exists ls l, readlines s = ls ++ [l] /\ readlines (s ++ nl) = ls ++ [(l ++ nl)%string] /\ no_nl l = true.
Proof.
  destruct (complete s) eqn:Ec; [left; split; [apply readlines_app, Ec|reflexivity]|]. right.
  destruct (readlines s) as [|x xs] eqn:E; [apply readlines_nil in E; subst s; discriminate|].
  destruct (exists_last (l := x :: xs) ltac:(discriminate)) as (ls & l & El). rewrite El in E. exists ls, l. rewrite El.
  pose proof (readlines_shape s) as Hs. rewrite E in Hs. pose proof (lines_front _ _ Hs) as Hf.
  pose proof (lines_in ls l [] Hs) as Hl. pose proof (join_readlines s) as Hj. rewrite E, join_app in Hj. cbn [join] in Hj. rewrite sapp_nil in Hj.
  assert (Hls : readlines (join ls) = ls).
  { pose proof (readlines_app (join ls) l Hf) as R. rewrite Hj, E, (line_readlines l Hl) in R. apply app_inj_tail in R. symmetry. apply R. }
  apply line_cases in Hl. destruct Hl as (m & Hm & [[-> Hne]| ->]).
  - split; [reflexivity|]. split; [|exact Hm]. rewrite <- Hj, sapp_assoc, readlines_app by exact Hf.
    rewrite Hls, line_readlines by (apply line_of_nl, Hm). reflexivity.
  - exfalso. rewrite <- Hj in Ec. rewrite <- sapp_assoc, complete_nl in Ec. discriminate.
Qed.

Lemma imports_nl s : imports (readlines (s ++ nl)) = imports (readlines s).
Proof.
  destruct (readlines_nl s) as [[E _]|(ls & l & E1 & E2 & _)].
  - rewrite E, imports_app. replace (imports [nl]) with 0%nat by reflexivity. lia.
  - rewrite E1, E2, !imports_app. f_equal. unfold imports. cbn [filter]. rewrite contains_nl by (reflexivity || discriminate). destruct (contains old_import l); reflexivity.
Qed.
Lemma marked_nl s : marked (readlines s) = true -> marked (readlines (s ++ nl)) = true.
Proof.
  destruct (readlines_nl s) as [[E _]|(ls & l & E1 & E2 & Hl)].
  - rewrite E. unfold marked. rewrite existsb_app. intros ->. reflexivity.
  - rewrite E1, E2. unfold marked. rewrite !existsb_app. intros H. apply orb_true_iff in H. destruct H as [->|H]; [reflexivity|].
    cbn [existsb] in H. rewrite orb_false_r in H. apply String.eqb_eq in H. subst l. discriminate.
Qed.

Definition rest_of_names : string := Eval vm_compute in match convert_names with EmptyString => "" | String _ r => r end.
Lemma names_split : convert_names = (nl ++ rest_of_names)%string.
Proof. reflexivity. Qed.
Lemma names_lines s : readlines (s ++ convert_names) = readlines (s ++ nl) ++ readlines rest_of_names.
Proof. rewrite names_split, <- sapp_assoc. apply readlines_app, complete_nl. Qed.
Lemma names_imports s : imports (readlines (s ++ convert_names)) = imports (readlines s).
Proof. rewrite names_lines, imports_app, imports_nl. replace (imports (readlines rest_of_names)) with 0%nat by reflexivity. lia. Qed.
Lemma names_marked s : marked (readlines (s ++ convert_names)) = true.
Proof. rewrite names_lines. unfold marked. rewrite existsb_app. replace (existsb (String.eqb marker) (readlines rest_of_names)) with true by reflexivity. apply orb_true_r. Qed.

(** ** C51 *)

(** What one conversion does to a file that is not empty: in the last line that has it, "from core
    import" becomes "from ramp.core.core import"; the code that keeps the names is appended
    unless its first line is there.  Nothing else changes. *)
Theorem C51_effect keep text : text <> "" ->
  exists body, convert keep text =
    Ok (if keep && negb (existsb (String.eqb marker) (readlines text)) then (body ++ convert_names)%string else body) /\
  ((body = text /\ forall l, In l (readlines text) -> contains old_import l = false) \/
   exists before l after, readlines text = before ++ l :: after /\ contains old_import l = true /\
     (forall l', In l' after -> contains old_import l' = false) /\
     readlines body = before ++ replace old_import new_import l :: after /\
     contains old_import (replace old_import new_import l) = false).
Proof.
  intros Hne. unfold convert.
  pose proof (ltc_spec (readlines text) 0 (-1)) as Hk. cbv zeta in Hk. set (k := line_to_change 0 (-1) (readlines text)) in *.
  assert (Hno : forall ls, imports ls = 0%nat -> forall l, In l ls -> contains old_import l = false).
  { intros ls H l Hin. destruct (contains old_import l) eqn:E; [|reflexivity]. exfalso. unfold imports in H.
    assert (G : In l (filter (contains old_import) ls)) by (apply filter_In; auto). destruct (filter (contains old_import) ls); [contradiction|discriminate]. }
  destruct (readlines text) as [|x xs] eqn:El; [apply readlines_nil in El; contradiction|]. rewrite <- El in *.
  assert (Hkeep : forall t : string, (if (if existsb (String.eqb marker) (readlines text) then false else keep) then (t ++ convert_names)%string else t)
    = (if keep && negb (existsb (String.eqb marker) (readlines text)) then (t ++ convert_names)%string else t)).
  { intros t. destruct (existsb (String.eqb marker) (readlines text)), keep; reflexivity. }
  rewrite Hkeep. destruct Hk as [[Hk H0]|[Hk (a & l & b & E1 & E2 & E3 & E4)]].
  - exists text. rewrite Hk, Z.eqb_refl. split; [reflexivity|]. left. split; [reflexivity|]. apply Hno, H0.
  - destruct (Z.eqb_spec k (-1)); [lia|]. eexists. split; [reflexivity|]. right. exists a, l, b. split; [exact E1|]. split; [exact E3|].
    split; [apply Hno, E4|].
    assert (Ek : Z.to_nat k = List.length a) by (unfold zlen in E2; lia). rewrite Ek, E1, nth_app_mid, list_set_app.
    pose proof (readlines_shape text) as Hs. rewrite E1 in Hs. destruct (rep_line l (lines_in _ _ _ Hs)) as [R1 R2].
    split; [|apply rep_clean]. apply lines_join. apply (lines_swap a l); [exact Hs|exact R1|exact R2].
Qed.

Lemma imports_none ls : (forall l, In l ls -> contains old_import l = false) -> imports ls = 0%nat.
Proof. intros H. unfold imports. induction ls as [|x ls IH]; [reflexivity|]. cbn [filter]. rewrite (H x (or_introl eq_refl)). apply IH. intros l Hl. apply H. right. exact Hl. Qed.

Lemma convert_step keep text : text <> "" -> exists text1, convert keep text = Ok text1 /\ text1 <> "" /\
  imports (readlines text1) = pred (imports (readlines text)) /\
  (keep = true -> marked (readlines text1) = true) /\ (marked (readlines text) = true -> marked (readlines text1) = true).
Proof.
  intros Hne. destruct (C51_effect keep text Hne) as (body & E & Hb). eexists. split; [exact E|]. clear E. fold (marked (readlines text)).
  assert (B : body <> "" /\ imports (readlines body) = pred (imports (readlines text)) /\ (marked (readlines text) = true -> marked (readlines body) = true)).
  { destruct Hb as [[-> H0]|(a & l & b & E1 & E2 & E3 & E4 & E5)].
    - split; [exact Hne|]. rewrite (imports_none _ H0). auto.
    - split; [intros ->; destruct a; discriminate|]. rewrite E1, E4. split.
      + rewrite !imports_app. unfold imports at 2 4. cbn [filter]. rewrite E2, E5. fold (imports b). rewrite (imports_none b E3). cbn [List.length]. 
        assert (Hf : List.length (filter (contains old_import) b) = 0%nat) by apply (imports_none b E3). rewrite Hf. lia.
      + unfold marked. rewrite !existsb_app. cbn [existsb]. destruct (String.eqb_spec marker l) as [<-|]; [discriminate|].
        intros H. apply orb_true_iff in H. destruct H as [->|H]; [reflexivity|]. cbn [orb] in H. rewrite H, !orb_true_r. reflexivity. }
  destruct B as (B1 & B2 & B3). destruct (keep && negb (marked (readlines text))) eqn:Ek.
  - split; [destruct body; discriminate|]. rewrite names_imports, names_marked. auto.
  - split; [exact B1|]. split; [exact B2|]. split; [|exact B3]. intros ->. cbn in Ek. apply B3. destruct (marked (readlines text)); [reflexivity|discriminate].
Qed.

Lemma convert_fixed keep text : text <> "" -> imports (readlines text) = 0%nat -> keep = false \/ marked (readlines text) = true ->
  convert keep text = Ok text.
Proof.
  intros Hne H0 Hk. destruct (C51_effect keep text Hne) as (body & E & Hb). rewrite E. fold (marked (readlines text)).
  assert (X : keep && negb (marked (readlines text)) = false) by (destruct Hk as [->| ->]; [reflexivity|apply andb_false_r]). rewrite X.
  destruct Hb as [[-> _]|(a & l & b & E1 & E2 & _)]; [reflexivity|]. exfalso. rewrite E1, imports_app in H0. unfold imports in H0. cbn [filter] in H0. rewrite E2 in H0. cbn in H0. lia.
Qed.

(** a file with at most one import line is not changed by a second conversion *)
Theorem C51_twice_partial keep text text1 : (List.length (filter (contains old_import) (readlines text)) <= 1)%nat ->
  convert keep text = Ok text1 -> convert keep text1 = Ok text1.
Proof.
  intros H1 E. assert (Hne : text <> "") by (intros ->; discriminate).
  destruct (convert_step keep text Hne) as (t & E' & Hne1 & Hi & Hm & _). rewrite E in E'. injection E' as <-.
  fold (imports (readlines text)) in H1. apply convert_fixed; [exact Hne1|lia|]. destruct keep; [right; auto|left; reflexivity].
Qed.

(** [n] conversions one after the other *)
Fixpoint converted (n : nat) (keep : bool) (text : string) : res string :=
  match n with O => Ok text | S m => rbind (convert keep text) (converted m keep) end.
Lemma converted_steps n keep : forall text, text <> "" -> exists t, converted n keep text = Ok t /\ t <> "" /\
  imports (readlines t) = (imports (readlines text) - n)%nat /\ ((marked (readlines text) = true \/ (0 < n)%nat) -> keep = true -> marked (readlines t) = true).
Proof.
  induction n as [|n IH]; intros text Hne.
  - exists text. split; [reflexivity|]. split; [exact Hne|]. split; [lia|]. intros [H|H]; [auto|lia].
  - destruct (convert_step keep text Hne) as (t1 & E & Hne1 & Hi & Hm & _). cbn [converted]. rewrite E. cbn [rbind].
    destruct (IH t1 Hne1) as (t & E' & Hn & Hi' & Hm'). exists t. split; [exact E'|]. split; [exact Hn|]. split; [lia|]. intros _ Hk. apply Hm'; auto.
Qed.

(** as many conversions as there are import lines (at least one) leave nothing more to change *)
Theorem C51_repeated keep n text : text <> "" -> (1 <= n)%nat ->
  (List.length (filter (contains old_import) (readlines text)) <= n)%nat ->
  exists final, converted n keep text = Ok final /\ convert keep final = Ok final /\
    forall l, In l (readlines final) -> contains old_import l = false.
Proof.
  intros Hne Hn Hi. destruct (converted_steps n keep text Hne) as (t & E & Ht & Hi' & Hm). exists t. split; [exact E|].
  fold (imports (readlines text)) in Hi. split.
  - apply convert_fixed; [exact Ht|lia|]. destruct keep; [right; apply Hm; auto|left; reflexivity].
  - intros l Hl. destruct (contains old_import l) eqn:El; [|reflexivity]. exfalso. assert (H0 : imports (readlines t) = 0%nat) by lia.
    unfold imports in H0. assert (G : In l (filter (contains old_import) (readlines t))) by (apply filter_In; auto).
    destruct (filter (contains old_import) (readlines t)); [contradiction|discriminate].
Qed.

Example C51_case : exists text text1, convert true text = Ok text1 /\ text1 <> text /\ convert true text1 = Ok text1 /\
  contains "from ramp.core.core import User" text1 = true.
Proof.
  exists ("from core import User" ++ nl ++ "User_list = []")%string. eexists. split; [reflexivity|]. split; [discriminate|]. split; vm_compute; reflexivity.
Qed.

(** with two import lines the first conversion corrects only the last of them: the second
    conversion changes the file again *)
Theorem C51_two_imports_refuted : exists text text1 text2,
  convert true text = Ok text1 /\ convert true text1 = Ok text2 /\ text2 <> text1 /\
  (exists l, In l (readlines text1) /\ contains old_import l = true).
Proof.
  exists ("from core import User" ++ nl ++ "from core import np" ++ nl)%string. eexists. eexists.
  split; [vm_compute; reflexivity|]. split; [vm_compute; reflexivity|]. split; [discriminate|].
  exists ("from core import User" ++ nl)%string. split; [vm_compute; left; reflexivity|reflexivity].
Qed.
(** an empty file raises IndexError *)
Theorem C51_empty_file_refuted : exists text, convert true text = Err IndexError.
Proof. exists "". reflexivity. Qed.

(** ** C57: where the converted file goes *)

Lemma tail_app a b acc : contains "/" b = false -> path_tail acc (a ++ "/" ++ b) = b.
Proof.
  intros Hb. assert (T : forall s acc, contains "/" s = false -> path_tail acc s = (acc ++ s)%string).
  { induction s as [|c s IH]; intros ac H; [cbn; rewrite sapp_nil; reflexivity|]. rewrite contains_cons in H. apply orb_false_iff in H. destruct H as [H1 H2].
    cbn [path_tail]. destruct (Ascii.eqb_spec c "/") as [->|]; [rewrite prefix_same, prefix_empty in H1; discriminate|].
    rewrite IH by exact H2. rewrite sapp_assoc. reflexivity. }
  revert acc. induction a as [|c a IH]; intros acc; cbn [append path_tail].
  - rewrite Ascii.eqb_refl. rewrite T by exact Hb. reflexivity.
  - destruct (Ascii.eqb c "/"); apply IH.
Qed.
Lemma head_app a b : contains "/" b = false -> path_head "" "" (a ++ "/" ++ b) = (a ++ "/")%string.
Proof.
  intros Hb.
  assert (T : forall s done acc, contains "/" s = false -> path_head done acc s = done).
  { induction s as [|c s IH]; intros d ac H; [reflexivity|]. rewrite contains_cons in H. apply orb_false_iff in H. destruct H as [H1 H2].
    cbn [path_head]. destruct (Ascii.eqb_spec c "/") as [->|]; [rewrite prefix_same, prefix_empty in H1; discriminate|]. apply IH, H2. }
  assert (G : forall x done acc, path_head done acc (x ++ "/" ++ b) = (acc ++ x ++ "/")%string).
  { intros x. induction x as [|c a' IH]; intros d ac; cbn [append path_head].
    - rewrite Ascii.eqb_refl. rewrite T by exact Hb. reflexivity.
    - destruct (Ascii.eqb c "/"); rewrite IH, sapp_assoc; reflexivity. }
  apply (G a "" "").
Qed.
Lemma strip_app a : ends_with a "/" = false -> strip_slashes (a ++ "/") = a.
Proof.
  assert (E : forall c a, a <> "" -> ends_with (String c a) "/" = ends_with a "/").
  { intros c s Hs. unfold ends_with. destruct s as [|d s]; [contradiction|]. cbn [String.length]. cbn [Nat.leb]. rewrite !Nat.sub_succ, !Nat.sub_0_r. cbn [substring]. reflexivity. }
  assert (Sn : forall s, ends_with s "/" = false -> strip_slashes (s ++ "/") = s).
  { induction s as [|c s IH]; intros H; [reflexivity|]. cbn [append strip_slashes]. destruct s as [|d s].
    - cbn. destruct (Ascii.eqb_spec c "/") as [->|]; [discriminate|reflexivity].
    - rewrite IH; [reflexivity|]. rewrite <- (E c) by discriminate. exact H. }
  apply Sn.
Qed.

Lemma replace_end suffix : forall stem, contains ".py" (stem ++ ".p") = false -> replace ".py" suffix (stem ++ ".py") = (stem ++ suffix)%string.
Proof.
  unfold replace. induction stem as [|c s IH]; intros H.
  - cbn. rewrite sapp_nil. reflexivity.
  - cbn [append] in *. rewrite contains_cons in H. apply orb_false_iff in H. destruct H as [H1 H2]. cbn [replace_from].
    assert (P : String.prefix ".py" (String c (s ++ ".py")) = String.prefix ".py" (String c (s ++ ".p"))).
    { destruct s as [|d s]; [cbn; destruct (ascii_dec "." c); reflexivity|]. destruct s as [|e s]; cbn [append String.prefix];
      destruct (ascii_dec "." c); try reflexivity; destruct (ascii_dec "p" d); try reflexivity.
      destruct (ascii_dec "y" e); [|reflexivity]. rewrite !prefix_empty. reflexivity. }
    rewrite P, H1. f_equal. apply IH, H2.
Qed.

(** the file folder/stem.py becomes folder/stem+suffix.xlsx, or output_path/stem+suffix.xlsx, when
    the stem has no ".py" itself *)
Theorem C57_path_partial folder stem suffix :
  folder <> "" -> ends_with folder "/" = false -> contains "/" stem = false -> contains ".py" (stem ++ ".p") = false ->
  converted_path (folder ++ "/" ++ stem ++ ".py") None suffix = (folder ++ "/" ++ stem ++ suffix ++ ".xlsx")%string /\
  forall out, out <> "" -> ends_with out "/" = false ->
    converted_path (folder ++ "/" ++ stem ++ ".py") (Some out) suffix = (out ++ "/" ++ stem ++ suffix ++ ".xlsx")%string.
Proof.
  intros Hf He Hs Hp.
  assert (Hb : contains "/" (stem ++ ".py") = false).
  { clear -Hs. induction stem as [|c s IH]; [reflexivity|]. cbn [append]. rewrite contains_cons in *. apply orb_false_iff in Hs. destruct Hs as [H1 H2].
    rewrite IH by exact H2. rewrite orb_false_r. destruct (ascii_dec "/" c) as [<-|Hc]; [rewrite prefix_same, prefix_empty in H1; discriminate|apply prefix_diff, Hc]. }
  unfold converted_path. rewrite (tail_app folder (stem ++ ".py") "" Hb), replace_end by exact Hp.
  assert (Hd : dirname (folder ++ "/" ++ stem ++ ".py") = folder).
  { unfold dirname. rewrite (head_app folder _ Hb), (strip_app folder He). destruct folder; [contradiction|reflexivity]. }
  rewrite Hd. assert (J : forall o b, o <> "" -> ends_with o "/" = false -> path_join o b = (o ++ "/" ++ b)%string).
  { intros o b Ho Hoe. unfold path_join. rewrite Hoe. destruct o; [contradiction|reflexivity]. }
  split; [|intros out Ho Hoe]; rewrite J by assumption; rewrite !sapp_assoc; reflexivity.
Qed.
Example C57_case : converted_path "inputs/village_1.py" None "_v2" = "inputs/village_1_v2.xlsx" /\
  converted_path "village_1.py" (Some "out") "" = "out/village_1.xlsx".
Proof. split; reflexivity. Qed.

(** every ".py" of the name is replaced, not only the extension: two inputs may get one output *)
Theorem C57_path_refuted : exists f1 f2, f1 <> f2 /\ ends_with f1 ".py" = true /\ ends_with f2 ".py" = true /\
  converted_path f1 None "" = converted_path f2 None "".
Proof. exists "inputs/a.py", "inputs/a.py.py". repeat split; try reflexivity. discriminate. Qed.
