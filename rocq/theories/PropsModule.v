(** * PropsModule: C85, which file ramp_convert imports *)
From Coq Require Import Ascii.
From Verif Require Import Base PostProcess Convert PropsConvert.
Open Scope string_scope.
Open Scope list_scope.
Open Scope Z_scope.

(** [s] with every character [a] turned into [b] *)
Fixpoint turn (a b : ascii) (s : string) : string :=
  match s with EmptyString => EmptyString | String c s' => String (if Ascii.eqb c a then b else c) (turn a b s') end.
Lemma replace_char a b s : replace (String a "") (String b "") s = turn a b s.
Proof.
  unfold replace. induction s as [|c s IH]; [reflexivity|]. cbn [replace_from turn String.prefix]. destruct (ascii_dec a c) as [->|H].
  - rewrite Ascii.eqb_refl, prefix_empty. cbn. rewrite IH. reflexivity.
  - destruct (Ascii.eqb_spec c a) as [->|_]; [contradiction|]. rewrite IH. reflexivity.
Qed.
Lemma contains_char a c s : contains (String a "") (String c s) = Ascii.eqb c a || contains (String a "") s.
Proof.
  rewrite contains_cons. f_equal. cbn [String.prefix]. destruct (ascii_dec a c) as [->|H].
  - rewrite prefix_empty, Ascii.eqb_refl. reflexivity.
  - destruct (Ascii.eqb_spec c a) as [->|_]; [contradiction|reflexivity].
Qed.
Lemma turn_none a b s : a <> b -> contains (String a "") (turn a b s) = false.
Proof.
  intros H. induction s as [|c s IH]; [reflexivity|]. cbn [turn]. rewrite contains_char, IH, orb_false_r.
  destruct (Ascii.eqb_spec c a) as [->|Hc]; [destruct (Ascii.eqb_spec b a); congruence|destruct (Ascii.eqb_spec c a); congruence].
Qed.
Lemma turn_back a b s : contains (String b "") s = false -> turn b a (turn a b s) = s.
Proof.
  induction s as [|c s IH]; [reflexivity|]. rewrite contains_char. intros H. apply orb_false_iff in H as [H1 H2]. cbn [turn]. rewrite (IH H2). f_equal.
  destruct (Ascii.eqb_spec c a) as [->|Hc]; [rewrite Ascii.eqb_refl; reflexivity|]. rewrite H1. reflexivity.
Qed.
Lemma no_py stem : contains "." stem = false -> contains ".py" (stem ++ ".p") = false.
Proof.
  induction stem as [|c s IH]; [reflexivity|]. rewrite contains_char. intros H. apply orb_false_iff in H as [H1 H2]. cbn [append]. rewrite contains_cons, (IH H2), orb_false_r.
  cbn [String.prefix]. destruct (ascii_dec "." c) as [<-|]; [discriminate|reflexivity].
Qed.
Lemma str_length_app a b : String.length (a ++ b)%string = (String.length a + String.length b)%nat.
Proof. induction a as [|c a IH]; [reflexivity|]. cbn. rewrite IH. reflexivity. Qed.
Lemma app_py_inj a b : (a ++ ".py" = b ++ ".py")%string -> a = b.
Proof.
  revert b. induction a as [|c a IH]; intros [|d b] H; cbn in H; try reflexivity.
  - apply (f_equal String.length) in H. cbn in H. rewrite str_length_app in H. cbn in H. lia.
  - apply (f_equal String.length) in H. cbn in H. rewrite str_length_app in H. cbn in H. lia.
  - injection H as -> H. f_equal. exact (IH b H).
Qed.

(** [stem.py] is imported under a name that stands for this file exactly if the path is not empty, has no other dot and is not absolute *)
Theorem C85_module stem : import_module (module_name (stem ++ ".py")) = Ok (stem ++ ".py")%string <->
  stem <> "" /\ contains "." stem = false /\ String.prefix "/" stem = false.
Proof.
  unfold module_name. split.
  - intros H. rewrite replace_char in H.
    assert (D : contains "." stem = false).
    { unfold import_module in H. destruct (turn "/" "." (replace ".py" "" (stem ++ ".py"))) as [|c s] eqn:E; [discriminate|].
      destruct (Ascii.eqb c "."); [discriminate|]. injection H as H. rewrite replace_char in H. apply app_py_inj in H. rewrite <- H. apply turn_none. discriminate. }
    rewrite (replace_end "" stem (no_py stem D)), sapp_nil in H. destruct stem as [|c s]; [discriminate|]. split; [discriminate|]. split; [exact D|].
    cbn [String.prefix]. destruct (ascii_dec "/" c) as [<-|]; [discriminate|reflexivity].
  - intros (H1 & H2 & H3). rewrite (replace_end "" stem (no_py stem H2)), sapp_nil, replace_char. destruct stem as [|c s]; [contradiction|].
    assert (B : turn "." "/" (turn "/" "." (String c s)) = String c s) by (apply turn_back; exact H2).
    unfold import_module. destruct (turn "/" "." (String c s)) as [|d t] eqn:E; [discriminate|]. cbn [turn] in E. injection E as E1 E2.
    replace (Ascii.eqb d ".") with false.
    + rewrite <- E1, <- E2 in B |- *. rewrite replace_char, B. reflexivity.
    + symmetry. rewrite contains_char in H2. apply orb_false_iff in H2 as [H2 _]. cbn [String.prefix] in H3. rewrite <- E1.
      destruct (Ascii.eqb_spec c "/") as [->|_]; [|exact H2]. destruct (ascii_dec "/" "/"); [rewrite prefix_empty in H3; discriminate|contradiction].
Qed.
Example C85_case : import_module (module_name "inputs/village_1.py") = Ok "inputs/village_1.py" /\ module_name "inputs/village_1.py" = "inputs.village_1".
Proof. split; reflexivity. Qed.

(** an absolute path, or one that starts with a dot, raises TypeError *)
Theorem C85_outside_refuted stem : (String.prefix "/" stem = true \/ String.prefix "." stem = true) -> contains ".py" (stem ++ ".p") = false ->
  import_module (module_name (stem ++ ".py")) = Err TypeError.
Proof.
  intros H Hp. unfold module_name. rewrite (replace_end "" stem Hp), sapp_nil, replace_char. destruct stem as [|c s]; [destruct H; discriminate|].
  cbn [turn import_module]. replace (Ascii.eqb _ ".") with true; [reflexivity|]. symmetry. cbn [String.prefix] in H.
  destruct H as [H|H]; [destruct (ascii_dec "/" c) as [<-|]|destruct (ascii_dec "." c) as [<-|]]; try discriminate; reflexivity.
Qed.
Example C85_outside_case : String.prefix "." "../village_1" = true /\ contains ".py" ("../village_1" ++ ".p") = false /\
  import_module (module_name "/home/me/village_1.py") = Err TypeError.
Proof. repeat split; reflexivity. Qed.
(** another dot in the path: another file is looked for *)
Theorem C85_dot_refuted : exists f g, f <> g /\ import_module (module_name f) = Ok g.
Proof. exists "v1.2/village.py", "v1/2/village.py". split; [discriminate|reflexivity]. Qed.
