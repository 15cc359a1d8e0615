(** * PropsSaved: what a saved table contains (C40) *)
From Verif Require Import Base ListLemmas Utils Appliance Attributes User Tabular.
Open Scope string_scope.
Open Scope list_scope.
Open Scope Z_scope.

(** ** Specification *)

(** the user and the appliance of each row *)
Definition owned (us : list user) : list (user * appliance) := flat_map (fun u => map (pair u) (app_list u)) us.

(** the cells that hold the value of the attribute [s] *)
Definition holds_value (r : row) (s : string) (v : value) : Prop :=
  match v with
  | VWin w => row_get r (s ++ "_start") = CNum (zq (fst w)) /\ row_get r (s ++ "_end") = CNum (zq (snd w))
  | VStr x => row_get r s = CText x
  | VInt z => row_get r s = CNum (zq z)
  | VFloat q => row_get r s = CNum q
  | VArr l => (exists x, nth_error l 0 = Some x /\ row_get r s = CNum x) \/ row_get r s = CArray (map (fun x => [x]) l)
  end.

Definition row_for (ua : user * appliance) (r : row) : Prop :=
  row_get r "user_name" = CText (user_name (fst ua)) /\
  row_get r "num_users" = CNum (zq (num_users (fst ua))) /\
  row_get r "user_preference" = CNum (zq (user_preference (fst ua))) /\
  forall s v, In s APPLIANCE_ATTRIBUTES -> getattr (snd ua) s = Some v -> holds_value r s v.

(** ** Proof *)

Lemma map_res_all {A B} (f : A -> res B) : forall l l', map_res f l = Ok l' -> Forall2 (fun x y => f x = Ok y) l l'.
Proof.
  induction l as [|x l IH]; intros l' H; cbn [map_res] in H; [injection H as <-; constructor|].
  destruct (f x) as [y|] eqn:E; cbn [rbind] in H; [|discriminate]. destruct (map_res f l) as [ys|] eqn:E'; cbn [rbind] in H; [|discriminate].
  injection H as <-. constructor; [exact E|]. apply IH. reflexivity.
Qed.

Lemma save_row F u a r : save_appliance F u a = Ok r -> row_for (u, a) r.
Proof.
  unfold save_appliance. intros H. destruct (save_attributes F a APPLIANCE_ATTRIBUTES) as [r0|] eqn:E; cbn [rbind] in H; [|discriminate].
  injection H as <-. destruct (save_power F (power a)) as [c|] eqn:Ep; [|exfalso].
  - assert (Er : exists l, r0 = l /\ save_attributes F a APPLIANCE_ATTRIBUTES = Ok l) by eauto. destruct Er as (l & -> & _).
    unfold APPLIANCE_ATTRIBUTES in E. cbn [save_attributes save_attribute getattr String.eqb Ascii.eqb Bool.eqb rbind] in E.
    unfold save_attribute, getattr in E. cbn in E. rewrite Ep in E. cbn in E. injection E as <-.
    split; [reflexivity|]. split; [reflexivity|]. split; [reflexivity|]. cbn [snd].
    intros s v Hs Hv. unfold APPLIANCE_ATTRIBUTES in Hs. cbn [In] in Hs.
    repeat (destruct Hs as [<-|Hs]; [cbn in Hv; injection Hv as <-; try (split; reflexivity); try reflexivity|]).
    + unfold save_power in Ep. destruct (Qeq_bool _ 0).
      * destruct (power a) as [|p l']; [discriminate|]. injection Ep as <-. left. exists p. split; reflexivity.
      * injection Ep as <-. right. reflexivity.
    + destruct Hs.
  - unfold APPLIANCE_ATTRIBUTES in E. cbn [save_attributes] in E. unfold save_attribute, getattr in E. cbn in E. rewrite Ep in E. cbn in E. discriminate.
Qed.

(** ** C40 *)

(** a saved table has one row for every appliance of every user, in order, with the values of all attributes; a user without
    appliances is not left out silently: the use case cannot be saved *)
Theorem C40_saved_rows F us t : save F us = Ok t ->
  us <> [] /\ Forall (fun u => app_list u <> []) us /\ Forall2 row_for (owned us) t.
Proof.
  unfold save. intros H. destruct us as [|u0 us0]; [discriminate|]. split; [discriminate|]. set (us := u0 :: us0) in *. clearbody us.
  destruct (map_res (save_user F) us) as [ts|] eqn:E; cbn [rbind] in H; [|discriminate]. injection H as <-.
  apply map_res_all in E. induction E as [|u t us ts Hu _ [IH1 IH2]]; [split; constructor|].
  assert (Hne : app_list u <> [] /\ map_res (save_appliance F u) (app_list u) = Ok t).
  { unfold save_user in Hu. destruct (app_list u); [discriminate|]. split; [discriminate|exact Hu]. }
  destruct Hne as [Hne Hm]. split; [constructor; assumption|]. unfold owned. cbn [flat_map List.concat]. apply Forall2_app; [|exact IH2].
  apply map_res_all in Hm. clear - Hm. induction Hm as [|a r l t Ha _ IH]; cbn [map]; constructor; [|exact IH]. exact (save_row F u a r Ha).
Qed.

Theorem C40_nothing_to_save F us : us = [] \/ Exists (fun u => app_list u = []) us -> exists e, save F us = Err e.
Proof.
  intros H. destruct (save F us) as [t|e] eqn:E; [exfalso|eauto]. destruct (C40_saved_rows F us t E) as (H1 & H2 & _).
  destruct H as [->|H]; [contradiction|]. rewrite Exists_exists in H. destruct H as (u & Hu & Hn). rewrite Forall_forall in H2. exact (H2 u Hu Hn).
Qed.
