(** * Tape: run a draw program on an explicit list of draws (for examples and refutations) *)
From Verif Require Import Base.

Inductive draw : Type := DQ (q : Q) | DZ (z : Z).

Fixpoint follow {A} (p : prog A) (ds : list draw) : option (res A) :=
  match p with
  | Ret a => match ds with [] => Some (Ok a) | _ => None end
  | Raise e => match ds with [] => Some (Err e) | _ => None end
  | Random k =>
      match ds with
      | DQ u :: ds' => if Qle_bool 0 u && Qltb u 1 then follow (k u) ds' else None
      | _ => None
      end
  | RandBelow n k =>
      match ds with
      | DZ i :: ds' => if (0 <=? i) && (i <? n) then follow (k i) ds' else None
      | _ => None
      end
  | Normal _ k => match ds with DQ z :: ds' => follow (k z) ds' | _ => None end
  | Seed _ k => follow k ds
  end.

(** what the tape shows is possible *)
Lemma follow_may {A} (p : prog A) : forall ds r, follow p ds = Some r -> may p r.
Proof.
  induction p as [a|e|k IH|n k IH|c k IH|s k IH]; intros ds r H; cbn [follow] in H.
  - destruct ds; [injection H as <-; constructor|discriminate].
  - destruct ds; [injection H as <-; constructor|discriminate].
  - destruct ds as [|[u|z] ds']; try discriminate.
    destruct (Qle_bool 0 u && Qltb u 1) eqn:E; [|discriminate].
    apply andb_prop in E. destruct E as [E1 E2].
    apply Qle_bool_iff in E1. unfold Qltb in E2. apply negb_true_iff in E2.
    apply may_random with (u := u); [exact E1| |eapply IH; eauto].
    apply Qnot_le_lt. intros Hc. apply Qle_bool_iff in Hc. congruence.
  - destruct ds as [|[u|z] ds']; try discriminate.
    destruct ((0 <=? z) && (z <? n)) eqn:E; [|discriminate].
    apply may_below with (i := z); [lia|eapply IH; eauto].
  - destruct ds as [|[u|z] ds']; try discriminate. apply may_normal with (z := u). eapply IH; eauto.
  - constructor. eapply IH; eauto.
Qed.

(** a tape that leads to a result satisfying a check *)
Lemma follow_check {A} (p : prog A) ds (P : A -> bool) :
  match follow p ds with Some (Ok x) => P x | _ => false end = true ->
  exists x, may p (Ok x) /\ P x = true.
Proof.
  destruct (follow p ds) as [[x|e]|] eqn:E; intros H; try discriminate.
  exists x. split; [exact (follow_may p ds _ E)|exact H].
Qed.
