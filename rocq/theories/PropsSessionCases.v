(** * PropsSessionCases: C74, concrete programs *)
From Verif Require Import Base Wp Utils Appliance User UseCase Declare Script Heap Session PropsHeap Tape PropsUser PropsUseCase PropsSession.
Open Scope list_scope.
Open Scope Z_scope.

Definition nothing_yet : session := Session (Heap [] []) [].
Definition day_window : window_args := WindowArgs (Some (480, 600)) None None None.
Definition add_lamp (nm : string) (k : nat) : stmt :=
  SAppliance k (Params nm 2 1 100 0 10 "no" 0 1 1 "yes" 0 0 2) (PConst 40) day_window no_cycle no_cycle no_cycle.

Definition q_same (p v : Q) : bool := (Qnum p =? Qnum v) && (Pos.eqb (Qden p) (Qden v)).
Definition is_const (s : session) (r : nat) (v : Q) (n : Z) : bool :=
  match nth_error (h_apps (s_heap s)) r with
  | Some x => constant_power (obj x) && forallb (fun p => q_same p v) (power (obj x)) && (n <=? zlen (power (obj x)))
  | None => false
  end.
Lemma is_const_load s r v n : is_const s r v n = true -> constant_load s r v n.
Proof.
  unfold is_const, constant_load. destruct (nth_error (h_apps (s_heap s)) r) as [x|]; [|discriminate]. intros H.
  apply andb_prop in H. destruct H as [H H3]. apply andb_prop in H. destruct H as [H1 H2]. exists x. repeat split; [exact H1| |lia].
  apply Forall_forall. intros p Hp. apply (proj1 (forallb_forall _ _) H2) in Hp. unfold q_same in Hp. apply andb_prop in Hp.
  destruct Hp as [A B]. apply Z.eqb_eq in A. apply Pos.eqb_eq in B. destruct p, v; cbn in *; congruence.
Qed.
Definition has_days (s : session) (c : nat) (n : Z) : bool := match days_of s c with Some m => m =? n | None => false end.
Lemma has_days_of s c n : has_days s c n = true -> days_of s c = Some n.
Proof. unfold has_days. destruct (days_of s c) as [m|]; [|discriminate]. intros H. f_equal. lia. Qed.

Definition first_part : list stmt :=
  [SUser "home" 1 0; SUser "farm" 1 0; add_lamp "lamp" 0; SCase (IList [IUser 0; IUser 1]) (Some 1051200000) None false (15 # 100) None;
   SInit 0 (Some 2) None false; add_lamp "lamp" 1; SCollect 0].
Definition init_5 : stmt := SInit 0 (Some 5) None true.
Definition last_part : list stmt := [add_lamp "torch" 1; SInit 0 (Some 2) None true; SGenerate 0 None].
Definition in_parts (p1 : prog session) (f2 f3 : session -> prog session) : prog (session * session * session) :=
  s1 <- p1 ;; s2 <- f2 s1 ;; s3 <- f3 s2 ;; Ret (s1, s2, s3).
Lemma in_parts_may p1 f2 f3 s1 s2 s3 : may (in_parts p1 f2 f3) (Ok (s1, s2, s3)) -> may p1 (Ok s1) /\ may (f2 s1) (Ok s2) /\ may (f3 s2) (Ok s3).
Proof.
  unfold in_parts. intros H. apply may_bind in H. destruct H as [(t1 & H1 & H)|(e & _ & H)]; [|discriminate].
  apply may_bind in H. destruct H as [(t2 & H2 & H)|(e & _ & H)]; [|discriminate].
  apply may_bind in H. destruct H as [(t3 & H3 & H)|(e & _ & H)]; [|discriminate].
  apply may_ret_inv in H. injection H as -> -> ->. auto.
Qed.

Definition parts_tape : list draw := repeat (DQ (1 # 2)) 6 ++ List.concat (repeat flat_draws 6).
Definition parts_check (x : session * session * session) : bool :=
  let '(s1, s2, s3) := x in
  is_const s1 0 40 367 && is_const s1 1 40 3 && match power_on s1 1 3 with Err IndexError => true | _ => false end && has_days s2 0 5 && has_days s3 0 2 && is_const s3 2 40 6 &&
  match nth_error (s_cases s1) 0 with Some x => match hc_apps x with [O; S O] => true | _ => false end | None => false end.
Lemma parts_ok : match follow (in_parts (run_session 3 exact_fm true nobody nothing_yet first_part) (fun s => stmt_step 3 exact_fm true nobody s init_5) (fun s => run_session 3 exact_fm true nobody s last_part)) parts_tape with Some (Ok x) => parts_check x | _ => false end = true.
Proof. vm_cast_no_check (eq_refl true). Qed.

(** A user has a lamp of 40 W (367 values), a second user gets one after the use case was initialized for two days (3 values).  The
    use case is initialized for five days, then again for two and simulated; a torch added in between has 6 values. *)
Example C74_case : exists s1 s2 s3 x,
  may (run_session 3 exact_fm true nobody nothing_yet first_part) (Ok s1) /\
  may (stmt_step 3 exact_fm true nobody s1 init_5) (Ok s2) /\
  may (run_session 3 exact_fm true nobody s2 last_part) (Ok s3) /\
  constant_load s1 0 40 367 /\ constant_load s1 1 40 3 /\ power_on s1 1 3 = Err IndexError /\
  nth_error (s_cases s1) 0 = Some x /\ hc_apps x = [0; 1]%nat /\
  days_of s2 0 = Some 5 /\ days_of s3 0 = Some 2 /\ constant_load s3 2 40 6 /\ power_on s3 1 4 = Ok 40%Q.
Proof.
  destruct (follow_check (in_parts (run_session 3 exact_fm true nobody nothing_yet first_part) (fun s => stmt_step 3 exact_fm true nobody s init_5) (fun s => run_session 3 exact_fm true nobody s last_part)) parts_tape parts_check parts_ok) as ([[s1 s2] s3] & H & Hv). unfold parts_check in Hv.
  apply in_parts_may in H. destruct H as (H1 & H2 & H3).
  repeat (apply andb_prop in Hv; let Q := fresh "Q" in destruct Hv as [Hv Q]).
  destruct (nth_error (s_cases s1) 0) as [x|] eqn:E; [|discriminate]. destruct (hc_apps x) as [|[|] [|[|[|]] [|]]] eqn:Ex; try discriminate.
  exists s1, s2, s3, x. split; [exact H1|]. split; [exact H2|]. split; [exact H3|]. split; [apply is_const_load; assumption|].
  split; [apply is_const_load; assumption|]. split; [destruct (power_on s1 1 3) as [|[]]; try discriminate; reflexivity|].
  split; [exact E|]. split; [exact Ex|]. split; [apply has_days_of; assumption|]. split; [apply has_days_of; assumption|].
  split; [apply is_const_load; assumption|].
  apply (C74_days_partial 3 exact_fm true nobody s1 0 (Some 5) None true s2 last_part s3 x 1 40 5 4 E).
  - reflexivity.
  - rewrite Ex. right. left. reflexivity.
  - destruct (is_const_load _ _ _ _ Q4) as (y & A & B & C & D). exists y. repeat split; try assumption. lia.
  - exact H2.
  - apply has_days_of. assumption.
  - exact H3.
  - lia.
Qed.

(** Without collect_appliances_from_users: the appliance created after the use case has the values of the days known then; the use case
    is set up for five days without complaint, and the simulation raises IndexError on the fourth. *)
Definition grown_up : list stmt :=
  [SUser "home" 1 0; SCase (IList [IUser 0]) (Some 1051200000) None false (15 # 100) None; SInit 0 (Some 2) None false; add_lamp "lamp" 0;
   SInit 0 (Some 5) None true].
Theorem C74_later_appliance_refuted : exists s,
  may (run_session 3 exact_fm true nobody nothing_yet grown_up) (Ok s) /\ constant_load s 0 40 3 /\ days_of s 0 = Some 5 /\
  power_on s 0 3 = Err IndexError /\
  may (run_session 3 exact_fm true nobody nothing_yet (grown_up ++ [SGenerate 0 None])) (Err IndexError).
Proof.
  destruct (follow_check (run_session 3 exact_fm true nobody nothing_yet grown_up) (repeat (DQ (1 # 2)) 4)
    (fun s => is_const s 0 40 3 && match power_on s 0 3 with Err IndexError => true | _ => false end && has_days s 0 5)) as (s & H & Hv).
  { vm_compute. reflexivity. }
  apply andb_prop in Hv. destruct Hv as [Hv Q1]. apply andb_prop in Hv. destruct Hv as [Hv Q2]. exists s.
  split; [exact H|]. split; [apply is_const_load; assumption|]. split; [apply has_days_of; assumption|].
  split; [destruct (power_on s 0 3) as [|[]]; try discriminate; reflexivity|].
  apply (follow_may _ (repeat (DQ (1 # 2)) 4 ++ List.concat (repeat flat_draws 3))). vm_compute. reflexivity.
Qed.

(** Nor can one add a second appliance to a user once its use case is initialized, with numpy >= 1.25: the comparison of powers of
    different lengths (367 values and 3) raises ValueError *)
Definition second_lamp : list stmt :=
  [SUser "home" 1 0; add_lamp "lamp" 0; SCase (IList [IUser 0]) (Some 1051200000) None false (15 # 100) None; SInit 0 (Some 2) None false].
Theorem C74_after_initialize_refuted :
  (exists s, may (run_session 3 exact_fm true nobody nothing_yet second_lamp) (Ok s) /\ days_of s 0 = Some 2) /\
  may (run_session 3 exact_fm true nobody nothing_yet (second_lamp ++ [add_lamp "torch" 0])) (Err ValueError).
Proof.
  split.
  - destruct (follow_check (run_session 3 exact_fm true nobody nothing_yet second_lamp) (repeat (DQ (1 # 2)) 2) (fun s => has_days s 0 2)) as (s & H & Hv).
    { vm_compute. reflexivity. }
    exists s. split; [exact H|apply has_days_of; exact Hv].
  - apply (follow_may _ (repeat (DQ (1 # 2)) 2)). vm_compute. reflexivity.
Qed.
