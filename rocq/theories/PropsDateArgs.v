(** * PropsDateArgs: C79, dates given as objects, next to dates given as text *)
From Verif Require Import Base Wp ListLemmas Utils Appliance User UseCase SpecUseCase ProofsUseCase Calendar PropsCalendar PropsInit Cli Dates Tape PropsDates.
From Coq Require Import String Ascii.
Open Scope list_scope.
Open Scope Z_scope.

(** A date object assigned to a date of a use case is kept as it is, with its time of day; the
    other date does not change. *)
Theorem C79_object c t :
  (exists c1, assign_date_start c (Moment t) = (c1, None) /\ date_start c1 = Some t /\ date_end c1 = date_end c) /\
  (exists c1, assign_date_end c (Moment t) = (c1, None) /\ date_end c1 = Some t /\ date_start c1 = date_start c).
Proof. split; eexists; (split; [reflexivity|]); split; reflexivity. Qed.

(** None takes the date away *)
Theorem C79_no_date c :
  (exists c1, assign_date_start c NoDate = (c1, None) /\ date_start c1 = None /\ date_end c1 = date_end c) /\
  (exists c1, assign_date_end c NoDate = (c1, None) /\ date_end c1 = None /\ date_start c1 = date_start c).
Proof. split; eexists; (split; [reflexivity|]); split; reflexivity. Qed.

(** A text and the object of the same moment, [hour] and [minute] after midnight of the date, can be
    exchanged: in the assignments and in the constructor. *)
Theorem C79_object_or_text F w c us x separator hour minute other par enl seed :
  writable x -> 0 <= hour <= 23 -> 0 <= minute <= 59 ->
  let text := TextDate (iso x ++ String separator (clock hour minute)) in
  let object := Moment (at_midnight x + (60 * hour + minute)) in
  assign_date_start c text = assign_date_start c object /\ assign_date_end c text = assign_date_end c object /\
  new_usecase_dates F w us text other par enl seed = new_usecase_dates F w us object other par enl seed /\
  new_usecase_dates F w us other text par enl seed = new_usecase_dates F w us other object par enl seed /\
  assign_date_start c (TextDate (iso x)) = assign_date_start c (Moment (at_midnight x)) /\
  assign_date_end c (TextDate (iso x)) = assign_date_end c (Moment (at_midnight x)) /\
  new_usecase_dates F w us (TextDate (iso x)) other par enl seed = new_usecase_dates F w us (Moment (at_midnight x)) other par enl seed /\
  new_usecase_dates F w us other (TextDate (iso x)) par enl seed = new_usecase_dates F w us other (Moment (at_midnight x)) par enl seed.
Proof.
  intros Hx Hh Hm text object. destruct x as [[y m] d]. destruct (C79_round_trip _ _ _ Hx) as (_ & R & R'). specialize (R' separator hour minute Hh Hm).
  assert (E : read_date text = read_date object) by (unfold text, object, read_date; rewrite R'; reflexivity).
  assert (E0 : read_date (TextDate (iso (y, m, d))) = read_date (Moment (at_midnight (y, m, d)))) by (unfold read_date; rewrite R; reflexivity).
  unfold assign_date_start, assign_date_end, new_usecase_dates. rewrite E, E0. repeat (split; [reflexivity|]). reflexivity.
Qed.

(** Both dates given as objects at midnight: every date from the first to the last, once and in order. *)
Theorem C79_objects F w us x y par enl seed c :
  writable x -> writable y ->
  may (new_usecase_dates F w us (Moment (at_midnight x)) (Moment (at_midnight y)) par enl seed) (Ok c) ->
  exists l, calendar x y l /\ days c = Some (map at_midnight l) /\ num_days_ c = Some (zlen l).
Proof.
  intros Hx Hy H. apply (C79_constructor F w us x y par enl seed c Hx Hy). set (b := blank None None par enl seed us).
  assert (H0 : 0 <= 0 <= 23) by lia. assert (H1 : 0 <= 0 <= 59) by lia.
  destruct (C79_object_or_text F w b us x " "%char 0 0 (TextDate (iso y)) par enl seed Hx H0 H1) as (_ & _ & _ & _ & _ & _ & E1 & _).
  destruct (C79_object_or_text F w b us y " "%char 0 0 (Moment (at_midnight x)) par enl seed Hy H0 H1) as (_ & _ & _ & _ & _ & _ & _ & E2).
  rewrite E1, E2. exact H.
Qed.

Example C79_object_case : exists c,
  may (new_usecase_dates exact_fm PropsUseCase.nobody [PropsUseCase.home] (Moment (at_midnight (2024, 2, 28))) (Moment (at_midnight (2024, 3, 1))) false (15 # 100) None) (Ok c) /\
  zlen (match days c with Some l => l | None => [] end) = 3 /\
  date_start (fst (assign_date_start c (Moment (at_midnight (2024, 2, 28) + 390)))) = Some (at_midnight (2024, 2, 28) + 390).
Proof.
  destruct (follow_check (new_usecase_dates exact_fm PropsUseCase.nobody [PropsUseCase.home] (Moment (at_midnight (2024, 2, 28))) (Moment (at_midnight (2024, 3, 1))) false (15 # 100) None)
    [DQ (1 # 2); DQ (1 # 2)] (fun c => zlen (match days c with Some l => l | None => [] end) =? 3)) as (c & Hc & Hv); [vm_compute; reflexivity|].
  exists c. split; [exact Hc|]. split; [apply Z.eqb_eq, Hv|reflexivity].
Qed.
