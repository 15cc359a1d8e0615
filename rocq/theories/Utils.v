(** * Utils: model of ramp/core/utils.py (random variation, duty cycles, overlap tests) *)
From Verif Require Import Base.

(** utils.py:92-106 [random_variation(var, norm)]: [norm * random.uniform(1 - var, 1 + var)]. *)
Definition random_variation (F : fm) (var norm : Q) : prog Q :=
  u <- py_uniform F (fsub F 1 var) (fadd F 1 var) ;;
  Ret (fmul F norm u).

(** [np.ones(n) * p]: ValueError when n is negative.  utils.py:133-137.
    Simplification: [1.0 * p] is [p] for every float [p], so the entries are [p] itself. *)
Definition np_ones_times (n : Z) (p : Q) : res (list Q) :=
  if n <? 0 then Err ValueError else Ok (repeat p (Z.to_nat n)).

(** utils.py:109-138 [duty_cycle(var, t1, p1, t2, p2)].  Note [random_variation(var=-var)]. *)
Definition duty_cycle (F : fm) (var : Q) (t1 : Z) (p1 : Q) (t2 : Z) (p2 : Q) : prog (list Q) :=
  x1 <- random_variation F (- var) (zq t1) ;;
  c1 <- lift (np_ones_times (py_int x1) p1) ;;
  x2 <- random_variation F (- var) (zq t2) ;;
  c2 <- lift (np_ones_times (py_int x2) p2) ;;
  Ret (c1 ++ c2).

(** utils.py:141-152 [range_within_window(range_low, range_high, window)]. *)
Definition range_within_window (low high : Z) (w : Z * Z) : bool :=
  negb (((low <? fst w) && (high <? fst w)) || ((low >? snd w) && (high >? snd w))).

(** utils.py:155-182 [random_choice]: both duty cycles are evaluated, then one is chosen. *)
Definition random_choice (F : fm) (var : Q) (t1 : Z) (p1 : Q) (t2 : Z) (p2 : Q) : prog (list Q) :=
  d1 <- duty_cycle F var t1 p1 t2 p2 ;;
  d2 <- duty_cycle F var t2 p2 t1 p1 ;;
  py_choice2 d1 d2.

(** utils.py:219-228 [within_peak_time_window]. *)
Definition within_peak_time_window (win_start win_stop peak_win_start peak_win_stop : Z) : bool :=
  let answer := true in
  let answer :=
    if (win_start <? peak_win_start) && (win_stop <? peak_win_start) then false else answer in
  let answer :=
    if (win_start >? peak_win_stop) && (win_stop >? peak_win_stop) then false else answer in
  answer.
