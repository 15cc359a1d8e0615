(** * Appliance: model of class Appliance, ramp/core/core.py:1058-2074

    Attributes are grouped in sub-records so that methods which change one group say so.
    Integer parameters are [Z], float parameters [Q] (see DESIGN.md, section 1). *)
From Verif Require Import Base Utils.
Open Scope string_scope.
Open Scope list_scope.
Open Scope Z_scope.

(** ** Attributes *)

(** constructor arguments, core.py:1059-1077 and 1139-1159 (all but [power]) *)
Record params : Type := Params {
  name : string;
  number : Z;
  num_windows : Z;
  func_time : Z;
  time_var : Q;                (* time_fraction_random_variability *)
  func_cycle : Z;
  fixed : string;
  fixed_cycle : Z;
  continuous_duty_cycle : Z;
  occasional_use : Q;
  flat : string;
  thermal_p_var : Q;
  pref_index : Z;
  wd_we_type : Z
}.

(** attributes set by windows(), core.py:1180-1187 *)
Record wins : Type := Wins {
  window_1 : Z * Z;
  window_2 : Z * Z;
  window_3 : Z * Z;
  random_var_w : Q;
  random_var_1 : Z;
  random_var_2 : Z;
  random_var_3 : Z
}.

(** one duty cycle, core.py:1191-1214: p_i1, t_i1, p_i2, t_i2, r_ci, cwi1, cwi2 *)
Record cycle : Type := Cycle {
  cp1 : Q; ct1 : Z; cp2 : Q; ct2 : Z; cr : Q; cwa : Z * Z; cwb : Z * Z
}.

(** attributes rewritten by each simulated day, core.py:1187-1188, 1216-1224.
    [free_spots] holds slices (start, stop); the initial value [None] is modelled by []
    because it is assigned before being read (core.py:2036). *)
Record dyn : Type := Dyn {
  daily_use : list Q;
  free_spots : list (Z * Z);
  random_cycle1 : list Q;
  random_cycle2 : list Q;
  random_cycle3 : list Q;
  current_duty_cycle_id : Z
}.

(** [power]: one value per day; [constant_power]: the private flag of core.py:1161-1172. *)
Record appliance : Type := App {
  par : params;
  power : list Q;
  constant_power : bool;
  win : wins;
  cyc1 : cycle;
  cyc2 : cycle;
  cyc3 : cycle;
  st : dyn
}.

Definition set_st (a : appliance) (d : dyn) : appliance :=
  App (par a) (power a) (constant_power a) (win a) (cyc1 a) (cyc2 a) (cyc3 a) d.
Definition set_win (a : appliance) (w : wins) : appliance :=
  App (par a) (power a) (constant_power a) w (cyc1 a) (cyc2 a) (cyc3 a) (st a).
Definition set_cyc1 (a : appliance) (c : cycle) : appliance :=
  App (par a) (power a) (constant_power a) (win a) c (cyc2 a) (cyc3 a) (st a).
Definition set_cyc2 (a : appliance) (c : cycle) : appliance :=
  App (par a) (power a) (constant_power a) (win a) (cyc1 a) c (cyc3 a) (st a).
Definition set_cyc3 (a : appliance) (c : cycle) : appliance :=
  App (par a) (power a) (constant_power a) (win a) (cyc1 a) (cyc2 a) c (st a).
Definition set_power (a : appliance) (p : list Q) : appliance :=
  App (par a) p (constant_power a) (win a) (cyc1 a) (cyc2 a) (cyc3 a) (st a).
Definition set_par (a : appliance) (p : params) : appliance :=
  App p (power a) (constant_power a) (win a) (cyc1 a) (cyc2 a) (cyc3 a) (st a).

Definition set_daily_use (d : dyn) (x : list Q) : dyn :=
  Dyn x (free_spots d) (random_cycle1 d) (random_cycle2 d) (random_cycle3 d) (current_duty_cycle_id d).
Definition set_free_spots (d : dyn) (x : list (Z * Z)) : dyn :=
  Dyn (daily_use d) x (random_cycle1 d) (random_cycle2 d) (random_cycle3 d) (current_duty_cycle_id d).
Definition set_duty_id (d : dyn) (x : Z) : dyn :=
  Dyn (daily_use d) (free_spots d) (random_cycle1 d) (random_cycle2 d) (random_cycle3 d) x.
Definition set_cycles (d : dyn) (x1 x2 x3 : list Q) : dyn :=
  Dyn (daily_use d) (free_spots d) x1 x2 x3 (current_duty_cycle_id d).
Definition set_daily (a : appliance) (x : list Q) : appliance := set_st a (set_daily_use (st a) x).

Definition day_minutes : nat := Z.to_nat 1440.

(** ** Constructor, core.py:1058-1224 *)

(** core.py:1179-1224: attributes not given to the constructor *)
Definition default_wins : wins := Wins (0, 0) (0, 0) (0, 0) 0 0 0 0.
Definition default_cycle : cycle := Cycle 0 0 0 0 0 (0, 0) (0, 0).
Definition default_dyn : dyn := Dyn (zeros day_minutes) [] [] [] [] 0.

(** the two accepted shapes of the [power] argument, core.py:1161-1177: a constant (float, int)
    or a series (DataFrame column or JSON text); any other type raises ValueError *)
Inductive power_arg : Type :=
| PConst (p : Q)
| PSeries (l : list Q)
| PBad.

(** core.py:1139-1177 [Appliance(user, ...)]; [user_num_days] is [self.user.num_days]
    (core.py:818-824).  [power * np.ones(n)]: 1.0 * p is p. *)
Definition new_appliance (p : params) (pw : power_arg) (user_num_days : Z) : res appliance :=
  match pw with
  | PConst v => Ok (App p (repeat v (Z.to_nat (user_num_days + 1))) true
                        default_wins default_cycle default_cycle default_cycle default_dyn)
  | PSeries l => Ok (App p l false
                        default_wins default_cycle default_cycle default_cycle default_dyn)
  | PBad => Err ValueError
  end.

(** core.py:1226-1236 [check_power_values(num_days)]: IndexError of [self.power[0]] on an empty
    constant power included. *)
Definition check_power_values (a : appliance) (num_days : Z) : res appliance :=
  if zlen (power a) <? num_days then
    if constant_power a then
      match power a with
      | [] => Err IndexError
      | p0 :: _ => Ok (set_power a (repeat p0 (Z.to_nat (num_days + 1))))
      end
    else Err ValueError
  else Ok a.

(** ** windows(), core.py:1339-1448 *)

Definition diff (w : Z * Z) : Z := snd w - fst w.

(** window_i attribute; [None] when i is not 1, 2 or 3 (AttributeError in getattr) *)
Definition window_i (w : wins) (i : Z) : option (Z * Z) :=
  if i =? 1 then Some (window_1 w)
  else if i =? 2 then Some (window_2 w)
  else if i =? 3 then Some (window_3 w)
  else None.

(** core.py:1411-1413: the loop [for i in range(1, self.num_windows + 1)] *)
Fixpoint window_time_loop (w : wins) (is : list Z) (acc : Z) : res Z :=
  match is with
  | [] => Ok acc
  | i :: rest =>
      match window_i w i with
      | None => Err AttributeError
      | Some x => window_time_loop w rest (acc + diff x)
      end
  end.
Definition window_time (w : wins) (n : Z) : res Z := window_time_loop w (arange 1 (n + 1)) 0.

(** the mask value 0.001 of core.py:1424-1431 and 2026 *)
Definition mask_value (F : fm) : Q := flit F (1 # 1000).

(** core.py:1424, 2016, 2025: [daily_use[w0:w1] = np.full(np.diff(w), v)] *)
Definition fill_window (d : list Q) (w : Z * Z) (v : Q) : res (list Q) :=
  np_fill_slice d (fst w) (snd w) (diff w) v.

(** core.py:1339-1448 [windows(...)].  The appliance is returned next to the error because
    attributes assigned before the exception keep their new value.  The registration with the
    user (core.py:1444) happens exactly when the error is [None]; it is modelled in User.v. *)
Definition windows (F : fm) (a : appliance) (w1 w2 : option (Z * Z)) (rvw : Q)
    (w3 : option (Z * Z)) : appliance * option exc :=
  let w := win a in
  (* 1382-1389 *)
  let w := Wins (match w1 with None => (0, 1440) | Some x => x end)
                (window_2 w) (window_3 w) (random_var_w w)
                (random_var_1 w) (random_var_2 w) (random_var_3 w) in
  (* 1391-1396 *)
  if match w2 with None => num_windows (par a) >=? 2 | Some _ => false end
  then (set_win a w, Some InvalidWindow) else
  let w := Wins (window_1 w) (match w2 with None => window_2 w | Some x => x end)
                (window_3 w) (random_var_w w)
                (random_var_1 w) (random_var_2 w) (random_var_3 w) in
  (* 1400-1407 *)
  if match w3 with None => num_windows (par a) =? 3 | Some _ => false end
  then (set_win a w, Some InvalidWindow) else
  let w := Wins (window_1 w) (window_2 w) (match w3 with None => window_3 w | Some x => x end)
                (random_var_w w) (random_var_1 w) (random_var_2 w) (random_var_3 w) in
  (* 1409-1417 *)
  match window_time w (num_windows (par a)) with
  | Err e => (set_win a w, Some e)
  | Ok wt =>
    if wt <? func_time (par a) then (set_win a w, Some InvalidWindow) else
    (* 1419 *)
    let w := Wins (window_1 w) (window_2 w) (window_3 w) rvw
                  (random_var_1 w) (random_var_2 w) (random_var_3 w) in
    let a := set_win a w in
    (* 1420-1431 *)
    let m := mask_value F in
    let d0 := zeros day_minutes in
    match fill_window d0 (window_1 w) m with
    | Err e => (set_daily a d0, Some e)
    | Ok d1 =>
      match fill_window d1 (window_2 w) m with
      | Err e => (set_daily a d1, Some e)
      | Ok d2 =>
        match fill_window d2 (window_3 w) m with
        | Err e => (set_daily a d2, Some e)
        | Ok d3 =>
          let a := set_daily a d3 in
          (* 1433-1441 *)
          let rv x := py_int (fmul F rvw (zq (diff x))) in
          let w := Wins (window_1 w) (window_2 w) (window_3 w) rvw
                        (rv (window_1 w)) (rv (window_2 w)) (rv (window_3 w)) in
          let a := set_win a w in
          (* 1446-1448 *)
          if fixed_cycle (par a) =? 1 then
            let c := cyc1 a in
            (set_cyc1 a (Cycle (cp1 c) (ct1 c) (cp2 c) (ct2 c) (cr c) (window_1 w) (window_2 w)), None)
          else (a, None)
        end
      end
    end
  end.

(** ** Duty cycle declarations *)

(** core.py:1624-1665, 1667-1708, 1710-1749 [specific_cycle_i]: identical up to the index.
    The unused array fixed_cyclei is modelled only by its ValueError on negative durations,
    raised after the attributes are set. *)
Definition specific_cycle (c : cycle) (p1 : Q) (t1 : Z) (p2 : Q) (t2 : Z) (r : Q)
    (wa wb : option (Z * Z)) : cycle * option exc :=
  let c' := Cycle p1 t1 p2 t2 r
              (match wa with Some x => x | None => cwa c end)
              (match wb with Some x => x | None => cwb c end) in
  (c', if (t1 <? 0) || (t2 <? 0) then Some ValueError else None).

(** core.py:1752-1784 [cycle_behaviour]: default value [0,0] for each window not given. *)
Definition cycle_behaviour (a : appliance) (w11 w12 w21 w22 w31 w32 : option (Z * Z)) : appliance :=
  let dflt o := match o with Some x => x | None => (0, 0) end in
  let upd c x y := Cycle (cp1 c) (ct1 c) (cp2 c) (ct2 c) (cr c) (dflt x) (dflt y) in
  set_cyc3 (set_cyc2 (set_cyc1 a (upd (cyc1 a) w11 w12)) (upd (cyc2 a) w21 w22)) (upd (cyc3 a) w31 w32).

(** core.py:1450-1494 [assign_random_cycles] *)
Definition assign_random_cycles (F : fm) (a : appliance) (d : dyn) : prog dyn :=
  let fc := fixed_cycle (par a) in
  let tv := thermal_p_var (par a) in
  if fc >=? 1 then
    p11 <- random_variation F tv (cp1 (cyc1 a)) ;;
    p12 <- random_variation F tv (cp2 (cyc1 a)) ;;
    c1 <- duty_cycle F (cr (cyc1 a)) (ct1 (cyc1 a)) p11 (ct2 (cyc1 a)) p12 ;;
    if fc >=? 2 then
      p21 <- random_variation F tv (cp1 (cyc2 a)) ;;
      p22 <- random_variation F tv (cp2 (cyc2 a)) ;;
      c2 <- duty_cycle F (cr (cyc2 a)) (ct1 (cyc2 a)) p21 (ct2 (cyc2 a)) p22 ;;
      if fc >=? 3 then
        p31 <- random_variation F tv (cp1 (cyc3 a)) ;;
        p32 <- random_variation F tv (cp2 (cyc3 a)) ;;
        c1' <- random_choice F (cr (cyc1 a)) (ct1 (cyc1 a)) p11 (ct2 (cyc1 a)) p12 ;;
        c2' <- random_choice F (cr (cyc2 a)) (ct1 (cyc2 a)) p21 (ct2 (cyc2 a)) p22 ;;
        c3' <- random_choice F (cr (cyc3 a)) (ct1 (cyc3 a)) p31 (ct2 (cyc3 a)) p32 ;;
        Ret (set_cycles d c1' c2' c3')
      else Ret (set_cycles d c1 c2 c1)
    else Ret (set_cycles d c1 c1 c1)
  else Ret d.

(** ** One switch-on event *)

(** core.py:1508-1535: the first free spot with [indexes[0] >= start and indexes[-1] <= stop]
    is replaced by what is left of it.  The pop/insert at position [spot_idx] of the code is
    a replacement at that position. *)
Fixpoint book_spot (spots : list (Z * Z)) (i0 il : Z) : list (Z * Z) :=
  match spots with
  | [] => []
  | (s, e) :: rest =>
      if (i0 >=? s) && (il <=? e) then
        if (i0 =? s) && (il =? e) then rest
        else if i0 =? s then (il + 1, e) :: rest
        else if il =? e then (s, i0) :: rest
        else (s, i0) :: (il + 1, e) :: rest
      else (s, e) :: book_spot rest i0 il
  end.

(** core.py:1496-1535 [update_available_time_for_switch_on_events(indexes)]: [indexes[0]] is
    evaluated only when there is a free spot. *)
Definition update_available_time (spots : list (Z * Z)) (indexes : list Z) : res (list (Z * Z)) :=
  match spots with
  | [] => Ok []
  | _ => rbind (py_first indexes) (fun i0 => rbind (py_last indexes) (fun il => Ok (book_spot spots i0 il)))
  end.

(** randomised cycle number i *)
Definition cycle_of (d : dyn) (i : Z) : list Q :=
  if i =? 1 then random_cycle1 d else if i =? 2 then random_cycle2 d else random_cycle3 d.

(** core.py:1537-1572 [update_daily_use(coincidence, power, indexes)].  Returns next to the new
    state the values handed to np.put (ghost, read by no code). *)
Definition update_daily_use (F : fm) (a : appliance) (d : dyn) (coincidence : Z) (pw : Q)
    (indexes : list Z) : prog (dyn * list Q) :=
  vals <-
    (if fixed_cycle (par a) >? 0 then
       let i := current_duty_cycle_id d in
       if (i =? 1) || (i =? 2) || (i =? 3)
       then Ret (map (fun x => fmul F x (zq coincidence)) (cycle_of d i))
       else Ret []
     else
       v <- random_variation F (thermal_p_var (par a)) (fmul F (zq coincidence) pw) ;;
       Ret [v]) ;;
  du <- lift (np_put (daily_use d) indexes vals) ;;
  fs <- lift (update_available_time (free_spots d) indexes) ;;
  Ret (set_free_spots (set_daily_use d du) fs, vals).

(** core.py:1574-1586 [calc_rand_window(window_idx)] with the default limits [0, 1440] *)
Definition calc_rand_window (w : Z * Z) (rv : Z) : prog (Z * Z) :=
  x0 <- py_randint (fst w - rv) (fst w + rv) ;;
  x1 <- py_randint (snd w - rv) (snd w + rv) ;;
  Ret (if x0 <? 0 then 0 else x0, if x1 >? 1440 then 1440 else x1).

(** [np.add.reduce] of a float64 array, numpy/_core/src/umath/loops_utils.h.src [DOUBLE_pairwise_sum]: from left to right below 8 values,
    eight accumulators up to 128 values, two halves (the first a multiple of 8 long) above.  The final addition to the initial 0 is left
    out (0 + x is x).  Simplification: a power series of integers is converted in one piece (numpy does so up to 8192 values). *)
Fixpoint sum_lanes (F : fm) (r0 r1 r2 r3 r4 r5 r6 r7 : Q) (l : list Q) : Q :=
  match l with
  | x0 :: x1 :: x2 :: x3 :: x4 :: x5 :: x6 :: x7 :: l' =>
      sum_lanes F (fadd F r0 x0) (fadd F r1 x1) (fadd F r2 x2) (fadd F r3 x3) (fadd F r4 x4) (fadd F r5 x5) (fadd F r6 x6) (fadd F r7 x7) l'
  | _ => fold_left (fadd F) l
           (fadd F (fadd F (fadd F r0 r1) (fadd F r2 r3)) (fadd F (fadd F r4 r5) (fadd F r6 r7)))
  end.
Definition sum_block (F : fm) (l : list Q) : Q :=
  match l with
  | x0 :: x1 :: x2 :: x3 :: x4 :: x5 :: x6 :: x7 :: l' => sum_lanes F x0 x1 x2 x3 x4 x5 x6 x7 l'
  | _ => fold_left (fadd F) l 0%Q
  end.
Fixpoint sum_halves (fuel : nat) (F : fm) (l : list Q) : Q :=
  match fuel with
  | O => sum_block F l                             (* not reached: the halves are shorter than the whole *)
  | S fuel' =>
      let n := List.length l in
      if Nat.leb n 128 then sum_block F l
      else
        let n2 := (n / 2 - (n / 2) mod 8)%nat in
        fadd F (sum_halves fuel' F (firstn n2 l)) (sum_halves fuel' F (skipn n2 l))
  end.
Definition np_sum (F : fm) (l : list Q) : Q := sum_halves (List.length l) F l.
(** [np.mean]: the sum divided by the number of values *)
Definition np_mean (F : fm) (l : list Q) : Q := fdiv F (np_sum F l) (zq (zlen l)).

(** core.py:1588-1598 [maximum_profile] *)
Definition app_maximum_profile (F : fm) (a : appliance) : list Q :=
  map (fun x => fmul F (fmul F x (np_mean F (power a))) (zq (number (par a)))) (daily_use (st a)).

(** core.py:1786-1818 [rand_total_time_of_use] *)
Definition rand_total_time_of_use (F : fm) (a : appliance) (rw1 rw2 rw3 : Z * Z) : prog Z :=
  let ft := func_time (par a) in
  let fc := func_cycle (par a) in
  rvt <- random_variation F (time_var (par a)) 1 ;;
  u <- py_uniform F (zq ft) (zq (py_int (fmul F (zq ft) rvt))) ;;
  let rand_time := py_round u in
  let rand_time := if rand_time <? fc then fc else rand_time in
  let total_time := diff rw1 + diff rw2 + diff rw3 in
  let limit := fmul F (flit F (99 # 100)) (zq total_time) in
  let rand_time := if Qltb limit (zq rand_time) then py_int limit else rand_time in
  if rand_time <? fc then Raise ValueError else Ret rand_time.

(** core.py:1830-1835: all minutes at which an event of func_cycle minutes can start *)
Definition indexes_choice (spots : list (Z * Z)) (fc : Z) : list Z :=
  flat_map (fun s => if snd s - fst s >=? fc then arange (fst s) (snd s - fc + 1) else []) spots.

(** core.py:1841-1845: the first free spot that contains the chosen start *)
Definition find_spot (spots : list (Z * Z)) (fc switch_on : Z) : option (Z * Z) :=
  find (fun s => (fst s <=? switch_on) && (switch_on <=? snd s - fc)) spots.

(** core.py:1870-1887: the lowest numbered duty cycle one of whose windows meets the event *)
Definition select_cycle (a : appliance) (low high : Z) : option Z :=
  let hit c := range_within_window low high (cwa c) || range_within_window low high (cwb c) in
  if hit (cyc1 a) then Some 1
  else if hit (cyc2 a) then Some 2
  else if hit (cyc3 a) then Some 3
  else None.

(** core.py:1820-1923 [rand_switch_on_window(rand_time)].  [depth] is the number of nested
    calls Python's recursion limit still allows (core.py:1909 calls the method again). *)
Fixpoint rand_switch_on_window (depth : nat) (F : fm) (a : appliance) (d : dyn) (rand_time : Z)
    : prog (option (list Z) * dyn) :=
  match depth with
  | O => Raise RecursionError
  | S depth' =>
    let fc := func_cycle (par a) in
    let choices := indexes_choice (free_spots d) fc in
    let n := zlen choices in
    if n >? 0 then
      j <- py_randint 0 (n - 1) ;;
      switch_on <- lift (py_index choices j) ;;
      match find_spot (free_spots d) fc switch_on with
      | None => Raise TypeError                          (* self.free_spots[None] *)
      | Some spot =>
        let largest := Z.min rand_time (snd spot - switch_on) in
        indexes <-
          (if largest >? fc then
             u <- py_uniform F (zq fc) (zq largest) ;;
             Ret (arange switch_on (switch_on + py_int u))
           else if largest =? fc then Ret (arange switch_on (switch_on + largest))
           else Raise ValueError) ;;
        if fixed_cycle (par a) >? 0 then
          low <- lift (py_first indexes) ;;
          high <- lift (py_last indexes) ;;
          match select_cycle a low high with
          | None => rand_switch_on_window depth' F a d rand_time
          | Some i =>
            let dur := zlen (cycle_of d i) in
            let indexes :=
              if (zlen indexes >? dur) && (continuous_duty_cycle (par a) =? 0)
              then firstn (Z.to_nat dur) indexes else indexes in
            Ret (Some indexes, set_duty_id d i)
          end
        else Ret (Some indexes, d)
      end
    else Ret (None, d)
  end.

(** constants.py:1-20 [switch_on_parameters] returns (mu_peak, s_peak, op_factor), all 0.5;
    core.py:1934 unpacks them as s_peak, mu_peak, op_factor (harmless, both are 0.5) *)
Definition half : Q := 1 # 2.

(** core.py:1961-1965: [np.max(np.where(prob >= array)) + 1] with
    [array = np.arange(0, number) / number]; 1 when no entry qualifies (ValueError caught) *)
Definition on_number (F : fm) (n : Z) (prob : Q) : Z :=
  match filter (fun k => Qle_bool (fdiv F (zq k) (zq n)) prob) (arange 0 n) with
  | [] => 1
  | k :: ks => fold_left Z.max ks k + 1
  end.

(** core.py:1925-1969 [calc_coincident_switch_on(inside_peak_window)] *)
Definition calc_coincident_switch_on (F : fm) (a : appliance) (inside : bool) : prog Z :=
  let n := number (par a) in
  let no := String.eqb (fixed (par a)) "no" in
  if inside && no then
    g <- py_gauss F (fmul F (zq n) half) (fmul F (fmul F half (zq n)) half) ;;
    Ret (Z.min n (Z.max 1 (py_ceil g)))
  else if negb inside && no then
    if n =? 0 then Raise ZeroDivisionError
    else
      prob <- py_uniform F 0 (fdiv F (fsub F (zq n) half) (zq n)) ;;
      Ret (on_number F n prob)
  else Ret n.

(** ** One day of one appliance *)

(** ghost: one switch-on event as booked by update_daily_use *)
Record event : Type := Event {
  ev_indexes : list Z;
  ev_coincidence : Z;
  ev_cycle : Z;              (* current_duty_cycle_id at the time *)
  ev_values : list Q         (* the values handed to np.put *)
}.

(** ghost: how the day went *)
Inductive day_trace : Type :=
| Skipped
| FlatDay (rws : list (Z * Z)) (rand_time : Z)
| UsedDay (rws : list (Z * Z)) (rand_time : Z) (events : list event).

(** core.py:2046-2058 / 2060-2074: peak test, coincidence, update for the given indexes *)
Definition use_event (F : fm) (a : appliance) (d : dyn) (peak : list Z) (pw : Q)
    (indexes : list Z) : prog (dyn * event) :=
  i0 <- lift (py_first indexes) ;;
  il <- lift (py_last indexes) ;;
  p0 <- lift (py_first peak) ;;
  pl <- lift (py_last peak) ;;
  coincidence <- calc_coincident_switch_on F a (within_peak_time_window i0 il p0 pl) ;;
  dv <- update_daily_use F a d coincidence pw indexes ;;
  Ret (fst dv, Event indexes coincidence (current_duty_cycle_id d) (snd dv)).

(** core.py:2040-2074, the while loop; [fuel] bounds the number of iterations of the model.
    Returns the state and the events in the order they were booked. *)
Fixpoint use_loop (fuel : nat) (depth : nat) (F : fm) (a : appliance) (peak : list Z) (pw : Q)
    (rand_time tot_time : Z) (d : dyn) (evs : list event) : prog (dyn * list event) :=
  match fuel with
  | O => Raise OutOfFuel
  | S fuel' =>
    if (tot_time <=? rand_time) && negb (rand_time =? 0) then
      od <- rand_switch_on_window depth F a d rand_time ;;
      match fst od with
      | None => Ret (snd od, evs)
      | Some indexes =>
        let tot_time := tot_time + zlen indexes in
        if tot_time >? rand_time then
          (* indexes[: -(tot_time - rand_time)] *)
          let adj := firstn (Z.to_nat (zlen indexes - (tot_time - rand_time))) indexes in
          if zlen adj >? 0 then
            de <- use_event F a (snd od) peak pw adj ;;
            Ret (fst de, evs ++ [snd de])
          else Ret (snd od, evs)
        else
          de <- use_event F a (snd od) peak pw indexes ;;
          use_loop fuel' depth F a peak pw rand_time tot_time (fst de) (evs ++ [snd de])
      end
    else Ret (d, evs)
  end.

(** core.py:2015-2018, 2024-2027: fill the three randomised windows with [v] *)
Fixpoint fill_windows (d : list Q) (ws : list (Z * Z)) (v : Q) : res (list Q) :=
  match ws with
  | [] => Ok d
  | w :: ws' => rbind (fill_window d w v) (fun d' => fill_windows d' ws' v)
  end.

(** core.py:1984-1994: the skip condition once the occasional_use draw [u] is known;
    [rand_daily_pref] is the user's preference of the day *)
Definition skip_day (a : appliance) (rand_daily_pref day_type : Z) (u : Q) : bool :=
  Qltb (occasional_use (par a)) u
  || (negb (pref_index (par a) =? 0) && negb (rand_daily_pref =? pref_index (par a)))
  || negb ((wd_we_type (par a) =? day_type) || (wd_we_type (par a) =? 2))
  || (func_time (par a) =? 0).

(** core.py:1971-2074 [generate_load_profile(prof_i, peak_time_range, day_type, power)], with
    the ghost trace.  Loop fuel: rand_time + 2. *)
Definition generate_load_profile_traced (depth : nat) (F : fm) (a : appliance)
    (rand_daily_pref : Z) (prof_i : Z) (peak : list Z) (day_type : Z) (pw : Q)
    : prog (dyn * day_trace) :=
  let d := set_daily_use (st a) (zeros day_minutes) in
  u <- py_uniform F 0 1 ;;
  if skip_day a rand_daily_pref day_type u then Ret (d, Skipped)
  else
    rw1 <- calc_rand_window (window_1 (win a)) (random_var_1 (win a)) ;;
    rw2 <- calc_rand_window (window_2 (win a)) (random_var_2 (win a)) ;;
    rw3 <- calc_rand_window (window_3 (win a)) (random_var_3 (win a)) ;;
    let rws := [rw1; rw2; rw3] in
    rand_time <- rand_total_time_of_use F a rw1 rw2 rw3 ;;
    if String.eqb (flat (par a)) "yes" then
      p <- lift (py_index (power a) prof_i) ;;
      du <- lift (fill_windows (daily_use d) rws (fmul F p (zq (number (par a))))) ;;
      Ret (set_daily_use d du, FlatDay rws rand_time)
    else
      du <- lift (fill_windows (daily_use d) rws (mask_value F)) ;;
      d1 <- assign_random_cycles F a (set_daily_use d du) ;;
      let spots := filter (fun w => negb (fst w =? snd w)) rws in
      r <- use_loop (Z.to_nat rand_time + 2) depth F a peak pw rand_time 0
             (set_free_spots d1 spots) [] ;;
      Ret (fst r, UsedDay rws rand_time (snd r)).

(** the method itself: the appliance with its new state *)
Definition generate_load_profile (depth : nat) (F : fm) (a : appliance)
    (rand_daily_pref : Z) (prof_i : Z) (peak : list Z) (day_type : Z) (pw : Q) : prog appliance :=
  r <- generate_load_profile_traced depth F a rand_daily_pref prof_i peak day_type pw ;;
  Ret (set_st a (fst r)).
