(** * Tabular: model of saving and loading, ramp/core/core.py:521-645, 826-864, 1238-1287 and
    ramp/core/utils.py:21-89

    A table is a list of rows, a row maps column names to cells.  Simplifications: decimal
    numerals are read back as the number written (pandas' read_json may be off in the last digit);
    a power text which is JSON but not an array, and range texts which are not sheet!range, are not
    distinguished from text that is not JSON. *)
From Verif Require Import Base Utils Appliance Attributes User.
Open Scope string_scope.
Open Scope list_scope.
Open Scope Z_scope.

(** ** Cells *)

(** what a cell can hold: nothing (None, NaN), a number, a text, a text which is a JSON array
    (of numbers: rows of one value; of pairs: rows of two values), or a formula which refers to
    a rectangle of numbers in another sheet (given by its columns) *)
Inductive cell : Type :=
| CBlank
| CNum (q : Q)
| CText (s : string)
| CArray (rows : list (list Q))
| CRange (cols : list (list Q)).

Definition row : Type := list (string * cell).
Definition table : Type := list row.

Fixpoint assoc {A} (k : string) (l : list (string * A)) : option A :=
  match l with
  | [] => None
  | (k', x) :: l' => if String.eqb k k' then Some x else assoc k l'
  end.
(** [row.get(k, np.NaN)] *)
Definition row_get (r : row) (k : string) : cell := match assoc k r with Some c => c | None => CBlank end.

(** Python [sub in s] on strings *)
Definition contains (sub s : string) : bool := match String.index 0 sub s with Some _ => true | None => false end.

(** ** Appliance.save, core.py:1238-1287 *)

(** [np.diff(l).sum()]: differences, added from left to right (numpy adds long arrays pairwise) *)
Fixpoint np_diff (F : fm) (l : list Q) : list Q :=
  match l with
  | x :: ((y :: _) as l') => fsub F y x :: np_diff F l'
  | _ => []
  end.
(** core.py:1258-1262 *)
Definition save_power (F : fm) (l : list Q) : res cell :=
  if Qeq_bool (fold_left (fadd F) (np_diff F l) 0%Q) 0 then
    match l with [] => Err IndexError | p :: _ => Ok (CNum p) end
  else Ok (CArray (map (fun v => [v]) l)).

(** core.py:1250-1264: one attribute.  All attributes of APPLIANCE_ATTRIBUTES exist on the model's
    appliances, so the legacy branch of lines 1265-1286 is not modelled. *)
Definition save_attribute (F : fm) (a : appliance) (s : string) : res row :=
  match getattr a s with
  | None => Ok []
  | Some (VWin w) => Ok [((s ++ "_start")%string, CNum (zq (fst w))); ((s ++ "_end")%string, CNum (zq (snd w)))]
  | Some (VArr l) => rbind (save_power F l) (fun c => Ok [(s, c)])
  | Some (VStr x) => Ok [(s, CText x)]
  | Some (VInt z) => Ok [(s, CNum (zq z))]
  | Some (VFloat q) => Ok [(s, CNum q)]
  end.
Fixpoint save_attributes (F : fm) (a : appliance) (l : list string) : res row :=
  match l with
  | [] => Ok []
  | s :: l' => rbind (save_attribute F a s) (fun r => rbind (save_attributes F a l') (fun r' => Ok (r ++ r')))
  end.
Definition save_appliance (F : fm) (u : user) (a : appliance) : res row :=
  rbind (save_attributes F a APPLIANCE_ATTRIBUTES) (fun r =>
  Ok ([("user_name", CText (user_name u)); ("num_users", CNum (zq (num_users u)));
       ("user_preference", CNum (zq (user_preference u)))] ++ r)).

Fixpoint map_res {A B} (f : A -> res B) (l : list A) : res (list B) :=
  match l with
  | [] => Ok []
  | x :: l' => rbind (f x) (fun y => rbind (map_res f l') (fun ys => Ok (y :: ys)))
  end.

(** core.py:826-864 [User.save]: pd.concat of an empty list is a ValueError, turned into a plain
    Exception *)
Definition save_user (F : fm) (u : user) : res table :=
  match app_list u with
  | [] => Err PlainException
  | _ => map_res (save_appliance F u) (app_list u)
  end.
(** core.py:521-547 [UseCase.save] *)
Definition save (F : fm) (us : list user) : res table :=
  match us with
  | [] => Err ValueError
  | _ => rbind (map_res (save_user F) us) (fun ts => Ok (List.concat ts))
  end.

(** ** Writing to and reading from an .xlsx file *)

(** an empty text is an empty cell *)
Definition excel_cell (c : cell) : cell := match c with CText "" => CBlank | _ => c end.
Definition excel (t : table) : table := map (map (fun kc => (fst kc, excel_cell (snd kc)))) t.

(** ** read_input_file, utils.py:21-89 *)

(** utils.py:33-88: the power of one row *)
Definition read_power (c : cell) : res cell :=
  match c with
  | CText _ => Err ValueError                                   (* not JSON: 81-86 *)
  | CArray rows => if zlen rows =? 366 then Ok c else Err ValueError   (* 71-80 *)
  | CRange cols =>
      match cols with
      | [vals] =>                                               (* 41-47 *)
          if zlen vals =? 366 then Ok (CArray (map (fun v => [v]) vals)) else Err ValueError
      | [first; second] =>                                      (* 48-58: transposed *)
          if zlen first =? 366 then Ok (CArray (map (fun xy => [fst xy; snd xy]) (combine first second))) else Err ValueError
      | _ => Err ValueError                                     (* 59-63 *)
      end
  | _ => Ok c
  end.
Fixpoint set_cell (r : row) (k : string) (c : cell) : row :=
  match r with
  | [] => []
  | (k', x) :: r' => if String.eqb k k' then (k', c) :: r' else (k', x) :: set_cell r' k c
  end.
Definition read_row (r : row) : res row :=
  match assoc "power" r with
  | None => Err KeyError
  | Some c => rbind (read_power c) (fun c' => Ok (set_cell r "power" c'))
  end.
Definition read_input_file (t : table) : res table := map_res read_row t.

(** ** UseCase.load, core.py:559-645 *)

(** a keyword argument given to add_appliance *)
Inductive argv : Type := ACell (c : cell) | AWin (w : Z * Z).
Definition kwargs : Type := list (string * argv).

(** core.py:611-613 *)
Definition appliance_args (r : row) : kwargs :=
  flat_map (fun k => match assoc k r with Some c => [(k, ACell c)] | None => [] end) APPLIANCE_ARGS.

(** [np.isnan(x)]: a text raises TypeError *)
Definition is_nan (c : cell) : res bool :=
  match c with CBlank => Ok true | CNum _ => Ok false | _ => Err TypeError end.
Definition number_of_cell (c : cell) : Q := match c with CNum q => q | _ => 0%Q end.
(** core.py:618-624, 633-639: a window; [not isnan(start) and not isnan(end)].
    [np.array([start, end], dtype=np.intc)] truncates. *)
Definition window_arg (r : row) (k : string) : res kwargs :=
  let s := row_get r (k ++ "_start")%string in
  let e := row_get r (k ++ "_end")%string in
  rbind (is_nan s) (fun ns =>
  if ns then Ok [] else
  rbind (is_nan e) (fun ne =>
  if ne then Ok [] else Ok [(k, AWin (py_int (number_of_cell s), py_int (number_of_cell e)))])).
(** core.py:625-628, 640-643 *)
Definition value_arg (r : row) (k : string) : res kwargs :=
  let v := row_get r k in
  rbind (is_nan v) (fun n => Ok (if n then [] else [(k, ACell v)])).
(** core.py:615-628 (sub = "window") and 630-643 (sub = "cw") *)
Definition param_arg (sub : string) (r : row) (k : string) : res kwargs :=
  if contains sub k then window_arg r k else value_arg r k.
(** core.py:609-643 *)
Definition row_kwargs (r : row) : res kwargs :=
  rbind (map_res (param_arg "window" r) WINDOWS_PARAMETERS) (fun ws =>
  rbind (map_res (param_arg "cw" r) (List.concat DUTY_CYCLE_PARAMETERS)) (fun cs =>
  Ok (appliance_args r ++ List.concat ws ++ List.concat cs))).

(** *** add_appliance( **kwargs ), core.py:760-797, for values within the model *)

(** Values outside the model (NaN where a number is expected, a fractional number where the model
    has an integer, ...) give [Unmodelled]. *)
Definition as_Z (c : cell) : res Z :=
  match c with CNum q => if Qeq_bool q (zq (py_int q)) then Ok (py_int q) else Err Unmodelled | _ => Err Unmodelled end.
Definition as_Q (c : cell) : res Q := match c with CNum q => Ok q | _ => Err Unmodelled end.
Definition as_text (c : cell) : res string := match c with CText s => Ok s | _ => Err Unmodelled end.
Definition arg {A} (conv : cell -> res A) (dflt : A) (k : string) (kw : kwargs) : res A :=
  match assoc k kw with
  | None => Ok dflt
  | Some (ACell c) => conv c
  | Some (AWin _) => Err Unmodelled
  end.
Definition opt_arg {A} (conv : cell -> res A) (k : string) (kw : kwargs) : res (option A) :=
  match assoc k kw with
  | None => Ok None
  | Some (ACell c) => rbind (conv c) (fun x => Ok (Some x))
  | Some (AWin _) => Err Unmodelled
  end.
Definition win_arg (k : string) (kw : kwargs) : option (Z * Z) :=
  match assoc k kw with Some (AWin w) => Some w | _ => None end.
(** core.py:1163-1177: a JSON text gives its first column, [pd.read_json(power).values[:, 0]] *)
Definition as_power (c : cell) : res power_arg :=
  match c with
  | CNum q => Ok (PConst q)
  | CArray rows => Ok (PSeries (map (fun r => hd 0%Q r) rows))
  | _ => Err Unmodelled
  end.

(** the constructor arguments with the defaults of core.py:1062-1076 *)
Definition params_of (kw : kwargs) : res params :=
  rbind (arg as_text "" "name" kw) (fun name =>
  rbind (arg as_Z 1 "number" kw) (fun number =>
  rbind (arg as_Z 1 "num_windows" kw) (fun num_windows =>
  rbind (arg as_Z 0 "func_time" kw) (fun func_time =>
  rbind (arg as_Q 0%Q "time_fraction_random_variability" kw) (fun time_var =>
  rbind (arg as_Z 1 "func_cycle" kw) (fun func_cycle =>
  rbind (arg as_text "no" "fixed" kw) (fun fixed =>
  rbind (arg as_Z 0 "fixed_cycle" kw) (fun fixed_cycle =>
  rbind (arg as_Z 1 "continuous_duty_cycle" kw) (fun cdc =>
  rbind (arg as_Q 1%Q "occasional_use" kw) (fun occasional =>
  rbind (arg as_text "no" "flat" kw) (fun flat =>
  rbind (arg as_Q 0%Q "thermal_p_var" kw) (fun thermal =>
  rbind (arg as_Z 0 "pref_index" kw) (fun pref =>
  rbind (arg as_Z 2 "wd_we_type" kw) (fun wd_we =>
  Ok (Params name number num_windows func_time time_var func_cycle fixed fixed_cycle cdc occasional flat thermal pref wd_we)
  )))))))))))))).
(** core.py:770-773 *)
Definition window_args_of (kw : kwargs) : res window_args :=
  rbind (opt_arg as_Q "random_var_w" kw) (fun rvw =>
  Ok (WindowArgs (win_arg "window_1" kw) (win_arg "window_2" kw) (win_arg "window_3" kw) rvw)).
(** core.py:775-784, one duty cycle: names p1, t1, cw1, p2, t2, cw2, r *)
Definition cycle_args_of (kw : kwargs) (p1 t1 w1 p2 t2 w2 r : string) : res cycle_args :=
  rbind (opt_arg as_Q p1 kw) (fun p1 =>
  rbind (opt_arg as_Z t1 kw) (fun t1 =>
  rbind (opt_arg as_Q p2 kw) (fun p2 =>
  rbind (opt_arg as_Z t2 kw) (fun t2 =>
  rbind (opt_arg as_Q r kw) (fun r =>
  Ok (CycleArgs p1 t1 (win_arg w1 kw) p2 t2 (win_arg w2 kw) r)))))).

(** [user.add_appliance( **kwargs )] *)
Definition add_kwargs (F : fm) (strict : bool) (num_days : Z) (g : registry) (kw : kwargs) : res registry :=
  rbind (params_of kw) (fun p =>
  rbind (arg as_power (PConst 0) "power" kw) (fun pw =>
  rbind (window_args_of kw) (fun wa =>
  rbind (cycle_args_of kw "p_11" "t_11" "cw11" "p_12" "t_12" "cw12" "r_c1") (fun c1 =>
  rbind (cycle_args_of kw "p_21" "t_21" "cw21" "p_22" "t_22" "cw22" "r_c2") (fun c2 =>
  rbind (cycle_args_of kw "p_31" "t_31" "cw31" "p_32" "t_32" "cw32" "r_c3") (fun c3 =>
  match add_appliance_kw F strict g p pw num_days wa c1 c2 c3 with
  | (g', None) => Ok g'
  | (_, Some e) => Err e
  end)))))).

(** core.py:605-645: the rows of one user *)
Fixpoint add_rows (F : fm) (strict : bool) (num_days : Z) (g : registry) (rows : list row) : res registry :=
  match rows with
  | [] => Ok g
  | r :: rows' =>
      rbind (row_kwargs r) (fun kw =>
      rbind (add_kwargs F strict num_days g kw) (fun g' => add_rows F strict num_days g' rows'))
  end.

(** [==] on cells (NaN differs from itself) and the equality of [unique] (NaN counts once) *)
Definition cell_eq (a b : cell) : bool :=
  match a, b with
  | CNum x, CNum y => Qeq_bool x y
  | CText x, CText y => String.eqb x y
  | _, _ => false
  end.
Definition cell_same (a b : cell) : bool :=
  match a, b with CBlank, CBlank => true | _, _ => cell_eq a b end.
(** [Series.unique()]: values in order of first appearance *)
Fixpoint unique (l : list cell) : list cell :=
  match l with [] => [] | x :: l' => x :: filter (fun y => negb (cell_same x y)) (unique l') end.

(** core.py:584-645, one user name *)
Definition rows_named (t : table) (un : cell) : table := filter (fun r => cell_eq (row_get r "user_name") un) t.
Definition load_user (F : fm) (strict : bool) (num_days : Z) (t : table) (un : cell) : res user :=
  let rows := rows_named t un in
  match unique (map (fun r => row_get r "num_users") rows) with
  | [n] =>
      match unique (map (fun r => row_get r "user_preference") rows) with
      | [p] =>
          rbind (as_text un) (fun un =>
          rbind (as_Z n) (fun n =>
          rbind (as_Z p) (fun p =>
          rbind (add_rows F strict num_days (Registry [] []) rows) (fun g =>
          Ok (User un n p 0 [] (registered g))))))
      | _ => Err ValueError
      end
  | _ => Err ValueError
  end.

(** [load(filename)] into a use case without users: the users it then has.  [num_days] is
    [user.num_days] (core.py:818-824): 366 unless the use case is initialized. *)
Definition load_table (F : fm) (strict : bool) (num_days : Z) (t : table) : res (list user) :=
  rbind (read_input_file t) (fun t =>
  map_res (load_user F strict num_days t) (unique (map (fun r => row_get r "user_name") t))).

(** save to a file, then load it into a fresh use case *)
Definition save_and_load (F : fm) (strict : bool) (us : list user) : res (list user) :=
  rbind (save F us) (fun t => load_table F strict 366 (excel t)).
