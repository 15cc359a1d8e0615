(** * PostProcess: model of ramp/post_process/post_process.py

    Numbers are finite (no NaN or infinity in the data).  A DataFrame is its index (minutes,
    as in UseCase.v) and its named columns.  Plots themselves are not modelled, only the data
    handed to them. *)
From Coq Require Import Ascii.
From Verif Require Import Base Tabular.
Open Scope string_scope.
Open Scope list_scope.
Open Scope Z_scope.

(** ** Profile_formatting, post_process.py:17-32 *)

(** [a + b] on one dimensional arrays: an array of one value is broadcast, other lengths must agree *)
Definition np_add (F : fm) (x y : list Q) : res (list Q) :=
  if zlen x =? zlen y then Ok (vadd F x y)
  else match x, y with
       | _, [b] => Ok (map (fun a => fadd F a b) x)
       | [a], _ => Ok (map (fadd F a) y)
       | _, _ => Err ValueError
       end.
Fixpoint add_all (F : fm) (acc : list Q) (rows : list (list Q)) : res (list Q) :=
  match rows with [] => Ok acc | r :: rows' => rbind (np_add F acc r) (fun acc' => add_all F acc' rows') end.

(** post_process.py:17-32: (average, profiles in kW, one series).  No profile at all divides by
    zero (NaN with a numpy warning): not modelled. *)
Definition Profile_formatting (F : fm) (stoch_profiles : list (list Q)) : res (list Q * list (list Q) * list Q) :=
  rbind (add_all F (repeat 0%Q (Z.to_nat 1440)) stoch_profiles) (fun total =>
  match stoch_profiles with
  | [] => Err Unmodelled
  | _ =>
      let avg := map (fun x => fdiv F x (zq (zlen stoch_profiles))) total in
      let kW := map (map (fun x => fdiv F x 1000)) stoch_profiles in
      Ok (avg, kW, List.concat stoch_profiles)
  end).

(** ** Where export_series writes, post_process.py:78-97 *)

(** [s.replace(".", "_")] *)
Fixpoint dots_to_underscores (s : string) : string :=
  match s with
  | EmptyString => EmptyString
  | String c s' => String (if Ascii.eqb c "." then "_" else c)%char (dots_to_underscores s')
  end.
(** [os.path.split(fname)[-1]]: what follows the last slash *)
Fixpoint path_tail (acc s : string) : string :=
  match s with
  | EmptyString => acc
  | String c s' => if Ascii.eqb c "/" then path_tail EmptyString s' else path_tail (acc ++ String c EmptyString) s'
  end.
(** the path written to: [results] is the folder BASE_PATH/results.  [j] only counts when neither
    ofname nor fname is given. *)
Definition export_path (results : string) (j : option string) (fname ofname : option string) : option string :=
  match ofname with
  | Some o => Some o
  | None =>
      match fname with
      | Some f => Some (results ++ "/output_file_" ++ dots_to_underscores (path_tail EmptyString f) ++ ".csv")%string
      | None =>
          match j with
          | Some j => Some (results ++ "/output_file_" ++ j ++ ".csv")%string
          | None => None
          end
      end
  end.

(** ** pandas resampling, used at cli.py:222-225 and post_process.py:214-242 *)

Inductive rule : Type := Mean | Max | Min | Sum.

(** pandas sums a group with Kahan's compensation (groupby.pyx, group_sum, group_mean) *)
Fixpoint kahan (F : fm) (s c : Q) (l : list Q) : Q :=
  match l with
  | [] => s
  | v :: l' =>
      let y := fsub F v c in
      let t := fadd F s y in
      kahan F t (fsub F (fsub F t s) y) l'
  end.
Definition qmax (x y : Q) : Q := if Qle_bool x y then y else x.
Definition qmin (x y : Q) : Q := if Qle_bool x y then x else y.
(** the value of one group; None is NaN *)
Definition aggregate (F : fm) (r : rule) (l : list Q) : option Q :=
  match r, l with
  | Sum, _ => Some (kahan F 0 0 l)
  | _, [] => None
  | Mean, _ => Some (fdiv F (kahan F 0 0 l) (zq (zlen l)))
  | Max, x :: l' => Some (fold_left qmax l' x)
  | Min, x :: l' => Some (fold_left qmin l' x)
  end.

(** [df.resample(freq)] with a fixed frequency of [w] minutes: bins count from the midnight
    before the first time step (origin="start_day"); one bin for each multiple from the first to
    the last time step.  Simplification: the index is increasing. *)
Definition bin_of (origin w t : Z) : Z := (t - origin) / w.
Definition resample (F : fm) (w : Z) (r : rule) (ix : list Z) (vs : list Q) : list (Z * option Q) :=
  match ix with
  | [] => []
  | t0 :: rest =>
      let origin := 1440 * (t0 / 1440) in
      map (fun b => (origin + w * b,
            aggregate F r (map snd (filter (fun tv => bin_of origin w (fst tv) =? b) (combine ix vs)))))
          (arange (bin_of origin w t0) (bin_of origin w (last rest t0) + 1))
  end.

(** ** Class Plot, post_process.py:118-651 *)

Record frame : Type := Frame { f_index : list Z; f_cols : list (string * list Q) }.

(** what [df[col]] finds *)
Fixpoint col_find (cols : list (string * list Q)) (k : string) : option (list Q) :=
  match cols with [] => None | (n, v) :: cols' => if String.eqb n k then Some v else col_find cols' k end.
Definition get_col (f : frame) (k : string) : res (list Q) :=
  match col_find (f_cols f) k with Some v => Ok v | None => Err KeyError end.

(** post_process.py:214-242 [resample(freq, rule, conversion)], one column *)
Definition plot_resample (F : fm) (w : Z) (r : rule) (conversion : Q) (ix : list Z) (vs : list Q) : list (Z * option Q) :=
  resample F w r ix (map (fun x => fdiv F x conversion) vs).

(** post_process.py:404-436 [load_duration_curve(column)]: the points drawn.
    [sort_values(ascending=False)] *)
Fixpoint insert_desc (x : Q) (l : list Q) : list Q :=
  match l with [] => [x] | y :: l' => if Qle_bool y x then x :: l else y :: insert_desc x l' end.
Definition sort_desc (l : list Q) : list Q := fold_right insert_desc [] l.
Definition load_duration_curve (f : frame) (column : string) : res (list (Z * Q)) :=
  rbind (get_col f column) (fun v => Ok (combine (arange 1 (zlen v + 1)) (sort_desc v))).

(** post_process.py:438-461 [error(base_column, validated_data)].  Division by zero gives an
    infinity or NaN, [fillna(0)] replaces the latter. *)
Inductive xval : Type := Fin (q : Q) | PosInf | NegInf.
Definition error_at (F : fm) (a b : Q) : xval :=
  if Qeq_bool b 0 then
    (if Qeq_bool (fsub F a b) 0 then Fin 0 else if Qle_bool 0 (fsub F a b) then PosInf else NegInf)
  else Fin (fmul F (fdiv F (fsub F a b) b) 100).
Fixpoint map2 {A B C} (f : A -> B -> C) (x : list A) (y : list B) : list C :=
  match x, y with a :: x', b :: y' => f a b :: map2 f x' y' | _, _ => [] end.
Definition plot_error (F : fm) (f : frame) (base validated : string) : res (list xval) :=
  rbind (get_col f base) (fun a => rbind (get_col f validated) (fun b => Ok (map2 (error_at F) a b))).

(** post_process.py:463-480 [peak]: for each column the time steps and values where the value is
    the maximum; [max()] of an empty column is NaN, equal to nothing *)
Definition peak_of_column (ix : list Z) (vs : list Q) : list (Z * Q) :=
  match vs with
  | [] => []
  | x :: vs' => filter (fun tv => Qeq_bool (snd tv) (fold_left qmax vs' x)) (combine ix vs)
  end.
Definition plot_peak (f : frame) : list (string * list (Z * Q)) :=
  map (fun nv => (fst nv, peak_of_column (f_index f) (snd nv))) (f_cols f).

(** post_process.py:499-512, 580-590: [add_column(var)].  Assignment to columns replaces those
    that exist and appends the others. *)
Definition same_index (a b : list Z) : bool := if list_eq_dec Z.eq_dec a b then true else false.
Fixpoint col_set (cols : list (string * list Q)) (k : string) (v : list Q) : list (string * list Q) :=
  match cols with
  | [] => [(k, v)]
  | (n, w) :: cols' => if String.eqb n k then (n, v) :: cols' else (n, w) :: col_set cols' k v
  end.
Definition add_column (f var : frame) : res frame :=
  if same_index (f_index f) (f_index var)
  then Ok (Frame (f_index f) (fold_left (fun cols nv => col_set cols (fst nv) (snd nv)) (f_cols var) (f_cols f)))
  else Err ValueError.

(** post_process.py:514-518 [plot[key]]: one or several columns *)
Definition get_columns (f : frame) (keys : list string) : res frame :=
  rbind (map_res (fun k => rbind (get_col f k) (fun v => Ok (k, v))) keys) (fun cols => Ok (Frame (f_index f) cols)).

(** post_process.py:616-634 [sum()] and [mean()]: row by row, in column order *)
Definition row_at (f : frame) (i : nat) : list Q := map (fun nv => nth i (snd nv) 0%Q) (f_cols f).
Definition plot_sum (F : fm) (f : frame) : frame :=
  Frame (f_index f) [("Sum", map (fun i => fold_left (fadd F) (row_at f i) 0%Q) (seq 0 (List.length (f_index f))))].
Definition plot_mean (F : fm) (f : frame) : res frame :=
  match f_cols f with
  | [] => Err Unmodelled                           (* NaN *)
  | _ => Ok (Frame (f_index f) [("Mean", map (fun i =>
           fdiv F (fold_left (fadd F) (row_at f i) 0%Q) (zq (zlen (f_cols f)))) (seq 0 (List.length (f_index f))))])
  end.

(** post_process.py:137-171 [Plot.from_file(file)]: [read_csv] has no parameter sheet_name; an
    xlsx file is read.  [content] is what the file holds.  *)
Definition ends_with (s suffix : string) : bool :=
  let n := String.length s in let m := String.length suffix in
  (Nat.leb m n && String.eqb (substring (n - m) m s) suffix)%bool.
Definition from_file (file : string) (content : frame) (index : option (list Z)) : res frame :=
  if ends_with file ".csv" then Err TypeError
  else if ends_with file ".xlsx" then
    match index with
    | None => Ok content
    | Some ix => if zlen ix =? zlen (f_index content) then Ok (Frame ix (f_cols content)) else Err ValueError
    end
  else Err ValueError.
