(** * Plots: Plot objects and the DataFrames they refer to, ramp/post_process/post_process.py:118-651

    PostProcess.v has the data each method computes.  Here a program holds DataFrame objects and Plot objects; a Plot refers to
    a DataFrame (attribute [df]).  DataFrame arithmetic, resample, sum, mean, [df[list]], loc, iloc, head and copy give new
    DataFrames (pandas); assignment of columns or of column names changes the DataFrame in place.
    Simplification: what the program writes into a DataFrame is whole columns or names ([PWrite]).  A write of single cells
    (df.iloc[i, j] = x), which older pandas shows through slices of the same data, is not modelled. *)
From Coq Require Import Ascii.
From Verif Require Import Base Tabular PostProcess.
Open Scope string_scope.
Open Scope list_scope.
Open Scope Z_scope.

(** ** Selections *)

(** what may be given for the rows and the columns of [loc] (a slice of times includes both ends) and [iloc] *)
Inductive rows_arg : Type := RAll | RSlice (a b : Z) | RList (ts : list Z) | ROne (t : Z).
Inductive cols_arg : Type := CAll | CList (ks : list string) | COne (k : string).

(** the data frame with the rows whose positions are given *)
Definition take_rows (f : frame) (ps : list nat) : frame :=
  Frame (map (fun i => nth i (f_index f) 0) ps) (map (fun nv => (fst nv, map (fun i => nth i (snd nv) 0%Q) ps)) (f_cols f)).
Definition positions (f : frame) (p : Z -> bool) : list nat :=
  filter (fun i => p (nth i (f_index f) 0)) (seq 0 (List.length (f_index f))).
Fixpoint position_of (ix : list Z) (t : Z) : option nat :=
  match ix with [] => None | x :: ix' => if x =? t then Some O else option_map S (position_of ix' t) end.

(** [df.loc[rows, columns]]: a list of labels must be found (KeyError).  Simplification: the index has no time twice. *)
Definition loc_rows (f : frame) (r : rows_arg) : res frame :=
  match r with
  | RAll => Ok f
  | RSlice a b => Ok (take_rows f (positions f (fun t => (a <=? t) && (t <=? b))))
  | RList ts => rbind (map_res (fun t => match position_of (f_index f) t with Some i => Ok i | None => Err KeyError end) ts) (fun ps => Ok (take_rows f ps))
  | ROne t => match position_of (f_index f) t with Some i => Ok (take_rows f [i]) | None => Err KeyError end
  end.
Definition loc_cols (f : frame) (c : cols_arg) : res frame :=
  match c with CAll => Ok f | CList ks => get_columns f ks | COne k => get_columns f [k] end.

(** post_process.py:520-537 [loc(index, columns)]: one row or one column is a Series (one of each a number); Plot(...) then
    raises ValueError in [_validate_df] (post_process.py:592-594) *)
Definition plot_loc (f : frame) (r : rows_arg) (c : cols_arg) : res frame :=
  rbind (loc_rows f r) (fun g => rbind (loc_cols g c) (fun g =>
  match r, c with ROne _, _ | _, COne _ => Err ValueError | _, _ => Ok g end)).

(** post_process.py:539-554 [iloc(index, columns)] with a slice [a:b] of positions, as Python slices *)
Definition slice_bound (n x : Z) : Z := Z.min n (Z.max 0 (if x <? 0 then x + n else x)).
Definition slice_positions (n a b : Z) : list nat := map Z.to_nat (arange (slice_bound n a) (slice_bound n b)).
Definition plot_iloc (f : frame) (a b : Z) : frame := take_rows f (slice_positions (zlen (f_index f)) a b).
(** post_process.py:556-570 [head(n)]: the first n rows; all but the last -n for a negative n *)
Definition plot_head (f : frame) (n : Z) : frame := plot_iloc f 0 n.

(** ** Lines of a shadow plot, post_process.py:279-348 *)

(** [str.lower()] on ASCII *)
Definition lower_char (c : ascii) : ascii :=
  let n := nat_of_ascii c in if (Nat.leb 65 n && Nat.leb n 90)%bool then ascii_of_nat (n + 32) else c.
Fixpoint lower (s : string) : string := match s with EmptyString => EmptyString | String c s' => String (lower_char c) (lower s') end.

(** post_process.py:641-651 [_check_engine] *)
Definition check_engine (engine : string) : res string :=
  if String.eqb (lower engine) "matplotlib" then Ok "matplotlib"
  else if String.eqb (lower engine) "plotly" then Ok "plotly"
  else Err ValueError.

(** the argument [columns]: a text, or a list of column names (documented; it has no method lower) *)
Inductive shadow_cols : Type := SText (s : string) | SColumns (l : list string).

(** the dark line (its label and values) and the others *)
Definition shadow (F : fm) (f : frame) (main : option string) (columns : shadow_cols) (average : bool) (engine : string)
    : res ((string * list Q) * list (string * list Q)) :=
  rbind (check_engine engine) (fun _ =>
  rbind (match main, average with
         | None, false => Err ValueError
         | Some _, true => Err ValueError
         | Some m, false => rbind (get_col f m) (fun v => Ok (m, v))
         | None, true => rbind (plot_mean F f) (fun g => rbind (get_col g "Mean") (fun v => Ok ("Average", v)))
         end) (fun main_line =>
  match columns with
  | SColumns _ => Err AttributeError
  | SText s =>
      if String.eqb (lower s) "all" then Ok (main_line, f_cols f)
      else rbind (get_col f s) (fun v => Ok (main_line, [(s, v)]))
  end)).

(** ** Programs *)

(** DataFrame objects, and Plot objects as references to them *)
Record store : Type := Store { frames : list frame; plots : list nat }.

Inductive pstmt : Type :=
| PFrame (f : frame)                                  (* df = pd.DataFrame(...) *)
| PWrite (i : nat) (f : frame)                        (* the program changes DataFrame i in place *)
| PPlot (i : nat) (index : option (list Z))           (* Plot(df_i, index) *)
| PSetFrame (p : nat) (i : nat)                       (* plot.DataFrame = df_i *)
| PCopy (p : nat)
| PResample (p : nat) (w : Z) (r : rule) (conversion : Q) (inplace : bool)
| PSum (p : nat) | PMean (p : nat)
| PColumns (p : nat) (ks : list string)               (* plot[ks] *)
| PLoc (p : nat) (r : rows_arg) (c : cols_arg)
| PIloc (p : nat) (a b : Z)
| PHead (p : nat) (n : Z)
| PAddFrame (p : nat) (i : nat)                       (* plot.add_column(df_i) *)
| PAddPlot (p : nat) (q : nat)                        (* plot.add_column(plot_q) *)
| PRename (p : nat) (names : list string).            (* plot.columns = names *)

Definition frame_of (s : store) (p : nat) : option (nat * frame) :=
  match nth_error (plots s) p with
  | Some i => match nth_error (frames s) i with Some f => Some (i, f) | None => None end
  | None => None
  end.

(** a new DataFrame, and a new Plot of it *)
Definition fresh_plot (s : store) (f : frame) : store := Store (frames s ++ [f]) (plots s ++ [List.length (frames s)]).

(** post_process.py:214-242: all columns.  NaN (an empty bin) is not modelled. *)
Definition resample_frame (F : fm) (w : Z) (r : rule) (conversion : Q) (f : frame) : res frame :=
  rbind (map_res (fun nv =>
    rbind (map_res (fun x => match snd x with Some q => Ok q | None => Err Unmodelled end) (plot_resample F w r conversion (f_index f) (snd nv)))
      (fun vs => Ok (fst nv, vs))) (f_cols f)) (fun cols =>
  Ok (Frame (map fst (resample F w r (f_index f) [])) cols)).

(** one statement: the objects after it and the exception.  A name that does not exist: AttributeError. *)
Definition pstep (F : fm) (s : store) (t : pstmt) : store * option exc :=
  let on p (g : nat -> frame -> store * option exc) := match frame_of s p with Some (i, f) => g i f | None => (s, Some AttributeError) end in
  let make (r : res frame) := match r with Ok f => (fresh_plot s f, None) | Err e => (s, Some e) end in
  let put i (r : res frame) := match r with Ok f => (Store (list_set (frames s) i f) (plots s), None) | Err e => (s, Some e) end in
  match t with
  | PFrame f => (Store (frames s ++ [f]) (plots s), None)
  | PWrite i f => match nth_error (frames s) i with Some _ => (Store (list_set (frames s) i f) (plots s), None) | None => (s, Some AttributeError) end
  | PPlot i index =>
      (* 182-186: without index the DataFrame itself, else a copy with the index *)
      match nth_error (frames s) i, index with
      | None, _ => (s, Some AttributeError)
      | Some _, None => (Store (frames s) (plots s ++ [i]), None)
      | Some f, Some ix => make (if zlen ix =? zlen (f_index f) then Ok (Frame ix (f_cols f)) else Err ValueError)
      end
  | PSetFrame p i =>
      match nth_error (plots s) p, nth_error (frames s) i with
      | Some _, Some _ => (Store (frames s) (list_set (plots s) p i), None)
      | _, _ => (s, Some AttributeError)
      end
  | PCopy p => on p (fun _ f => make (Ok f))
  | PResample p w r conv inplace => on p (fun _ f =>
      match resample_frame F w r conv f with
      | Err e => (s, Some e)
      | Ok g => if inplace then (Store (frames s ++ [g]) (list_set (plots s) p (List.length (frames s))), None) else (fresh_plot s g, None)
      end)
  | PSum p => on p (fun _ f => make (Ok (plot_sum F f)))
  | PMean p => on p (fun _ f => make (plot_mean F f))
  | PColumns p ks => on p (fun _ f => make (get_columns f ks))
  | PLoc p r c => on p (fun _ f => make (plot_loc f r c))
  | PIloc p a b => on p (fun _ f => make (Ok (plot_iloc f a b)))
  | PHead p n => on p (fun _ f => make (Ok (plot_head f n)))
  | PAddFrame p j => on p (fun i f =>
      match nth_error (frames s) j with Some g => put i (add_column f g) | None => (s, Some AttributeError) end)
  | PAddPlot p q => on p (fun i f => on q (fun _ g => put i (add_column f g)))
  | PRename p names => on p (fun i f =>
      put i (if zlen names =? zlen (f_cols f) then Ok (Frame (f_index f) (combine names (map snd (f_cols f)))) else Err ValueError))
  end.

(** a program; exceptions may be caught, so it goes on *)
Definition prun (F : fm) (s : store) (ts : list pstmt) : store := fold_left (fun s t => fst (pstep F s t)) ts s.
