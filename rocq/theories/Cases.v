(** * Cases: model of generate_daily_load_profiles with labelled cases, ramp/core/core.py:409-416 *)
From Verif Require Import Base Utils Appliance User UseCase Tabular PostProcess.
Open Scope string_scope.
Open Scope list_scope.
Open Scope Z_scope.

(** core.py:196-201 [datetimeindex]: initialize if there is none yet *)
Definition datetimeindex (F : fm) (w : world) (c : usecase) : prog (usecase * list Z) :=
  match datetimeindex_ c with
  | Some ix => Ret (c, ix)
  | None =>
      r <- initialize F w c None None false ;;
      match snd r, datetimeindex_ (fst r) with
      | Some e, _ => Raise e
      | None, Some ix => Ret (fst r, ix)
      | None, None => Raise TypeError             (* pd.Series(index=None): not reached *)
      end
  end.

(** core.py:410-415: the loop over the cases.  [results] is a dictionary: a label given twice
    keeps its position and gets the later profile ([col_set]).  A case is given by its text
    (f"case {case}").  [pd.Series(index, data)] raises ValueError when the lengths differ.
    Simplification: sequential mode. *)
Fixpoint run_cases (depth : nat) (F : fm) (w : world) (c : usecase) (arg : option (list Z))
    (cases : list string) (results : list (string * list Q)) : prog (usecase * list (string * list Q)) :=
  match cases with
  | [] => Ret (c, results)
  | case :: cases' =>
      r <- generate_sequential depth F w c arg ;;
      ci <- datetimeindex F w (fst r) ;;
      let profiles := flatten (snd r) in
      if negb (zlen (snd ci) =? zlen profiles) then Raise ValueError
      else run_cases depth F w (fst ci) arg cases' (col_set results ("case " ++ case) profiles)
  end.

(** core.py:409-416 [generate_daily_load_profiles(days, cases=cases)]: one column per label; pd.concat of nothing
    raises ValueError.  All columns have the index of the use case. *)
Definition generate_cases (depth : nat) (F : fm) (w : world) (c : usecase) (arg : option (list Z))
    (cases : list string) : prog (usecase * frame) :=
  r <- run_cases depth F w c arg cases [] ;;
  match snd r with
  | [] => Raise ValueError
  | cols => ci <- datetimeindex F w (fst r) ;; Ret (fst ci, Frame (snd ci) cols)
  end.
