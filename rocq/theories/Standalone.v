(** * Standalone: profiles of a user generated without a use case, core.py:972-1055 *)
From Verif Require Import Base Utils Appliance User UseCase.
Open Scope list_scope.
Open Scope Z_scope.

(** core.py:668, 172: [user.usecase] is None, or a use case whose peak_time_range is None or an array *)
Inductive binding : Type := Unbound | Bound (peak : option (list Z)).

(** core.py:994-1002: [peak_time_range] is given, that of the use case, or that of a default use case created for the user
    alone: [UseCase(users=[self])] (peak_enlarge = 0.15, no dates, no seed) binds the user to it, then its peak time range is
    drawn and stored.  If drawing it raises, the user stays bound to a use case without one. *)
Definition find_peak (F : fm) (b : binding) (u : user) (arg : option (list Z)) : prog (binding * res (option (list Z))) :=
  match arg with
  | Some p => Ret (b, Ok (Some p))
  | None =>
      match b with
      | Bound p => Ret (b, Ok p)
      | Unbound =>
          r <- calc_peak_time_range F (blank None None false (flit F (15 # 100)) None [u]) ;;
          Ret (match r with Ok p => (Bound (Some p), Ok (Some p)) | Err e => (Bound None, Err e) end)
      end
  end.

(** core.py:972-1020 [generate_single_load_profile].  A peak_time_range that is still None is passed as []: an event then raises
    IndexError in the model, TypeError in the code. *)
Definition generate_single_bound (depth : nat) (F : fm) (b : binding) (u : user) (prof_i : Z) (arg : option (list Z)) (day_type : Z)
    : prog (binding * res (user * list Q)) :=
  r <- find_peak F b u arg ;;
  match snd r with
  | Err e => Ret (fst r, Err e)
  | Ok p =>
      x <- generate_single_load_profile depth F u prof_i (match p with Some p => p | None => [] end) day_type ;;
      Ret (fst r, Ok x)
  end.

(** core.py:1048-1055: every member asks for the peak time range again *)
Fixpoint members_bound (n : nat) (depth : nat) (F : fm) (b : binding) (u : user) (prof_i : Z) (arg : option (list Z)) (day_type : Z)
    : prog (binding * res user) :=
  match n with
  | O => Ret (b, Ok u)
  | S n' =>
      r <- generate_single_bound depth F b u prof_i arg day_type ;;
      match snd r with
      | Err e => Ret (fst r, Err e)
      | Ok x => members_bound n' depth F (fst r) (set_load (fst x) (vadd F (load (fst x)) (snd x))) prof_i arg day_type
      end
  end.

(** core.py:1022-1055 [generate_aggregated_load_profile] *)
Definition generate_aggregated_bound (depth : nat) (F : fm) (b : binding) (u : user) (prof_i : Z) (arg : option (list Z)) (day_type : Z)
    : prog (binding * res user) :=
  members_bound (Z.to_nat (num_users u)) depth F b (set_load u (zeros day_minutes)) prof_i arg day_type.

(** a script that calls user.generate_aggregated_load_profile(prof_i=i, day_type=dt) for some days, without a peak time range *)
Fixpoint aggregated_days (depth : nat) (F : fm) (b : binding) (u : user) (l : list (Z * Z)) : prog (binding * res (user * list (list Q))) :=
  match l with
  | [] => Ret (b, Ok (u, []))
  | (i, dt) :: l' =>
      r <- generate_aggregated_bound depth F b u i None dt ;;
      match snd r with
      | Err e => Ret (fst r, Err e)
      | Ok u' =>
          x <- aggregated_days depth F (fst r) u' l' ;;
          Ret (fst x, match snd x with Ok y => Ok (fst y, load u' :: snd y) | Err e => Err e end)
      end
  end.
