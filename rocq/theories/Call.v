(** * Call: the ways to call User.add_appliance, ramp/core/core.py:694-707, 760-797, and the legacy User.Appliance,
    core.py:926-970

    Arguments are those of Tabular.v ([argv]: a cell value or a window) or existing appliances (references to
    the store).  A dict is a list of pairs with distinct keys; an appliance given as the value of a parameter is not
    modelled ([Unmodelled]). *)
From Verif Require Import Base Utils Appliance Attributes User Tabular.
From Coq Require Import String.
Open Scope string_scope.
Open Scope list_scope.
Open Scope Z_scope.

(** a positional argument: a value, or an Appliance instance *)
Inductive posarg : Type := PVal (v : argv) | PApp (r : nat).

(** [kwargs[k] = v] *)
Fixpoint set_kw (kw : kwargs) (k : string) (v : argv) : kwargs :=
  match kw with
  | [] => [(k, v)]
  | (k', x) :: kw' => if String.eqb k k' then (k', v) :: kw' else (k', x) :: set_kw kw' k v
  end.

(** core.py:768-770 [for a_name, a_val in zip(APPLIANCE_ARGS, args): kwargs[a_name] = a_val] *)
Fixpoint zip_args (names : list string) (args : list posarg) (kw : kwargs) : res kwargs :=
  match names, args with
  | n :: names', PVal v :: args' => zip_args names' args' (set_kw kw n v)
  | _ :: _, PApp _ :: _ => Err Unmodelled
  | _, _ => Ok kw
  end.

(** the keywords add_appliance takes out of kwargs (core.py:772-784) and those of Appliance.__init__ (core.py:1060-1077);
    any other: TypeError when the appliance is created (core.py:786) *)
Definition known_keyword (k : string) : bool :=
  existsb (String.eqb k) (APPLIANCE_ARGS ++ WINDOWS_PARAMETERS ++ List.concat DUTY_CYCLE_PARAMETERS).

(** core.py:772-797: as [add_kwargs] of Tabular.v, with the state after an exception *)
Definition add_keywords (F : fm) (strict : bool) (num_days : Z) (g : registry) (kw : kwargs) : registry * option exc :=
  match
    rbind (params_of kw) (fun p =>
    rbind (arg as_power (PConst 0) "power" kw) (fun pw =>
    rbind (window_args_of kw) (fun wa =>
    rbind (cycle_args_of kw "p_11" "t_11" "cw11" "p_12" "t_12" "cw12" "r_c1") (fun c1 =>
    rbind (cycle_args_of kw "p_21" "t_21" "cw21" "p_22" "t_22" "cw22" "r_c2") (fun c2 =>
    rbind (cycle_args_of kw "p_31" "t_31" "cw31" "p_32" "t_32" "cw32" "r_c3") (fun c3 =>
    Ok (add_appliance_kw F strict g p pw num_days wa c1 c2 c3)))))))
  with Ok r => r | Err e => (g, Some e) end.

(** core.py:694-707 [_add_appliance_instance(appliances)]: the appliances before a wrong object stay registered *)
Fixpoint add_instances (strict : bool) (g : registry) (args : list posarg) : registry * option exc :=
  match args with
  | [] => (g, None)
  | PVal _ :: _ => (g, Some TypeError)
  | PApp r :: args' =>
      match register strict g r with
      | Ok g' => add_instances strict g' args'
      | Err e => (g, Some e)
      end
  end.

(** core.py:709-797 [user.add_appliance( *args, **kwargs)] *)
Definition add_appliance_call (F : fm) (strict : bool) (num_days : Z) (g : registry) (args : list posarg) (kw : kwargs)
    : registry * option exc :=
  match args with
  | PApp _ :: _ => add_instances strict g args
  | _ =>
      match zip_args APPLIANCE_ARGS args kw with
      | Err e => (g, Some e)
      | Ok kw =>
          if forallb (fun x => known_keyword (fst x)) kw then add_keywords F strict num_days g kw
          else (g, Some TypeError)
      end
  end.

(** core.py:926-942, the parameters of User.Appliance with their default values *)
Definition LEGACY_ARGS : list (string * cell) :=
  [("number", CNum 1); ("power", CNum 0); ("num_windows", CNum 1); ("func_time", CNum 0);
   ("time_fraction_random_variability", CNum 0); ("func_cycle", CNum 1); ("fixed", CText "no"); ("fixed_cycle", CNum 0);
   ("occasional_use", CNum 1); ("flat", CText "no"); ("thermal_P_var", CNum 0); ("pref_index", CNum 0);
   ("wd_we_type", CNum 2); ("name", CText "")].

(** Python's binding of the arguments of that function: positional ones by order, TypeError for too many, for one given
    twice and for an unknown keyword *)
Fixpoint bind_legacy (params : list (string * cell)) (args : list posarg) (kw : kwargs) : res (list argv) :=
  match params, args with
  | [], [] => Ok []
  | [], _ :: _ => Err TypeError
  | (k, d) :: params', a :: args' =>
      match assoc k kw, a with
      | Some _, _ => Err TypeError
      | None, PApp _ => Err Unmodelled
      | None, PVal v => rbind (bind_legacy params' args' kw) (fun l => Ok (v :: l))
      end
  | (k, d) :: params', [] =>
      rbind (bind_legacy params' [] kw) (fun l => Ok (match assoc k kw with Some v => v | None => ACell d end :: l))
  end.
Definition legacy_keyword (k : string) : bool := existsb (fun x => String.eqb k (fst x)) LEGACY_ARGS.

(** core.py:955-970: the call of add_appliance; thermal_P_var is passed on as thermal_p_var *)
Definition legacy_names : list string :=
  ["number"; "power"; "num_windows"; "func_time"; "time_fraction_random_variability"; "func_cycle"; "fixed"; "fixed_cycle";
   "occasional_use"; "flat"; "thermal_p_var"; "pref_index"; "wd_we_type"; "name"].
Definition legacy_appliance (F : fm) (strict : bool) (num_days : Z) (g : registry) (args : list posarg) (kw : kwargs)
    : registry * option exc :=
  if forallb (fun x => legacy_keyword (fst x)) kw then
    match bind_legacy LEGACY_ARGS args kw with
    | Err e => (g, Some e)
    | Ok vs => add_appliance_call F strict num_days g [] (combine legacy_names vs)
    end
  else (g, Some TypeError).
