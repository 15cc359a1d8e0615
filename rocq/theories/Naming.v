(** * Naming: what running a converted file does to the appliances, and the file that is saved

    ramp/ramp_convert_old_input_files.py:31-38, 97-102.  Convert.v models the text that is appended to the old input file; here is
    what that text does when the file is imported, and what is saved then.  The old input file itself is any program that leaves
    users and appliances behind (Heap.v) and variables bound to them.  Simplification: variables are never deleted ([del]). *)
From Verif Require Import Base Utils Appliance User UseCase Tabular Heap.
Open Scope list_scope.
Open Scope Z_scope.

(** what a module variable is bound to: an Appliance object, a User object, anything else (modules, numbers, lists ...) *)
Inductive value : Type := VApp (r : nat) | VUser (k : nat) | VOther.

(** [locals()] of a module: an ordered dict.  Binding a new name appends it, binding a known one keeps its place. *)
Definition namespace : Type := list (string * value).
Fixpoint assign (ns : namespace) (n : string) (v : value) : namespace :=
  match ns with
  | [] => [(n, v)]
  | (m, w) :: ns' => if String.eqb m n then (m, v) :: ns' else (m, w) :: assign ns' n v
  end.
(** the namespace after a sequence of assignments [n = v], in the order in which they were executed *)
Definition namespace_of (script : list (string * value)) : namespace :=
  fold_left (fun ns nv => assign ns (fst nv) (snd nv)) script [].

(** line 35: [local_var_names = [(i, a) for i, a in locals().items() if isinstance(a, Appliance)]] *)
Definition local_var_names (ns : namespace) : list (string * nat) :=
  flat_map (fun nv => match snd nv with VApp r => [(fst nv, r)] | _ => [] end) ns.

(** [a.name = i] *)
Definition rename (h : heap) (i : string) (r : nat) : heap :=
  match nth_error (h_apps h) r with Some x => put_happ h r (set_name (obj x) i) | None => h end.
(** lines 36-37: [for i, a in local_var_names: a.name = i] *)
Definition keep_names (h : heap) (ns : namespace) : heap :=
  fold_left (fun h ia => rename h (fst ia) (snd ia)) (local_var_names ns) h.

(** lines 97-102: the module has run ([h], [script]), then [UseCase(users=file_module.User_list).save(...)]: the rows of the file.
    [keep] is false if the file has no naming code (keep_names=False and none there before). *)
Definition converted (F : fm) (keep : bool) (h : heap) (script : list (string * value)) (user_list : item) : res table :=
  let h := if keep then keep_names h (namespace_of script) else h in
  let '(h, ks, e) := hadd_user 0 h [] user_list in
  match e with Some e => Err e | None => hsave F h ks end.

(** the xlsx file loaded into a new use case, core.py:593-634 *)
Definition convert_and_load (F : fm) (strict : bool) (keep : bool) (h : heap) (script : list (string * value)) (user_list : item) : res (list user) :=
  rbind (converted F keep h script user_list) (fun t => load_table F strict 366 (excel t)).
