(** * Script: a program that declares the appliances of one user, calls in any order *)
From Verif Require Import Base Utils Appliance User Declare.
Open Scope Z_scope.

(** one statement of such a program: [x = user.add_appliance(...)] (x is the k-th variable, k = 0, 1, ... in order of the
    calls), or a declaration call on the k-th variable *)
Inductive call : Type :=
| CAdd (p : params) (pw : power_arg) (wa : window_args) (c1 c2 c3 : cycle_args)
| COn (k : nat) (d : decl).

(** no window arguments, no arguments for a duty cycle *)
Definition no_windows : window_args := WindowArgs None None None None.
Definition no_cycle : cycle_args := CycleArgs None None None None None None None.

(** core.py:1752-1784 [cycle_behaviour] on object [r]; core.py:1600-1622 with an unknown number does nothing *)
Definition decl_on (F : fm) (strict : bool) (g : registry) (r : nat) (d : decl) : registry * option exc :=
  match d with
  | DWindows w1 w2 rvw w3 => windows_on F strict g r w1 w2 rvw w3
  | DCycle i args => if (i =? 1) || (i =? 2) || (i =? 3) then cycle_on g r i args else (g, None)
  | DBehaviour w11 w12 w21 w22 w31 w32 => (update_object g r (fun a => cycle_behaviour a w11 w12 w21 w22 w31 w32), None)
  end.

(** core.py:694-797 and 1339-1784: one statement.  [user_num_days] is 366 before the use case is initialised
    (core.py:676-685).  A call on a variable that does not exist yet: NameError, not modelled further (TypeError). *)
Definition call_step (F : fm) (strict : bool) (nd : Z) (g : registry) (c : call) : registry * option exc :=
  match c with
  | CAdd p pw wa c1 c2 c3 => add_appliance_kw F strict g p pw nd wa c1 c2 c3
  | COn k d => match deref g k with None => (g, Some TypeError) | Some _ => decl_on F strict g k d end
  end.

(** the program: ends at the first exception *)
Fixpoint run_script (F : fm) (strict : bool) (nd : Z) (g : registry) (cs : list call) : registry * option exc :=
  match cs with
  | [] => (g, None)
  | c :: cs' => match call_step F strict nd g c with (g', None) => run_script F strict nd g' cs' | r => r end
  end.
