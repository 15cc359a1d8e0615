(** * Declare: the calls that declare the windows and duty cycles of an appliance, in any order *)
From Verif Require Import Base Utils Appliance User.
Open Scope Z_scope.

(** one call on an appliance: windows(...), specific_cycle(i, ...) / specific_cycle_i(...), cycle_behaviour(...) *)
Inductive decl : Type :=
| DWindows (w1 w2 : option (Z * Z)) (rvw : Q) (w3 : option (Z * Z))
| DCycle (i : Z) (args : cycle_args)
| DBehaviour (w11 w12 w21 w22 w31 w32 : option (Z * Z)).

(** core.py:1600-1622 [specific_cycle(cycle_num, **kwargs)]: another number than 1, 2, 3 has no effect *)
Definition specific_cycle_num (a : appliance) (i : Z) (args : cycle_args) : appliance * option exc :=
  if i =? 1 then let '(c, e) := apply_cycle_args (cyc1 a) args in (set_cyc1 a c, e)
  else if i =? 2 then let '(c, e) := apply_cycle_args (cyc2 a) args in (set_cyc2 a c, e)
  else if i =? 3 then let '(c, e) := apply_cycle_args (cyc3 a) args in (set_cyc3 a c, e)
  else (a, None).

(** core.py:1339-1448, 1600-1622, 1752-1784: one call.  The registration with the user is left out (see User.v). *)
Definition declare1 (F : fm) (a : appliance) (d : decl) : appliance * option exc :=
  match d with
  | DWindows w1 w2 rvw w3 => windows F a w1 w2 rvw w3
  | DCycle i args => specific_cycle_num a i args
  | DBehaviour w11 w12 w21 w22 w31 w32 => (cycle_behaviour a w11 w12 w21 w22 w31 w32, None)
  end.

(** a program that makes these calls one after the other and ends at the first exception *)
Fixpoint declare (F : fm) (a : appliance) (ds : list decl) : appliance * option exc :=
  match ds with
  | [] => (a, None)
  | d :: ds' => match declare1 F a d with (a', None) => declare F a' ds' | r => r end
  end.
