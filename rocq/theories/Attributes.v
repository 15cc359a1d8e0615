(** * Attributes: the attribute names of ramp/core/constants.py and attribute access *)
From Verif Require Import Base Utils Appliance.
Open Scope string_scope.
Open Scope list_scope.
Open Scope Z_scope.

(** constants.py:77-118 *)
Definition APPLIANCE_ATTRIBUTES : list string :=
  ["name"; "number"; "power"; "num_windows"; "func_time"; "time_fraction_random_variability";
   "func_cycle"; "fixed"; "fixed_cycle"; "continuous_duty_cycle"; "occasional_use"; "flat";
   "thermal_p_var"; "pref_index"; "wd_we_type";
   "p_11"; "t_11"; "cw11"; "p_12"; "t_12"; "cw12"; "r_c1";
   "p_21"; "t_21"; "cw21"; "p_22"; "t_22"; "cw22"; "r_c2";
   "p_31"; "t_31"; "cw31"; "p_32"; "t_32"; "cw32"; "r_c3";
   "window_1"; "window_2"; "window_3"; "random_var_w"].

(** constants.py:120-138 *)
Definition APPLIANCE_ARGS : list string :=
  ["number"; "power"; "num_windows"; "func_time"; "time_fraction_random_variability";
   "func_cycle"; "fixed"; "fixed_cycle"; "continuous_duty_cycle"; "occasional_use"; "flat";
   "thermal_p_var"; "pref_index"; "wd_we_type"; "name"].

(** constants.py:141-146 *)
Definition WINDOWS_PARAMETERS : list string := ["window_1"; "window_2"; "window_3"; "random_var_w"].
Definition DUTY_CYCLE_PARAMETERS : list (list string) :=
  [["p_11"; "t_11"; "cw11"; "p_12"; "t_12"; "cw12"; "r_c1"];
   ["p_21"; "t_21"; "cw21"; "p_22"; "t_22"; "cw22"; "r_c2"];
   ["p_31"; "t_31"; "cw31"; "p_32"; "t_32"; "cw32"; "r_c3"]].

(** Python values of attributes *)
Inductive value : Type :=
| VStr (s : string)
| VInt (z : Z)
| VFloat (q : Q)
| VArr (l : list Q)          (* numpy array of floats *)
| VWin (w : Z * Z).          (* array of two integers *)

(** [getattr(appliance, s)]; [None] when there is no such attribute *)
Definition getattr (a : appliance) (s : string) : option value :=
  let p := par a in
  let '(c1, c2, c3) := (cyc1 a, cyc2 a, cyc3 a) in
  if String.eqb s "name" then Some (VStr (name p))
  else if String.eqb s "number" then Some (VInt (number p))
  else if String.eqb s "power" then Some (VArr (power a))
  else if String.eqb s "num_windows" then Some (VInt (num_windows p))
  else if String.eqb s "func_time" then Some (VInt (func_time p))
  else if String.eqb s "time_fraction_random_variability" then Some (VFloat (time_var p))
  else if String.eqb s "func_cycle" then Some (VInt (func_cycle p))
  else if String.eqb s "fixed" then Some (VStr (fixed p))
  else if String.eqb s "fixed_cycle" then Some (VInt (fixed_cycle p))
  else if String.eqb s "continuous_duty_cycle" then Some (VInt (continuous_duty_cycle p))
  else if String.eqb s "occasional_use" then Some (VFloat (occasional_use p))
  else if String.eqb s "flat" then Some (VStr (flat p))
  else if String.eqb s "thermal_p_var" then Some (VFloat (thermal_p_var p))
  else if String.eqb s "pref_index" then Some (VInt (pref_index p))
  else if String.eqb s "wd_we_type" then Some (VInt (wd_we_type p))
  else if String.eqb s "p_11" then Some (VFloat (cp1 c1))
  else if String.eqb s "t_11" then Some (VInt (ct1 c1))
  else if String.eqb s "cw11" then Some (VWin (cwa c1))
  else if String.eqb s "p_12" then Some (VFloat (cp2 c1))
  else if String.eqb s "t_12" then Some (VInt (ct2 c1))
  else if String.eqb s "cw12" then Some (VWin (cwb c1))
  else if String.eqb s "r_c1" then Some (VFloat (cr c1))
  else if String.eqb s "p_21" then Some (VFloat (cp1 c2))
  else if String.eqb s "t_21" then Some (VInt (ct1 c2))
  else if String.eqb s "cw21" then Some (VWin (cwa c2))
  else if String.eqb s "p_22" then Some (VFloat (cp2 c2))
  else if String.eqb s "t_22" then Some (VInt (ct2 c2))
  else if String.eqb s "cw22" then Some (VWin (cwb c2))
  else if String.eqb s "r_c2" then Some (VFloat (cr c2))
  else if String.eqb s "p_31" then Some (VFloat (cp1 c3))
  else if String.eqb s "t_31" then Some (VInt (ct1 c3))
  else if String.eqb s "cw31" then Some (VWin (cwa c3))
  else if String.eqb s "p_32" then Some (VFloat (cp2 c3))
  else if String.eqb s "t_32" then Some (VInt (ct2 c3))
  else if String.eqb s "cw32" then Some (VWin (cwb c3))
  else if String.eqb s "r_c3" then Some (VFloat (cr c3))
  else if String.eqb s "window_1" then Some (VWin (window_1 (win a)))
  else if String.eqb s "window_2" then Some (VWin (window_2 (win a)))
  else if String.eqb s "window_3" then Some (VWin (window_3 (win a)))
  else if String.eqb s "random_var_w" then Some (VFloat (random_var_w (win a)))
  else None.
