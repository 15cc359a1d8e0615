(** * User: model of class User, ramp/core/core.py:648-1055, and of Appliance equality

    A user holds its appliances by value; registration (which depends on object identity) is
    modelled on a small object store, section "Registration". *)
From Verif Require Import Base Utils Appliance Attributes.
From Coq Require DecimalString.
Open Scope string_scope.
Open Scope list_scope.
Open Scope Z_scope.

(** ** Appliance.__eq__, core.py:1307-1337 *)

(** [p == q] on numpy arrays followed by [all()]: element-wise on equal lengths, a length 1
    array is broadcast, other lengths: ValueError in numpy >= 1.25 ([strict] = true), the
    scalar False before (setup.py:20 allows both). *)
Definition power_eq (strict : bool) (p q : list Q) : res bool :=
  if zlen p =? zlen q then Ok (forallb (fun xy => Qeq_bool (fst xy) (snd xy)) (combine p q))
  else match p, q with
       | [x], _ => Ok (forallb (fun y => Qeq_bool x y) q)
       | _, [y] => Ok (forallb (fun x => Qeq_bool x y) p)
       | _, _ => if strict then Err ValueError else Ok false
       end.

(** Python [==] on two attribute values followed by [all()].  Attributes of one name have the
    same kind in the model, so the mixed cases (False) do not occur. *)
Definition value_eq (strict : bool) (v w : value) : res bool :=
  match v, w with
  | VStr s, VStr s' => Ok (String.eqb s s')
  | VInt z, VInt z' => Ok (z =? z')
  | VFloat q, VFloat q' => Ok (Qeq_bool q q')
  | VArr l, VArr l' => power_eq strict l l'
  | VWin x, VWin y => Ok ((fst x =? fst y) && (snd x =? snd y))
  | _, _ => Ok false
  end.

(** core.py:1317-1336: the loop over APPLIANCE_ATTRIBUTES; [answer] is the [all()] of the array
    built so far.  No short cut: an exception of a comparison is raised whatever the other
    attributes are. *)
Fixpoint eq_loop (strict : bool) (a b : appliance) (attrs : list string) (answer : bool) : res bool :=
  match attrs with
  | [] => Ok answer
  | s :: rest =>
      match getattr a s, getattr b s with
      | Some v, Some w => rbind (value_eq strict v w) (fun e => eq_loop strict a b rest (answer && e))
      | None, None => eq_loop strict a b rest (answer && true)
      | _, _ => eq_loop strict a b rest (answer && false)
      end
  end.

(** core.py:1307-1337 *)
Definition app_eq (strict : bool) (a b : appliance) : res bool := eq_loop strict a b APPLIANCE_ATTRIBUTES true.

(** ** The user, core.py:649-674 *)

(** [load] is [None] before the first generation; modelled by [] *)
Record user : Type := User {
  user_name : string;
  num_users : Z;
  user_preference : Z;
  rand_daily_pref : Z;
  load : list Q;
  app_list : list appliance
}.

Definition new_user (n : string) (num pref : Z) : user := User n num pref 0 [] [].

(** core.py:866-905 [User.__eq__].  The results of [np.append] on lines 876 and 881 are
    discarded, so [answer.all()] of line 882 is the [all()] of an empty array: [np.True_].
    [np.True_ is True] is False (a numpy boolean is not the object True), so lines 884-904, the
    comparison of the appliances, are skipped and np.True_ is returned. *)
Fixpoint apps_eq (strict : bool) (l l' : list appliance) : res bool :=
  match l, l' with
  | a :: t, b :: t' => rbind (app_eq strict a b) (fun e => rbind (apps_eq strict t t') (fun r => Ok (e && r)))
  | _, _ => Ok true
  end.
Definition np_append (answer : list bool) (x : bool) : list bool := answer ++ [x].
Definition user_eq (strict : bool) (u v : user) : res bool :=
  let answer : list bool := [] in
  let _ := np_append answer (String.eqb (user_name u) (user_name v)) in
  let _ := np_append answer (num_users u =? num_users v) in
  let _ := np_append answer (user_preference u =? user_preference v) in
  let answer := forallb (fun b => b) answer in
  let answer_is_True := false in
  if answer_is_True then
    if zlen (app_list u) =? zlen (app_list v) then apps_eq strict (app_list u) (app_list v)
    else Ok false
  else Ok answer.

(** ** Registration, core.py:694-797 *)

(** Appliance objects live in a store; the list of a user holds references to it. *)
Record registry : Type := Registry {
  objects : list appliance;
  refs : list nat               (* App_list *)
}.

Definition deref (g : registry) (r : nat) : option appliance := nth_error (objects g) r.
Definition registered (g : registry) : list appliance :=
  flat_map (fun r => match deref g r with Some a => [a] | None => [] end) (refs g).

Definition set_name (a : appliance) (n : string) : appliance :=
  let p := par a in
  set_par a (Params n (number p) (num_windows p) (func_time p) (time_var p) (func_cycle p)
    (fixed p) (fixed_cycle p) (continuous_duty_cycle p) (occasional_use p) (flat p)
    (thermal_p_var p) (pref_index p) (wd_we_type p)).

(** decimal writing of a natural number, as in an f-string *)
Definition py_str_nat (n : nat) : string := DecimalString.NilEmpty.string_of_uint (Nat.to_uint n).

(** [app in App_list]: first element that is the same object or equal *)
Fixpoint member (strict : bool) (g : registry) (a : appliance) (self : nat) (rs : list nat) : res bool :=
  match rs with
  | [] => Ok false
  | r :: rs' =>
      if Nat.eqb r self then Ok true
      else match deref g r with
           | None => Err IndexError               (* dangling reference, does not occur *)
           | Some b => rbind (app_eq strict b a) (fun eq => if eq then Ok true else member strict g a self rs')
           end
  end.

(** core.py:694-705 [_add_appliance_instance] for one instance (object [r] of the store) *)
Definition register (strict : bool) (g : registry) (r : nat) : res registry :=
  match deref g r with
  | None => Err TypeError
  | Some a =>
      rbind (member strict g a r (refs g)) (fun found =>
      if found then Ok g
      else
        let a' := if String.eqb (name (par a)) ""
                  then set_name a ("appliance_" ++ py_str_nat (S (List.length (refs g)))) else a in
        Ok (Registry (list_set (objects g) r a') (refs g ++ [r])))
  end.

(** core.py:697: the loop over the arguments of add_appliance(app1, app2, ...) *)
Fixpoint register_all (strict : bool) (g : registry) (rs : list nat) : res registry :=
  match rs with
  | [] => Ok g
  | r :: rs' => rbind (register strict g r) (fun g' => register_all strict g' rs')
  end.

Definition update_object (g : registry) (r : nat) (f : appliance -> appliance) : registry :=
  match deref g r with
  | None => g
  | Some a => Registry (list_set (objects g) r (f a)) (refs g)
  end.

(** Appliance.windows called on object [r]: validation (Appliance.windows), then
    [self.user._add_appliance_instance(self)] (core.py:1443-1444) *before* the cycle windows of
    lines 1446-1448 are set. *)
Definition windows_on (F : fm) (strict : bool) (g : registry) (r : nat)
    (w1 w2 : option (Z * Z)) (rvw : Q) (w3 : option (Z * Z)) : registry * option exc :=
  match deref g r with
  | None => (g, Some TypeError)
  | Some a =>
      match windows F a w1 w2 rvw w3 with
      | (a', Some e) => (update_object g r (fun _ => a'), Some e)
      | (a', None) =>
          let g1 := update_object g r (fun _ => set_cyc1 a' (cyc1 a)) in
          match register strict g1 r with
          | Err e => (g1, Some e)
          | Ok g2 => (update_object g2 r (fun x => set_cyc1 x (cyc1 a')), None)
          end
      end
  end.

(** the window arguments given to add_appliance (none given: windows() is not called) *)
Record window_args : Type := WindowArgs {
  wa1 : option (Z * Z); wa2 : option (Z * Z); wa3 : option (Z * Z); wa_rvw : option Q
}.
Definition any_window_arg (w : window_args) : bool :=
  match wa1 w, wa2 w, wa3 w, wa_rvw w with None, None, None, None => false | _, _, _, _ => true end.

(** duty cycle arguments of one cycle: p1, t1, p2, t2, r with their default 0, and windows *)
Record cycle_args : Type := CycleArgs {
  ca_p1 : option Q; ca_t1 : option Z; ca_w1 : option (Z * Z);
  ca_p2 : option Q; ca_t2 : option Z; ca_w2 : option (Z * Z); ca_r : option Q
}.
Definition any_cycle_arg (c : cycle_args) : bool :=
  match ca_p1 c, ca_t1 c, ca_w1 c, ca_p2 c, ca_t2 c, ca_w2 c, ca_r c with
  | None, None, None, None, None, None, None => false
  | _, _, _, _, _, _, _ => true
  end.
Definition apply_cycle_args (old : cycle) (c : cycle_args) : cycle * option exc :=
  let dq o := match o with Some x => x | None => 0%Q end in
  let dz o := match o with Some x => x | None => 0 end in
  specific_cycle old (dq (ca_p1 c)) (dz (ca_t1 c)) (dq (ca_p2 c)) (dz (ca_t2 c)) (dq (ca_r c))
    (ca_w1 c) (ca_w2 c).

(** core.py:1600-1622 [specific_cycle(i, ...)] on object [r] *)
Definition cycle_on (g : registry) (r : nat) (i : Z) (c : cycle_args) : registry * option exc :=
  match deref g r with
  | None => (g, Some TypeError)
  | Some a =>
      let old := if i =? 1 then cyc1 a else if i =? 2 then cyc2 a else cyc3 a in
      let '(c', e) := apply_cycle_args old c in
      let a' := if i =? 1 then set_cyc1 a c' else if i =? 2 then set_cyc2 a c' else set_cyc3 a c' in
      (update_object g r (fun _ => a'), e)
  end.

(** core.py:760-797 [add_appliance] with keyword arguments: create, windows(), duty cycles 1..3 (those with
    at least one argument), register *)
Definition add_appliance_kw (F : fm) (strict : bool) (g : registry) (p : params) (pw : power_arg)
    (user_num_days : Z) (wa : window_args) (c1 c2 c3 : cycle_args) : registry * option exc :=
  match new_appliance p pw user_num_days with
  | Err e => (g, Some e)
  | Ok a =>
      let r := List.length (objects g) in
      let g := Registry (objects g ++ [a]) (refs g) in
      let '(g, e) :=
        if any_window_arg wa
        then windows_on F strict g r (wa1 wa) (wa2 wa) (match wa_rvw wa with Some x => x | None => 0%Q end) (wa3 wa)
        else (g, None) in
      match e with Some _ => (g, e) | None =>
      let '(g, e) := if any_cycle_arg c1 then cycle_on g r 1 c1 else (g, None) in
      match e with Some _ => (g, e) | None =>
      let '(g, e) := if any_cycle_arg c2 then cycle_on g r 2 c2 else (g, None) in
      match e with Some _ => (g, e) | None =>
      let '(g, e) := if any_cycle_arg c3 then cycle_on g r 3 c3 else (g, None) in
      match e with Some _ => (g, e) | None =>
      match register strict g r with
      | Ok g' => (g', None)
      | Err e => (g, Some e)
      end end end end end
  end.

(** ** Theoretical maximum, core.py:799-816 *)

(** [np.sum(..., axis=0)] adds the stacked rows in order *)
Definition user_maximum_profile (F : fm) (u : user) : list Q :=
  map (fun x => fmul F x (zq (num_users u)))
    (fold_left (fun acc a => vadd F acc (app_maximum_profile F a)) (app_list u) (zeros day_minutes)).

(** ** Generation *)

Definition set_apps (u : user) (l : list appliance) : user :=
  User (user_name u) (num_users u) (user_preference u) (rand_daily_pref u) (load u) l.
Definition set_pref (u : user) (p : Z) : user :=
  User (user_name u) (num_users u) (user_preference u) p (load u) (app_list u).
Definition set_load (u : user) (x : list Q) : user :=
  User (user_name u) (num_users u) (user_preference u) (rand_daily_pref u) x (app_list u).

(** core.py:1010-1020: the loop over the appliances; [power=App.power[prof_i]] *)
Fixpoint generate_apps (depth : nat) (F : fm) (pref prof_i : Z) (peak : list Z) (day_type : Z)
    (apps : list appliance) (acc : list Q) : prog (list appliance * list Q) :=
  match apps with
  | [] => Ret ([], acc)
  | a :: rest =>
      pw <- lift (py_index (power a) prof_i) ;;
      a' <- generate_load_profile depth F a pref prof_i peak day_type pw ;;
      r <- generate_apps depth F pref prof_i peak day_type rest (vadd F acc (daily_use (st a'))) ;;
      Ret (a' :: fst r, snd r)
  end.

(** core.py:1006-1008: the preference of the day *)
Definition draw_pref (u : user) : prog Z :=
  if user_preference u =? 0 then Ret 0 else py_randint 1 (user_preference u).

(** core.py:972-1020 [generate_single_load_profile] with a given peak_time_range *)
Definition generate_single_load_profile (depth : nat) (F : fm) (u : user) (prof_i : Z)
    (peak : list Z) (day_type : Z) : prog (user * list Q) :=
  pref <- draw_pref u ;;
  r <- generate_apps depth F pref prof_i peak day_type (app_list u) (zeros day_minutes) ;;
  Ret (set_apps (set_pref u pref) (fst r), snd r).

(** core.py:1048-1053: the loop over the members of the user type *)
Fixpoint generate_members (n : nat) (depth : nat) (F : fm) (u : user) (prof_i : Z)
    (peak : list Z) (day_type : Z) : prog user :=
  match n with
  | O => Ret u
  | S n' =>
      r <- generate_single_load_profile depth F u prof_i peak day_type ;;
      generate_members n' depth F (set_load (fst r) (vadd F (load (fst r)) (snd r))) prof_i peak day_type
  end.

(** core.py:1022-1055 [generate_aggregated_load_profile]; range(n) is empty for n <= 0 *)
Definition generate_aggregated_load_profile (depth : nat) (F : fm) (u : user) (prof_i : Z)
    (peak : list Z) (day_type : Z) : prog user :=
  generate_members (Z.to_nat (num_users u)) depth F (set_load u (zeros day_minutes)) prof_i peak day_type.
