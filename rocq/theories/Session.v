(** * Session: a program that creates users, appliances and use cases and calls them in any order *)
From Verif Require Import Base Utils Appliance User UseCase Declare Script Heap.
Open Scope list_scope.
Open Scope Z_scope.

(** the objects of a program: users and appliances (Heap.v) and use cases *)
Record session : Type := Session { s_heap : heap; s_cases : list hcase }.

(** one statement.  Users, appliances and use cases are named by the order of their creation. *)
Inductive stmt : Type :=
| SUser (name : string) (num pref : Z)                                        (* User(name, num, pref) *)
| SAppliance (k : nat) (p : params) (pw : power_arg) (wa : window_args) (c1 c2 c3 : cycle_args)  (* users[k].add_appliance(...) *)
| SShare (k : nat) (r : nat)                                                  (* users[k].add_appliance(appliances[r]) *)
| SDeclare (r : nat) (d : decl)                                               (* windows, specific_cycle, cycle_behaviour *)
| SCase (users : item) (start stop : option Z) (par : bool) (enl : Q) (seed : option Z)  (* UseCase(users, ...) *)
| SAddUser (c : nat) (it : item)
| SCollect (c : nat)                                                          (* collect_appliances_from_users() *)
| SStart (c : nat) (d : option Z)                                             (* date_start = d *)
| SStop (c : nat) (d : option Z)
| SInit (c : nat) (num : option Z) (enl : option enlarge_arg) (force : bool)
| SGenerate (c : nat) (arg : option (list Z)).                                (* generate_daily_load_profiles(days), sequential *)

(** core.py:324-332: num_days of an initialized use case *)
Definition days_of (s : session) (c : nat) : option Z :=
  match nth_error (s_cases s) c with
  | Some x => if is_initialized (hc x) then num_days_ (hc x) else None
  | None => None
  end.

(** the objects and App_list of user [v], as a registry (User.v), and back.  A new object belongs to user [k]. *)
Definition reg_of (h : heap) (v : huser) : registry := Registry (map obj (h_apps h)) (hu_apps v).
Definition owned_by (k : nat) (h : heap) (objs : list appliance) : list happ :=
  map (fun ia => HApp (snd ia) (match nth_error (h_apps h) (fst ia) with Some x => owner x | None => k end))
      (combine (seq 0 (List.length objs)) objs).
Definition hset_apps (v : huser) (rs : list nat) : huser :=
  HUser (hu_name v) (hu_num v) (hu_preference v) (hu_pref v) (hu_load v) rs (hu_case v).
Definition back (h : heap) (k : nat) (v : huser) (g : registry) : heap :=
  Heap (owned_by k h (objects g)) (list_set (h_users h) k (hset_apps v (refs g))).

Definition or_raise {A} (x : A) (e : option exc) : prog A := match e with Some e => Raise e | None => Ret x end.

(** one statement; an exception ends the program.  A name that does not exist yet: NameError, here AttributeError. *)
Definition stmt_step (depth : nat) (F : fm) (strict : bool) (w : world) (s : session) (t : stmt) : prog session :=
  let h := s_heap s in
  let on_case c (f : hcase -> prog session) :=
    match nth_error (s_cases s) c with Some x => f x | None => Raise AttributeError end in
  let put c h' x' := Session h' (list_set (s_cases s) c x') in
  match t with
  | SUser nm n p => Ret (Session (Heap (h_apps h) (h_users h ++ [HUser nm n p 0 (zeros day_minutes) [] None])) (s_cases s))
  | SAppliance k p pw wa c1 c2 c3 =>
      match nth_error (h_users h) k with
      | None => Raise AttributeError
      | Some v =>
          let '(g, e) := add_appliance_kw F strict (reg_of h v) p pw (user_num_days (days_of s) v) wa c1 c2 c3 in
          or_raise (Session (back h k v g) (s_cases s)) e
      end
  | SShare k r =>
      match nth_error (h_users h) k with
      | None => Raise AttributeError
      | Some v => g <- lift (register strict (reg_of h v) r) ;; Ret (Session (back h k v g) (s_cases s))
      end
  | SDeclare r d =>
      match nth_error (h_apps h) r with
      | None => Raise AttributeError
      | Some x =>
          match nth_error (h_users h) (owner x) with
          | None => Raise AttributeError
          | Some v =>
              let '(g, e) := decl_on F strict (reg_of h v) r d in
              or_raise (Session (back h (owner x) v g) (s_cases s)) e
          end
      end
  | SCase users start stop par enl seed =>
      hx <- hnew_usecase F w (List.length (s_cases s)) h users start stop par enl seed ;;
      Ret (Session (fst hx) (s_cases s ++ [snd hx]))
  | SAddUser c it => on_case c (fun x =>
      let '(h', ks, e) := hadd_user c h (hc_users x) it in
      or_raise (put c h' (HCase (hc x) ks (hc_apps x))) e)
  | SCollect c => on_case c (fun x => Ret (put c h (HCase (hc x) (hc_users x) (hcollect h (hc_users x)))))
  | SStart c d => on_case c (fun x => Ret (put c h (hset_hc x (set_date_start (hc x) d))))
  | SStop c d => on_case c (fun x => Ret (put c h (hset_hc x (set_date_end (hc x) d))))
  | SInit c num enl force => on_case c (fun x =>
      r <- hinitialize F w h x num enl force ;;
      or_raise (put c (fst (fst r)) (snd (fst r))) (snd r))
  | SGenerate c arg => on_case c (fun x =>
      r <- hgenerate depth F w h x arg ;;
      Ret (put c (fst (fst r)) (snd (fst r))))
  end.

Fixpoint run_session (depth : nat) (F : fm) (strict : bool) (w : world) (s : session) (ts : list stmt) : prog session :=
  match ts with
  | [] => Ret s
  | t :: ts' => s' <- stmt_step depth F strict w s t ;; run_session depth F strict w s' ts'
  end.
