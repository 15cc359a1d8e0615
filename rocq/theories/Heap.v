(** * Heap: the objects behind a use case

    UseCase.v and User.v hold users and appliances by value.  In Python a use case holds references to User objects and a user
    holds references to Appliance objects; an appliance refers to the user given to its constructor (its attribute [user]).  One
    appliance can be registered with several users ([user_2.add_appliance(app)], core.py:753-758), one user can be added to a use
    case twice or to several use cases.  This file models these references; PropsHeap.v compares them with the values. *)
From Verif Require Import Base Utils Appliance User UseCase Tabular.
Open Scope list_scope.
Open Scope Z_scope.

(** an Appliance object: its attributes, and [self.user] (a reference), core.py:1139 *)
Record happ : Type := HApp { obj : appliance; owner : nat }.

(** a User object, core.py:664-674: App_list is a list of references; [usecase] is None or a reference *)
Record huser : Type := HUser {
  hu_name : string;
  hu_num : Z;
  hu_preference : Z;
  hu_pref : Z;               (* rand_daily_pref *)
  hu_load : list Q;
  hu_apps : list nat;
  hu_case : option nat
}.

Record heap : Type := Heap { h_apps : list happ; h_users : list huser }.

Definition put_happ (h : heap) (r : nat) (a : appliance) : heap :=
  match nth_error (h_apps h) r with
  | Some x => Heap (list_set (h_apps h) r (HApp a (owner x))) (h_users h)
  | None => h
  end.
Definition put_huser (h : heap) (k : nat) (v : huser) : heap := Heap (h_apps h) (list_set (h_users h) k v).
Definition hset_pref (v : huser) (p : Z) : huser :=
  HUser (hu_name v) (hu_num v) (hu_preference v) p (hu_load v) (hu_apps v) (hu_case v).
Definition hset_load (v : huser) (l : list Q) : huser :=
  HUser (hu_name v) (hu_num v) (hu_preference v) (hu_pref v) l (hu_apps v) (hu_case v).
Definition hset_case (v : huser) (c : nat) : huser :=
  HUser (hu_name v) (hu_num v) (hu_preference v) (hu_pref v) (hu_load v) (hu_apps v) (Some c).

(** the attribute rand_daily_pref of user [k] *)
Definition pref_of (h : heap) (k : nat) : Z := match nth_error (h_users h) k with Some v => hu_pref v | None => 0 end.

(** ** add_user, core.py:158-180 *)

(** the argument: a User, a list, or anything else (a tuple, a generator, None, a number ...) *)
Inductive item : Type := IUser (k : nat) | IList (l : list item) | IOther.

(** [user.usecase = self] *)
Definition bind_user (h : heap) (uc : nat) (k : nat) : heap :=
  match nth_error (h_users h) k with Some v => put_huser h k (hset_case v uc) | None => h end.

(** use case [uc], whose attribute [users] is [ks].  The objects, the list and the exception after the call *)
Fixpoint hadd_user (uc : nat) (h : heap) (ks : list nat) (it : item) {struct it} : heap * list nat * option exc :=
  match it with
  | IUser k => (bind_user h uc k, ks ++ [k], None)
  | IList l =>
      (fix go (h : heap) (ks : list nat) (l : list item) : heap * list nat * option exc :=
         match l with
         | [] => (h, ks, None)
         | x :: l' =>
             match hadd_user uc h ks x with
             | (h', ks', None) => go h' ks' l'
             | r => r
             end
         end) h ks l
  | IOther => (h, ks, Some InvalidType)
  end.

(** core.py:182-187 [collect_appliances_from_users] *)
Definition hcollect (h : heap) (ks : list nat) : list nat :=
  flat_map (fun k => match nth_error (h_users h) k with Some v => hu_apps v | None => [] end) ks.

(** core.py:818-824 [User.num_days]; [days_of c] is the num_days of use case [c] if it is initialized *)
Definition user_num_days (days_of : nat -> option Z) (v : huser) : Z :=
  match hu_case v with
  | None => 366
  | Some c => match days_of c with Some n => n | None => 366 end
  end.

(** ** Values behind references *)

Definition objects_at (h : heap) (rs : list nat) : list appliance :=
  flat_map (fun r => match nth_error (h_apps h) r with Some x => [obj x] | None => [] end) rs.
(** user [k] with a copy of each of its appliances *)
Definition view (h : heap) (k : nat) : user :=
  match nth_error (h_users h) k with
  | Some v => User (hu_name v) (hu_num v) (hu_preference v) (hu_pref v) (hu_load v) (objects_at h (hu_apps v))
  | None => new_user ""%string 0 0                 (* dangling reference, does not occur *)
  end.

(** ** Generation *)

(** core.py:1010-1020: the loop over App_list.  [generate_load_profile] reads [self.user.rand_daily_pref] (core.py:1988): the
    preference of the user given to the constructor. *)
Fixpoint hgen_apps (depth : nat) (F : fm) (h : heap) (prof_i : Z) (peak : list Z) (day_type : Z) (rs : list nat) (acc : list Q)
    : prog (heap * list Q) :=
  match rs with
  | [] => Ret (h, acc)
  | r :: rs' =>
      match nth_error (h_apps h) r with
      | None => Raise AttributeError               (* dangling reference, does not occur *)
      | Some x =>
          pw <- lift (py_index (power (obj x)) prof_i) ;;
          a' <- generate_load_profile depth F (obj x) (pref_of h (owner x)) prof_i peak day_type pw ;;
          hgen_apps depth F (put_happ h r a') prof_i peak day_type rs' (vadd F acc (daily_use (st a')))
      end
  end.

(** core.py:972-1020 [generate_single_load_profile] of user [k] with a peak_time_range *)
Definition hgen_single (depth : nat) (F : fm) (h : heap) (k : nat) (prof_i : Z) (peak : list Z) (day_type : Z) : prog (heap * list Q) :=
  match nth_error (h_users h) k with
  | None => Raise AttributeError
  | Some v =>
      pref <- (if hu_preference v =? 0 then Ret 0 else py_randint 1 (hu_preference v)) ;;
      hgen_apps depth F (put_huser h k (hset_pref v pref)) prof_i peak day_type (hu_apps v) (zeros day_minutes)
  end.

Definition hload (h : heap) (k : nat) (f : list Q -> list Q) : heap :=
  match nth_error (h_users h) k with Some v => put_huser h k (hset_load v (f (hu_load v))) | None => h end.

(** core.py:1048-1053: the loop over the members *)
Fixpoint hmembers (n : nat) (depth : nat) (F : fm) (h : heap) (k : nat) (prof_i : Z) (peak : list Z) (day_type : Z) : prog heap :=
  match n with
  | O => Ret h
  | S n' =>
      r <- hgen_single depth F h k prof_i peak day_type ;;
      hmembers n' depth F (hload (fst r) k (fun l => vadd F l (snd r))) k prof_i peak day_type
  end.

(** core.py:1022-1055 [generate_aggregated_load_profile] of user [k] *)
Definition haggregated (depth : nat) (F : fm) (h : heap) (k : nat) (prof_i : Z) (peak : list Z) (day_type : Z) : prog (heap * list Q) :=
  match nth_error (h_users h) k with
  | None => Raise AttributeError
  | Some v =>
      h' <- hmembers (Z.to_nat (hu_num v)) depth F (hload h k (fun _ => zeros day_minutes)) k prof_i peak day_type ;;
      Ret (h', match nth_error (h_users h') k with Some v' => hu_load v' | None => [] end)
  end.

(** core.py:436-441: the users of one day *)
Fixpoint hday_of_users (depth : nat) (F : fm) (h : heap) (i : Z) (peak : list Z) (dt : Z) (ks : list nat) (acc : list Q)
    : prog (heap * list Q) :=
  match ks with
  | [] => Ret (h, acc)
  | k :: ks' =>
      r <- haggregated depth F h k i peak dt ;;
      hday_of_users depth F (fst r) i peak dt ks' (vadd F acc (snd r))
  end.

(** core.py:429-442: the loop over the days *)
Fixpoint hday_loop (depth : nat) (F : fm) (h : heap) (peak : list Z) (i : Z) (ds : list Z) (ks : list nat) (rows : list (list Q))
    : prog (heap * list (list Q)) :=
  match ds with
  | [] => Ret (h, rows)
  | d :: ds' =>
      r <- hday_of_users depth F h i peak (get_day_type d) ks (zeros day_minutes) ;;
      if zlen rows <=? i then Raise IndexError
      else hday_loop depth F (fst r) peak (i + 1) ds' ks (list_set rows (Z.to_nat i) (snd r))
  end.

(** ** The use case *)

(** the attributes of a use case ([hc], its fields [users] and [collected] are not used), [users] and [appliances] *)
Record hcase : Type := HCase { hc : usecase; hc_users : list nat; hc_apps : list nat }.
Definition hset_hc (x : hcase) (c : usecase) : hcase := HCase c (hc_users x) (hc_apps x).

(** core.py:302-303: check_power_values of the collected appliances *)
Fixpoint hcheck_powers (h : heap) (rs : list nat) (n : Z) : heap * option exc :=
  match rs with
  | [] => (h, None)
  | r :: rs' =>
      match nth_error (h_apps h) r with
      | None => (h, Some AttributeError)
      | Some x =>
          match check_power_values (obj x) n with
          | Err e => (h, Some e)
          | Ok a' => hcheck_powers (put_happ h r a') rs' n
          end
      end
  end.

(** the use case with the values of its users (core.py:361-364 reads them for the peak time range) *)
Definition with_users (h : heap) (x : hcase) : usecase := set_users (hc x) (map (view h) (hc_users x)).

(** core.py:302-317 *)
Definition hinit_finish (F : fm) (h : heap) (x : hcase) (enl : option enlarge_arg) : prog (heap * hcase * option exc) :=
  let n := match num_days_ (hc x) with Some n => n | None => 0 end in
  let '(h, e) := hcheck_powers h (hc_apps x) n in
  match e with
  | Some _ => Ret (h, x, e)
  | None =>
      r <- match enl with
           | Some y => set_peak_enlarge F (with_users h x) y
           | None =>
               p <- calc_peak_time_range F (with_users h x) ;;
               Ret (match p with Ok p => (set_peak (hc x) (Some p), None) | Err e => (hc x, Some e) end)
           end ;;
      match snd r with
      | Some _ => Ret (h, hset_hc x (fst r), snd r)
      | None => Ret (h, hset_hc x (init_index (fst r)), None)
      end
  end.

(** core.py:203-318 [initialize(num_days, peak_enlarge, force)] *)
Definition hinitialize (F : fm) (w : world) (h : heap) (x : hcase) (num_days : option Z) (enl : option enlarge_arg) (force : bool)
    : prog (heap * hcase * option exc) :=
  if is_initialized (hc x) && negb force then Ret (h, x, None)
  else
    let c := if is_initialized (hc x) && force then set_days (hc x) None else hc x in
    let c := init_both_dates (init_num_days_arg c num_days) in
    let '(c, e) := init_prompt w c in
    match e with Some _ => Ret (h, hset_hc x c, e) | None =>
    let '(c, e) := init_days w c in
    match e with Some _ => Ret (h, hset_hc x c, e) | None =>
    hinit_finish F h (hset_hc x c) enl
    end end.

(** core.py:51-113: the constructor of use case number [uc]; [users] is any item *)
Definition hnew_usecase (F : fm) (w : world) (uc : nat) (h : heap) (users : item) (start stop : option Z) (par : bool)
    (enl : Q) (seed : option Z) : prog (heap * hcase) :=
  let '(h, ks, e) := hadd_user uc h [] users in
  match e with Some e => Raise e | None =>
  let x := HCase (UC start stop par enl None None None None seed [] []) ks (hcollect h ks) in
  hx <- match start, stop with
        | Some _, Some _ =>
            r <- hinitialize F w h x None None false ;;
            match snd r with Some e => Raise e | None => Ret (fst r) end
        | _, _ => Ret (h, x)
        end ;;
  match seed_of seed with Some z => Seed z (Ret hx) | None => Ret hx end
  end.

(** core.py:189-194 [num_days] *)
Definition hnum_days (F : fm) (w : world) (h : heap) (x : hcase) : prog (heap * hcase * Z) :=
  match num_days_ (hc x) with
  | Some n => Ret (h, x, n)
  | None =>
      r <- hinitialize F w h x None None false ;;
      match snd r, num_days_ (hc (snd (fst r))) with
      | Some e, _ => Raise e
      | None, Some n => Ret (fst r, n)
      | None, None => Raise TypeError
      end
  end.

(** core.py:389-452 [generate_daily_load_profiles(days, flat=False)], sequential *)
Definition hgenerate (depth : nat) (F : fm) (w : world) (h : heap) (x : hcase) (arg : option (list Z)) : prog (heap * hcase * list (list Q)) :=
  c <- lift (choose_days (hc x) arg) ;;
  hn <- hnum_days F w h (hset_hc x c) ;;
  let h := fst (fst hn) in
  let x := snd (fst hn) in
  if snd hn <? 0 then Raise ValueError
  else
    let rows := repeat (zeros day_minutes) (Z.to_nat (snd hn)) in
    let peak := match peak_time_range (hc x) with Some p => p | None => [] end in
    let ds := match days (hc x) with Some ds => ds | None => [] end in
    r <- hday_loop depth F h peak 0 ds (hc_users x) rows ;;
    Ret (fst r, x, snd r).

(** a script: UseCase(users, ...), initialize(num_days, peak_enlarge), generate_daily_load_profiles() *)
Definition hsimulate (depth : nat) (F : fm) (w : world) (uc : nat) (h : heap) (users : item) (start stop : option Z) (enl : Q) (seed : option Z)
    (num : option Z) (pe : option enlarge_arg) : prog (heap * hcase * list (list Q)) :=
  hx <- hnew_usecase F w uc h users start stop false enl seed ;;
  r <- hinitialize F w (fst hx) (snd hx) num pe false ;;
  match snd r with Some e => Raise e | None => hgenerate depth F w (fst (fst r)) (snd (fst r)) None end.

(** ** Parallel generation, core.py:480-488: the tasks.  A worker gets a copy of the appliance together with its [user]. *)
Definition htasks_of_day (h : heap) (ks : list nat) (i dt : Z) : list task :=
  flat_map (fun k => match nth_error (h_users h) k with
    | None => []
    | Some v => flat_map (fun r => match nth_error (h_apps h) r with
        | None => []
        | Some x => repeat (Task i dt (obj x) (pref_of h (owner x))) (Z.to_nat (hu_num v))
        end) (hu_apps v)
    end) ks.
Fixpoint htasks_from (h : heap) (ks : list nat) (i : Z) (ds : list Z) : list task :=
  match ds with
  | [] => []
  | d :: ds' => htasks_of_day h ks i (get_day_type d) ++ htasks_from h ks (i + 1) ds'
  end.
(** core.py:454-519, as UseCase.parallel_may *)
Inductive hparallel_may (depth : nat) (F : fm) (h : heap) (x : hcase) (n : Z) : res (list (list Q)) -> Prop :=
| hparallel_done answers arrivals :
    Forall2 (fun t y => may (work depth F (match peak_time_range (hc x) with Some p => p | None => [] end) t) (Ok y))
      (htasks_from h (hc_users x) 0 (match days (hc x) with Some ds => ds | None => [] end)) answers ->
    Permutation.Permutation answers arrivals ->
    hparallel_may depth F h x n (gather F n arrivals)
| hparallel_fails t e :
    In t (htasks_from h (hc_users x) 0 (match days (hc x) with Some ds => ds | None => [] end)) ->
    may (work depth F (match peak_time_range (hc x) with Some p => p | None => [] end) t) (Err e) ->
    hparallel_may depth F h x n (Err e).

(** ** Saving, core.py:521-547, 826-864, 1238-1287: the row of an appliance names [self.user] *)
Definition hsave_user (F : fm) (h : heap) (k : nat) : res table :=
  match nth_error (h_users h) k with
  | None => Err AttributeError
  | Some v =>
      match hu_apps v with
      | [] => Err PlainException
      | rs => map_res (fun r => match nth_error (h_apps h) r with
                                | None => Err AttributeError
                                | Some x => save_appliance F (view h (owner x)) (obj x)
                                end) rs
      end
  end.
Definition hsave (F : fm) (h : heap) (ks : list nat) : res table :=
  match ks with
  | [] => Err ValueError
  | _ => rbind (map_res (hsave_user F h) ks) (fun ts => Ok (List.concat ts))
  end.
