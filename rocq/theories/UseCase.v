(** * UseCase: model of class UseCase, ramp/core/core.py:40-519

    Dates are integers: minutes since 0001-01-01 00:00 (proleptic Gregorian calendar, no time
    zone).  Simplifications: no seconds, and no limit on the dates pandas can represent.
    Users are held by value; [collected] (the attribute [appliances], a list of references to
    appliances taken when collect_appliances_from_users was called last) holds their positions
    (user, appliance).  Nothing is modelled of what is only printed, except that printing
    [days[0]] or [days[-1]] of an empty list raises IndexError. *)
From Verif Require Import Base Utils Appliance User.
From Coq Require Permutation.
Open Scope string_scope.
Open Scope list_scope.
Open Scope Z_scope.

(** ** Calendar primitives *)

(** [day.weekday()]: Monday is 0; 0001-01-01 was a Monday *)
Definition weekday (d : Z) : Z := (d / 1440) mod 7.
(** utils.py:185-195 *)
Definition get_day_type (d : Z) : Z := if weekday d >? 4 then 1 else 0.

(** [pd.date_range(start, end)], daily: start, start + 1 day, ... not after end *)
Definition date_range_se (s e : Z) : list Z :=
  map (fun k => s + 1440 * k) (arange 0 ((e - s) / 1440 + 1)).
(** [pd.date_range(start=s, periods=n)]: ValueError when n is negative *)
Definition date_range_sp (s n : Z) : res (list Z) :=
  if n <? 0 then Err ValueError else Ok (map (fun k => s + 1440 * k) (arange 0 n)).
(** [pd.date_range(end=e, periods=n)] *)
Definition date_range_ep (e n : Z) : res (list Z) :=
  if n <? 0 then Err ValueError else Ok (map (fun k => e - 1440 * (n - 1) + 1440 * k) (arange 0 n)).
(** [pd.date_range(start, end, freq="min")] *)
Definition minute_range (s e : Z) : list Z := arange s (e + 1).

(** ** The object *)

(** core.py:79-109.  [name] and [daily_profiles] are read by no modelled code. *)
Record usecase : Type := UC {
  date_start : option Z;
  date_end : option Z;
  parallel_processing : bool;
  peak_enlarge : Q;
  peak_time_range : option (list Z);
  days : option (list Z);
  num_days_ : option Z;              (* __num_days *)
  datetimeindex_ : option (list Z);  (* __datetimeindex *)
  random_seed : option Z;
  users : list user;
  collected : list (nat * nat)       (* appliances *)
}.

Definition set_days (c : usecase) (x : option (list Z)) : usecase :=
  UC (date_start c) (date_end c) (parallel_processing c) (peak_enlarge c) (peak_time_range c) x
     (num_days_ c) (datetimeindex_ c) (random_seed c) (users c) (collected c).
Definition set_num_days (c : usecase) (x : option Z) : usecase :=
  UC (date_start c) (date_end c) (parallel_processing c) (peak_enlarge c) (peak_time_range c) (days c)
     x (datetimeindex_ c) (random_seed c) (users c) (collected c).
Definition set_index (c : usecase) (x : option (list Z)) : usecase :=
  UC (date_start c) (date_end c) (parallel_processing c) (peak_enlarge c) (peak_time_range c) (days c)
     (num_days_ c) x (random_seed c) (users c) (collected c).
Definition set_peak (c : usecase) (x : option (list Z)) : usecase :=
  UC (date_start c) (date_end c) (parallel_processing c) (peak_enlarge c) x (days c)
     (num_days_ c) (datetimeindex_ c) (random_seed c) (users c) (collected c).
Definition set_enlarge (c : usecase) (x : Q) : usecase :=
  UC (date_start c) (date_end c) (parallel_processing c) x (peak_time_range c) (days c)
     (num_days_ c) (datetimeindex_ c) (random_seed c) (users c) (collected c).
Definition set_users (c : usecase) (x : list user) : usecase :=
  UC (date_start c) (date_end c) (parallel_processing c) (peak_enlarge c) (peak_time_range c) (days c)
     (num_days_ c) (datetimeindex_ c) (random_seed c) x (collected c).
Definition set_collected (c : usecase) (x : list (nat * nat)) : usecase :=
  UC (date_start c) (date_end c) (parallel_processing c) (peak_enlarge c) (peak_time_range c) (days c)
     (num_days_ c) (datetimeindex_ c) (random_seed c) (users c) x.
(** core.py:120-140: the setters of date_start and date_end *)
Definition set_date_start (c : usecase) (x : option Z) : usecase :=
  UC x (date_end c) (parallel_processing c) (peak_enlarge c) (peak_time_range c) (days c)
     (num_days_ c) (datetimeindex_ c) (random_seed c) (users c) (collected c).
Definition set_date_end (c : usecase) (x : option Z) : usecase :=
  UC (date_start c) x (parallel_processing c) (peak_enlarge c) (peak_time_range c) (days c)
     (num_days_ c) (datetimeindex_ c) (random_seed c) (users c) (collected c).

(** core.py:158-180 [add_user] with one User (a list is added one by one) *)
Definition add_user (c : usecase) (u : user) : usecase := set_users c (users c ++ [u]).

(** core.py:182-187 [collect_appliances_from_users] *)
Fixpoint positions_from (i : nat) (us : list user) : list (nat * nat) :=
  match us with
  | [] => []
  | u :: us' => map (fun j => (i, j)) (seq 0 (List.length (app_list u))) ++ positions_from (S i) us'
  end.
Definition collect_appliances (c : usecase) : usecase := set_collected c (positions_from 0 (users c)).

(** core.py:320-329 [is_initialized] *)
Definition is_initialized (c : usecase) : bool :=
  match num_days_ c, datetimeindex_ c, peak_time_range c with
  | Some _, Some _, Some _ => true
  | _, _, _ => false
  end.

(** ** Peak time range, core.py:331-387 *)

(** core.py:361-364: the total theoretical maximum profile *)
Definition total_max_profile (F : fm) (c : usecase) : list Q :=
  fold_left (fun acc u => vadd F acc (user_maximum_profile F u)) (users c) (zeros day_minutes).

(** [np.amax] *)
Definition np_amax (l : list Q) : Q :=
  match l with [] => 0%Q | x :: l' => fold_left (fun m y => if Qle_bool m y then y else m) l' x end.

(** core.py:366-368: the minutes at which the profile is maximal *)
Definition peak_window (F : fm) (c : usecase) : list Z :=
  let p := total_max_profile F c in
  let peak := np_amax p in
  filter (fun t => Qeq_bool (nth (Z.to_nat t) p 0%Q) peak) (arange 0 (zlen p)).

Definition zsum (l : list Z) : Z := fold_left Z.add l 0.

(** core.py:369-387.  np.squeeze turns a window of one minute into a 0-d array, on which
    [peak_window[-1]] raises IndexError before any draw; hence the outcome is a value. *)
Definition draw_peak_range (F : fm) (enlarge : Q) (w : list Z) : prog (res (list Z)) :=
  match w with
  | [] | [_] => Ret (Err IndexError)
  | first :: rest =>
      let mu := py_round (fdiv F (zq (zsum w)) (zq (zlen w))) in
      let sigma := fmul F (fdiv F 1 3) (zq (last rest first - first)) in
      x <- py_normalvariate F (zq mu) sigma ;;
      let peak_time := py_round x in
      g <- py_gauss F (zq peak_time) (fmul F enlarge (zq peak_time)) ;;
      let k := Z.max (py_round (Qabs (fsub F (zq peak_time) g))) 1 in
      Ret (Ok (arange (peak_time - k) (peak_time + k)))
  end.

(** [calc_peak_time_range()] *)
Definition calc_peak_time_range (F : fm) (c : usecase) : prog (res (list Z)) :=
  draw_peak_range F (peak_enlarge c) (peak_window F c).

(** a peak_enlarge argument: a float or something else *)
Inductive enlarge_arg : Type := EFloat (q : Q) | EOther.

(** core.py:146-156, the setter of peak_enlarge.  State and exception are returned together. *)
Definition set_peak_enlarge (F : fm) (c : usecase) (x : enlarge_arg) : prog (usecase * option exc) :=
  match x with
  | EOther => Ret (c, Some TypeError)
  | EFloat q =>
      if Qle_bool 0 q then
        let c := set_enlarge c q in
        r <- calc_peak_time_range F c ;;
        Ret (match r with Ok p => (set_peak c (Some p), None) | Err e => (c, Some e) end)
      else Ret (c, Some ValueError)
  end.

(** core.py:355-358: [calc_peak_time_range(peak_enlarge=x)] goes through the setter (which
    computes and stores a range) and then computes another one, which it returns *)
Definition calc_peak_time_range_with (F : fm) (c : usecase) (x : enlarge_arg) : prog (usecase * res (list Z)) :=
  r <- set_peak_enlarge F c x ;;
  match snd r with
  | Some e => Ret (fst r, Err e)
  | None => p <- calc_peak_time_range F (fst r) ;; Ret (fst r, p)
  end.

(** ** initialize, core.py:203-318 *)

(** the outside world: what the user types at the prompt (ValueError of int() otherwise) and
    midnight of the current day *)
Record world : Type := World { typed : res Z; today : Z }.

(** core.py:302-303: check_power_values of the collected appliances, in order *)
Definition get_app (us : list user) (ij : nat * nat) : option appliance :=
  match nth_error us (fst ij) with Some u => nth_error (app_list u) (snd ij) | None => None end.
Definition put_app (us : list user) (ij : nat * nat) (a : appliance) : list user :=
  match nth_error us (fst ij) with
  | Some u => list_set us (fst ij) (set_apps u (list_set (app_list u) (snd ij) a))
  | None => us
  end.
Fixpoint check_powers (us : list user) (refs : list (nat * nat)) (n : Z) : list user * option exc :=
  match refs with
  | [] => (us, None)
  | ij :: refs' =>
      match get_app us ij with
      | None => (us, Some AttributeError)        (* dangling position, does not occur *)
      | Some a =>
          match check_power_values a n with
          | Err e => (us, Some e)
          | Ok a' => check_powers (put_app us ij a') refs' n
          end
      end
  end.

(** core.py:239-263: num_days argument and both dates *)
Definition init_both_dates (c : usecase) : usecase :=
  match date_start c, date_end c with
  | Some s, Some e =>
      let ds := date_range_se s e in
      let c := set_days c (Some ds) in
      match num_days_ c with
      | Some n => if negb (n =? zlen ds) then set_days c None else set_num_days c (Some (zlen ds))
      | None => set_num_days c (Some (zlen ds))
      end
  | _, _ => c
  end.

(** core.py:239-247 *)
Definition init_num_days_arg (c : usecase) (num_days : option Z) : usecase :=
  match num_days with
  | None => c
  | Some n => match days c with Some _ => set_num_days c None | None => set_num_days c (Some n) end
  end.

(** core.py:265-270: the prompt *)
Definition init_prompt (w : world) (c : usecase) : usecase * option exc :=
  match num_days_ c with
  | Some _ => (c, None)
  | None => match typed w with Ok n => (set_num_days c (Some n), None) | Err e => (c, Some e) end
  end.

(** core.py:272-300: the days to simulate.  All branches print [days[0]] or [days[-1]]. *)
Definition init_days (w : world) (c : usecase) : usecase * option exc :=
  let n := match num_days_ c with Some n => n | None => 0 end in
  let r := match days c with
    | Some ds => Ok ds
    | None =>
        match date_start c, date_end c with
        | Some s, _ => date_range_sp s n
        | None, Some e => date_range_ep e n
        | None, None => date_range_sp (today w) n
        end
    end in
  match r with
  | Err e => (c, Some e)
  | Ok ds => (set_days c (Some ds), match ds with [] => Some IndexError | _ => None end)
  end.

(** core.py:312-317: the minutes from the first to the last day *)
Definition init_index (c : usecase) : usecase :=
  match days c with
  | Some (d :: ds) => set_index c (Some (minute_range d (last ds d + 1440 - 1)))
  | _ => c                                        (* not reached: printing raised before *)
  end.

(** core.py:302-317: power values, peak time range, datetimeindex *)
Definition init_finish (F : fm) (c : usecase) (enl : option enlarge_arg) : prog (usecase * option exc) :=
  let n := match num_days_ c with Some n => n | None => 0 end in
  let '(us, e) := check_powers (users c) (collected c) n in
  let c := set_users c us in
  match e with
  | Some _ => Ret (c, e)
  | None =>
      r <- match enl with
           | Some x => set_peak_enlarge F c x
           | None =>
               p <- calc_peak_time_range F c ;;
               Ret (match p with Ok p => (set_peak c (Some p), None) | Err e => (c, Some e) end)
           end ;;
      match snd r with
      | Some _ => Ret r
      | None => Ret (init_index (fst r), None)
      end
  end.

(** core.py:203-318 [initialize(num_days, peak_enlarge, force)]: the object after the call and
    the exception raised, if any *)
Definition initialize (F : fm) (w : world) (c : usecase) (num_days : option Z)
    (enl : option enlarge_arg) (force : bool) : prog (usecase * option exc) :=
  if is_initialized c && negb force then Ret (c, None)
  else
    let c := if is_initialized c && force then set_days c None else c in
    let c := init_both_dates (init_num_days_arg c num_days) in
    let '(c, e) := init_prompt w c in
    match e with Some _ => Ret (c, e) | None =>
    let '(c, e) := init_days w c in
    match e with Some _ => Ret (c, e) | None =>
    init_finish F c enl
    end end.

(** core.py:189-201: the properties num_days and datetimeindex *)
Definition num_days (F : fm) (w : world) (c : usecase) : prog (usecase * Z) :=
  match num_days_ c with
  | Some n => Ret (c, n)
  | None =>
      r <- initialize F w c None None false ;;
      match snd r, num_days_ (fst r) with
      | Some e, _ => Raise e
      | None, Some n => Ret (fst r, n)
      | None, None => Raise TypeError             (* not reached *)
      end
  end.

(** ** Constructor, core.py:51-113 *)

(** [if self.random_seed] is false for None and for 0 *)
Definition seed_of (s : option Z) : option Z :=
  match s with Some z => if z =? 0 then None else Some z | None => None end.

Definition blank (start stop : option Z) (par : bool) (enl : Q) (seed : option Z) (us : list user) : usecase :=
  collect_appliances (UC start stop par enl None None None None seed us []).

Definition new_usecase (F : fm) (w : world) (us : list user) (start stop : option Z) (par : bool)
    (enl : Q) (seed : option Z) : prog usecase :=
  let c := blank start stop par enl seed us in
  c <- match start, stop with
       | Some _, Some _ =>
           r <- initialize F w c None None false ;;
           match snd r with Some e => Raise e | None => Ret (fst r) end
       | _, _ => Ret c
       end ;;
  match seed_of seed with Some z => Seed z (Ret c) | None => Ret c end.

(** ** Sequential generation, core.py:389-452 *)

(** core.py:436-441: the users of one day.  [peak_time_range = None] is passed as []: an event
    then raises IndexError in the model, TypeError in the code. *)
Fixpoint day_of_users (depth : nat) (F : fm) (i : Z) (peak : list Z) (dt : Z) (us : list user)
    (acc : list Q) : prog (list user * list Q) :=
  match us with
  | [] => Ret ([], acc)
  | u :: us' =>
      u' <- generate_aggregated_load_profile depth F u i peak dt ;;
      r <- day_of_users depth F i peak dt us' (vadd F acc (load u')) ;;
      Ret (u' :: fst r, snd r)
  end.

(** core.py:429-442: the loop over the days; [rows] is the array under construction.
    [daily_profiles[day_idx, :] = ...] raises IndexError when there are more days than rows. *)
Fixpoint day_loop (depth : nat) (F : fm) (peak : list Z) (i : Z) (ds : list Z) (us : list user)
    (rows : list (list Q)) : prog (list user * list (list Q)) :=
  match ds with
  | [] => Ret (us, rows)
  | d :: ds' =>
      r <- day_of_users depth F i peak (get_day_type d) us (zeros day_minutes) ;;
      if zlen rows <=? i then Raise IndexError
      else day_loop depth F peak (i + 1) ds' (fst r) (list_set rows (Z.to_nat i) (snd r))
  end.

(** core.py:416-423: the days to use *)
Definition choose_days (c : usecase) (arg : option (list Z)) : res usecase :=
  match days c, arg with
  | Some _, _ => Ok c
  | None, Some ds => Ok (set_days c (Some ds))
  | None, None => Err ValueError
  end.

(** [generate_daily_load_profiles(days, flat=False)], sequential: the rows *)
Definition generate_sequential (depth : nat) (F : fm) (w : world) (c : usecase) (arg : option (list Z))
    : prog (usecase * list (list Q)) :=
  c <- lift (choose_days c arg) ;;
  cn <- num_days F w c ;;
  let c := fst cn in
  if snd cn <? 0 then Raise ValueError
  else
    let rows := repeat (zeros day_minutes) (Z.to_nat (snd cn)) in
    let peak := match peak_time_range c with Some p => p | None => [] end in
    let ds := match days c with Some ds => ds | None => [] end in
    r <- day_loop depth F peak 0 ds (users c) rows ;;
    Ret (set_users c (fst r), snd r).

(** core.py:448-451, [reshape(1, num_days * 1440).squeeze()]: the rows one after the other *)
Definition flatten (rows : list (list Q)) : list Q := List.concat rows.

(** ** Parallel generation, core.py:40-44, 454-519 *)

(** one unit of work: day index, day type, appliance, and the attribute rand_daily_pref of its
    user at the time the tasks were sent to the workers *)
Record task : Type := Task { t_day : Z; t_type : Z; t_app : appliance; t_pref : Z }.

(** core.py:480-488: one task per day, user, appliance and member, in this order *)
Definition tasks_of_day (us : list user) (i : Z) (dt : Z) : list task :=
  flat_map (fun u => flat_map (fun a => repeat (Task i dt a (rand_daily_pref u)) (Z.to_nat (num_users u)))
    (app_list u)) us.
Fixpoint tasks_from (us : list user) (i : Z) (ds : list Z) : list task :=
  match ds with
  | [] => []
  | d :: ds' => tasks_of_day us i (get_day_type d) ++ tasks_from us (i + 1) ds'
  end.

(** core.py:40-44 [single_appliance_daily_load_profile], run in a worker process on a copy of
    the appliance; the answer is (day index, profile) *)
Definition work (depth : nat) (F : fm) (peak : list Z) (t : task) : prog (Z * list Q) :=
  pw <- lift (py_index (power (t_app t)) (t_day t)) ;;
  a' <- generate_load_profile depth F (t_app t) (t_pref t) (t_day t) peak (t_type t) pw ;;
  Ret (t_day t, daily_use (st a')).

(** core.py:502-508: the dictionary of the answers in order of arrival *)
Fixpoint dict_append (d : list (Z * list (list Q))) (i : Z) (l : list Q) : list (Z * list (list Q)) :=
  match d with
  | [] => [(i, [l])]
  | (j, ls) :: d' => if i =? j then (j, ls ++ [l]) :: d' else (j, ls) :: dict_append d' i l
  end.
Definition dict_of (arrivals : list (Z * list Q)) : list (Z * list (list Q)) :=
  fold_left (fun d il => dict_append d (fst il) (snd il)) arrivals [].
Fixpoint dict_get (d : list (Z * list (list Q))) (i : Z) : res (list (list Q)) :=
  match d with
  | [] => Err KeyError
  | (j, ls) :: d' => if i =? j then Ok ls else dict_get d' i
  end.

(** [np.vstack(rows).sum(axis=0)]: rows added in order, starting from the first *)
Definition vstack_sum (F : fm) (rows : list (list Q)) : list Q :=
  match rows with [] => zeros day_minutes | r :: rs => fold_left (vadd F) rs r end.

(** core.py:511-516 *)
Fixpoint assemble (F : fm) (d : list (Z * list (list Q))) (is : list Z) : res (list (list Q)) :=
  match is with
  | [] => Ok []
  | i :: is' =>
      rbind (dict_get d i) (fun ls => rbind (assemble F d is') (fun rows => Ok (vstack_sum F ls :: rows)))
  end.

(** what the parent process does with the answers in their order of arrival, for [n] days *)
Definition gather (F : fm) (n : Z) (arrivals : list (Z * list Q)) : res (list (list Q)) :=
  if n <? 0 then Err ValueError else assemble F (dict_of arrivals) (arange 0 n).

(** [generate_daily_load_profiles_parallel(flat=False)] on an initialized use case: every task
    is worked on with its own random numbers, the answers arrive in any order, the exception of
    any task is raised in the parent.  Workers copy the appliance, so the object of the parent does
    not change.  Simplification: num_days is known. *)
Definition all_tasks (c : usecase) : list task :=
  tasks_from (users c) 0 (match days c with Some ds => ds | None => [] end).
Inductive parallel_may (depth : nat) (F : fm) (c : usecase) (n : Z) : res (list (list Q)) -> Prop :=
| parallel_done answers arrivals :
    Forall2 (fun t x => may (work depth F (match peak_time_range c with Some p => p | None => [] end) t) (Ok x))
      (all_tasks c) answers ->
    Permutation.Permutation answers arrivals ->
    parallel_may depth F c n (gather F n arrivals)
| parallel_fails t e :
    In t (all_tasks c) ->
    may (work depth F (match peak_time_range c with Some p => p | None => [] end) t) (Err e) ->
    parallel_may depth F c n (Err e).
