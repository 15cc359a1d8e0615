(** * Cli: model of ramp/cli.py:79-238 (the ramp command) and ramp/ramp_run.py:39-70

    Not modelled: the parsing by argparse (the arguments are given parsed; argparse sees to it
    that a given list is not empty), what is printed and plotted, the option -p, and the limit of
    the years pandas can represent (1677 to 2262). *)
From Coq Require Import Ascii.
From Verif Require Import Base Utils Appliance User UseCase Calendar Tabular PostProcess Convert.
Open Scope string_scope.
Open Scope list_scope.
Open Scope Z_scope.

(** a [datetime.date]: year, month, day *)
Definition ymd : Type := (Z * Z * Z)%type.
Definition year_of (d : ymd) : Z := fst (fst d).
(** [datetime.date(y, m, d)] for a day that exists in every year: the year must be 1 to 9999 *)
Definition mk_date (y m d : Z) : res ymd := if (1 <=? y) && (y <=? 9999) then Ok (y, m, d) else Err ValueError.
(** the date as the use case sees it *)
Definition midnight_of (d : ymd) : Z := let '(y, m, dd) := d in midnight y m dd.

(** the parsed command line, cli.py:12-76 *)
Record args : Type := Args {
  a_in : option (list string);      (* -i *)
  a_out : option (list string);     (* -o *)
  a_days : option (list Z);         (* -n *)
  a_years : option (list Z);        (* -y *)
  a_start : option ymd;             (* --start-date *)
  a_end : option ymd;               (* --end-date *)
  a_ext : string                    (* --ext *)
}.

(** what main reads from the disk: which paths are folders, their entries, the table of an xlsx
    file, which .py files exist *)
Record disk : Type := Disk {
  is_dir : string -> bool;
  list_dir : string -> list string;
  sheet : string -> res table;
  exists_py : string -> bool
}.

(** ** The order of the month files, cli.py:124-129 *)

Definition is_digit (c : ascii) : bool := (48 <=? Z.of_nat (nat_of_ascii c)) && (Z.of_nat (nat_of_ascii c) <=? 57).
(** ["".join(filter(str.isdigit, f))], ASCII digits only *)
Fixpoint digits (s : string) : list Z :=
  match s with
  | EmptyString => []
  | String c s' => if is_digit c then (Z.of_nat (nat_of_ascii c) - 48) :: digits s' else digits s'
  end.
(** [int(...)] of that text: ValueError on the empty text *)
Definition sort_key (f : string) : res Z :=
  match digits f with [] => Err ValueError | ds => Ok (fold_left (fun n d => 10 * n + d) ds 0) end.
(** [list.sort(key=...)], stable *)
Fixpoint insert_key (x : Z * string) (l : list (Z * string)) : list (Z * string) :=
  match l with
  | [] => [x]
  | y :: l' => if fst x <=? fst y then x :: l else y :: insert_key x l'
  end.
Definition sort_by_key (fs : list string) : res (list string) :=
  rbind (map_res (fun f => rbind (sort_key f) (fun k => Ok (k, f))) fs) (fun kfs =>
  Ok (map snd (fold_right insert_key [] kfs))).

(** ** Resolution of the arguments, cli.py:79-168 and 180-194 *)

(** one call of run_usecase *)
Record job : Type := Job {
  j_file : string; j_out : option string; j_days : option Z; j_start : option ymd; j_end : option ymd
}.
Inductive plan : Type :=
| Usage                                        (* no input: a message is printed *)
| Each (jobs : list job)                       (* one run per input file *)
| Months (year : Z) (jobs : list job) (folder : option string).

(** cli.py:92-107 *)
Definition default_dates (a : args) : res (option ymd * option ymd) :=
  match a_days a, a_start a, a_end a with
  | None, None, Some e => rbind (mk_date (year_of e) 1 1) (fun s => Ok (Some s, Some e))
  | None, Some s, None => rbind (mk_date (year_of s) 12 31) (fun e => Ok (Some s, Some e))
  | _, s, e => Ok (s, e)
  end.

(** cli.py:122-145: the files of the folder, in order; exactly 12 *)
Definition month_files (d : disk) (dir ext : string) : res (list string) :=
  let fs := map (path_join dir) (filter (fun f => ends_with f ext) (list_dir d dir)) in
  rbind (sort_by_key fs) (fun fs => if zlen fs =? 12 then Ok fs else Err ValueError).

(** cli.py:111-147: dates and input files; the year when the months have their own files *)
Definition apply_years (d : disk) (a : args) (dates : option ymd * option ymd)
    : res (option ymd * option ymd * option (list string) * option Z) :=
  match a_years a with
  | None => Ok (fst dates, snd dates, a_in a, None)
  | Some ys =>
      match dates with
      | (None, None) =>
          match ys with
          | [] => Err IndexError
          | y0 :: rest =>
              rbind (mk_date y0 1 1) (fun s =>
              rbind (mk_date (last rest y0) 12 31) (fun e =>
              match rest, a_in a with
              | [], Some (f0 :: fs) =>
                  if is_dir d f0
                  then rbind (month_files d f0 (a_ext a)) (fun files => Ok (Some s, Some e, Some files, Some y0))
                  else Ok (Some s, Some e, a_in a, None)
              | _, _ => Ok (Some s, Some e, a_in a, None)
              end))
          end
      | _ => Err ValueError
      end
  end.

(** cli.py:153-163, 165-168: one value for all, or one for each *)
Definition spread {A} (l : list A) (m : Z) : res (list A) :=
  match l with
  | [x] => Ok (repeat x (Z.to_nat m))
  | _ => if zlen l =? m then Ok l else Err ValueError
  end.

Fixpoint make_jobs (fs : list string) (outs : list (option string)) (days : list (option Z)) (s e : option ymd) : list job :=
  match fs, outs, days with
  | f :: fs', o :: outs', n :: days' => Job f o n s e :: make_jobs fs' outs' days' s e
  | _, _, _ => []
  end.
(** cli.py:182-195 *)
Fixpoint month_jobs (y : Z) (m : Z) (fs : list string) (days : list (option Z)) : list job :=
  match fs, days with
  | f :: fs', n :: days' => Job f None n (Some (y, m, 1)) (Some (y, m, days_in_month y m)) :: month_jobs y (m + 1) fs' days'
  | _, _ => []
  end.

Definition resolve (d : disk) (a : args) : res plan :=
  rbind (default_dates a) (fun dates =>
  rbind (apply_years d a dates) (fun '(s, e, fs, months) =>
  let outs := match a_out a with None => [None] | Some os => map Some os end in
  match fs with
  | None => Ok Usage
  | Some fs =>
      rbind (match a_days a with
             | Some ns => rbind (spread ns (zlen fs)) (fun ns => Ok (map Some ns))
             | None => Ok (repeat None (List.length fs))
             end) (fun days =>
      match months with
      | None => rbind (spread outs (zlen fs)) (fun outs => Ok (Each (make_jobs fs outs days s e)))
      | Some y => Ok (Months y (month_jobs y 1 fs days) (match outs with [o] => o | _ => None end))
      end)
  end)).

(** ** run_usecase, ramp_run.py:39-70 *)

(** what happens outside the process: csv files written, python programs run *)
Inductive event : Type :=
| Wrote (path : string) (series : list Q)
| Ran_python (path : string)
| Wrote_year (folder : option string) (index : list Z) (profile : list Q) (mean high low : list (Z * option Q)).

(** lines 48-54: the rows for an xlsx file.  The use case is initialized before the file is
    loaded, so the loaded appliances get num_days + 1 power values (core.py:818-824, 1174). *)
Definition run_xlsx (depth : nat) (F : fm) (strict : bool) (w : world) (t : res table) (start stop : option Z)
    (num_days : option Z) : prog (list (list Q)) :=
  c <- new_usecase F w [] start stop false (15 # 100) None ;;
  r <- initialize F w c num_days None false ;;
  match snd r with
  | Some e => Raise e
  | None =>
      let c := fst r in
      let n := if is_initialized c then match num_days_ c with Some n => n | None => 366 end else 366 in
      us <- lift (rbind t (load_table F strict n)) ;;
      g <- generate_sequential depth F w (collect_appliances (set_users c us)) None ;;
      Ret (snd g)
  end.

Definition run_job (depth : nat) (F : fm) (strict : bool) (w : world) (d : disk) (j : job) : prog (list (list Q)) :=
  run_xlsx depth F strict w (sheet d (j_file j)) (option_map midnight_of (j_start j)) (option_map midnight_of (j_end j)) (j_days j).

(** [run_usecase(..., plot=True)] with old_post_process (post_process.py:102-111) *)
Definition run_and_export (depth : nat) (F : fm) (strict : bool) (w : world) (d : disk) (results : string) (j : job) : prog (list event) :=
  if ends_with (j_file j) ".xlsx" then
    rows <- run_job depth F strict w d j ;;
    p <- lift (Profile_formatting F rows) ;;
    match export_path results None (Some (j_file j)) (j_out j) with
    | Some path => Ret [Wrote path (snd p)]
    | None => Ret []
    end
  else if ends_with (j_file j) ".py" then
    (if exists_py d (j_file j) then Ret [Ran_python (j_file j)] else Raise FileNotFoundError)
  else Raise TypeError.

(** [run_usecase(..., plot=False)]: None from a .py file has no reshape *)
Definition run_month (depth : nat) (F : fm) (strict : bool) (w : world) (d : disk) (j : job) : prog (list (list Q)) :=
  if ends_with (j_file j) ".xlsx" then run_job depth F strict w d j
  else if ends_with (j_file j) ".py" then
    (if exists_py d (j_file j) then Raise AttributeError else Raise FileNotFoundError)
  else Raise TypeError.

(** ** main *)

(** the exception of a computation as a value *)
Fixpoint attempt {A} (p : prog A) : prog (res A) :=
  match p with
  | Ret a => Ret (Ok a)
  | Raise e => Ret (Err e)
  | Random k => Random (fun u => attempt (k u))
  | RandBelow n k => RandBelow n (fun i => attempt (k i))
  | Normal c k => Normal c (fun z => attempt (k z))
  | Seed s k => Seed s (attempt k)
  end.

(** cli.py:170-179: the runs in order; the events until an exception ends the program *)
Fixpoint run_each (depth : nat) (F : fm) (strict : bool) (w : world) (d : disk) (results : string) (js : list job)
    : prog (list event * option exc) :=
  match js with
  | [] => Ret ([], None)
  | j :: js' =>
      r <- attempt (run_and_export depth F strict w d results j) ;;
      match r with
      | Err e => Ret ([], Some e)
      | Ok evs => rest <- run_each depth F strict w d results js' ;; Ret (evs ++ fst rest, snd rest)
      end
  end.

(** cli.py:181-199 *)
Fixpoint run_months (depth : nat) (F : fm) (strict : bool) (w : world) (d : disk) (js : list job) : prog (list (list Q)) :=
  match js with
  | [] => Ret []
  | j :: js' =>
      rows <- run_month depth F strict w d j ;;
      rest <- run_months depth F strict w d js' ;;
      Ret (flatten rows :: rest)
  end.
(** cli.py:202-207: a frame needs as many values as time steps *)
Definition year_index (y : Z) : list Z := minute_range (midnight y 1 1) (midnight y 12 31 + 1439).
Definition year_frame (y : Z) (profile : list Q) : res (list Z * list Q) :=
  if zlen profile =? zlen (year_index y) then Ok (year_index y, profile) else Err ValueError.

Definition main (depth : nat) (F : fm) (strict : bool) (w : world) (d : disk) (results : string) (a : args)
    : prog (list event * option exc) :=
  match resolve d a with
  | Err e => Ret ([], Some e)
  | Ok Usage => Ret ([], None)
  | Ok (Each js) => run_each depth F strict w d results js
  | Ok (Months y js folder) =>
      r <- attempt (ms <- run_months depth F strict w d js ;; lift (year_frame y (List.concat ms))) ;;
      match r with
      | Err e => Ret ([], Some e)
      | Ok (ix, p) => Ret ([Wrote_year folder ix p (resample F 60 Mean ix p) (resample F 60 Max ix p) (resample F 60 Min ix p)], None)
      end
  end.
