import json
M=[]
def m(id,file,de,old,new,edit,breaks,claims):
    M.append(dict(id=id,file=file,**{"def":de},old=old,new=new,edit=edit,breaks=breaks,claims=claims.split()))
U="Utils.v"; A="Appliance.v"; S="User.v"; C="UseCase.v"; K="Calendar.v"; T="Tabular.v"; P="PostProcess.v"; V="Convert.v"; L="Cli.v"; B="Attributes.v"
m("U1",U,"random_variation","(fsub F 1 var) (fadd F 1 var) ;;","(fsub F 1 var) 1 ;;","upper limit 1 instead of 1+var","C02: values up to norm*(1+var) can be drawn","C02")
m("U2",U,"random_variation","Ret (fmul F norm u).","Ret (fmul F var u).","multiplies var instead of norm","C02: result is norm times a factor near 1","C02")
m("U3",U,"duty_cycle","x2 <- random_variation F (- var) (zq t2) ;;","x2 <- random_variation F (- var) (zq t1) ;;","duration of part 2 from t1","C03: second part lasts about t2 minutes","C03")
m("U4",U,"duty_cycle","Ret (c1 ++ c2).","Ret (c2 ++ c1).","parts swapped","C03: p1 first, then p2","C03")
m("U5",U,"range_within_window","((low >? snd w) && (high >? snd w))","((low >=? snd w) && (high >=? snd w))","boundary minute excluded","C01: common minute at the end of the window counts","C01")
m("U6",U,"within_peak_time_window","(win_start >? peak_win_stop) && (win_stop >? peak_win_stop)","(win_start >? peak_win_stop) || (win_stop >? peak_win_stop)","|| instead of &&: event past the peak end","C01: partial overlap counts","C01")
m("U7",U,"random_choice","d2 <- duty_cycle F var t2 p2 t1 p1 ;;","d2 <- duty_cycle F var t2 p1 t1 p2 ;;","powers not swapped with the times","C03: the second choice is p2 for t2 then p1 for t1","C03")
m("U8",U,"random_choice","py_choice2 d1 d2.","Ret d1.","never the reversed cycle","C03: both orders can occur","C03")
m("A1",A,"windows","match w2 with None => num_windows (par a) >=? 2","match w2 with None => num_windows (par a) >? 2","missing window 2 accepted for num_windows=2","C05: missing window_2 raises","C05")
m("A2",A,"windows","if wt <? func_time (par a) then","if wt <=? func_time (par a) then","equal length rejected","C05/C24: windows exactly as long as func_time are accepted","C05 C24")
m("A3",A,"windows","match fill_window d1 (window_2 w) m with","match fill_window d1 (window_1 w) m with","window 2 not in the mask","C35: maximum profile covers the declared windows","C35 C05")
m("A4",A,"windows","(rv (window_1 w)) (rv (window_2 w)) (rv (window_3 w)) in","(rv (window_1 w)) (rv (window_1 w)) (rv (window_3 w)) in","random variability of window 2 from window 1","C05/C06: variability of a window is its own length times random_var_w","C05 C06")
m("A5",A,"windows","Some x => x end)\n                (window_2 w) (window_3 w) (random_var_w w)","Some x => (fst x, snd x + 1) end)\n                (window_2 w) (window_3 w) (random_var_w w)","window 1 one minute longer","C05: stored windows are the given ones","C05")
m("A6",A,"check_power_values","Ok (set_power a (repeat p0 (Z.to_nat (num_days + 1))))","Ok (set_power a (repeat p0 (Z.to_nat (num_days - 1))))","too few constant powers","C32: enough power values","C32")
m("A7",A,"check_power_values","else Err ValueError\n  else Ok a.","else Ok a\n  else Ok a.","short series accepted","C32: a short series raises ValueError","C32")
m("A8",A,"assign_random_cycles","else Ret (set_cycles d c1 c2 c1)","else Ret (set_cycles d c1 c1 c1)","second cycle dropped","C18/C19: cycle 2 uses its own parameters","C18 C19")
m("A9",A,"assign_random_cycles","c2 <- duty_cycle F (cr (cyc2 a)) (ct1 (cyc2 a)) p21 (ct2 (cyc2 a)) p22 ;;","c2 <- duty_cycle F (cr (cyc2 a)) (ct1 (cyc2 a)) p22 (ct2 (cyc2 a)) p21 ;;","powers of cycle 2 swapped","C18: cycle 2 is p_21 for t_21 then p_22 for t_22","C18")
m("A10",A,"book_spot","else if i0 =? s then (il + 1, e) :: rest","else if i0 =? s then (il, e) :: rest","last minute of the event stays free","C11: booking removes exactly the minutes","C11 C13")
m("A11",A,"book_spot","else (s, i0) :: (il + 1, e) :: rest\n","else (s, i0) :: rest\n","rest after the event lost","C11","C11 C15")
m("A12",A,"book_spot","if (i0 =? s) && (il =? e) then rest","if (i0 =? s) && (il =? e) then (s, e) :: rest","full range not removed","C11","C11")
m("A13",A,"update_daily_use","map (fun x => fmul F x (zq coincidence)) (cycle_of d i)","map (fun x => fmul F x (zq 1)) (cycle_of d i)","duty cycle not multiplied by the coincidence","C17/C18: power of an event is coincidence times the cycle","C17 C18 C13")
m("A14",A,"update_daily_use","(fmul F (zq coincidence) pw)","(fmul F (zq (number (par a))) pw)","always all appliances","C13/C17: event power is coincidence*power*variation","C13 C17")
m("A15",A,"update_daily_use","Ret (set_free_spots (set_daily_use d du) fs, vals).","Ret (set_daily_use d du, vals).","event not booked","C13/C14: events do not overlap","C13 C14 C15")
m("A16",A,"calc_rand_window","x1 <- py_randint (snd w - rv) (snd w + rv) ;;","x1 <- py_randint (fst w - rv) (fst w + rv) ;;","end of the window drawn around its start","C06","C06")
m("A17",A,"calc_rand_window","if x1 >? 1440 then 1440 else x1","x1","not clipped to the day","C06/C12","C06 C12")
m("A18",A,"app_maximum_profile","(zq (number (par a)))) (daily_use","(zq 1)) (daily_use","number of appliances forgotten","C35","C35 C34")
m("A19",A,"rand_total_time_of_use","let rand_time := if rand_time <? fc then fc else rand_time in","let rand_time := rand_time in","not raised to func_cycle","C07: at least func_cycle","C07")
m("A20",A,"rand_total_time_of_use","if Qltb limit (zq rand_time) then py_int limit else rand_time","rand_time","no limit at 99% of the windows","C07: at most 99% of the windows","C07 C23")
m("A21",A,"rand_total_time_of_use","let total_time := diff rw1 + diff rw2 + diff rw3 in","let total_time := diff rw1 + diff rw2 in","third window not counted","C07","C07")
m("A22",A,"indexes_choice","arange (fst s) (snd s - fc + 1)","arange (fst s) (snd s - fc)","last feasible start never drawn","C09: all feasible starts","C09 C08")
m("A23",A,"indexes_choice","if snd s - fst s >=? fc then","if snd s - fst s >? fc then","range of exactly func_cycle minutes ignored","C09/C15","C09 C15")
m("A24",A,"rand_switch_on_window","let largest := Z.min rand_time (snd spot - switch_on) in","let largest := Z.min rand_time (snd spot - switch_on + 1) in","event may pass the end of the range","C08/C12","C08 C12")
m("A25",A,"rand_switch_on_window","let largest := Z.min rand_time (snd spot - switch_on) in","let largest := snd spot - switch_on in","event not limited by rand_time","C08: at most rand_time minutes","C08")
m("A26",A,"rand_switch_on_window","(zlen indexes >? dur) && (continuous_duty_cycle (par a) =? 0)","(zlen indexes >? dur) && (continuous_duty_cycle (par a) =? 1)","cut when continuous","C18/C08","C18 C08")
m("A27",A,"select_cycle","else if hit (cyc2 a) then Some 2\n  else if hit (cyc3 a) then Some 3","else if hit (cyc2 a) then Some 3\n  else if hit (cyc3 a) then Some 2","cycles 2 and 3 swapped","C19","C19")
m("A28",A,"calc_coincident_switch_on","Ret (Z.min n (Z.max 1 (py_ceil g)))","Ret (Z.min n (Z.max 0 (py_ceil g)))","coincidence 0 possible in the peak","C10","C10")
m("A29",A,"calc_coincident_switch_on","if inside && no then","if negb inside && negb no then","wrong case for the normal draw","C10","C10")
m("A30",A,"on_number","fold_left Z.max ks k + 1","fold_left Z.max ks k + 2","off by one off peak","C10","C10")
m("A31",A,"use_loop","let adj := firstn (Z.to_nat (zlen indexes - (tot_time - rand_time))) indexes in","let adj := indexes in","last event not cut","C14/C15: total on-time","C14 C15")
m("A32",A,"use_loop","if (tot_time <=? rand_time) && negb (rand_time =? 0) then","if (tot_time <? rand_time) && negb (rand_time =? 0) then","stops when equal (same result)","equivalent: with < the loop stops earlier, nothing is lost; C15 still true","C15 C14")
m("A33",A,"use_loop","if tot_time >? rand_time then","if tot_time >=? rand_time then","last event cut even when it fits exactly (cut of 0 minutes)","equivalent in the model (cut by 0); in Python indexes[:-0] would be empty","C15")
m("A34",A,"skip_day","(negb (pref_index (par a) =? 0) && negb (rand_daily_pref =? pref_index (par a)))","(negb (rand_daily_pref =? pref_index (par a)))","appliances without preference skipped too","C20","C20")
m("A35",A,"skip_day","|| negb ((wd_we_type (par a) =? day_type) || (wd_we_type (par a) =? 2))","|| negb (wd_we_type (par a) =? day_type)","appliances of all days skipped","C20","C20")
m("A36",A,"skip_day","Qltb (occasional_use (par a)) u\n","Qltb u (occasional_use (par a))\n","occasional use inverted","C20/C21","C20 C21")
m("A37",A,"generate_load_profile_traced","let d := set_daily_use (st a) (zeros day_minutes) in","let d := st a in","profile of the day before kept","C12/C20: skipped day is zero","C12 C20 C13")
m("A38",A,"generate_load_profile_traced","(fmul F p (zq (number (par a))))) ;;","p) ;;","flat appliance: number forgotten","C22","C22")
m("A39",A,"generate_load_profile_traced","p <- lift (py_index (power a) prof_i) ;;","p <- lift (py_index (power a) 0) ;;","flat appliance always uses power of day 0","C22","C22")
m("A40",A,"generate_load_profile_traced","let spots := filter (fun w => negb (fst w =? snd w)) rws in","let spots := rws in","empty windows kept as free ranges (equivalent: no start fits there when func_cycle > 0)","probably equivalent for func_cycle >= 1","C13 C08")
m("A41",A,"specific_cycle","let c' := Cycle p1 t1 p2 t2 r","let c' := Cycle p1 t1 p1 t2 r","power of part 2 from part 1","C40: cycle cells load into their attributes","C40 C43")
m("A42",A,"use_event","coincidence <- calc_coincident_switch_on F a (within_peak_time_window i0 il p0 pl) ;;","coincidence <- calc_coincident_switch_on F a (within_peak_time_window p0 pl i0 i0) ;;","peak test with the start of the event only","C10/C13: an event meeting the peak range draws the peak coincidence","C10 C13")
m("S1",S,"member","if Nat.eqb r self then Ok true","if Nat.eqb r self then Ok false","same object added twice","C37","C37")
m("S2",S,"register","(refs g ++ [r])))","(r :: refs g)))","registered at the front","C37: order of registration","C37")
m("S3",S,"register","(S (List.length (refs g)))","(List.length (refs g))","automatic name counts from 0","C37: n-th appliance is named appliance_n","C37")
m("S4",S,"value_eq","| VWin x, VWin y => Ok ((fst x =? fst y) && (snd x =? snd y))","| VWin x, VWin y => Ok (fst x =? fst y)","windows compared by their start","C38","C38")
m("S5",S,"eq_loop","| _, _ => eq_loop strict a b rest (answer && false)","| _, _ => eq_loop strict a b rest answer","attribute missing on one side ignored (does not occur)","equivalent: both have every listed attribute","C38")
m("S6",S,"user_maximum_profile","map (fun x => fmul F x (zq (num_users u)))","map (fun x => fmul F x (zq 1))","number of members forgotten","C35/C34","C35 C34")
m("S7",S,"generate_apps","rest (vadd F acc (daily_use (st a'))) ;;","rest (daily_use (st a')) ;;","only the last appliance counts","C25","C25")
m("S8",S,"draw_pref","py_randint 1 (user_preference u)","py_randint 0 (user_preference u)","preference 0 possible","C26","C26")
m("S9",S,"generate_members","(vadd F (load (fst r)) (snd r))","(snd r)","only the last member counts","C25","C25")
m("S10",S,"generate_aggregated_load_profile","(set_load u (zeros day_minutes))","u","load of the day before not cleared","C25","C25 C28")
m("S11",S,"windows_on","| (a', Some e) => (update_object g r (fun _ => a'), Some e)","| (a', Some e) => (match register strict g r with Ok g2 => g2 | Err _ => g end, Some e)","registered although windows raised","C05: raising registers nothing","C05")
m("S12",S,"generate_single_load_profile","Ret (set_apps (set_pref u pref) (fst r), snd r).","Ret (set_apps (set_pref u pref) (app_list u), snd r).","appliances not updated (equivalent for the loads)","state of the appliances is not part of the claim C25","C25 C26")
m("S13",S,"generate_single_load_profile","r <- generate_apps depth F pref prof_i peak day_type (app_list u) (zeros","r <- generate_apps depth F (rand_daily_pref u) prof_i peak day_type (app_list u) (zeros","preference of the day before","C26: the drawn preference is used by all appliances","C26")
m("C1",C,"get_day_type","if weekday d >? 4 then 1 else 0","if weekday d >=? 4 then 1 else 0","Friday is weekend","C04","C04")
m("C2",C,"date_range_se","((e - s) / 1440 + 1)","((e - s) / 1440)","last day missing","C31/C27","C31 C27")
m("C3",C,"date_range_ep","map (fun k => e - 1440 * (n - 1) + 1440 * k)","map (fun k => e - 1440 * n + 1440 * k)","one day early","C31","C31")
m("C4",C,"init_index","(minute_range d (last ds d + 1440 - 1))","(minute_range d (last ds d + 1440))","one minute too many","C27","C27")
m("C5",C,"init_both_dates","if negb (n =? zlen ds) then set_days c None else","if negb (n =? zlen ds) then set_num_days c (Some (zlen ds)) else","num_days argument overridden by the dates","C31","C31 C27")
m("C6",C,"draw_peak_range","let k := Z.max (py_round (Qabs (fsub F (zq peak_time) g))) 1 in","let k := py_round (Qabs (fsub F (zq peak_time) g)) in","empty range possible","C33","C33")
m("C7",C,"draw_peak_range","Ret (Ok (arange (peak_time - k) (peak_time + k)))","Ret (Ok (arange (peak_time + k) (peak_time - k)))","limits swapped","C33","C33")
m("C8",C,"draw_peak_range","(fmul F enlarge (zq peak_time))","(fmul F enlarge enlarge)","enlargement not scaled by the peak time","C34","C34")
m("C9",C,"peak_window","filter (fun t => Qeq_bool (nth (Z.to_nat t) p 0%Q) peak)","filter (fun t => Qle_bool (nth (Z.to_nat t) p 0%Q) peak)","all minutes qualify","C34","C34")
m("C10",C,"total_max_profile","fold_left (fun acc u => vadd F acc (user_maximum_profile F u))","fold_left (fun acc u => user_maximum_profile F u)","only the last user","C34","C34")
m("C11",C,"day_loop","(get_day_type d) us","(get_day_type (d + 1440)) us","day type of the next day","C28","C28")
m("C12",C,"day_loop","(list_set rows (Z.to_nat i) (snd r))","(list_set rows 0 (snd r))","all days written to row 0","C27/C28","C28")
m("C13",C,"day_of_users","(vadd F acc (load u'))","(load u')","only the last user","C28","C28")
m("C14",C,"new_usecase","match seed_of seed with Some z => Seed z (Ret c) | None => Ret c end.","Ret c.","seed ignored","C36","C36")
m("C15",C,"tasks_of_day","repeat (Task i dt a (rand_daily_pref u)) (Z.to_nat (num_users u))","repeat (Task i dt a (rand_daily_pref u)) 1","one task per appliance, members forgotten","C29","C29")
m("C16",C,"vstack_sum","r :: rs => fold_left (vadd F) rs r end.","r :: rs => r end.","only the first answer","C29","C29 C30")
m("C17",C,"dict_append","if i =? j then (j, ls ++ [l]) :: d'","if i =? j then (j, [l]) :: d'","later answer replaces the earlier","C29","C29")
m("C18",C,"gather","assemble F (dict_of arrivals) (arange 0 n).","assemble F (dict_of arrivals) (map fst (dict_of arrivals)).","days in order of arrival","C29","C29")
m("C19",C,"check_powers","| Ok a' => check_powers (put_app us ij a') refs' n","| Ok a' => check_powers us refs' n","checked power not stored","C32","C32")
m("C20",C,"set_peak_enlarge","if Qle_bool 0 q then","if Qle_bool q 0 then","negative enlargement accepted","C33","C33 C34")
m("C21",C,"initialize","let c := if is_initialized c && force then set_days c None else c in","let c := if is_initialized c && force then set_num_days (set_days c None) None else c in","force also forgets the number of days (a repair of the known fault)","C31_force_refuted: the stale number of days is a fault of the code","C31")
m("C22",C,"work","pw <- lift (py_index (power (t_app t)) (t_day t)) ;;","pw <- lift (py_index (power (t_app t)) 0) ;;","worker uses the power of day 0","C29/C30","C30 C29")
m("K1",K,"is_leap","(negb (y mod 100 =? 0) || (y mod 400 =? 0))","negb (y mod 100 =? 0)","2000 not a leap year","C04","C04")
m("K2",K,"days_in_month","31; 28; 31; 30; 31; 30; 31; 31; 30; 31; 30; 31] 0.","31; 28; 31; 30; 31; 30; 31; 31; 30; 31; 31; 31] 0.","31 days in November","C46","C46")
m("K3",K,"yearly_pattern","5 7) 6 7","5 7) 7 7","Monday instead of Sunday","C04","C04")
m("K4",K,"yearly_pattern","(midnight y 12 31))","(midnight y 12 30))","last day of the year missing","C04","C04")
m("T1",T,"excel_cell","match c with CText \"\" => CBlank | _ => c end.","c.","empty text stays (not what Excel does)","C40_no_name_refuted: users without a name are lost","C40 C43")
m("T2",T,"read_power","if zlen rows =? 366 then Ok c else Err ValueError   (* 71-80 *)","Ok c","series of any length accepted","C40_series_length_refuted","C41 C40")
m("T3",T,"window_arg","(py_int (number_of_cell s), py_int (number_of_cell e))","(py_int (number_of_cell s), py_int (number_of_cell s))","end of the window from the start column","C40","C40")
m("T4",T,"params_of","rbind (arg as_Z 2 \"wd_we_type\" kw)","rbind (arg as_Z 0 \"wd_we_type\" kw)","default of wd_we_type 0","C43: default values","C43")
m("T5",T,"add_kwargs","\"p_21\" \"t_21\" \"cw21\" \"p_22\" \"t_22\" \"cw22\" \"r_c2\"","\"p_21\" \"t_21\" \"cw21\" \"p_22\" \"t_22\" \"cw22\" \"r_c1\"","variability of cycle 2 from cycle 1","C40","C40")
m("T6",T,"load_user","match unique (map (fun r => row_get r \"user_preference\") rows) with","match unique (map (fun r => row_get r \"num_users\") rows) with","contradictory preferences not noticed","C42","C42")
m("T7",T,"rows_named","filter (fun r => cell_eq (row_get r \"user_name\") un) t.","t.","every user gets all rows","C42/C40","C42 C40")
m("T8",T,"as_power","CArray rows => Ok (PSeries (map (fun r => hd 0%Q r) rows))","CArray rows => Ok (PSeries (map (fun r => last r 0%Q) rows))","last column instead of the first","C52_two_columns_refuted (a repair) ","C52")
m("T9",T,"save_user","| [] => Err PlainException\n","| [] => Ok []\n","user without appliances saved silently","C40","C40")
m("P1",P,"Profile_formatting","let kW := map (map (fun x => fdiv F x 1000)) stoch_profiles in","let kW := map (map (fun x => fdiv F x 100)) stoch_profiles in","kW by dividing by 100","C48","C48")
m("P2",P,"Profile_formatting","map (fun x => fdiv F x (zq (zlen stoch_profiles))) total","total","average not divided","C48","C48")
m("P3",P,"resample","let origin := 1440 * (t0 / 1440) in","let origin := t0 in","bins count from the first time step","C49: hour bins begin on the hour","C49")
m("P4",P,"aggregate","| Min, x :: l' => Some (fold_left qmin l' x)","| Min, x :: l' => Some (fold_left qmax l' x)","minimum is the maximum","C49","C49")
m("P5",P,"insert_desc","if Qle_bool y x then x :: l","if Qle_bool x y then x :: l","ascending","C50","C50")
m("P6",P,"peak_of_column","Qeq_bool (snd tv) (fold_left qmax vs' x)","Qle_bool (fold_left qmax vs' x) (snd tv)","equivalent: >= the maximum","equivalent","C50")
m("P7",P,"error_at","Fin (fmul F (fdiv F (fsub F a b) b) 100)","Fin (fmul F (fdiv F (fsub F a b) a) 100)","relative to the simulated value","C54","C54")
m("P8",P,"col_set","if String.eqb n k then (n, v) :: cols'","if String.eqb n k then cols' ++ [(n, v)]","replaced column moves to the end","C53: other columns stay where they were","C53")
m("P9",P,"plot_mean","(zq (zlen (f_cols f)))) (seq","(zq (zlen (f_index f)))) (seq","mean over the rows","C56","C56")
m("P10",P,"load_duration_curve","(arange 1 (zlen v + 1))","(arange 0 (zlen v))","positions from 0","C50","C50")
m("P11",P,"kahan","kahan F t (fsub F (fsub F t s) y) l'","kahan F t (fsub F y (fsub F t s)) l'","compensation with the wrong sign (zero in exact arithmetic)","C49 holds in exact arithmetic only; with rounding the sum is worse","C49")
m("V1",V,"convert","let keep_names := if existsb (String.eqb marker) lines then false else keep_names in","","name code appended on every conversion","C51","C51")
m("V2",V,"convert","if k =? -1 then text","if k =? 0 then text","import on the first line not converted","C51","C51")
m("V3",V,"line_to_change","(if contains old_import l then i else found)","(if contains new_import l then i else found)","looks for the new import","C51","C51")
m("V4",V,"converted_path","(replace \".py\" suffix (path_tail EmptyString fname))","(replace \".py\" suffix fname)","folder of the input kept although an output path is given","C57","C57")
m("L1",L,"default_dates","rbind (mk_date (year_of s) 12 31) (fun e => Ok (Some s, Some e))","rbind (mk_date (year_of s + 1) 12 31) (fun e => Ok (Some s, Some e))","end of the next year","C44","C44")
m("L2",L,"apply_years","rbind (mk_date (last rest y0) 12 31)","rbind (mk_date y0 12 31)","only the first year","C44","C44")
m("L3",L,"month_files","if zlen fs =? 12 then Ok fs else Err ValueError","Ok fs","any number of files","C46","C46")
m("L4",L,"month_jobs","(Some (y, m, days_in_month y m))","(Some (y, m, 30))","30 days each month","C46","C46")
m("L5",L,"insert_key","if fst x <=? fst y then x :: l","if fst y <=? fst x then x :: l","descending","C47","C47")
m("L6",L,"spread","if zlen l =? m then Ok l else Err ValueError","Ok l","wrong number of values accepted","C45","C45")
m("L7",L,"digits","(Z.of_nat (nat_of_ascii c) - 48) :: digits s' else digits s'","(Z.of_nat (nat_of_ascii c) - 48) :: digits s' else []","only leading digits","C47","C47")
m("L8",L,"run_each","| Err e => Ret ([], Some e)\n      | Ok evs => rest","| Err e => run_each depth F strict w d results js'\n      | Ok evs => rest","a failing file is skipped","C45/C44: every input is done or the run ends with an exception","C45 C44")
m("L9",L,"run_xlsx","r <- initialize F w c num_days None false ;;","r <- initialize F w c None None false ;;","-n ignored","C45: number of days of each file","C45")
m("L10",L,"year_index","(midnight y 12 31 + 1439)","(midnight y 12 31)","last day of the index missing","C46","C46")
json.dump(M,open('/tmp/mutants.json','w'),indent=0)
print(len(M))
