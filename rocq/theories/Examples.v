(** * Examples: the example inputs shipped with RAMP, ramp/example/input_file_1.py, _2.py, _3.py

    Transcribed statement by statement by tools/mk_examples.py (Python's ast on the text of the files).  A decimal literal of
    the source is [flit F] of its decimal value (the parser rounds it), an integer literal is exact.  The blocks under
    [if __name__ == "__main__"] are modelled by [simulate] (PropsTotal.v). *)
From Verif Require Import Base Utils Appliance User Declare Script.
From Coq Require Import String.
Open Scope string_scope.
Open Scope list_scope.
Open Scope Z_scope.

(** [User(name, num_users, user_preference)], core.py:649-674, and the statements about its appliances *)
Record example_user : Type := EUser { e_name : string; e_num : Z; e_pref : Z; e_calls : list call }.

(** running the statements of one user; its num_days is 366 (core.py:676-685, no use case yet).  The statements about
    different users touch different objects: they are grouped by user. *)
Definition build_user (F : fm) (strict : bool) (e : example_user) : res user :=
  match run_script F strict 366 (Registry [] []) (e_calls e) with
  | (g, None) => Ok (set_apps (new_user (e_name e) (e_num e) (e_pref e)) (registered g))
  | (_, Some x) => Err x
  end.
Fixpoint build_users (F : fm) (strict : bool) (es : list example_user) : res (list user) :=
  match es with
  | [] => Ok []
  | e :: es' => rbind (build_user F strict e) (fun u => rbind (build_users F strict es') (fun us => Ok (u :: us)))
  end.

(** ramp/example/input_file_1.py: a village *)
Definition input_file_1 (F : fm) : list example_user := [
  (* input_file_1.py:22 *)
  EUser "high income" 11 3 [
    (* input_file_1.py:83 *) CAdd (Params "indoor_bulb" 6 2 120 (flit F (2 # 10)) 10 "no" 0 1 1 "no" 0 0 2) (PConst 7) no_windows no_cycle no_cycle no_cycle;
    (* input_file_1.py:84 *) COn 0 (DWindows (Some (1170, 1440)) (Some (0, 30)) (flit F (35 # 100)) None);
    (* input_file_1.py:86 *) CAdd (Params "outdoor_bulb" 2 2 600 (flit F (2 # 10)) 10 "no" 0 1 1 "no" 0 0 2) (PConst 13) no_windows no_cycle no_cycle no_cycle;
    (* input_file_1.py:87 *) COn 1 (DWindows (Some (0, 330)) (Some (1170, 1440)) (flit F (35 # 100)) None);
    (* input_file_1.py:89 *) CAdd (Params "TV" 2 3 180 (flit F (1 # 10)) 5 "no" 0 1 1 "no" 0 0 2) (PConst 60) no_windows no_cycle no_cycle no_cycle;
    (* input_file_1.py:90 *) COn 2 (DWindows (Some (720, 900)) (Some (1170, 1440)) (flit F (35 # 100)) (Some (0, 60)));
    (* input_file_1.py:92 *) CAdd (Params "DVD" 1 3 60 (flit F (1 # 10)) 5 "no" 0 1 1 "no" 0 0 2) (PConst 8) no_windows no_cycle no_cycle no_cycle;
    (* input_file_1.py:93 *) COn 3 (DWindows (Some (720, 900)) (Some (1170, 1440)) (flit F (35 # 100)) (Some (0, 60)));
    (* input_file_1.py:95 *) CAdd (Params "antenna" 1 3 120 (flit F (1 # 10)) 5 "no" 0 1 1 "no" 0 0 2) (PConst 8) no_windows no_cycle no_cycle no_cycle;
    (* input_file_1.py:96 *) COn 4 (DWindows (Some (720, 900)) (Some (1170, 1440)) (flit F (35 # 100)) (Some (0, 60)));
    (* input_file_1.py:98 *) CAdd (Params "phone_charger" 5 2 300 (flit F (2 # 10)) 5 "no" 0 1 1 "no" 0 0 2) (PConst 2) no_windows no_cycle no_cycle no_cycle;
    (* input_file_1.py:99 *) COn 5 (DWindows (Some (1110, 1440)) (Some (0, 30)) (flit F (35 # 100)) None);
    (* input_file_1.py:101 *) CAdd (Params "freezer" 1 1 1440 0 30 "yes" 3 1 1 "no" 0 0 2) (PConst 200) no_windows no_cycle no_cycle no_cycle;
    (* input_file_1.py:102 *) COn 6 (DWindows (Some (0, 1440)) (Some (0, 0)) 0 None);
    (* input_file_1.py:103 *) COn 6 (DCycle 1 (CycleArgs (Some 200%Q) (Some 20) None (Some 5%Q) (Some 10) None (Some 0%Q)));
    (* input_file_1.py:104 *) COn 6 (DCycle 2 (CycleArgs (Some 200%Q) (Some 15) None (Some 5%Q) (Some 15) None (Some 0%Q)));
    (* input_file_1.py:105 *) COn 6 (DCycle 3 (CycleArgs (Some 200%Q) (Some 10) None (Some 5%Q) (Some 20) None (Some 0%Q)));
    (* input_file_1.py:106-108 *) COn 6 (DBehaviour (Some (480, 1200)) (Some (0, 0)) (Some (300, 479)) (Some (0, 0)) (Some (0, 299)) (Some (1201, 1440)));
    (* input_file_1.py:110 *) CAdd (Params "freezer2" 1 1 1440 0 30 "yes" 3 1 1 "no" 0 0 2) (PConst 200) no_windows no_cycle no_cycle no_cycle;
    (* input_file_1.py:111 *) COn 7 (DWindows (Some (0, 1440)) (Some (0, 0)) 0 None);
    (* input_file_1.py:112 *) COn 7 (DCycle 1 (CycleArgs (Some 200%Q) (Some 20) None (Some 5%Q) (Some 10) None (Some 0%Q)));
    (* input_file_1.py:113 *) COn 7 (DCycle 2 (CycleArgs (Some 200%Q) (Some 15) None (Some 5%Q) (Some 15) None (Some 0%Q)));
    (* input_file_1.py:114 *) COn 7 (DCycle 3 (CycleArgs (Some 200%Q) (Some 10) None (Some 5%Q) (Some 20) None (Some 0%Q)));
    (* input_file_1.py:115-117 *) COn 7 (DBehaviour (Some (480, 1200)) (Some (0, 0)) (Some (300, 479)) (Some (0, 0)) (Some (0, 299)) (Some (1201, 1440)));
    (* input_file_1.py:119 *) CAdd (Params "mixer" 1 3 30 (flit F (1 # 10)) 1 "no" 0 1 (flit F (33 # 100)) "no" 0 0 2) (PConst 50) no_windows no_cycle no_cycle no_cycle;
    (* input_file_1.py:120 *) COn 8 (DWindows (Some (420, 480)) (Some (660, 750)) (flit F (35 # 100)) (Some (1140, 1200)))];
  (* input_file_1.py:25 *)
  EUser "higher middle income" 38 3 [
    (* input_file_1.py:123 *) CAdd (Params "indoor_bulb" 5 2 120 (flit F (2 # 10)) 10 "no" 0 1 1 "no" 0 0 2) (PConst 7) no_windows no_cycle no_cycle no_cycle;
    (* input_file_1.py:124 *) COn 0 (DWindows (Some (1170, 1440)) (Some (0, 30)) (flit F (35 # 100)) None);
    (* input_file_1.py:126 *) CAdd (Params "outdoor_bulb" 2 2 600 (flit F (2 # 10)) 10 "no" 0 1 1 "no" 0 0 2) (PConst 13) no_windows no_cycle no_cycle no_cycle;
    (* input_file_1.py:127 *) COn 1 (DWindows (Some (0, 330)) (Some (1170, 1440)) (flit F (35 # 100)) None);
    (* input_file_1.py:129 *) CAdd (Params "TV" 1 2 120 (flit F (1 # 10)) 5 "no" 0 1 1 "no" 0 0 2) (PConst 60) no_windows no_cycle no_cycle no_cycle;
    (* input_file_1.py:130 *) COn 2 (DWindows (Some (1170, 1440)) (Some (0, 60)) (flit F (35 # 100)) None);
    (* input_file_1.py:132 *) CAdd (Params "DVD" 1 2 40 (flit F (1 # 10)) 5 "no" 0 1 1 "no" 0 0 2) (PConst 8) no_windows no_cycle no_cycle no_cycle;
    (* input_file_1.py:133 *) COn 3 (DWindows (Some (1170, 1440)) (Some (0, 60)) (flit F (35 # 100)) None);
    (* input_file_1.py:135 *) CAdd (Params "antenna" 1 2 80 (flit F (1 # 10)) 5 "no" 0 1 1 "no" 0 0 2) (PConst 8) no_windows no_cycle no_cycle no_cycle;
    (* input_file_1.py:136 *) COn 4 (DWindows (Some (1170, 1440)) (Some (0, 60)) (flit F (35 # 100)) None);
    (* input_file_1.py:138 *) CAdd (Params "radio" 1 2 60 (flit F (1 # 10)) 5 "no" 0 1 1 "no" 0 0 2) (PConst 36) no_windows no_cycle no_cycle no_cycle;
    (* input_file_1.py:139 *) COn 5 (DWindows (Some (390, 450)) (Some (1140, 1260)) (flit F (35 # 100)) None);
    (* input_file_1.py:141 *) CAdd (Params "phone_charger" 4 2 300 (flit F (2 # 10)) 5 "no" 0 1 1 "no" 0 0 2) (PConst 2) no_windows no_cycle no_cycle no_cycle;
    (* input_file_1.py:142 *) COn 6 (DWindows (Some (1110, 1440)) (Some (0, 30)) (flit F (35 # 100)) None);
    (* input_file_1.py:144 *) CAdd (Params "freezer" 1 1 1440 0 30 "yes" 3 1 1 "no" 0 0 2) (PConst 200) no_windows no_cycle no_cycle no_cycle;
    (* input_file_1.py:145 *) COn 7 (DWindows (Some (0, 1440)) (Some (0, 0)) 0 None);
    (* input_file_1.py:146 *) COn 7 (DCycle 1 (CycleArgs (Some 200%Q) (Some 20) None (Some 5%Q) (Some 10) None (Some 0%Q)));
    (* input_file_1.py:147 *) COn 7 (DCycle 2 (CycleArgs (Some 200%Q) (Some 15) None (Some 5%Q) (Some 15) None (Some 0%Q)));
    (* input_file_1.py:148 *) COn 7 (DCycle 3 (CycleArgs (Some 200%Q) (Some 10) None (Some 5%Q) (Some 20) None (Some 0%Q)));
    (* input_file_1.py:149-151 *) COn 7 (DBehaviour (Some (480, 1200)) (Some (0, 0)) (Some (300, 479)) (Some (0, 0)) (Some (0, 299)) (Some (1201, 1440)));
    (* input_file_1.py:153 *) CAdd (Params "mixer" 1 3 30 (flit F (1 # 10)) 1 "no" 0 1 (flit F (33 # 100)) "no" 0 0 2) (PConst 50) no_windows no_cycle no_cycle no_cycle;
    (* input_file_1.py:154 *) COn 8 (DWindows (Some (420, 450)) (Some (660, 750)) (flit F (35 # 100)) (Some (1020, 1170)))];
  (* input_file_1.py:28 *)
  EUser "lower middle income" 34 3 [
    (* input_file_1.py:157 *) CAdd (Params "indoor_bulb" 3 2 120 (flit F (2 # 10)) 10 "no" 0 1 1 "no" 0 0 2) (PConst 7) no_windows no_cycle no_cycle no_cycle;
    (* input_file_1.py:158 *) COn 0 (DWindows (Some (1170, 1440)) (Some (0, 30)) (flit F (35 # 100)) None);
    (* input_file_1.py:160 *) CAdd (Params "outdoor_bulb" 2 2 600 (flit F (2 # 10)) 10 "no" 0 1 1 "no" 0 0 2) (PConst 13) no_windows no_cycle no_cycle no_cycle;
    (* input_file_1.py:161 *) COn 1 (DWindows (Some (0, 330)) (Some (1170, 1440)) (flit F (35 # 100)) None);
    (* input_file_1.py:163 *) CAdd (Params "TV" 1 3 90 (flit F (1 # 10)) 5 "no" 0 1 1 "no" 0 0 2) (PConst 60) no_windows no_cycle no_cycle no_cycle;
    (* input_file_1.py:164 *) COn 2 (DWindows (Some (450, 660)) (Some (720, 840)) (flit F (35 # 100)) (Some (1170, 1440)));
    (* input_file_1.py:166 *) CAdd (Params "DVD" 1 3 30 (flit F (1 # 10)) 5 "no" 0 1 1 "no" 0 0 2) (PConst 8) no_windows no_cycle no_cycle no_cycle;
    (* input_file_1.py:167 *) COn 3 (DWindows (Some (450, 660)) (Some (720, 840)) (flit F (35 # 100)) (Some (1170, 1440)));
    (* input_file_1.py:169 *) CAdd (Params "antenna" 1 3 60 (flit F (1 # 10)) 5 "no" 0 1 1 "no" 0 0 2) (PConst 8) no_windows no_cycle no_cycle no_cycle;
    (* input_file_1.py:170 *) COn 4 (DWindows (Some (450, 660)) (Some (720, 840)) (flit F (35 # 100)) (Some (1170, 1440)));
    (* input_file_1.py:172 *) CAdd (Params "phone_charger" 4 1 300 (flit F (2 # 10)) 5 "no" 0 1 1 "no" 0 0 2) (PConst 2) no_windows no_cycle no_cycle no_cycle;
    (* input_file_1.py:173 *) COn 5 (DWindows (Some (1020, 1440)) (Some (0, 0)) (flit F (35 # 100)) None);
    (* input_file_1.py:175 *) CAdd (Params "mixer" 1 2 30 (flit F (1 # 10)) 1 "no" 0 1 (flit F (33 # 100)) "no" 0 0 2) (PConst 50) no_windows no_cycle no_cycle no_cycle;
    (* input_file_1.py:176 *) COn 6 (DWindows (Some (660, 750)) (Some (1110, 1200)) (flit F (35 # 100)) None)];
  (* input_file_1.py:31 *)
  EUser "low income" 45 3 [
    (* input_file_1.py:179 *) CAdd (Params "indoor_bulb" 2 2 120 (flit F (2 # 10)) 10 "no" 0 1 1 "no" 0 0 2) (PConst 7) no_windows no_cycle no_cycle no_cycle;
    (* input_file_1.py:180 *) COn 0 (DWindows (Some (1170, 1440)) (Some (0, 30)) (flit F (35 # 100)) None);
    (* input_file_1.py:182 *) CAdd (Params "outdoor_bulb" 1 2 600 (flit F (2 # 10)) 10 "no" 0 1 1 "no" 0 0 2) (PConst 13) no_windows no_cycle no_cycle no_cycle;
    (* input_file_1.py:183 *) COn 1 (DWindows (Some (0, 330)) (Some (1170, 1440)) (flit F (35 # 100)) None);
    (* input_file_1.py:185 *) CAdd (Params "TV" 1 3 90 (flit F (1 # 10)) 5 "no" 0 1 1 "no" 0 0 2) (PConst 60) no_windows no_cycle no_cycle no_cycle;
    (* input_file_1.py:186 *) COn 2 (DWindows (Some (750, 840)) (Some (1170, 1440)) (flit F (35 # 100)) (Some (0, 30)));
    (* input_file_1.py:188 *) CAdd (Params "DVD" 1 3 30 (flit F (1 # 10)) 5 "no" 0 1 1 "no" 0 0 2) (PConst 8) no_windows no_cycle no_cycle no_cycle;
    (* input_file_1.py:189 *) COn 3 (DWindows (Some (750, 840)) (Some (1170, 1440)) (flit F (35 # 100)) (Some (0, 30)));
    (* input_file_1.py:191 *) CAdd (Params "antenna" 1 3 60 (flit F (1 # 10)) 5 "no" 0 1 1 "no" 0 0 2) (PConst 8) no_windows no_cycle no_cycle no_cycle;
    (* input_file_1.py:192 *) COn 4 (DWindows (Some (750, 840)) (Some (1170, 1440)) (flit F (35 # 100)) (Some (0, 30)));
    (* input_file_1.py:194 *) CAdd (Params "phone_charger" 2 1 300 (flit F (2 # 10)) 5 "no" 0 1 1 "no" 0 0 2) (PConst 2) no_windows no_cycle no_cycle no_cycle;
    (* input_file_1.py:195 *) COn 5 (DWindows (Some (1080, 1440)) (Some (0, 0)) (flit F (35 # 100)) None)];
  (* input_file_1.py:34 *)
  EUser "hospital" 1 0 [
    (* input_file_1.py:198 *) CAdd (Params "indoor_bulb" 12 2 690 (flit F (2 # 10)) 10 "no" 0 1 1 "no" 0 0 2) (PConst 7) no_windows no_cycle no_cycle no_cycle;
    (* input_file_1.py:199 *) COn 0 (DWindows (Some (480, 720)) (Some (870, 1440)) (flit F (35 # 100)) None);
    (* input_file_1.py:201 *) CAdd (Params "outdoor_bulb" 1 2 690 (flit F (2 # 10)) 10 "no" 0 1 1 "no" 0 0 2) (PConst 13) no_windows no_cycle no_cycle no_cycle;
    (* input_file_1.py:202 *) COn 1 (DWindows (Some (0, 330)) (Some (1050, 1440)) (flit F (35 # 100)) None);
    (* input_file_1.py:204 *) CAdd (Params "phone_charger" 8 2 300 (flit F (2 # 10)) 5 "no" 0 1 1 "no" 0 0 2) (PConst 2) no_windows no_cycle no_cycle no_cycle;
    (* input_file_1.py:205 *) COn 2 (DWindows (Some (480, 720)) (Some (900, 1440)) (flit F (35 # 100)) None);
    (* input_file_1.py:207 *) CAdd (Params "fridge" 1 1 1440 0 30 "yes" 3 1 1 "no" 0 0 2) (PConst 150) no_windows no_cycle no_cycle no_cycle;
    (* input_file_1.py:208 *) COn 3 (DWindows (Some (0, 1440)) (Some (0, 0)) 0 None);
    (* input_file_1.py:209 *) COn 3 (DCycle 1 (CycleArgs (Some 150%Q) (Some 20) None (Some 5%Q) (Some 10) None (Some 0%Q)));
    (* input_file_1.py:210 *) COn 3 (DCycle 2 (CycleArgs (Some 150%Q) (Some 15) None (Some 5%Q) (Some 15) None (Some 0%Q)));
    (* input_file_1.py:211 *) COn 3 (DCycle 3 (CycleArgs (Some 150%Q) (Some 10) None (Some 5%Q) (Some 20) None (Some 0%Q)));
    (* input_file_1.py:212-214 *) COn 3 (DBehaviour (Some (580, 1200)) (Some (0, 0)) (Some (420, 579)) (Some (0, 0)) (Some (0, 419)) (Some (1201, 1440)));
    (* input_file_1.py:216 *) CAdd (Params "fridge2" 1 1 1440 0 30 "yes" 3 1 1 "no" 0 0 2) (PConst 150) no_windows no_cycle no_cycle no_cycle;
    (* input_file_1.py:217 *) COn 4 (DWindows (Some (0, 1440)) (Some (0, 0)) 0 None);
    (* input_file_1.py:218 *) COn 4 (DCycle 1 (CycleArgs (Some 150%Q) (Some 20) None (Some 5%Q) (Some 10) None (Some 0%Q)));
    (* input_file_1.py:219 *) COn 4 (DCycle 2 (CycleArgs (Some 150%Q) (Some 15) None (Some 5%Q) (Some 15) None (Some 0%Q)));
    (* input_file_1.py:220 *) COn 4 (DCycle 3 (CycleArgs (Some 150%Q) (Some 10) None (Some 5%Q) (Some 20) None (Some 0%Q)));
    (* input_file_1.py:221-223 *) COn 4 (DBehaviour (Some (580, 1200)) (Some (0, 0)) (Some (420, 579)) (Some (0, 0)) (Some (0, 419)) (Some (1201, 1440)));
    (* input_file_1.py:225 *) CAdd (Params "fridge3" 1 1 1440 (flit F (1 # 10)) 30 "yes" 3 1 1 "no" 0 0 2) (PConst 150) no_windows no_cycle no_cycle no_cycle;
    (* input_file_1.py:226 *) COn 5 (DWindows (Some (0, 1440)) (Some (0, 0)) 0 None);
    (* input_file_1.py:227 *) COn 5 (DCycle 1 (CycleArgs (Some 150%Q) (Some 20) None (Some 5%Q) (Some 10) None (Some 0%Q)));
    (* input_file_1.py:228 *) COn 5 (DCycle 2 (CycleArgs (Some 150%Q) (Some 15) None (Some 5%Q) (Some 15) None (Some 0%Q)));
    (* input_file_1.py:229 *) COn 5 (DCycle 3 (CycleArgs (Some 150%Q) (Some 10) None (Some 5%Q) (Some 20) None (Some 0%Q)));
    (* input_file_1.py:230-232 *) COn 5 (DBehaviour (Some (580, 1200)) (Some (0, 0)) (Some (420, 579)) (Some (0, 0)) (Some (0, 419)) (Some (1201, 1440)));
    (* input_file_1.py:234 *) CAdd (Params "PC" 2 2 300 (flit F (1 # 10)) 10 "no" 0 1 1 "no" 0 0 2) (PConst 50) no_windows no_cycle no_cycle no_cycle;
    (* input_file_1.py:235 *) COn 6 (DWindows (Some (480, 720)) (Some (1050, 1440)) (flit F (35 # 100)) None);
    (* input_file_1.py:237-239 *) CAdd (Params "mixer" 1 2 60 (flit F (1 # 10)) 1 "no" 0 1 (flit F (33 # 100)) "no" 0 0 2) (PConst 50) no_windows no_cycle no_cycle no_cycle;
    (* input_file_1.py:240 *) COn 7 (DWindows (Some (480, 720)) (Some (1050, 1440)) (flit F (35 # 100)) None)];
  (* input_file_1.py:37 *)
  EUser "school" 1 0 [
    (* input_file_1.py:243 *) CAdd (Params "indoor_bulb" 8 1 60 (flit F (2 # 10)) 10 "no" 0 1 1 "no" 0 0 2) (PConst 7) no_windows no_cycle no_cycle no_cycle;
    (* input_file_1.py:244 *) COn 0 (DWindows (Some (1020, 1080)) (Some (0, 0)) (flit F (35 # 100)) None);
    (* input_file_1.py:246 *) CAdd (Params "outdoor_bulb" 6 1 60 (flit F (2 # 10)) 10 "no" 0 1 1 "no" 0 0 2) (PConst 13) no_windows no_cycle no_cycle no_cycle;
    (* input_file_1.py:247 *) COn 1 (DWindows (Some (1020, 1080)) (Some (0, 0)) (flit F (35 # 100)) None);
    (* input_file_1.py:249 *) CAdd (Params "phone_charger" 5 2 180 (flit F (2 # 10)) 5 "no" 0 1 1 "no" 0 0 2) (PConst 2) no_windows no_cycle no_cycle no_cycle;
    (* input_file_1.py:250 *) COn 2 (DWindows (Some (510, 750)) (Some (810, 1080)) (flit F (35 # 100)) None);
    (* input_file_1.py:252 *) CAdd (Params "PC" 18 2 210 (flit F (1 # 10)) 10 "no" 0 1 1 "no" 0 0 2) (PConst 50) no_windows no_cycle no_cycle no_cycle;
    (* input_file_1.py:253 *) COn 3 (DWindows (Some (510, 750)) (Some (810, 1080)) (flit F (35 # 100)) None);
    (* input_file_1.py:255 *) CAdd (Params "printer" 1 2 30 (flit F (1 # 10)) 5 "no" 0 1 1 "no" 0 0 2) (PConst 20) no_windows no_cycle no_cycle no_cycle;
    (* input_file_1.py:256 *) COn 4 (DWindows (Some (510, 750)) (Some (810, 1080)) (flit F (35 # 100)) None);
    (* input_file_1.py:258 *) CAdd (Params "freezer" 1 1 1440 0 30 "yes" 3 1 1 "no" 0 0 2) (PConst 200) no_windows no_cycle no_cycle no_cycle;
    (* input_file_1.py:259 *) COn 5 (DWindows (Some (0, 1440)) None 0 None);
    (* input_file_1.py:260 *) COn 5 (DCycle 1 (CycleArgs (Some 200%Q) (Some 20) None (Some 5%Q) (Some 10) None (Some 0%Q)));
    (* input_file_1.py:261 *) COn 5 (DCycle 2 (CycleArgs (Some 200%Q) (Some 15) None (Some 5%Q) (Some 15) None (Some 0%Q)));
    (* input_file_1.py:262 *) COn 5 (DCycle 3 (CycleArgs (Some 200%Q) (Some 10) None (Some 5%Q) (Some 20) None (Some 0%Q)));
    (* input_file_1.py:263-265 *) COn 5 (DBehaviour (Some (580, 1200)) (Some (0, 0)) (Some (510, 579)) (Some (0, 0)) (Some (0, 509)) (Some (1201, 1440)));
    (* input_file_1.py:267 *) CAdd (Params "TV" 1 2 120 (flit F (1 # 10)) 5 "no" 0 1 (flit F (5 # 10)) "no" 0 0 2) (PConst 60) no_windows no_cycle no_cycle no_cycle;
    (* input_file_1.py:268 *) COn 6 (DWindows (Some (510, 750)) (Some (810, 1080)) (flit F (35 # 100)) None);
    (* input_file_1.py:270 *) CAdd (Params "DVD" 1 2 120 (flit F (1 # 10)) 5 "no" 0 1 (flit F (5 # 10)) "no" 0 0 2) (PConst 8) no_windows no_cycle no_cycle no_cycle;
    (* input_file_1.py:271 *) COn 7 (DWindows (Some (510, 750)) (Some (810, 1080)) (flit F (35 # 100)) None);
    (* input_file_1.py:273-275 *) CAdd (Params "stereo" 1 2 90 (flit F (1 # 10)) 5 "no" 0 1 (flit F (33 # 100)) "no" 0 0 2) (PConst 150) no_windows no_cycle no_cycle no_cycle;
    (* input_file_1.py:276 *) COn 8 (DWindows (Some (510, 750)) (Some (810, 1080)) (flit F (35 # 100)) None)];
  (* input_file_1.py:40 *)
  EUser "public lighting" 1 0 [
    (* input_file_1.py:71-73 *) CAdd (Params "lights" 12 2 310 (flit F (1 # 10)) 300 "yes" 0 1 1 "yes" 0 0 2) (PConst 40) no_windows no_cycle no_cycle no_cycle;
    (* input_file_1.py:74 *) COn 0 (DWindows (Some (0, 336)) (Some (1110, 1440)) (flit F (2 # 10)) None);
    (* input_file_1.py:76-78 *) CAdd (Params "lights2" 25 2 310 (flit F (1 # 10)) 300 "yes" 0 1 1 "yes" 0 0 2) (PConst 150) no_windows no_cycle no_cycle no_cycle;
    (* input_file_1.py:79 *) COn 1 (DWindows (Some (0, 336)) (Some (1110, 1440)) (flit F (2 # 10)) None)];
  (* input_file_1.py:43 *)
  EUser "church" 3 0 [
    (* input_file_1.py:49-59 *) CAdd (Params "indoor_bulb" 10 1 210 (flit F (2 # 10)) 60 "yes" 0 1 1 "yes" 0 0 2) (PConst 26) no_windows no_cycle no_cycle no_cycle;
    (* input_file_1.py:60 *) COn 0 (DWindows (Some (1200, 1440)) (Some (0, 0)) (flit F (1 # 10)) None);
    (* input_file_1.py:62-64 *) CAdd (Params "outdoor_bulb" 7 1 150 (flit F (2 # 10)) 60 "yes" 0 1 1 "yes" 0 0 2) (PConst 26) no_windows no_cycle no_cycle no_cycle;
    (* input_file_1.py:65 *) COn 1 (DWindows (Some (1200, 1440)) (Some (0, 0)) (flit F (1 # 10)) None);
    (* input_file_1.py:67 *) CAdd (Params "speaker" 1 1 150 (flit F (2 # 10)) 60 "no" 0 1 1 "no" 0 0 2) (PConst 100) no_windows no_cycle no_cycle no_cycle;
    (* input_file_1.py:68 *) COn 2 (DWindows (Some (1200, 1350)) (Some (0, 0)) (flit F (1 # 10)) None)]].

(** ramp/example/input_file_2.py: a shower; [P] is the series read from shower_P.csv (input_file_2.py:24) *)
Definition input_file_2 (F : fm) (P : list Q) : list example_user := [
  (* input_file_2.py:21 *)
  EUser "generic households" 1 0 [
    (* input_file_2.py:25-34 *) CAdd (Params "shower" 1 2 15 (flit F (1 # 10)) 3 "no" 0 1 1 "no" (flit F (2 # 10)) 0 2) (PSeries P) no_windows no_cycle no_cycle no_cycle;
    (* input_file_2.py:35 *) COn 0 (DWindows (Some (390, 540)) (Some (1080, 1200)) (flit F (2 # 10)) None)]].

(** ramp/example/input_file_3.py: a household that cooks *)
Definition input_file_3 (F : fm) : list example_user := [
  (* input_file_3.py:20 *)
  EUser "generic household" 1 3 [
    (* input_file_3.py:27-38 *) CAdd (Params "lunch1_soup" 1 2 70 (flit F (15 # 100)) 60 "no" 1 1 1 "no" (flit F (2 # 10)) 1 2) (PConst 1800) no_windows no_cycle no_cycle no_cycle;
    (* input_file_3.py:39 *) COn 0 (DWindows (Some (720, 900)) (Some (0, 0)) (flit F (15 # 100)) None);
    (* input_file_3.py:40 *) COn 0 (DCycle 1 (CycleArgs (Some 1800%Q) (Some 10) None (Some 750%Q) (Some 60) None (Some (flit F (15 # 100))%Q)));
    (* input_file_3.py:41 *) COn 0 (DBehaviour (Some (720, 900)) (Some (0, 0)) None None None None);
    (* input_file_3.py:43-54 *) CAdd (Params "lunch2_rice" 1 2 25 (flit F (15 # 100)) 20 "no" 1 1 1 "no" (flit F (2 # 10)) 2 2) (PConst 1800) no_windows no_cycle no_cycle no_cycle;
    (* input_file_3.py:55 *) COn 1 (DWindows (Some (720, 900)) (Some (0, 0)) (flit F (15 # 100)) None);
    (* input_file_3.py:56 *) COn 1 (DCycle 1 (CycleArgs (Some 1800%Q) (Some 10) None (Some 750%Q) (Some 15) None (Some (flit F (15 # 100))%Q)));
    (* input_file_3.py:57 *) COn 1 (DBehaviour (Some (720, 900)) (Some (0, 0)) None None None None);
    (* input_file_3.py:59-61 *) CAdd (Params "lunch2_egg" 1 2 3 (flit F (2 # 10)) 3 "no" 0 1 1 "no" (flit F (2 # 10)) 2 2) (PConst 1200) no_windows no_cycle no_cycle no_cycle;
    (* input_file_3.py:62 *) COn 2 (DWindows (Some (720, 900)) (Some (0, 0)) (flit F (15 # 100)) None);
    (* input_file_3.py:64-75 *) CAdd (Params "lunch2_planato" 1 2 10 (flit F (15 # 100)) 5 "no" 1 1 1 "no" (flit F (2 # 10)) 2 2) (PConst 1800) no_windows no_cycle no_cycle no_cycle;
    (* input_file_3.py:76 *) COn 3 (DWindows (Some (720, 900)) (Some (0, 0)) (flit F (15 # 100)) None);
    (* input_file_3.py:77 *) COn 3 (DCycle 1 (CycleArgs (Some 1800%Q) (Some 5) None (Some 1200%Q) (Some 5) None (Some (flit F (15 # 100))%Q)));
    (* input_file_3.py:78 *) COn 3 (DBehaviour (Some (720, 900)) (Some (0, 0)) None None None None);
    (* input_file_3.py:80-82 *) CAdd (Params "lunch2_meat" 1 2 7 (flit F (15 # 100)) 3 "no" 0 1 1 "no" (flit F (2 # 10)) 2 2) (PConst 1200) no_windows no_cycle no_cycle no_cycle;
    (* input_file_3.py:83 *) COn 4 (DWindows (Some (720, 900)) (Some (0, 0)) (flit F (15 # 100)) None);
    (* input_file_3.py:85-96 *) CAdd (Params "lunch3_beansnrice" 1 2 45 (flit F (2 # 10)) 30 "no" 1 1 1 "no" (flit F (2 # 10)) 3 2) (PConst 1800) no_windows no_cycle no_cycle no_cycle;
    (* input_file_3.py:97 *) COn 5 (DWindows (Some (720, 900)) (Some (0, 0)) (flit F (15 # 100)) None);
    (* input_file_3.py:98 *) COn 5 (DCycle 1 (CycleArgs (Some 1800%Q) (Some 10) None (Some 750%Q) (Some 35) None (Some (flit F (2 # 10))%Q)));
    (* input_file_3.py:99 *) COn 5 (DBehaviour (Some (720, 900)) (Some (0, 0)) None None None None);
    (* input_file_3.py:101-103 *) CAdd (Params "lunch3_meat" 1 2 10 (flit F (2 # 10)) 5 "no" 0 1 1 "no" (flit F (2 # 10)) 3 2) (PConst 1200) no_windows no_cycle no_cycle no_cycle;
    (* input_file_3.py:104 *) COn 6 (DWindows (Some (720, 900)) (Some (0, 0)) (flit F (15 # 100)) None);
    (* input_file_3.py:106-117 *) CAdd (Params "lunch_yuca" 1 1 25 (flit F (15 # 100)) 10 "no" 1 1 1 "no" (flit F (2 # 10)) 0 2) (PConst 1800) no_windows no_cycle no_cycle no_cycle;
    (* input_file_3.py:118 *) COn 7 (DWindows (Some (780, 840)) (Some (0, 0)) (flit F (15 # 100)) None);
    (* input_file_3.py:119 *) COn 7 (DCycle 1 (CycleArgs (Some 1800%Q) (Some 10) None (Some 750%Q) (Some 15) None (Some (flit F (15 # 100))%Q)));
    (* input_file_3.py:120 *) COn 7 (DBehaviour (Some (720, 900)) (Some (0, 0)) None None None None);
    (* input_file_3.py:122-133 *) CAdd (Params "breakfast_huminta" 1 1 65 (flit F (15 # 100)) 50 "no" 1 1 1 "no" (flit F (2 # 10)) 0 2) (PConst 1800) no_windows no_cycle no_cycle no_cycle;
    (* input_file_3.py:134 *) COn 8 (DWindows (Some (360, 540)) (Some (0, 0)) (flit F (15 # 100)) None);
    (* input_file_3.py:135 *) COn 8 (DCycle 1 (CycleArgs (Some 1800%Q) (Some 5) None (Some 750%Q) (Some 60) None (Some (flit F (15 # 100))%Q)));
    (* input_file_3.py:136 *) COn 8 (DBehaviour (Some (360, 540)) (Some (0, 0)) None None None None);
    (* input_file_3.py:138-149 *) CAdd (Params "breakfast_bread" 1 1 15 (flit F (15 # 100)) 10 "no" 1 1 1 "no" (flit F (2 # 10)) 0 2) (PConst 1800) no_windows no_cycle no_cycle no_cycle;
    (* input_file_3.py:150 *) COn 9 (DWindows (Some (360, 540)) (Some (0, 0)) (flit F (15 # 100)) None);
    (* input_file_3.py:151 *) COn 9 (DCycle 1 (CycleArgs (Some 1800%Q) (Some 10) None (Some 1200%Q) (Some 5) None (Some (flit F (15 # 100))%Q)));
    (* input_file_3.py:152 *) COn 9 (DBehaviour (Some (360, 540)) (Some (0, 0)) None None None None);
    (* input_file_3.py:154-164 *) CAdd (Params "break_fast_coffee" 1 1 5 (flit F (15 # 100)) 2 "no" 0 1 1 "no" (flit F (2 # 10)) 0 2) (PConst 1800) no_windows no_cycle no_cycle no_cycle;
    (* input_file_3.py:165 *) COn 10 (DWindows (Some (360, 540)) (Some (0, 0)) (flit F (15 # 100)) None);
    (* input_file_3.py:167-169 *) CAdd (Params "mate" 1 1 30 (flit F (3 # 10)) 2 "no" 0 1 1 "no" (flit F (2 # 10)) 0 2) (PConst 1800) no_windows no_cycle no_cycle no_cycle;
    (* input_file_3.py:170 *) COn 11 (DWindows (Some (420, 1200)) (Some (0, 0)) (flit F (15 # 100)) None)]].
