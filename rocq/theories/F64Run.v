(** * F64Run: a whole run of the model in binary64, and one theorem about all [F : fm] used at it *)
From Verif Require Import Base Utils Appliance User UseCase Calendar Tabular PostProcess Convert Cli.
From Verif Require Import SpecUseCase PropsUseCase PropsCli PropsPeakCli F64.
Open Scope Z_scope.

(** one day of the ramp command on [ten_lights] in binary64: minute 480 holds the marker 0.001
    (rounded), minute 500 three lights *)
Example f64_day : exists row, fst (run steady (run_xlsx 3 f64 true nobody (Ok [ten_lights]) None None (Some 1)) tt) = Ok [row] /\
  nth 480 row 0%Q = rnd64 (1 # 1000) /\ nth 500 row 0%Q = 30%Q.
Proof.
  assert (G : forall (x y : Q) (r : res (list (list Q))),
    match r with Ok [l] => Some (nth 480 l 0%Q, nth 500 l 0%Q) | _ => None end = Some (x, y) ->
    exists row, r = Ok [row] /\ nth 480 row 0%Q = x /\ nth 500 row 0%Q = y).
  { intros x y [[|l [|]]|] H; try discriminate H. injection H as H1 H2. exists l. auto. }
  apply G. vm_compute. reflexivity.
Qed.

Lemma f64_peak depth strict w tab s e nd rows :
  s <= e ->
  may (run_xlsx depth f64 strict w (Ok tab) (Some s) (Some e) nd) (Ok rows) <->
  exists us p, load_table f64 strict ((e - s) / 1440 + 1) tab = Ok us /\ noon_range f64 p /\
    run_rows depth f64 us s ((e - s) / 1440 + 1) p rows.
Proof. apply C58_peak_partial. Qed.
