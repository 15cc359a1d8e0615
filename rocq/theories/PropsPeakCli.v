(** * PropsPeakCli: which peak time range the ramp command uses (C58) *)
From Verif Require Import Base Utils Appliance User UseCase Calendar Tabular PostProcess Convert Cli.
From Verif Require Import Wp ListLemmas Tape ProofsUser2 SpecUseCase ProofsUseCase PropsUseCase PropsInit PropsPeak PropsParallel PropsLoad PropsCli.
Open Scope string_scope.
Open Scope list_scope.
Open Scope Z_scope.

(** The API session the documentation shows: make a use case, load the file, initialize,
    generate.  The loaded appliances get 366 + 1 power values (core.py:818-824). *)
Definition api_session (depth : nat) (F : fm) (strict : bool) (w : world) (tab : table) (num_days : Z) : prog (list (list Q)) :=
  c <- new_usecase F w [] None None false (15 # 100) None ;;
  us <- lift (load_table F strict 366 tab) ;;
  r <- initialize F w (collect_appliances (set_users c us)) (Some num_days) None false ;;
  match snd r with
  | Some e => Raise e
  | None => g <- generate_sequential depth F w (fst r) None ;; Ret (snd g)
  end.

(** a generator that always gives the middle: 1/2, the middle integer, deviate 0 *)
Definition steady : generator.
Proof.
  refine (Gen unit (fun _ => tt) (fun s => ((1 # 4)%Q, s)) (fun n s => (n / 2, s)) (fun _ s => (0%Q, s)) _ _).
  - intros; cbn; split; [unfold Qle|unfold Qlt]; cbn; lia.
  - intros n s Hn; cbn. split; [apply Z.div_pos; lia|apply Z.div_lt_upper_bound; lia].
Defined.

(** ten lights, one user *)
Definition ten_lights : row :=
  [("user_name", CText "shop"); ("num_users", CNum 1); ("user_preference", CNum 0); ("name", CText "light"); ("number", CNum 10);
   ("power", CNum 10); ("num_windows", CNum 1); ("func_time", CNum 60); ("func_cycle", CNum 30); ("window_1_start", CNum 480); ("window_1_end", CNum 600)].

(** What is proved: the range of the ramp command is drawn around noon over the whole day,
    whatever the users of the file; given that range, the rows are those the users of the file can
    have.  Missing from C58: that the range is drawn from the minutes of the maximum of the users of the
    file (refuted below). *)
Definition noon_range (F : fm) (p : list Z) : Prop :=
  exists z z', let pt := peak_time_drawn F (arange 0 1440) z in
    let k := enlargement_drawn F (15 # 100) pt z' in p = arange (pt - k) (pt + k).

Lemma noon_range_drawn F p : noon_range F p <-> may (draw_peak_range F (15 # 100) (arange 0 1440)) (Ok (Ok p)).
Proof.
  rewrite draw_peak_range_may. unfold noon_range. split.
  - intros (z & z' & ->). right. split; [rewrite zlen_arange; lia|]. exists z, z'. reflexivity.
  - intros [[_ H]|(_ & z & z' & H)]; [discriminate|]. cbv zeta in H. injection H as ->. exists z, z'. reflexivity.
Qed.

(** in exact arithmetic: time [t], normally distributed around noon with deviation 1439/3 minutes,
    and [k] minutes to each side *)
Lemma noon_time z : peak_time_drawn exact_fm (arange 0 1440) z = py_round (720 + z * (1439 # 3)).
Proof.
  rewrite C34_peak_time_exact by apply exact_exact_fm.
  replace (zq (py_round (zq (zsum (arange 0 1440)) / zq (zlen (arange 0 1440))))) with 720%Q by (vm_compute; reflexivity).
  replace (last (arange 0 1440) 0 - hd 0 (arange 0 1440)) with 1439 by (vm_compute; reflexivity).
  apply py_round_comp. unfold zq. apply Qplus_comp; [reflexivity|]. apply Qmult_comp; [reflexivity|]. reflexivity.
Qed.

Theorem C58_peak_partial depth F strict w tab s e nd rows :
  s <= e ->
  may (run_xlsx depth F strict w (Ok tab) (Some s) (Some e) nd) (Ok rows) <->
  exists us p, load_table F strict ((e - s) / 1440 + 1) tab = Ok us /\ noon_range F p /\
    run_rows depth F us s ((e - s) / 1440 + 1) p rows.
Proof.
  intros Hse. split.
  - intros H. destruct (run_xlsx_spec _ _ _ _ _ _ _ _ _ H) as (tab' & us & n & ds & s' & p & Et & El & Hn & Hc & Hr & Hp & Hrows).
    injection Et as <-. cbn [days_argument] in Hr.
    assert (E : s' = s /\ n = (e - s) / 1440 + 1).
    { cbn [requested_days] in Hr. destruct Hr as (Hc' & Hb). destruct Hc as (_ & Hc), Hc' as (_ & Hc').
      specialize (Hc 0 ltac:(lia)). specialize (Hc' 0 ltac:(lia)).
      split; [lia|]. assert ((e - s) / 1440 = n - 1); [|lia]. symmetry. apply (Z.div_unique (e - s) 1440 (n - 1) (e - s - 1440 * (n - 1))); lia. }
    destruct E as [-> ->]. exists us, p. split; [exact El|]. split; [apply noon_range_drawn; exact Hp|exact Hrows].
  - intros (us & p & El & Hp & Hr). apply (run_xlsx_conv depth F strict w tab us s e nd p rows Hse El); [apply noon_range_drawn; exact Hp|exact Hr].
Qed.

Lemma two_loads (r r' : res (list (list Q))) :
  match r, r' with Ok [a], Ok [b] => Qeq_bool (nth 530 a 0%Q) 50 && Qeq_bool (nth 530 b 0%Q) 30 | _, _ => false end = true ->
  exists a b, r = Ok [a] /\ r' = Ok [b] /\ (nth 530 a 0 == 50)%Q /\ (nth 530 b 0 == 30)%Q.
Proof.
  intros H. destruct r as [[|a [|]]|]; try discriminate H. destruct r' as [[|b [|]]|]; try discriminate H.
  apply andb_true_iff in H. destruct H as [H1 H2]. apply Qeq_bool_iff in H1, H2. exists a, b. auto.
Qed.

(** On the same random draws the command and the API session give different loads for the same
    file: at minute 530, during the maximum of these users, the API session is in its peak time
    (50 W), the command is not (30 W). *)
Theorem C58_refuted : exists G g tab n api cli,
  fst (run G (api_session 3 exact_fm true nobody tab n) g) = Ok [api] /\
  fst (run G (run_xlsx 3 exact_fm true nobody (Ok tab) None None (Some n)) g) = Ok [cli] /\
  (nth 530 api 0 == 50)%Q /\ (nth 530 cli 0 == 30)%Q.
Proof.
  exists steady, tt, [ten_lights], 1. apply two_loads. vm_compute. reflexivity.
Qed.

(** a run of one day (2023-12-30), for which the table can be loaded *)
Example C58_case : (exists rows, may (run_xlsx 3 exact_fm true nobody (Ok [ten_lights]) (Some 1063821600) (Some 1063821600) None) (Ok rows) /\
  (zlen rows =? 1) = true).
Proof. apply (middle_check 0). vm_compute. reflexivity. Qed.
