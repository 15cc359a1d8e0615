(** * ProofsRun: what the simulation does on the numbers of one generator is one of its possible outcomes

    The properties quantify over all possible outcomes ([may]); this file shows that they therefore hold
    of every run with a concrete generator, Python's Mersenne twister included, whatever its seed. *)
From Verif Require Import Base Wp Utils Appliance User UseCase Cli.
From Coq Require Import ZifyBool ZifyNat.

Lemma bp_uniform F a b : below_pos (py_uniform F a b). Proof. intros u. exact I. Qed.
Lemma bp_gauss F a b : below_pos (py_gauss F a b). Proof. intros u. exact I. Qed.
Lemma bp_normal F a b : below_pos (py_normalvariate F a b). Proof. intros u. exact I. Qed.
Lemma bp_variation F v n : below_pos (random_variation F v n).
Proof. unfold random_variation. apply below_pos_bind; [apply bp_uniform|intros; exact I]. Qed.
Lemma bp_duty F v t1 p1 t2 p2 : below_pos (duty_cycle F v t1 p1 t2 p2).
Proof.
  unfold duty_cycle. apply below_pos_bind; [apply bp_variation|intros]. apply below_pos_bind; [apply below_pos_lift|intros].
  apply below_pos_bind; [apply bp_variation|intros]. apply below_pos_bind; [apply below_pos_lift|intros]. exact I.
Qed.
Lemma bp_choice {A} (x y : A) : below_pos (py_choice2 x y).
Proof. unfold py_choice2. cbn. split; [lia|auto]. Qed.
Lemma bp_random_choice F v t1 p1 t2 p2 : below_pos (random_choice F v t1 p1 t2 p2).
Proof. unfold random_choice. apply below_pos_bind; [apply bp_duty|intros]. apply below_pos_bind; [apply bp_duty|intros]. apply bp_choice. Qed.

Ltac bp1 := repeat match goal with
  | |- below_pos (Ret _) => exact I
  | |- below_pos (Raise _) => exact I
  | |- below_pos (bind _ _) => apply below_pos_bind; [|intros ?]
  | |- below_pos (py_uniform _ _ _) => apply bp_uniform
  | |- below_pos (py_gauss _ _ _) => apply bp_gauss
  | |- below_pos (py_normalvariate _ _ _) => apply bp_normal
  | |- below_pos (random_variation _ _ _) => apply bp_variation
  | |- below_pos (duty_cycle _ _ _ _ _ _) => apply bp_duty
  | |- below_pos (random_choice _ _ _ _ _ _) => apply bp_random_choice
  | |- below_pos (lift _) => apply below_pos_lift
  | |- below_pos (py_randint _ _) => apply below_pos_randint
  | |- below_pos (if ?b then _ else _) => destruct b
  end.

Lemma bp_window w rv : below_pos (calc_rand_window w rv). Proof. unfold calc_rand_window. bp1. Qed.
Lemma bp_rtt F a x y z : below_pos (rand_total_time_of_use F a x y z).
Proof. unfold rand_total_time_of_use. cbv zeta. bp1. Qed.
Lemma bp_cycles F a d : below_pos (assign_random_cycles F a d).
Proof. unfold assign_random_cycles. cbv zeta. bp1. Qed.
Lemma bp_coincidence F a b : below_pos (calc_coincident_switch_on F a b).
Proof. unfold calc_coincident_switch_on. cbv zeta. bp1. Qed.
Lemma bp_update F a d c pw ix : below_pos (update_daily_use F a d c pw ix).
Proof. unfold update_daily_use. cbv zeta. bp1. Qed.
Lemma bp_event F a d peak pw ix : below_pos (use_event F a d peak pw ix).
Proof. unfold use_event. repeat (apply below_pos_bind; [first [apply below_pos_lift|apply bp_coincidence|apply bp_update]|intros ?]). exact I. Qed.
Lemma bp_rsw depth F a d rt : below_pos (rand_switch_on_window depth F a d rt).
Proof.
  induction depth as [|depth IH]; [exact I|]. cbn [rand_switch_on_window]. cbv zeta. bp1.
  match goal with |- below_pos (match ?o with _ => _ end) => destruct o end; bp1.
  match goal with |- below_pos (match ?o with _ => _ end) => destruct o end; [exact I|exact IH].
Qed.
Lemma bp_loop fuel depth F a peak pw rt : forall tot d evs, below_pos (use_loop fuel depth F a peak pw rt tot d evs).
Proof.
  induction fuel as [|fuel IH]; intros tot d evs; [exact I|]. cbn [use_loop]. cbv zeta.
  destruct (_ && _); [|exact I]. apply below_pos_bind; [apply bp_rsw|intros [[ix|] d1]]; cbn [fst snd]; [|exact I].
  destruct (_ >? rt).
  - destruct (_ >? 0); [|exact I]. apply below_pos_bind; [apply bp_event|intros; exact I].
  - apply below_pos_bind; [apply bp_event|intros; apply IH].
Qed.
Lemma bp_day depth F a pref i peak dt pw : below_pos (generate_load_profile_traced depth F a pref i peak dt pw).
Proof.
  unfold generate_load_profile_traced. cbv zeta. apply below_pos_bind; [apply bp_uniform|intros u].
  destruct (skip_day _ _ _ _); [exact I|].
  do 3 (apply below_pos_bind; [apply bp_window|intros ?]). apply below_pos_bind; [apply bp_rtt|intros ?].
  destruct (String.eqb _ _).
  - do 2 (apply below_pos_bind; [apply below_pos_lift|intros ?]). exact I.
  - apply below_pos_bind; [apply below_pos_lift|intros ?]. apply below_pos_bind; [apply bp_cycles|intros ?].
    apply below_pos_bind; [apply bp_loop|intros ?]. exact I.
Qed.
Lemma bp_profile depth F a pref i peak dt pw : below_pos (generate_load_profile depth F a pref i peak dt pw).
Proof. unfold generate_load_profile. apply below_pos_bind; [apply bp_day|intros; exact I]. Qed.

Lemma bp_apps depth F pref i peak dt apps : forall acc, below_pos (generate_apps depth F pref i peak dt apps acc).
Proof.
  induction apps as [|a apps IH]; intros acc; [exact I|]. cbn [generate_apps].
  apply below_pos_bind; [apply below_pos_lift|intros ?]. apply below_pos_bind; [apply bp_profile|intros ?].
  apply below_pos_bind; [apply IH|intros ?]. exact I.
Qed.
Lemma bp_single depth F u i peak dt : below_pos (generate_single_load_profile depth F u i peak dt).
Proof.
  unfold generate_single_load_profile, draw_pref. apply below_pos_bind; [bp1|intros ?].
  apply below_pos_bind; [apply bp_apps|intros ?]. exact I.
Qed.
Lemma bp_members n depth F i peak dt : forall u, below_pos (generate_members n depth F u i peak dt).
Proof.
  induction n as [|n IH]; intros u; [exact I|]. cbn [generate_members].
  apply below_pos_bind; [apply bp_single|intros ?]. apply IH.
Qed.
Lemma bp_aggregated depth F u i peak dt : below_pos (generate_aggregated_load_profile depth F u i peak dt).
Proof. apply bp_members. Qed.

Lemma bp_peak F c : below_pos (calc_peak_time_range F c).
Proof.
  unfold calc_peak_time_range, draw_peak_range. cbv zeta.
  repeat first [match goal with |- below_pos (match ?o with _ => _ end) => destruct o end | progress bp1].
Qed.
Lemma bp_set_enlarge F c x : below_pos (set_peak_enlarge F c x).
Proof.
  unfold set_peak_enlarge.
  repeat first [apply bp_peak | match goal with |- below_pos (match ?o with _ => _ end) => destruct o end
    | apply below_pos_bind; [|intros ?] | progress bp1].
Qed.
Lemma bp_initialize F w c n enl force : below_pos (initialize F w c n enl force).
Proof.
  unfold initialize, init_finish. cbv zeta.
  repeat first [apply bp_set_enlarge | apply bp_peak
    | match goal with |- below_pos (let '(_, _) := ?o in _) => destruct o end
    | match goal with |- below_pos (match ?o with _ => _ end) => destruct o end
    | apply below_pos_bind; [|intros ?] | progress bp1].
Qed.
Lemma bp_num_days F w c : below_pos (num_days F w c).
Proof.
  unfold num_days. destruct (num_days_ c); [exact I|]. apply below_pos_bind; [apply bp_initialize|intros r].
  destruct (snd r), (num_days_ (fst r)); exact I.
Qed.
Lemma bp_new F w us s e p enl seed : below_pos (new_usecase F w us s e p enl seed).
Proof.
  unfold new_usecase. cbv zeta. apply below_pos_bind.
  - destruct s; [destruct e|]; try exact I. apply below_pos_bind; [apply bp_initialize|intros r]. destruct (snd r); exact I.
  - intros c. destruct (seed_of seed); exact I.
Qed.
Lemma bp_day_users depth F i peak dt us : forall acc, below_pos (day_of_users depth F i peak dt us acc).
Proof.
  induction us as [|u us IH]; intros acc; [exact I|]. cbn [day_of_users].
  apply below_pos_bind; [apply bp_aggregated|intros ?]. apply below_pos_bind; [apply IH|intros ?]. exact I.
Qed.
Lemma bp_day_loop depth F peak ds : forall i us rows, below_pos (day_loop depth F peak i ds us rows).
Proof.
  induction ds as [|d ds IH]; intros i us rows; [exact I|]. cbn [day_loop].
  apply below_pos_bind; [apply bp_day_users|intros ?]. destruct (_ <=? _); [exact I|apply IH].
Qed.
Lemma bp_sequential depth F w c arg : below_pos (generate_sequential depth F w c arg).
Proof.
  unfold generate_sequential. apply below_pos_bind; [apply below_pos_lift|intros c'].
  apply below_pos_bind; [apply bp_num_days|intros cn]. cbv zeta. destruct (_ <? 0); [exact I|].
  apply below_pos_bind; [apply bp_day_loop|intros ?]. exact I.
Qed.
Lemma bp_work depth F peak t : below_pos (work depth F peak t).
Proof.
  unfold work. apply below_pos_bind; [apply below_pos_lift|intros ?]. apply below_pos_bind; [apply bp_profile|intros ?]. exact I.
Qed.

(** what a simulation gives on the numbers of one generator is a possible outcome, so every theorem about
    [may] is a theorem about every seed *)
Theorem every_run_is_possible (G : generator) s :
  (forall depth F a pref i peak dt pw,
     may (generate_load_profile depth F a pref i peak dt pw) (fst (run G (generate_load_profile depth F a pref i peak dt pw) s))) /\
  (forall depth F u i peak dt,
     may (generate_aggregated_load_profile depth F u i peak dt) (fst (run G (generate_aggregated_load_profile depth F u i peak dt) s))) /\
  (forall F w c n enl force,
     may (initialize F w c n enl force) (fst (run G (initialize F w c n enl force) s))) /\
  (forall F w us b e p enl seed,
     may (new_usecase F w us b e p enl seed) (fst (run G (new_usecase F w us b e p enl seed) s))) /\
  (forall depth F w c arg,
     may (generate_sequential depth F w c arg) (fst (run G (generate_sequential depth F w c arg) s))) /\
  (forall depth F peak t, may (work depth F peak t) (fst (run G (work depth F peak t) s))).
Proof.
  repeat split; intros; apply run_may.
  - apply bp_profile.
  - apply bp_aggregated.
  - apply bp_initialize.
  - apply bp_new.
  - apply bp_sequential.
  - apply bp_work.
Qed.
