(** * PropsMonths: one input file per month (C46, C47) *)
From Coq Require Import Ascii Permutation Sorting.Sorted.
From Verif Require Import Base Wp ListLemmas Utils Appliance Spec SpecDay Tape User Sim SpecUser UseCase SpecUseCase
  ProofsUseCase PropsUseCase PropsInit PropsPeak Calendar PropsCalendar Tabular PostProcess PropsPost Convert PropsConvert Cli PropsCli.
Open Scope string_scope.
Open Scope list_scope.
Open Scope Z_scope.

(** ** C46: month mode *)

(** the input files of the months y-m, y-(m+1), ... have been run, each for the days of its month *)
Inductive months_run (depth : nat) (F : fm) (strict : bool) (d : disk) (y : Z) : Z -> list string -> list (list (list Q)) -> Prop :=
| months_done m : months_run depth F strict d y m [] []
| months_next m l f fs rows runs :
    month_length y m l -> simulated depth F strict d f (y, m, 1) (y, m, l) rows ->
    months_run depth F strict d y (m + 1) fs runs -> months_run depth F strict d y m (f :: fs) (rows :: runs).

Lemma run_months_spec depth F strict w d y : forall fs days m ms, 1 <= m -> m + zlen fs <= 13 -> List.length days = List.length fs ->
  may (run_months depth F strict w d (month_jobs y m fs days)) (Ok ms) ->
  exists runs, months_run depth F strict d y m fs runs /\ ms = map flatten runs.
Proof.
  induction fs as [|f fs IH]; intros days m ms Hm H13 Hl H; destruct days as [|n days]; try discriminate; cbn [month_jobs run_months] in H.
  - apply may_ret_inv in H. injection H as ->. exists []. split; [constructor|reflexivity].
  - rewrite zlen_cons in H13. pose proof (Zle_0_nat (List.length fs)) as Hp. unfold zlen in H13.
    apply may_bind in H as [(rows & Hr & H)|(e & _ & H)]; [|discriminate].
    apply may_bind in H as [(rest & Hrest & H)|(e & _ & H)]; [|discriminate].
    apply may_ret_inv in H. injection H as ->.
    destruct (IH days (m + 1) rest) as (runs & HR & ->); [lia|unfold zlen; lia|now injection Hl|exact Hrest|].
    exists (rows :: runs). split; [|reflexivity].
    pose proof (month_length_total y m ltac:(lia)) as ML.
    apply (months_next depth F strict d y m (days_in_month y m)); [exact ML| |exact HR].
    unfold run_month in Hr. cbn [j_file] in Hr.
    destruct (ends_with f ".xlsx").
    2:{ destruct (ends_with f ".py"); [destruct (exists_py d f)|]; apply may_raise_inv in Hr; discriminate. }
    pose proof (month_length_pos _ _ _ ML).
    eapply run_job_dates; [| | |exact Hr].
    + exists (days_in_month y m). split; [exact ML|lia].
    + exists (days_in_month y m). split; [exact ML|lia].
    + unfold ord, ymd2ord. lia.
Qed.

(** the rows of a run are full days *)
Lemma simulated_rows depth F strict d f first final rows : simulated depth F strict d f first final rows ->
  is_date first -> Forall (fun row => zlen row = 1440) rows /\ after (zlen rows - 1) first final.
Proof.
  intros (n & tab & us & peak & Ha & _ & _ & Hl & Hr) Hd. rewrite Hl. split; [|exact Ha].
  apply Forall_nth. intros i dflt Hi. unfold zlen in Hl.
  assert (Hx : exists x, after (Z.of_nat i) first x).
  { assert (Hi' : Z.of_nat i <= n - 1) by lia. clear Hr Hl. clear Hi.
    remember (n - 1) as k eqn:Ek. clear Ek n. revert i Hi'.
    induction Ha as [x|k x z z' Ha IH N]; intros i Hi'.
    - assert (i = 0%nat) by lia. subst. exists x. constructor.
    - destruct (Z.eq_dec (Z.of_nat i) (k + 1)) as [->|Hne]; [exists z'; econstructor; eauto|]. apply IH; [exact Hd|lia]. }
  destruct Hx as (x & Hx).
  destruct (Hr (Z.of_nat i) x ltac:(lia) Hx) as (L & _). rewrite Nat2Z.id in L.
  rewrite (nth_indep _ dflt []) by lia. exact L.
Qed.

Lemma month_rows depth F strict d f y m l rows : month_length y m l -> simulated depth F strict d f (y, m, 1) (y, m, l) rows ->
  zlen rows = l /\ zlen (flatten rows) = 1440 * l /\
  forall k t, 0 <= k < l -> 0 <= t < 1440 -> value_at (flatten rows) (1440 * k + t) = value_at (nth (Z.to_nat k) rows []) t.
Proof.
  intros ML S. pose proof (month_length_pos _ _ _ ML).
  destruct (simulated_rows _ _ _ _ _ _ _ _ S) as (Hf & Ha).
  { exists l. split; [exact ML|lia]. }
  apply after_ord in Ha. unfold ord, ymd2ord in Ha.
  assert (Hl : zlen rows = l) by lia. split; [exact Hl|].
  unfold flatten. split; [rewrite concat_len by exact Hf; lia|].
  intros k t Hk Ht. unfold value_at. rewrite concat_nth by (try exact Hf; lia).
  replace ((1440 * k + t) / 1440) with k by (apply Z.div_unique with t; lia).
  replace ((1440 * k + t) mod 1440) with t by (apply Z.mod_unique with k; lia). reflexivity.
Qed.

(** where the days of the later months are *)
Lemma months_concat depth F strict d y : forall fs m runs, months_run depth F strict d y m fs runs -> m + zlen fs = 13 -> fs <> [] ->
  zlen (List.concat (map flatten runs)) = 1440 * (365 + (if is_leap y then 1 else 0) - days_before_month y m) /\
  forall m' l k t, m <= m' -> month_length y m' l -> 0 <= k < l -> 0 <= t < 1440 ->
    value_at (List.concat (map flatten runs)) (1440 * (days_before_month y m' - days_before_month y m + k) + t) =
    value_at (nth (Z.to_nat k) (nth (Z.to_nat (m' - m)) runs []) []) t.
Proof.
  intros fs m runs H. induction H as [m|m l f fs rows runs ML S R IH]; intros H13 Hne; [congruence|].
  destruct (month_rows _ _ _ _ _ _ _ _ _ ML S) as (Hl & Hfl & Hv).
  pose proof (month_length_days _ _ _ ML) as (Hm & El & Hnext & Hlast). rewrite zlen_cons in H13.
  pose proof (month_length_pos _ _ _ ML).
  cbn [map List.concat].
  destruct fs as [|f2 fs].
  - inversion R; subst runs. cbn [map List.concat]. rewrite app_nil_r, Hfl.
    assert (H12 : m = 12) by (unfold zlen in H13; cbn in H13; lia). specialize (Hlast H12).
    split; [lia|]. intros m' l' k t Hm' ML' Hk Ht.
    pose proof (month_length_days _ _ _ ML') as (Hm2 & El' & _). assert (m' = m) by lia. subst m'.
    rewrite !Z.sub_diag. cbn [Z.to_nat nth]. rewrite Z.add_0_l. apply Hv; lia.
  - destruct IH as (IHl & IHv); [lia|discriminate|].
    assert (m < 12) by (unfold zlen in H13; cbn [List.length] in H13; lia).
    specialize (Hnext H0).
    split; [rewrite zlen_app, Hfl, IHl; lia|].
    intros m' l' k t Hm' ML' Hk Ht.
    destruct (Z.eq_dec m' m) as [->|Hne'].
    + rewrite !Z.sub_diag. cbn [Z.to_nat nth]. rewrite Z.add_0_l.
      pose proof (month_length_fun _ _ _ _ ML ML'). subst l'.
      unfold value_at. rewrite app_nth1 by (unfold zlen in Hfl; lia). apply Hv; lia.
    + assert (Hge : days_before_month y (m + 1) <= days_before_month y m').
      { pose proof (month_length_days _ _ _ ML') as (Hm2 & _).
        pose proof (after_ord _ _ _ (after_months y (m + 1) ltac:(lia))) as A1.
        assert (is_date (y, m + 1, 1)) as D1.
        { exists (days_in_month y (m + 1)). pose proof (month_length_total y (m + 1) ltac:(lia)) as M1. split; [exact M1|]. apply month_length_pos in M1. lia. }
        clear -Hm2 Hm' Hne' Hm H0. unfold days_before_month.
        assert (C : forall j, 1 <= j < 12 -> nth (Z.to_nat j) [-1; 0; 31; 59; 90; 120; 151; 181; 212; 243; 273; 304; 334] 0 <
          nth (Z.to_nat (j + 1)) [-1; 0; 31; 59; 90; 120; 151; 181; 212; 243; 273; 304; 334] 0).
        { intros j Hj. assert (Cj : j = 1 \/ j = 2 \/ j = 3 \/ j = 4 \/ j = 5 \/ j = 6 \/ j = 7 \/ j = 8 \/ j = 9 \/ j = 10 \/ j = 11) by lia.
          repeat destruct Cj as [->|Cj]; subst; vm_compute; reflexivity. }
        assert (Mono : forall (n : nat) i, 1 <= i -> i + Z.of_nat n <= 12 ->
          nth (Z.to_nat i) [-1; 0; 31; 59; 90; 120; 151; 181; 212; 243; 273; 304; 334] 0 <=
          nth (Z.to_nat (i + Z.of_nat n)) [-1; 0; 31; 59; 90; 120; 151; 181; 212; 243; 273; 304; 334] 0).
        { induction n as [|n IHn]; intros i Hi1 Hi2; [rewrite Z.add_0_r; lia|].
          specialize (IHn i Hi1 ltac:(lia)). specialize (C (i + Z.of_nat n) ltac:(lia)).
          replace (i + Z.of_nat (S n)) with (i + Z.of_nat n + 1) by lia. lia. }
        specialize (Mono (Z.to_nat (m' - (m + 1))) (m + 1) ltac:(lia) ltac:(lia)).
        replace (m + 1 + Z.of_nat (Z.to_nat (m' - (m + 1)))) with m' in Mono by lia.
        destruct (is_leap y), (m + 1 >? 2) eqn:E1, (m' >? 2) eqn:E2; cbn [andb]; lia. }
      specialize (IHv m' l' k t ltac:(lia) ML' Hk Ht).
      unfold value_at in IHv |- *. rewrite app_nth2 by (unfold zlen in Hfl; lia).
      replace (Z.to_nat (m' - m)) with (Datatypes.S (Z.to_nat (m' - (m + 1)))) by lia. cbn [nth]. rewrite <- IHv.
      f_equal. unfold zlen in Hfl. lia.
Qed.

Lemma year_index_spec y : zlen (year_index y) = 1440 * (365 + (if is_leap y then 1 else 0)) /\
  forall i, 0 <= i < zlen (year_index y) -> nth (Z.to_nat i) (year_index y) 0 = midnight y 1 1 + i.
Proof.
  pose proof (after_ord _ _ _ (after_year y)) as (_ & A). unfold ord in A.
  unfold year_index, minute_range. unfold midnight in *.
  split.
  - rewrite zlen_arange. assert (0 <= (if is_leap y then 1 else 0)) by (destruct (is_leap y); lia). lia.
  - intros i Hi. rewrite zlen_arange in Hi. rewrite nth_arange; lia.
Qed.

Lemma month_resolve d a y f fs : a_years a = Some [y] -> a_start a = None -> a_end a = None ->
  a_in a = Some (f :: fs) -> is_dir d f = true ->
  match resolve d a with
  | Err _ => True
  | Ok Usage | Ok (Each _) => False
  | Ok (Months y' js folder) => y' = y /\ 1 <= y <= 9999 /\ exists files days, month_files d f (a_ext a) = Ok files /\
      List.length days = List.length files /\ js = month_jobs y 1 files days
  end.
Proof.
  intros Hy Hs He Hi Hd. unfold resolve, default_dates, apply_years. rewrite Hy, Hs, He, Hi, Hd.
  assert (E : (match a_days a with None | Some _ => Ok (None, None) end : res (option ymd * option ymd)) = Ok (None, None)) by (destruct (a_days a); reflexivity).
  destruct (mk_date y 1 1) as [x1|] eqn:E1; [|destruct (a_days a); cbn [rbind]; rewrite ?E1; exact I].
  assert (V : 1 <= y <= 9999).
  { unfold mk_date in E1. destruct (1 <=? y) eqn:A, (y <=? 9999) eqn:B; try discriminate. lia. }
  destruct (month_files d f (a_ext a)) as [files|] eqn:Em.
  2:{ destruct (a_days a); cbn [rbind last]; rewrite ?E1; cbn [rbind]; rewrite valid_mk by lia; cbn [rbind]; exact I. }
  destruct (a_days a) as [ns|]; cbn [rbind last]; rewrite ?E1; cbn [rbind]; rewrite valid_mk by lia; cbn [rbind].
  - destruct (spread ns (zlen files)) as [ns'|] eqn:Es; cbn [rbind]; [|exact I].
    split; [reflexivity|]. split; [exact V|]. exists files, (map Some ns'). split; [reflexivity|]. split; [|reflexivity].
    rewrite map_length. apply spread_length in Es; unfold zlen in *; lia.
  - split; [reflexivity|]. split; [exact V|]. exists files, (repeat None (List.length files)). split; [reflexivity|].
    split; [apply repeat_length|reflexivity].
Qed.

Lemma month_files_12 d f ext files : month_files d f ext = Ok files -> zlen files = 12.
Proof.
  unfold month_files. destruct (sort_by_key _) as [fs|]; [|discriminate]. cbn [rbind].
  destruct (zlen fs =? 12) eqn:E; [|discriminate]. intros H. injection H as <-. apply Z.eqb_eq, E.
Qed.

(** With one year and a folder: either an exception ends the command and nothing is written, or
    the year is written: the m-th file has been run for the days of month m, there is one value
    for every minute of the year, and the value at minute [t] of the date (y, m, dd) is the value
    at minute [t] of the row of that date, at the timestamp of that minute. *)
Theorem C46_year depth F strict w d results a y f fs r :
  a_years a = Some [y] -> a_start a = None -> a_end a = None -> a_in a = Some (f :: fs) -> is_dir d f = true ->
  may (main depth F strict w d results a) r ->
  (exists e, r = Ok ([], Some e)) \/
  exists folder ix p files runs, 
    r = Ok ([Wrote_year folder ix p (resample F 60 Mean ix p) (resample F 60 Max ix p) (resample F 60 Min ix p)], None) /\
    month_files d f (a_ext a) = Ok files /\ zlen files = 12 /\ zlen runs = 12 /\ months_run depth F strict d y 1 files runs /\
    zlen p = zlen ix /\ (exists n, after n (y, 1, 1) (y, 12, 31) /\ zlen ix = 1440 * (n + 1)) /\
    forall m dd n t, after n (y, 1, 1) (y, m, dd) -> is_date (y, m, dd) -> 0 <= t < 1440 ->
      nth (Z.to_nat (1440 * n + t)) ix 0 = midnight y m dd + t /\
      value_at p (1440 * n + t) = value_at (nth (Z.to_nat (dd - 1)) (nth (Z.to_nat (m - 1)) runs []) []) t.
Proof.
  intros Hy Hs He Hi Hd H. pose proof (month_resolve _ _ _ _ _ Hy Hs He Hi Hd) as HR. unfold main in H.
  destruct (resolve d a) as [[|js|y' js folder]|e]; [contradiction|contradiction| |].
  2:{ apply may_ret_inv in H. left. exists e. exact H. }
  destruct HR as (-> & V & files & days & Hf & Hdl & ->).
  pose proof (month_files_12 _ _ _ _ Hf) as H12.
  apply may_bind in H as [(x & Hx & H)|(e & Hx & _)]; [|exfalso; exact (attempt_total _ _ Hx)].
  apply (proj1 (attempt_may _ _)) in Hx.
  destruct x as [[ix p]|e]; [|apply may_ret_inv in H; left; exists e; exact H].
  apply may_ret_inv in H. right.
  apply may_bind in Hx as [(ms & Hms & Hx)|(e & _ & Hx)]; [|discriminate].
  apply may_lift in Hx.
  destruct (run_months_spec depth F strict w d y files days 1 ms ltac:(lia) ltac:(lia) Hdl Hms) as (runs & HR & ->).
  destruct (months_concat depth F strict d y files 1 runs HR ltac:(lia) ltac:(intros ->; discriminate)) as (Hl & Hv).
  pose proof (year_index_spec y) as (Li & Ni).
  assert (E0 : days_before_month y 1 = 0) by (unfold days_before_month; reflexivity).
  rewrite E0 in *. rewrite Z.sub_0_r in Hl.
  unfold year_frame in Hx. rewrite Hl, Li, Z.eqb_refl in Hx. injection Hx as -> ->.
  exists folder, (year_index y), (List.concat (map flatten runs)), files, runs.
  split; [exact H|]. split; [exact Hf|]. split; [exact H12|].
  split. { assert (L : zlen runs = zlen files); [|lia]. clear -HR. induction HR; [reflexivity|]. rewrite !zlen_cons. lia. }
  split; [exact HR|]. split; [lia|]. split.
  { exists (364 + (if is_leap y then 1 else 0)). split; [apply after_year|]. lia. }
  intros m dd n t Ha Hdate Ht.
  pose proof (after_date _ _ _ Hdate) as Ha'. apply after_ord in Ha, Ha'.
  assert (En : n = days_before_month y m + (dd - 1)) by lia.
  destruct Hdate as (l & ML & Hdd).
  pose proof (date_bounds y m dd ltac:(exists l; now split)) as Hb.
  assert (Hn : n < 365 + (if is_leap y then 1 else 0)).
  { assert (A : after (364 + (if is_leap y then 1 else 0) + 1) (y, 1, 1) (y + 1, 1, 1)).
    { econstructor; [apply after_year|]. apply next_year. apply long_month. cbn; tauto. }
    apply after_ord in A. lia. }
  split.
  - rewrite Ni by lia. unfold midnight. unfold ord in *. lia.
  - pose proof (month_length_days _ _ _ ML) as (Hm & _).
    rewrite <- (Hv m l (dd - 1) t) by (try exact ML; lia). f_equal. lia.
Qed.

(** the frame of the year never has the wrong length: an exception comes from the arguments or
    from the run of a month *)
Theorem C46_exceptions depth F strict w d results a y f fs e evs :
  a_years a = Some [y] -> a_start a = None -> a_end a = None -> a_in a = Some (f :: fs) -> is_dir d f = true ->
  may (main depth F strict w d results a) (Ok (evs, Some e)) ->
  resolve d a = Err e \/ exists file n m, may (run_month depth F strict w d (Job file None n (Some (y, m, 1)) (Some (y, m, days_in_month y m)))) (Err e).
Proof.
  intros Hy Hs He Hi Hd H. pose proof (month_resolve _ _ _ _ _ Hy Hs He Hi Hd) as HR. unfold main in H.
  destruct (resolve d a) as [[|js|y' js folder]|e']; [contradiction|contradiction| |].
  2:{ apply may_ret_inv in H. left. congruence. }
  right. destruct HR as (-> & V & files & days & Hf & Hdl & ->).
  pose proof (month_files_12 _ _ _ _ Hf) as H12.
  apply may_bind in H as [(x & Hx & H)|(e' & Hx & _)]; [|exfalso; exact (attempt_total _ _ Hx)].
  apply (proj1 (attempt_may _ _)) in Hx.
  destruct x as [[ix p]|e']; apply may_ret_inv in H; inversion H; subst. clear H.
  apply may_bind in Hx as [(ms & Hms & Hx)|(e2 & Hx & E)].
  - exfalso. apply may_lift in Hx.
    destruct (run_months_spec depth F strict w d y files days 1 ms ltac:(lia) ltac:(lia) Hdl Hms) as (runs & HR & ->).
    destruct (months_concat depth F strict d y files 1 runs HR ltac:(lia) ltac:(intros ->; discriminate)) as (Hl & Hv).
    pose proof (year_index_spec y) as (Li & Ni).
    assert (E0 : days_before_month y 1 = 0) by (unfold days_before_month; reflexivity).
    rewrite E0 in Hl. rewrite Z.sub_0_r in Hl.
    unfold year_frame in Hx. rewrite Hl, Li, Z.eqb_refl in Hx. discriminate.
  - injection E as <-. clear -Hx.
    assert (G : exists m, may (run_months depth F strict w d (month_jobs y m files days)) (Err e')) by (now exists 1).
    clear Hx. destruct G as (m & Hx). revert days m Hx.
    induction files as [|file files IH]; intros [|n days] m Hx; cbn [month_jobs run_months] in Hx;
    try (apply may_ret_inv in Hx; discriminate).
    apply may_bind in Hx as [(rows & Hr & Hx)|(e2 & Hr & E)].
    + apply may_bind in Hx as [(rest & Hr2 & Hx)|(e2 & Hr2 & E)]; [apply may_ret_inv in Hx; discriminate|].
      injection E as <-. eapply IH. exact Hr2.
    + injection E as <-. exists file, n, m. exact Hr.
Qed.

(** ** C47: the order of the month files *)

Definition digit (k : Z) : string := String (ascii_of_nat (Z.to_nat (48 + k))) "".
(** [numeral n s]: [s] writes the number [n] in decimal without leading zeros *)
Inductive numeral : Z -> string -> Prop :=
| one_digit k : 0 <= k <= 9 -> numeral k (digit k)
| more_digits n s k : 1 <= n -> numeral n s -> 0 <= k <= 9 -> numeral (10 * n + k) (s ++ digit k).

Lemma digits_app a b : digits (a ++ b) = digits a ++ digits b.
Proof. induction a as [|c a IH]; [reflexivity|]. cbn [String.append digits]. destruct (is_digit c); cbn [app]; now rewrite IH. Qed.
Lemma digits_digit k : 0 <= k <= 9 -> digits (digit k) = [k].
Proof.
  intros H. assert (C : k = 0 \/ k = 1 \/ k = 2 \/ k = 3 \/ k = 4 \/ k = 5 \/ k = 6 \/ k = 7 \/ k = 8 \/ k = 9) by lia.
  repeat destruct C as [->|C]; subst; vm_compute; reflexivity.
Qed.
Definition number (l : list Z) : Z := fold_left (fun n d => 10 * n + d) l 0.
Lemma number_from l : forall a, fold_left (fun n d => 10 * n + d) l a = a * 10 ^ zlen l + number l.
Proof.
  unfold number. induction l as [|x l IH]; intros a.
  - cbn [fold_left]. change (zlen (@nil Z)) with 0. lia.
  - cbn [fold_left]. rewrite IH, (IH (10 * 0 + x)), zlen_cons, Z.pow_add_r by (unfold zlen; lia). lia.
Qed.
Lemma number_app l r : number (l ++ r) = number l * 10 ^ zlen r + number r.
Proof. unfold number. rewrite fold_left_app. apply number_from. Qed.
Lemma number_snoc l k : number (l ++ [k]) = 10 * number l + k.
Proof. unfold number. rewrite fold_left_app. reflexivity. Qed.

(** the digits of a numeral: their number, and how many they are *)
Lemma numeral_digits n s : numeral n s -> 0 <= n /\ number (digits s) = n /\
  1 <= zlen (digits s) /\ n < 10 ^ zlen (digits s) /\ (1 <= n -> 10 ^ (zlen (digits s) - 1) <= n) /\ (n = 0 -> zlen (digits s) = 1).
Proof.
  induction 1 as [k Hk|n s k Hn H IH Hk].
  - rewrite digits_digit by exact Hk. change (zlen [k]) with 1. unfold number. cbn [fold_left]. repeat split; try lia.
  - destruct IH as (H0 & Hv & Hl & Hu & Hd & _). rewrite digits_app, digits_digit by exact Hk.
    rewrite number_snoc, Hv, zlen_app. change (zlen [k]) with 1. rewrite Z.pow_add_r by lia. change (10 ^ 1) with 10.
    specialize (Hd Hn). replace (zlen (digits s) + 1 - 1) with (Z.succ (zlen (digits s) - 1)) by lia. rewrite Z.pow_succ_r by lia.
    repeat split; try lia.
Qed.
Lemma numeral_value n m s : numeral n s -> numeral m s -> n = m.
Proof. intros H H'. apply numeral_digits in H, H'. lia. Qed.
Lemma numeral_length n m s t : numeral n s -> numeral m t -> n <= m -> zlen (digits s) <= zlen (digits t).
Proof.
  intros H H' Hle. apply numeral_digits in H as (H0 & _ & Hl & Hu & Hd & Hz), H' as (H0' & _ & Hl' & Hu' & Hd' & Hz').
  destruct (Z.eq_dec n 0) as [E|E]; [rewrite (Hz E); lia|]. specialize (Hd ltac:(lia)).
  destruct (Z_le_gt_dec (zlen (digits s)) (zlen (digits t))) as [|G]; [assumption|exfalso].
  assert (10 ^ zlen (digits t) <= 10 ^ (zlen (digits s) - 1)) by (apply Z.pow_le_mono_r; lia). lia.
Qed.
Lemma numeral_text n s : numeral n s -> forall t, numeral n t -> s = t.
Proof.
  induction 1 as [k Hk|n s k Hn H IH Hk]; intros t Ht.
  - inversion Ht; subst; [reflexivity|lia].
  - remember (10 * n + k) as N eqn:EN. destruct Ht as [k' Hk'|n' s' k' Hn' H' Hk']; [lia|].
    assert (En : k' = k /\ n' = n) by lia. destruct En as [-> ->]. now rewrite (IH s' H').
Qed.

Lemma join_prefix dir : exists p, forall b, path_join dir b = (p ++ b)%string.
Proof.
  destruct dir as [|c s]; [exists ""; reflexivity|]. unfold path_join. destruct (ends_with (String c s) "/").
  - exists (String c s). reflexivity.
  - exists (String c s ++ "/")%string. intros b. now rewrite sapp_assoc.
Qed.

(** the keys of the files with a common prefix and suffix are ordered as their numbers *)
Lemma key_numeral p post n s : numeral n s -> exists k, sort_key (p ++ s ++ post) = Ok k /\
  k = (number (digits p) * 10 ^ zlen (digits s) + n) * 10 ^ zlen (digits post) + number (digits post).
Proof.
  intros H. apply numeral_digits in H as (H0 & Hv & Hl & _). unfold sort_key. rewrite !digits_app.
  destruct (digits p ++ digits s ++ digits post) as [|x l] eqn:E.
  - exfalso. apply app_eq_nil in E as [_ E]. apply app_eq_nil in E as [E _]. rewrite E in Hl. change (zlen (@nil Z)) with 0 in Hl. lia.
  - eexists. split; [reflexivity|]. change (number (x :: l) = (number (digits p) * 10 ^ zlen (digits s) + n) * 10 ^ zlen (digits post) + number (digits post)).
    rewrite <- E, app_assoc, !number_app, Hv. reflexivity.
Qed.
Lemma is_digit_digit c : is_digit c = true -> 0 <= Z.of_nat (nat_of_ascii c) - 48.
Proof. unfold is_digit. intros H. apply andb_prop in H as [H _]. apply Z.leb_le in H. lia. Qed.
Lemma digits_nonneg s : Forall (fun k => 0 <= k) (digits s).
Proof.
  induction s as [|c s IH]; [constructor|]. cbn [digits]. destruct (is_digit c) eqn:E; [|exact IH].
  constructor; [now apply is_digit_digit|exact IH].
Qed.
Lemma number_nonneg l : Forall (fun k => 0 <= k) l -> 0 <= number l.
Proof.
  unfold number. assert (G : forall a, 0 <= a -> Forall (fun k => 0 <= k) l -> 0 <= fold_left (fun n d => 10 * n + d) l a).
  { induction l as [|x l IH]; intros a Ha H; [exact Ha|]. inversion H; subst. cbn [fold_left]. apply IH; [lia|assumption]. }
  apply G. lia.
Qed.
Lemma key_mono p post n s m t kn km : numeral n s -> numeral m t -> n < m ->
  sort_key (p ++ s ++ post) = Ok kn -> sort_key (p ++ t ++ post) = Ok km -> kn < km.
Proof.
  intros Hn Hm Hlt Kn Km.
  destruct (key_numeral p post n s Hn) as (k1 & E1 & V1), (key_numeral p post m t Hm) as (k2 & E2 & V2).
  rewrite Kn in E1. rewrite Km in E2. injection E1 as <-. injection E2 as <-.
  pose proof (numeral_length n m s t Hn Hm ltac:(lia)) as Hl.
  pose proof (number_nonneg _ (digits_nonneg p)) as Hp.
  assert (10 ^ zlen (digits s) <= 10 ^ zlen (digits t)) by (apply Z.pow_le_mono_r; lia).
  assert (0 < 10 ^ zlen (digits post)) by (apply Z.pow_pos_nonneg; unfold zlen; lia).
  subst kn km.
  assert (number (digits p) * 10 ^ zlen (digits s) + n < number (digits p) * 10 ^ zlen (digits t) + m).
  { apply Z.add_le_lt_mono; [|exact Hlt]. apply Z.mul_le_mono_nonneg_l; assumption. }
  apply Z.add_lt_mono_r. apply Z.mul_lt_mono_pos_r; assumption.
Qed.

Lemma insert_key_perm x l : Permutation (x :: l) (insert_key x l).
Proof.
  induction l as [|y l IH]; [reflexivity|]. cbn [insert_key]. destruct (fst x <=? fst y); [reflexivity|].
  apply perm_trans with (y :: x :: l); [apply perm_swap|]. now constructor.
Qed.
Definition key_le (x y : Z * string) : Prop := fst x <= fst y.
Lemma insert_key_sorted x l : StronglySorted key_le l -> StronglySorted key_le (insert_key x l).
Proof.
  induction l as [|y l IH]; intros H; cbn [insert_key]; [repeat constructor|].
  inversion H as [|? ? Hs Hf]; subst. destruct (fst x <=? fst y) eqn:E.
  - apply Z.leb_le in E. constructor; [exact H|]. constructor; [exact E|]. eapply Forall_impl; [|exact Hf]. unfold key_le. intros; lia.
  - apply Z.leb_gt in E. constructor; [apply IH, Hs|].
    eapply Permutation_Forall; [apply insert_key_perm|]. constructor; [unfold key_le; lia|exact Hf].
Qed.

Lemma sort_by_key_spec fs r : sort_by_key fs = Ok r ->
  Permutation fs r /\ exists ks, Forall2 (fun k f => sort_key f = Ok k) ks r /\ StronglySorted Z.le ks.
Proof.
  unfold sort_by_key. destruct (map_res _ fs) as [kfs|] eqn:E; [|discriminate]. cbn [rbind]. intros H. injection H as <-.
  assert (Hk : Forall (fun kf => sort_key (snd kf) = Ok (fst kf)) kfs /\ map snd kfs = fs).
  { revert kfs E. induction fs as [|f fs IH]; intros kfs E; cbn [map_res] in E.
    - injection E as <-. split; [constructor|reflexivity].
    - destruct (sort_key f) as [k|] eqn:Ek; [|discriminate]. cbn [rbind] in E.
      destruct (map_res _ fs) as [kfs'|] eqn:E'; [|discriminate]. cbn [rbind] in E. injection E as <-.
      destruct (IH kfs' eq_refl) as (HF & HM). split; [constructor; [exact Ek|exact HF]|]. cbn [map snd]. now rewrite HM. }
  destruct Hk as (HF & <-).
  set (sorted := fold_right insert_key [] kfs).
  assert (P : Permutation kfs sorted).
  { subst sorted. clear. induction kfs as [|x l IH]; [reflexivity|]. cbn [fold_right].
    apply perm_trans with (x :: fold_right insert_key [] l); [now constructor|apply insert_key_perm]. }
  assert (S : StronglySorted key_le sorted).
  { subst sorted. clear. induction kfs as [|x l IH]; [constructor|]. cbn [fold_right]. apply insert_key_sorted, IH. }
  split; [apply Permutation_map, P|].
  apply (Permutation_Forall P) in HF. clear P. clearbody sorted. clear kfs E.
  exists (map fst sorted). split.
  - clear S. induction HF as [|x l Hx HF IH]; cbn [map]; [constructor|constructor; [exact Hx|exact IH]].
  - clear HF. induction S as [|x l S IH HS]; cbn [map]; constructor; [exact IH|].
    clear -HS. induction HS as [|z l Hz HS IH]; cbn [map]; [constructor|constructor; [exact Hz|exact IH]].
Qed.
Lemma sort_by_key_ok fs : Forall (fun f => exists k, sort_key f = Ok k) fs -> exists r, sort_by_key fs = Ok r.
Proof.
  intros H. unfold sort_by_key.
  assert (E : exists kfs, map_res (fun f => rbind (sort_key f) (fun k => Ok (k, f))) fs = Ok kfs).
  { induction H as [|f fs (k & Hk) H (kfs & IH)]; [eexists; reflexivity|]. cbn [map_res]. rewrite Hk. cbn [rbind]. rewrite IH. eexists; reflexivity. }
  destruct E as (kfs & ->). eexists. reflexivity.
Qed.

(** Files pre ++ number ++ post in a folder with any path: they are taken in the order of their
    numbers, all of them, and there must be twelve. *)
Theorem C47_order d dir ext pre post :
  let found := filter (fun f => ends_with f ext) (list_dir d dir) in
  Forall (fun f => exists n s, numeral n s /\ f = (pre ++ s ++ post)%string) found ->
  (zlen found <> 12 -> month_files d dir ext = Err ValueError) /\
  (zlen found = 12 -> exists fs ns, month_files d dir ext = Ok fs /\ Permutation (map (path_join dir) found) fs /\
     Forall2 (fun n f => exists s, numeral n s /\ f = path_join dir (pre ++ s ++ post)) ns fs /\
     StronglySorted Z.le ns /\ (NoDup found -> StronglySorted Z.lt ns)).
Proof.
  cbv zeta. set (found := filter (fun f => ends_with f ext) (list_dir d dir)). intros HF.
  destruct (join_prefix dir) as (p & Hp).
  assert (Hnum : Forall (fun f => exists n s, numeral n s /\ f = path_join dir (pre ++ s ++ post)) (map (path_join dir) found)).
  { apply Forall_map. eapply Forall_impl; [|exact HF]. intros f (n & s & Hn & ->). now exists n, s. }
  destruct (sort_by_key_ok (map (path_join dir) found)) as (r & Hr).
  { eapply Forall_impl; [|exact Hnum]. intros f (n & s & Hn & ->). rewrite Hp, <- sapp_assoc.
    destruct (key_numeral (p ++ pre) post n s Hn) as (k & Hk & _). now exists k. }
  unfold month_files. fold found. rewrite Hr. cbn [rbind].
  destruct (sort_by_key_spec _ _ Hr) as (P & ks & HK & HS).
  assert (Lr : zlen r = zlen found) by (apply Permutation_length in P; rewrite map_length in P; unfold zlen; lia).
  rewrite Lr. split; intros H12.
  { destruct (zlen found =? 12) eqn:E; [apply Z.eqb_eq in E; contradiction|reflexivity]. }
  rewrite H12, Z.eqb_refl.
  apply (Permutation_Forall P) in Hnum.
  assert (Hns : exists ns, Forall2 (fun n f => exists s, numeral n s /\ f = path_join dir (pre ++ s ++ post)) ns r).
  { clear -Hnum. induction Hnum as [|f r (n & s & H) Hr (ns & IH)]; [exists []; constructor|]. exists (n :: ns). constructor; [now exists s|exact IH]. }
  destruct Hns as (ns & Hns). exists r, ns. split; [reflexivity|]. split; [exact P|]. split; [exact Hns|].
  assert (Le : StronglySorted Z.le ns).
  { clear -HK HS Hns Hp. revert ns Hns. induction HK as [|k f ks r Hk HK IH]; intros ns Hns; inversion Hns as [|n ? ns' ? (s & Hn & Ef) Hns']; subst; [constructor|].
    inversion HS as [|? ? HS' Hall]; subst. constructor; [apply IH; assumption|].
    clear IH HS HS' Hns. revert ks HK Hall. induction Hns' as [|m g ns' r (t & Hm & Eg) Hns' IH]; intros ks HK Hall; [constructor|].
    inversion HK as [|k2 ? ks' ? Hk2 HK']; subst. inversion Hall as [|? ? Hle Hall']; subst.
    constructor; [|eapply IH; eassumption].
    rewrite Hp, <- sapp_assoc in Hk, Hk2.
    destruct (Z_le_gt_dec n m) as [|G]; [assumption|exfalso].
    pose proof (key_mono (p ++ pre) post m t n s k2 k Hm Hn ltac:(lia) Hk2 Hk). lia. }
  split; [exact Le|]. intros ND.
  assert (NDr : NoDup r).
  { eapply Permutation_NoDup; [exact P|]. apply FinFun.Injective_map_NoDup; [|exact ND].
    intros x y E. rewrite !Hp in E. clear -E. induction p as [|c p IH]; [exact E|]. injection E as E. exact (IH E). }
  clear -Le NDr Hns. revert ns Le Hns. induction NDr as [|f r Hf NDr IH]; intros ns Le Hns; inversion Hns as [|n ? ns' ? (s & Hn & Ef) Hns']; subst; [constructor|].
  inversion Le as [|? ? Le' Hall]; subst. constructor; [apply IH; assumption|].
  clear IH Le Le' Hns. induction Hns' as [|m g ns' r (t & Hm & Eg) Hns' IH]; [constructor|].
  inversion Hall; subst. constructor.
  - assert (n <> m); [|lia]. intros ->. apply Hf. left. rewrite (numeral_text m s Hn t Hm). reflexivity.
  - inversion NDr; subst. apply IH; try assumption. intros Hin. apply Hf. now right.
Qed.

(** a file without any digit in its path *)
Theorem C47_no_number d dir ext f :
  In f (list_dir d dir) -> ends_with f ext = true -> digits (path_join dir f) = [] -> month_files d dir ext = Err ValueError.
Proof.
  intros Hin He Hd. unfold month_files.
  assert (E : sort_by_key (map (path_join dir) (filter (fun f => ends_with f ext) (list_dir d dir))) = Err ValueError).
  { assert (Hin' : In (path_join dir f) (map (path_join dir) (filter (fun f => ends_with f ext) (list_dir d dir)))).
    { apply in_map. apply filter_In. now split. }
    unfold sort_by_key. generalize dependent (map (path_join dir) (filter (fun f => ends_with f ext) (list_dir d dir))).
    intros l Hl. match goal with |- rbind ?x _ = _ => assert (E : x = Err ValueError) end; [|rewrite E; reflexivity].
    induction l as [|g l IH]; [destruct Hl|]. cbn [map_res].
    destruct (sort_key g) as [k|e] eqn:Eg; cbn [rbind].
    - destruct Hl as [->|Hl]; [unfold sort_key in Eg; rewrite Hd in Eg; discriminate|]. rewrite IH by exact Hl. reflexivity.
    - unfold sort_key in Eg. destruct (digits g); congruence. }
  rewrite E. reflexivity.
Qed.

(** twelve files listed in the wrong order, in a folder with a number in its name *)
Definition month_names : list string :=
  ["month_10.xlsx"; "month_2.xlsx"; "month_12.xlsx"; "notes.txt"; "month_1.xlsx"; "month_3.xlsx"; "month_11.xlsx"; "month_4.xlsx"; "month_5.xlsx";
   "month_9.xlsx"; "month_8.xlsx"; "month_7.xlsx"; "month_6.xlsx"].
Definition month_disk : disk :=
  Disk (fun p => String.eqb p "runs_2020") (fun _ => month_names) (fun _ => Ok [shop_row "shop" "light"]) (fun _ => false).
Lemma numeral_1 k : 0 <= k <= 9 -> numeral k (digit k). Proof. apply one_digit. Qed.
Lemma numeral_2 j k : 1 <= j <= 9 -> 0 <= k <= 9 -> numeral (10 * j + k) (digit j ++ digit k).
Proof. intros Hj Hk. apply more_digits; [lia|apply one_digit; lia|exact Hk]. Qed.
Example C47_case :
  Forall (fun f => exists n s, numeral n s /\ f = ("month_" ++ s ++ ".xlsx")%string) (filter (fun f => ends_with f "xlsx") (list_dir month_disk "runs_2020")) /\
  NoDup (filter (fun f => ends_with f "xlsx") (list_dir month_disk "runs_2020")) /\
  month_files month_disk "runs_2020" "xlsx" = Ok (map (fun s => ("runs_2020/month_" ++ s ++ ".xlsx")%string) ["1"; "2"; "3"; "4"; "5"; "6"; "7"; "8"; "9"; "10"; "11"; "12"]).
Proof.
  split; [|split; [vm_compute; repeat constructor; cbn; intuition discriminate|vm_compute; reflexivity]].
  assert (E : filter (fun f => ends_with f "xlsx") (list_dir month_disk "runs_2020") =
    ["month_10.xlsx"; "month_2.xlsx"; "month_12.xlsx"; "month_1.xlsx"; "month_3.xlsx"; "month_11.xlsx"; "month_4.xlsx"; "month_5.xlsx";
     "month_9.xlsx"; "month_8.xlsx"; "month_7.xlsx"; "month_6.xlsx"]) by (vm_compute; reflexivity).
  rewrite E.
  repeat constructor.
  1: exists 10, "10"; split; [apply (numeral_2 1 0)|reflexivity]; lia.
  2: exists 12, "12"; split; [apply (numeral_2 1 2)|reflexivity]; lia.
  4: exists 11, "11"; split; [apply (numeral_2 1 1)|reflexivity]; lia.
  1: exists 2, "2"; split; [apply (one_digit 2)|reflexivity]; lia.
  1: exists 1, "1"; split; [apply (one_digit 1)|reflexivity]; lia.
  1: exists 3, "3"; split; [apply (one_digit 3)|reflexivity]; lia.
  1: exists 4, "4"; split; [apply (one_digit 4)|reflexivity]; lia.
  1: exists 5, "5"; split; [apply (one_digit 5)|reflexivity]; lia.
  1: exists 9, "9"; split; [apply (one_digit 9)|reflexivity]; lia.
  1: exists 8, "8"; split; [apply (one_digit 8)|reflexivity]; lia.
  1: exists 7, "7"; split; [apply (one_digit 7)|reflexivity]; lia.
  1: exists 6, "6"; split; [apply (one_digit 6)|reflexivity]; lia.
Qed.

(** ** A year without users is written *)

Lemma main_months_conv depth F strict w d results a y files days folder ms :
  resolve d a = Ok (Months y (month_jobs y 1 files days) folder) -> zlen files = 12 -> List.length days = List.length files ->
  may (run_months depth F strict w d (month_jobs y 1 files days)) (Ok ms) ->
  let ix := year_index y in let p := List.concat ms in
  may (main depth F strict w d results a)
    (Ok ([Wrote_year folder ix p (resample F 60 Mean ix p) (resample F 60 Max ix p) (resample F 60 Min ix p)], None)).
Proof.
  intros Hr H12 Hdl Hms ix p. unfold main. rewrite Hr.
  apply may_bind. left. exists (Ok (ix, p)). split; [|constructor].
  apply (proj2 (attempt_may _ _)). apply may_bind. left. exists ms. split; [exact Hms|].
  apply may_lift.
  destruct (run_months_spec depth F strict w d y files days 1 ms ltac:(lia) ltac:(lia) Hdl Hms) as (runs & HR & ->).
  destruct (months_concat depth F strict d y files 1 runs HR ltac:(lia) ltac:(intros ->; discriminate)) as (Hl & Hv).
  pose proof (year_index_spec y) as (Li & Ni).
  assert (E0 : days_before_month y 1 = 0) by (unfold days_before_month; reflexivity).
  rewrite E0 in Hl. rewrite Z.sub_0_r in Hl.
  unfold year_frame. subst ix p. rewrite Hl, Li, Z.eqb_refl. reflexivity.
Qed.

(** twelve tables with a header only *)
Definition empty_disk : disk :=
  Disk (fun p => String.eqb p "runs_2020") (fun _ => month_names) (fun _ => Ok []) (fun _ => false).
Definition month_paths : list string :=
  map (fun s => ("runs_2020/month_" ++ s ++ ".xlsx")%string) ["1"; "2"; "3"; "4"; "5"; "6"; "7"; "8"; "9"; "10"; "11"; "12"].

Lemma empty_month depth F strict w f y m l n : ends_with f ".xlsx" = true -> month_length y m l ->
  may (run_month depth F strict w empty_disk (Job f None n (Some (y, m, 1)) (Some (y, m, l)))) (Ok (repeat (zeros day_minutes) (Z.to_nat l))).
Proof.
  intros Hf ML. pose proof (month_length_pos _ _ _ ML). unfold run_month. cbn [j_file]. rewrite Hf. unfold run_job.
  cbn [j_file j_start j_end j_days option_map sheet empty_disk].
  assert (EN : (midnight_of (y, m, l) - midnight_of (y, m, 1)) / 1440 + 1 = l).
  { rewrite !midnight_ord. unfold ord, ymd2ord.
    replace (1440 * (days_before_year y + days_before_month y m + l - 1) - 1440 * (days_before_year y + days_before_month y m + 1 - 1))
      with ((l - 1) * 1440) by lia. rewrite Z.div_mul by lia. lia. }
  assert (Hp : exists p, may (draw_peak_range F (15 # 100) (arange 0 1440)) (Ok (Ok p))).
  { eexists. apply draw_peak_range_may. right. split; [rewrite zlen_arange; lia|]. exists 0%Q, 0%Q. cbv zeta. reflexivity. }
  destruct Hp as (p & Hp).
  apply run_xlsx_conv with (us := []) (p := p).
  - rewrite !midnight_ord. unfold ord, ymd2ord. lia.
  - reflexivity.
  - exact Hp.
  - rewrite EN. split; [rewrite zlen_repeat; lia|]. split.
    + apply Forall_forall. intros x Hx. apply repeat_spec in Hx. subst. reflexivity.
    + intros k Hk. exists (get_day_type (midnight_of (y, m, 1) + 1440 * k)), []. split; [apply day_type_spec|]. split; [constructor|].
      assert (Hk' : nth_error (repeat (zeros day_minutes) (Z.to_nat l)) (Z.to_nat k) = Some (zeros day_minutes)) by (apply nth_error_repeat; lia).
      rewrite (nth_error_nth _ _ [] Hk'). reflexivity.
Qed.

Definition year_args (y : Z) (n : option (list Z)) : args := Args (Some ["runs_2020"]) None n (Some [y]) None None "xlsx".

Example C46_case : exists p mean high low,
  may (main 3 exact_fm true nobody empty_disk "results" (year_args 2024 (Some [5])))
    (Ok ([Wrote_year None (year_index 2024) p mean high low], None)) /\ zlen p = 1440 * 366.
Proof.
  assert (Hr : resolve empty_disk (year_args 2024 (Some [5])) = Ok (Months 2024 (month_jobs 2024 1 month_paths (repeat (Some 5) 12)) None))
    by (vm_compute; reflexivity).
  assert (Hms : exists ms, may (run_months 3 exact_fm true nobody empty_disk (month_jobs 2024 1 month_paths (repeat (Some 5) 12))) (Ok ms)).
  { assert (G : forall fs days m, Forall (fun f => ends_with f ".xlsx" = true) fs -> 1 <= m -> m + zlen fs <= 13 ->
      exists ms, may (run_months 3 exact_fm true nobody empty_disk (month_jobs 2024 m fs days)) (Ok ms)).
    { induction fs as [|f fs IH]; intros days m HF Hm H13; [exists []; destruct days; constructor|].
      destruct days as [|n days]; [exists []; constructor|]. inversion HF; subst. rewrite zlen_cons in H13. pose proof (zlen_nonneg fs).
      destruct (IH days (m + 1)) as (ms & Hms); [assumption|lia|lia|]. cbn [month_jobs run_months].
      pose proof (empty_month 3 exact_fm true nobody f 2024 m (days_in_month 2024 m) n ltac:(assumption) (month_length_total 2024 m ltac:(lia))) as Hm1.
      eexists. apply may_bind. left. eexists. split; [exact Hm1|]. apply may_bind. left. exists ms. split; [exact Hms|]. constructor. }
    apply (G month_paths (repeat (Some 5) 12) 1); [|lia|unfold zlen; cbn; lia].
    repeat constructor. }
  destruct Hms as (ms & Hms).
  pose proof (main_months_conv 3 exact_fm true nobody empty_disk "results" _ _ _ _ _ ms Hr eq_refl eq_refl Hms) as H.
  cbv zeta in H. eexists _, _, _, _. split; [exact H|].
  destruct (run_months_spec 3 exact_fm true nobody empty_disk 2024 month_paths (repeat (Some 5) 12) 1 ms ltac:(lia) ltac:(unfold zlen; cbn; lia) eq_refl Hms) as (runs & HR & ->).
  destruct (months_concat 3 exact_fm true empty_disk 2024 month_paths 1 runs HR ltac:(reflexivity) ltac:(discriminate)) as (Hl & _).
  rewrite Hl. reflexivity.
Qed.
