(** * PropsCalendar: C04 *)
From Verif Require Import Base Wp ListLemmas Utils Appliance User UseCase SpecUseCase ProofsUseCase Calendar.
Open Scope list_scope.
Open Scope Z_scope.

(** ** Specification: the Gregorian calendar, one day after the other *)

(** (year, month, day) *)
Definition date : Type := (Z * Z * Z)%type.
Definition leap_year (y : Z) : Prop := (4 | y) /\ (~ (100 | y) \/ (400 | y)).
(** thirty days hath September, April, June and November ... *)
Inductive month_length (y : Z) : Z -> Z -> Prop :=
| long_month m : In m [1; 3; 5; 7; 8; 10; 12] -> month_length y m 31
| short_month m : In m [4; 6; 9; 11] -> month_length y m 30
| february : ~ leap_year y -> month_length y 2 28
| leap_february : leap_year y -> month_length y 2 29.
Inductive next_day : date -> date -> Prop :=
| in_month y m d l : month_length y m l -> 1 <= d < l -> next_day (y, m, d) (y, m, d + 1)
| next_month y m l : month_length y m l -> m < 12 -> next_day (y, m, l) (y, m + 1, 1)
| next_year y l : month_length y 12 l -> next_day (y, 12, l) (y + 1, 1, 1).

Inductive day_name : Type := Monday | Tuesday | Wednesday | Thursday | Friday | Saturday | Sunday.
Definition tomorrow (n : day_name) : day_name :=
  match n with
  | Monday => Tuesday | Tuesday => Wednesday | Wednesday => Thursday | Thursday => Friday
  | Friday => Saturday | Saturday => Sunday | Sunday => Monday
  end.
(** 1 January 2024 was a Monday; the names go round *)
Inductive falls_on : date -> day_name -> Prop :=
| new_year_2024 : falls_on (2024, 1, 1) Monday
| later d d' n : falls_on d n -> next_day d d' -> falls_on d' (tomorrow n)
| earlier d d' n : falls_on d (tomorrow n) -> next_day d' d -> falls_on d' n.

Definition is_date (x : date) : Prop :=
  let '(y, m, d) := x in exists l, month_length y m l /\ 1 <= d <= l.
Definition weekend (n : day_name) : Prop := n = Saturday \/ n = Sunday.

(** ** Proofs *)

Lemma is_leap_spec y : is_leap y = true <-> leap_year y.
Proof.
  unfold is_leap, leap_year. rewrite andb_true_iff, orb_true_iff, negb_true_iff.
  rewrite <- !Z.mod_divide by lia. lia.
Qed.

Lemma div_step k y : 0 < k -> y / k - (y - 1) / k = if y mod k =? 0 then 1 else 0.
Proof.
  intros Hk. pose proof (Z.div_mod y k ltac:(lia)) as H. pose proof (Z.mod_pos_bound y k Hk) as Hb.
  set (q := y / k) in *. set (r := y mod k) in *. destruct (Z.eqb_spec r 0) as [E|E].
  - rewrite E in H. replace (y - 1) with ((k - 1) + (q - 1) * k) by lia. rewrite Z.div_add by lia.
    rewrite Z.div_small by lia. lia.
  - replace (y - 1) with ((r - 1) + q * k) by lia. rewrite Z.div_add by lia. rewrite Z.div_small by lia. lia.
Qed.

Lemma year_step y : days_before_year (y + 1) = days_before_year y + 365 + (if is_leap y then 1 else 0).
Proof.
  unfold days_before_year. cbv zeta. replace (y + 1 - 1) with y by lia.
  pose proof (div_step 4 y ltac:(lia)) as D4. pose proof (div_step 100 y ltac:(lia)) as D100. pose proof (div_step 400 y ltac:(lia)) as D400.
  assert (H4 : y mod 400 = 0 -> y mod 100 = 0).
  { rewrite !Z.mod_divide by lia. intros (q & ->). exists (4 * q). lia. }
  assert (H1 : y mod 100 = 0 -> y mod 4 = 0).
  { rewrite !Z.mod_divide by lia. intros (q & ->). exists (25 * q). lia. }
  unfold is_leap. destruct (Z.eqb_spec (y mod 4) 0), (Z.eqb_spec (y mod 100) 0), (Z.eqb_spec (y mod 400) 0); cbn [andb orb negb]; lia.
Qed.

Lemma month_length_days y m l : month_length y m l -> 1 <= m <= 12 /\ l = days_in_month y m /\
  (m < 12 -> days_before_month y (m + 1) = days_before_month y m + l) /\
  (m = 12 -> days_before_month y m + l = 365 + (if is_leap y then 1 else 0)).
Proof.
  intros H. unfold days_in_month, days_before_month.
  inversion H as [? Hm|? Hm|Hl|Hl]; subst; cbn [In] in *.
  - repeat (destruct Hm as [<- | Hm]; [split; [lia|]; destruct (is_leap y); vm_compute; repeat split; intros; congruence|]). destruct Hm.
  - repeat (destruct Hm as [<- | Hm]; [split; [lia|]; destruct (is_leap y); vm_compute; repeat split; intros; congruence|]). destruct Hm.
  - assert (E : is_leap y = false) by (destruct (is_leap y) eqn:E; [apply is_leap_spec in E; contradiction|reflexivity]).
    rewrite E. split; [lia|]. vm_compute. repeat split; intros; congruence.
  - apply is_leap_spec in Hl. rewrite Hl. split; [lia|]. vm_compute. repeat split; intros; congruence.
Qed.

Lemma month_length_total y m : 1 <= m <= 12 -> month_length y m (days_in_month y m).
Proof.
  intros H. unfold days_in_month. destruct (Z.eqb_spec m 2) as [->|Hne].
  - destruct (is_leap y) eqn:E; cbn [andb].
    + apply is_leap_spec in E. constructor. exact E.
    + apply february. intros Hl. apply is_leap_spec in Hl. congruence.
  - cbn [andb]. assert (Hm : m = 1 \/ m = 3 \/ m = 4 \/ m = 5 \/ m = 6 \/ m = 7 \/ m = 8 \/ m = 9 \/ m = 10 \/ m = 11 \/ m = 12) by lia.
    repeat (destruct Hm as [-> | Hm]; [solve [apply long_month; cbn; tauto|apply short_month; cbn; tauto]|]).
    rewrite Hm. apply long_month. cbn. tauto.
Qed.

Definition ord (x : date) : Z := let '(y, m, d) := x in ymd2ord y m d.

Lemma next_day_ord x x' : next_day x x' -> ord x' = ord x + 1.
Proof.
  intros H. inversion H as [y m d l Hl Hd|y m l Hl Hm|y l Hl]; subst; cbn [ord]; unfold ymd2ord.
  - lia.
  - destruct (month_length_days _ _ _ Hl) as (_ & _ & Hn & _). rewrite Hn by exact Hm. lia.
  - destruct (month_length_days _ _ _ Hl) as (_ & _ & _ & Hn). rewrite year_step.
    assert (E : days_before_month (y + 1) 1 = 0) by reflexivity. rewrite E. specialize (Hn eq_refl). lia.
Qed.

Definition name_of (w : Z) : day_name :=
  match w with 0 => Monday | 1 => Tuesday | 2 => Wednesday | 3 => Thursday | 4 => Friday | 5 => Saturday | _ => Sunday end.
Definition number_of (n : day_name) : Z :=
  match n with Monday => 0 | Tuesday => 1 | Wednesday => 2 | Thursday => 3 | Friday => 4 | Saturday => 5 | Sunday => 6 end.
Lemma number_tomorrow n : number_of (tomorrow n) = (number_of n + 1) mod 7.
Proof. destruct n; reflexivity. Qed.
Lemma number_range n : 0 <= number_of n < 7.
Proof. destruct n; cbn; lia. Qed.
Lemma number_inj n n' : number_of n = number_of n' -> n = n'.
Proof. destruct n, n'; cbn; congruence. Qed.

(** the days of the calendar have the name the count of days says *)
Lemma falls_on_number x n : falls_on x n -> number_of n = (ord x - 1) mod 7.
Proof.
  induction 1 as [|d d' n H IH Hn|d d' n H IH Hn].
  - reflexivity.
  - rewrite (next_day_ord _ _ Hn), number_tomorrow, IH. rewrite Zplus_mod_idemp_l. f_equal. lia.
  - apply next_day_ord in Hn. rewrite number_tomorrow in IH. rewrite Hn in IH. pose proof (number_range n) as Hr.
    replace (ord d' + 1 - 1) with (ord d' - 1 + 1) in IH by lia.
    pose proof (Z.mod_pos_bound (ord d' - 1) 7 ltac:(lia)) as Hb.
    rewrite <- (Zplus_mod_idemp_l (ord d' - 1)) in IH. set (r := (ord d' - 1) mod 7) in *.
    assert (Hx : forall z, 0 <= z < 7 -> (z + 1) mod 7 = if z =? 6 then 0 else z + 1).
    { intros z Hz. destruct (Z.eqb_spec z 6) as [->|]; [reflexivity|]. apply Z.mod_small. lia. }
    rewrite !Hx in IH by lia. destruct (Z.eqb_spec (number_of n) 6), (Z.eqb_spec r 6); lia.
Qed.

(** [x'] is [k] days after [x] *)
Inductive after : Z -> date -> date -> Prop :=
| after_0 x : after 0 x x
| after_S k x y z : after k x y -> next_day y z -> after (k + 1) x z.

Lemma after_trans j k x y z : after j x y -> after k y z -> after (j + k) x z.
Proof.
  intros H1 H2. revert j x H1. induction H2 as [y|k y w z H2 IH Hn]; intros j x H1.
  - replace (j + 0) with j by lia. exact H1.
  - replace (j + (k + 1)) with (j + k + 1) by lia. econstructor; [apply IH; exact H1|exact Hn].
Qed.

Lemma after_ord k x y : after k x y -> 0 <= k /\ ord y = ord x + k.
Proof. induction 1 as [|k x y z H IH Hn]; [lia|]. apply next_day_ord in Hn. lia. Qed.

Lemma after_month y m l j : month_length y m l -> 0 <= j < l -> after j (y, m, 1) (y, m, 1 + j).
Proof.
  intros Hl [H0 H]. revert H. pattern j. apply natlike_ind; [intros; apply after_0| |exact H0].
  intros i Hi IH H. unfold Z.succ. replace (1 + (i + 1)) with (1 + i + 1) by lia.
  econstructor; [apply IH; lia|]. econstructor; [exact Hl|lia].
Qed.

Lemma month_length_pos y m l : month_length y m l -> 28 <= l <= 31.
Proof. intros H. inversion H; lia. Qed.

Lemma after_months y m : 1 <= m <= 12 -> after (days_before_month y m) (y, 1, 1) (y, m, 1).
Proof.
  intros H. assert (G : forall i, 0 <= i -> i < 12 -> after (days_before_month y (1 + i)) (y, 1, 1) (y, 1 + i, 1)).
  { intros i Hi. pattern i. apply natlike_ind; [intros; apply after_0| |exact Hi].
    intros k Hk IH Hlt. unfold Z.succ in *. pose proof (month_length_total y (1 + k) ltac:(lia)) as Hl.
    destruct (month_length_days _ _ _ Hl) as (_ & _ & Hn & _). pose proof (month_length_pos _ _ _ Hl).
    replace (1 + (k + 1)) with (1 + k + 1) by lia. rewrite Hn by lia.
    set (l := days_in_month y (1 + k)) in *.
    replace (days_before_month y (1 + k) + l) with (days_before_month y (1 + k) + (l - 1) + 1) by lia.
    econstructor; [eapply after_trans; [apply IH; lia|]; apply (after_month y (1 + k) l (l - 1)); [exact Hl|lia]|].
    replace (1 + (l - 1)) with l by lia. apply next_month; [exact Hl|lia]. }
  specialize (G (m - 1)). replace (1 + (m - 1)) with m in G by lia. apply G; lia.
Qed.

(** 31 December *)
Lemma after_year y : after (364 + (if is_leap y then 1 else 0)) (y, 1, 1) (y, 12, 31).
Proof.
  assert (Hl : month_length y 12 31) by (apply long_month; cbn; tauto).
  destruct (month_length_days _ _ _ Hl) as (_ & _ & _ & Hn). specialize (Hn eq_refl).
  replace (364 + (if is_leap y then 1 else 0)) with (days_before_month y 12 + 30) by lia.
  eapply after_trans; [apply after_months; lia|]. apply (after_month y 12 31 30 Hl). lia.
Qed.

Lemma after_date y m d : is_date (y, m, d) -> after (days_before_month y m + (d - 1)) (y, 1, 1) (y, m, d).
Proof.
  intros (l & Hl & Hd). destruct (month_length_days _ _ _ Hl) as (Hm & _).
  eapply after_trans; [apply after_months; exact Hm|].
  pose proof (after_month y m l (d - 1) Hl ltac:(lia)) as H. replace (1 + (d - 1)) with d in H by lia. exact H.
Qed.

Definition named (x : date) : Prop := exists n, falls_on x n.
Lemma tomorrow_surj n : exists n', n = tomorrow n'.
Proof. destruct n; [exists Sunday|exists Monday|exists Tuesday|exists Wednesday|exists Thursday|exists Friday|exists Saturday]; reflexivity. Qed.
Lemma named_next x y : next_day x y -> (named x <-> named y).
Proof.
  intros H. split; intros (n & Hn).
  - eexists. eapply later; eassumption.
  - destruct (tomorrow_surj n) as (n' & ->). exists n'. eapply earlier; eassumption.
Qed.
Lemma named_after k x y : after k x y -> (named x <-> named y).
Proof. induction 1 as [|k x y z H IH Hn]; [tauto|]. rewrite IH. apply named_next, Hn. Qed.
Lemma named_year y : named (y, 1, 1) <-> named (y + 1, 1, 1).
Proof.
  rewrite (named_after _ _ _ (after_year y)). apply named_next, next_year. apply long_month. cbn. tauto.
Qed.
Lemma named_all_years y : named (y, 1, 1).
Proof.
  assert (H0 : named (2024, 1, 1)) by (exists Monday; constructor).
  destruct (Z_le_gt_dec 2024 y) as [Hle|Hgt].
  - assert (G : forall k, 0 <= k -> named (2024 + k, 1, 1)).
    { intros k Hk. pattern k. apply natlike_ind; [exact H0| |exact Hk]. intros i Hi IH. unfold Z.succ.
      replace (2024 + (i + 1)) with (2024 + i + 1) by lia. apply (proj1 (named_year (2024 + i))), IH. }
    replace y with (2024 + (y - 2024)) by lia. apply G. lia.
  - assert (G : forall k, 0 <= k -> named (2024 - k, 1, 1)).
    { intros k Hk. pattern k. apply natlike_ind; [exact H0| |exact Hk]. intros i Hi IH. unfold Z.succ.
      apply (proj2 (named_year (2024 - (i + 1)))). replace (2024 - (i + 1) + 1) with (2024 - i) by lia. exact IH. }
    replace y with (2024 - (2024 - y)) by lia. apply G. lia.
Qed.

(** ** C04 *)

(** every date has exactly one name *)
Theorem C04_every_date x : is_date x -> exists n, falls_on x n /\ forall n', falls_on x n' -> n' = n.
Proof.
  destruct x as [[y m] d]. intros Hx. destruct (proj1 (named_after _ _ _ (after_date y m d Hx)) (named_all_years y)) as (n & Hn).
  exists n. split; [exact Hn|]. intros n' Hn'. apply number_inj. rewrite (falls_on_number _ _ Hn), (falls_on_number _ _ Hn'). reflexivity.
Qed.

Lemma weekday_number y m d minute n : falls_on (y, m, d) n -> 0 <= minute < 1440 ->
  weekday (midnight y m d + minute) = number_of n.
Proof.
  intros H Hm. rewrite (falls_on_number _ _ H). unfold weekday, midnight. cbn [ord].
  replace (1440 * (ymd2ord y m d - 1) + minute) with (minute + (ymd2ord y m d - 1) * 1440) by lia.
  rewrite Z.div_add, Z.div_small by lia. f_equal.
Qed.

(** get_day_type is 1 on Saturdays and Sundays, 0 on the other days, at any time of the day *)
Theorem C04_day_type y m d minute n :
  falls_on (y, m, d) n -> 0 <= minute < 1440 ->
  (weekend n -> get_day_type (midnight y m d + minute) = 1) /\
  (~ weekend n -> get_day_type (midnight y m d + minute) = 0).
Proof.
  intros H Hm. unfold get_day_type. rewrite (weekday_number _ _ _ _ _ H Hm). unfold weekend.
  destruct n; cbn; split; intros Hw; try reflexivity; try (destruct Hw; discriminate); exfalso; apply Hw; auto.
Qed.

(** seven consecutive days hold two weekend days *)
Theorem C04_seven_days d :
  zlen (filter (fun x => get_day_type x =? 1) (map (fun k => d + 1440 * k) (arange 0 7))) = 2.
Proof.
  unfold arange. cbn [Z.to_nat Pos.to_nat]. change (Z.to_nat (7 - 0)) with 7%nat. cbn [seq map].
  assert (G : forall k, get_day_type (d + 1440 * (0 + Z.of_nat k)) = if 4 <? ((d / 1440) mod 7 + Z.of_nat k) mod 7 then 1 else 0).
  { intros k. unfold get_day_type, weekday. replace (d + 1440 * (0 + Z.of_nat k)) with (d + Z.of_nat k * 1440) by lia.
    rewrite Z.div_add by lia. rewrite Zplus_mod_idemp_l. rewrite Z.gtb_ltb. reflexivity. }
  pose proof (Z.mod_pos_bound (d / 1440) 7 ltac:(lia)) as Hr. set (r := (d / 1440) mod 7) in *.
  unfold filter. rewrite !G. clearbody r. clear G.
  assert (E : r = 0 \/ r = 1 \/ r = 2 \/ r = 3 \/ r = 4 \/ r = 5 \/ r = 6) by lia.
  repeat (destruct E as [-> | E]; [reflexivity|]). subst r. reflexivity.
Qed.

(** yearly_pattern(year): one entry per day from 1 January to 31 December, in order *)
Theorem C04_yearly_pattern y :
  exists last,
    after last (y, 1, 1) (y, 12, 31) /\ zlen (yearly_pattern (Some y)) = last + 1 /\
    ((leap_year y /\ last = 365) \/ (~ leap_year y /\ last = 364)) /\
    forall k x n, 0 <= k <= last -> after k (y, 1, 1) x -> falls_on x n ->
      (weekend n -> nth (Z.to_nat k) (yearly_pattern (Some y)) 0 = 1) /\
      (~ weekend n -> nth (Z.to_nat k) (yearly_pattern (Some y)) 0 = 0).
Proof.
  pose proof (after_year y) as H. exists (364 + (if is_leap y then 1 else 0)). split; [exact H|].
  set (last := 364 + (if is_leap y then 1 else 0)) in *.
  destruct (after_ord _ _ _ H) as (Hpos & Ho). cbn [ord] in Ho.
  assert (Elen : (midnight y 12 31 - midnight y 1 1) / 1440 + 1 = last + 1).
  { unfold midnight. rewrite Ho. replace (1440 * (ymd2ord y 1 1 + last - 1) - 1440 * (ymd2ord y 1 1 - 1)) with (last * 1440) by lia.
    rewrite Z.div_mul by lia. reflexivity. }
  split; [|split].
  - unfold yearly_pattern, date_range_se. rewrite Elen, !zlen_map, zlen_arange by lia. lia.
  - subst last. destruct (is_leap y) eqn:E; [left|right]; (split; [|reflexivity]).
    + apply is_leap_spec, E.
    + intros Hl. apply is_leap_spec in Hl. congruence.
  - intros k x n Hk Hx Hn. destruct (after_ord _ _ _ Hx) as (_ & Hox). cbn [ord] in Hox.
    assert (Enth : nth (Z.to_nat k) (yearly_pattern (Some y)) 0 = get_day_type (midnight y 1 1 + 1440 * k)).
    { unfold yearly_pattern, date_range_se. rewrite Elen, map_map.
      rewrite nth_indep with (d' := get_day_type (midnight y 1 1 + 1440 * 0)) by (rewrite map_length, arange_length; lia).
      rewrite map_nth with (f := fun k => get_day_type (midnight y 1 1 + 1440 * k)). rewrite nth_arange by lia. do 2 f_equal. lia. }
    rewrite Enth. destruct x as [[y' m'] d']. cbn [ord] in Hox.
    replace (midnight y 1 1 + 1440 * k) with (midnight y' m' d' + 0) by (unfold midnight; rewrite Hox; lia).
    apply (C04_day_type y' m' d' 0 n Hn). lia.
Qed.

(** yearly_pattern(): the 365 day year that begins on a Monday *)
Theorem C04_default_pattern :
  zlen (yearly_pattern None) = 365 /\
  (forall k, 0 <= k < 365 -> nth (Z.to_nat k) (yearly_pattern None) 0 = if 5 <=? k mod 7 then 1 else 0) /\
  (forall y, falls_on (y, 1, 1) Monday -> ~ leap_year y -> yearly_pattern (Some y) = yearly_pattern None).
Proof.
  assert (Hlen : zlen (yearly_pattern None) = 365) by (vm_compute; reflexivity).
  assert (Hval : forall k, 0 <= k < 365 -> nth (Z.to_nat k) (yearly_pattern None) 0 = if 5 <=? k mod 7 then 1 else 0).
  { assert (E : yearly_pattern None = map (fun k => if 5 <=? k mod 7 then 1 else 0) (arange 0 365)) by (vm_compute; reflexivity).
    intros k Hk. rewrite E.
    rewrite nth_indep with (d' := (fun k => if 5 <=? k mod 7 then 1 else 0) 0) by (rewrite map_length, arange_length; lia).
    rewrite map_nth with (f := fun k => if 5 <=? k mod 7 then 1 else 0). rewrite nth_arange by lia. cbv beta. replace (0 + Z.of_nat (Z.to_nat k)) with k by lia. reflexivity. }
  split; [exact Hlen|]. split; [exact Hval|]. intros y Hm Hl.
  destruct (C04_yearly_pattern y) as (last & Hlast & Hz & Hy & _).
  assert (last = 364) as -> by (destruct Hy as [[Hc _]|[_ ->]]; [contradiction|reflexivity]).
  apply nth_ext with (d := 0) (d' := 0); [unfold zlen in *; lia|]. intros i Hi.
  specialize (Hval (Z.of_nat i)). rewrite Nat2Z.id in Hval. rewrite Hval by (unfold zlen in Hz; lia).
  apply falls_on_number in Hm. cbn [number_of ord] in Hm.
  assert (Elen : (midnight y 12 31 - midnight y 1 1) / 1440 + 1 = 365).
  { unfold yearly_pattern, date_range_se in Hz. rewrite !zlen_map in Hz.
    destruct (Z_le_gt_dec ((midnight y 12 31 - midnight y 1 1) / 1440 + 1) 0) as [Hneg|Hp].
    - unfold zlen in Hz. rewrite arange_length in Hz. lia.
    - rewrite zlen_arange in Hz by lia. lia. }
  unfold yearly_pattern, date_range_se. rewrite Elen, map_map.
  rewrite nth_indep with (d' := get_day_type (midnight y 1 1 + 1440 * 0)) by (rewrite map_length, arange_length; unfold zlen in Hz; lia).
  rewrite map_nth with (f := fun k => get_day_type (midnight y 1 1 + 1440 * k)).
  rewrite nth_arange by (unfold zlen in Hz; lia).
  assert (Ew : weekday (midnight y 1 1 + 1440 * (0 + Z.of_nat i)) = Z.of_nat i mod 7).
  { unfold weekday, midnight.
    replace (1440 * (ymd2ord y 1 1 - 1) + 1440 * (0 + Z.of_nat i)) with ((ymd2ord y 1 1 - 1 + Z.of_nat i) * 1440) by lia.
    rewrite Z.div_mul by lia. rewrite <- Zplus_mod_idemp_l, <- Hm. reflexivity. }
  unfold get_day_type. rewrite Ew, Z.gtb_ltb.
  destruct (Z.ltb_spec 4 (Z.of_nat i mod 7)), (Z.leb_spec 5 (Z.of_nat i mod 7)); lia.
Qed.

Example C04_case : falls_on (2024, 1, 1) Monday /\ ~ falls_on (2023, 12, 31) Monday /\ falls_on (2023, 12, 31) Sunday /\
  get_day_type (midnight 2023 12 31) = 1 /\ get_day_type (midnight 2024 1 1) = 0 /\ is_date (2000, 2, 29) /\ ~ is_date (1900, 2, 29).
Proof.
  assert (H : falls_on (2023, 12, 31) Sunday).
  { apply earlier with (2024, 1, 1); [constructor|]. apply (next_year 2023 31). apply long_month. cbn. tauto. }
  split; [constructor|]. split; [|split; [exact H|]].
  - intros H'. destruct (C04_every_date (2023, 12, 31)) as (n & _ & Hu).
    + exists 31. split; [apply long_month; cbn; tauto|lia].
    + apply Hu in H, H'. congruence.
  - split; [reflexivity|]. split; [reflexivity|]. split.
    + exists 29. split; [apply leap_february; apply is_leap_spec; reflexivity|lia].
    + intros (l & Hl & Hd). apply month_length_days in Hl. destruct Hl as (_ & -> & _). vm_compute in Hd. destruct Hd as [_ Hd]. apply Hd. reflexivity.
Qed.
