(** * PropsDates: C79, dates given as text *)
From Verif Require Import Base Wp ListLemmas Utils Appliance User UseCase SpecUseCase ProofsUseCase Calendar PropsCalendar PropsInit Cli Dates Tape.
From Coq Require Import String Ascii.
Open Scope list_scope.
Open Scope Z_scope.

(** ** Specification: the text of a date, and the dates from one to another *)

Definition figure (n : Z) : ascii := nth (Z.to_nat n) ["0"; "1"; "2"; "3"; "4"; "5"; "6"; "7"; "8"; "9"]%char "0"%char.
(** two and four figures *)
Definition two (n : Z) : string := String (figure (n / 10)) (String (figure (n mod 10)) EmptyString).
Definition four (n : Z) : string := (two (n / 100) ++ two (n mod 100))%string.
(** "2024-02-29" *)
Definition iso (x : date) : string := let '(y, m, d) := x in (four y ++ "-" ++ two m ++ "-" ++ two d)%string.
(** "14:05" *)
Definition clock (hour minute : Z) : string := (two hour ++ ":" ++ two minute)%string.
(** the dates that have such a text *)
Definition writable (x : date) : Prop := is_date x /\ 1 <= fst (fst x) <= 9999.
(** every date from [x] to [y], one after the other *)
Inductive calendar : date -> date -> list date -> Prop :=
| one_day x : calendar x x [x]
| more_days x x' y l : next_day x x' -> calendar x' y l -> calendar x y (x :: l).
Definition at_midnight (x : date) : Z := let '(y, m, d) := x in midnight y m d.

(** ** Reading back what is written *)

Lemma figure_cases n : 0 <= n <= 9 -> is_digit (figure n) = true /\ Z.of_nat (nat_of_ascii (figure n)) - 48 = n.
Proof.
  intros H. assert (E : n = 0 \/ n = 1 \/ n = 2 \/ n = 3 \/ n = 4 \/ n = 5 \/ n = 6 \/ n = 7 \/ n = 8 \/ n = 9) by lia.
  repeat (destruct E as [-> | E]; [split; reflexivity|]). subst n. split; reflexivity.
Qed.
Lemma digit_figure c : is_digit c = true -> exists n, 0 <= n <= 9 /\ Z.of_nat (nat_of_ascii c) - 48 = n /\ c = figure n.
Proof.
  intros H. exists (Z.of_nat (nat_of_ascii c) - 48). unfold is_digit in H. apply andb_prop in H as [H1 H2].
  apply Z.leb_le in H1, H2. split; [lia|]. split; [reflexivity|].
  rewrite <- (ascii_nat_embedding c) at 1.
  remember (Z.of_nat (nat_of_ascii c) - 48) as n eqn:En. replace (nat_of_ascii c) with (Z.to_nat (48 + n)) by lia.
  assert (Hn : 0 <= n <= 9) by lia. clear - Hn.
  assert (E : n = 0 \/ n = 1 \/ n = 2 \/ n = 3 \/ n = 4 \/ n = 5 \/ n = 6 \/ n = 7 \/ n = 8 \/ n = 9) by lia.
  repeat (destruct E as [-> | E]; [reflexivity|]). subst n. reflexivity.
Qed.

Lemma parse_step k acc n s : 0 <= n <= 9 -> parse_digits (S k) acc (String (figure n) s) = parse_digits k (acc * 10 + n) s.
Proof. intros H. cbn [parse_digits]. destruct (figure_cases n H) as (-> & ->). reflexivity. Qed.

Lemma parse_two n s : 0 <= n <= 99 -> parse_digits 2 0 (two n ++ s) = Some (n, s).
Proof.
  intros H. unfold two. cbn [String.append].
  pose proof (Z.div_mod n 10 ltac:(lia)). pose proof (Z.mod_pos_bound n 10 ltac:(lia)).
  assert (0 <= n / 10 <= 9) by lia. rewrite !parse_step by lia. cbn [parse_digits]. do 2 f_equal. lia.
Qed.
Lemma four_parts n : 0 <= n <= 9999 -> 0 <= n / 100 <= 99 /\ 0 <= n mod 100 <= 99 /\ n = 100 * (n / 100) + n mod 100.
Proof. intros H. pose proof (Z.div_mod n 100 ltac:(lia)). pose proof (Z.mod_pos_bound n 100 ltac:(lia)). lia. Qed.
Lemma two_parts n : 0 <= n <= 99 -> 0 <= n / 10 <= 9 /\ 0 <= n mod 10 <= 9 /\ n = 10 * (n / 10) + n mod 10.
Proof. intros H. pose proof (Z.div_mod n 10 ltac:(lia)). pose proof (Z.mod_pos_bound n 10 ltac:(lia)). lia. Qed.
Lemma parse_four n s : 0 <= n <= 9999 -> parse_digits 4 0 (four n ++ s) = Some (n, s).
Proof.
  intros H. destruct (four_parts n H) as (Ha & Hb & En). unfold four, two. cbn [String.append].
  destruct (two_parts _ Ha) as (A1 & A2 & A3). destruct (two_parts _ Hb) as (B1 & B2 & B3).
  rewrite !parse_step by assumption. cbn [parse_digits]. do 2 f_equal. lia.
Qed.

Lemma append_assoc (a b c : string) : ((a ++ b) ++ c)%string = (a ++ (b ++ c))%string.
Proof. induction a as [|x a IH]; [reflexivity|]. cbn [String.append]. now rewrite IH. Qed.

Lemma iso_split y m d s : (iso (y, m, d) ++ s)%string = (four y ++ String "-" (two m ++ String "-" (two d ++ s)))%string.
Proof. reflexivity. Qed.

Lemma expect_here c s : expect c (String c s) = Some s.
Proof. cbn [expect]. now rewrite Ascii.eqb_refl. Qed.

Lemma parse_iso y m d s : 0 <= y <= 9999 -> 0 <= m <= 99 -> 0 <= d <= 99 ->
  parse_date (iso (y, m, d) ++ s) = Some ((y, m, d), s).
Proof.
  intros Hy Hm Hd. rewrite iso_split. unfold parse_date. rewrite parse_four by assumption.
  rewrite expect_here, parse_two, expect_here, parse_two by assumption. reflexivity.
Qed.

Lemma iso_length x s : String.length (iso x ++ s) = (10 + String.length s)%nat.
Proof. destruct x as [[y m] d]. rewrite iso_split. reflexivity. Qed.
Lemma iso_dashed y m d s : 0 <= m <= 99 -> dashed (iso (y, m, d) ++ s) = true.
Proof.
  intros H. rewrite iso_split. unfold dashed, four, two. cbn [String.append String.get].
  destruct (two_parts m H) as (A & _). destruct (figure_cases _ A) as (D & _).
  replace (Ascii.eqb "-" "-") with true by reflexivity. cbn [andb].
  destruct (Ascii.eqb_spec (figure (m / 10)) "W") as [E|]; [|reflexivity].
  rewrite E in D. discriminate.
Qed.

Lemma check_date_ok y m d : check_date y m d = Ok (y, m, d) <-> writable (y, m, d).
Proof.
  unfold check_date, writable, is_date. cbn [fst]. split.
  - destruct (((((1 <=? y) && (y <=? 9999)) && (1 <=? m)) && (m <=? 12)) && (1 <=? d) && (d <=? days_in_month y m)) eqn:E; [|discriminate].
    intros _. repeat (apply andb_prop in E as [E ?]). rewrite !Z.leb_le in *. split; [|lia].
    exists (days_in_month y m). split; [apply month_length_total; lia|lia].
  - intros ((l & Hl & Hd) & Hy). destruct (month_length_days _ _ _ Hl) as (Hm & -> & _).
    destruct (Z.leb_spec 1 y), (Z.leb_spec y 9999), (Z.leb_spec 1 m), (Z.leb_spec m 12), (Z.leb_spec 1 d), (Z.leb_spec d (days_in_month y m)); cbn; try lia. reflexivity.
Qed.
Lemma check_date_res y m d : check_date y m d = Ok (y, m, d) \/ check_date y m d = Err ValueError.
Proof. unfold check_date. destruct (_ && _); auto. Qed.
Lemma writable_ranges y m d : writable (y, m, d) -> 0 <= y <= 9999 /\ 0 <= m <= 99 /\ 0 <= d <= 99.
Proof.
  intros ((l & Hl & Hd) & Hy). cbn [fst] in Hy. destruct (month_length_days _ _ _ Hl) as (Hm & _).
  pose proof (month_length_pos _ _ _ Hl). lia.
Qed.

Lemma append_nil (s : string) : (s ++ "")%string = s.
Proof. induction s as [|c s IH]; [reflexivity|]. cbn [String.append]. now rewrite IH. Qed.

Lemma date_iso y m d : 0 <= y <= 9999 -> 0 <= m <= 99 -> 0 <= d <= 99 ->
  date_fromisoformat (iso (y, m, d)) = check_date y m d.
Proof.
  intros Hy Hm Hd. pose proof (iso_length (y, m, d) "") as L. pose proof (iso_dashed y m d "" Hm) as D.
  pose proof (parse_iso y m d "" Hy Hm Hd) as P. rewrite append_nil in *. unfold date_fromisoformat.
  rewrite L, D, P. reflexivity.
Qed.
Lemma datetime_iso y m d : 0 <= y <= 9999 -> 0 <= m <= 99 -> 0 <= d <= 99 ->
  datetime_fromisoformat (iso (y, m, d)) = rbind (check_date y m d) (fun x => Ok (midnight_of x)).
Proof.
  intros Hy Hm Hd. pose proof (iso_length (y, m, d) "") as L. pose proof (iso_dashed y m d "" Hm) as D.
  pose proof (parse_iso y m d "" Hy Hm Hd) as P. rewrite append_nil in *. unfold datetime_fromisoformat.
  rewrite L, D, P. reflexivity.
Qed.

(** the text of a date is read as that date, at midnight; with a time, as that minute of that date *)
Theorem C79_round_trip y m d :
  writable (y, m, d) ->
  date_fromisoformat (iso (y, m, d)) = Ok (y, m, d) /\
  datetime_fromisoformat (iso (y, m, d)) = Ok (midnight y m d) /\
  forall separator hour minute, 0 <= hour <= 23 -> 0 <= minute <= 59 ->
    datetime_fromisoformat (iso (y, m, d) ++ String separator (clock hour minute)) = Ok (midnight y m d + (60 * hour + minute)).
Proof.
  intros H. destruct (writable_ranges _ _ _ H) as (Hy & Hm & Hd). pose proof (proj2 (check_date_ok y m d) H) as C.
  split; [now rewrite date_iso|]. split; [rewrite datetime_iso, C by assumption; reflexivity|].
  intros sep h mi Hh Hmi. unfold datetime_fromisoformat. rewrite iso_length, iso_dashed, parse_iso by assumption.
  cbn [String.length]. replace (String.length (clock h mi)) with 5%nat by reflexivity. cbn [Nat.add Nat.ltb Nat.leb Nat.eqb orb negb].
  unfold parse_time, clock. rewrite parse_two by lia. cbn [String.append]. rewrite expect_here.
  pose proof (parse_two mi "" ltac:(lia)) as P. rewrite append_nil in P. rewrite P.
  destruct (Z.eqb_spec h 24); [lia|]. cbn [andb]. destruct (Z.leb_spec h 23), (Z.leb_spec mi 59); try lia. cbn [andb rbind]. rewrite C. reflexivity.
Qed.

(** a text with the figures of a date that does not exist is refused *)
Theorem C79_no_such_date y m d :
  0 <= y <= 9999 -> 0 <= m <= 99 -> 0 <= d <= 99 -> ~ writable (y, m, d) ->
  date_fromisoformat (iso (y, m, d)) = Err ValueError /\ datetime_fromisoformat (iso (y, m, d)) = Err ValueError.
Proof.
  intros Hy Hm Hd H. destruct (check_date_res y m d) as [C|C]; [exfalso; apply H, check_date_ok, C|].
  rewrite date_iso, datetime_iso, C by assumption. auto.
Qed.

(** *** only texts of dates are read *)

Lemma parse_step_inv k acc s v rest : parse_digits (S k) acc s = Some (v, rest) ->
  exists n s', 0 <= n <= 9 /\ s = String (figure n) s' /\ parse_digits k (acc * 10 + n) s' = Some (v, rest).
Proof.
  cbn [parse_digits]. destruct s as [|c s]; [discriminate|]. destruct (is_digit c) eqn:E; [|discriminate].
  destruct (digit_figure c E) as (n & Hn & -> & ->). eauto.
Qed.
Lemma two_of a b : 0 <= a <= 9 -> 0 <= b <= 9 -> two (10 * a + b) = String (figure a) (String (figure b) EmptyString).
Proof.
  intros Ha Hb. unfold two. replace (10 * a + b) with (b + a * 10) by lia. rewrite Z.div_add, Z_mod_plus_full, Z.div_small, Z.mod_small by lia. reflexivity.
Qed.
Lemma four_of a b : 0 <= a <= 99 -> 0 <= b <= 99 -> four (100 * a + b) = (two a ++ two b)%string.
Proof.
  intros Ha Hb. unfold four. replace (100 * a + b) with (b + a * 100) by lia. rewrite Z.div_add, Z_mod_plus_full, Z.div_small, Z.mod_small by lia. reflexivity.
Qed.
Lemma parse_two_inv s v rest : parse_digits 2 0 s = Some (v, rest) -> 0 <= v <= 99 /\ s = (two v ++ rest)%string.
Proof.
  intros H. apply parse_step_inv in H as (a & s1 & Ha & -> & H). apply parse_step_inv in H as (b & s2 & Hb & -> & H).
  cbn [parse_digits] in H. injection H as Ev <-. assert (v = 10 * a + b) as -> by lia. clear Ev. split; [lia|].
  rewrite two_of by assumption. reflexivity.
Qed.
Lemma parse_four_inv s v rest : parse_digits 4 0 s = Some (v, rest) -> 0 <= v <= 9999 /\ s = (four v ++ rest)%string.
Proof.
  intros H. apply parse_step_inv in H as (a & s1 & Ha & -> & H). apply parse_step_inv in H as (b & s2 & Hb & -> & H).
  apply parse_step_inv in H as (c & s3 & Hc & -> & H). apply parse_step_inv in H as (e & s4 & He & -> & H).
  cbn [parse_digits] in H. injection H as Ev <-. assert (v = 100 * (10 * a + b) + (10 * c + e)) as -> by lia. clear Ev. split; [lia|].
  rewrite four_of, !two_of by lia. reflexivity.
Qed.
Lemma expect_inv c s s' : expect c s = Some s' -> s = String c s'.
Proof. destruct s as [|c' s]; [discriminate|]. cbn [expect]. destruct (Ascii.eqb_spec c c') as [<-|]; [|discriminate]. now injection 1 as ->. Qed.
Lemma parse_date_inv s y m d rest : parse_date s = Some ((y, m, d), rest) ->
  s = (iso (y, m, d) ++ rest)%string /\ 0 <= y <= 9999 /\ 0 <= m <= 99 /\ 0 <= d <= 99.
Proof.
  unfold parse_date. destruct (parse_digits 4 0 s) as [(y0, s1)|] eqn:E1; [|discriminate].
  destruct (expect "-" s1) as [s2|] eqn:E2; [|discriminate]. destruct (parse_digits 2 0 s2) as [(m0, s3)|] eqn:E3; [|discriminate].
  destruct (expect "-" s3) as [s4|] eqn:E4; [|discriminate]. destruct (parse_digits 2 0 s4) as [(d0, s5)|] eqn:E5; [|discriminate].
  intros H. injection H as -> -> -> ->. apply parse_four_inv in E1 as (Hy & ->). apply expect_inv in E2 as ->.
  apply parse_two_inv in E3 as (Hm & ->). apply expect_inv in E4 as ->. apply parse_two_inv in E5 as (Hd & ->).
  rewrite iso_split. auto.
Qed.

(** what is read is a date, and the text is the text of that date *)
Theorem C79_only_dates s y m d :
  date_fromisoformat s = Ok (y, m, d) -> s = iso (y, m, d) /\ writable (y, m, d).
Proof.
  unfold date_fromisoformat. destruct (_ || _); [discriminate|]. destruct (Nat.eqb_spec (String.length s) 10) as [L|]; [|discriminate]. cbn [negb].
  destruct (dashed s); [|discriminate]. cbn [negb]. destruct (parse_date s) as [(((y0, m0), d0), rest)|] eqn:E; [|discriminate].
  intros H. destruct (check_date_res y0 m0 d0) as [C|C]; [|congruence].
  assert (E' : (y0, m0, d0) = (y, m, d)) by congruence. injection E' as -> -> ->.
  apply check_date_ok in C. split; [|exact C]. apply parse_date_inv in E as (E & _). rewrite E in L |- *. rewrite iso_length in L.
  destruct rest; [apply append_nil|cbn in L; lia].
Qed.

Theorem C79_only_moments s t :
  datetime_fromisoformat s = Ok t ->
  exists y m d, writable (y, m, d) /\
    ((s = iso (y, m, d) /\ t = midnight y m d) \/
     exists separator hour minute, 0 <= hour <= 23 /\ 0 <= minute <= 59 /\
       s = (iso (y, m, d) ++ String separator (clock hour minute))%string /\ t = midnight y m d + (60 * hour + minute)).
Proof.
  unfold datetime_fromisoformat. destruct (Nat.ltb _ _); [discriminate|]. destruct (negb (_ || _) || _) eqn:L; [discriminate|].
  apply orb_false_iff in L as [L _]. apply negb_false_iff, orb_true_iff in L. rewrite !Nat.eqb_eq in L.
  destruct (parse_date s) as [(((y, m), d), rest)|] eqn:E; [|discriminate]. apply parse_date_inv in E as (-> & _).
  rewrite iso_length in L. intros H. exists y, m, d. destruct rest as [|sep time].
  - destruct (check_date_res y m d) as [C|C].
    + rewrite C in H. cbn [rbind midnight_of] in H. split; [apply check_date_ok, C|]. left. rewrite append_nil. split; congruence.
    + rewrite C in H. discriminate.
  - unfold parse_time in H. destruct (parse_digits 2 0 time) as [(h, s1)|] eqn:E1; [|discriminate].
    destruct (expect ":" s1) as [s2|] eqn:E2; [|discriminate]. destruct (parse_digits 2 0 s2) as [(mi, s3)|] eqn:E3; [|discriminate].
    apply parse_two_inv in E1 as (Hh & ->). apply expect_inv in E2 as ->. apply parse_two_inv in E3 as (Hmi & ->).
    destruct ((h =? 24) && (mi =? 0)); [discriminate|]. destruct (Z.leb_spec h 23), (Z.leb_spec mi 59); try discriminate.
    cbn [andb rbind] in H. destruct (check_date_res y m d) as [C|C]; rewrite C in H; [|discriminate]. cbn [rbind midnight_of] in H.
    split; [apply check_date_ok, C|]. right. exists sep, h, mi. split; [lia|]. split; [lia|].
    cbn [String.length String.append two] in L. split; [|congruence]. unfold clock. cbn [String.append].
    destruct s3; [|unfold two in L; cbn [String.length String.append] in L; lia]. rewrite append_nil. reflexivity.
Qed.

(** ** The order of texts is the order of dates *)

Lemma figure_compare a b : 0 <= a <= 9 -> 0 <= b <= 9 -> Ascii.compare (figure a) (figure b) = (a ?= b).
Proof.
  intros Ha Hb. assert (E : a = 0 \/ a = 1 \/ a = 2 \/ a = 3 \/ a = 4 \/ a = 5 \/ a = 6 \/ a = 7 \/ a = 8 \/ a = 9) by lia.
  assert (E' : b = 0 \/ b = 1 \/ b = 2 \/ b = 3 \/ b = 4 \/ b = 5 \/ b = 6 \/ b = 7 \/ b = 8 \/ b = 9) by lia.
  clear Ha Hb.
  repeat (destruct E as [-> | E]; [repeat (destruct E' as [-> | E']; [reflexivity|]); subst b; reflexivity|]).
  subst a. repeat (destruct E' as [-> | E']; [reflexivity|]). subst b. reflexivity.
Qed.
Definition then_compare (c d : comparison) : comparison := match c with Eq => d | _ => c end.
Lemma split_compare k a b a1 b1 a2 b2 : 0 < k -> a = k * a1 + a2 -> b = k * b1 + b2 -> 0 <= a2 < k -> 0 <= b2 < k ->
  (a ?= b) = then_compare (a1 ?= b1) (a2 ?= b2).
Proof.
  intros Hk -> -> Ha Hb. destruct (Z.compare_spec a1 b1) as [->|H|H]; cbn [then_compare].
  - destruct (Z.compare_spec a2 b2); [apply Z.compare_eq_iff|apply Z.compare_lt_iff|apply Z.compare_gt_iff]; lia.
  - apply Z.compare_lt_iff. nia.
  - apply Z.compare_gt_iff. nia.
Qed.
Lemma two_compare a b s t : 0 <= a <= 99 -> 0 <= b <= 99 ->
  String.compare (two a ++ s) (two b ++ t) = then_compare (a ?= b) (String.compare s t).
Proof.
  intros Ha Hb. destruct (two_parts a Ha) as (A1 & A2 & A3). destruct (two_parts b Hb) as (B1 & B2 & B3).
  unfold two. cbn [String.append String.compare]. rewrite !figure_compare by assumption.
  rewrite (split_compare 10 a b _ _ _ _ ltac:(lia) A3 B3) by lia.
  destruct (a / 10 ?= b / 10); [|reflexivity|reflexivity]. destruct (a mod 10 ?= b mod 10); reflexivity.
Qed.
Lemma four_compare a b s t : 0 <= a <= 9999 -> 0 <= b <= 9999 ->
  String.compare (four a ++ s) (four b ++ t) = then_compare (a ?= b) (String.compare s t).
Proof.
  intros Ha Hb. destruct (four_parts a Ha) as (A1 & A2 & A3). destruct (four_parts b Hb) as (B1 & B2 & B3).
  unfold four. rewrite !append_assoc, !two_compare by assumption.
  rewrite (split_compare 100 a b _ _ _ _ ltac:(lia) A3 B3) by lia.
  destruct (a / 100 ?= b / 100); reflexivity.
Qed.
Lemma iso_compare y m d y' m' d' : writable (y, m, d) -> writable (y', m', d') ->
  String.compare (iso (y, m, d)) (iso (y', m', d')) = then_compare (y ?= y') (then_compare (m ?= m') (d ?= d')).
Proof.
  intros H H'. destruct (writable_ranges _ _ _ H) as (? & ? & ?). destruct (writable_ranges _ _ _ H') as (? & ? & ?).
  rewrite <- (append_nil (iso (y, m, d))), <- (append_nil (iso (y', m', d'))), !iso_split, four_compare by assumption. f_equal.
  cbn [String.compare]. replace (Ascii.compare "-" "-") with Eq by reflexivity. rewrite two_compare by assumption. f_equal.
  cbn [String.compare]. replace (Ascii.compare "-" "-") with Eq by reflexivity. rewrite two_compare by assumption.
  cbn [String.compare]. destruct (d ?= d'); reflexivity.
Qed.

Lemma year_mono y y' : y <= y' -> days_before_year y <= days_before_year y'.
Proof.
  intros H. replace y' with (y + (y' - y)) by lia. assert (Hk : 0 <= y' - y) by lia. generalize (y' - y), Hk. clear.
  intros k Hk. pattern k. apply natlike_ind; [rewrite Z.add_0_r; lia| |exact Hk]. intros x Hx IH. unfold Z.succ.
  replace (y + (x + 1)) with (y + x + 1) by lia. rewrite year_step. destruct (is_leap (y + x)); lia.
Qed.
Lemma month_mono y m m' : 1 <= m -> m < m' -> m' <= 12 -> days_before_month y m + days_in_month y m <= days_before_month y m'.
Proof.
  intros H1 H H2. replace m' with (m + 1 + (m' - m - 1)) by lia. assert (Hk : 0 <= m' - m - 1 /\ m + 1 + (m' - m - 1) <= 12) by lia.
  revert Hk. generalize (m' - m - 1). clear H H2. intros k (Hk & Hle). revert Hle. pattern k. apply natlike_ind; [intros Hle| |exact Hk].
  - rewrite Z.add_0_r. destruct (month_length_days _ _ _ (month_length_total y m ltac:(lia))) as (_ & _ & Hn & _). rewrite Hn by lia. lia.
  - intros x Hx IH Hle. unfold Z.succ in *. specialize (IH ltac:(lia)).
    pose proof (month_length_total y (m + 1 + x) ltac:(lia)) as Hl. pose proof (month_length_pos _ _ _ Hl).
    destruct (month_length_days _ _ _ Hl) as (_ & _ & Hn & _). replace (m + 1 + (x + 1)) with (m + 1 + x + 1) by lia. rewrite Hn by lia. lia.
Qed.
Lemma day_of_year y m d : is_date (y, m, d) ->
  1 <= m <= 12 /\ 1 <= d <= days_in_month y m /\ 1 <= days_before_month y m + d <= 365 + (if is_leap y then 1 else 0).
Proof.
  intros (l & Hl & Hd). destruct (month_length_days _ _ _ Hl) as (Hm & -> & Hn & H12). split; [exact Hm|]. split; [exact Hd|].
  assert (H0 : 0 <= days_before_month y m).
  { destruct (Z.eq_dec m 1) as [->|]; [vm_compute; discriminate|]. pose proof (month_mono y 1 m ltac:(lia) ltac:(lia) ltac:(lia)) as G.
    assert (days_before_month y 1 = 0) by reflexivity. pose proof (month_length_pos _ _ _ (month_length_total y 1 ltac:(lia))). lia. }
  split; [lia|]. destruct (Z.eq_dec m 12) as [E|]; [specialize (H12 E); lia|].
  pose proof (month_mono y m 12 ltac:(lia) ltac:(lia) ltac:(lia)) as G.
  pose proof (month_length_total y 12 ltac:(lia)) as H12'. pose proof (month_length_pos _ _ _ H12').
  destruct (month_length_days _ _ _ H12') as (_ & _ & _ & HH). specialize (HH eq_refl). lia.
Qed.

Lemma ord_compare y m d y' m' d' : is_date (y, m, d) -> is_date (y', m', d') ->
  then_compare (y ?= y') (then_compare (m ?= m') (d ?= d')) = (ord (y, m, d) ?= ord (y', m', d')).
Proof.
  assert (G : forall y m d y' m' d', is_date (y, m, d) -> is_date (y', m', d') ->
    (y < y' \/ (y = y' /\ (m < m' \/ (m = m' /\ d < d')))) -> ord (y, m, d) < ord (y', m', d')).
  { clear. intros y m d y' m' d' H H'. destruct (day_of_year _ _ _ H) as (A1 & A2 & A3). destruct (day_of_year _ _ _ H') as (B1 & B2 & B3).
    cbn [ord]. unfold ymd2ord. intros [C|(<- & [C|(<- & C)])].
    - pose proof (year_mono (y + 1) y' ltac:(lia)) as Y. rewrite year_step in Y. lia.
    - pose proof (month_mono y m m' ltac:(lia) C ltac:(lia)). lia.
    - lia. }
  intros H H'. symmetry.
  destruct (Z.compare_spec y y') as [->|C|C]; cbn [then_compare];
    [destruct (Z.compare_spec m m') as [->|C|C]; cbn [then_compare]; [destruct (Z.compare_spec d d') as [->|C|C]|..]|..].
  - apply Z.compare_refl.
  - apply Z.compare_lt_iff, G; [assumption..|lia].
  - apply Z.compare_gt_iff, G; [assumption..|lia].
  - apply Z.compare_lt_iff, G; [assumption..|lia].
  - apply Z.compare_gt_iff, G; [assumption..|lia].
  - apply Z.compare_lt_iff, G; [assumption..|lia].
  - apply Z.compare_gt_iff, G; [assumption..|lia].
Qed.

Lemma ord_inj x x' : is_date x -> is_date x' -> ord x = ord x' -> x = x'.
Proof.
  destruct x as [[y m] d], x' as [[y' m'] d']. intros H H' E. pose proof (ord_compare _ _ _ _ _ _ H H') as C.
  rewrite E, Z.compare_refl in C. destruct (Z.compare_spec y y') as [->|?|?]; [|discriminate..]. cbn [then_compare] in C.
  destruct (Z.compare_spec m m') as [->|?|?]; [|discriminate..]. cbn [then_compare] in C.
  destruct (Z.compare_spec d d') as [->|?|?]; [reflexivity|discriminate..].
Qed.

Lemma has_next x : is_date x -> exists x', next_day x x' /\ is_date x'.
Proof.
  destruct x as [[y m] d]. intros (l & Hl & Hd). destruct (month_length_days _ _ _ Hl) as (Hm & _).
  destruct (Z.eq_dec d l) as [->|]; [destruct (Z.eq_dec m 12) as [->|]|].
  - exists (y + 1, 1, 1). split; [apply next_year with (1 := Hl)|]. exists 31. split; [apply long_month; cbn; tauto|lia].
  - exists (y, m + 1, 1). split; [apply next_month; [exact Hl|lia]|]. pose proof (month_length_total y (m + 1) ltac:(lia)) as Hn.
    exists (days_in_month y (m + 1)). split; [exact Hn|]. pose proof (month_length_pos _ _ _ Hn). lia.
  - exists (y, m, d + 1). split; [econstructor; [exact Hl|lia]|]. exists l. split; [exact Hl|lia].
Qed.

Lemma calendar_by_count k : forall x y, is_date x -> is_date y -> ord y = ord x + Z.of_nat k ->
  after (Z.of_nat k) x y /\ exists l, calendar x y l /\ zlen l = Z.of_nat k + 1 /\ map at_midnight l = day_list (at_midnight x) (Z.of_nat k + 1).
Proof.
  induction k as [|k IH]; intros x y Hx Hy E.
  - assert (x = y) as -> by (apply ord_inj; [assumption..|lia]). split; [constructor|]. exists [y]. split; [constructor|]. split; [reflexivity|].
    rewrite day_list_cons by lia. cbn [map]. rewrite arange_nil by lia. reflexivity.
  - destruct (has_next x Hx) as (x' & Hn & Hx'). pose proof (next_day_ord _ _ Hn) as Ho.
    destruct (IH x' y Hx' Hy ltac:(lia)) as (Ha & l & Hl & Hz & Hd). split.
    + replace (Z.of_nat (S k)) with (0 + 1 + Z.of_nat k) by lia. eapply after_trans; [|exact Ha]. econstructor; [constructor|exact Hn].
    + exists (x :: l). split; [econstructor; eassumption|]. split; [rewrite zlen_cons; lia|]. cbn [map]. rewrite Hd, (day_list_cons (at_midnight x)) by lia. f_equal.
      unfold day_list.
      assert (E1 : at_midnight x' = at_midnight x + 1440).
      { destruct x as [[? ?] ?], x' as [[? ?] ?]. cbn [at_midnight ord] in *. unfold midnight. lia. }
      rewrite E1. unfold arange. rewrite !map_map.
      replace (Z.to_nat (Z.of_nat k + 1 - 0)) with (Z.to_nat (Z.of_nat (S k) + 1 - 1)) by lia.
      apply map_ext. intros a. lia.
Qed.

(** the text of a date comes before the text of another (as Python compares texts) exactly when the date comes before *)
Theorem C79_text_order x x' :
  writable x -> writable x' ->
  (String.compare (iso x) (iso x') = Lt <-> exists k, 1 <= k /\ after k x x').
Proof.
  destruct x as [[y m] d], x' as [[y' m'] d']. intros H H'. rewrite iso_compare by assumption.
  rewrite ord_compare by (apply H || apply H'). rewrite Z.compare_lt_iff. split.
  - intros Hlt. destruct (calendar_by_count (Z.to_nat (ord (y', m', d') - ord (y, m, d))) _ _ (proj1 H) (proj1 H') ltac:(lia)) as (Ha & _).
    eexists. split; [|exact Ha]. lia.
  - intros (k & Hk & Ha). destruct (after_ord _ _ _ Ha). lia.
Qed.

(** two dates are in order one way or the other, so equal texts are the texts of equal dates *)
Theorem C79_same_text x x' : writable x -> writable x' -> iso x = iso x' -> x = x'.
Proof.
  destruct x as [[y m] d], x' as [[y' m'] d']. intros H H' E. destruct (C79_round_trip y m d H) as (R & _).
  destruct (C79_round_trip y' m' d' H') as (R' & _). rewrite E in R. rewrite R in R'. congruence.
Qed.

(** ** Day types *)

Theorem C79_day_type y m d n :
  writable (y, m, d) -> falls_on (y, m, d) n ->
  get_day_type_text (iso (y, m, d)) = Ok (match n with Saturday | Sunday => 1 | _ => 0 end).
Proof.
  intros H Hn. unfold get_day_type_text. destruct (C79_round_trip y m d H) as (-> & _). cbn [rbind midnight_of].
  destruct (C04_day_type y m d 0 n Hn ltac:(lia)) as (H1 & H2). rewrite Z.add_0_r in *. unfold weekend in *. f_equal.
  destruct n; solve [apply H1; auto|apply H2; intros [?|?]; discriminate].
Qed.

(** ** The simulated days *)

Lemma next_day_fun x a b : next_day x a -> next_day x b -> a = b.
Proof.
  assert (F : forall y m l l', month_length y m l -> month_length y m l' -> l = l').
  { intros y m l l' H H'. destruct (month_length_days _ _ _ H) as (_ & -> & _). now destruct (month_length_days _ _ _ H') as (_ & -> & _). }
  intros H H'. inversion H as [y m d l Hl Hd|y m l Hl Hm|y l Hl]; subst; inversion H' as [y' m' d' l' Hl' Hd'|y' m' l' Hl' Hm'|y' l' Hl']; subst;
    try reflexivity; try (pose proof (F _ _ _ _ Hl Hl'); lia); lia.
Qed.

(** there is one list of the dates from one date to another *)
Theorem C79_calendar_unique x y l l' : calendar x y l -> calendar x y l' -> l = l'.
Proof.
  assert (Hno : forall x y l, calendar x y l -> ord x <= ord y).
  { clear. induction 1 as [|x x' y l Hn H IH]; [lia|]. pose proof (next_day_ord _ _ Hn). lia. }
  intros H. revert l'. induction H as [x|x x' y l Hn H IH]; intros l' H'.
  - inversion H' as [|? x' ? l0 Hn H0]; subst; [reflexivity|]. apply Hno in H0. pose proof (next_day_ord _ _ Hn). lia.
  - inversion H' as [|? x2 ? l0 Hn2 H0]; subst.
    + apply Hno in H. pose proof (next_day_ord _ _ Hn). lia.
    + rewrite (next_day_fun _ _ _ Hn2 Hn) in H0. now rewrite (IH _ H0).
Qed.

Lemma consecutive_list s n ds : consecutive_days s n ds -> ds = day_list s n.
Proof.
  intros (Hz & Hn). pose proof (zlen_nonneg ds). assert (Hz' : zlen (day_list s n) = n) by (rewrite zlen_day_list; lia).
  apply nth_ext with (d := 0) (d' := 0); [unfold zlen in *; lia|]. intros k Hk.
  specialize (Hn (Z.of_nat k)). destruct (day_list_consecutive s n ltac:(lia)) as (_ & Hd). specialize (Hd (Z.of_nat k)). rewrite Nat2Z.id in *.
  rewrite Hn, Hd by (unfold zlen in *; lia). reflexivity.
Qed.

Lemma at_midnight_ord x y : at_midnight y - at_midnight x = 1440 * (ord y - ord x).
Proof. destruct x as [[? ?] ?], y as [[? ?] ?]. cbn [at_midnight ord]. unfold midnight. lia. Qed.

(** initialize between two dates set as texts: every date from the first to the last, both included, once, in order *)
Theorem C79_range F w c x y c1 c2 enl force c' :
  writable x -> writable y ->
  assign_date_start c (TextDate (iso x)) = (c1, None) -> assign_date_end c1 (TextDate (iso y)) = (c2, None) ->
  chooses c2 None force -> may (initialize F w c2 None enl force) (Ok (c', None)) ->
  exists l, calendar x y l /\ days c' = Some (map at_midnight l) /\ num_days_ c' = Some (zlen l).
Proof.
  destruct x as [[yx mx] dx], y as [[yy my] dy]. intros Hx Hy A1 A2 Hc H.
  unfold assign_date_start, assign_date_end, read_date in A1, A2.
  destruct (C79_round_trip _ _ _ Hx) as (_ & R & _). rewrite R in A1. destruct (C79_round_trip _ _ _ Hy) as (_ & R' & _). rewrite R' in A2.
  cbn [rbind] in A1, A2. injection A1 as <-. injection A2 as <-.
  destruct (C31_dates_partial F w _ None enl force c' Hc H) as (ds & n & Hn & Hd & Hr).
  unfold requested_days in Hr. cbn [date_start date_end set_date_start set_date_end] in Hr.
  destruct Hr as (Hcd & Hlo & Hhi). pose proof (at_midnight_ord (yx, mx, dx) (yy, my, dy)) as E. cbn [at_midnight] in E.
  pose proof (proj1 Hcd) as Hz. pose proof (zlen_nonneg ds).
  assert (En : n = ord (yy, my, dy) - ord (yx, mx, dx) + 1) by lia.
  destruct (Z.eq_dec n 0) as [N|N].
  { exfalso. assert (Hlt : midnight yy my dy < midnight yx mx dx) by lia.
    destruct (C31_empty_range F w _ enl force _ _ _ Hc eq_refl eq_refl Hlt H) as (c0 & Hbad). discriminate. }
  destruct (calendar_by_count (Z.to_nat (n - 1)) _ _ (proj1 Hx) (proj1 Hy) ltac:(lia)) as (_ & l & Hl & Hzl & Hm).
  exists l. split; [exact Hl|]. replace (Z.of_nat (Z.to_nat (n - 1)) + 1) with n in * by lia. rewrite Hm, Hn, Hzl, Hd. split; [|reflexivity].
  f_equal. apply consecutive_list, Hcd.
Qed.

(** the constructor given both dates as texts *)
Theorem C79_constructor F w us x y par enl seed c :
  writable x -> writable y ->
  may (new_usecase_dates F w us (TextDate (iso x)) (TextDate (iso y)) par enl seed) (Ok c) ->
  exists l, calendar x y l /\ days c = Some (map at_midnight l) /\ num_days_ c = Some (zlen l).
Proof.
  intros Hx Hy H. set (b := blank None None par enl seed us).
  assert (E : exists s e, read_date (TextDate (iso x)) = Ok (Some s) /\ read_date (TextDate (iso y)) = Ok (Some e)).
  { destruct x as [[yx mx] dx], y as [[yy my] dy]. destruct (C79_round_trip _ _ _ Hx) as (_ & R & _). destruct (C79_round_trip _ _ _ Hy) as (_ & R' & _).
    eexists _, _. unfold read_date. rewrite R, R'. split; reflexivity. }
  destruct E as (s & e & Es & Ee). unfold new_usecase_dates in H. rewrite Es, Ee in H. cbn [lift bind] in H.
  unfold new_usecase in H. apply may_bind in H as [(c1 & H1 & H2)|(x0 & _ & H0)]; [|discriminate].
  assert (c1 = c) as ->.
  { destruct (seed_of seed); [inversion H2 as [| | | | |? ? ? Hs]; subst; clear H2; rename Hs into H2|]; apply may_ret_inv in H2; congruence. }
  apply may_bind in H1 as [((c0 & r) & H1 & H3)|(x0 & _ & H0)]; [|discriminate]. cbn [fst snd] in H3.
  destruct r; [inversion H3|]. apply may_ret_inv in H3. injection H3 as ->.
  refine (C79_range F w b x y (set_date_start b (Some s)) (set_date_end (set_date_start b (Some s)) (Some e)) None false c0 Hx Hy _ _ _ _).
  - unfold assign_date_start. now rewrite Es.
  - unfold assign_date_end. now rewrite Ee.
  - apply (C31_first_call us (Some s) (Some e) par enl seed None false).
  - exact H1.
Qed.

Lemma new_usecase_both F w us s e par enl seed : new_usecase F w us (Some s) (Some e) par enl seed =
  (c <- (r <- initialize F w (blank (Some s) (Some e) par enl seed us) None None false ;;
         match snd r with Some e => Raise e | None => Ret (fst r) end) ;;
   match seed_of seed with Some z => Seed z (Ret c) | None => Ret c end).
Proof. reflexivity. Qed.

Lemma refused {A} (p : prog (A * option exc)) (sd : option Z) x r :
  (forall r0, may p r0 -> exists c', r0 = Ok (c', Some x)) ->
  may (c <- (r <- p ;; match snd r with Some e => Raise e | None => Ret (fst r) end) ;;
       match sd with Some z => Seed z (Ret c) | None => Ret c end) r -> r = Err x.
Proof.
  intros Hp H. apply may_bind in H as [(c1 & H1 & _)|(e & H1 & ->)].
  - exfalso. apply may_bind in H1 as [(r0 & H1 & H3)|(x0 & _ & H0)]; [|discriminate].
    destruct (Hp _ H1) as (c' & E). injection E as ->. apply may_raise_inv in H3. discriminate.
  - apply may_bind in H1 as [(r0 & H1 & H3)|(x0 & H1 & H0)].
    + destruct (Hp _ H1) as (c' & E). injection E as ->. apply may_raise_inv in H3. congruence.
    + destruct (Hp _ H1) as (c' & E). discriminate.
Qed.

(** an end date before the start date is refused *)
Theorem C79_backwards F w us x y par enl seed k r :
  writable x -> writable y -> 1 <= k -> after k y x ->
  may (new_usecase_dates F w us (TextDate (iso x)) (TextDate (iso y)) par enl seed) r -> r = Err IndexError.
Proof.
  intros Hx Hy Hk Ha H.
  assert (E : exists s e, read_date (TextDate (iso x)) = Ok (Some s) /\ read_date (TextDate (iso y)) = Ok (Some e) /\ e < s).
  { destruct (after_ord _ _ _ Ha) as (_ & Ho). pose proof (at_midnight_ord y x) as Em.
    destruct x as [[yx mx] dx], y as [[yy my] dy]. destruct (C79_round_trip _ _ _ Hx) as (_ & R & _). destruct (C79_round_trip _ _ _ Hy) as (_ & R' & _).
    cbn [at_midnight] in Em. exists (midnight yx mx dx), (midnight yy my dy). unfold read_date. rewrite R, R'. repeat split. lia. }
  destruct E as (s & e & Es & Ee & Hlt). unfold new_usecase_dates in H. rewrite Es, Ee in H. cbn [lift bind] in H.
  rewrite new_usecase_both in H. revert H. apply refused. intros x0 H1.
  exact (C31_empty_range F w _ None false _ _ _ (C31_first_call us _ _ par enl seed None false) eq_refl eq_refl Hlt H1).
Qed.

(** a text that names no date: the constructor raises ValueError, the setters too and change nothing *)
Theorem C79_bad_text F w us y m d par enl seed c :
  0 <= y <= 9999 -> 0 <= m <= 99 -> 0 <= d <= 99 -> ~ writable (y, m, d) ->
  (forall stop r, may (new_usecase_dates F w us (TextDate (iso (y, m, d))) stop par enl seed) r -> r = Err ValueError) /\
  (forall start t r, read_date start = Ok t ->
    may (new_usecase_dates F w us start (TextDate (iso (y, m, d))) par enl seed) r -> r = Err ValueError) /\
  assign_date_start c (TextDate (iso (y, m, d))) = (c, Some ValueError) /\
  assign_date_end c (TextDate (iso (y, m, d))) = (c, Some ValueError).
Proof.
  intros Hy Hm Hd H. destruct (C79_no_such_date y m d Hy Hm Hd H) as (_ & E).
  unfold new_usecase_dates, assign_date_start, assign_date_end, read_date. rewrite !E. cbn [rbind lift bind].
  split; [|split; [|split; reflexivity]].
  - intros stop r Hr. apply may_raise_inv in Hr. exact Hr.
  - intros start t r Es Hr. destruct start as [|s0|t0]; cbn [bind lift rbind] in Hr; [apply may_raise_inv in Hr; exact Hr| |apply may_raise_inv in Hr; exact Hr].
    destruct (datetime_fromisoformat s0); [|discriminate]. apply may_raise_inv in Hr. exact Hr.
Qed.

(** ** A start with a time of day *)

Lemma calendar_ends x y l : calendar x y l -> exists l0, l = l0 ++ [y].
Proof. induction 1 as [x|x x' y l Hn H (l0 & ->)]; [exists []; reflexivity|exists (x :: l0); reflexivity]. Qed.
Lemma day_list_snoc s n : 0 <= n -> day_list s (n + 1) = day_list s n ++ [s + 1440 * n].
Proof.
  intros H. unfold day_list, arange. rewrite !map_map. replace (Z.to_nat (n + 1 - 0)) with (S (Z.to_nat (n - 0))) by lia.
  rewrite seq_S, map_app. cbn [map app]. do 2 f_equal. lia.
Qed.

(** with a time of day in the start date, the last date is not simulated, and a range of one date is refused *)
Theorem C79_time_of_day_refuted F w c x y k separator hour minute c1 c2 enl force c' :
  writable x -> writable y -> 0 <= k -> after k x y ->
  0 <= hour <= 23 -> 0 <= minute <= 59 -> 1 <= hour + minute ->
  assign_date_start c (TextDate (iso x ++ String separator (clock hour minute))) = (c1, None) ->
  assign_date_end c1 (TextDate (iso y)) = (c2, None) ->
  chooses c2 None force -> may (initialize F w c2 None enl force) (Ok (c', None)) ->
  1 <= k /\ exists l, calendar x y (l ++ [y]) /\ days c' = Some (map (fun z => at_midnight z + (60 * hour + minute)) l).
Proof.
  intros Hx Hy Hk Ha Hh Hmi Ht A1 A2 Hc H. pose proof (at_midnight_ord x y) as Em. destruct (after_ord _ _ _ Ha) as (_ & Ho).
  set (t := 60 * hour + minute) in *.
  assert (E : c2 = set_date_end (set_date_start c (Some (at_midnight x + t))) (Some (at_midnight y))).
  { destruct x as [[yx mx] dx], y as [[yy my] dy].
    unfold assign_date_start, assign_date_end, read_date in A1, A2.
    destruct (C79_round_trip _ _ _ Hx) as (_ & _ & R). rewrite (R separator hour minute Hh Hmi) in A1. destruct (C79_round_trip _ _ _ Hy) as (_ & R' & _). rewrite R' in A2.
    cbn [rbind] in A1, A2. injection A1 as <-. injection A2 as <-. reflexivity. }
  subst c2. set (s := at_midnight x + t) in *. set (e := at_midnight y) in *.
  destruct (Z.eq_dec k 0) as [->|Hk0].
  { exfalso. destruct (C31_empty_range F w _ enl force _ _ _ Hc eq_refl eq_refl ltac:(lia) H) as (c0 & Hbad). discriminate. }
  split; [lia|].
  destruct (C31_dates_partial F w _ None enl force c' Hc H) as (ds & n & Hn & Hd & Hr).
  unfold requested_days in Hr. cbn [date_start date_end set_date_start set_date_end] in Hr. destruct Hr as (Hcd & Hlo & Hhi).
  assert (n = k) as -> by lia. apply consecutive_list in Hcd.
  destruct (calendar_by_count (Z.to_nat k) x y (proj1 Hx) (proj1 Hy) ltac:(lia)) as (_ & l & Hl & _ & Hm).
  destruct (calendar_ends _ _ _ Hl) as (l0 & ->). exists l0. split; [exact Hl|]. rewrite Hd, Hcd. f_equal.
  rewrite Z2Nat.id, day_list_snoc, map_app in Hm by lia. cbn [map] in Hm. apply app_inj_tail in Hm as (Hm & _).
  rewrite <- (map_map at_midnight (fun z => z + t)), Hm. unfold day_list, s. rewrite map_map. apply map_ext. intros a. lia.
Qed.

(** ** Cases *)

Example C79_case :
  writable (2024, 2, 29) /\ ~ writable (2023, 2, 29) /\ iso (2024, 2, 29) = "2024-02-29"%string /\
  datetime_fromisoformat "2024-02-29" = Ok (midnight 2024 2 29) /\ datetime_fromisoformat "2024-02-29 06:30" = Ok (midnight 2024 2 29 + 390) /\
  date_fromisoformat "2023-02-29" = Err ValueError /\ date_fromisoformat "2024-2-29" = Err ValueError /\ date_fromisoformat "2024-13-01" = Err ValueError /\
  get_day_type_text "2024-03-02" = Ok 1 /\ get_day_type_text "2024-02-29" = Ok 0 /\
  calendar (2024, 2, 28) (2024, 3, 1) [(2024, 2, 28); (2024, 2, 29); (2024, 3, 1)] /\
  String.compare (iso (2024, 2, 29)) (iso (2024, 10, 1)) = Lt.
Proof.
  assert (L : month_length 2024 2 29) by (apply leap_february, is_leap_spec; reflexivity).
  split; [split; [exists 29; split; [exact L|lia]|cbn; lia]|].
  split; [intros ((l & Hl & Hd) & _); apply month_length_days in Hl; destruct Hl as (_ & -> & _); vm_compute in Hd; destruct Hd as [_ Hd]; apply Hd; reflexivity|].
  do 8 (split; [reflexivity|]). split; [|reflexivity].
  eapply more_days; [apply (in_month 2024 2 28 29 L); lia|]. eapply more_days; [apply (next_month 2024 2 29 L); lia|]. constructor.
Qed.
(** the constructor on real texts, and the dropped day *)
Example C79_usecase_case :
  (exists c, may (new_usecase_dates exact_fm PropsUseCase.nobody [PropsUseCase.home] (TextDate "2024-02-28") (TextDate "2024-03-01") false (15 # 100) None) (Ok c) /\
    days c = Some [midnight 2024 2 28; midnight 2024 2 29; midnight 2024 3 1]) /\
  (exists c, may (new_usecase_dates exact_fm PropsUseCase.nobody [PropsUseCase.home] (TextDate "2024-02-28T06:00") (TextDate "2024-03-01") false (15 # 100) None) (Ok c) /\
    days c = Some [midnight 2024 2 28 + 360; midnight 2024 2 29 + 360]).
Proof.
  split.
  - destruct (follow_check (new_usecase_dates exact_fm PropsUseCase.nobody [PropsUseCase.home] (TextDate "2024-02-28") (TextDate "2024-03-01") false (15 # 100) None)
      [DQ (1 # 2); DQ (1 # 2)] (fun c => match days c with Some [a; b; e] => (a =? midnight 2024 2 28) && (b =? midnight 2024 2 29) && (e =? midnight 2024 3 1) | _ => false end)) as (c & Hc & Hv);
      [vm_compute; reflexivity|].
    exists c. split; [exact Hc|]. destruct (days c) as [[|a [|b [|e [|]]]]|]; try discriminate. apply andb_prop in Hv as [Hv H3]. apply andb_prop in Hv as [H1 H2].
    apply Z.eqb_eq in H1, H2, H3. now subst.
  - destruct (follow_check (new_usecase_dates exact_fm PropsUseCase.nobody [PropsUseCase.home] (TextDate "2024-02-28T06:00") (TextDate "2024-03-01") false (15 # 100) None)
      [DQ (1 # 2); DQ (1 # 2)] (fun c => match days c with Some [a; b] => (a =? midnight 2024 2 28 + 360) && (b =? midnight 2024 2 29 + 360) | _ => false end)) as (c & Hc & Hv);
      [vm_compute; reflexivity|].
    exists c. split; [exact Hc|]. destruct (days c) as [[|a [|b [|]]]|]; try discriminate. apply andb_prop in Hv as [H1 H2].
    apply Z.eqb_eq in H1, H2. now subst.
Qed.
