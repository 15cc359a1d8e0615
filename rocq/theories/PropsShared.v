(** * PropsShared: concrete cases and refutations for C72 and C73 *)
From Verif Require Import Base Wp Tape Sim ListLemmas Utils Appliance Attributes User Spec SpecDay SpecUser PropsDay ProofsUser PropsUser UseCase SpecUseCase
  Tabular ProofsEq ProofsUseCase PropsUseCase PropsParallel PropsTotal PropsPopulation Heap PropsHeap.
Open Scope list_scope.
Open Scope Z_scope.

(** ** C72 *)

Definition two_people (apps : list happ) (mine yours : list nat) : heap :=
  Heap apps [HUser "host" 1 3 0 [] mine None; HUser "guest" 1 0 0 [] yours None].

(** the same user twice, in nested lists; a list with a number in it *)
Example C72_case : let h := two_people [] [] [] in
  (exists h', hadd_user 7 h [1%nat] (IList [IUser 0; IList [IUser 1; IUser 0]; IList []]) = (h', [1; 0; 1; 0]%nat, None) /\
     map hu_case (h_users h') = [Some 7%nat; Some 7%nat]) /\
  exists h', hadd_user 7 h [] (IList [IUser 1; IList [IOther; IUser 0]]) = (h', [1%nat], Some InvalidType) /\
     map hu_case (h_users h') = [None; Some 7%nat].
Proof. split; eexists; (split; [reflexivity|reflexivity]). Qed.

(** "[users : Union[Iterable, None]]": an iterable that is not a list is refused, whatever it contains *)
Theorem C72_iterables_refuted F w uc h start stop par enl seed : hnew_usecase F w uc h IOther start stop par enl seed = Raise InvalidType.
Proof. reflexivity. Qed.

(** a call that raises can leave users behind: adding is not all or nothing *)
Theorem C72_atomic_refuted uc h ks k : exists h', hadd_user uc h ks (IList [IUser k; IOther]) = (h', ks ++ [k], Some InvalidType).
Proof. eexists. reflexivity. Qed.

(** ** C73 *)

(** *** The hypotheses of the theorems: a lamp (no preference) shared by two users, one of which is listed twice *)
Definition lamp_house : heap := two_people [HApp (PropsParallel.spread lamp) 0] [0%nat] [0%nat].

Example C73_case : let it := IList [IUser 0; IUser 1; IUser 1] in
  ~ In None (leaves it) /\ (forall k, In (Some k) (leaves it) -> valid_user lamp_house k /\ own_or_free lamp_house k) /\
  (exists hx rows, may (hsimulate 3 exact_fm nobody 7 lamp_house it (Some 1051200000) None (15 # 100) None (Some 2) None) (Ok (hx, rows)) /\
     (value_at (nth 1 rows []) 500 == 300)%Q) /\
  (exists c rows, may (PropsTotal.simulate 3 exact_fm nobody [view lamp_house 0; view lamp_house 1; view lamp_house 1] (Some 1051200000) None (15 # 100) None (Some 2) None) (Ok (c, rows)) /\
     (value_at (nth 1 rows []) 500 == 300)%Q).
Proof.
  cbv zeta. set (it := IList [IUser 0; IUser 1; IUser 1]).
  assert (H1 : ~ In None (leaves it)) by (cbn; intuition discriminate).
  assert (H2 : forall k, In (Some k) (leaves it) -> valid_user lamp_house k /\ own_or_free lamp_house k).
  { intros k Hk. assert (E : k = 0%nat \/ k = 1%nat) by (cbn in Hk; intuition congruence).
    assert (R : forall r x, nth_error (h_apps lamp_house) r = Some x -> pref_index (par (obj x)) = 0).
    { intros [|[|r]] x Hx; [|discriminate|discriminate]. injection Hx as <-. reflexivity. }
    split; [|intros v r x _ _ Hx; right; exact (R r x Hx)].
    destruct E as [-> | ->]; eexists; (split; [reflexivity|]); intros r [<-|[]]; eexists; reflexivity. }
  split; [exact H1|]. split; [exact H2|].
  assert (G : exists hx rows, may (hsimulate 3 exact_fm nobody 7 lamp_house it (Some 1051200000) None (15 # 100) None (Some 2) None) (Ok (hx, rows)) /\
     (value_at (nth 1 rows []) 500 == 300)%Q).
  { destruct (follow_check (hsimulate 3 exact_fm nobody 7 lamp_house it (Some 1051200000) None (15 # 100) None (Some 2) None)
      ([DQ (1 # 2); DQ (1 # 2)] ++ List.concat (repeat (DZ 1 :: flat_draws ++ flat_draws ++ flat_draws) 2))
      (fun x => Qeq_bool (value_at (nth 1 (snd x) []) 500) 300)) as ([hx rows] & Hx & Hv).
    { vm_compute. reflexivity. }
    apply Qeq_bool_iff in Hv. eauto. }
  split; [exact G|]. destruct G as (hx & rows & Hm & Hv).
  destruct (C73_possible_partial 3 exact_fm nobody 7 lamp_house it (Some 1051200000) None (15 # 100) None (Some 2) None H1 H2) as (ks & Hk & Hr & _).
  destruct ks as [|k1 [|k2 [|k3 [|]]]]; try discriminate. injection Hk as -> -> ->.
  destruct (proj1 (Hr rows) (ex_intro _ hx Hm)) as (c & Hc). exists c, rows. split; assumption.
Qed.

(** *** An appliance with a preference, shared *)

(** The host has three preferences, the guest none.  The appliance was created for the host, belongs to preference 2 and is used by
    the guest.  With an appliance of its own the guest would never use it (C20); it uses the shared one on the days of preference 2
    of the host. *)
Definition special_house : heap := two_people [HApp (PropsParallel.spread special) 0] [] [0%nat].
Definition special_case : hcase := HCase (for_two_days (blank (Some 1051200000) None false (15 # 100) None [])) [0; 1]%nat [0%nat].

Definition empty_row (l : list Q) : Prop := List.length l = day_minutes /\ forall t, 0 <= t < 1440 -> (value_at l t == 0)%Q.
Lemma zeros_empty : empty_row (zeros day_minutes).
Proof. split; [apply repeat_length|]. intros t _. unfold value_at, zeros. rewrite nth_repeat. reflexivity. Qed.
Lemma sum_empty F rows : exact F -> Forall empty_row rows -> empty_row (sum_rows F rows).
Proof.
  intros HF H. assert (Hl : Forall (fun l => List.length l = day_minutes) rows) by (eapply Forall_impl; [|exact H]; intros l Hl; apply Hl).
  split; [apply sum_rows_len; exact Hl|]. intros t Ht. rewrite (sum_rows_exact F rows t HF Ht Hl). unfold minute_sum.
  induction H as [|l rows [_ Hx] _ IH]; [reflexivity|]. cbn [map Qsum fold_right]. inversion Hl; subst. fold (Qsum (map (fun l => value_at l t) rows)). rewrite (Hx t Ht), IH by assumption. reflexivity.
Qed.

Theorem C73_preference_refuted :
  Forall (valid_user special_house) (hc_users special_case) /\ hc_apps special_case = hcollect special_house (hc_users special_case) /\
  set_up (hview special_house special_case) 1051200000 2 /\
  (exists hx rows, may (hgenerate 3 exact_fm nobody special_house special_case None) (Ok (hx, rows)) /\ (value_at (nth 0 rows []) 500 == 7)%Q) /\
  (forall depth F c rows d t, exact F -> may (generate_sequential depth F nobody (hview special_house special_case) None) (Ok (c, rows)) ->
     0 <= d < 2 -> 0 <= t < 1440 -> (value_at (nth (Z.to_nat d) rows []) t == 0)%Q).
Proof.
  assert (Hu : set_up (hview special_house special_case) 1051200000 2).
  { exact (for_two_days_set_up (blank (Some 1051200000) None false (15 # 100) None (map (view special_house) [0; 1]%nat))). }
  split; [|split; [reflexivity|split; [exact Hu|split]]].
  - repeat constructor; eexists; (split; [reflexivity|]); intros r Hr; cbn in Hr; intuition; subst; eexists; reflexivity.
  - destruct (follow_check (hgenerate 3 exact_fm nobody special_house special_case None)
      (List.concat (repeat (DZ 1 :: flat_draws) 2)) (fun x => Qeq_bool (value_at (nth 0 (snd x) []) 500) 7)) as ([hx rows] & Hx & Hv).
    { vm_compute. reflexivity. }
    apply Qeq_bool_iff in Hv. eauto.
  - intros depth F c rows d t HF H Hd Ht. destruct (C28_rows _ _ _ _ _ _ _ _ _ Hu H) as (_ & _ & Hr).
    destruct (Hr d Hd) as (dt & loads & _ & Hl & ->).
    assert (He : empty_row (sum_rows F loads)); [|apply He; exact Ht].
    apply (sum_empty F _ HF). change (users (hview special_house special_case)) with [view special_house 0; view special_house 1] in Hl.
    set (pk := peak_of (hview special_house special_case)) in *. clearbody pk.
    assert (K : forall u l, user_day depth F d pk dt u l ->
      (forall m, member_day depth F u d pk dt m -> Forall (fun r => r = zeros day_minutes) (snd m)) -> empty_row l).
    { intros u l (u' & Hu' & <-) Hm. apply aggregated_may in Hu' as (_ & ms & _ & Hms & ->).
      apply (sum_empty F _ HF). apply Forall_map. eapply Forall_impl; [|exact Hms]. intros m Hmd. apply (sum_empty F _ HF).
      eapply Forall_impl; [|exact (Hm m Hmd)]. intros r ->. apply zeros_empty. }
    inversion Hl as [|? l0 ? ? L0 Hl1]; subst. inversion Hl1 as [|? l1 ? ? L1 Hl2]; subst. inversion Hl2; subst. constructor; [|constructor; [|constructor]].
    + apply (K _ _ L0). intros m [_ Hm]. inversion Hm. constructor.
    + apply (K _ _ L1). intros m [Hp Hm]. destruct Hp as [[_ Hp]|[C _]]; [|exfalso; apply C; reflexivity]. rewrite Hp in Hm.
      inversion Hm as [|? r ? ? Hr0 Hr1]; subst. inversion Hr1; subst. constructor; [|constructor].
      destruct Hr0 as (pw & a' & _ & Ha & <-). eapply C20_always_skipped; [|exact Ha]. left. split; discriminate.
Qed.

(** *** Saving a shared appliance: its row names the host *)

(** both users are saved, the table has one row for each, and no row names the guest *)
Theorem C73_saved_refuted :
  Forall (valid_user lamp_house) [0; 1]%nat /\ Forall (own_or_free lamp_house) [0; 1]%nat /\
  (exists t, hsave exact_fm lamp_house [0; 1]%nat = Ok t /\ map (fun r => row_get r "user_name") t = [CText "host"; CText "host"]) /\
  (exists t, save exact_fm [view lamp_house 0; view lamp_house 1] = Ok t /\ map (fun r => row_get r "user_name") t = [CText "host"; CText "guest"]).
Proof.
  split; [repeat constructor; eexists; (split; [reflexivity|]); intros r [<-|[]]; eexists; reflexivity|].
  split.
  { constructor; [|constructor; [|constructor]]; intros v [|[|r]] x _ _ Hx; try discriminate; right; injection Hx as <-; reflexivity. }
  split; eexists; (split; [vm_compute; reflexivity|vm_compute; reflexivity]).
Qed.

(** the hypotheses of [C73_saved_partial] and [C73_parallel_partial] *)
Definition own_house : heap := two_people [HApp (PropsParallel.spread lamp) 0; HApp (PropsParallel.spread special) 1] [0%nat] [1%nat].
Example C73_own_case :
  Forall (valid_user own_house) [0; 1]%nat /\ Forall (own_only own_house) [0; 1]%nat /\
  proper own_house (HCase (for_two_days (blank (Some 1051200000) None true (15 # 100) None [])) [0; 1]%nat [0; 1]%nat) /\
  exists t, hsave exact_fm own_house [0; 1]%nat = Ok t /\ zlen t = 2.
Proof.
  assert (V : Forall (valid_user own_house) [0; 1]%nat).
  { repeat constructor; eexists; (split; [reflexivity|]); intros r [<-|[]]; eexists; reflexivity. }
  assert (O : Forall (own_only own_house) [0; 1]%nat).
  { constructor; [|constructor; [|constructor]]; intros v r x Hv Hr Hx; injection Hv as <-; destruct Hr as [<-|[]]; injection Hx as <-; reflexivity. }
  split; [exact V|]. split; [exact O|]. split; [|eexists; split; [vm_compute; reflexivity|vm_compute; reflexivity]].
  repeat split; [exact V|].
  eapply Forall_impl; [|exact O]. intros k Hk v r x Hv Hr Hx. left. exact (Hk v r x Hv Hr Hx).
Qed.
