(** * PropsRetry: C31, initialize of a use case whose days are known already (core.py:236-300): after an initialize that raised, or with days set by hand *)
From Verif Require Import Base Wp ListLemmas Utils Appliance User Spec SpecUser ProofsUser ProofsUser2 ProofsEq PropsUser Tape
  UseCase SpecUseCase ProofsUseCase PropsUseCase PropsInit.
Open Scope list_scope.
Open Scope Z_scope.

(** Unless both dates are set, the days stay as they are; a number of days given is dropped and the one typed at the prompt is
    taken for the number of days, whatever the number of days known. *)
Theorem C31_days_known F w c nd enl force ds c' :
  is_initialized c = false -> days c = Some ds -> date_start c = None \/ date_end c = None ->
  may (initialize F w c nd enl force) (Ok (c', None)) ->
  days c' = Some ds /\
  match nd, num_days_ c with
  | None, Some n => num_days_ c' = Some n
  | _, _ => exists m, typed w = Ok m /\ num_days_ c' = Some m
  end.
Proof.
  intros Hi Hd Hdates H. rewrite initialize_stages, Hi in H. cbn [andb] in H.
  destruct (dates_stage w c nd force) as [c1 [e|]] eqn:E; [apply may_ret_inv in H; discriminate|].
  assert (K : days c1 = Some ds /\ exists n, num_days_ c1 = Some n /\
     match nd, num_days_ c with None, Some m => n = m | _, _ => typed w = Ok n end).
  { unfold dates_stage in E. rewrite Hi in E. cbn [andb] in E.
    assert (B : forall d, date_start d = date_start c -> date_end d = date_end c -> init_both_dates d = d).
    { intros d E1 E2. unfold init_both_dates. rewrite E1, E2. destruct Hdates as [-> | ->]; [reflexivity|]. destruct (date_start c); reflexivity. }
    destruct nd as [n|].
    - cbn [init_num_days_arg] in E. rewrite Hd in E. rewrite B in E by reflexivity. unfold init_prompt in E. cbn [num_days_ set_num_days] in E.
      destruct (typed w) as [m|e]; [|discriminate]. unfold init_days in E. cbn [days set_num_days] in E. rewrite Hd in E.
      destruct ds as [|d ds]; [discriminate|]. injection E as <-. split; [reflexivity|]. exists m. split; reflexivity.
    - cbn [init_num_days_arg] in E. rewrite B in E by reflexivity. unfold init_prompt in E.
      destruct (num_days_ c) as [n|] eqn:En.
      + unfold init_days in E. rewrite Hd in E. destruct ds as [|d ds]; [discriminate|]. injection E as <-. cbn. rewrite En. split; [reflexivity|]. exists n. auto.
      + destruct (typed w) as [m|e]; [|discriminate]. unfold init_days in E. cbn [days set_num_days] in E. rewrite Hd in E.
        destruct ds as [|d ds]; [discriminate|]. injection E as <-. cbn. split; [reflexivity|]. exists m. auto. }
  destruct K as (K1 & n & K2 & K3).
  destruct (init_finish_ok F c1 enl c' n K2 H) as (_ & p & q & ->).
  rewrite (proj1 (init_index_days _)), (proj2 (init_index_days _)). cbn. split; [exact K1|]. rewrite K2.
  destruct nd as [m|]; [exists n; auto|]. destruct (num_days_ c); [congruence|exists n; auto].
Qed.

(** With both dates set the days are chosen anew: a number of days given is dropped, so the dates decide; without argument the
    number of days known decides. *)
Theorem C31_days_known_dates F w c nd enl force ds s e c' :
  is_initialized c = false -> days c = Some ds -> date_start c = Some s -> date_end c = Some e ->
  may (initialize F w c nd enl force) (Ok (c', None)) ->
  exists n l, num_days_ c' = Some n /\ days c' = Some l /\
    requested_days w (Some s) (Some e) (match nd with Some _ => None | None => num_days_ c end) n l.
Proof.
  intros Hi Hd Hs He H. rewrite initialize_stages, Hi in H. cbn [andb] in H.
  destruct (dates_stage w c nd force) as [c1 [x|]] eqn:E; [apply may_ret_inv in H; discriminate|].
  set (c0 := set_num_days (set_days c None) None).
  assert (I0 : is_initialized c0 = false) by reflexivity.
  assert (K : exists l n, num_days_ c1 = Some n /\ days c1 = Some l /\
     requested_days w (Some s) (Some e) (match nd with Some _ => None | None => num_days_ c end) n l).
  { assert (Hch : chooses c0 (match nd with Some _ => None | None => num_days_ c end) false).
    { split; [left; split; reflexivity|right; reflexivity]. }
    assert (Es : date_start c0 = Some s) by exact Hs. assert (Ee : date_end c0 = Some e) by exact He.
    rewrite <- Es, <- Ee. apply (dates_stage_requested w c0 _ false c1 Hch).
    rewrite <- E. unfold dates_stage. rewrite Hi, I0. cbn [andb].
    assert (B : forall d d', date_start d = Some s -> date_end d = Some e -> set_days d None = set_days d' None -> init_both_dates d = init_both_dates d').
    { intros [] [] E1 E2 Hdd. cbn in *. injection Hdd as <- <- <- <- <- <- <- <- <- <-. subst. cbn. unfold init_both_dates. cbn. reflexivity. }
    assert (G : init_both_dates (init_num_days_arg c0 (match nd with Some _ => None | None => num_days_ c end)) = init_both_dates (init_num_days_arg c nd)).
    { destruct nd as [n|].
      - cbn [init_num_days_arg]. rewrite Hd. apply B; [exact Hs|exact He|]. unfold c0. destruct c; reflexivity.
      - cbn [init_num_days_arg]. destruct (num_days_ c) as [n|] eqn:En.
        + cbn [init_num_days_arg days c0 set_num_days set_days]. apply B; [exact Hs|exact He|]. unfold c0. destruct c. cbn in *. subst. reflexivity.
        + cbn [init_num_days_arg]. apply B; [exact Hs|exact He|]. unfold c0. destruct c. cbn in *. subst. reflexivity. }
    rewrite G. reflexivity. }
  destruct K as (l & n & K1 & K2 & K3).
  destruct (init_finish_ok F c1 enl c' n K1 H) as (_ & p & q & ->).
  exists n, l. rewrite (proj1 (init_index_days _)), (proj2 (init_index_days _)). cbn. auto.
Qed.

(** a use case whose days are the two set by hand, asked for 5 days: the prompt decides that there are 3 *)
Definition known_days (stop : option Z) : usecase :=
  set_days (collect_appliances (blank (Some 1051200000) stop false (15 # 100) None [home])) (Some [1051200000; 1051201440]).
Example C31_days_known_case : is_initialized (known_days None) = false /\
  exists c', may (initialize exact_fm types_3 (known_days None) (Some 5) None false) (Ok (c', None)) /\
    num_days_ c' = Some 3 /\ days c' = Some [1051200000; 1051201440].
Proof.
  split; [reflexivity|].
  destruct (follow_check (initialize exact_fm types_3 (known_days None) (Some 5) None false) [DQ (1 # 2); DQ (1 # 2)]
    (fun x => match snd x with None => true | _ => false end)) as ([c' e] & H & Hv).
  { vm_compute. reflexivity. }
  destruct e; [discriminate|]. exists c'. split; [exact H|].
  destruct (C31_days_known exact_fm types_3 (known_days None) (Some 5) None false [1051200000; 1051201440] c' eq_refl eq_refl (or_intror eq_refl) H) as (K1 & m & K2 & K3).
  injection K2 as <-. auto.
Qed.
Example C31_days_known_dates_case : date_end (known_days (Some 1051205760)) = Some (1051200000 + 1440 * 4) /\
  exists c', may (initialize exact_fm nobody (known_days (Some 1051205760)) (Some 3) None false) (Ok (c', None)) /\ num_days_ c' = Some 5.
Proof.
  split; [reflexivity|].
  destruct (follow_check (initialize exact_fm nobody (known_days (Some 1051205760)) (Some 3) None false) [DQ (1 # 2); DQ (1 # 2)]
    (fun x => match snd x with None => true | _ => false end)) as ([c' e] & H & Hv).
  { vm_compute. reflexivity. }
  destruct e; [discriminate|]. exists c'. split; [exact H|].
  destruct (C31_days_known_dates exact_fm nobody (known_days (Some 1051205760)) (Some 3) None false [1051200000; 1051201440] 1051200000 1051205760 c' eq_refl eq_refl eq_refl eq_refl H) as (n & l & K1 & _ & K3 & K4).
  rewrite K1. f_equal. lia.
Qed.
