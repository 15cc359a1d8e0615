(** * SpecDay: the vocabulary of the properties about one simulated day

    Nothing here models code.  [event] and [day_trace] are the ghost records of Appliance.v. *)
From Verif Require Import Base Utils Appliance Spec.

(** how long an event lasts, in minutes *)
Definition ev_dur (e : event) : Z := zlen (ev_indexes e).
(** total duration of a list of events *)
Definition ev_total (evs : list event) : Z := fold_right (fun e acc => ev_dur e + acc) 0 evs.
(** first minute of an event *)
Definition ev_start (e : event) : Z := hd 0 (ev_indexes e).
(** the event covers minute t and has a power to give (the values of an empty duty cycle give
    none) *)
Definition ev_covers (t : Z) (e : event) : bool :=
  existsb (Z.eqb t) (ev_indexes e) && negb (zlen (ev_values e) =? 0).
(** the power an event gives to minute t: its values, repeated from its start *)
Definition ev_power (e : event) (t : Z) : Q :=
  nth (Z.to_nat ((t - ev_start e) mod zlen (ev_values e))) (ev_values e) 0%Q.
(** the last event, in booking order, that covers minute t *)
Definition last_event (t : Z) (evs : list event) : option event := find (ev_covers t) (rev evs).
(** the power of the last event that covers minute t, [base t] if there is none *)
Definition overlay (base : Z -> Q) (evs : list event) (t : Z) : Q :=
  match last_event t evs with Some e => ev_power e t | None => base t end.

(** events share no minute *)
Definition no_overlap (evs : list event) : Prop :=
  ForallOrdPairs (fun e e' => forall t, In t (ev_indexes e) -> ~ In t (ev_indexes e')) evs.

(** [rw] is a randomisation of the declared window [w] by at most [rv] minutes, clipped to the
    day *)
Definition near (w : Z * Z) (rv : Z) (rw : Z * Z) : Prop :=
  exists y0 y1, rw = (Z.max 0 y0, Z.min 1440 y1) /\
    fst w - rv <= y0 <= fst w + rv /\ snd w - rv <= y1 <= snd w + rv.

Definition rand_windows (a : appliance) (rws : list (Z * Z)) : Prop :=
  exists rw1 rw2 rw3, rws = [rw1; rw2; rw3] /\
    near (window_1 (win a)) (random_var_1 (win a)) rw1 /\
    near (window_2 (win a)) (random_var_2 (win a)) rw2 /\
    near (window_3 (win a)) (random_var_3 (win a)) rw3.

(** [rt] is a total time of use the model may draw for these windows *)
Definition drawn_time (F : fm) (a : appliance) (rws : list (Z * Z)) (rt : Z) : Prop :=
  exists rw1 rw2 rw3, rws = [rw1; rw2; rw3] /\ may (rand_total_time_of_use F a rw1 rw2 rw3) (Ok rt).

(** the windows that have at least one minute *)
Definition nonempty (rws : list (Z * Z)) : list (Z * Z) := filter (fun w => negb (fst w =? snd w)) rws.

(** [n] consecutive minutes from [s] all lie in windows and are covered by no event *)
Definition free_run (rws : list (Z * Z)) (evs : list event) (s n : Z) : Prop :=
  forall t, s <= t < s + n -> minute_in_some t rws /\ forall e, In e evs -> ~ In t (ev_indexes e).

(** minutes of the day on which some event of the list gives power *)
Definition minutes_on (evs : list event) : list Z :=
  filter (fun t => existsb (ev_covers t) evs) (arange 0 1440).

