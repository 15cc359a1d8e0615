(** * Spec: the small vocabulary in which the properties are stated

    Nothing here models code; these are the words of properties.jsonl. *)
From Verif Require Import Base.

(** minute [t] belongs to the half open window [w] = [start, end) *)
Definition minute_in (t : Z) (w : Z * Z) : Prop := fst w <= t < snd w.

(** minute [t] belongs to one of the windows *)
Definition minute_in_some (t : Z) (ws : list (Z * Z)) : Prop := exists w, In w ws /\ minute_in t w.

(** a window given inside one day *)
Definition inside_day (w : Z * Z) : Prop := 0 <= fst w <= snd w /\ snd w <= 1440.

(** two windows leave at least one minute between them *)
Definition apart (w w' : Z * Z) : Prop := snd w < fst w' \/ snd w' < fst w.
(** two windows share no minute (they may touch) *)
Definition disjoint (w w' : Z * Z) : Prop := snd w <= fst w' \/ snd w' <= fst w.

Definition separated (ws : list (Z * Z)) : Prop := ForallOrdPairs apart ws.
Definition pairwise_disjoint (ws : list (Z * Z)) : Prop := ForallOrdPairs disjoint ws.

(** length of a window *)
Definition length_of (w : Z * Z) : Z := snd w - fst w.
Definition total_length (ws : list (Z * Z)) : Z := fold_right (fun w acc => length_of w + acc) 0 ws.

(** the consecutive minutes s, s+1, ..., s+n-1 *)
Definition run_of_minutes (l : list Z) (s n : Z) : Prop :=
  zlen l = n /\ forall k, 0 <= k < n -> nth_error l (Z.to_nat k) = Some (s + k).

(** the value of minute [t] of a daily profile *)
Definition value_at (d : list Q) (t : Z) : Q := nth (Z.to_nat t) d 0%Q.

(** a power is between two bounds *)
Definition between (lo x hi : Q) : Prop := (lo <= x <= hi)%Q.
