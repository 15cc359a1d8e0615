(** * Base: exceptions, float rounding, random draws, numpy list primitives

    This file models the *runtime* RAMP relies on (Python, the [random] module, the few numpy
    primitives it calls).  It models no RAMP code itself; each definition cites the RAMP lines
    that use the primitive. *)
From Coq Require Export ZArith QArith Qround Qabs List Bool Lia Lqa String.
Export ListNotations.
Open Scope Z_scope.

(** ** Exceptions as values *)

(** Python exceptions raised on the modelled paths.  [InvalidWindow] and [InvalidType] are the
    two classes of ramp/errors_logs/errors.py:1-10 (subclasses of ValueError / TypeError).
    [Unmodelled] marks a result outside the model.  [OutOfFuel] is not a Python exception: it marks exhausted loop fuel in the model and is
    proved unreachable where it could occur. *)
Inductive exc : Type :=
| ValueError | IndexError | TypeError | KeyError | ZeroDivisionError | RecursionError
| AttributeError | FileNotFoundError | PlainException
| InvalidWindow | InvalidType
| Unmodelled
| OutOfFuel.

Inductive res (A : Type) : Type :=
| Ok (a : A)
| Err (e : exc).
Arguments Ok {A} a.
Arguments Err {A} e.

Definition rbind {A B} (m : res A) (k : A -> res B) : res B :=
  match m with Ok a => k a | Err e => Err e end.

(** ** Floats *)

(** unit roundoff and smallest positive number of binary64 *)
Definition eps53 : Q := 1 # (2 ^ 53).
Definition eta64 : Q := 1 # (2 ^ 1074).

(** Floats are rationals followed by a rounding.  [rnd] is the rounding applied after each
    float operation.  Laws: monotone, idempotent, exact on dyadic numbers with a 53 bit
    numerator, relative error at most 2^-53 (plus 2^-1074 near zero).  IEEE-754 binary64
    (without overflow) and exact arithmetic both satisfy them (F64.v, [exact_fm]). *)
Record fm : Type := FM {
  rnd : Q -> Q;
  rnd_mono : forall x y : Q, (x <= y)%Q -> (rnd x <= rnd y)%Q;
  rnd_idem : forall x : Q, (rnd (rnd x) == rnd x)%Q;
  rnd_dyadic : forall z k : Z, Z.abs z <= 2 ^ 53 -> 0 <= k <= 1000 ->
    (rnd (z # Z.to_pos (2 ^ k)) == z # Z.to_pos (2 ^ k))%Q;
  rnd_err : forall x : Q, (Qabs (rnd x - x) <= Qabs x * eps53 + eta64)%Q
}.

Lemma rnd_int (F : fm) (z : Z) : Z.abs z <= 2 ^ 53 -> (rnd F (inject_Z z) == inject_Z z)%Q.
Proof.
  intros H. apply (rnd_dyadic F z 0 H). lia.
Qed.

(** Exact arithmetic: rounding changes nothing. *)
Definition exact (F : fm) : Prop := forall x : Q, (rnd F x == x)%Q.

(** [x] is representable: rounding leaves it alone (every float the user can pass is). *)
Definition isfl (F : fm) (x : Q) : Prop := (rnd F x == x)%Q.

Definition exact_fm : fm.
Proof.
  refine (FM Qred _ _ _ _).
  - intros x y H. now rewrite !Qred_correct.
  - intros x. now rewrite !Qred_correct.
  - intros z k _ _. now rewrite Qred_correct.
  - intros x. rewrite Qred_correct. setoid_replace (x - x)%Q with 0%Q by ring.
    change (Qabs 0) with 0%Q.
    apply Qle_trans with (0 * eps53 + 0)%Q; [discriminate|].
    apply Qplus_le_compat; [|discriminate].
    apply Qmult_le_compat_r; [apply Qabs_nonneg|discriminate].
Defined.

Definition fadd (F : fm) (x y : Q) : Q := rnd F (x + y).
Definition fsub (F : fm) (x y : Q) : Q := rnd F (x - y).
Definition fmul (F : fm) (x y : Q) : Q := rnd F (x * y).
Definition fdiv (F : fm) (x y : Q) : Q := rnd F (x / y).
(** a decimal literal of the source is rounded once *)
Definition flit (F : fm) (x : Q) : Q := rnd F x.

Definition zq (z : Z) : Q := inject_Z z.

Definition Qltb (x y : Q) : bool := negb (Qle_bool y x).

(** Python [int(x)] on a float: truncation towards zero. *)
Definition py_int (x : Q) : Z := if Qle_bool 0 x then Qfloor x else Qceiling x.

(** Python [round(x)]: nearest integer, ties to even. *)
Definition py_round (x : Q) : Z :=
  let f := Qfloor x in
  let d := (x - inject_Z f)%Q in
  if Qltb d (1 # 2) then f
  else if Qltb (1 # 2) d then f + 1
  else if Z.even f then f else f + 1.

(** [math.ceil] *)
Definition py_ceil (x : Q) : Z := Qceiling x.

(** ** Random draws *)

(** A program that draws from Python's global generator. *)
Inductive prog (A : Type) : Type :=
| Ret (a : A)
| Raise (e : exc)
| Random (k : Q -> prog A)                (* random.random(), in [0,1) *)
| RandBelow (n : Z) (k : Z -> prog A)     (* random._randbelow(n), in [0,n) *)
| Normal (cached : bool) (k : Q -> prog A)(* the deviate z of gauss (true) / normalvariate (false) *)
| Seed (s : Z) (k : prog A).              (* random.seed(s) *)
Arguments Ret {A} a.
Arguments Raise {A} e.
Arguments Random {A} k.
Arguments RandBelow {A} n k.
Arguments Normal {A} cached k.
Arguments Seed {A} s k.

Fixpoint bind {A B} (m : prog A) (f : A -> prog B) : prog B :=
  match m with
  | Ret a => f a
  | Raise e => Raise e
  | Random k => Random (fun u => bind (k u) f)
  | RandBelow n k => RandBelow n (fun i => bind (k i) f)
  | Normal c k => Normal c (fun z => bind (k z) f)
  | Seed s k => Seed s (bind k f)
  end.

Declare Scope prog_scope.
Delimit Scope prog_scope with prog.
Notation "x <- m ;; k" := (bind m (fun x => k))
  (at level 61, m at next level, right associativity) : prog_scope.
Open Scope prog_scope.

Definition lift {A} (r : res A) : prog A :=
  match r with Ok a => Ret a | Err e => Raise e end.

(** Outcomes that are possible for some draws. *)
Inductive may {A : Type} : prog A -> res A -> Prop :=
| may_ret a : may (Ret a) (Ok a)
| may_raise e : may (Raise e) (Err e)
| may_random u k r : (0 <= u)%Q -> (u < 1)%Q -> may (k u) r -> may (Random k) r
| may_below n i k r : 0 <= i < n -> may (k i) r -> may (RandBelow n k) r
| may_normal c z k r : may (k z) r -> may (Normal c k) r
| may_seed s k r : may k r -> may (Seed s k) r.

(** A concrete generator, for deterministic runs. *)
Record generator : Type := Gen {
  gstate : Type;
  g_seed : Z -> gstate;
  g_random : gstate -> Q * gstate;
  g_below : Z -> gstate -> Z * gstate;
  g_normal : bool -> gstate -> Q * gstate;
  g_random_range : forall s, (0 <= fst (g_random s) < 1)%Q;
  g_below_range : forall n s, 0 < n -> 0 <= fst (g_below n s) < n
}.

Fixpoint run {A} (G : generator) (p : prog A) (s : gstate G) : res A * gstate G :=
  match p with
  | Ret a => (Ok a, s)
  | Raise e => (Err e, s)
  | Random k => let '(u, s') := g_random G s in run G (k u) s'
  | RandBelow n k => let '(i, s') := g_below G n s in run G (k i) s'
  | Normal c k => let '(z, s') := g_normal G c s in run G (k z) s'
  | Seed z k => run G k (g_seed G z)
  end.

(** *** The [random] module functions RAMP calls (Python 3.10 Lib/random.py) *)

(** [random.uniform(a, b)] is [a + (b-a) * self.random()].
    Used at utils.py:106, core.py:1797, 1855, 1956, 1986. *)
Definition py_uniform (F : fm) (a b : Q) : prog Q :=
  Random (fun u => Ret (fadd F a (fmul F (fsub F b a) u))).

(** [random.randint(a, b)] is [randrange(a, b+1)]: ValueError on an empty range, otherwise
    [a + _randbelow(b+1-a)].  Used at core.py:1007, 1578-1579, 1840. *)
Definition py_randint (a b : Z) : prog Z :=
  if b + 1 - a <=? 0 then Raise ValueError
  else RandBelow (b + 1 - a) (fun i => Ret (a + i)).

(** [random.choice(seq)] is [seq[_randbelow(len(seq))]].  Used at utils.py:177 on 2 items. *)
Definition py_choice2 {A} (x y : A) : prog A :=
  RandBelow 2 (fun i => Ret (if i =? 0 then x else y)).

(** [random.gauss(mu, sigma)] returns [mu + z * sigma].  Used at core.py:381, 1945. *)
Definition py_gauss (F : fm) (mu sigma : Q) : prog Q :=
  Normal true (fun z => Ret (fadd F mu (fmul F z sigma))).

(** [random.normalvariate(mu, sigma)] returns [mu + z * sigma].  Used at core.py:371. *)
Definition py_normalvariate (F : fm) (mu sigma : Q) : prog Q :=
  Normal false (fun z => Ret (fadd F mu (fmul F z sigma))).

(** ** numpy / list primitives *)

Definition zlen {A} (l : list A) : Z := Z.of_nat (List.length l).

(** [np.zeros(n)] *)
Definition zeros (n : nat) : list Q := repeat 0%Q n.

(** [np.arange(a, b)] / [range(a, b)] on integers *)
Definition arange (a b : Z) : list Z :=
  map (fun k => a + Z.of_nat k) (seq 0 (Z.to_nat (b - a))).

(** Normalisation of one slice bound by Python: negative counts from the end, clipped. *)
Definition slice_bound (len i : Z) : Z :=
  if i <? 0 then Z.max 0 (i + len) else Z.min i len.

(** element-wise write of [f k] at positions a <= k < b of a list (k is the position) *)
Fixpoint write_from (pos : Z) (d : list Q) (inside : Z -> bool) (v : Q) : list Q :=
  match d with
  | [] => []
  | x :: d' => (if inside pos then v else x) :: write_from (pos + 1) d' inside v
  end.

(** [d[a:b] = np.full(n, v)] with [n] an integer: ValueError when n is negative, or when n is
    neither 1 (broadcast) nor the length of the slice.
    Used at core.py:1423-1431, 2016-2018, 2025-2027. *)
Definition np_fill_slice (d : list Q) (a b n : Z) (v : Q) : res (list Q) :=
  if n <? 0 then Err ValueError
  else
    let a' := slice_bound (zlen d) a in
    let b' := slice_bound (zlen d) b in
    let m := Z.max 0 (b' - a') in
    if (n =? m) || (n =? 1)
    then Ok (write_from 0 d (fun k => (a' <=? k) && (k <? b')) v)
    else Err ValueError.

Fixpoint list_set {A} (l : list A) (n : nat) (v : A) : list A :=
  match l, n with
  | [], _ => []
  | _ :: l', O => v :: l'
  | x :: l', S n' => x :: list_set l' n' v
  end.

(** Python indexing [l[i]] with negative indices, IndexError outside. *)
Definition py_index {A} (l : list A) (i : Z) : res A :=
  let j := if i <? 0 then i + zlen l else i in
  if (j <? 0) || (zlen l <=? j) then Err IndexError
  else match nth_error l (Z.to_nat j) with Some x => Ok x | None => Err IndexError end.

(** [np.put(d, indexes, vals)] with mode 'raise': the j-th index receives
    [vals[j mod len(vals)]]; nothing happens when [vals] is empty; IndexError on an index
    outside [-len, len).  Used at core.py:1554-1570. *)
Fixpoint np_put_from (j : nat) (d : list Q) (indexes : list Z) (vals : list Q) : res (list Q) :=
  match indexes with
  | [] => Ok d
  | i :: rest =>
      let i' := if i <? 0 then i + zlen d else i in
      if (i' <? 0) || (zlen d <=? i') then Err IndexError
      else
        let v := nth (Nat.modulo j (List.length vals)) vals 0%Q in
        np_put_from (S j) (list_set d (Z.to_nat i') v) rest vals
  end.
Definition np_put (d : list Q) (indexes : list Z) (vals : list Q) : res (list Q) :=
  match vals with [] => Ok d | _ => np_put_from 0 d indexes vals end.

(** element-wise sum of two arrays of the same length ([a + b] on numpy arrays; the arrays
    RAMP adds all have 1440 entries: core.py:364, 441, 1018, 1051). *)
Fixpoint vadd (F : fm) (x y : list Q) : list Q :=
  match x, y with
  | a :: x', b :: y' => fadd F a b :: vadd F x' y'
  | _, _ => []
  end.

(** last element [l[-1]] and first element [l[0]] of an index array *)
Definition py_first (l : list Z) : res Z := match l with [] => Err IndexError | x :: _ => Ok x end.
Definition py_last (l : list Z) : res Z := match l with [] => Err IndexError | x :: l' => Ok (last l' x) end.
