(** * Base: the fragment of Python that the model of flee uses.

    Exceptions are values, strings carry an object identity, dictionaries are
    association lists in insertion order, floating point numbers are exact
    rationals (rounding is not modelled), random draws come from streams. *)

From Coq Require Export List Bool Arith ZArith QArith String Ascii.
From Coq Require Import DecimalString DecimalZ.
Export ListNotations.
Local Open Scope list_scope.

(** ** Exceptions *)

(** [SystemExit] is [sys.exit()].  [OutOfFuel] is not a Python exception: it marks
    the exhaustion of the recursion budget of a model function. *)
Inductive exn : Type :=
| TypeError | ValueError | IndexError | KeyError | NameError | AttributeError
| AssertionError | ZeroDivisionError | UnboundLocalError | OverflowError | OSError
| StopIteration | SystemExit | OutOfFuel.

Inductive res (A : Type) : Type :=
| Ok (a : A)
| Err (x : exn).
Arguments Ok {A} a.
Arguments Err {A} x.

Definition bind {A B : Type} (m : res A) (k : A -> res B) : res B :=
  match m with
  | Ok a => k a
  | Err x => Err x
  end.

Notation "x <- m ;; k" := (bind m (fun x => k))
  (at level 61, m at next level, right associativity).
Notation "' p <- m ;; k" := (bind m (fun x => match x with p => k end))
  (at level 61, p pattern, m at next level, right associativity).

Definition rmap {A B : Type} (f : A -> B) (m : res A) : res B :=
  match m with
  | Ok a => Ok (f a)
  | Err x => Err x
  end.

Definition is_ok {A : Type} (m : res A) : bool :=
  match m with Ok _ => true | Err _ => false end.

(** [for x in l: s = f s x] with exceptions. *)
Fixpoint foldM {A S : Type} (f : S -> A -> res S) (l : list A) (s : S) : res S :=
  match l with
  | [] => Ok s
  | a :: l' => s' <- f s a ;; foldM f l' s'
  end.

(** [[f x for x in l]] with exceptions. *)
Fixpoint mapM {A B : Type} (f : A -> res B) (l : list A) : res (list B) :=
  match l with
  | [] => Ok []
  | a :: l' => b <- f a ;; bs <- mapM f l' ;; Ok (b :: bs)
  end.

Definition of_option {A : Type} (x : exn) (o : option A) : res A :=
  match o with
  | Some a => Ok a
  | None => Err x
  end.

(** ** Lists *)

(** Replace element [n] of [l] by its image under [f] (no effect if absent). *)
Fixpoint upd {A : Type} (n : nat) (f : A -> A) (l : list A) : list A :=
  match l, n with
  | [], _ => []
  | a :: l', O => f a :: l'
  | a :: l', S n' => a :: upd n' f l'
  end.

(** Python indexing [l[z]]: negative indices count from the end. *)
Definition py_index {A : Type} (l : list A) (z : Z) : res A :=
  let n := Z.of_nat (List.length l) in
  let z' := if (z <? 0)%Z then (z + n)%Z else z in
  if (z' <? 0)%Z then Err IndexError
  else of_option IndexError (nth_error l (Z.to_nat z')).

Fixpoint sumZ (l : list Z) : Z :=
  match l with [] => 0%Z | a :: l' => (a + sumZ l')%Z end.

Fixpoint sumQ (l : list Q) : Q :=
  match l with [] => 0 | a :: l' => a + sumQ l' end.

(** ** Numbers *)

Definition Qltb (x y : Q) : bool := negb (Qle_bool y x).
Definition Qleb (x y : Q) : bool := Qle_bool x y.
Definition Qeqb (x y : Q) : bool := Qeq_bool x y.
Definition Qmaxb (x y : Q) : Q := if Qltb x y then y else x.
Definition Qminb (x y : Q) : Q := if Qltb y x then y else x.

(** [int(x)] of a float: truncation towards zero. *)
Definition Qtrunc (x : Q) : Z := Z.quot (Qnum x) (Zpos (Qden x)).

(** [round(x)] of a float: nearest integer, ties to even. *)
Definition Qround_even (x : Q) : Z :=
  let f := Z.div (Qnum x) (Zpos (Qden x)) in
  let r := x - inject_Z f in
  if Qltb r (1#2) then f
  else if Qltb (1#2) r then (f + 1)%Z
  else if Z.even f then f else (f + 1)%Z.

Definition is_int (x : Q) : bool := Qeqb x (inject_Z (Qtrunc x)).

(** Float division: [ZeroDivisionError] on a zero denominator. *)
Definition fdiv (x y : Q) : res Q :=
  if Qeqb y 0 then Err ZeroDivisionError else Ok (x / y).

(** ** Strings *)

(** A Python string object: its value and its identity.  [==] compares values,
    [is] compares identities. *)
Record pystr : Type := PS { sval : string; sid : nat }.

Definition py_eq (a b : pystr) : bool := String.eqb (sval a) (sval b).
Definition py_is (a b : pystr) : bool := Nat.eqb (sid a) (sid b).

Definition lower_ascii (c : ascii) : ascii :=
  let n := nat_of_ascii c in
  if (Nat.leb 65 n && Nat.leb n 90)%bool then ascii_of_nat (n + 32) else c.

(** [s.lower()] on ASCII text. *)
Fixpoint lower (s : string) : string :=
  match s with
  | EmptyString => EmptyString
  | String c s' => String (lower_ascii c) (lower s')
  end.

(** [needle in hay] for strings. *)
Definition str_in (needle hay : string) : bool :=
  match String.index 0 needle hay with Some _ => true | None => false end.

Definition mem_str (s : string) (l : list string) : bool :=
  existsb (String.eqb s) l.

Definition is_space (c : ascii) : bool :=
  let n := nat_of_ascii c in
  (Nat.eqb n 32 || (Nat.leb 9 n && Nat.leb n 13))%bool.

Fixpoint lstrip (s : string) : string :=
  match s with
  | String c s' => if is_space c then lstrip s' else s
  | EmptyString => EmptyString
  end.

Fixpoint string_rev (s acc : string) : string :=
  match s with
  | EmptyString => acc
  | String c s' => string_rev s' (String c acc)
  end.

Definition strip (s : string) : string :=
  string_rev (lstrip (string_rev (lstrip s) EmptyString)) EmptyString.

(** [str(z)] / ["{}".format(z)] for integers. *)
Definition str_of_Z (z : Z) : string := NilZero.string_of_int (Z.to_int z).

(** [int(s)] for a decimal integer literal with optional sign and surrounding
    blanks.  Underscores and other alphabets are not modelled. *)
Definition parse_Z (s : string) : option Z :=
  let t := strip s in
  match t with
  | String "+"%char t' =>
      match t' with
      | String "-"%char _ => None
      | _ => option_map Z.of_int (NilZero.int_of_string t')
      end
  | _ => option_map Z.of_int (NilZero.int_of_string t)
  end.

Definition digit_of (c : ascii) : option Z :=
  let n := nat_of_ascii c in
  if (Nat.leb 48 n && Nat.leb n 57)%bool then Some (Z.of_nat (n - 48)) else None.

(** Reads digits; returns value, number of digits and the rest. *)
Fixpoint take_digits (s : string) (acc : Z) (k : nat) : Z * nat * string :=
  match s with
  | String c s' =>
      match digit_of c with
      | Some d => take_digits s' (acc * 10 + d)%Z (S k)
      | None => (acc, k, s)
      end
  | EmptyString => (acc, k, EmptyString)
  end.

Definition pow10 (k : nat) : positive := Pos.pow 10 (Pos.of_nat k).

(** Unsigned decimal literal [ddd[.ddd]], at least one digit. *)
Definition parse_udec (s : string) : option Q :=
  let '(ip, k1, r1) := take_digits s 0%Z 0 in
  match r1 with
  | EmptyString => if Nat.eqb k1 0 then None else Some (inject_Z ip)
  | String "."%char r2 =>
      let '(v, k2, r3) := take_digits r2 ip 0 in
      match r3 with
      | EmptyString =>
          if Nat.eqb (k1 + k2) 0 then None
          else if Nat.eqb k2 0 then Some (inject_Z v)
          else Some (v # pow10 k2)
      | _ => None
      end
  | _ => None
  end.

(** [float(s)] for plain decimal literals with optional sign and blanks.
    Exponents, inf, nan and underscores are not modelled (they give [None]). *)
Definition parse_Q (s : string) : option Q :=
  match strip s with
  | String "-"%char t => option_map Qopp (parse_udec t)
  | String "+"%char t => parse_udec t
  | t => parse_udec t
  end.

(** ** Dynamically typed values and dictionaries *)

Inductive pyval : Type :=
| VInt (z : Z)
| VFloat (q : Q)
| VStr (s : string)
| VList (l : list Z).

(** [float(v)] *)
Definition py_float (v : pyval) : res Q :=
  match v with
  | VInt z => Ok (inject_Z z)
  | VFloat q => Ok q
  | VStr s => of_option ValueError (parse_Q s)
  | VList _ => Err TypeError
  end.

(** [int(v)] *)
Definition py_int (v : pyval) : res Z :=
  match v with
  | VInt z => Ok z
  | VFloat q => Ok (Qtrunc q)
  | VStr s => of_option ValueError (parse_Z s)
  | VList _ => Err TypeError
  end.

(** The value of [v] in a comparison with a number; comparing a number with a
    string or a list raises [TypeError]. *)
Definition py_num (v : pyval) : res Q :=
  match v with
  | VInt z => Ok (inject_Z z)
  | VFloat q => Ok q
  | VStr _ | VList _ => Err TypeError
  end.

(** The value of [v] used as a list index: must be an integer. *)
Definition py_as_index (v : pyval) : res Z :=
  match v with
  | VInt z => Ok z
  | VFloat _ | VStr _ | VList _ => Err TypeError
  end.

(** [v[i]] for a list of integers. *)
Definition py_getitem (v : pyval) (i : Z) : res Z :=
  match v with
  | VList l => py_index l i
  | VInt _ | VFloat _ | VStr _ => Err TypeError
  end.

Fixpoint dict_get {A : Type} (k : string) (d : list (string * A)) : option A :=
  match d with
  | [] => None
  | (k', v) :: d' => if String.eqb k k' then Some v else dict_get k d'
  end.

(** [d[k] = v]: replaces in place or appends. *)
Fixpoint dict_set {A : Type} (k : string) (v : A) (d : list (string * A))
  : list (string * A) :=
  match d with
  | [] => [(k, v)]
  | (k', v') :: d' =>
      if String.eqb k k' then (k', v) :: d' else (k', v') :: dict_set k v d'
  end.

Definition dict : Type := list (string * pyval).

Definition dict_get_default (k : string) (d : dict) (v : pyval) : pyval :=
  match dict_get k d with Some w => w | None => v end.

(** ** Randomness *)

(** One state for all generators: [g_u] feeds [random.random()], [g_nu] feeds
    [numpy]'s uniform draws, [g_nk] its integer draws.  [g_i], [g_ni], [g_ki] are
    the numbers of draws made so far. *)
Record rng : Type := Rng {
  g_u : nat -> Q; g_nu : nat -> Q; g_nk : nat -> nat;
  g_i : nat; g_ni : nat; g_ki : nat }.

Definition rng_u (g : rng) : Q * rng :=
  (g_u g (g_i g), Rng (g_u g) (g_nu g) (g_nk g) (S (g_i g)) (g_ni g) (g_ki g)).
Definition rng_nu (g : rng) : Q * rng :=
  (g_nu g (g_ni g), Rng (g_u g) (g_nu g) (g_nk g) (g_i g) (S (g_ni g)) (g_ki g)).
Definition rng_nk (g : rng) : nat * rng :=
  (g_nk g (g_ki g), Rng (g_u g) (g_nu g) (g_nk g) (g_i g) (g_ni g) (S (g_ki g))).

(** All uniform draws, past and future, are in [0,1). *)
Definition rng_ok (g : rng) : Prop :=
  (forall n, 0 <= g_u g n /\ g_u g n < 1) /\
  (forall n, 0 <= g_nu g n /\ g_nu g n < 1).

(** [np.random.randint(lo, hi)]: any value of the range, decided by the stream;
    [ValueError] if the range is empty. *)
Definition np_randint (lo hi : Z) (g : rng) : res (Z * rng) :=
  if (hi <=? lo)%Z then Err ValueError
  else let '(k, g') := rng_nk g in
       Ok ((lo + Z.of_nat k mod (hi - lo))%Z, g').

(** [np.random.poisson(lam)]: any natural number, decided by the stream;
    [ValueError] if [lam < 0]. *)
Definition np_poisson (lam : Q) (g : rng) : res (Z * rng) :=
  if Qltb lam 0 then Err ValueError
  else let '(k, g') := rng_nk g in Ok (Z.of_nat k, g').

(** Running sums, as [itertools.accumulate] and [numpy.cumsum]. *)
Fixpoint accumulate (acc : Q) (l : list Q) : list Q :=
  match l with
  | [] => []
  | a :: l' => (acc + a) :: accumulate (acc + a) l'
  end.

(** Index of the first element of [l] that is greater than [x]; the length of [l]
    if there is none.  For a sorted [l] this is [bisect.bisect(l, x)] and
    [l.searchsorted(x, side='right')]. *)
Fixpoint bisect_right (l : list Q) (x : Q) : nat :=
  match l with
  | [] => 0
  | a :: l' => if Qltb x a then 0 else S (bisect_right l' x)
  end.

(** [random.choices(options, weights)[0]] of CPython 3: one uniform draw [u];
    [ValueError] if the total weight is not positive; the index is
    [bisect(cum_weights, u * total, 0, n - 1)]. *)
Definition random_choices {A : Type} (options : list A) (weights : list Q) (g : rng)
  : res (A * rng) :=
  let cum := accumulate 0 weights in
  let total := List.last cum 0 in
  if negb (Nat.eqb (List.length options) (List.length weights)) then Err ValueError
  else if Qleb total 0 then Err ValueError
  else
    let '(u, g') := rng_u g in
    let i := bisect_right (removelast cum) (u * total) in
    o <- of_option IndexError (nth_error options i) ;; Ok (o, g').

(** ** Oracles for library functions *)

Record oracle : Type := Oracle {
  o_pow : Q -> Q -> Q;             (* x ** y on floats *)
  o_dist : Q * Q -> Q * Q -> Q     (* great-circle distance of (x,y) points, km *)
}.

(** [x ** y]: [0.0 ** negative] raises [ZeroDivisionError]; a negative base with a
    non-integer exponent gives a complex number, on which the next float operation
    of flee raises [TypeError]. *)
Definition fpow (o : oracle) (x y : Q) : res Q :=
  if (Qeqb x 0 && Qltb y 0)%bool then Err ZeroDivisionError
  else if (Qltb x 0 && negb (is_int y))%bool then Err TypeError
  else Ok (o_pow o x y).
