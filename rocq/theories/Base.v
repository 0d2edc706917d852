(** Shared conventions: Python exceptions as values, generators, list lemmas.
    Nothing in this file models a particular /repo function; it fixes the
    vocabulary that the [*Model.v] files use. *)
From Coq Require Export List ZArith Bool Lia Arith.
From Coq Require Export ZifyBool ZifyNat.
Export ListNotations.

(** Python exception classes that the modelled code can raise.  [OutOfFuel]
    never corresponds to a Python exception: it marks an exhausted recursion
    bound, and every theorem about a fuelled function excludes it. *)
Inductive exn :=
  | ValueError | KeyError | TypeError | AssertionError | IndexError
  | ZeroDivisionError | AttributeError | UnboundLocalError | RuntimeError
  | StopIteration | GenericException | NameError | UnsatisfiedRequirementsError
  | MeasurementError | UnicodeError | OutOfFuel.

(** Result of a Python call: a value or a raised exception. *)
Inductive res (A : Type) :=
  | Ok (a : A)
  | Err (e : exn).
Arguments Ok {A} a.
Arguments Err {A} e.

Definition bind {A B} (x : res A) (f : A -> res B) : res B :=
  match x with Ok a => f a | Err e => Err e end.
Notation "'do' x <- m ; k" := (bind m (fun x => k))
  (at level 200, x pattern, m at level 100, k at level 200, right associativity).

Definition is_ok {A} (x : res A) : bool :=
  match x with Ok _ => true | Err _ => false end.

(** A Python generator run to exhaustion: everything it yielded, followed by
    the exception that ended it, if any. *)
Definition gen (A : Type) : Type := (list A * option exn)%type.

Definition gen_cons {A} (a : A) (g : gen A) : gen A := (a :: fst g, snd g).

(** Run the first generator; if it ends normally go on with the second one
    (used for [for x in g1: yield x] followed by more code). *)
Definition gen_app {A} (g1 : gen A) (g2 : gen A) : gen A :=
  match g1 with
  | (l, Some e) => (l, Some e)
  | (l, None) => (l ++ fst g2, snd g2)
  end.

(** [list(map(f, l))] where [f] may raise: stops at the first exception. *)
Fixpoint mapM {A B} (f : A -> res B) (l : list A) : res (list B) :=
  match l with
  | [] => Ok []
  | x :: r => do y <- f x; do ys <- mapM f r; Ok (y :: ys)
  end.

(** Left fold with exceptions. *)
Fixpoint foldM {A B} (f : B -> A -> res B) (l : list A) (b : B) : res B :=
  match l with
  | [] => Ok b
  | x :: r => do b' <- f b x; foldM f r b'
  end.

(** [last l] as Python's [l[-1]]: [None] on the empty list. *)
Fixpoint last_opt {A} (l : list A) : option A :=
  match l with
  | [] => None
  | [x] => Some x
  | _ :: r => last_opt r
  end.

Fixpoint sumZ (l : list Z) : Z :=
  match l with [] => 0%Z | x :: r => (x + sumZ r)%Z end.
