(** Double precision for C88: 53 bits, to the nearest, ties to even; the exponent is not
    limited, so there is no overflow and no underflow.  [round] is Flocq's. *)
From Coq Require Import Reals ZArith.
From Flocq Require Import Core.

Definition double : R -> R := round radix2 (FLX_exp 53) ZnearestE.
