(** * Functions of the mathematics library (C56): a notion used in the statements *)
From Coq Require Import Reals.
From Flocq Require Import IEEE754.BinarySingleNaN.
From Verif Require Import Base FloatModel RoundSpec.

(** The number [y] is the real [r], or one of the two binary32 numbers next to it: no number separates them.  The
    number nearest to [r] is such a number (C56_faithful_nearest). *)
Definition faithful (r : R) (y : b32) : Prop :=
  number y /\ forall z : b32, number z -> ((r <= B2R z)%R -> (B2R y <= B2R z)%R) /\ ((B2R z <= r)%R -> (B2R z <= B2R y)%R).
