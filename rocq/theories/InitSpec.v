(** * Properties of eye, tri, tril, triu, diagflat, meshgrid, linspace, arange, one_hot (C41-C45): notions used in the statements *)
From Coq Require Import Reals Lra.
From Flocq Require Import IEEE754.BinarySingleNaN.
From Verif Require Import Base ShapeModel TensorModel AxisModel MapModel FloatModel InitModel Spec.

(** ** C44 *)

(** Whatever the arithmetic: if the ascending loop ends, it has produced the start and
    its successors under adding the step, all strictly before the end, and stopped at
    the first one that is not. *)
Fixpoint iterate {A} (f : A -> A) (k : nat) (x : A) : A :=
  match k with O => x | S k => iterate f k (f x) end.
