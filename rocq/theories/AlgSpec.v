(** * Algebra of whole tensors (C72, C73): notions used in the statements *)
From Verif Require Import Base ShapeModel TensorModel AxisModel MapModel NumModel Spec.

(** Operations on elements that do not panic. *)
Definition ok1 {T V} (f : T -> V) : T -> outcome V := fun x => Ok (f x).
Definition ok2 {T U V} (f : T -> U -> V) : T -> U -> outcome V := fun x y => Ok (f x y).
