(** * Properties of the reductions and of normalize_unit (C50-C52): notions used in the statements *)
From Coq Require Import Reals Lra.
From Verif Require Import Base ShapeModel TensorModel AxisModel MapModel NumModel FloatModel InitModel MathModel Spec FloatSpec MapSpec.

(** ** C51 *)

(** An operation that does not panic. *)
Definition total2 {T} (f : T -> T -> T) : T -> T -> outcome T := fun x y => Ok (f x y).

(** ** C52 *)

(** The values are in the range of finite floats, as in every [f32] tensor without
    infinities and NaN. *)
Definition f32_range (x : R) : Prop := (- IZR (16777215 * 2 ^ 104) <= x <= IZR (16777215 * 2 ^ 104))%R.
