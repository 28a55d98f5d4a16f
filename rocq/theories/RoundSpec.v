(** * Rounding errors (C68, C69): notions used in the statements *)
From Coq Require Import Reals Lra.
From Flocq Require Import IEEE754.BinarySingleNaN.
From Verif Require Import Base FloatModel.

(** A number, as opposed to an infinity or NaN. *)
Definition number (x : b32) : Prop := is_finite x = true.

(** Half the distance between 1 and the next binary32 number: 2^-24. *)
Definition u32 : R := (/ 2 ^ 24)%R.

(** Half the least positive binary32 number: 2^-150. *)
Definition tiny : R := (/ 2 ^ 150)%R.
