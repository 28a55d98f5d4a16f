(** * Floating-point operations

    The code that computes with [f32] is modelled over an arbitrary set of operations
    [fops F].  Two instances are used: exact real arithmetic ([R_ops]), for the
    properties that hold up to rounding, and IEEE 754 binary32 with round to nearest
    even ([b32_ops]), for the properties and findings that depend on rounding.  In
    [b32_ops] all NaNs are identified (payloads are not modelled), and the functions
    whose results depend on the platform's mathematics library (ln, exp, powf) are
    parameters. *)
From Coq Require Import Reals.
From Flocq Require Import IEEE754.BinarySingleNaN.
From Verif Require Import Base.

Record fops (F : Type) := mkFops {
  fzero : F;
  fone : F;
  fadd : F -> F -> F;
  fsub : F -> F -> F;
  fmul : F -> F -> F;
  fdiv : F -> F -> F;
  fsqrt : F -> F;
  fle : F -> F -> bool;
  flt : F -> F -> bool;
  feq : F -> F -> bool;
  (** [x as f32] for a [usize] x *)
  fof : nat -> F;
  (** [x.floor() as usize] *)
  ffloor : F -> nat;
  fln : F -> F;
  fexp : F -> F;
  fpow : F -> F -> F;
  (** [f32::MAX], [f32::MIN], [f32::EPSILON] *)
  fmax_value : F;
  fmin_value : F;
  fepsilon : F
}.
Arguments mkFops {F}.
Arguments fzero {F}.
Arguments fone {F}.
Arguments fadd {F}.
Arguments fsub {F}.
Arguments fmul {F}.
Arguments fdiv {F}.
Arguments fsqrt {F}.
Arguments fle {F}.
Arguments flt {F}.
Arguments feq {F}.
Arguments fof {F}.
Arguments ffloor {F}.
Arguments fln {F}.
Arguments fexp {F}.
Arguments fpow {F}.
Arguments fmax_value {F}.
Arguments fmin_value {F}.
Arguments fepsilon {F}.

(** [f32::min] and [f32::max] (for operands that are not NaN; with NaN operands Rust
    returns the other operand, which is what the two comparisons below give when the
    accumulated value is NaN or the new one is). *)
Definition fmin {F} (o : fops F) (a b : F) : F :=
  if feq o a a then if flt o b a then b else a else b.
Definition fmax {F} (o : fops F) (a b : F) : F :=
  if feq o a a then if flt o a b then b else a else b.

(** Exact real arithmetic.  [floor() as usize] clamps at zero; the upper clamp at
    2^64-1 is kept. *)
Definition R_ops : fops R := mkFops 0%R 1%R Rplus Rminus Rmult Rdiv sqrt
  (fun x y => if Rle_dec x y then true else false)
  (fun x y => if Rlt_dec x y then true else false)
  (fun x y => if Req_EM_T x y then true else false)
  INR
  (fun x => Z.to_nat (Z.min (two64 - 1) (Int_part x)))
  ln exp Rpower
  (IZR (16777215 * 2 ^ 104)) (- IZR (16777215 * 2 ^ 104))%R (/ IZR (2 ^ 23))%R.

(** binary32. *)
Definition b32 := binary_float 24 128.
Definition b32_prec : FLX.Prec_gt_0 24 := eq_refl.
Definition b32_emax : Prec_lt_emax 24 128 := eq_refl.
Definition b32_of_Z (m e : Z) : b32 := @binary_normalize 24 128 b32_prec b32_emax mode_NE m e false.
Definition b32_floor (x : b32) : nat :=
  match @Bnearbyint 24 128 b32_emax mode_DN x with
  | B754_zero _ => 0
  | B754_infinity s => if s then 0 else Z.to_nat (two64 - 1)
  | B754_nan => 0
  | y => Z.to_nat (Z.min (two64 - 1) (Btrunc y))
  end.
Definition b32_ops (ln_ exp_ : b32 -> b32) (pow_ : b32 -> b32 -> b32) : fops b32 := mkFops
  (b32_of_Z 0 0) (b32_of_Z 1 0)
  (@Bplus 24 128 b32_prec b32_emax mode_NE)
  (@Bminus 24 128 b32_prec b32_emax mode_NE)
  (@Bmult 24 128 b32_prec b32_emax mode_NE)
  (@Bdiv 24 128 b32_prec b32_emax mode_NE)
  (@Bsqrt 24 128 b32_prec b32_emax mode_NE)
  (@Bleb 24 128) (@Bltb 24 128) (@Beqb 24 128)
  (fun n => b32_of_Z (Z.of_nat n) 0)
  b32_floor ln_ exp_ pow_
  (b32_of_Z 16777215 104) (b32_of_Z (-16777215) 104) (b32_of_Z 1 (-23)).
