(** * Model of [Rand64::next_normal] in binary64 *)
From Coq Require Import ZArith.
From Flocq Require Import IEEE754.BinarySingleNaN.
From Verif Require Import Base RandomModel.

(** src/random/random.rs:83-89, where [ln_] and [cos_] stand for the functions of [f64].
    [TAU] is 0x401921FB54442D18 in binary64. *)
Definition rand64_normal_b64 (ln_ cos_ : b64 -> b64) (s : Z) : Z * b64 :=
  let mul := @Bmult 53 1024 b64_prec b64_emax mode_NE in
  let '(s, a) := rand64_uniform_b64 s in
  let '(s, b) := rand64_uniform_b64 s in
  (s, mul (@Bsqrt 53 1024 b64_prec b64_emax mode_NE (mul (b64_of_Z (-2) 0) (ln_ a))) (cos_ (mul (b64_of_Z 7074237752028440 (-50)) b))).
