(** * The bins of histograms in binary32 (C53) *)
From Coq Require Import Reals.
From Flocq Require Import Core.Raux IEEE754.BinarySingleNaN.
From Verif Require Import Base ShapeModel TensorModel FloatModel MathModel Spec FloatSpec HistProofs.

(** [floor() as usize]: negative numbers and NaN give 0, large numbers the largest [usize]. *)
Theorem C53_floor_b32 (x : b32) :
  (is_finite x = true -> b32_floor x = Z.to_nat (Z.min (2 ^ 64 - 1) (Zfloor (B2R x)))) /\
  (x = B754_infinity false -> b32_floor x = Z.to_nat (2 ^ 64 - 1)) /\
  (x = B754_infinity true \/ x = B754_nan -> b32_floor x = 0).
Proof. exact (c53_floor_b32 x). Qed.
Print Assumptions C53_floor_b32.

(** For finite samples: every sample is counted in one bin; greater samples are not counted in
    lower bins; and unless the difference of the extremes overflows, or is so small that the
    width of a bin underflows, the exact bin of width [w = (mx - mn) / n] contains the sample
    up to a relative error of 2^-22 in its ends. *)
Theorem C53_bins_b32 ln_ exp_ pow_ c (t : tensor b32) xs n :
  repr t [length xs] xs -> xs <> [] -> Forall (fun y => is_finite y = true) xs -> 0 < n -> supported [n + 1] ->
  exists bs edges,
    histogram (b32_ops ln_ exp_ pow_) c t (Some n) =
      Ok (fresh [n] (map (fun k => b32_of_Z (Z.min (Z.of_nat (count_occ Nat.eq_dec bs k)) (2 ^ 24)) 0) (seq 0 n)),
          fresh [n + 1] edges) /\
    length edges = n + 1 /\ length bs = length xs /\ Forall (fun b => b < n) bs /\
    (forall i j x y a b, nth_error xs i = Some x -> nth_error bs i = Some a ->
       nth_error xs j = Some y -> nth_error bs j = Some b -> (B2R x <= B2R y)%R -> a <= b) /\
    (forall mn mx, least mn (map B2R xs) -> greatest mx (map B2R xs) -> (Z.of_nat n <= 2 ^ 24)%Z ->
       (mx - mn <= IZR (16777215 * 2 ^ 104))%R -> (INR n * / 2 ^ 126 <= mx - mn)%R ->
       let w := ((mx - mn) / INR n)%R in
       Forall2 (fun x b => (INR b * w * (1 - / 2 ^ 22) <= B2R x - mn)%R /\
         (b + 1 < n -> (B2R x - mn < (INR b + 1) * w * (1 + / 2 ^ 22))%R)) xs bs).
Proof. exact (@c53_bins_b32 ln_ exp_ pow_ c t xs n). Qed.
Print Assumptions C53_bins_b32.

(** When the difference overflows all samples are counted in the first bin, and the edges are
    not numbers: the greatest number and its opposite in two bins. *)
Theorem C53_overflow_b32_refuted ln_ exp_ pow_ :
  let o := b32_ops ln_ exp_ pow_ in
  let big := b32_of_Z 16777215 104 in
  exists counts edges,
    histogram o dev (fresh [2] [Bopp big; big]) (Some 2) = Ok (fresh [2] counts, fresh [3] edges) /\
    map B2SF counts = map B2SF [b32_of_Z 2 0; b32_of_Z 0 0] /\
    map B2SF edges = [SpecFloat.S754_nan; SpecFloat.S754_infinity false; SpecFloat.S754_infinity false].
Proof. exact (@c53_overflow_b32_refuted ln_ exp_ pow_). Qed.
Print Assumptions C53_overflow_b32_refuted.

Example C53_floor_example :
  map b32_floor [b32_of_Z 7 (-1); b32_of_Z (-7) (-1); b32_of_Z 3 0; B754_nan; B754_infinity true] = [3; 0; 3; 0; 0].
Proof. vm_compute. reflexivity. Qed.
