(** * C80: normalised values, samples, products and norms in binary32 *)
From Coq Require Import Reals.
From Flocq Require Import IEEE754.BinarySingleNaN.
From Verif Require Import Base ShapeModel TensorModel NumModel FloatModel InitModel MathModel Spec FloatSpec MathSpec RoundSpec
  RangeProofs.

(** [normalize_unit] of numbers whose differences do not overflow and which are not all
    equal: the results are numbers in [0, 1], in the same order, and the least elements
    become 0 and the greatest 1. *)
Theorem C80_unit_interval ln_ exp_ pow_ c (t : tensor b32) ds xs :
  repr t ds xs -> Forall number xs ->
  (forall a b, In a xs -> In b xs -> is_finite (@Bminus 24 128 b32_prec b32_emax mode_NE a b) = true) ->
  (exists a b, In a xs /\ In b xs /\ (B2R a < B2R b)%R) ->
  exists ys, normalize_unit (b32_ops ln_ exp_ pow_) c t = Ok (fresh ds ys) /\ length ys = length xs /\
    Forall (fun y => number y /\ (0 <= B2R y <= 1)%R) ys /\
    (forall i j a b u v, nth_error xs i = Some a -> nth_error xs j = Some b ->
       nth_error ys i = Some u -> nth_error ys j = Some v -> (B2R a <= B2R b)%R -> (B2R u <= B2R v)%R) /\
    (forall i a u, nth_error xs i = Some a -> nth_error ys i = Some u ->
       (least (B2R a) (map B2R xs) -> B2R u = 0%R) /\ (greatest (B2R a) (map B2R xs) -> B2R u = 1%R)).
Proof. exact (@c80_unit_interval ln_ exp_ pow_ c t ds xs). Qed.
Print Assumptions C80_unit_interval.

(** Over the reals the order is strict (C52); in binary32 different elements may become
    equal: 0 and 2^-149 beside 4. *)
Theorem C80_unit_order_refuted ln_ exp_ pow_ :
  exists xs ys, normalize_unit (b32_ops ln_ exp_ pow_) dev (fresh [3] xs) = Ok (fresh [3] ys) /\
    map B2SF xs = map B2SF [b32_of_Z 0 0; b32_of_Z 1 (-149); b32_of_Z 4 0] /\
    map B2SF ys = map B2SF [b32_of_Z 0 0; b32_of_Z 0 0; b32_of_Z 1 0].
Proof. exact (@c80_unit_order_refuted ln_ exp_ pow_). Qed.
Print Assumptions C80_unit_order_refuted.

Example C80_unit_example ln_ exp_ pow_ :
  let n k := b32_of_Z k 0 in
  match normalize_unit (b32_ops ln_ exp_ pow_) dev (fresh [2; 2] [n 3; n (-1); n 7; n 1]%Z) with
  | Ok t => tshape t = canon [2; 2] /\ map B2SF (tdata t) = map B2SF [b32_of_Z 1 (-1); b32_of_Z 0 0; b32_of_Z 1 0; b32_of_Z 1 (-2)]
  | _ => False
  end.
Proof. vm_compute. split; reflexivity. Qed.

(** The samples of [linspace] do not decrease and do not lie below the start. *)
Theorem C80_linspace_order ln_ exp_ pow_ c (s e : tensor b32) ds xs ys len :
  repr s ds xs -> repr e ds ys -> 0 < prod ds -> length ds < 5 -> supported (len :: ds) -> 0 < len ->
  (forall i x y, nth_error xs i = Some x -> nth_error ys i = Some y ->
     Bleb x y = true /\ is_finite x = true /\
     is_finite (@Bminus 24 128 b32_prec b32_emax mode_NE y x) = true) ->
  exists zs, linspace (b32_ops ln_ exp_ pow_) c s e len = Ok (fresh (len :: ds) zs) /\
    forall idx x k k' z z', elem ds xs idx = Some x -> k <= k' -> k' < len ->
      elem (len :: ds) zs (k :: idx) = Some z -> elem (len :: ds) zs (k' :: idx) = Some z' ->
      Bleb z z' = true /\ Bleb x z = true.
Proof. exact (@c80_linspace_order ln_ exp_ pow_ c s e ds xs ys len). Qed.
Print Assumptions C80_linspace_order.

(** The last sample may lie above the end: from 0 to 16777215 with 26 samples it is
    16777216.  From 0 to the greatest number it is infinity. *)
Theorem C80_linspace_end_refuted ln_ exp_ pow_ :
  let o := b32_ops ln_ exp_ pow_ in
  (exists zs z, linspace o dev (fresh [] [fzero o]) (fresh [] [b32_of_Z 16777215 0]) 26 = Ok (fresh [26] zs) /\
     nth_error zs 25 = Some z /\ B2SF z = B2SF (b32_of_Z 16777216 0)) /\
  (exists zs, linspace o dev (fresh [] [fzero o]) (fresh [] [fmax_value o]) 26 = Ok (fresh [26] zs) /\
     nth_error zs 25 = Some (B754_infinity false)).
Proof. exact (@c80_linspace_end_refuted ln_ exp_ pow_). Qed.
Print Assumptions C80_linspace_end_refuted.

(** A sample that is a number differs from [x + (y - x) k / (len - 1)] by little more than
    its own rounding error and three rounding errors of the distance from the start. *)
Theorem C80_linspace_error ln_ exp_ pow_ c (s e : tensor b32) ds xs ys len :
  repr s ds xs -> repr e ds ys -> 0 < prod ds -> length ds < 5 -> supported (len :: ds) ->
  2 <= len -> (Z.of_nat len <= 16777217)%Z ->
  (forall i x y, nth_error xs i = Some x -> nth_error ys i = Some y -> Bleb x y = true) ->
  exists zs, linspace (b32_ops ln_ exp_ pow_) c s e len = Ok (fresh (len :: ds) zs) /\
    forall idx x y k z, elem ds xs idx = Some x -> elem ds ys idx = Some y -> k < len ->
      elem (len :: ds) zs (k :: idx) = Some z -> number z ->
      let w := ((B2R y - B2R x) * INR k / INR (len - 1))%R in
      (Rabs (B2R z - (B2R x + w)) <= u32 * Rabs (B2R x + w)
         + (1 + u32) * (((1 + u32) ^ 3 - 1) * Rabs w + (INR k * (1 + u32) + 1) * tiny))%R.
Proof. exact (@c80_linspace_error ln_ exp_ pow_ c s e ds xs ys len). Qed.
Print Assumptions C80_linspace_error.

(** One third, from the start 0 and the end 1, is rounded upwards; the samples ascend. *)
Example C80_linspace_example ln_ exp_ pow_ :
  match linspace (b32_ops ln_ exp_ pow_) dev (fresh [] [b32_of_Z 0 0]) (fresh [] [b32_of_Z 1 0]) 4 with
  | Ok t => map B2SF (tdata t) = map B2SF [b32_of_Z 0 0; b32_of_Z 11184811 (-25); b32_of_Z 11184811 (-24); b32_of_Z 1 0]
  | _ => False
  end.
Proof. vm_compute. reflexivity. Qed.

(** A product none of whose partial results is as small as 2^-126. *)
Theorem C80_product ln_ exp_ pow_ c (t : tensor b32) ds x xs r :
  let o := b32_ops ln_ exp_ pow_ in
  repr t ds (x :: xs) -> reduce_product c (total2 (fmul o)) t = Ok (fresh [] [r]) -> number r ->
  (forall n, 0 < n <= length xs -> (/ 2 ^ 126 < Rabs (B2R (fold_left (fmul o) (firstn n xs) x)))%R) ->
  (Rabs (B2R r - rprod (map B2R (x :: xs)))
   <= ((1 + u32) ^ length xs - 1) * Rabs (rprod (map B2R (x :: xs))))%R.
Proof. exact (@c80_product ln_ exp_ pow_ c t ds x xs r). Qed.
Print Assumptions C80_product.

(** 16777217 = 97 * 257 * 673 is not a binary32 number. *)
Example C80_product_example ln_ exp_ pow_ :
  let n k := b32_of_Z k 0 in
  match reduce_product dev (total2 (fmul (b32_ops ln_ exp_ pow_))) (fresh [3] [n 97; n 257; n 673]%Z) with
  | Ok t => map B2SF (tdata t) = [B2SF (n 16777216%Z)]
  | _ => False
  end /\ (97 * 257 * 673 = 16777217)%Z.
Proof. vm_compute. split; reflexivity. Qed.

(** The square root of the sum of the squares, if it is a number. *)
Theorem C80_hypot ln_ exp_ pow_ c (t : tensor b32) ds xs r :
  repr t ds xs -> reduce_hypot (b32_ops ln_ exp_ pow_) c t = Ok (fresh [] [r]) -> number r ->
  (Rabs (B2R r - sqrt (rsum (map (fun x => B2R x * B2R x)%R xs)))
   <= ((1 + u32) ^ S (length xs) - 1) * sqrt (rsum (map (fun x => B2R x * B2R x)%R xs))
      + (1 + u32) * sqrt (INR (length xs) * (1 + u32) ^ length xs * tiny))%R.
Proof. exact (@c80_hypot ln_ exp_ pow_ c t ds xs r). Qed.
Print Assumptions C80_hypot.

Example C80_hypot_example ln_ exp_ pow_ :
  let n k := b32_of_Z k 0 in
  match reduce_hypot (b32_ops ln_ exp_ pow_) dev (fresh [2; 2] [n 1; n 2; n 2; n 4]%Z) with
  | Ok t => map B2SF (tdata t) = [B2SF (n 5%Z)]
  | _ => False
  end.
Proof. vm_compute. reflexivity. Qed.
