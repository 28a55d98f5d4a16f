(** * Rounding errors of products and means along an axis, and of normalised elements (C68, C80) *)
From Coq Require Import Reals.
From Flocq Require Import IEEE754.BinarySingleNaN.
From Verif Require Import Base ShapeModel TensorModel AxisModel NumModel FloatModel InitModel MathModel Spec FloatSpec MapSpec MathSpec RoundSpec
  AxisRoundProofs.

(** The means of lines of at most 2^24 elements. *)
Theorem C68_mean_axis ln_ exp_ pow_ c (t : tensor b32) a d1 d d2 xs :
  repr t (d1 ++ d :: d2) xs -> names_axis a (length d1) (length (d1 ++ d :: d2)) ->
  Forall (fun d => 0 < d) (d1 ++ d2) -> 0 < d -> (Z.of_nat d <= 16777216)%Z ->
  exists ls rs, axis_lines d1 d d2 xs ls /\
    reduce_mean_axis (b32_ops ln_ exp_ pow_) c t (Some a) = Ok (fresh (d1 ++ d2) rs) /\
    Forall2 (fun r l => number r ->
      (Rabs (B2R r - mean (map B2R l))
       <= ((1 + u32) ^ d - 1) * mean (map (fun x => Rabs (B2R x)) l) + tiny)%R) rs ls.
Proof. exact (@c68_mean_axis ln_ exp_ pow_ c t a d1 d d2 xs). Qed.
Print Assumptions C68_mean_axis.

(** Half of 16777217 is not representable: 16777216 + 1 is rounded before it is halved. *)
Example C68_mean_axis_example ln_ exp_ pow_ :
  let n k := b32_of_Z k 0 in
  match reduce_mean_axis (b32_ops ln_ exp_ pow_) dev (fresh [2; 2] [n 16777216; n 1; n 1; n 4]%Z) (Some 0%Z) with
  | Ok t => tshape t = canon [2] /\ map B2SF (tdata t) = map B2SF [n 8388608%Z; b32_of_Z 5 (-1)]
  | _ => False
  end.
Proof. vm_compute. split; reflexivity. Qed.

(** The products of lines none of whose partial products is as small as 2^-126. *)
Theorem C80_product_axis ln_ exp_ pow_ c (t : tensor b32) a d1 d d2 xs :
  let o := b32_ops ln_ exp_ pow_ in
  repr t (d1 ++ d :: d2) xs -> names_axis a (length d1) (length (d1 ++ d :: d2)) ->
  Forall (fun d => 0 < d) (d1 ++ d2) -> 0 < d ->
  exists ls rs, axis_lines d1 d d2 xs ls /\
    reduce_product_axis c (total2 (fmul o)) t (Some a) = Ok (fresh (d1 ++ d2) rs) /\
    Forall2 (fun r l => number r ->
      (forall n x l', l = x :: l' -> 0 < n <= length l' -> (/ 2 ^ 126 < Rabs (B2R (fold_left (fmul o) (firstn n l') x)))%R) ->
      (Rabs (B2R r - rprod (map B2R l)) <= ((1 + u32) ^ (d - 1) - 1) * Rabs (rprod (map B2R l)))%R) rs ls.
Proof. exact (@c80_product_axis ln_ exp_ pow_ c t a d1 d d2 xs). Qed.
Print Assumptions C80_product_axis.

(** In the second line 2^-100 is squared to zero: the condition cannot be dropped. *)
Example C80_product_axis_example ln_ exp_ pow_ :
  let n k := b32_of_Z k 0 in
  match reduce_product_axis dev (total2 (fmul (b32_ops ln_ exp_ pow_)))
          (fresh [2; 3] [n 97; n 257; n 673; b32_of_Z 1 (-100); b32_of_Z 1 (-100); b32_of_Z 1 100]%Z) (Some 1%Z) with
  | Ok t => tshape t = canon [2] /\ map B2SF (tdata t) = map B2SF [n 16777216%Z; n 0%Z]
  | _ => False
  end.
Proof. vm_compute. split; reflexivity. Qed.

(** The elements of [normalize_unit], under the conditions of [C80_unit_interval]. *)
Theorem C80_unit_error ln_ exp_ pow_ c (t : tensor b32) ds xs mn mx :
  repr t ds xs -> Forall number xs ->
  (forall a b, In a xs -> In b xs -> is_finite (@Bminus 24 128 b32_prec b32_emax mode_NE a b) = true) ->
  least mn (map B2R xs) -> greatest mx (map B2R xs) -> (mn < mx)%R ->
  exists ys, normalize_unit (b32_ops ln_ exp_ pow_) c t = Ok (fresh ds ys) /\
    Forall2 (fun y x => number y /\
      (Rabs (B2R y - (B2R x - mn) / (mx - mn)) <= 4 * u32 * ((B2R x - mn) / (mx - mn)) + tiny)%R) ys xs.
Proof. exact (@c80_unit_error ln_ exp_ pow_ c t ds xs mn mx). Qed.
Print Assumptions C80_unit_error.

(** The third is 5592406 / 16777217; 11184811 * 2^-25 would be the number nearest to that. *)
Example C80_unit_error_example ln_ exp_ pow_ :
  let n k := b32_of_Z k 0 in
  match normalize_unit (b32_ops ln_ exp_ pow_) dev (fresh [3] [n (-1); n 16777216; n 5592405]%Z) with
  | Ok t => tshape t = canon [3] /\ map B2SF (tdata t) = map B2SF [n 0; n 1; b32_of_Z 11184812 (-25)]%Z
  | _ => False
  end.
Proof. vm_compute. split; reflexivity. Qed.
