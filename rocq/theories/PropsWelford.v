(** * C83: the error of variances and deviations in binary32 *)
From Coq Require Import Reals.
From Flocq Require Import IEEE754.BinarySingleNaN.
From Verif Require Import Base ShapeModel TensorModel AxisModel NumModel FloatModel InitModel MathModel Spec FloatSpec MapSpec MathSpec RoundSpec
  WelfordProofs.

(** At most 2^23 elements, of magnitude at most M: no overflow occurs, and the error is at most
    100 n u M^2, where u = 2^-24. *)
Theorem C83_variance ln_ exp_ pow_ c (t : tensor b32) ds xs M :
  repr t ds xs -> xs <> [] -> (Z.of_nat (length xs) <= 8388608)%Z -> (/ 2 ^ 60 <= M <= 2 ^ 48)%R ->
  Forall (fun x => number x /\ (Rabs (B2R x) <= M)%R) xs ->
  exists v, reduce_variance (b32_ops ln_ exp_ pow_) c t = Ok (fresh [] [v]) /\ number v /\
    (Rabs (B2R v - variance (map B2R xs)) <= 100 * INR (length xs) * (u32 * (M * M)))%R.
Proof. exact (@c83_variance ln_ exp_ pow_ c t ds xs M). Qed.
Print Assumptions C83_variance.

(** The variance of 1, 2 and 4 is 14/9; 13048947 * 2^-23 is returned, the number above the nearest one. *)
Example C83_variance_example ln_ exp_ pow_ :
  let n k := b32_of_Z k 0 in
  match reduce_variance (b32_ops ln_ exp_ pow_) dev (fresh [3] [n 1; n 2; n 4]%Z) with
  | Ok t => tshape t = canon [] /\ map B2SF (tdata t) = map B2SF [b32_of_Z 13048947 (-23)]
  | _ => False
  end.
Proof. vm_compute. split; reflexivity. Qed.

Theorem C83_std ln_ exp_ pow_ c (t : tensor b32) ds xs M :
  repr t ds xs -> xs <> [] -> (Z.of_nat (length xs) <= 8388608)%Z -> (/ 2 ^ 60 <= M <= 2 ^ 48)%R ->
  Forall (fun x => number x /\ (Rabs (B2R x) <= M)%R) xs ->
  exists v, reduce_std (b32_ops ln_ exp_ pow_) c t = Ok (fresh [] [v]) /\ number v /\
    (Rabs (B2R v - sqrt (variance (map B2R xs))) <= 11 * sqrt (INR (length xs) * u32) * M)%R.
Proof. exact (@c83_std ln_ exp_ pow_ c t ds xs M). Qed.
Print Assumptions C83_std.

(** The deviation of 1, 2, 3 and 6 is the square root of 7/2. *)
Example C83_std_example ln_ exp_ pow_ :
  let n k := b32_of_Z k 0 in
  match reduce_std (b32_ops ln_ exp_ pow_) dev (fresh [2; 2] [n 1; n 2; n 3; n 6]%Z) with
  | Ok t => tshape t = canon [] /\ map B2SF (tdata t) = map B2SF [b32_of_Z 15693649 (-23)]
  | _ => False
  end.
Proof. vm_compute. split; reflexivity. Qed.

Theorem C83_axis ln_ exp_ pow_ c (t : tensor b32) a d1 d d2 xs M :
  let o := b32_ops ln_ exp_ pow_ in
  repr t (d1 ++ d :: d2) xs -> names_axis a (length d1) (length (d1 ++ d :: d2)) ->
  Forall (fun d => 0 < d) (d1 ++ d2) -> 0 < d -> (Z.of_nat d <= 8388608)%Z -> (/ 2 ^ 60 <= M <= 2 ^ 48)%R ->
  Forall (fun x => number x /\ (Rabs (B2R x) <= M)%R) xs ->
  exists ls vs ss, axis_lines d1 d d2 xs ls /\
    reduce_variance_axis o c t (Some a) = Ok (fresh (d1 ++ d2) vs) /\
    reduce_std_axis o c t (Some a) = Ok (fresh (d1 ++ d2) ss) /\
    Forall2 (fun v l => number v /\
      (Rabs (B2R v - variance (map B2R l)) <= 100 * INR d * (u32 * (M * M)))%R) vs ls /\
    Forall2 (fun s l => number s /\
      (Rabs (B2R s - sqrt (variance (map B2R l))) <= 11 * sqrt (INR d * u32) * M)%R) ss ls.
Proof. exact (@c83_axis ln_ exp_ pow_ c t a d1 d d2 xs M). Qed.
Print Assumptions C83_axis.

(** The columns 1, 2, 4 and 0, 0, 3. *)
Example C83_axis_example ln_ exp_ pow_ :
  let n k := b32_of_Z k 0 in
  match reduce_variance_axis (b32_ops ln_ exp_ pow_) dev (fresh [3; 2] [n 1; n 0; n 2; n 0; n 4; n 3]%Z) (Some 0%Z) with
  | Ok t => tshape t = canon [2] /\ map B2SF (tdata t) = map B2SF [b32_of_Z 13048947 (-23); n 2%Z]
  | _ => False
  end.
Proof. vm_compute. split; reflexivity. Qed.

(** A bound relative to the variance itself does not hold: the variance computed for two different
    numbers may be 0, or twice the real one. *)
Theorem C83_relative_refuted ln_ exp_ pow_ c :
  let n k := b32_of_Z k 0 in
  (exists v, reduce_variance (b32_ops ln_ exp_ pow_) c (fresh [2] [n 16777218; n 16777220]%Z) = Ok (fresh [] [v]) /\
     B2R v = 0%R /\ variance (map B2R [n 16777218; n 16777220]%Z) = 1%R) /\
  (exists v, reduce_variance (b32_ops ln_ exp_ pow_) c (fresh [2] [n 16777216; n 16777218]%Z) = Ok (fresh [] [v]) /\
     B2R v = 2%R /\ variance (map B2R [n 16777216; n 16777218]%Z) = 1%R).
Proof. exact (@c83_relative_refuted ln_ exp_ pow_ c). Qed.
Print Assumptions C83_relative_refuted.
