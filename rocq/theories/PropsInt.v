(** * C84: integers in binary32 *)
From Coq Require Import Reals.
From Flocq Require Import Core.Zaux Core.Generic_fmt Core.FLT Core.Round_NE IEEE754.BinarySingleNaN.
From Verif Require Import Base ShapeModel TensorModel AxisModel MapModel NumModel FloatModel InitModel MathModel LinalgModel
  LinalgSpec KernelModel KernelSpec Spec FloatSpec MapSpec MathSpec RoundSpec IntProofs.

(** The sum of integers is exact when the sums of the first elements stay within 2^24. *)
Theorem C84_sum ln_ exp_ pow_ c (t : tensor b32) ds xs zs :
  repr t ds xs -> xs <> [] -> Forall2 (fun x z => number x /\ B2R x = IZR z) xs zs ->
  (forall n, (Z.abs (fold_right Z.add 0%Z (firstn n zs)) <= 16777216)%Z) ->
  exists r, reduce_sum c (total2 (fadd (b32_ops ln_ exp_ pow_))) t = Ok (fresh [] [r]) /\ number r /\ B2R r = IZR (fold_right Z.add 0%Z zs).
Proof. exact (@c84_sum ln_ exp_ pow_ c t ds xs zs). Qed.
Print Assumptions C84_sum.

(** The order of C68 matters for other numbers; here 2^24 is reached and left again. *)
Example C84_sum_example ln_ exp_ pow_ :
  let n k := b32_of_Z k 0 in
  match reduce_sum dev (total2 (fadd (b32_ops ln_ exp_ pow_))) (fresh [2; 2] [n 16777215; n 1; n (-16777214); n 5]%Z) with
  | Ok t => map B2SF (tdata t) = [B2SF (n 7%Z)]
  | _ => False
  end.
Proof. vm_compute. reflexivity. Qed.

(** The product of integers is exact when the products of the first elements stay within 2^24. *)
Theorem C84_product ln_ exp_ pow_ c (t : tensor b32) ds xs zs :
  repr t ds xs -> xs <> [] -> Forall2 (fun x z => number x /\ B2R x = IZR z) xs zs ->
  (forall n, (Z.abs (fold_right Z.mul 1%Z (firstn n zs)) <= 16777216)%Z) ->
  exists r, reduce_product c (total2 (fmul (b32_ops ln_ exp_ pow_))) t = Ok (fresh [] [r]) /\ number r /\ B2R r = IZR (fold_right Z.mul 1%Z zs).
Proof. exact (@c84_product ln_ exp_ pow_ c t ds xs zs). Qed.
Print Assumptions C84_product.

Example C84_product_example ln_ exp_ pow_ :
  let n k := b32_of_Z k 0 in
  match reduce_product dev (total2 (fmul (b32_ops ln_ exp_ pow_))) (fresh [4] [n 4095; n (-4095); n 1; n (-1)]%Z) with
  | Ok t => map B2SF (tdata t) = [B2SF (n 16769025%Z)]
  | _ => False
  end.
Proof. vm_compute. reflexivity. Qed.

(** The mean of such integers is the real mean, rounded once. *)
Theorem C84_mean ln_ exp_ pow_ c (t : tensor b32) ds xs zs :
  repr t ds xs -> xs <> [] -> Forall2 (fun x z => number x /\ B2R x = IZR z) xs zs -> (Z.of_nat (length xs) <= 16777216)%Z ->
  (forall n, (Z.abs (fold_right Z.add 0%Z (firstn n zs)) <= 16777216)%Z) ->
  exists r, reduce_mean (b32_ops ln_ exp_ pow_) c t = Ok (fresh [] [r]) /\ number r /\ B2R r = round radix2 (FLT_exp (-149) 24) ZnearestE (mean (map B2R xs)).
Proof. exact (@c84_mean ln_ exp_ pow_ c t ds xs zs). Qed.
Print Assumptions C84_mean.

(** 10 / 3, rounded once. *)
Example C84_mean_example ln_ exp_ pow_ :
  let n k := b32_of_Z k 0 in
  match reduce_mean (b32_ops ln_ exp_ pow_) dev (fresh [3] [n 1; n 2; n 7]%Z) with
  | Ok t => map B2SF (tdata t) = [B2SF (b32_of_Z 13981013 (-22))]
  | _ => False
  end.
Proof. vm_compute. reflexivity. Qed.

(** The same along an axis, for each line of which it is true. *)
Theorem C84_sum_axis ln_ exp_ pow_ c (t : tensor b32) a d1 d d2 xs :
  repr t (d1 ++ d :: d2) xs -> names_axis a (length d1) (length (d1 ++ d :: d2)) ->
  Forall (fun d => 0 < d) (d1 ++ d2) -> 0 < d ->
  exists ls rs, axis_lines d1 d d2 xs ls /\
    reduce_sum_axis c (total2 (fadd (b32_ops ln_ exp_ pow_))) t (Some a) = Ok (fresh (d1 ++ d2) rs) /\
    Forall2 (fun r l => forall zs, Forall2 (fun x z => number x /\ B2R x = IZR z) l zs ->
      (forall n, (Z.abs (fold_right Z.add 0%Z (firstn n zs)) <= 16777216)%Z) ->
      number r /\ B2R r = IZR (fold_right Z.add 0%Z zs)) rs ls.
Proof. exact (@c84_sum_axis ln_ exp_ pow_ c t a d1 d d2 xs). Qed.
Print Assumptions C84_sum_axis.

Theorem C84_product_axis ln_ exp_ pow_ c (t : tensor b32) a d1 d d2 xs :
  repr t (d1 ++ d :: d2) xs -> names_axis a (length d1) (length (d1 ++ d :: d2)) ->
  Forall (fun d => 0 < d) (d1 ++ d2) -> 0 < d ->
  exists ls rs, axis_lines d1 d d2 xs ls /\
    reduce_product_axis c (total2 (fmul (b32_ops ln_ exp_ pow_))) t (Some a) = Ok (fresh (d1 ++ d2) rs) /\
    Forall2 (fun r l => forall zs, Forall2 (fun x z => number x /\ B2R x = IZR z) l zs ->
      (forall n, (Z.abs (fold_right Z.mul 1%Z (firstn n zs)) <= 16777216)%Z) ->
      number r /\ B2R r = IZR (fold_right Z.mul 1%Z zs)) rs ls.
Proof. exact (@c84_product_axis ln_ exp_ pow_ c t a d1 d d2 xs). Qed.
Print Assumptions C84_product_axis.

Theorem C84_mean_axis ln_ exp_ pow_ c (t : tensor b32) a d1 d d2 xs :
  repr t (d1 ++ d :: d2) xs -> names_axis a (length d1) (length (d1 ++ d :: d2)) ->
  Forall (fun d => 0 < d) (d1 ++ d2) -> 0 < d -> (Z.of_nat d <= 16777216)%Z ->
  exists ls rs, axis_lines d1 d d2 xs ls /\
    reduce_mean_axis (b32_ops ln_ exp_ pow_) c t (Some a) = Ok (fresh (d1 ++ d2) rs) /\
    Forall2 (fun r l => forall zs, Forall2 (fun x z => number x /\ B2R x = IZR z) l zs ->
      (forall n, (Z.abs (fold_right Z.add 0%Z (firstn n zs)) <= 16777216)%Z) ->
      number r /\ B2R r = round radix2 (FLT_exp (-149) 24) ZnearestE (mean (map B2R l))) rs ls.
Proof. exact (@c84_mean_axis ln_ exp_ pow_ c t a d1 d d2 xs). Qed.
Print Assumptions C84_mean_axis.

Example C84_axis_example ln_ exp_ pow_ :
  let n k := b32_of_Z k 0 in let o := b32_ops ln_ exp_ pow_ in
  let t := fresh [2; 2] [n 3; n 8; n 5; n (-2)]%Z in
  match reduce_sum_axis dev (total2 (fadd o)) t (Some 0%Z), reduce_product_axis dev (total2 (fmul o)) t (Some 1%Z),
        reduce_mean_axis o dev t (Some (-1)%Z) with
  | Ok s, Ok p, Ok m => map B2SF (tdata s) = map B2SF [n 8; n 6]%Z /\ map B2SF (tdata p) = map B2SF [n 24; n (-10)]%Z /\
      map B2SF (tdata m) = map B2SF [b32_of_Z 11 (-1); b32_of_Z 3 (-1)]
  | _, _, _ => False
  end.
Proof. vm_compute. repeat split; reflexivity. Qed.

(** The operators +, - and * on tensors of integers are exact wherever the result is within 2^24. *)
Theorem C84_elementwise ln_ exp_ pow_ c (ta tb : tensor b32) da db dl xs ys zs ws op f :
  repr ta da xs -> repr tb db ys -> xs <> [] -> ys <> [] ->
  (suffix db da /\ dl = da) \/ (suffix da db /\ dl = db) ->
  (op = fadd (b32_ops ln_ exp_ pow_) /\ f = Z.add) \/ (op = fsub (b32_ops ln_ exp_ pow_) /\ f = Z.sub) \/ (op = fmul (b32_ops ln_ exp_ pow_) /\ f = Z.mul) ->
  Forall2 (fun x z => number x /\ B2R x = IZR z) xs zs -> Forall2 (fun x z => number x /\ B2R x = IZR z) ys ws -> (forall a b, In a zs -> In b ws -> (Z.abs (f a b) <= 16777216)%Z) ->
  exists vs, binop_tt c ta tb (total2 op) = Ok (fresh dl vs) /\ length vs = prod dl /\
    forall idx, in_shape dl idx -> exists a b v,
      elem da zs (skipn (length dl - length da) idx) = Some a /\ elem db ws (skipn (length dl - length db) idx) = Some b /\
      elem dl vs idx = Some v /\ number v /\ B2R v = IZR (f a b).
Proof. exact (@c84_elementwise ln_ exp_ pow_ c ta tb da db dl xs ys zs ws op f). Qed.
Print Assumptions C84_elementwise.

Example C84_elementwise_example ln_ exp_ pow_ :
  let n k := b32_of_Z k 0 in let o := b32_ops ln_ exp_ pow_ in
  let t := fresh [2; 2] [n 3; n 8; n 5; n (-2)]%Z in let s := fresh [2] [n 7; n (-4)]%Z in
  match binop_tt dev t s (total2 (fsub o)), binop_tt dev s t (total2 (fmul o)) with
  | Ok d, Ok p => map B2SF (tdata d) = map B2SF [n (-4); n 12; n (-2); n 2]%Z /\
      map B2SF (tdata p) = map B2SF [n 21; n (-32); n 35; n 8]%Z
  | _, _ => False
  end.
Proof. vm_compute. split; reflexivity. Qed.

(** Products of matrices of integers, by any kernel: exact in the entries whose products sum to at
    most 2^24 in absolute value (C82_matmul_exact without a transpose). *)
Theorem C84_transpose_a ln_ exp_ pow_ K c (a b : tensor b32) ds m k n xs ys (P Q : list nat -> nat -> nat -> Z) :
  computes (b32_ops ln_ exp_ pow_) sum_of K ->
  repr a (ds ++ [k; m]) xs -> repr b (ds ++ [k; n]) ys ->
  supported (ds ++ [n; m]) -> can_alloc c (prod (ds ++ [n; m])) ->
  (forall idx p i, in_shape ds idx -> p < k -> i < m ->
     exists x, elem (ds ++ [k; m]) xs (idx ++ [p; i]) = Some x /\ number x /\ B2R x = IZR (P idx p i)) ->
  (forall idx p j, in_shape ds idx -> p < k -> j < n ->
     exists y, elem (ds ++ [k; n]) ys (idx ++ [p; j]) = Some y /\ number y /\ B2R y = IZR (Q idx p j)) ->
  exists zs, matmul_by (b32_ops ln_ exp_ pow_) K c a b TransposeA = Ok (fresh (ds ++ [n; m]) zs) /\
    forall idx i j, in_shape ds idx -> i < m -> j < n ->
      (fold_right Z.add 0 (map (fun p => Z.abs (P idx p i * Q idx p j)) (seq 0 k)) <= 2 ^ 24)%Z ->
      exists z, elem (ds ++ [m; n]) zs (idx ++ [i; j]) = Some z /\ number z /\
        B2R z = IZR (fold_right Z.add 0%Z (map (fun p => P idx p i * Q idx p j)%Z (seq 0 k))).
Proof. exact (@c84_transpose_a ln_ exp_ pow_ K c a b ds m k n xs ys P Q). Qed.
Print Assumptions C84_transpose_a.

Theorem C84_transpose_b ln_ exp_ pow_ K c (a b : tensor b32) ds m k n xs ys (P Q : list nat -> nat -> nat -> Z) :
  computes (b32_ops ln_ exp_ pow_) sum_of K ->
  repr a (ds ++ [m; k]) xs -> repr b (ds ++ [n; k]) ys ->
  supported (ds ++ [n; m]) -> can_alloc c (prod (ds ++ [n; m])) ->
  (forall idx i p, in_shape ds idx -> i < m -> p < k ->
     exists x, elem (ds ++ [m; k]) xs (idx ++ [i; p]) = Some x /\ number x /\ B2R x = IZR (P idx i p)) ->
  (forall idx j p, in_shape ds idx -> j < n -> p < k ->
     exists y, elem (ds ++ [n; k]) ys (idx ++ [j; p]) = Some y /\ number y /\ B2R y = IZR (Q idx j p)) ->
  exists zs, matmul_by (b32_ops ln_ exp_ pow_) K c a b TransposeB = Ok (fresh (ds ++ [n; m]) zs) /\
    forall idx i j, in_shape ds idx -> i < m -> j < n ->
      (fold_right Z.add 0 (map (fun p => Z.abs (P idx i p * Q idx j p)) (seq 0 k)) <= 2 ^ 24)%Z ->
      exists z, elem (ds ++ [m; n]) zs (idx ++ [i; j]) = Some z /\ number z /\
        B2R z = IZR (fold_right Z.add 0%Z (map (fun p => P idx i p * Q idx j p)%Z (seq 0 k))).
Proof. exact (@c84_transpose_b ln_ exp_ pow_ K c a b ds m k n xs ys P Q). Qed.
Print Assumptions C84_transpose_b.

Theorem C84_transpose_ab ln_ exp_ pow_ K c (a b : tensor b32) ds m k n xs ys (P Q : list nat -> nat -> nat -> Z) :
  computes (b32_ops ln_ exp_ pow_) sum_of K ->
  repr a (ds ++ [k; m]) xs -> repr b (ds ++ [n; k]) ys ->
  supported (ds ++ [n; m]) -> can_alloc c (prod (ds ++ [n; m])) ->
  (forall idx p i, in_shape ds idx -> p < k -> i < m ->
     exists x, elem (ds ++ [k; m]) xs (idx ++ [p; i]) = Some x /\ number x /\ B2R x = IZR (P idx p i)) ->
  (forall idx j p, in_shape ds idx -> j < n -> p < k ->
     exists y, elem (ds ++ [n; k]) ys (idx ++ [j; p]) = Some y /\ number y /\ B2R y = IZR (Q idx j p)) ->
  exists zs, matmul_by (b32_ops ln_ exp_ pow_) K c a b TransposeAB = Ok (fresh (ds ++ [n; m]) zs) /\
    forall idx i j, in_shape ds idx -> i < m -> j < n ->
      (fold_right Z.add 0 (map (fun p => Z.abs (P idx p i * Q idx j p)) (seq 0 k)) <= 2 ^ 24)%Z ->
      exists z, elem (ds ++ [m; n]) zs (idx ++ [i; j]) = Some z /\ number z /\
        B2R z = IZR (fold_right Z.add 0%Z (map (fun p => P idx p i * Q idx j p)%Z (seq 0 k))).
Proof. exact (@c84_transpose_ab ln_ exp_ pow_ K c a b ds m k n xs ys P Q). Qed.
Print Assumptions C84_transpose_ab.

Example C84_transpose_example ln_ exp_ pow_ :
  let n k := b32_of_Z k 0 in let o := b32_ops ln_ exp_ pow_ in let K := loop_kernel fma_from_right in
  let col := fresh [3; 1] [n 4095; n (-3); n 7]%Z in let row := fresh [1; 3] [n 4095; n 1000; n 9]%Z in
  let v := [B2SF (n (4095 * 4095 - 3000 + 63)%Z)] in
  match matmul_by o K dev col (fresh [3; 1] (tdata row)) TransposeA, matmul_by o K dev (fresh [1; 3] (tdata col)) row TransposeB,
        matmul_by o K dev col row TransposeAB with
  | Ok x, Ok y, Ok z => map B2SF (tdata x) = v /\ map B2SF (tdata y) = v /\ map B2SF (tdata z) = v
  | _, _, _ => False
  end.
Proof. vm_compute. repeat split; reflexivity. Qed.

(** The products of a matrix and vectors. *)
Theorem C84_matvec ln_ exp_ pow_ K c (a x : tensor b32) dp da m k r xs ys
    (P : list nat -> nat -> nat -> Z) (Q : list nat -> list nat -> nat -> nat -> Z) :
  computes (b32_ops ln_ exp_ pow_) sum_of K -> repr a (da ++ [m; k]) xs -> repr x (dp ++ da ++ [r; k]) ys ->
  0 < prod (da ++ [m; k]) -> 0 < prod (dp ++ da ++ [r; k]) -> supported (dp ++ da ++ [r; m]) ->
  (forall ia j p, in_shape da ia -> j < m -> p < k ->
     exists v, elem (da ++ [m; k]) xs (ia ++ [j; p]) = Some v /\ number v /\ B2R v = IZR (P ia j p)) ->
  (forall ip ia i p, in_shape dp ip -> in_shape da ia -> i < r -> p < k ->
     exists v, elem (dp ++ da ++ [r; k]) ys (ip ++ ia ++ [i; p]) = Some v /\ number v /\ B2R v = IZR (Q ip ia i p)) ->
  exists zs, matvec_by (b32_ops ln_ exp_ pow_) K c a x TNone = Ok (fresh (dp ++ da ++ [r; m]) zs) /\
    forall ip ia i j, in_shape dp ip -> in_shape da ia -> i < r -> j < m ->
      (fold_right Z.add 0 (map (fun p => Z.abs (Q ip ia i p * P ia j p)) (seq 0 k)) <= 2 ^ 24)%Z ->
      exists z, elem (dp ++ da ++ [r; m]) zs (ip ++ ia ++ [i; j]) = Some z /\ number z /\
        B2R z = IZR (fold_right Z.add 0%Z (map (fun p => Q ip ia i p * P ia j p)%Z (seq 0 k))).
Proof. exact (@c84_matvec ln_ exp_ pow_ K c a x dp da m k r xs ys P Q). Qed.
Print Assumptions C84_matvec.

Theorem C84_matvec_transpose ln_ exp_ pow_ K c (a x : tensor b32) dp da m k r xs ys
    (P : list nat -> nat -> nat -> Z) (Q : list nat -> list nat -> nat -> nat -> Z) :
  computes (b32_ops ln_ exp_ pow_) sum_of K -> repr a (da ++ [k; m]) xs -> repr x (dp ++ da ++ [r; k]) ys ->
  0 < prod (da ++ [k; m]) -> 0 < prod (dp ++ da ++ [r; k]) -> supported (dp ++ da ++ [r; m]) ->
  (forall ia p j, in_shape da ia -> p < k -> j < m ->
     exists v, elem (da ++ [k; m]) xs (ia ++ [p; j]) = Some v /\ number v /\ B2R v = IZR (P ia p j)) ->
  (forall ip ia i p, in_shape dp ip -> in_shape da ia -> i < r -> p < k ->
     exists v, elem (dp ++ da ++ [r; k]) ys (ip ++ ia ++ [i; p]) = Some v /\ number v /\ B2R v = IZR (Q ip ia i p)) ->
  exists zs, matvec_by (b32_ops ln_ exp_ pow_) K c a x TransposeA = Ok (fresh (dp ++ da ++ [r; m]) zs) /\
    forall ip ia i j, in_shape dp ip -> in_shape da ia -> i < r -> j < m ->
      (fold_right Z.add 0 (map (fun p => Z.abs (Q ip ia i p * P ia p j)) (seq 0 k)) <= 2 ^ 24)%Z ->
      exists z, elem (dp ++ da ++ [r; m]) zs (ip ++ ia ++ [i; j]) = Some z /\ number z /\
        B2R z = IZR (fold_right Z.add 0%Z (map (fun p => Q ip ia i p * P ia p j)%Z (seq 0 k))).
Proof. exact (@c84_matvec_transpose ln_ exp_ pow_ K c a x dp da m k r xs ys P Q). Qed.
Print Assumptions C84_matvec_transpose.

Example C84_matvec_example ln_ exp_ pow_ :
  let n k := b32_of_Z k 0 in let o := b32_ops ln_ exp_ pow_ in let K := loop_kernel fma_from_right in
  let a := fresh [2; 2] [n 1; n 2; n 3; n 4]%Z in let x := fresh [1; 2] [n 1000; n (-1)]%Z in
  match matvec_by o K dev a x TNone, matvec_by o K dev a x TransposeA with
  | Ok y, Ok z => map B2SF (tdata y) = map B2SF [n 998; n 2996]%Z /\ map B2SF (tdata z) = map B2SF [n 997; n 1996]%Z
  | _, _ => False
  end.
Proof. vm_compute. split; reflexivity. Qed.
