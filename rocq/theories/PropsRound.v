(** * Rounding in binary32 (C68-C70) *)
From Coq Require Import Reals Lra.
From Flocq Require Import IEEE754.BinarySingleNaN.
From Verif Require Import Base ShapeModel TensorModel AxisModel MapModel NumModel FloatModel InitModel MathModel LinalgModel
  Spec FloatSpec MapSpec MathSpec LinalgSpec.
From Verif Require Import RoundSpec RoundProofs.

(** ** C68

    The functions of the mathematics library ([ln_], [exp_], [pow_]) play no role. *)

(** A sum of [n] elements that does not overflow differs from the exact sum by at most
    ((1+u)^(n-1) - 1) times the sum of the magnitudes. *)
Theorem C68_sum ln_ exp_ pow_ c (t : tensor b32) ds xs r :
  repr t ds xs -> reduce_sum c (total2 (fadd (b32_ops ln_ exp_ pow_))) t = Ok (fresh [] [r]) -> number r ->
  (Rabs (B2R r - rsum (map B2R xs))
   <= ((1 + u32) ^ (length xs - 1) - 1) * rsum (map (fun x => Rabs (B2R x)) xs))%R.
Proof. exact (@c68_sum ln_ exp_ pow_ c t ds xs r). Qed.
Print Assumptions C68_sum.

Theorem C68_sum_axis ln_ exp_ pow_ c (t : tensor b32) a d1 d d2 xs :
  repr t (d1 ++ d :: d2) xs -> names_axis a (length d1) (length (d1 ++ d :: d2)) ->
  Forall (fun d => 0 < d) (d1 ++ d2) -> 0 < d ->
  exists ls rs, axis_lines d1 d d2 xs ls /\
    reduce_sum_axis c (total2 (fadd (b32_ops ln_ exp_ pow_))) t (Some a) = Ok (fresh (d1 ++ d2) rs) /\
    Forall2 (fun r l => number r ->
      (Rabs (B2R r - rsum (map B2R l))
       <= ((1 + u32) ^ (d - 1) - 1) * rsum (map (fun x => Rabs (B2R x)) l))%R) rs ls.
Proof. exact (@c68_sum_axis ln_ exp_ pow_ c t a d1 d d2 xs). Qed.
Print Assumptions C68_sum_axis.

(** The factor is the usual n u / (1 - n u). *)
Theorem C68_gamma n : (INR n * u32 < 1)%R -> ((1 + u32) ^ n - 1 <= INR n * u32 / (1 - INR n * u32))%R.
Proof. exact (@c68_gamma n). Qed.
Print Assumptions C68_gamma.

(** Integers whose partial sums stay within 2^24 are summed exactly. *)
Theorem C68_sum_exact ln_ exp_ pow_ c (t : tensor b32) ds zs z0 :
  repr t ds (map (fun z => b32_of_Z z 0) (z0 :: zs)) ->
  (forall n, (Z.abs (fold_left Z.add (firstn n zs) z0) <= 16777216)%Z) ->
  Forall (fun z => (Z.abs z <= 16777216)%Z) zs ->
  reduce_sum c (total2 (fadd (b32_ops ln_ exp_ pow_))) t = Ok (fresh [] [b32_of_Z (fold_left Z.add zs z0) 0]).
Proof. exact (@c68_sum_exact ln_ exp_ pow_ c t ds zs z0). Qed.
Print Assumptions C68_sum_exact.

(** The mean of at most 2^24 elements. *)
Theorem C68_mean ln_ exp_ pow_ c (t : tensor b32) ds xs r :
  repr t ds xs -> xs <> [] -> (Z.of_nat (length xs) <= 16777216)%Z ->
  reduce_mean (b32_ops ln_ exp_ pow_) c t = Ok (fresh [] [r]) -> number r ->
  (Rabs (B2R r - mean (map B2R xs))
   <= ((1 + u32) ^ length xs - 1) * mean (map (fun x => Rabs (B2R x)) xs) + tiny)%R.
Proof. exact (@c68_mean ln_ exp_ pow_ c t ds xs r). Qed.
Print Assumptions C68_mean.

(** The rounded mean need not lie between the least and the greatest element: three
    times 15866414 has a mean below 15866414. *)
Theorem C68_mean_range_refuted ln_ exp_ pow_ :
  let o := b32_ops ln_ exp_ pow_ in
  exists (x m : b32), number x /\ reduce_mean o dev (fresh [3] [x; x; x]) = Ok (fresh [] [m]) /\
    number m /\ flt o m x = true.
Proof. exact (@c68_mean_range_refuted ln_ exp_ pow_). Qed.
Print Assumptions C68_mean_range_refuted.

(** The elements of a matrix product, with the additions in the order of
    [blas_naive::sgemm]. *)
Theorem C68_matmul ln_ exp_ pow_ c (a b : tensor b32) ds m k n xs ys :
  repr a (ds ++ [m; k]) xs -> repr b (ds ++ [k; n]) ys ->
  supported (ds ++ [n; m]) -> can_alloc c (prod (ds ++ [n; m])) ->
  exists zs, matmul (b32_ops ln_ exp_ pow_) c a b = Ok (fresh (ds ++ [n; m]) zs) /\
    forall (A B : list nat -> nat -> nat -> b32),
      (forall idx i p, in_shape ds idx -> i < m -> p < k -> elem (ds ++ [m; k]) xs (idx ++ [i; p]) = Some (A idx i p)) ->
      (forall idx p j, in_shape ds idx -> p < k -> j < n -> elem (ds ++ [k; n]) ys (idx ++ [p; j]) = Some (B idx p j)) ->
      forall idx i j z, in_shape ds idx -> i < m -> j < n ->
        elem (ds ++ [m; n]) zs (idx ++ [i; j]) = Some z -> number z ->
        (Rabs (B2R z - rsum (map (fun p => B2R (A idx i p) * B2R (B idx p j)) (seq 0 k)))
         <= ((1 + u32) ^ k - 1) * rsum (map (fun p => Rabs (B2R (A idx i p) * B2R (B idx p j))) (seq 0 k))
            + INR k * (1 + u32) ^ k * tiny)%R.
Proof. exact (@c68_matmul ln_ exp_ pow_ c a b ds m k n xs ys). Qed.
Print Assumptions C68_matmul.

Theorem C68_matvec ln_ exp_ pow_ c (a x : tensor b32) dp da m k r xs ys :
  repr a (da ++ [m; k]) xs -> repr x (dp ++ da ++ [r; k]) ys ->
  0 < prod (da ++ [m; k]) -> 0 < prod (dp ++ da ++ [r; k]) -> supported (dp ++ da ++ [r; m]) ->
  exists zs, matvec (b32_ops ln_ exp_ pow_) c a x = Ok (fresh (dp ++ da ++ [r; m]) zs) /\
    forall (A : list nat -> nat -> nat -> b32) (X : list nat -> list nat -> nat -> nat -> b32),
      (forall ia j p, in_shape da ia -> j < m -> p < k -> elem (da ++ [m; k]) xs (ia ++ [j; p]) = Some (A ia j p)) ->
      (forall ip ia i p, in_shape dp ip -> in_shape da ia -> i < r -> p < k ->
         elem (dp ++ da ++ [r; k]) ys (ip ++ ia ++ [i; p]) = Some (X ip ia i p)) ->
      forall ip ia i j z, in_shape dp ip -> in_shape da ia -> i < r -> j < m ->
        elem (dp ++ da ++ [r; m]) zs (ip ++ ia ++ [i; j]) = Some z -> number z ->
        (Rabs (B2R z - rsum (map (fun p => B2R (X ip ia i p) * B2R (A ia j p)) (seq 0 k)))
         <= ((1 + u32) ^ k - 1) * rsum (map (fun p => Rabs (B2R (X ip ia i p) * B2R (A ia j p))) (seq 0 k))
            + INR k * (1 + u32) ^ k * tiny)%R.
Proof. exact (@c68_matvec ln_ exp_ pow_ c a x dp da m k r xs ys). Qed.
Print Assumptions C68_matvec.

(** The order of summation shows: 2^24 + 1 + 1 is 2^24, 1 + 1 + 2^24 is 2^24 + 2. *)
Example C68_example ln_ exp_ pow_ :
  let o := b32_ops ln_ exp_ pow_ in
  let sum l := fold_left (fadd o) l (fzero o) in
  feq o (sum [b32_of_Z 16777216 0; b32_of_Z 1 0; b32_of_Z 1 0]) (b32_of_Z 16777216 0) = true /\
  feq o (sum [b32_of_Z 1 0; b32_of_Z 1 0; b32_of_Z 16777216 0]) (b32_of_Z 16777218 0) = true.
Proof. split; vm_compute; reflexivity. Qed.

Example C68_example_exact ln_ exp_ pow_ :
  reduce_sum dev (total2 (fadd (b32_ops ln_ exp_ pow_))) (fresh [3] [b32_of_Z 5 0; b32_of_Z (-7) 0; b32_of_Z 16777216 0])
  = Ok (fresh [] [b32_of_Z 16777214 0]).
Proof.
  apply (C68_sum_exact ln_ exp_ pow_ dev _ [3] [-7; 16777216]%Z 5%Z).
  - apply TensorFacts.repr_fresh; [split; cbn; lia|reflexivity].
  - intros [|[|[|n]]]; cbn; lia.
  - repeat constructor; lia.
Qed.

(** ** C69

    Elements of magnitude at most 2^126: the differences do not overflow. *)

Theorem C69_variance ln_ exp_ pow_ c (t : tensor b32) ds xs :
  repr t ds xs -> Forall (fun x => number x /\ (Rabs (B2R x) <= 2 ^ 126)%R) xs ->
  exists v, reduce_variance (b32_ops ln_ exp_ pow_) c t = Ok (fresh [] [v]) /\
    fle (b32_ops ln_ exp_ pow_) (fzero (b32_ops ln_ exp_ pow_)) v = true.
Proof. exact (@c69_variance ln_ exp_ pow_ c t ds xs). Qed.
Print Assumptions C69_variance.

Theorem C69_std ln_ exp_ pow_ c (t : tensor b32) ds xs :
  repr t ds xs -> Forall (fun x => number x /\ (Rabs (B2R x) <= 2 ^ 126)%R) xs ->
  exists v, reduce_std (b32_ops ln_ exp_ pow_) c t = Ok (fresh [] [v]) /\
    fle (b32_ops ln_ exp_ pow_) (fzero (b32_ops ln_ exp_ pow_)) v = true.
Proof. exact (@c69_std ln_ exp_ pow_ c t ds xs). Qed.
Print Assumptions C69_std.

Theorem C69_axis ln_ exp_ pow_ c (t : tensor b32) a d1 d d2 xs :
  let o := b32_ops ln_ exp_ pow_ in
  repr t (d1 ++ d :: d2) xs -> names_axis a (length d1) (length (d1 ++ d :: d2)) ->
  Forall (fun d => 0 < d) (d1 ++ d2) ->
  Forall (fun x => number x /\ (Rabs (B2R x) <= 2 ^ 126)%R) xs ->
  exists vs ss, reduce_variance_axis o c t (Some a) = Ok (fresh (d1 ++ d2) vs) /\
    reduce_std_axis o c t (Some a) = Ok (fresh (d1 ++ d2) ss) /\
    Forall (fun v => fle o (fzero o) v = true) vs /\ Forall (fun v => fle o (fzero o) v = true) ss.
Proof. exact (@c69_axis ln_ exp_ pow_ c t a d1 d d2 xs). Qed.
Print Assumptions C69_axis.

(** Without the bound: -3 * 2^126 and 3 * 2^126 have variance minus infinity and
    deviation NaN. *)
Theorem C69_refuted ln_ exp_ pow_ :
  let o := b32_ops ln_ exp_ pow_ in
  exists x y : b32, number x /\ number y /\
    reduce_variance o dev (fresh [2] [x; y]) = Ok (fresh [] [B754_infinity true]) /\
    reduce_std o dev (fresh [2] [x; y]) = Ok (fresh [] [B754_nan]).
Proof. exact (@c69_refuted ln_ exp_ pow_). Qed.
Print Assumptions C69_refuted.

Example C69_example ln_ exp_ pow_ :
  let o := b32_ops ln_ exp_ pow_ in
  match reduce_variance o dev (fresh [3] [b32_of_Z 1 (-3); b32_of_Z 5 20; b32_of_Z (-1) 7]) with
  | Ok t => forallb (fun v => flt o (fzero o) v) (tdata t) = true
  | _ => False
  end.
Proof. vm_compute. reflexivity. Qed.

(** ** C70

    [f32::min] and [f32::max] return the other operand when one is NaN.  The result is
    an element, and it is at most (at least) every element that is not NaN; it is NaN
    only if all elements are. *)

Theorem C70_min ln_ exp_ pow_ c (t : tensor b32) ds xs :
  repr t ds xs -> xs <> [] ->
  exists m, reduce_min (b32_ops ln_ exp_ pow_) c t = Ok (fresh [] [m]) /\ In m xs /\
    forall x, In x xs -> is_nan x = false -> fle (b32_ops ln_ exp_ pow_) m x = true.
Proof. exact (@c70_min ln_ exp_ pow_ c t ds xs). Qed.
Print Assumptions C70_min.

Theorem C70_max ln_ exp_ pow_ c (t : tensor b32) ds xs :
  repr t ds xs -> xs <> [] ->
  exists m, reduce_max (b32_ops ln_ exp_ pow_) c t = Ok (fresh [] [m]) /\ In m xs /\
    forall x, In x xs -> is_nan x = false -> fle (b32_ops ln_ exp_ pow_) x m = true.
Proof. exact (@c70_max ln_ exp_ pow_ c t ds xs). Qed.
Print Assumptions C70_max.

Theorem C70_min_axis ln_ exp_ pow_ c (t : tensor b32) a d1 d d2 xs :
  let o := b32_ops ln_ exp_ pow_ in
  repr t (d1 ++ d :: d2) xs -> names_axis a (length d1) (length (d1 ++ d :: d2)) ->
  Forall (fun d => 0 < d) (d1 ++ d2) -> 0 < d ->
  exists ls ms, axis_lines d1 d d2 xs ls /\
    reduce_min_axis o c t (Some a) = Ok (fresh (d1 ++ d2) ms) /\
    Forall2 (fun m l => In m l /\ forall x, In x l -> is_nan x = false -> fle o m x = true) ms ls.
Proof. exact (@c70_min_axis ln_ exp_ pow_ c t a d1 d d2 xs). Qed.
Print Assumptions C70_min_axis.

Theorem C70_max_axis ln_ exp_ pow_ c (t : tensor b32) a d1 d d2 xs :
  let o := b32_ops ln_ exp_ pow_ in
  repr t (d1 ++ d :: d2) xs -> names_axis a (length d1) (length (d1 ++ d :: d2)) ->
  Forall (fun d => 0 < d) (d1 ++ d2) -> 0 < d ->
  exists ls ms, axis_lines d1 d d2 xs ls /\
    reduce_max_axis o c t (Some a) = Ok (fresh (d1 ++ d2) ms) /\
    Forall2 (fun m l => In m l /\ forall x, In x l -> is_nan x = false -> fle o x m = true) ms ls.
Proof. exact (@c70_max_axis ln_ exp_ pow_ c t a d1 d d2 xs). Qed.
Print Assumptions C70_max_axis.

Example C70_example ln_ exp_ pow_ :
  let o := b32_ops ln_ exp_ pow_ in
  reduce_min o dev (fresh [3] [B754_nan; B754_infinity true; B754_nan]) = Ok (fresh [] [B754_infinity true]) /\
  reduce_max o dev (fresh [2] [B754_nan; B754_nan]) = Ok (fresh [] [B754_nan]).
Proof. split; reflexivity. Qed.
