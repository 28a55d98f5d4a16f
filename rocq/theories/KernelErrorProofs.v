(** * Rounding errors of transposed products by any kernel (C82), proofs *)
From Coq Require Import Reals.
From Flocq Require Import IEEE754.BinarySingleNaN.
From Verif Require Import Base ShapeModel TensorModel FloatModel LinalgModel LinalgSpec KernelModel KernelSpec Spec FloatSpec
  RoundSpec KernelProofs KernelRound.

Lemma c82_transpose_a_error ln_ exp_ pow_ K c (a b : tensor b32) ds m k n xs ys :
  computes (b32_ops ln_ exp_ pow_) sum_of K ->
  repr a (ds ++ [k; m]) xs -> repr b (ds ++ [k; n]) ys ->
  supported (ds ++ [n; m]) -> can_alloc c (prod (ds ++ [n; m])) ->
  exists zs, matmul_by (b32_ops ln_ exp_ pow_) K c a b TransposeA = Ok (fresh (ds ++ [n; m]) zs) /\
    forall (A B : list nat -> nat -> nat -> b32),
      (forall idx p i, in_shape ds idx -> p < k -> i < m -> elem (ds ++ [k; m]) xs (idx ++ [p; i]) = Some (A idx p i)) ->
      (forall idx p j, in_shape ds idx -> p < k -> j < n -> elem (ds ++ [k; n]) ys (idx ++ [p; j]) = Some (B idx p j)) ->
      forall idx i j z, in_shape ds idx -> i < m -> j < n ->
        elem (ds ++ [m; n]) zs (idx ++ [i; j]) = Some z -> number z ->
        (Rabs (B2R z - rsum (map (fun p => B2R (A idx p i) * B2R (B idx p j)) (seq 0 k)))
         <= ((1 + u32) ^ k - 1) * rsum (map (fun p => Rabs (B2R (A idx p i) * B2R (B idx p j))) (seq 0 k))
            + INR k * (1 + u32) ^ k * tiny)%R.
Proof.
  intros HK Ha Hb Hs Hc. destruct (c82_matmul_transpose_a _ _ K c a b ds m k n xs ys HK Ha Hb Hs Hc) as (zs & E & _ & H).
  exists zs. split; [exact E|]. intros A B HA HB idx i j z Hi Him Hjn Ez Hn.
  destruct (H A B HA HB idx i j Hi Him Hjn) as (z' & Ez' & Hz). assert (z' = z) by congruence. subst z'.
  exact (pairs_error k _ _ z Hz Hn).
Qed.

Lemma c82_transpose_b_error ln_ exp_ pow_ K c (a b : tensor b32) ds m k n xs ys :
  computes (b32_ops ln_ exp_ pow_) sum_of K ->
  repr a (ds ++ [m; k]) xs -> repr b (ds ++ [n; k]) ys ->
  supported (ds ++ [n; m]) -> can_alloc c (prod (ds ++ [n; m])) ->
  exists zs, matmul_by (b32_ops ln_ exp_ pow_) K c a b TransposeB = Ok (fresh (ds ++ [n; m]) zs) /\
    forall (A B : list nat -> nat -> nat -> b32),
      (forall idx i p, in_shape ds idx -> i < m -> p < k -> elem (ds ++ [m; k]) xs (idx ++ [i; p]) = Some (A idx i p)) ->
      (forall idx j p, in_shape ds idx -> j < n -> p < k -> elem (ds ++ [n; k]) ys (idx ++ [j; p]) = Some (B idx j p)) ->
      forall idx i j z, in_shape ds idx -> i < m -> j < n ->
        elem (ds ++ [m; n]) zs (idx ++ [i; j]) = Some z -> number z ->
        (Rabs (B2R z - rsum (map (fun p => B2R (A idx i p) * B2R (B idx j p)) (seq 0 k)))
         <= ((1 + u32) ^ k - 1) * rsum (map (fun p => Rabs (B2R (A idx i p) * B2R (B idx j p))) (seq 0 k))
            + INR k * (1 + u32) ^ k * tiny)%R.
Proof.
  intros HK Ha Hb Hs Hc. destruct (c82_matmul_transpose_b _ _ K c a b ds m k n xs ys HK Ha Hb Hs Hc) as (zs & E & _ & H).
  exists zs. split; [exact E|]. intros A B HA HB idx i j z Hi Him Hjn Ez Hn.
  destruct (H A B HA HB idx i j Hi Him Hjn) as (z' & Ez' & Hz). assert (z' = z) by congruence. subst z'.
  exact (pairs_error k _ _ z Hz Hn).
Qed.

Lemma c82_transpose_ab_error ln_ exp_ pow_ K c (a b : tensor b32) ds m k n xs ys :
  computes (b32_ops ln_ exp_ pow_) sum_of K ->
  repr a (ds ++ [k; m]) xs -> repr b (ds ++ [n; k]) ys ->
  supported (ds ++ [n; m]) -> can_alloc c (prod (ds ++ [n; m])) ->
  exists zs, matmul_by (b32_ops ln_ exp_ pow_) K c a b TransposeAB = Ok (fresh (ds ++ [n; m]) zs) /\
    forall (A B : list nat -> nat -> nat -> b32),
      (forall idx p i, in_shape ds idx -> p < k -> i < m -> elem (ds ++ [k; m]) xs (idx ++ [p; i]) = Some (A idx p i)) ->
      (forall idx j p, in_shape ds idx -> j < n -> p < k -> elem (ds ++ [n; k]) ys (idx ++ [j; p]) = Some (B idx j p)) ->
      forall idx i j z, in_shape ds idx -> i < m -> j < n ->
        elem (ds ++ [m; n]) zs (idx ++ [i; j]) = Some z -> number z ->
        (Rabs (B2R z - rsum (map (fun p => B2R (A idx p i) * B2R (B idx j p)) (seq 0 k)))
         <= ((1 + u32) ^ k - 1) * rsum (map (fun p => Rabs (B2R (A idx p i) * B2R (B idx j p))) (seq 0 k))
            + INR k * (1 + u32) ^ k * tiny)%R.
Proof.
  intros HK Ha Hb Hs Hc. destruct (c82_matmul_transpose_ab _ _ K c a b ds m k n xs ys HK Ha Hb Hs Hc) as (zs & E & _ & H).
  exists zs. split; [exact E|]. intros A B HA HB idx i j z Hi Him Hjn Ez Hn.
  destruct (H A B HA HB idx i j Hi Him Hjn) as (z' & Ez' & Hz). assert (z' = z) by congruence. subst z'.
  exact (pairs_error k _ _ z Hz Hn).
Qed.

