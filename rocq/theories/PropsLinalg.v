(** * Properties of matmul and matvec (C46-C49) *)
From Coq Require Import Reals Lra.
From Flocq Require Import IEEE754.BinarySingleNaN.
From Coq Require Import ZifyBool ZifyNat ZifyN.
From Verif Require Import Base ShapeModel TensorModel FloatModel LinalgModel Spec FloatSpec BaseFacts
  ShapeFacts ShapeFacts2 CoordFacts TensorFacts TensorFacts2 SafeFacts RealFacts LinalgFacts.
From Verif Require Import LinalgSpec LinalgProofs.

(** ** C46

    The elements of the product, read as [m x n] matrices, are the sums of products of
    the corresponding row and column, added up from the left.  (The scaling by alpha = 1
    is kept here; the versions for the reals and for binary32 below remove it.)  The
    result's own label is the subject of C47. *)

Theorem C46_matmul {F} (o : fops F) c (a b : tensor F) ds m k n xs ys :
  feq o (fzero o) (fzero o) = true ->
  repr a (ds ++ [m; k]) xs -> repr b (ds ++ [k; n]) ys ->
  supported (ds ++ [n; m]) -> can_alloc c (prod (ds ++ [n; m])) ->
  exists zs, matmul o c a b = Ok (fresh (ds ++ [n; m]) zs) /\ length zs = prod (ds ++ [n; m]) /\
    forall idx i j, in_shape ds idx -> i < m -> j < n ->
      elem (ds ++ [m; n]) zs (idx ++ [i; j])
      = option_map (fmul o (fone o))
          (dot o k (fun p => elem (ds ++ [m; k]) xs (idx ++ [i; p]))
                   (fun p => elem (ds ++ [k; n]) ys (idx ++ [p; j]))).
Proof. exact (@c46_matmul F o c a b ds m k n xs ys). Qed.
Print Assumptions C46_matmul.

Theorem C46_matmul_transpose_a {F} (o : fops F) c (a b : tensor F) ds m k n xs ys :
  feq o (fzero o) (fzero o) = true ->
  repr a (ds ++ [k; m]) xs -> repr b (ds ++ [k; n]) ys ->
  supported (ds ++ [n; m]) -> can_alloc c (prod (ds ++ [n; m])) ->
  exists zs, matmul_t o c a b TransposeA = Ok (fresh (ds ++ [n; m]) zs) /\ length zs = prod (ds ++ [n; m]) /\
    forall idx i j, in_shape ds idx -> i < m -> j < n ->
      elem (ds ++ [m; n]) zs (idx ++ [i; j])
      = option_map (fmul o (fone o))
          (dot o k (fun p => elem (ds ++ [k; m]) xs (idx ++ [p; i]))
                   (fun p => elem (ds ++ [k; n]) ys (idx ++ [p; j]))).
Proof. exact (@c46_matmul_transpose_a F o c a b ds m k n xs ys). Qed.
Print Assumptions C46_matmul_transpose_a.

Theorem C46_matmul_transpose_b {F} (o : fops F) c (a b : tensor F) ds m k n xs ys :
  feq o (fzero o) (fzero o) = true ->
  repr a (ds ++ [m; k]) xs -> repr b (ds ++ [n; k]) ys ->
  supported (ds ++ [n; m]) -> can_alloc c (prod (ds ++ [n; m])) ->
  exists zs, matmul_t o c a b TransposeB = Ok (fresh (ds ++ [n; m]) zs) /\ length zs = prod (ds ++ [n; m]) /\
    forall idx i j, in_shape ds idx -> i < m -> j < n ->
      elem (ds ++ [m; n]) zs (idx ++ [i; j])
      = option_map (fmul o (fone o))
          (dot o k (fun p => elem (ds ++ [m; k]) xs (idx ++ [i; p]))
                   (fun p => elem (ds ++ [n; k]) ys (idx ++ [j; p]))).
Proof. exact (@c46_matmul_transpose_b F o c a b ds m k n xs ys). Qed.
Print Assumptions C46_matmul_transpose_b.

Theorem C46_matmul_transpose_ab {F} (o : fops F) c (a b : tensor F) ds m k n xs ys :
  feq o (fzero o) (fzero o) = true ->
  repr a (ds ++ [k; m]) xs -> repr b (ds ++ [n; k]) ys ->
  supported (ds ++ [n; m]) -> can_alloc c (prod (ds ++ [n; m])) ->
  exists zs, matmul_t o c a b TransposeAB = Ok (fresh (ds ++ [n; m]) zs) /\ length zs = prod (ds ++ [n; m]) /\
    forall idx i j, in_shape ds idx -> i < m -> j < n ->
      elem (ds ++ [m; n]) zs (idx ++ [i; j])
      = option_map (fmul o (fone o))
          (dot o k (fun p => elem (ds ++ [k; m]) xs (idx ++ [p; i]))
                   (fun p => elem (ds ++ [n; k]) ys (idx ++ [j; p]))).
Proof. exact (@c46_matmul_transpose_ab F o c a b ds m k n xs ys). Qed.
Print Assumptions C46_matmul_transpose_ab.

Theorem C46_matmul_real c (a b : tensor R) ds m k n xs ys :
  repr a (ds ++ [m; k]) xs -> repr b (ds ++ [k; n]) ys ->
  supported (ds ++ [n; m]) -> can_alloc c (prod (ds ++ [n; m])) ->
  exists zs, matmul R_ops c a b = Ok (fresh (ds ++ [n; m]) zs) /\
    forall (A B : list nat -> nat -> nat -> R),
      (forall idx i p, in_shape ds idx -> i < m -> p < k -> elem (ds ++ [m; k]) xs (idx ++ [i; p]) = Some (A idx i p)) ->
      (forall idx p j, in_shape ds idx -> p < k -> j < n -> elem (ds ++ [k; n]) ys (idx ++ [p; j]) = Some (B idx p j)) ->
      forall idx i j, in_shape ds idx -> i < m -> j < n ->
        elem (ds ++ [m; n]) zs (idx ++ [i; j])
        = Some (fold_right Rplus 0%R (map (fun p => A idx i p * B idx p j)%R (seq 0 k))).
Proof. exact (@c46_matmul_real c a b ds m k n xs ys). Qed.
Print Assumptions C46_matmul_real.

(** In binary32 the scaling is the identity: each element is exactly the sum of the
    rounded products, accumulated from the left with rounding. *)
Theorem C46_matmul_b32 ln_ exp_ pow_ c (a b : tensor b32) ds m k n xs ys :
  repr a (ds ++ [m; k]) xs -> repr b (ds ++ [k; n]) ys ->
  supported (ds ++ [n; m]) -> can_alloc c (prod (ds ++ [n; m])) ->
  exists zs, matmul (b32_ops ln_ exp_ pow_) c a b = Ok (fresh (ds ++ [n; m]) zs) /\
    forall idx i j, in_shape ds idx -> i < m -> j < n ->
      elem (ds ++ [m; n]) zs (idx ++ [i; j])
      = dot (b32_ops ln_ exp_ pow_) k (fun p => elem (ds ++ [m; k]) xs (idx ++ [i; p]))
          (fun p => elem (ds ++ [k; n]) ys (idx ++ [p; j])).
Proof. exact (@c46_matmul_b32 ln_ exp_ pow_ c a b ds m k n xs ys). Qed.
Print Assumptions C46_matmul_b32.

(** Two batches of 2x3 times 3x1, the left operand a view at offset 1. *)
Example C46_example :
  matmul Z_ops dev
    (mkTensor (canon [2; 2; 3]) 1 12 [0; 1; 2; 3; 4; 5; 6; 7; 8; 9; 10; 11; 12]%Z)
    (fresh [2; 3; 1] [1; 10; 100; 2; 20; 200]%Z)
  = Ok (fresh [2; 1; 2] [321; 654; 1974; 2640]%Z).
Proof. reflexivity. Qed.

Example C46_example_transpose :
  matmul_t Z_ops dev (fresh [2; 3] [1; 2; 3; 4; 5; 6]%Z) (fresh [2; 3] [1; 0; 2; 0; 1; 1]%Z) TransposeB
  = Ok (fresh [2; 2] [7; 5; 16; 11]%Z) /\
  matmul_t Z_ops dev (fresh [2; 1] [1; 2]%Z) (fresh [2; 3] [1; 0; 2; 0; 1; 1]%Z) TransposeA
  = Ok (fresh [3; 1] [1; 2; 4]%Z) /\
  matmul_t Z_ops dev (fresh [2; 1] [1; 2]%Z) (fresh [3; 2] [1; 0; 2; 0; 1; 1]%Z) TransposeAB
  = Ok (fresh [3; 1] [1; 2; 3]%Z).
Proof. repeat split; reflexivity. Qed.

(** ** C47

    The result of an [m x k] by [k x n] product is labelled [n; m]. *)

Theorem C47_matmul_label {F} (o : fops F) c (a b : tensor F) ds m k n xs ys :
  feq o (fzero o) (fzero o) = true ->
  repr a (ds ++ [m; k]) xs -> repr b (ds ++ [k; n]) ys ->
  supported (ds ++ [n; m]) -> can_alloc c (prod (ds ++ [n; m])) ->
  exists t, matmul o c a b = Ok t /\ tshape t = canon (ds ++ [n; m]) /\
    (m <> n -> tshape t <> canon (ds ++ [m; n])).
Proof. exact (@c47_matmul_label F o c a b ds m k n xs ys). Qed.
Print Assumptions C47_matmul_label.

(** The claim that the product of an [m x k] and a [k x n] matrix has shape [m; n] is
    false: a 1x2 by 2x3 product has shape [3; 1]. *)
Theorem C47_refuted :
  exists (a b : tensor Z) t, repr a [1; 2] [1; 2]%Z /\ repr b [2; 3] [1; 2; 3; 4; 5; 6]%Z /\
    matmul Z_ops dev a b = Ok t /\ tshape t <> canon [1; 3] /\ tshape t = canon [3; 1].
Proof. exact c47_refuted. Qed.
Print Assumptions C47_refuted.

(** ** C48 *)

(** With at least as many batches on the right as on the left no access leaves the
    buffers, whatever the operands. *)
Theorem C48_matmul_safe {F} (o : fops F) c (a b : tensor F) da db ar ac br bc xs ys tr :
  feq o (fzero o) (fzero o) = true ->
  repr a (da ++ [ar; ac]) xs -> repr b (db ++ [br; bc]) ys -> prod da <= prod db ->
  can_alloc c (prod da * ((match tr with TNone | TransposeB => ar | _ => ac end)
                          * (match tr with TNone | TransposeA => bc | _ => br end))) ->
  matmul_t o c a b tr <> Ub.
Proof. exact (@c48_matmul_safe F o c a b da db ar ac br bc xs ys tr). Qed.
Print Assumptions C48_matmul_safe.

(** Operands that are not matrices are rejected. *)
Theorem C48_matmul_rank {F} (o : fops F) c (a b : tensor F) da db xs ys tr :
  repr a da xs -> repr b db ys -> length da < 2 \/ length db < 2 -> matmul_t o c a b tr = Panic.
Proof. exact (@c48_matmul_rank F o c a b da db xs ys tr). Qed.
Print Assumptions C48_matmul_rank.

(** With more batches on the right the call panics. *)
Theorem C48_matmul_more {F} (o : fops F) c (a b : tensor F) da db m k n xs ys :
  feq o (fzero o) (fzero o) = true ->
  repr a (da ++ [m; k]) xs -> repr b (db ++ [k; n]) ys -> prod da < prod db -> 0 < prod da ->
  0 < m -> 0 < n -> supported (db ++ [n; m]) ->
  matmul o c a b = Panic.
Proof. exact (@c48_matmul_more F o c a b da db m k n xs ys). Qed.
Print Assumptions C48_matmul_more.

(** With fewer batches on the right, and a right operand that ends where its buffer ends
    (for instance any tensor that is not a view), elements outside the right operand's
    buffer are read. *)
Theorem C48_matmul_fewer {F} (o : fops F) c (a b : tensor F) da db m k n xs ys :
  feq o (fzero o) (fzero o) = true ->
  repr a (da ++ [m; k]) xs -> repr b (db ++ [k; n]) ys -> prod db < prod da ->
  0 < m -> 0 < k -> 0 < n -> (Z.of_nat (prod da * (m * n)) < two63)%Z ->
  toffset b + tsize b = length (tdata b) ->
  matmul o c a b = Ub.
Proof. exact (@c48_matmul_fewer F o c a b da db m k n xs ys). Qed.
Print Assumptions C48_matmul_fewer.

(** The claim that matmul never reads outside its operands is false: two 1x1 matrices
    times one 1x1 matrix. *)
Theorem C48_refuted :
  exists a b : tensor Z, repr a [2; 1; 1] [3; 4]%Z /\ repr b [1; 1] [5]%Z /\
    matmul Z_ops dev a b = Ub /\ matmul Z_ops release a b = Ub.
Proof. exact c48_refuted. Qed.
Print Assumptions C48_refuted.

Example C48_example :
  matmul Z_ops dev (fresh [1; 1; 1] [3]%Z) (fresh [2; 1; 1] [5; 6]%Z) = Panic /\
  matmul Z_ops dev (fresh [2; 1; 1] [3; 4]%Z) (fresh [2; 1; 1] [5; 6]%Z) = Ok (fresh [2; 1; 1] [15; 24]%Z).
Proof. split; reflexivity. Qed.

(** ** C49 *)

(** The matrices of [a] apply to the rows of [x]; [x] may have further outer batch
    dimensions [dp]. *)
Theorem C49_matvec {F} (o : fops F) c (a x : tensor F) dp da m k r xs ys :
  feq o (fzero o) (fzero o) = true ->
  repr a (da ++ [m; k]) xs -> repr x (dp ++ da ++ [r; k]) ys ->
  0 < prod (da ++ [m; k]) -> 0 < prod (dp ++ da ++ [r; k]) -> supported (dp ++ da ++ [r; m]) ->
  exists zs, matvec o c a x = Ok (fresh (dp ++ da ++ [r; m]) zs) /\
    length zs = prod (dp ++ da ++ [r; m]) /\
    forall ip ia i j, in_shape dp ip -> in_shape da ia -> i < r -> j < m ->
      elem (dp ++ da ++ [r; m]) zs (ip ++ ia ++ [i; j])
      = option_map (fmul o (fone o))
          (dot o k (fun p => elem (dp ++ da ++ [r; k]) ys (ip ++ ia ++ [i; p]))
                   (fun p => elem (da ++ [m; k]) xs (ia ++ [j; p]))).
Proof. exact (@c49_matvec F o c a x dp da m k r xs ys). Qed.
Print Assumptions C49_matvec.

Theorem C49_matvec_transpose {F} (o : fops F) c (a x : tensor F) dp da m k r xs ys :
  feq o (fzero o) (fzero o) = true ->
  repr a (da ++ [k; m]) xs -> repr x (dp ++ da ++ [r; k]) ys ->
  0 < prod (da ++ [k; m]) -> 0 < prod (dp ++ da ++ [r; k]) -> supported (dp ++ da ++ [r; m]) ->
  exists zs, matvec_t o c a x TransposeA = Ok (fresh (dp ++ da ++ [r; m]) zs) /\
    length zs = prod (dp ++ da ++ [r; m]) /\
    forall ip ia i j, in_shape dp ip -> in_shape da ia -> i < r -> j < m ->
      elem (dp ++ da ++ [r; m]) zs (ip ++ ia ++ [i; j])
      = option_map (fmul o (fone o))
          (dot o k (fun p => elem (dp ++ da ++ [r; k]) ys (ip ++ ia ++ [i; p]))
                   (fun p => elem (da ++ [k; m]) xs (ia ++ [p; j]))).
Proof. exact (@c49_matvec_transpose F o c a x dp da m k r xs ys). Qed.
Print Assumptions C49_matvec_transpose.

(** A vector instead of a stack of rows. *)
Theorem C49_matvec_vector {F} (o : fops F) c (a x : tensor F) m k xs ys :
  feq o (fzero o) (fzero o) = true ->
  repr a [m; k] xs -> repr x [k] ys -> 0 < m -> 0 < k ->
  exists zs, matvec o c a x = Ok (fresh [m] zs) /\ length zs = m /\
    forall j, j < m ->
      nth_error zs j
      = option_map (fmul o (fone o)) (dot o k (fun p => nth_error ys p) (fun p => elem [m; k] xs [j; p])).
Proof. exact (@c49_matvec_vector F o c a x m k xs ys). Qed.
Print Assumptions C49_matvec_vector.

Theorem C49_matvec_vector_transpose {F} (o : fops F) c (a x : tensor F) m k xs ys :
  feq o (fzero o) (fzero o) = true ->
  repr a [k; m] xs -> repr x [k] ys -> 0 < m -> 0 < k ->
  exists zs, matvec_t o c a x TransposeA = Ok (fresh [m] zs) /\ length zs = m /\
    forall j, j < m ->
      nth_error zs j
      = option_map (fmul o (fone o)) (dot o k (fun p => nth_error ys p) (fun p => elem [k; m] xs [p; j])).
Proof. exact (@c49_matvec_vector_transpose F o c a x m k xs ys). Qed.
Print Assumptions C49_matvec_vector_transpose.

(** Incompatible operands are rejected: a wrong inner dimension, batch dimensions that
    are no suffix of each other, a left operand that is no matrix, or one of the
    transpose flags that make no sense here.  (A vector has no batch dimensions.) *)
Theorem C49_matvec_incompatible {F} (o : fops F) c (a x : tensor F) da dx m k r kx xs ys tr :
  repr a (da ++ [m; k]) xs -> repr x (dx ++ [r; kx]) ys ->
  tr = TransposeB \/ tr = TransposeAB \/ (tr = TNone /\ k <> kx) \/ (tr = TransposeA /\ m <> kx) \/
    (~ suffix da dx /\ ~ suffix dx da) ->
  matvec_t o c a x tr = Panic.
Proof. exact (@c49_matvec_incompatible F o c a x da dx m k r kx xs ys tr). Qed.
Print Assumptions C49_matvec_incompatible.

Theorem C49_matvec_vector_incompatible {F} (o : fops F) c (a x : tensor F) da m k kx xs ys tr :
  repr a (da ++ [m; k]) xs -> repr x [kx] ys ->
  tr = TransposeB \/ tr = TransposeAB \/ (tr = TNone /\ k <> kx) \/ (tr = TransposeA /\ m <> kx) ->
  matvec_t o c a x tr = Panic.
Proof. exact (@c49_matvec_vector_incompatible F o c a x da m k kx xs ys tr). Qed.
Print Assumptions C49_matvec_vector_incompatible.

Theorem C49_matvec_rank {F} (o : fops F) c (a x : tensor F) da xs tr :
  repr a da xs -> length da < 2 -> matvec_t o c a x tr = Panic.
Proof. exact (@c49_matvec_rank F o c a x da xs tr). Qed.
Print Assumptions C49_matvec_rank.

(** Fewer batches in [x] than in [a]: the result would not fit the shape made from [x],
    and the call panics. *)
Theorem C49_matvec_fewer {F} (o : fops F) c (a x : tensor F) dp dx m k r kx xs ys tr :
  feq o (fzero o) (fzero o) = true ->
  repr a (dp ++ dx ++ [m; k]) xs -> repr x (dx ++ [r; kx]) ys ->
  0 < prod (dp ++ dx ++ [m; k]) -> 0 < r -> 1 < prod dp ->
  supported (dx ++ [r; match tr with TNone => m | _ => k end]) ->
  matvec_t o c a x tr = Panic.
Proof. exact (@c49_matvec_fewer F o c a x dp dx m k r kx xs ys tr). Qed.
Print Assumptions C49_matvec_fewer.

(** An empty operand makes the call panic as soon as there is a batch to compute. *)
Theorem C49_matvec_empty {F} (o : fops F) c (a x : tensor F) dp da m k r kx xs ys :
  feq o (fzero o) (fzero o) = true ->
  repr a (da ++ [m; k]) xs -> repr x (dp ++ da ++ [r; kx]) ys ->
  0 < prod dp -> 0 < prod da -> m = 0 \/ k = 0 \/ r = 0 -> zero_alloc_ok c = true ->
  matvec o c a x = Panic.
Proof. exact (@c49_matvec_empty F o c a x dp da m k r kx xs ys). Qed.
Print Assumptions C49_matvec_empty.

(** No call leaves the buffers, whatever the two operands and the flag. *)
Theorem C49_matvec_safe {F} (o : fops F) c (a x : tensor F) da dx xs ys tr :
  feq o (fzero o) (fzero o) = true ->
  repr a da xs -> repr x dx ys -> zero_alloc_ok c = true ->
  matvec_t o c a x tr <> Ub.
Proof. exact (@c49_matvec_safe F o c a x da dx xs ys tr). Qed.
Print Assumptions C49_matvec_safe.

(** Three rows through a 2x3 matrix, as a stack, as one vector, and with the matrix
    transposed. *)
Example C49_example :
  matvec Z_ops dev (fresh [2; 3] [1; 2; 3; 4; 5; 6]%Z) (fresh [3; 3] [1; 0; 0; 0; 1; 0; 1; 1; 1]%Z)
  = Ok (fresh [3; 2] [1; 4; 2; 5; 6; 15]%Z) /\
  matvec Z_ops dev (fresh [2; 3] [1; 2; 3; 4; 5; 6]%Z) (fresh [3] [1; 1; 1]%Z) = Ok (fresh [2] [6; 15]%Z) /\
  matvec_t Z_ops dev (fresh [2; 3] [1; 2; 3; 4; 5; 6]%Z) (fresh [2] [1; 10]%Z) TransposeA
  = Ok (fresh [3] [41; 52; 63]%Z).
Proof. repeat split; reflexivity. Qed.

(** Two matrices, four batches of one row each: the matrices are used in turn. *)
Example C49_example_batch :
  matvec Z_ops dev (fresh [2; 1; 2] [1; 2; 10; 20]%Z) (fresh [2; 2; 1; 2] [1; 1; 1; 1; 2; 1; 2; 1]%Z)
  = Ok (fresh [2; 2; 1; 1] [3; 30; 4; 40]%Z).
Proof. reflexivity. Qed.
