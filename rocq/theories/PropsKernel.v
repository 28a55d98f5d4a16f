(** * C82: matrix products by any kernel *)
From Coq Require Import Reals.
From Flocq Require Import IEEE754.BinarySingleNaN.
From Verif Require Import Base ShapeModel TensorModel FloatModel LinalgModel LinalgSpec KernelModel KernelSpec Spec FloatSpec
  RoundSpec KernelProofs KernelRound.

(** With the naive kernel, these are the products of C46 to C49. *)
Theorem C82_model {F} (o : fops F) c (a b : tensor F) tr :
  matmul_by o (sgemm o) c a b tr = matmul_t o c a b tr /\ matvec_by o (sgemm o) c a b tr = matvec_t o c a b tr.
Proof. exact (@c82_model F o c a b tr). Qed.
Print Assumptions C82_model.

(** A kernel that does not compute anything leaves the output uninitialised. *)
Example C82_idle_kernel :
  matmul_by Z_ops (fun _ _ _ _ _ _ _ _ _ _ _ _ _ _ _ _ c => Ok c) dev (fresh [1; 1] [2%Z]) (fresh [1; 1] [3%Z]) TNone = Ub.
Proof. reflexivity. Qed.

(** Kernels that compute one entry after another, each by an acceptable function. *)
Theorem C82_loop {F} (o : fops F) (E : list (F * F) -> F -> Prop) f : (forall ps, E ps (f ps)) -> computes o E (loop_kernel f).
Proof. exact (@c82_loop F o E f). Qed.
Print Assumptions C82_loop.

(** The naive kernel is one of those that sum rounded products. *)
Theorem C82_naive ln_ exp_ pow_ : computes (b32_ops ln_ exp_ pow_) sum_of (sgemm (b32_ops ln_ exp_ pow_)).
Proof. exact (@c82_naive ln_ exp_ pow_). Qed.
Print Assumptions C82_naive.

(** So is the one that sums from the right with fused multiply-add. *)
Theorem C82_fma ln_ exp_ pow_ : computes (b32_ops ln_ exp_ pow_) sum_of (loop_kernel fma_from_right).
Proof. exact (@c82_fma ln_ exp_ pow_). Qed.
Print Assumptions C82_fma.

(** The two kernels differ: x * x - y with x = 1 + 2^-12 and y = 1 + 2^-11, where x * x is not
    a binary32 number. *)
Example C82_fma_example ln_ exp_ pow_ :
  let x := b32_of_Z 4097 (-12) in let y := b32_of_Z (-2049) (-11) in
  let a := fresh [1; 2] [x; y] in let b := fresh [2; 1] [x; b32_of_Z 1 0] in
  match matmul_by (b32_ops ln_ exp_ pow_) (loop_kernel fma_from_right) dev a b TNone,
        matmul_t (b32_ops ln_ exp_ pow_) dev a b TNone with
  | Ok r, Ok r' => tshape r = canon [1; 1] /\ map B2SF (tdata r) = [B2SF (b32_of_Z 1 (-24))] /\
                   map B2SF (tdata r') = [B2SF (b32_of_Z 0 0)]
  | _, _ => False
  end.
Proof. vm_compute. repeat split; reflexivity. Qed.

(** The product by any kernel: every entry holds a value acceptable for its row and column.
    (The shape is labelled as in C47.) *)
Theorem C82_matmul {F} (o : fops F) E K c (a b : tensor F) ds m k n xs ys :
  computes o E K -> repr a (ds ++ [m; k]) xs -> repr b (ds ++ [k; n]) ys ->
  supported (ds ++ [n; m]) -> can_alloc c (prod (ds ++ [n; m])) ->
  exists zs, matmul_by o K c a b TNone = Ok (fresh (ds ++ [n; m]) zs) /\ length zs = prod (ds ++ [n; m]) /\
    forall (A B : list nat -> nat -> nat -> F),
      (forall idx i p, in_shape ds idx -> i < m -> p < k -> elem (ds ++ [m; k]) xs (idx ++ [i; p]) = Some (A idx i p)) ->
      (forall idx p j, in_shape ds idx -> p < k -> j < n -> elem (ds ++ [k; n]) ys (idx ++ [p; j]) = Some (B idx p j)) ->
      forall idx i j, in_shape ds idx -> i < m -> j < n ->
        exists z, elem (ds ++ [m; n]) zs (idx ++ [i; j]) = Some z /\ E (map (fun p => (A idx i p, B idx p j)) (seq 0 k)) z.
Proof. exact (@c82_matmul F o E K c a b ds m k n xs ys). Qed.
Print Assumptions C82_matmul.

Example C82_matmul_example :
  matmul_by Z_ops (loop_kernel (fun ps => fold_right (fun '(x, y) s => (x * y + s)%Z) 0%Z ps)) dev
    (mkTensor (canon [2; 2; 3]) 1 12 [0; 1; 2; 3; 4; 5; 6; 7; 8; 9; 10; 11; 12]%Z)
    (fresh [2; 3; 1] [1; 10; 100; 2; 20; 200]%Z) TNone
  = Ok (fresh [2; 1; 2] [321; 654; 1974; 2640]%Z).
Proof. reflexivity. Qed.

(** A kernel that concatenates the pairs of factors shows which are multiplied. *)
Example C82_pairs_example :
  let o := mkFops [] [] (@app nat) (@app nat) (@app nat) (@app nat) (fun x => x) (fun _ _ => false) (fun _ _ => false)
             (fun _ _ => true) (fun _ => []) (fun _ => 0) (fun x => x) (fun x => x) (@app nat) [] [] [] in
  let K := loop_kernel (fun ps => flat_map (fun '(x, y) => x ++ y) ps) in
  let a := fresh [2; 2] [[11]; [12]; [21]; [22]] in let b := fresh [2; 3] [[1]; [2]; [3]; [4]; [5]; [6]] in
  matmul_by o K dev a b TNone
  = Ok (fresh [3; 2] [[11; 1; 12; 4]; [11; 2; 12; 5]; [11; 3; 12; 6]; [21; 1; 22; 4]; [21; 2; 22; 5]; [21; 3; 22; 6]]) /\
  matmul_by o K dev a b TransposeA
  = Ok (fresh [3; 2] [[11; 1; 21; 4]; [11; 2; 21; 5]; [11; 3; 21; 6]; [12; 1; 22; 4]; [12; 2; 22; 5]; [12; 3; 22; 6]]).
Proof. split; reflexivity. Qed.

(** The left operand transposed. *)
Theorem C82_matmul_transpose_a {F} (o : fops F) E K c (a b : tensor F) ds m k n xs ys :
  computes o E K -> repr a (ds ++ [k; m]) xs -> repr b (ds ++ [k; n]) ys ->
  supported (ds ++ [n; m]) -> can_alloc c (prod (ds ++ [n; m])) ->
  exists zs, matmul_by o K c a b TransposeA = Ok (fresh (ds ++ [n; m]) zs) /\ length zs = prod (ds ++ [n; m]) /\
    forall (A B : list nat -> nat -> nat -> F),
      (forall idx p i, in_shape ds idx -> p < k -> i < m -> elem (ds ++ [k; m]) xs (idx ++ [p; i]) = Some (A idx p i)) ->
      (forall idx p j, in_shape ds idx -> p < k -> j < n -> elem (ds ++ [k; n]) ys (idx ++ [p; j]) = Some (B idx p j)) ->
      forall idx i j, in_shape ds idx -> i < m -> j < n ->
        exists z, elem (ds ++ [m; n]) zs (idx ++ [i; j]) = Some z /\ E (map (fun p => (A idx p i, B idx p j)) (seq 0 k)) z.
Proof. exact (@c82_matmul_transpose_a F o E K c a b ds m k n xs ys). Qed.
Print Assumptions C82_matmul_transpose_a.

(** The right operand transposed. *)
Theorem C82_matmul_transpose_b {F} (o : fops F) E K c (a b : tensor F) ds m k n xs ys :
  computes o E K -> repr a (ds ++ [m; k]) xs -> repr b (ds ++ [n; k]) ys ->
  supported (ds ++ [n; m]) -> can_alloc c (prod (ds ++ [n; m])) ->
  exists zs, matmul_by o K c a b TransposeB = Ok (fresh (ds ++ [n; m]) zs) /\ length zs = prod (ds ++ [n; m]) /\
    forall (A B : list nat -> nat -> nat -> F),
      (forall idx i p, in_shape ds idx -> i < m -> p < k -> elem (ds ++ [m; k]) xs (idx ++ [i; p]) = Some (A idx i p)) ->
      (forall idx j p, in_shape ds idx -> j < n -> p < k -> elem (ds ++ [n; k]) ys (idx ++ [j; p]) = Some (B idx j p)) ->
      forall idx i j, in_shape ds idx -> i < m -> j < n ->
        exists z, elem (ds ++ [m; n]) zs (idx ++ [i; j]) = Some z /\ E (map (fun p => (A idx i p, B idx j p)) (seq 0 k)) z.
Proof. exact (@c82_matmul_transpose_b F o E K c a b ds m k n xs ys). Qed.
Print Assumptions C82_matmul_transpose_b.

(** Both operands transposed. *)
Theorem C82_matmul_transpose_ab {F} (o : fops F) E K c (a b : tensor F) ds m k n xs ys :
  computes o E K -> repr a (ds ++ [k; m]) xs -> repr b (ds ++ [n; k]) ys ->
  supported (ds ++ [n; m]) -> can_alloc c (prod (ds ++ [n; m])) ->
  exists zs, matmul_by o K c a b TransposeAB = Ok (fresh (ds ++ [n; m]) zs) /\ length zs = prod (ds ++ [n; m]) /\
    forall (A B : list nat -> nat -> nat -> F),
      (forall idx p i, in_shape ds idx -> p < k -> i < m -> elem (ds ++ [k; m]) xs (idx ++ [p; i]) = Some (A idx p i)) ->
      (forall idx j p, in_shape ds idx -> j < n -> p < k -> elem (ds ++ [n; k]) ys (idx ++ [j; p]) = Some (B idx j p)) ->
      forall idx i j, in_shape ds idx -> i < m -> j < n ->
        exists z, elem (ds ++ [m; n]) zs (idx ++ [i; j]) = Some z /\ E (map (fun p => (A idx p i, B idx j p)) (seq 0 k)) z.
Proof. exact (@c82_matmul_transpose_ab F o E K c a b ds m k n xs ys). Qed.
Print Assumptions C82_matmul_transpose_ab.

(** The product of a matrix and vectors, by any kernel. *)
Theorem C82_matvec {F} (o : fops F) E K c (a x : tensor F) dp da m k r xs ys :
  computes o E K -> repr a (da ++ [m; k]) xs -> repr x (dp ++ da ++ [r; k]) ys ->
  0 < prod (da ++ [m; k]) -> 0 < prod (dp ++ da ++ [r; k]) -> supported (dp ++ da ++ [r; m]) ->
  exists zs, matvec_by o K c a x TNone = Ok (fresh (dp ++ da ++ [r; m]) zs) /\ length zs = prod (dp ++ da ++ [r; m]) /\
    forall (A : list nat -> nat -> nat -> F) (X : list nat -> list nat -> nat -> nat -> F),
      (forall ia j p, in_shape da ia -> j < m -> p < k -> elem (da ++ [m; k]) xs (ia ++ [j; p]) = Some (A ia j p)) ->
      (forall ip ia i p, in_shape dp ip -> in_shape da ia -> i < r -> p < k ->
         elem (dp ++ da ++ [r; k]) ys (ip ++ ia ++ [i; p]) = Some (X ip ia i p)) ->
      forall ip ia i j, in_shape dp ip -> in_shape da ia -> i < r -> j < m ->
        exists z, elem (dp ++ da ++ [r; m]) zs (ip ++ ia ++ [i; j]) = Some z /\
          E (map (fun p => (X ip ia i p, A ia j p)) (seq 0 k)) z.
Proof. exact (@c82_matvec F o E K c a x dp da m k r xs ys). Qed.
Print Assumptions C82_matvec.

(** With the matrix transposed. *)
Theorem C82_matvec_transpose {F} (o : fops F) E K c (a x : tensor F) dp da m k r xs ys :
  computes o E K -> repr a (da ++ [k; m]) xs -> repr x (dp ++ da ++ [r; k]) ys ->
  0 < prod (da ++ [k; m]) -> 0 < prod (dp ++ da ++ [r; k]) -> supported (dp ++ da ++ [r; m]) ->
  exists zs, matvec_by o K c a x TransposeA = Ok (fresh (dp ++ da ++ [r; m]) zs) /\ length zs = prod (dp ++ da ++ [r; m]) /\
    forall (A : list nat -> nat -> nat -> F) (X : list nat -> list nat -> nat -> nat -> F),
      (forall ia p j, in_shape da ia -> p < k -> j < m -> elem (da ++ [k; m]) xs (ia ++ [p; j]) = Some (A ia p j)) ->
      (forall ip ia i p, in_shape dp ip -> in_shape da ia -> i < r -> p < k ->
         elem (dp ++ da ++ [r; k]) ys (ip ++ ia ++ [i; p]) = Some (X ip ia i p)) ->
      forall ip ia i j, in_shape dp ip -> in_shape da ia -> i < r -> j < m ->
        exists z, elem (dp ++ da ++ [r; m]) zs (ip ++ ia ++ [i; j]) = Some z /\
          E (map (fun p => (X ip ia i p, A ia p j)) (seq 0 k)) z.
Proof. exact (@c82_matvec_transpose F o E K c a x dp da m k r xs ys). Qed.
Print Assumptions C82_matvec_transpose.

(** A matrix and one vector. *)
Theorem C82_matvec_vector {F} (o : fops F) E K c (a x : tensor F) m k xs ys :
  computes o E K -> repr a [m; k] xs -> repr x [k] ys -> 0 < m -> 0 < k ->
  exists zs, matvec_by o K c a x TNone = Ok (fresh [m] zs) /\ length zs = m /\
    forall (A : nat -> nat -> F) (X : nat -> F),
      (forall j p, j < m -> p < k -> elem [m; k] xs [j; p] = Some (A j p)) ->
      (forall p, p < k -> nth_error ys p = Some (X p)) ->
      forall j, j < m -> exists z, nth_error zs j = Some z /\ E (map (fun p => (X p, A j p)) (seq 0 k)) z.
Proof. exact (@c82_matvec_vector F o E K c a x m k xs ys). Qed.
Print Assumptions C82_matvec_vector.

(** A transposed matrix and one vector. *)
Theorem C82_matvec_vector_transpose {F} (o : fops F) E K c (a x : tensor F) m k xs ys :
  computes o E K -> repr a [k; m] xs -> repr x [k] ys -> 0 < m -> 0 < k ->
  exists zs, matvec_by o K c a x TransposeA = Ok (fresh [m] zs) /\ length zs = m /\
    forall (A : nat -> nat -> F) (X : nat -> F),
      (forall p j, p < k -> j < m -> elem [k; m] xs [p; j] = Some (A p j)) ->
      (forall p, p < k -> nth_error ys p = Some (X p)) ->
      forall j, j < m -> exists z, nth_error zs j = Some z /\ E (map (fun p => (X p, A p j)) (seq 0 k)) z.
Proof. exact (@c82_matvec_vector_transpose F o E K c a x m k xs ys). Qed.
Print Assumptions C82_matvec_vector_transpose.

Example C82_matvec_example :
  let K := loop_kernel (fun ps => fold_right (fun '(x, y) s => (x * y + s)%Z) 0%Z ps) in
  matvec_by Z_ops K dev (fresh [2; 3] [1; 2; 3; 4; 5; 6]%Z) (fresh [3] [1; 10; 100]%Z) TNone = Ok (fresh [2] [321; 654]%Z) /\
  matvec_by Z_ops K dev (fresh [2; 3] [1; 2; 3; 4; 5; 6]%Z) (fresh [2] [1; 10]%Z) TransposeA = Ok (fresh [3] [41; 52; 63]%Z).
Proof. split; reflexivity. Qed.

(** Which calls panic and which return, and the form of the result, do not depend on the kernel. *)
Theorem C82_outcomes {F} (o : fops F) E K c (a b : tensor F) tr :
  feq o (fzero o) (fzero o) = true -> computes o E K ->
  (matmul_t o c a b tr = Panic -> matmul_by o K c a b tr = Panic) /\
  (forall r, matmul_t o c a b tr = Ok r -> exists r', matmul_by o K c a b tr = Ok r' /\
     tshape r' = tshape r /\ toffset r' = toffset r /\ tsize r' = tsize r /\ length (tdata r') = length (tdata r)) /\
  (matvec_t o c a b tr = Panic -> matvec_by o K c a b tr = Panic) /\
  (forall r, matvec_t o c a b tr = Ok r -> exists r', matvec_by o K c a b tr = Ok r' /\
     tshape r' = tshape r /\ toffset r' = toffset r /\ tsize r' = tsize r /\ length (tdata r') = length (tdata r)).
Proof. exact (@c82_outcomes F o E K c a b tr). Qed.
Print Assumptions C82_outcomes.

Example C82_outcomes_example :
  let K := loop_kernel (fun _ : list (Z * Z) => 7%Z) in
  matmul_by Z_ops K dev (fresh [2; 3] [1; 2; 3; 4; 5; 6]%Z) (fresh [2; 3] [1; 2; 3; 4; 5; 6]%Z) TNone = Panic /\
  matmul_by Z_ops K dev (fresh [2; 3] [1; 2; 3; 4; 5; 6]%Z) (fresh [3; 1] [1; 2; 3]%Z) TNone = Ok (fresh [1; 2] [7; 7]%Z).
Proof. split; reflexivity. Qed.

(** Whatever the order and grouping, and with or without fused multiply-add, a sum of [n]
    products that is a number is as close to the exact sum as the bound of C68 says. *)
Theorem C82_error ps v : sum_of ps v -> number v ->
  (Rabs (B2R v - rsum (map (fun '(x, y) => B2R x * B2R y) ps))
   <= ((1 + u32) ^ length ps - 1) * rsum (map (fun '(x, y) => Rabs (B2R x * B2R y)) ps)
      + INR (length ps) * (1 + u32) ^ length ps * tiny)%R.
Proof. exact (@c82_error ps v). Qed.
Print Assumptions C82_error.

(** Three products added in two orders: 2^24 + 1 + 1 and 1 + 1 + 2^24. *)
Example C82_error_example :
  let n k := b32_of_Z k 0 in
  let add := @Bplus 24 128 b32_prec b32_emax mode_NE in let mul := @Bmult 24 128 b32_prec b32_emax mode_NE in
  let big := mul (n 4096%Z) (n 4096%Z) in let one := mul (n 1%Z) (n 1%Z) in
  sum_of [(n 4096%Z, n 4096%Z); (n 1%Z, n 1%Z); (n 1%Z, n 1%Z)] (add (add big one) one) /\
  sum_of [(n 4096%Z, n 4096%Z); (n 1%Z, n 1%Z); (n 1%Z, n 1%Z)] (add big (add one one)) /\
  B2SF (add (add big one) one) = B2SF (n 16777216%Z) /\ B2SF (add big (add one one)) = B2SF (n 16777218%Z).
Proof.
  cbv zeta. split; [|split; [|split; vm_compute; reflexivity]].
  - apply (sum_add [(_, _); (_, _)] [(_, _)]); [apply (sum_add [(_, _)] [(_, _)])|]; apply sum_product.
  - apply (sum_add [(_, _)] [(_, _); (_, _)]); [|apply (sum_add [(_, _)] [(_, _)])]; apply sum_product.
Qed.

(** So the bound of C68 holds for the product by any kernel of this kind. *)
Theorem C82_matmul_error ln_ exp_ pow_ K c (a b : tensor b32) ds m k n xs ys :
  computes (b32_ops ln_ exp_ pow_) sum_of K ->
  repr a (ds ++ [m; k]) xs -> repr b (ds ++ [k; n]) ys ->
  supported (ds ++ [n; m]) -> can_alloc c (prod (ds ++ [n; m])) ->
  exists zs, matmul_by (b32_ops ln_ exp_ pow_) K c a b TNone = Ok (fresh (ds ++ [n; m]) zs) /\
    forall (A B : list nat -> nat -> nat -> b32),
      (forall idx i p, in_shape ds idx -> i < m -> p < k -> elem (ds ++ [m; k]) xs (idx ++ [i; p]) = Some (A idx i p)) ->
      (forall idx p j, in_shape ds idx -> p < k -> j < n -> elem (ds ++ [k; n]) ys (idx ++ [p; j]) = Some (B idx p j)) ->
      forall idx i j z, in_shape ds idx -> i < m -> j < n ->
        elem (ds ++ [m; n]) zs (idx ++ [i; j]) = Some z -> number z ->
        (Rabs (B2R z - rsum (map (fun p => B2R (A idx i p) * B2R (B idx p j)) (seq 0 k)))
         <= ((1 + u32) ^ k - 1) * rsum (map (fun p => Rabs (B2R (A idx i p) * B2R (B idx p j))) (seq 0 k))
            + INR k * (1 + u32) ^ k * tiny)%R.
Proof. exact (@c82_matmul_error ln_ exp_ pow_ K c a b ds m k n xs ys). Qed.
Print Assumptions C82_matmul_error.

(** The same for a matrix and vectors. *)
Theorem C82_matvec_error ln_ exp_ pow_ K c (a x : tensor b32) dp da m k r xs ys :
  computes (b32_ops ln_ exp_ pow_) sum_of K ->
  repr a (da ++ [m; k]) xs -> repr x (dp ++ da ++ [r; k]) ys ->
  0 < prod (da ++ [m; k]) -> 0 < prod (dp ++ da ++ [r; k]) -> supported (dp ++ da ++ [r; m]) ->
  exists zs, matvec_by (b32_ops ln_ exp_ pow_) K c a x TNone = Ok (fresh (dp ++ da ++ [r; m]) zs) /\
    forall (A : list nat -> nat -> nat -> b32) (X : list nat -> list nat -> nat -> nat -> b32),
      (forall ia j p, in_shape da ia -> j < m -> p < k -> elem (da ++ [m; k]) xs (ia ++ [j; p]) = Some (A ia j p)) ->
      (forall ip ia i p, in_shape dp ip -> in_shape da ia -> i < r -> p < k ->
         elem (dp ++ da ++ [r; k]) ys (ip ++ ia ++ [i; p]) = Some (X ip ia i p)) ->
      forall ip ia i j z, in_shape dp ip -> in_shape da ia -> i < r -> j < m ->
        elem (dp ++ da ++ [r; m]) zs (ip ++ ia ++ [i; j]) = Some z -> number z ->
        (Rabs (B2R z - rsum (map (fun p => B2R (X ip ia i p) * B2R (A ia j p)) (seq 0 k)))
         <= ((1 + u32) ^ k - 1) * rsum (map (fun p => Rabs (B2R (X ip ia i p) * B2R (A ia j p))) (seq 0 k))
            + INR k * (1 + u32) ^ k * tiny)%R.
Proof. exact (@c82_matvec_error ln_ exp_ pow_ K c a x dp da m k r xs ys). Qed.
Print Assumptions C82_matvec_error.

(** Integers with a small sum of absolute values: every order gives the exact sum. *)
Theorem C82_exact ps v : sum_of ps v ->
  (forall x y, In (x, y) ps -> number x /\ number y /\ (exists i, B2R x = IZR i) /\ (exists j, B2R y = IZR j)) ->
  (rsum (map (fun '(x, y) => Rabs (B2R x * B2R y)) ps) <= 2 ^ 24)%R ->
  number v /\ B2R v = rsum (map (fun '(x, y) => B2R x * B2R y)%R ps).
Proof. exact (@c82_exact ps v). Qed.
Print Assumptions C82_exact.

(** So the product of matrices of integers is exact, by any kernel of this kind, in the entries
    whose products sum to at most 2^24 in absolute value. *)
Theorem C82_matmul_exact ln_ exp_ pow_ K c (a b : tensor b32) ds m k n xs ys (P Q : list nat -> nat -> nat -> Z) :
  computes (b32_ops ln_ exp_ pow_) sum_of K ->
  repr a (ds ++ [m; k]) xs -> repr b (ds ++ [k; n]) ys ->
  supported (ds ++ [n; m]) -> can_alloc c (prod (ds ++ [n; m])) ->
  (forall idx i p, in_shape ds idx -> i < m -> p < k ->
     exists x, elem (ds ++ [m; k]) xs (idx ++ [i; p]) = Some x /\ number x /\ B2R x = IZR (P idx i p)) ->
  (forall idx p j, in_shape ds idx -> p < k -> j < n ->
     exists y, elem (ds ++ [k; n]) ys (idx ++ [p; j]) = Some y /\ number y /\ B2R y = IZR (Q idx p j)) ->
  exists zs, matmul_by (b32_ops ln_ exp_ pow_) K c a b TNone = Ok (fresh (ds ++ [n; m]) zs) /\
    forall idx i j, in_shape ds idx -> i < m -> j < n ->
      (fold_right Z.add 0 (map (fun p => Z.abs (P idx i p * Q idx p j)) (seq 0 k)) <= 2 ^ 24)%Z ->
      exists z, elem (ds ++ [m; n]) zs (idx ++ [i; j]) = Some z /\ number z /\
        B2R z = IZR (fold_right Z.add 0%Z (map (fun p => P idx i p * Q idx p j)%Z (seq 0 k))).
Proof. exact (@c82_matmul_exact ln_ exp_ pow_ K c a b ds m k n xs ys P Q). Qed.
Print Assumptions C82_matmul_exact.

Example C82_exact_example ln_ exp_ pow_ :
  let n k := b32_of_Z k 0 in
  match matmul_by (b32_ops ln_ exp_ pow_) (loop_kernel fma_from_right) dev
          (fresh [1; 3] [n 4095; n (-3); n 7]%Z) (fresh [3; 1] [n 4095; n 1000; n 9]%Z) TNone with
  | Ok r => map B2SF (tdata r) = [B2SF (n (4095 * 4095 - 3000 + 63)%Z)]
  | _ => False
  end.
Proof. vm_compute. reflexivity. Qed.
