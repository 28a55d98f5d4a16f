(** * C40: tile with any tensor of multiples *)
From Verif Require Import Base ShapeModel TensorModel ArrayModel Spec TileProofs.

(** The multiples are given as a tensor of any shape whose first dimension is [k], with the
    elements [ms] in row-major order.  The shape of the result uses the last [k] of [ms],
    the copying uses the last [r], and the buffer is allocated for the product of all of
    them.  If a multiple before the last [r] is greater than one, the end of the buffer is
    never written.  Otherwise, if one before the last [k] is greater than one, the call
    panics.  Otherwise the call tiles by the last [k] multiples.  With a vector, [k] is the
    number of multiples, and the last case is [C40_tile]. *)
Theorem C40_tile_any {A} c (t : tensor A) ds xs mt ms k md r :
  repr t ds xs -> repr mt (k :: md) ms -> 0 < prod ds -> 0 < prod ms -> k <= length ms ->
  r = Nat.max (length ds) k -> 0 < r -> (Z.of_nat (prod ds * prod ms) < 2 ^ 32)%Z ->
  supported (zip_with Nat.mul (pad_to r ds) (pad_to r (skipn (length ms - k) ms))) ->
  let last n := skipn (length ms - n) ms in
  let od := zip_with Nat.mul (pad_to r ds) (pad_to r (last k)) in
  (prod (last r) < prod ms -> tile c t mt = Ub) /\
  (prod (last k) < prod (last r) -> prod (last r) = prod ms -> tile c t mt = Panic) /\
  (prod (last k) = prod ms ->
   exists ys, tile c t mt = Ok (fresh od ys) /\ length ys = prod od /\
     forall idx, in_shape od idx -> elem od ys idx = elem ds xs (zip_with Nat.modulo (skipn (r - length ds) idx) ds)).
Proof. exact (@c40_tile_any A c t ds xs mt ms k md r). Qed.
Print Assumptions C40_tile_any.

(** A tensor of multiples without elements whose first dimension is positive. *)
Theorem C40_tile_no_multiples {A} c (t : tensor A) ds xs mt k md :
  repr t ds xs -> repr mt (k :: md) [] -> 0 < k -> tile c t mt = Panic.
Proof. exact (@c40_tile_no_multiples A c t ds xs mt k md). Qed.
Print Assumptions C40_tile_no_multiples.

(** A vector of two tiled by matrices of multiples, and a matrix by a matrix of one row. *)
Example C40_tile_any_example :
  tile dev (fresh [2] [5; 6]) (fresh [1; 2] [3; 2]) = Ub /\
  tile dev (fresh [1; 2] [5; 6]) (fresh [1; 2] [3; 2]) = Panic /\
  tile dev (fresh [2] [5; 6]) (fresh [1; 2] [1; 2]) = Ok (fresh [4] [5; 6; 5; 6]) /\
  tile dev (fresh [2] [5; 6]) (fresh [2; 2] [1; 1; 2; 2]) = Ok (fresh [2; 4] [5; 6; 5; 6; 5; 6; 5; 6]) /\
  tile dev (fresh [2] [5; 6]) (fresh [2; 0] []) = Panic.
Proof. vm_compute. repeat split; reflexivity. Qed.
