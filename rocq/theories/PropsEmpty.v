(** * Arguments without elements, and products of unequal batches *)
From Verif Require Import Base ShapeModel TensorModel AxisModel MapModel ArrayModel NumModel FloatModel LinalgModel Spec
  LinalgSpec ShapeFacts.
From Verif Require Import ExactProofs3.

(** ** C34 *)

(** The transpose of a tensor without elements: when the batch dimensions multiply to zero
    the result is empty, but its last two dimensions are at least one; otherwise the call
    panics. *)
Theorem C34_transpose_empty {A} c (t : tensor A) ds r k :
  repr t (ds ++ [r; k]) [] -> can_alloc c 0 ->
  transpose c t = if prod ds =? 0 then Ok (fresh (ds ++ [Nat.max 1 k; Nat.max 1 r]) []) else Panic.
Proof. exact (@c34_transpose_empty A c t ds r k). Qed.
Print Assumptions C34_transpose_empty.

Example C34_transpose_empty_example :
  transpose dev (fresh [0; 3] (@nil nat)) = Panic /\
  transpose dev (fresh [0; 2; 3] (@nil nat)) = Ok (fresh [0; 3; 2] []) /\
  transpose dev (fresh [0; 0; 3] (@nil nat)) = Ok (fresh [0; 3; 1] []).
Proof. vm_compute. repeat split; reflexivity. Qed.

(** ** C36, C37, C39 *)

(** Splitting a tensor without elements: along an axis of length zero no piece at all is
    returned, whatever the cut list; along any other axis the call panics. *)
Theorem C36_empty {A} c ax (t : tensor A) d1 n d2 cuts :
  repr t (d1 ++ n :: d2) [] -> selects ax (length d1) (length d1 + 1 + length d2) -> ascending 0 cuts n ->
  split_axis c ax t (SplitCuts cuts) = if n =? 0 then Ok [] else Panic.
Proof. exact (@c36_empty A c ax t d1 n d2 cuts). Qed.
Print Assumptions C36_empty.

(** Splitting it into equal sections always panics. *)
Theorem C37_empty {A} c ax (t : tensor A) d1 n d2 k :
  repr t (d1 ++ n :: d2) [] -> selects ax (length d1) (length d1 + 1 + length d2) ->
  split_axis c ax t (SplitEqual k) = Panic.
Proof. exact (@c37_empty A c ax t d1 n d2 k). Qed.
Print Assumptions C37_empty.

(** Unstacking it along the first axis returns nothing, even when that axis is not of length
    zero; along a later axis it returns nothing when that axis is of length zero and panics
    otherwise. *)
Theorem C39_empty {A} c ax (t : tensor A) d1 n d2 :
  repr t (d1 ++ n :: d2) [] -> selects ax (length d1) (length d1 + 1 + length d2) ->
  unstack c ax t = match d1 with [] => Ok [] | _ => if n =? 0 then Ok [] else Panic end.
Proof. exact (@c39_empty A c ax t d1 n d2). Qed.
Print Assumptions C39_empty.

Example C36_C37_C39_empty_example :
  split_axis dev (Some 1%Z) (fresh [3; 0] (@nil nat)) (SplitCuts [0; 0]) = Ok [] /\
  split_axis dev None (fresh [3; 0] (@nil nat)) (SplitCuts [1]) = Panic /\
  split_axis dev None (fresh [4; 0] (@nil nat)) (SplitEqual 2) = Panic /\
  unstack dev None (fresh [3; 0] (@nil nat)) = Ok [] /\
  unstack dev (Some 1%Z) (fresh [0; 3] (@nil nat)) = Panic.
Proof. vm_compute. repeat split; reflexivity. Qed.

(** ** C38 *)

(** Stacking works as stated even when the leading dimensions contain a zero: only the
    dimensions after the new axis must be positive. *)
Theorem C38_stack_general {A} c ax d1 d2 (ts : list (tensor A)) xss :
  xss <> [] -> Forall2 (fun t xs => repr t (d1 ++ d2) xs) ts xss ->
  selects ax (length d1) (length d1 + length d2 + 1) ->
  0 < prod d2 -> length d2 < 5 -> supported (d1 ++ length xss :: d2) ->
  can_alloc c (prod (d1 ++ length xss :: d2)) ->
  exists ys, stack_axis c ax ts = Ok (fresh (d1 ++ length xss :: d2) ys) /\
    length ys = prod (d1 ++ length xss :: d2) /\
    forall q xs, nth_error xss q = Some xs ->
      forall i1 i2, in_shape d1 i1 -> in_shape d2 i2 ->
        elem (d1 ++ length xss :: d2) ys (i1 ++ q :: i2) = elem (d1 ++ d2) xs (i1 ++ i2).
Proof. exact (@c38_stack_general A c ax d1 d2 ts xss). Qed.
Print Assumptions C38_stack_general.

(** When they multiply to zero, it panics. *)
Theorem C38_stack_zero {A} c ax d1 d2 (t : tensor A) ts :
  repr t (d1 ++ d2) [] -> selects ax (length d1) (length d1 + length d2 + 1) -> prod d2 = 0 ->
  stack_axis c ax (t :: ts) = Panic.
Proof. exact (@c38_stack_zero A c ax d1 d2 t ts). Qed.
Print Assumptions C38_stack_zero.

Example C38_stack_zero_example :
  stack_axis dev (Some 1%Z) [fresh [0; 3] (@nil nat); fresh [0; 3] []] = Ok (fresh [0; 2; 3] []) /\
  stack_axis dev (Some 0%Z) [fresh [0; 3] (@nil nat); fresh [0; 3] []] = Panic.
Proof. vm_compute. split; reflexivity. Qed.

(** ** C40 *)

(** Tiling panics when the tensor has no elements or some multiple is zero. *)
Theorem C40_tile_zero {A} c (t : tensor A) ds xs mt ms :
  repr t ds xs -> repr mt [length ms] ms -> prod ds * prod ms = 0 -> tile c t mt = Panic.
Proof. exact (@c40_tile_zero A c t ds xs mt ms). Qed.
Print Assumptions C40_tile_zero.

(** Tiling by a scalar tensor of multiples panics. *)
Theorem C40_tile_scalar_multiple {A} c (t : tensor A) ds xs mt ms :
  repr t ds xs -> repr mt [] ms -> tile c t mt = Panic.
Proof. exact (@c40_tile_scalar_multiple A c t ds xs mt ms). Qed.
Print Assumptions C40_tile_scalar_multiple.

(** Tiling a scalar by an empty list of multiples: the recursion depth is computed as 0 - 1.
    A debug build panics there; a release build wraps, and if its stack held 2^64 frames
    the recursion would copy the scalar. *)
Theorem C40_tile_nothing {A} c (t : tensor A) x mt :
  repr t [] [x] -> repr mt [0] [] -> tile c t mt = if overflow_checks c then Panic else Ok (fresh [] [x]).
Proof. exact (@c40_tile_nothing A c t x mt). Qed.
Print Assumptions C40_tile_nothing.

Example C40_tile_zero_example :
  tile dev (fresh [2] [5; 6]) (fresh [2] [3; 0]) = Panic /\ tile dev (fresh [2] [5; 6]) (fresh [] [3]) = Panic /\
  tile dev (fresh [] [5]) (fresh [0] []) = Panic.
Proof. vm_compute. repeat split; reflexivity. Qed.

(** ** C48 *)

(** The two theorems on unequal batches, for every transposition of the operands. The result
    has [m] rows and [n] columns, and [k] is the common inner dimension. *)
Theorem C48_matmul_more_t {F} (o : fops F) c (a b : tensor F) da db ar ac br bc m n xs ys tr :
  feq o (fzero o) (fzero o) = true ->
  repr a (da ++ [ar; ac]) xs -> repr b (db ++ [br; bc]) ys -> prod da < prod db -> 0 < prod da ->
  m = (match tr with TNone | TransposeB => ar | _ => ac end) ->
  n = (match tr with TNone | TransposeA => bc | _ => br end) ->
  0 < m -> 0 < n -> supported (db ++ [n; m]) ->
  matmul_t o c a b tr = Panic.
Proof. exact (@c48_matmul_more_t F o c a b da db ar ac br bc m n xs ys tr). Qed.
Print Assumptions C48_matmul_more_t.

Theorem C48_matmul_fewer_t {F} (o : fops F) c (a b : tensor F) da db ar ac br bc m k n xs ys tr :
  feq o (fzero o) (fzero o) = true ->
  repr a (da ++ [ar; ac]) xs -> repr b (db ++ [br; bc]) ys -> prod db < prod da ->
  m = (match tr with TNone | TransposeB => ar | _ => ac end) ->
  n = (match tr with TNone | TransposeA => bc | _ => br end) ->
  k = (match tr with TNone | TransposeB => ac | _ => ar end) ->
  k = (match tr with TNone | TransposeA => br | _ => bc end) ->
  0 < m -> 0 < k -> 0 < n -> (Z.of_nat (prod da * (m * n)) < 2 ^ 63)%Z ->
  toffset b + tsize b = length (tdata b) ->
  matmul_t o c a b tr = Ub.
Proof. exact (@c48_matmul_fewer_t F o c a b da db ar ac br bc m k n xs ys tr). Qed.
Print Assumptions C48_matmul_fewer_t.

Example C48_t_example :
  matmul_t Z_ops dev (fresh [2; 1; 2] [1; 2; 3; 4]%Z) (fresh [1; 2] [5; 6]%Z) TransposeB = Ub /\
  matmul_t Z_ops dev (fresh [1; 2] [5; 6]%Z) (fresh [2; 1; 2] [1; 2; 3; 4]%Z) TransposeA = Panic.
Proof. vm_compute. split; reflexivity. Qed.
