(** * Properties of transpose, concatenate, split, stack and tile (C34-C40) *)
From Coq Require Import ZifyBool ZifyNat ZifyN.
From Verif Require Import Base ShapeModel TensorModel AxisModel MapModel ArrayModel Spec BaseFacts
  ShapeFacts ShapeFacts2 CoordFacts TensorFacts TensorFacts2 MapFacts SafeFacts ArrayFacts SplitFacts
  StackFacts.
From Verif Require Import ArrayProofs.

(** ** C34 *)

Theorem C34_transpose {A} c (t : tensor A) ds r k xs :
  repr t (ds ++ [r; k]) xs -> 0 < prod (ds ++ [r; k]) ->
  exists ys, transpose c t = Ok (fresh (ds ++ [k; r]) ys) /\ length ys = prod (ds ++ [k; r]) /\
    forall i1 j i, in_shape ds i1 -> j < r -> i < k ->
      elem (ds ++ [k; r]) ys (i1 ++ [i; j]) = elem (ds ++ [r; k]) xs (i1 ++ [j; i]).
Proof. exact (@c34_transpose A c t ds r k xs). Qed.
Print Assumptions C34_transpose.

(** A vector becomes a column. *)
Theorem C34_transpose_vector {A} c (t : tensor A) k xs :
  repr t [k] xs -> 0 < k -> transpose c t = Ok (fresh [k; 1] xs).
Proof. exact (@c34_transpose_vector A c t k xs). Qed.
Print Assumptions C34_transpose_vector.

Theorem C34_transpose_twice {A} c (t : tensor A) ds r k xs :
  repr t (ds ++ [r; k]) xs -> 0 < prod (ds ++ [r; k]) ->
  (let* u := transpose c t in transpose c u) = Ok (fresh (ds ++ [r; k]) xs).
Proof. exact (@c34_transpose_twice A c t ds r k xs). Qed.
Print Assumptions C34_transpose_twice.

(** A scalar has no columns to exchange. *)
Theorem C34_transpose_scalar {A} c (t : tensor A) xs : repr t [] xs -> transpose c t = Panic.
Proof. exact (@c34_transpose_scalar A c t xs). Qed.
Print Assumptions C34_transpose_scalar.

Example C34_example :
  transpose dev (fresh [2; 3] [1; 2; 3; 4; 5; 6]) = Ok (fresh [3; 2] [1; 4; 2; 5; 3; 6]) /\
  (* a view: the last two rows of a 3x2 tensor *)
  transpose dev (mkTensor (canon [2; 2]) 2 4 [1; 2; 3; 4; 5; 6]) = Ok (fresh [2; 2] [3; 5; 4; 6]).
Proof. split; reflexivity. Qed.

(** ** C35 *)

Theorem C35_concatenate {A} c ax d1 d2 (ts : list (tensor A)) parts :
  parts <> [] -> Forall2 (fun t p => repr t (d1 ++ fst p :: d2) (snd p)) ts parts ->
  selects ax (length d1) (length d1 + 1 + length d2) -> length d2 < 5 ->
  supported (d1 ++ list_sum (map fst parts) :: d2) ->
  can_alloc c (prod (d1 ++ list_sum (map fst parts) :: d2)) ->
  exists ys, concatenate_axis c ax ts = Ok (fresh (d1 ++ list_sum (map fst parts) :: d2) ys) /\
    length ys = prod (d1 ++ list_sum (map fst parts) :: d2) /\
    forall q m xs, nth_error parts q = Some (m, xs) ->
      forall i1 k i2, in_shape d1 i1 -> k < m -> in_shape d2 i2 ->
        elem (d1 ++ list_sum (map fst parts) :: d2) ys
          (i1 ++ (list_sum (firstn q (map fst parts)) + k) :: i2)
        = elem (d1 ++ m :: d2) xs (i1 ++ k :: i2).
Proof. exact (@c35_concatenate A c ax d1 d2 ts parts). Qed.
Print Assumptions C35_concatenate.

(** [concatenate] is concatenation along the first axis. *)
Theorem C35_concatenate_first {A} c (ts : list (tensor A)) :
  concatenate c ts = concatenate_axis c None ts.
Proof. exact (@c35_concatenate_first A c ts). Qed.
Print Assumptions C35_concatenate_first.

(** Tensors that differ in rank, or in a dimension other than the axis, are rejected. *)
Theorem C35_concatenate_rejects {A} c ax p (ts : list (tensor A)) parts ds0 xs0 ds xs :
  Forall2 (fun t p => repr t (fst p) (snd p)) ts parts ->
  nth_error parts 0 = Some (ds0, xs0) -> selects ax p (length ds0) -> In (ds, xs) parts ->
  (length ds <> length ds0 \/ exists i, i < length ds0 /\ i <> p /\ nth i ds 0 <> nth i ds0 0) ->
  concatenate_axis c ax ts = Panic.
Proof. exact (@c35_concatenate_rejects A c ax p ts parts ds0 xs0 ds xs). Qed.
Print Assumptions C35_concatenate_rejects.

Theorem C35_concatenate_nothing {A} c ax : @concatenate_axis A c ax [] = Panic.
Proof. exact (@c35_concatenate_nothing A c ax). Qed.
Print Assumptions C35_concatenate_nothing.

(** The claim does not extend to six dimensions: joining two tensors of rank six along
    the first axis panics. *)
Theorem C35_concatenate_rank6_refuted :
  exists (t : tensor nat) ds xs, repr t ds xs /\ 0 < prod ds /\ length ds = 6 /\
    concatenate dev [t; t] = Panic /\ concatenate release [t; t] = Panic.
Proof. exact c35_concatenate_rank6_refuted. Qed.
Print Assumptions C35_concatenate_rank6_refuted.

Example C35_example :
  concatenate_axis dev (Some (-1)%Z) [fresh [2; 1] [1; 2]; fresh [2; 2] [3; 4; 5; 6]]
    = Ok (fresh [2; 3] [1; 3; 4; 2; 5; 6]) /\
  concatenate dev [fresh [2; 1] [1; 2]; fresh [2; 2] [3; 4; 5; 6]] = Panic.
Proof. split; reflexivity. Qed.

(** ** C36 *)

(** The pieces are the successive ranges, and joining them gives the original back. *)
Theorem C36_split_concatenate {A} c ax (t : tensor A) d1 n d2 xs cuts :
  repr t (d1 ++ n :: d2) xs -> 0 < prod (d1 ++ n :: d2) ->
  selects ax (length d1) (length d1 + 1 + length d2) -> ascending 0 cuts n ->
  exists ps, split_axis c ax t (SplitCuts cuts) = Ok ps /\
    Forall2 (range_of d1 n d2 xs) ps (ranges 0 (cuts ++ [n])) /\
    (length d2 < 5 -> concatenate_axis c ax ps = Ok (fresh (d1 ++ n :: d2) xs)).
Proof. exact (@c36_split_concatenate A c ax t d1 n d2 xs cuts). Qed.
Print Assumptions C36_split_concatenate.

(** Cuts that go backwards or beyond the end panic.  (Along the first axis in every build,
    along another axis with overflow checks, or as long as the size of the oversized
    piece fits the machine word.) *)
Theorem C36_bad_cuts_panic {A} c ax (t : tensor A) d1 n d2 xs good bad rest :
  repr t (d1 ++ n :: d2) xs -> 0 < prod (d1 ++ n :: d2) ->
  selects ax (length d1) (length d1 + 1 + length d2) -> ascending 0 good n ->
  bad < List.last good 0 \/ n < bad -> (Z.of_nat bad < 2 ^ 64)%Z ->
  d1 = [] \/ overflow_checks c = true \/ bad <= n \/
    (Z.of_nat (prod d1 * prod d2) * Z.of_nat (bad - List.last good 0%nat) < 2 ^ 64)%Z ->
  split_axis c ax t (SplitCuts (good ++ bad :: rest)) = Panic.
Proof. exact (@c36_bad_cuts_panic A c ax t d1 n d2 xs good bad rest). Qed.
Print Assumptions C36_bad_cuts_panic.

(** Without overflow checks, a cut far beyond the end writes outside the new buffer: the
    size of the piece wraps around to a small number. *)
Theorem C36_release_overflow_refuted :
  exists (t : tensor nat) ds xs cut, repr t ds xs /\ 0 < prod ds /\ (Z.of_nat cut < 2 ^ 64)%Z /\
    nth 1 ds 0 < cut /\ split_axis release (Some 1%Z) t (SplitCuts [cut]) = Ub.
Proof. exact c36_release_overflow_refuted. Qed.
Print Assumptions C36_release_overflow_refuted.

(** An empty axis gives no pieces, and no pieces cannot be joined again. *)
Theorem C36_empty_refuted :
  exists (t : tensor nat) ds, repr t ds [] /\ split_axis dev None t (SplitCuts []) = Ok [] /\
    @concatenate_axis nat dev None [] = Panic.
Proof. exact c36_empty_refuted. Qed.
Print Assumptions C36_empty_refuted.

Example C36_example :
  split_axis dev (Some 1%Z) (fresh [2; 3] [1; 2; 3; 4; 5; 6]) (SplitCuts [1; 1])
    = Ok [fresh [2; 1] [1; 4]; fresh [2; 2] [2; 3; 5; 6]] /\
  concatenate_axis dev (Some 1%Z) [fresh [2; 1] [1; 4]; fresh [2; 2] [2; 3; 5; 6]]
    = Ok (fresh [2; 3] [1; 2; 3; 4; 5; 6]) /\
  split_axis release (Some 1%Z) (fresh [2; 3] [1; 2; 3; 4; 5; 6]) (SplitCuts [2; 1]) = Panic /\
  split_axis release (Some 1%Z) (fresh [2; 3] [1; 2; 3; 4; 5; 6]) (SplitCuts [4]) = Panic.
Proof.
  split; [reflexivity|]. split; [reflexivity|].
  assert (H : repr (fresh [2; 3] [1; 2; 3; 4; 5; 6]) ([2] ++ 3 :: []) [1; 2; 3; 4; 5; 6])
    by (apply repr_fresh; [split; cbn; lia|reflexivity]).
  split.
  - apply (c36_bad_cuts_panic release (Some 1%Z) _ [2] 3 [] [1; 2; 3; 4; 5; 6] [2] 1 []); auto; cbn; try lia.
    split; lia.
  - apply (c36_bad_cuts_panic release (Some 1%Z) _ [2] 3 [] [1; 2; 3; 4; 5; 6] [] 4 []); auto; cbn; try lia.
    split; lia.
Qed.

(** ** C37 *)

(** When [n] divides the axis length: [n] pieces of equal length. *)
Theorem C37_split_equal {A} c ax (t : tensor A) d1 n m d2 xs :
  repr t (d1 ++ (n * m) :: d2) xs -> 0 < prod (d1 ++ (n * m) :: d2) ->
  selects ax (length d1) (length d1 + 1 + length d2) ->
  exists ps, split_axis c ax t (SplitEqual n) = Ok ps /\ length ps = n /\
    Forall2 (range_of d1 (n * m) d2 xs) ps (map (fun i => (i * m, (i + 1) * m)) (seq 0 n)).
Proof. exact (@c37_split_equal A c ax t d1 n m d2 xs). Qed.
Print Assumptions C37_split_equal.

(** What [split(n)] does for any [n]: with [step = len / n], it yields [len / step] pieces
    of length [step] if [step] divides the axis, and panics otherwise. *)
Theorem C37_split_sections {A} c ax (t : tensor A) d1 len d2 xs n :
  repr t (d1 ++ len :: d2) xs -> 0 < prod (d1 ++ len :: d2) ->
  selects ax (length d1) (length d1 + 1 + length d2) ->
  (n = 0 \/ len < n \/ ~ Nat.divide (len / n) len -> split_axis c ax t (SplitEqual n) = Panic) /\
  (forall step count, 0 < n <= len -> step = len / n -> len = count * step ->
    exists ps, split_axis c ax t (SplitEqual n) = Ok ps /\
      Forall2 (range_of d1 len d2 xs) ps (map (fun i => (i * step, (i + 1) * step)) (seq 0 count))).
Proof. exact (@c37_split_sections A c ax t d1 len d2 xs n). Qed.
Print Assumptions C37_split_sections.

(** Six elements split into four sections give six pieces. *)
Theorem C37_split_equal_refuted :
  exists (t : tensor nat) n ps, split dev t (SplitEqual n) = Ok ps /\ length ps <> n /\
    repr t [6] [1; 2; 3; 4; 5; 6] /\ n = 4.
Proof. exact c37_split_equal_refuted. Qed.
Print Assumptions C37_split_equal_refuted.

Example C37_example :
  hsplit dev (fresh [2; 4] [1; 2; 3; 4; 5; 6; 7; 8]) (SplitEqual 2)
    = Ok [fresh [2; 2] [1; 2; 5; 6]; fresh [2; 2] [3; 4; 7; 8]] /\
  split dev (fresh [5] [1; 2; 3; 4; 5]) (SplitEqual 2) = Panic.
Proof. split; reflexivity. Qed.

(** ** C38 *)

Theorem C38_stack {A} c ax d1 d2 (ts : list (tensor A)) xss :
  xss <> [] -> Forall2 (fun t xs => repr t (d1 ++ d2) xs) ts xss ->
  selects ax (length d1) (length d1 + length d2 + 1) ->
  0 < prod (d1 ++ d2) -> length d2 < 5 -> supported (d1 ++ length xss :: d2) ->
  exists ys, stack_axis c ax ts = Ok (fresh (d1 ++ length xss :: d2) ys) /\
    length ys = prod (d1 ++ length xss :: d2) /\
    forall q xs, nth_error xss q = Some xs ->
      forall i1 i2, in_shape d1 i1 -> in_shape d2 i2 ->
        elem (d1 ++ length xss :: d2) ys (i1 ++ q :: i2) = elem (d1 ++ d2) xs (i1 ++ i2).
Proof. exact (@c38_stack A c ax d1 d2 ts xss). Qed.
Print Assumptions C38_stack.

Theorem C38_stack_rejects {A} c ax (ts : list (tensor A)) parts ds0 xs0 ds xs :
  Forall2 (fun t p => repr t (fst p) (snd p)) ts parts ->
  nth_error parts 0 = Some (ds0, xs0) -> In (ds, xs) parts -> ds <> ds0 ->
  stack_axis c ax ts = Panic.
Proof. exact (@c38_stack_rejects A c ax ts parts ds0 xs0 ds xs). Qed.
Print Assumptions C38_stack_rejects.

(** [stack] is stacking along a new first axis. *)
Theorem C38_stack_first {A} c (ts : list (tensor A)) : stack c ts = stack_axis c None ts.
Proof. exact (@c38_stack_first A c ts). Qed.
Print Assumptions C38_stack_first.

Theorem C38_vstack {A} c ds (ts : list (tensor A)) xss :
  xss <> [] -> Forall2 (fun t xs => repr t ds xs) ts xss ->
  0 < prod ds -> length ds < 5 -> supported (length xss :: ds) ->
  vstack c ts = stack_axis c (Some 0%Z) ts /\
  exists ys, vstack c ts = Ok (fresh (length xss :: ds) ys).
Proof. exact (@c38_vstack A c ds ts xss). Qed.
Print Assumptions C38_vstack.

(** [hstack] joins vectors end to end and other tensors along the second axis. *)
Theorem C38_hstack {A} c (t : tensor A) ts ds xs :
  repr t ds xs ->
  hstack c (t :: ts) = concatenate_axis c (Some (if length ds =? 1 then 0%Z else 1%Z)) (t :: ts).
Proof. exact (@c38_hstack A c t ts ds xs). Qed.
Print Assumptions C38_hstack.

(** [dstack] of vectors and matrices: the index of the tensor becomes the third axis
    (a vector is first seen as a matrix of one row). *)
Theorem C38_dstack_matrix {A} c r k (ts : list (tensor A)) xss :
  xss <> [] -> Forall2 (fun t xs => repr t [r; k] xs) ts xss -> 0 < r -> 0 < k ->
  supported [r; k; length xss] ->
  exists ys, dstack c ts = Ok (fresh [r; k; length xss] ys) /\
    length ys = prod [r; k; length xss] /\
    forall q xs, nth_error xss q = Some xs -> forall i j, i < r -> j < k ->
      elem [r; k; length xss] ys [i; j; q] = elem [r; k] xs [i; j].
Proof. exact (@c38_dstack_matrix A c r k ts xss). Qed.
Print Assumptions C38_dstack_matrix.

Theorem C38_dstack_vector {A} c k (ts : list (tensor A)) xss :
  xss <> [] -> Forall2 (fun t xs => repr t [k] xs) ts xss -> 0 < k ->
  supported [1; k; length xss] ->
  exists ys, dstack c ts = Ok (fresh [1; k; length xss] ys) /\
    length ys = prod [1; k; length xss] /\
    forall q xs, nth_error xss q = Some xs -> forall j, j < k ->
      elem [1; k; length xss] ys [0; j; q] = nth_error xs j.
Proof. exact (@c38_dstack_vector A c k ts xss). Qed.
Print Assumptions C38_dstack_vector.

(** [dstack] of tensors of rank three and more joins along the third axis. *)
Theorem C38_dstack_high {A} c ds (ts : list (tensor A)) xss :
  xss <> [] -> Forall2 (fun t xs => repr t ds xs) ts xss -> 2 < length ds ->
  dstack c ts = concatenate_axis c (Some 2%Z) ts.
Proof. exact (@c38_dstack_high A c ds ts xss). Qed.
Print Assumptions C38_dstack_high.

(** The claim does not extend to tensors of rank five: a new first axis panics. *)
Theorem C38_stack_rank5_refuted :
  exists (t : tensor nat) ds xs, repr t ds xs /\ 0 < prod ds /\ length ds = 5 /\
    stack dev [t; t] = Panic /\ stack release [t; t] = Panic /\ vstack dev [t; t] = Panic.
Proof. exact c38_stack_rank5_refuted. Qed.
Print Assumptions C38_stack_rank5_refuted.

(** Nor to tensors without elements. *)
Theorem C38_stack_empty_refuted :
  exists (t : tensor nat) ds, repr t ds [] /\ stack dev [t; t] = Panic /\
    exists u, vstack dev [t; t] = Ok u.
Proof. exact c38_stack_empty_refuted. Qed.
Print Assumptions C38_stack_empty_refuted.

Example C38_example :
  stack_axis dev (Some 1%Z) [fresh [2] [1; 2]; fresh [2] [3; 4]; fresh [2] [5; 6]]
    = Ok (fresh [2; 3] [1; 3; 5; 2; 4; 6]) /\
  vstack dev [fresh [2] [1; 2]; fresh [2] [3; 4]] = Ok (fresh [2; 2] [1; 2; 3; 4]) /\
  hstack dev [fresh [2] [1; 2]; fresh [1] [3]] = Ok (fresh [3] [1; 2; 3]) /\
  hstack dev [fresh [2; 1] [1; 2]; fresh [2; 1] [3; 4]] = Ok (fresh [2; 2] [1; 3; 2; 4]) /\
  dstack dev [fresh [2] [1; 2]; fresh [2] [3; 4]] = Ok (fresh [1; 2; 2] [1; 3; 2; 4]) /\
  stack dev [fresh [2] [1; 2]; fresh [1] [3]] = Panic.
Proof. repeat split; reflexivity. Qed.

(** ** C39 *)

(** [unstack] along the first axis returns no tensor at all; along another axis it returns
    one tensor, with all the elements and the same dimensions. *)
Theorem C39_unstack_actual {A} c ax (t : tensor A) d1 n d2 xs :
  repr t (d1 ++ n :: d2) xs -> 0 < prod (d1 ++ n :: d2) ->
  selects ax (length d1) (length d1 + 1 + length d2) ->
  (d1 = [] -> unstack c ax t = Ok []) /\
  (d1 <> [] -> exists u, unstack c ax t = Ok [u] /\ repr u (d1 ++ n :: d2) xs).
Proof. exact (@c39_unstack_actual A c ax t d1 n d2 xs). Qed.
Print Assumptions C39_unstack_actual.

Theorem C39_unstack_refuted :
  exists (ts : list (tensor nat)) t, stack dev ts = Ok t /\ unstack dev None t = Ok [] /\ ts <> [].
Proof. exact c39_unstack_refuted. Qed.
Print Assumptions C39_unstack_refuted.

Example C39_example :
  unstack dev (Some 1%Z) (fresh [2; 3] [1; 2; 3; 4; 5; 6]) = Ok [fresh [2; 3] [1; 2; 3; 4; 5; 6]] /\
  unstack dev (Some 0%Z) (fresh [2; 3] [1; 2; 3; 4; 5; 6]) = Ok [].
Proof. split; reflexivity. Qed.

(** ** C40 *)

(** [ms] is the list of multiples, given as a vector. *)
Theorem C40_tile {A} c (t : tensor A) ds xs mt ms r :
  repr t ds xs -> repr mt [length ms] ms -> 0 < prod ds -> 0 < prod ms ->
  r = Nat.max (length ds) (length ms) -> 0 < r ->
  supported (zip_with Nat.mul (pad_to r ds) (pad_to r ms)) ->
  exists ys, tile c t mt = Ok (fresh (zip_with Nat.mul (pad_to r ds) (pad_to r ms)) ys) /\
    length ys = prod (zip_with Nat.mul (pad_to r ds) (pad_to r ms)) /\
    forall idx, in_shape (zip_with Nat.mul (pad_to r ds) (pad_to r ms)) idx ->
      elem (zip_with Nat.mul (pad_to r ds) (pad_to r ms)) ys idx
      = elem ds xs (zip_with Nat.modulo (skipn (r - length ds) idx) ds).
Proof. exact (@c40_tile A c t ds xs mt ms r). Qed.
Print Assumptions C40_tile.

(** A zero among the multiples is rejected, and so is a single number given as a scalar. *)
Theorem C40_tile_zero_refuted :
  tile dev (fresh [2] [1; 2]) (fresh [1] [0]) = Panic /\
  tile dev (fresh [2] [1; 2]) (fresh [] [2]) = Panic.
Proof. exact c40_tile_zero_refuted. Qed.
Print Assumptions C40_tile_zero_refuted.

(** The multiples may be any tensor: given as a matrix of one row, only the first of them
    is used for the repetition, while memory is reserved for all.  The rest of the new
    buffer stays uninitialised.  (The code then notices the wrong length and panics,
    dropping the uninitialised elements on the way; see [unsafe_init].) *)
Theorem C40_tile_matrix_multiples_refuted :
  exists (t : tensor nat) mt, repr t [3] [1; 2; 3] /\ repr mt [1; 2] [2; 2] /\ tile dev t mt = Ub.
Proof. exact c40_tile_matrix_multiples_refuted. Qed.
Print Assumptions C40_tile_matrix_multiples_refuted.

Example C40_example :
  tile dev (fresh [2; 2] [1; 2; 3; 4]) (fresh [1] [2])
    = Ok (fresh [2; 4] [1; 2; 1; 2; 3; 4; 3; 4]) /\
  tile dev (fresh [2] [1; 2]) (fresh [2] [2; 2])
    = Ok (fresh [2; 4] [1; 2; 1; 2; 1; 2; 1; 2]) /\
  tile dev (fresh [2; 2] [1; 2; 3; 4]) (fresh [2] [2; 1])
    = Ok (fresh [4; 2] [1; 2; 3; 4; 1; 2; 3; 4]).
Proof. repeat split; reflexivity. Qed.
