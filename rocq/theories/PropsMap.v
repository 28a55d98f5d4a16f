(** * Properties of map, fold, reduce and normalize (C24-C33) *)
From Coq Require Import ZifyBool ZifyNat ZifyN.
From Verif Require Import Base ShapeModel TensorModel AxisModel MapModel NumModel Spec BaseFacts
  ShapeFacts ShapeFacts2 CoordFacts TensorFacts TensorFacts2 MapFacts.
From Verif Require Import MapSpec MapProofs.

(** ** C24 *)

(** One call of [f] per coordinate, the results stored in call order. *)
Theorem C24_init {S V} c ds (f : S -> outcome (S * V)) st :
  supported ds -> can_alloc c (prod ds) ->
  init c (canon ds) f st =
  let* '(st', ys) := traverse (fun st _ => f st) st (coords ds) in Ok (st', fresh ds ys).
Proof. exact (@c24_init S V c ds f st). Qed.
Print Assumptions C24_init.

(** One call of [f] per coordinate in row-major order, with the coordinate listed
    innermost first. *)
Theorem C24_init_rindexed {S V} c ds (f : S -> list nat -> outcome (S * V)) st :
  supported ds -> can_alloc c (prod ds) ->
  init_rindexed c (canon ds) f st =
  let* '(st', ys) := traverse (fun st idx => f st (rev idx)) st (coords ds) in
  Ok (st', fresh ds ys).
Proof. exact (@c24_init_rindexed S V c ds f st). Qed.
Print Assumptions C24_init_rindexed.

(** The coordinates are exactly those of the shape, in row-major order. *)
Theorem C24_coords ds idx :
  (In idx (coords ds) <-> in_shape ds idx) /\
  (in_shape ds idx -> nth_error (coords ds) (ravel ds idx) = Some idx) /\
  length (coords ds) = prod ds.
Proof. exact (@c24_coords ds idx). Qed.
Print Assumptions C24_coords.

(** For a pure function of the coordinate: every cell holds its own value. *)
Theorem C24_init_rindexed_pure {V} c ds (f : list nat -> V) :
  supported ds -> can_alloc c (prod ds) ->
  exists ys, init_rindexed c (canon ds) (pure1 f) tt = Ok (tt, fresh ds ys) /\
    length ys = prod ds /\
    forall idx, in_shape ds idx -> elem ds ys idx = Some (f (rev idx)).
Proof. exact (@c24_init_rindexed_pure V c ds f). Qed.
Print Assumptions C24_init_rindexed_pure.

Example C24_example :
  init_rindexed dev (canon [2; 3]) (logged (fun i => i)) [] =
    Ok ([[0; 0]; [1; 0]; [2; 0]; [0; 1]; [1; 1]; [2; 1]],
        fresh [2; 3] [[0; 0]; [1; 0]; [2; 0]; [0; 1]; [1; 1]; [2; 1]]) /\
  init dev (canon [3]) (fun n => if n =? 2 then Panic else Ok (n + 1, n)) 0 = Panic.
Proof. split; reflexivity. Qed.

(** ** C25 *)

Theorem C25_map {S U V} c (t : tensor U) ds xs (f : S -> U -> outcome (S * V)) st :
  repr t ds xs -> can_alloc c (length xs) ->
  map_ c t f st = let* '(st', ys) := traverse f st xs in Ok (st', fresh ds ys).
Proof. exact (@c25_map S U V c t ds xs f st). Qed.
Print Assumptions C25_map.

Theorem C25_map_pure {U V} c (t : tensor U) ds xs (f : U -> V) :
  repr t ds xs -> can_alloc c (length xs) ->
  exists ys, map_ c t (pure1 f) tt = Ok (tt, fresh ds ys) /\ repr (fresh ds ys) ds ys /\
    forall idx, elem ds ys idx = option_map f (elem ds xs idx).
Proof. exact (@c25_map_pure U V c t ds xs f). Qed.
Print Assumptions C25_map_pure.

Example C25_example :
  map_ dev (mkTensor (canon [2; 2]) 1 4 [9; 1; 2; 3; 4; 9]) (logged (fun x => x * 10)) []
  = Ok ([1; 2; 3; 4], fresh [2; 2] [10; 20; 30; 40]).
Proof. reflexivity. Qed.

(** ** C26 *)

(** Rows are visited once each in row-major order of the outer coordinate. *)
Theorem C26_map_row {S U V} c N (t : tensor U) ds k xs (f : S -> list U -> outcome (S * list V)) st ds' :
  repr t (ds ++ [k]) xs -> 0 < k ->
  (forall st r st' vs, f st r = Ok (st', vs) -> length vs = N) ->
  ds' = (if (N =? 1) && (0 <? length ds) then ds else ds ++ [N]) ->
  supported ds' -> can_alloc c (prod ds') ->
  exists rows,
    length rows = prod ds /\
    (forall i j, in_shape ds i -> j < k -> exists row, elem ds rows i = Some row /\
       length row = k /\ nth_error row j = elem (ds ++ [k]) xs (i ++ [j])) /\
    map_row c N t f st =
      let* '(st', yss) := traverse f st rows in Ok (st', fresh ds' (concat yss)).
Proof. exact (@c26_map_row S U V c N t ds k xs f st ds'). Qed.
Print Assumptions C26_map_row.

(** Outputs of length [N] per outer coordinate, concatenated, are laid out along a last
    axis of length [N]. *)
Theorem C26_layout {V} N ds (yss : list (list V)) i j :
  Forall (fun r => length r = N) yss -> in_shape ds i -> j < N ->
  elem (ds ++ [N]) (concat yss) (i ++ [j]) =
  match elem ds yss i with Some r => nth_error r j | None => None end.
Proof. exact (@c26_layout V N ds yss i j). Qed.
Print Assumptions C26_layout.

Theorem C26_map_expand {S U V} c N (t : tensor U) ds xs (f : S -> U -> outcome (S * list V)) st :
  repr t ds xs -> supported (ds ++ [N]) -> can_alloc c (N * length xs) ->
  (forall st x st' vs, f st x = Ok (st', vs) -> length vs = N) ->
  map_expand c N t f st =
  let* '(st', yss) := traverse f st xs in Ok (st', fresh (ds ++ [N]) (concat yss)).
Proof. exact (@c26_map_expand S U V c N t ds xs f st). Qed.
Print Assumptions C26_map_expand.

(** Tensors without rows: a scalar, or rows of zero elements. *)
Theorem C26_map_row_no_rows {S U V} c N (t : tensor U) ds xs (f : S -> list U -> outcome (S * list V)) st :
  repr t ds xs -> last ds 0 = 0 -> map_row c N t f st = Panic.
Proof. exact (@c26_map_row_no_rows S U V c N t ds xs f st). Qed.
Print Assumptions C26_map_row_no_rows.

Example C26_example :
  map_row dev 2 (fresh [2; 3] [1; 2; 3; 4; 5; 6]) (pure1 (fun r => [list_sum r; length r])) tt
    = Ok (tt, fresh [2; 2] [6; 3; 15; 3]) /\
  map_row dev 1 (fresh [2; 3] [1; 2; 3; 4; 5; 6]) (pure1 (fun r => [list_sum r])) tt
    = Ok (tt, fresh [2] [6; 15]) /\
  map_row dev 1 (fresh [3] [1; 2; 3]) (pure1 (fun r => [list_sum r])) tt = Ok (tt, fresh [1] [6]) /\
  map_expand dev 2 (fresh [3] [1; 2; 3]) (pure1 (fun x => [x; x * x])) tt
    = Ok (tt, fresh [3; 2] [1; 1; 2; 4; 3; 9]).
Proof. repeat split. Qed.

(** ** C27 *)

(** One call per output coordinate, in row-major order, on the elements at the trailing
    parts of the coordinate. *)
Theorem C27_map2 {S T U V} c (ta : tensor T) (tb : tensor U) da db dl xs ys :
  repr ta da xs -> repr tb db ys -> xs <> [] -> ys <> [] ->
  (suffix db da /\ dl = da) \/ (suffix da db /\ dl = db) ->
  exists ps : list (T * U),
    length ps = prod dl /\
    (forall idx, in_shape dl idx -> exists x y,
       elem da xs (skipn (length dl - length da) idx) = Some x /\
       elem db ys (skipn (length dl - length db) idx) = Some y /\
       elem dl ps idx = Some (x, y)) /\
    forall (f : S -> T -> U -> outcome (S * V)) st,
      map2 c ta tb f st =
      let* '(st', vs) := traverse (fun st '(x, y) => f st x y) st ps in Ok (st', fresh dl vs).
Proof. exact (@c27_map2 S T U V c ta tb da db dl xs ys). Qed.
Print Assumptions C27_map2.

Theorem C27_map2_rejects {S T U V} c (ta : tensor T) (tb : tensor U) da db xs ys
    (f : S -> T -> U -> outcome (S * V)) st :
  repr ta da xs -> repr tb db ys ->
  (~ suffix da db /\ ~ suffix db da) \/ xs = [] \/ ys = [] ->
  map2 c ta tb f st = Panic.
Proof. exact (@c27_map2_rejects S T U V c ta tb da db xs ys f st). Qed.
Print Assumptions C27_map2_rejects.

Theorem C27_map3 {S T U V W} c (ta : tensor T) (tb : tensor U) (tc : tensor V) da db dc dl xs ys zs :
  repr ta da xs -> repr tb db ys -> repr tc dc zs -> xs <> [] -> ys <> [] -> zs <> [] ->
  suffix da dl -> suffix db dl -> suffix dc dl -> (dl = da \/ dl = db \/ dl = dc) ->
  exists ps : list (T * (U * V)),
    length ps = prod dl /\
    (forall idx, in_shape dl idx -> exists x y z,
       elem da xs (skipn (length dl - length da) idx) = Some x /\
       elem db ys (skipn (length dl - length db) idx) = Some y /\
       elem dc zs (skipn (length dl - length dc) idx) = Some z /\
       elem dl ps idx = Some (x, (y, z))) /\
    forall (f : S -> T -> U -> V -> outcome (S * W)) st,
      map3 c ta tb tc f st =
      let* '(st', vs) := traverse (fun st '(x, (y, z)) => f st x y z) st ps in Ok (st', fresh dl vs).
Proof. exact (@c27_map3 S T U V W c ta tb tc da db dc dl xs ys zs). Qed.
Print Assumptions C27_map3.

(** Without a common trailing form, or with an empty operand, [map3] panics. *)
Theorem C27_map3_rejects {S T U V W} c (ta : tensor T) (tb : tensor U) (tc : tensor V) da db dc xs ys zs
    (f : S -> T -> U -> V -> outcome (S * W)) st :
  repr ta da xs -> repr tb db ys -> repr tc dc zs ->
  (~ exists dl, suffix da dl /\ suffix db dl /\ suffix dc dl /\ (dl = da \/ dl = db \/ dl = dc)) \/
  xs = [] \/ ys = [] \/ zs = [] ->
  map3 c ta tb tc f st = Panic.
Proof. exact (@c27_map3_rejects S T U V W c ta tb tc da db dc xs ys zs f st). Qed.
Print Assumptions C27_map3_rejects.

Example C27_example :
  map2 dev (fresh [2; 3] [10; 20; 30; 40; 50; 60]) (fresh [3] [1; 2; 3])
    (fun log x y => Ok (log ++ [(x, y)], x - y)) []
  = Ok ([(10, 1); (20, 2); (30, 3); (40, 1); (50, 2); (60, 3)],
        fresh [2; 3] [9; 18; 27; 39; 48; 57]) /\
  map2 dev (fresh [3] [1; 2; 3]) (fresh [2; 3] [10; 20; 30; 40; 50; 60]) (pure2 (fun x y => y - x)) tt
  = Ok (tt, fresh [2; 3] [9; 18; 27; 39; 48; 57]) /\
  map2 dev (fresh [2] [1; 2]) (fresh [2; 3] [10; 20; 30; 40; 50; 60]) (pure2 (fun x y => y - x)) tt
  = Panic /\
  map3 dev (fresh [2] [1; 2]) (fresh [] [7]) (fresh [2; 2] [10; 20; 30; 40])
    (pure3 (fun x y z => x + y + z)) tt = Ok (tt, fresh [2; 2] [18; 29; 38; 49]).
Proof. repeat split. Qed.

(** ** C28 *)

(** [left op right] at every coordinate, operands in the written order. *)
Theorem C28_tensor_tensor {T U V} c (ta : tensor T) (tb : tensor U) da db dl xs ys
    (op : T -> U -> outcome V) r :
  repr ta da xs -> repr tb db ys -> xs <> [] -> ys <> [] ->
  (suffix db da /\ dl = da) \/ (suffix da db /\ dl = db) ->
  binop_tt c ta tb op = Ok r ->
  exists vs, r = fresh dl vs /\ length vs = prod dl /\
    forall idx, in_shape dl idx -> exists x y v,
      elem da xs (skipn (length dl - length da) idx) = Some x /\
      elem db ys (skipn (length dl - length db) idx) = Some y /\
      op x y = Ok v /\ elem dl vs idx = Some v.
Proof. exact (@c28_tensor_tensor T U V c ta tb da db dl xs ys op r). Qed.
Print Assumptions C28_tensor_tensor.

(** It succeeds whenever the element operation does on all the elements. *)
Theorem C28_tensor_tensor_total {T U V} c (ta : tensor T) (tb : tensor U) da db dl xs ys
    (op : T -> U -> outcome V) :
  repr ta da xs -> repr tb db ys -> xs <> [] -> ys <> [] ->
  (suffix db da /\ dl = da) \/ (suffix da db /\ dl = db) ->
  (forall x y, In x xs -> In y ys -> exists v, op x y = Ok v) ->
  exists r, binop_tt c ta tb op = Ok r.
Proof. exact (@c28_tensor_tensor_total T U V c ta tb da db dl xs ys op). Qed.
Print Assumptions C28_tensor_tensor_total.

Theorem C28_tensor_scalar {T U V} c (t : tensor T) ds xs (y : U) (op : T -> U -> outcome V) :
  repr t ds xs -> can_alloc c (length xs) ->
  binop_ts c t y op = let* vs := map_out (fun x => op x y) xs in Ok (fresh ds vs).
Proof. exact (@c28_tensor_scalar T U V c t ds xs y op). Qed.
Print Assumptions C28_tensor_scalar.

Theorem C28_scalar_tensor {T U V} c (t : tensor U) ds ys (x : T) (op : T -> U -> outcome V) :
  repr t ds ys -> can_alloc c (length ys) ->
  binop_st c x t op = let* vs := map_out (fun y => op x y) ys in Ok (fresh ds vs).
Proof. exact (@c28_scalar_tensor T U V c t ds ys x op). Qed.
Print Assumptions C28_scalar_tensor.

Theorem C28_unary {T V} c (t : tensor T) ds xs (op : T -> outcome V) :
  repr t ds xs -> can_alloc c (length xs) ->
  unop c t op = let* vs := map_out op xs in Ok (fresh ds vs).
Proof. exact (@c28_unary T V c t ds xs op). Qed.
Print Assumptions C28_unary.

(** A scalar operand behaves like a tensor of rank 0. *)
Theorem C28_scalar_is_rank_0 {T U V} c (t : tensor T) ds xs (y : U) (op : T -> U -> outcome V) :
  repr t ds xs -> xs <> [] ->
  binop_ts c t y op = binop_tt c t (fresh [] [y]) op.
Proof. exact (@c28_scalar_is_rank_0 T U V c t ds xs y op). Qed.
Print Assumptions C28_scalar_is_rank_0.

Example C28_example :
  let sub x y := usub dev x y in
  binop_tt dev (fresh [2] [10; 20]) (fresh [2] [1; 2]) sub = Ok (fresh [2] [9; 18]) /\
  binop_ts dev (fresh [2] [10; 20]) 5 sub = Ok (fresh [2] [5; 15]) /\
  binop_st dev 30 (fresh [2] [10; 20]) sub = Ok (fresh [2] [20; 10]) /\
  binop_tt dev (fresh [2] [1; 20]) (fresh [2] [10; 2]) sub = Panic.
Proof. repeat split. Qed.

(** ** C29 *)

Theorem C29_fold {S U R V} c (t : tensor U) ds xs (ini : R) (into : R -> V)
    (f : S -> R -> U -> outcome (S * R)) st :
  repr t ds xs ->
  fold_ c t ini into f st =
  let* '(st', r) := foldM f st ini xs in Ok (st', fresh [] [into r]).
Proof. exact (@c29_fold S U R V c t ds xs ini into f st). Qed.
Print Assumptions C29_fold.

Theorem C29_reduce {S T} c (t : tensor T) ds x xs (f : S -> T -> T -> outcome (S * T)) st :
  repr t ds (x :: xs) ->
  reduce c t f st = let* '(st', r) := foldM f st x xs in Ok (st', fresh [] [r]).
Proof. exact (@c29_reduce S T c t ds x xs f st). Qed.
Print Assumptions C29_reduce.

Theorem C29_reduce_empty {S T} c (t : tensor T) ds (f : S -> T -> T -> outcome (S * T)) st :
  repr t ds [] -> reduce c t f st = Panic.
Proof. exact (@c29_reduce_empty S T c t ds f st). Qed.
Print Assumptions C29_reduce_empty.

(** For a pure function this is the library's left fold. *)
Theorem C29_fold_pure {U R V} c (t : tensor U) ds xs (ini : R) (into : R -> V) (f : R -> U -> R) :
  repr t ds xs ->
  fold_ c t ini into (pure2 f) tt = Ok (tt, fresh [] [into (fold_left f xs ini)]).
Proof. exact (@c29_fold_pure U R V c t ds xs ini into f). Qed.
Print Assumptions C29_fold_pure.

Example C29_example :
  fold_ dev (fresh [2; 2] [1; 2; 3; 4]) [] (fun l => l) (fun n acc x => Ok (n + 1, acc ++ [x])) 0
    = Ok (4, fresh [] [[1; 2; 3; 4]]) /\
  reduce dev (fresh [2; 2] [100; 2; 3; 4]) (pure2 Nat.sub) tt = Ok (tt, fresh [] [91]).
Proof. split; reflexivity. Qed.

(** ** C30 *)

(** The lines are determined by the elements. *)
Theorem C30_lines_unique {T} d1 d d2 (xs : list T) ls ls' :
  axis_lines d1 d d2 xs ls -> axis_lines d1 d d2 xs ls' -> ls = ls'.
Proof. exact (@c30_lines_unique T d1 d d2 xs ls ls'). Qed.
Print Assumptions C30_lines_unique.

Theorem C30_fold_axis {S T R V} c (t : tensor T) a d1 d d2 xs (ini : R) (into : R -> V)
    (f : S -> R -> T -> outcome (S * R)) st :
  repr t (d1 ++ d :: d2) xs -> names_axis a (length d1) (length (d1 ++ d :: d2)) ->
  Forall (fun d => 0 < d) (d1 ++ d2) ->
  exists ls, axis_lines d1 d d2 xs ls /\
    fold_axis c t (Some a) ini into f st =
    let* '(st', rs) := traverse (fun st l => foldM f st ini l) st ls in
    Ok (st', fresh (d1 ++ d2) (map into rs)).
Proof. exact (@c30_fold_axis S T R V c t a d1 d d2 xs ini into f st). Qed.
Print Assumptions C30_fold_axis.

Theorem C30_reduce_axis {S T} c (t : tensor T) a d1 d d2 xs (f : S -> T -> T -> outcome (S * T)) st :
  repr t (d1 ++ d :: d2) xs -> names_axis a (length d1) (length (d1 ++ d :: d2)) ->
  Forall (fun d => 0 < d) (d1 ++ d2) ->
  exists ls, axis_lines d1 d d2 xs ls /\
    reduce_axis c t (Some a) f st =
    let* '(st', rs) := traverse (reduceM f) st ls in
    Ok (st', fresh (d1 ++ d2) rs).
Proof. exact (@c30_reduce_axis S T c t a d1 d d2 xs f st). Qed.
Print Assumptions C30_reduce_axis.

(** If a kept dimension is zero the operation panics. *)
Theorem C30_zero_kept_dim {S T R V} c (t : tensor T) a d1 d d2 xs (ini : R) (into : R -> V)
    (f : S -> R -> T -> outcome (S * R)) (g : S -> T -> T -> outcome (S * T)) st :
  repr t (d1 ++ d :: d2) xs -> names_axis a (length d1) (length (d1 ++ d :: d2)) ->
  In 0 (d1 ++ d2) ->
  fold_axis c t (Some a) ini into f st = Panic /\ reduce_axis c t (Some a) g st = Panic.
Proof. exact (@c30_zero_kept_dim S T R V c t a d1 d d2 xs ini into f g st). Qed.
Print Assumptions C30_zero_kept_dim.

(** Without an axis: the plain fold and reduce. *)
Theorem C30_fold_axis_none {S T R V} c (t : tensor T) ds xs (ini : R) (into : R -> V)
    (f : S -> R -> T -> outcome (S * R)) st :
  repr t ds xs -> fold_axis c t None ini into f st = fold_ c t ini into f st.
Proof. exact (@c30_fold_axis_none S T R V c t ds xs ini into f st). Qed.
Print Assumptions C30_fold_axis_none.

Theorem C30_reduce_axis_none {S T} c (t : tensor T) ds xs (f : S -> T -> T -> outcome (S * T)) st :
  repr t ds xs -> reduce_axis c t None f st = reduce c t f st.
Proof. exact (@c30_reduce_axis_none S T c t ds xs f st). Qed.
Print Assumptions C30_reduce_axis_none.

Example C30_example :
  let t := fresh [2; 3; 2] [1; 2; 3; 4; 5; 6; 7; 8; 9; 10; 11; 12] in
  fold_axis dev t (Some 1%Z) [] (fun l => l) (pure2 (fun acc x => acc ++ [x])) tt
    = Ok (tt, fresh [2; 2] [[1; 3; 5]; [2; 4; 6]; [7; 9; 11]; [8; 10; 12]]) /\
  fold_axis dev t (Some (-2)%Z) [] (fun l => l) (pure2 (fun acc x => acc ++ [x])) tt
    = Ok (tt, fresh [2; 2] [[1; 3; 5]; [2; 4; 6]; [7; 9; 11]; [8; 10; 12]]) /\
  reduce_axis dev t (Some 0%Z) (pure2 (fun acc x => x - acc)) tt
    = Ok (tt, fresh [3; 2] [6; 6; 6; 6; 6; 6]).
Proof. repeat split. Qed.

(** ** C31 *)

(** Which axis arguments the reductions accept, and what they mean: everything from
    [-rank] up, and the multiples of the rank below; all taken modulo the rank. *)
Theorem C31_actual c a r :
  0 < r <= 6 -> (- two63 <= a)%Z -> (a + Z.of_nat r < two63)%Z ->
  norm_axis c a r =
  if ((- Z.of_nat r <=? a) || (a mod Z.of_nat r =? 0))%Z
  then Ok (Z.to_nat (a mod Z.of_nat r)) else Panic.
Proof. exact (@c31_actual c a r). Qed.
Print Assumptions C31_actual.

(** A scalar has no axis: every explicit axis panics. *)
Theorem C31_scalar_rejects {S T R V} c (t : tensor T) xs a (ini : R) (into : R -> V)
    (f : S -> R -> T -> outcome (S * R)) (g : S -> T -> T -> outcome (S * T)) st :
  repr t [] xs -> (- two63 <= a < two63)%Z ->
  fold_axis c t (Some a) ini into f st = Panic /\ reduce_axis c t (Some a) g st = Panic.
Proof. exact (@c31_scalar_rejects S T R V c t xs a ini into f g st). Qed.
Print Assumptions C31_scalar_rejects.

(** An axis one past the last is taken as axis 0. *)
Theorem C31_refuted :
  exists (t : tensor nat) a,
    repr t [2; 3] [1; 2; 3; 4; 5; 6] /\ ~ (-2 <= a < 2)%Z /\
    reduce_axis dev t (Some a) (pure2 Nat.add) tt = Ok (tt, fresh [3] [5; 7; 9]).
Proof. exact c31_refuted. Qed.
Print Assumptions C31_refuted.

(** [axis_from_rank] accepts every axis; a too negative one lands anywhere. *)
Theorem C31_axis_from_rank_valid c a p r :
  r <= 6 -> names_axis a p r -> axis_from_rank c (Some a) r = Ok p.
Proof. exact (@c31_axis_from_rank_valid c a p r). Qed.
Print Assumptions C31_axis_from_rank_valid.

Theorem C31_axis_from_rank_refuted :
  axis_from_rank dev (Some (-4)%Z) 3 = Ok 0 /\ axis_from_rank dev (Some (-5)%Z) 3 = Ok 2 /\
  axis_from_rank dev (Some 7%Z) 3 = Ok 1.
Proof. exact c31_axis_from_rank_refuted. Qed.
Print Assumptions C31_axis_from_rank_refuted.

(** ** C32 *)

Theorem C32_fold_row_axis_partial {S T R V} c N (t : tensor T) a d1 d d2 k xs (ini : R) (into : R -> list V)
    (f : S -> R -> list T -> outcome (S * R)) st :
  repr t (d1 ++ d :: d2 ++ [k]) xs -> toffset t = 0 -> 0 < k ->
  names_axis a (length d1) (length (d1 ++ d :: d2 ++ [k])) ->
  Forall (fun d => 0 < d) (d1 ++ d2) -> 0 < N -> supported (d1 ++ d2 ++ [N]) ->
  (forall r, length (into r) = N) ->
  exists ls, row_lines d1 d d2 k xs ls /\
    fold_row c N t (Some a) ini into f st =
    let* '(st', rs) := traverse (fun st l => foldM f st ini l) st ls in
    Ok (st', fresh (d1 ++ d2 ++ [N]) (concat (map into rs))).
Proof. exact (@c32_fold_row_axis_partial S T R V c N t a d1 d d2 k xs ini into f st). Qed.
Print Assumptions C32_fold_row_axis_partial.

Theorem C32_fold_row_none_partial {S T R V} c N (t : tensor T) ds k xs (ini : R) (into : R -> list V)
    (f : S -> R -> list T -> outcome (S * R)) st :
  repr t (ds ++ [k]) xs -> toffset t = 0 -> 0 < k ->
  supported [N] -> can_alloc c N -> (forall r, length (into r) = N) ->
  exists rows,
    length rows = prod ds /\
    (forall i j, in_shape ds i -> j < k -> exists row, elem ds rows i = Some row /\
       length row = k /\ nth_error row j = elem (ds ++ [k]) xs (i ++ [j])) /\
    fold_row c N t None ini into f st =
    let* '(st', r) := foldM f st ini rows in Ok (st', fresh [N] (into r)).
Proof. exact (@c32_fold_row_none_partial S T R V c N t ds k xs ini into f st). Qed.
Print Assumptions C32_fold_row_none_partial.

(** A rank-1 tensor with an explicit axis: its single row is folded once per element. *)
Theorem C32_rank1_refuted :
  exists t : tensor nat, repr t [3] [1; 2; 3] /\
    fold_row dev 1 t (Some 0%Z) [] (fun r => [r]) (fun calls r row => Ok (calls + 1, r ++ [row])) 0
    = Ok (3, fresh [1] [[[1; 2; 3]; [1; 2; 3]; [1; 2; 3]]]).
Proof. exact c32_rank1_refuted. Qed.
Print Assumptions C32_rank1_refuted.

(** On a view that does not start at the beginning of its buffer it panics. *)
Theorem C32_view_refuted :
  exists t : tensor nat, subslice dev (fresh [4; 2] [1; 2; 3; 4; 5; 6; 7; 8]) 1 2 = Ok t /\
    repr t [2; 2] [3; 4; 5; 6] /\
    fold_row dev 1 t None 0 (fun r => [r]) (pure2 (fun r row => r + list_sum row)) tt = Panic /\
    fold_row release 1 t (Some 0%Z) 0 (fun r => [r]) (pure2 (fun r row => r + list_sum row)) tt = Panic.
Proof. exact c32_view_refuted. Qed.
Print Assumptions C32_view_refuted.

Example C32_example :
  fold_row dev 1 (fresh [2; 3; 2] [1; 2; 3; 4; 5; 6; 7; 8; 9; 10; 11; 12]) (Some 1%Z) []
    (fun r => [r]) (fun n r row => Ok (n + 1, r ++ [row])) 0
  = Ok (6, fresh [2; 1] [[[1; 2]; [3; 4]; [5; 6]]; [[7; 8]; [9; 10]; [11; 12]]]).
Proof. reflexivity. Qed.

(** ** C33 *)

(** What the function does: the lines are normalised one by one, and their results are
    stored one after the other. *)
Theorem C33_actual {S T R R1 V} c (t : tensor T) a d1 d d2 xs (ini : R)
    (accum : S -> R -> T -> outcome (S * R))
    (complete : S -> R -> outcome (S * R1)) (norm : S -> R1 -> T -> outcome (S * V)) st :
  repr t (d1 ++ d :: d2) xs -> names_axis a (length d1) (length (d1 ++ d :: d2)) ->
  Forall (fun d => 0 < d) (d1 ++ d2) -> can_alloc c (length xs) ->
  exists ls, axis_lines d1 d d2 xs ls /\
    normalize c t (Some a) ini accum complete norm st =
    let* '(st', yss) := traverse (normM ini accum complete norm) st ls in
    Ok (st', fresh (d1 ++ d :: d2) (concat yss)).
Proof. exact (@c33_actual S T R R1 V c t a d1 d d2 xs ini accum complete norm st). Qed.
Print Assumptions C33_actual.

(** For the last axis (or one followed only by axes of length 1) the result of a line is
    stored where the line came from. *)
Theorem C33_last_axis_partial {S T R R1 V} c (t : tensor T) a d1 d d2 xs (ini : R)
    (accum : S -> R -> T -> outcome (S * R))
    (complete : S -> R -> outcome (S * R1)) (norm : S -> R1 -> T -> outcome (S * V)) st st' r :
  repr t (d1 ++ d :: d2) xs -> names_axis a (length d1) (length (d1 ++ d :: d2)) ->
  Forall (fun d => 0 < d) (d1 ++ d2) -> can_alloc c (length xs) -> prod d2 = 1 ->
  normalize c t (Some a) ini accum complete norm st = Ok (st', r) ->
  exists ys, r = fresh (d1 ++ d :: d2) ys /\ length ys = length xs /\
  forall i1 i2, in_shape d1 i1 -> in_shape d2 i2 ->
    exists l l' s s', normM ini accum complete norm s l = Ok (s', l') /\
      length l = d /\ length l' = d /\
      forall k, k < d ->
        nth_error l k = elem (d1 ++ d :: d2) xs (i1 ++ k :: i2) /\
        nth_error l' k = elem (d1 ++ d :: d2) ys (i1 ++ k :: i2).
Proof. exact (@c33_last_axis_partial S T R R1 V c t a d1 d d2 xs ini accum complete norm st st' r). Qed.
Print Assumptions C33_last_axis_partial.

Theorem C33_no_axis_partial {S T R R1 V} c (t : tensor T) ds xs (ini : R)
    (accum : S -> R -> T -> outcome (S * R))
    (complete : S -> R -> outcome (S * R1)) (norm : S -> R1 -> T -> outcome (S * V)) st :
  repr t ds xs -> can_alloc c (length xs) ->
  normalize c t None ini accum complete norm st =
  let* '(st', ys) := normM ini accum complete norm st xs in Ok (st', fresh ds ys).
Proof. exact (@c33_no_axis_partial S T R R1 V c t ds xs ini accum complete norm st). Qed.
Print Assumptions C33_no_axis_partial.

(** For any other axis the results land at the wrong coordinates. *)
Theorem C33_refuted :
  exists t : tensor nat, repr t [2; 3] [1; 2; 3; 4; 5; 6] /\
    normalize dev t (Some 0%Z) 0 (pure2 (fun _ _ => 0)) (pure1 (fun r => r)) (pure2 (fun _ x => x)) tt
    = Ok (tt, fresh [2; 3] [1; 4; 2; 5; 3; 6]).
Proof. exact c33_refuted. Qed.
Print Assumptions C33_refuted.

Example C33_example :
  normalize dev (fresh [2; 3] [1; 2; 3; 4; 5; 6]) (Some (-1)%Z) 0 (pure2 Nat.add)
    (pure1 (fun r => r)) (pure2 (fun r x => 10 * x + r)) tt
  = Ok (tt, fresh [2; 3] [16; 26; 36; 55; 65; 75]).
Proof. reflexivity. Qed.
