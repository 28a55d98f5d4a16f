(** * Properties C11-C21: building, viewing, indexing, joining and comparing tensors *)
From Coq Require Import ZifyBool ZifyNat.
From Verif Require Import Base ShapeModel TensorModel NumModel Spec BaseFacts ShapeFacts
  ShapeFacts2 CoordFacts TensorFacts TensorFacts2 ShapeSpec ShapeProofs.
From Verif Require Import TensorSpec TensorProofs.

(** ** C11 *)

(** From a vector and a shape: succeeds exactly on matching counts. *)
Theorem C11_from_vec {A} c (xs : list A) ds :
  supported ds ->
  (length xs = prod ds ->
     exists t, from_vec c xs (canon ds) = Ok t /\ repr t ds xs) /\
  (length xs <> prod ds -> from_vec c xs (canon ds) = Panic).
Proof. exact (@c11_from_vec A c xs ds). Qed.
Print Assumptions C11_from_vec.

(** What a represented tensor shows through the API. *)
Theorem C11_observe {A} c (t : tensor A) ds xs :
  repr t ds xs -> as_vec c (tshape t) = Ok ds /\ as_slice t = Ok xs /\ tsize t = length xs.
Proof. exact (@c11_observe A c t ds xs). Qed.
Print Assumptions C11_observe.

(** Two descriptions of the same tensor agree, so [repr] pins the tensor's contents. *)
Theorem C11_unique {A} (t : tensor A) ds xs ds' xs' :
  repr t ds xs -> repr t ds' xs' -> ds = ds' /\ xs = xs'.
Proof. exact (@c11_unique A t ds xs ds' xs'). Qed.
Print Assumptions C11_unique.

Theorem C11_scalar {A} c (v : A) :
  exists t, of_value c v = Ok t /\ from_scalar c v = Ok t /\ repr t [] [v].
Proof. exact (@c11_scalar A c v). Qed.
Print Assumptions C11_scalar.

Theorem C11_option {A} c (o : option A) :
  exists t, of_option c o = Ok t /\
    match o with Some v => repr t [] [v] | None => repr t [0] [] end.
Proof. exact (@c11_option A c o). Qed.
Print Assumptions C11_option.

(** Vectors, arrays, slices and iterators of items. *)
Theorem C11_items {A} c (xs : list A) :
  (Z.of_nat (length xs) < 4294967296)%Z ->
  exists t, of_vec c xs = Ok t /\ repr t [length xs] xs.
Proof. exact (@c11_items A c xs). Qed.
Print Assumptions C11_items.

(** [from_slice] copies cell by cell into fresh memory. *)
Theorem C11_from_slice {A} c (xs : list A) :
  (Z.of_nat (length xs) < 4294967296)%Z -> can_alloc c (length xs) ->
  exists t, from_slice c xs = Ok t /\ repr t [length xs] xs.
Proof. exact (@c11_from_slice A c xs). Qed.
Print Assumptions C11_from_slice.

Example C11_example :
  (let* s := from_slice_dims [2; 3] in from_vec dev [1; 2; 3; 4; 5; 6] s)
    = Ok (fresh [2; 3] [1; 2; 3; 4; 5; 6]) /\
  (let* s := from_slice_dims [2; 3] in from_vec dev [1; 2; 3; 4; 5] s) = Panic.
Proof. split; reflexivity. Qed.

(** ** C12 *)

Theorem C12_vec2 {A} c (v : list (list A)) m n :
  rect2 m n v -> 0 < m -> supported [m; n] ->
  exists t xs, of_vec2 c v = Ok t /\ repr t [m; n] xs /\
    forall i j, i < m -> j < n -> elem [m; n] xs [i; j] = at2 v i j.
Proof. exact (@c12_vec2 A c v m n). Qed.
Print Assumptions C12_vec2.

Theorem C12_vec2_rejects {A} c (v : list (list A)) :
  v = [] \/ ~ rect2 (length v) (length (hd [] v)) v -> of_vec2 c v = Panic.
Proof. exact (@c12_vec2_rejects A c v). Qed.
Print Assumptions C12_vec2_rejects.

Theorem C12_vec3 {A} c (v : list (list (list A))) l m n :
  rect3 l m n v -> 0 < l -> 0 < m -> supported [l; m; n] ->
  exists t xs, of_vec3 c v = Ok t /\ repr t [l; m; n] xs /\
    forall i j k, i < l -> j < m -> k < n -> elem [l; m; n] xs [i; j; k] = at3 v i j k.
Proof. exact (@c12_vec3 A c v l m n). Qed.
Print Assumptions C12_vec3.

Theorem C12_vec3_rejects {A} c (v : list (list (list A))) :
  v = [] \/ hd [] v = [] \/
  ~ rect3 (length v) (length (hd [] v)) (length (hd [] (hd [] v))) v ->
  of_vec3 c v = Panic.
Proof. exact (@c12_vec3_rejects A c v). Qed.
Print Assumptions C12_vec3_rejects.

Theorem C12_vec4 {A} c (v : list (list (list (list A)))) k l m n :
  rect4 k l m n v -> 0 < k -> 0 < l -> 0 < m -> supported [k; l; m; n] ->
  exists t xs, of_vec4 c v = Ok t /\ repr t [k; l; m; n] xs /\
    forall g h i j, g < k -> h < l -> i < m -> j < n ->
      elem [k; l; m; n] xs [g; h; i; j] = at4 v g h i j.
Proof. exact (@c12_vec4 A c v k l m n). Qed.
Print Assumptions C12_vec4.

Theorem C12_vec4_rejects {A} c (v : list (list (list (list A)))) :
  v = [] \/ hd [] v = [] \/ hd [] (hd [] v) = [] \/
  ~ rect4 (length v) (length (hd [] v)) (length (hd [] (hd [] v)))
      (length (hd [] (hd [] (hd [] v)))) v ->
  of_vec4 c v = Panic.
Proof. exact (@c12_vec4_rejects A c v). Qed.
Print Assumptions C12_vec4_rejects.

(** Arrays of arrays (rectangular by typing), including empty ones. *)
Theorem C12_rows {A} c (v : list (list A)) m n :
  rect2 m n v -> supported [m; n] ->
  exists t, of_rows c n v = Ok t /\ repr t [m; n] (concat v).
Proof. exact (@c12_rows A c v m n). Qed.
Print Assumptions C12_rows.

Theorem C12_rows2 {A} c (v : list (list (list A))) l m n :
  rect3 l m n v -> supported [l; m; n] ->
  exists t, of_rows2 c m n v = Ok t /\ repr t [l; m; n] (concat (concat v)).
Proof. exact (@c12_rows2 A c v l m n). Qed.
Print Assumptions C12_rows2.

Example C12_example :
  of_vec2 dev [[1; 2; 3]; [4; 5; 6]] = Ok (fresh [2; 3] [1; 2; 3; 4; 5; 6]) /\
  of_vec2 dev [[1; 2; 3]; [4; 5]] = Panic /\
  of_vec3 dev [[[1; 2]; [3; 4]]; [[5; 6]; [7; 8]]] = Ok (fresh [2; 2; 2] [1; 2; 3; 4; 5; 6; 7; 8]).
Proof. repeat split. Qed.

(** ** C13 *)

(** The view shows rows [o .. o+n] of its parent. *)
Theorem C13_subslice {A} c (t : tensor A) d ds xs o n :
  repr t (d :: ds) xs -> positive ds -> 0 < n -> o + n <= d ->
  exists t' ys, subslice c t o n = Ok t' /\ repr t' (n :: ds) ys /\
    tdata t' = tdata t /\
    (forall i idx, i < n -> in_shape ds idx ->
       elem (n :: ds) ys (i :: idx) = elem (d :: ds) xs (o + i :: idx)) /\
    ys = firstn (n * prod ds) (skipn (o * prod ds) xs).
Proof. exact (@c13_subslice A c t d ds xs o n). Qed.
Print Assumptions C13_subslice.

(** Anything else is rejected, provided the sum [o + n] is representable. *)
Theorem C13_subslice_rejects {A} c (t : tensor A) d ds xs o n :
  repr t (d :: ds) xs -> (Z.of_nat o + Z.of_nat n < 18446744073709551616)%Z ->
  n = 0 \/ d < o + n \/ ~ positive ds -> subslice c t o n = Panic.
Proof. exact (@c13_subslice_rejects A c t d ds xs o n). Qed.
Print Assumptions C13_subslice_rejects.

(** A view of a view is the direct view. *)
Theorem C13_subslice_subslice {A} c (t : tensor A) d ds xs o n o2 n2 :
  repr t (d :: ds) xs -> positive ds -> 0 < n -> o + n <= d -> 0 < n2 -> o2 + n2 <= n ->
  (let* u := subslice c t o n in subslice c u o2 n2) = subslice c t (o + o2) n2.
Proof. exact (@c13_subslice_subslice A c t d ds xs o n o2 n2). Qed.
Print Assumptions C13_subslice_subslice.

Example C13_example :
  subslice dev (fresh [3; 2] [1; 2; 3; 4; 5; 6]) 1 2 =
    Ok (mkTensor (canon [2; 2]) 2 4 [1; 2; 3; 4; 5; 6]) /\
  (let* v := subslice dev (fresh [3; 2] [1; 2; 3; 4; 5; 6]) 1 2 in as_slice v) = Ok [3; 4; 5; 6] /\
  subslice dev (fresh [3; 2] [1; 2; 3; 4; 5; 6]) 2 2 = Panic.
Proof. repeat split. Qed.

(** ** C14 *)

(** With overflow checks no out-of-range request gets through. *)
Theorem C14_checked {A} c (t : tensor A) d ds xs o n :
  repr t (d :: ds) xs -> overflow_checks c = true -> d < o + n ->
  (Z.of_nat o < 18446744073709551616)%Z -> (Z.of_nat n < 18446744073709551616)%Z ->
  subslice c t o n = Panic.
Proof. exact (@c14_checked A c t d ds xs o n). Qed.
Print Assumptions C14_checked.

(** Release builds: offset 2^63 and length 2^63+1 on a [1,2] tensor returns its row. *)
Theorem C14_release_refuted :
  exists (t : tensor nat) o n t', repr t [1; 2] [10; 20] /\ 1 < o + n /\
    (Z.of_nat o < 18446744073709551616)%Z /\ (Z.of_nat n < 18446744073709551616)%Z /\
    subslice release t o n = Ok t' /\ as_slice t' = Ok [10; 20].
Proof. exact c14_release_refuted. Qed.
Print Assumptions C14_release_refuted.

(** ** C15 *)

(** True for tensors that start at the beginning of their buffer. *)
Theorem C15_get_partial {A} c (t : tensor A) ds xs i :
  repr t ds xs -> toffset t = 0 -> get c t i = Ok (nth_error xs i).
Proof. exact (@c15_get_partial A c t ds xs i). Qed.
Print Assumptions C15_get_partial.

(* Missing: views with a non-zero offset, where the claim is false: *)

(** On a view, [get] returns another element or reads past the allocation. *)
Theorem C15_refuted :
  exists t : tensor nat, subslice dev (fresh [4; 1] [10; 20; 30; 40]) 1 3 = Ok t /\
    repr t [3; 1] [20; 30; 40] /\
    get dev t 0 = Ok (Some 30) /\ get dev t 2 = Ub.
Proof. exact c15_refuted. Qed.
Print Assumptions C15_refuted.

(** The wrong position, in general. *)
Theorem C15_get_actual {A} c (t : tensor A) ds xs i :
  repr t ds xs -> i < length xs ->
  get c t i = match nth_error (tdata t) (2 * toffset t + i) with
              | Some v => Ok (Some v) | None => Ub end.
Proof. exact (@c15_get_actual A c t ds xs i). Qed.
Print Assumptions C15_get_actual.

(** ** C16 *)

Theorem C16_index1 {A} (t : tensor A) ds xs i :
  repr t ds xs ->
  index1 t i = match nth_error xs i with Some v => Ok v | None => Panic end.
Proof. exact (@c16_index1 A t ds xs i). Qed.
Print Assumptions C16_index1.

(** Two indices: see PropsFmt.v. *)

(** For three indices the claim holds when the tensor has more than two elements ... *)
Theorem C16_index3_partial {A} c (t : tensor A) d0 d1 d2 xs i j k :
  repr t [d0; d1; d2] xs -> 2 < length xs ->
  index3 c t i j k = at_or_panic [d0; d1; d2] xs [i; j; k].
Proof. exact (@c16_index3_partial A c t d0 d1 d2 xs i j k). Qed.
Print Assumptions C16_index3_partial.

(** ... but a rank-3 tensor with one or two elements cannot be indexed at all. *)
Theorem C16_index3_refuted :
  exists t : tensor nat, repr t [1; 1; 2] [10; 20] /\ index3 dev t 0 0 1 = Panic.
Proof. exact c16_index3_refuted. Qed.
Print Assumptions C16_index3_refuted.

(** Four indices: likewise with more than three elements. *)
Theorem C16_index4_partial {A} c (t : tensor A) d0 d1 d2 d3 xs h i j k :
  repr t [d0; d1; d2; d3] xs -> 3 < length xs ->
  index4 c t h i j k = at_or_panic [d0; d1; d2; d3] xs [h; i; j; k].
Proof. exact (@c16_index4_partial A c t d0 d1 d2 d3 xs h i j k). Qed.
Print Assumptions C16_index4_partial.

Theorem C16_index4_refuted :
  exists t : tensor nat, repr t [1; 1; 1; 3] [10; 20; 30] /\ index4 dev t 0 0 0 1 = Panic.
Proof. exact c16_index4_refuted. Qed.
Print Assumptions C16_index4_refuted.

Theorem C16_index5 {A} c (t : tensor A) d0 d1 d2 d3 d4 xs g h i j k :
  repr t [d0; d1; d2; d3; d4] xs ->
  index5 c t g h i j k = at_or_panic [d0; d1; d2; d3; d4] xs [g; h; i; j; k].
Proof. exact (@c16_index5 A c t d0 d1 d2 d3 d4 xs g h i j k). Qed.
Print Assumptions C16_index5.

Example C16_example :
  index1 (fresh [2; 3] [1; 2; 3; 4; 5; 6]) 4 = Ok 5 /\
  index1 (fresh [2; 3] [1; 2; 3; 4; 5; 6]) 6 = Panic /\
  index3 dev (fresh [2; 2; 2] [1; 2; 3; 4; 5; 6; 7; 8]) 1 0 1 = Ok 6.
Proof. repeat split. Qed.

(** ** C17 *)

Theorem C17_reshape {A} c (t : tensor A) ds xs ds' :
  repr t ds xs -> supported ds' ->
  (prod ds' = prod ds -> exists t', reshape c t (canon ds') = Ok t' /\ repr t' ds' xs) /\
  (prod ds' <> prod ds -> reshape c t (canon ds') = Panic).
Proof. exact (@c17_reshape A c t ds xs ds'). Qed.
Print Assumptions C17_reshape.

Theorem C17_reshape_back {A} c (t : tensor A) ds xs ds' :
  repr t ds xs -> supported ds' -> prod ds' = prod ds ->
  (let* u := reshape c t (canon ds') in reshape c u (canon ds)) = Ok t.
Proof. exact (@c17_reshape_back A c t ds xs ds'). Qed.
Print Assumptions C17_reshape_back.

Theorem C17_flatten {A} c (t : tensor A) ds xs :
  repr t ds xs -> exists t', flatten c t = Ok t' /\ repr t' [prod ds] xs.
Proof. exact (@c17_flatten A c t ds xs). Qed.
Print Assumptions C17_flatten.

Theorem C17_expand_dims {A} c (t : tensor A) ds xs (axis : option Z) p :
  repr t ds xs -> length ds < 6 -> positive ds -> p <= length ds ->
  (match axis with Some a => a | None => 0 end = Z.of_nat p \/
   match axis with Some a => a | None => 0 end = Z.of_nat p - Z.of_nat (length ds) - 1)%Z ->
  exists t', t_expand_dims c t axis = Ok t' /\ repr t' (insert_at p 1 ds) xs.
Proof. exact (@c17_expand_dims A c t ds xs axis p). Qed.
Print Assumptions C17_expand_dims.

Theorem C17_squeeze {A} c (t : tensor A) ds xs :
  repr t ds xs ->
  exists t', t_squeeze c t = Ok t' /\
    repr t' (match filter (fun d => negb (d =? 1)) ds with [] => [1] | l => l end) xs.
Proof. exact (@c17_squeeze A c t ds xs). Qed.
Print Assumptions C17_squeeze.

(** [squeeze_axis] keeps the elements too, whichever dimension it drops (see C06). *)
Theorem C17_squeeze_axis {A} c (t : tensor A) ds xs a :
  repr t ds xs -> a < length ds ->
  exists t' ds', squeeze_axis c t (Some (Z.of_nat a)) = Ok t' /\ repr t' ds' xs.
Proof. exact (@c17_squeeze_axis A c t ds xs a). Qed.
Print Assumptions C17_squeeze_axis.

Example C17_example :
  (let* t := reshape dev (fresh [2; 3] [1; 2; 3; 4; 5; 6]) (canon [3; 2]) in as_slice t)
    = Ok [1; 2; 3; 4; 5; 6] /\
  reshape dev (fresh [2; 3] [1; 2; 3; 4; 5; 6]) (canon [4; 2]) = Panic.
Proof. split; reflexivity. Qed.

(** ** C18 *)

Theorem C18_wrap_slice {A} (t : tensor A) ds xs k :
  repr t ds xs -> xs <> [] -> as_wrap_slice t k = Ok (skipn (k mod length xs) xs).
Proof. exact (@c18_wrap_slice A t ds xs k). Qed.
Print Assumptions C18_wrap_slice.

Theorem C18_wrap_ptr {A} (t : tensor A) ds xs k v :
  repr t ds xs -> nth_error xs (k mod length xs) = Some v ->
  exists p, as_wrap_ptr t k = Ok p /\ nth_error (tdata t) p = Some v.
Proof. exact (@c18_wrap_ptr A t ds xs k v). Qed.
Print Assumptions C18_wrap_ptr.

(** The bounded form works on tensors at offset 0 ... *)
Theorem C18_wrap_slice_n_partial {A} c (t : tensor A) ds xs k n :
  repr t ds xs -> toffset t = 0 -> k mod length xs + n <= length xs -> xs <> [] ->
  as_wrap_slice_n c t k n = Ok (firstn n (skipn (k mod length xs) xs)).
Proof. exact (@c18_wrap_slice_n_partial A c t ds xs k n). Qed.
Print Assumptions C18_wrap_slice_n_partial.

(* Missing: views at a non-zero offset, for which it is false. *)

(** ... and on views either panics or shows other elements. *)
Theorem C18_wrap_slice_n_refuted :
  exists t u : tensor nat,
    subslice dev (fresh [4; 1] [10; 20; 30; 40]) 1 3 = Ok t /\ repr t [3; 1] [20; 30; 40] /\
    as_wrap_slice_n dev t 0 1 = Ok [30] /\
    as_wrap_slice_n dev t 2 1 = Panic /\ u = t.
Proof. exact c18_wrap_slice_n_refuted. Qed.
Print Assumptions C18_wrap_slice_n_refuted.

Example C18_example : as_wrap_slice (fresh [2; 2] [1; 2; 3; 4]) 6 = Ok [3; 4].
Proof. reflexivity. Qed.

(** ** C19 *)

Theorem C19_iter_row {A} (t : tensor A) ds k xs :
  repr t (ds ++ [k]) xs -> ds <> [] -> 0 < k ->
  exists rows, iter_row t = Ok rows /\ concat rows = xs /\ length rows = prod ds /\
    Forall (fun r => length r = k) rows /\
    (forall idx j, in_shape ds idx -> j < k ->
       exists r, nth_error rows (ravel ds idx) = Some r /\
                 nth_error r j = elem (ds ++ [k]) xs (idx ++ [j])).
Proof. exact (@c19_iter_row A t ds k xs). Qed.
Print Assumptions C19_iter_row.

(** Rank 0 and 1: one item per row.  (A rank-1 tensor is not one row.) *)
Theorem C19_iter_row_rank1 {A} (t : tensor A) ds xs :
  repr t ds xs -> length ds <= 1 -> iter_row t = Ok (map (fun x => [x]) xs).
Proof. exact (@c19_iter_row_rank1 A t ds xs). Qed.
Print Assumptions C19_iter_row_rank1.

(** [iter] is the element list. *)
Theorem C19_iter {A} (t : tensor A) ds xs : repr t ds xs -> as_slice t = Ok xs.
Proof. exact (@c19_iter A t ds xs). Qed.
Print Assumptions C19_iter.

Example C19_example :
  iter_row (fresh [2; 3] [1; 2; 3; 4; 5; 6]) = Ok [[1; 2; 3]; [4; 5; 6]].
Proof. reflexivity. Qed.

(** ** C20 *)

Theorem C20_append {A} c (t u : tensor A) d d' ds ds' xs ys :
  repr t (d :: ds) xs -> repr u (d' :: ds') ys ->
  positive ds -> 0 < d + d' -> prod ds' = prod ds ->
  (Z.of_nat ((d + d') * prod ds) < 4294967296)%Z ->
  exists r, append c t u = Ok r /\ repr r (d + d' :: ds) (xs ++ ys).
Proof. exact (@c20_append A c t u d d' ds ds' xs ys). Qed.
Print Assumptions C20_append.

(** Row sizes that differ are rejected. *)
Theorem C20_append_rejects {A} c (t u : tensor A) d d' ds ds' xs ys :
  repr t (d :: ds) xs -> repr u (d' :: ds') ys -> prod ds' <> prod ds -> append c t u = Panic.
Proof. exact (@c20_append_rejects A c t u d d' ds ds' xs ys). Qed.
Print Assumptions C20_append_rejects.

(** But only the product of the row dimensions is compared: shapes [1,6] and [1,2,3]
    disagree and are joined all the same. *)
Theorem C20_append_shape_refuted :
  exists r, append dev (fresh [1; 6] [1; 2; 3; 4; 5; 6]) (fresh [1; 2; 3] [7; 8; 9; 10; 11; 12])
            = Ok r /\ repr r [2; 6] [1; 2; 3; 4; 5; 6; 7; 8; 9; 10; 11; 12].
Proof. exact c20_append_shape_refuted. Qed.
Print Assumptions C20_append_shape_refuted.

(** [from_merge]: the concatenation with the requested shape, or a panic. *)
Theorem C20_from_merge {A} c (ts : list (tensor A)) parts ds :
  Forall2 (fun t p => repr t (fst p) (snd p)) ts parts ->
  (Z.of_nat (length (concat (map snd parts))) < 18446744073709551616)%Z -> supported ds ->
  (length (concat (map snd parts)) = prod ds ->
     exists r, from_merge c ts (canon ds) = Ok r /\ repr r ds (concat (map snd parts))) /\
  (length (concat (map snd parts)) <> prod ds -> from_merge c ts (canon ds) = Panic).
Proof. exact (@c20_from_merge A c ts parts ds). Qed.
Print Assumptions C20_from_merge.

Theorem C20_join_vec {A} c (v : list (list A)) :
  (Z.of_nat (length (concat v)) < 4294967296)%Z ->
  exists t, join_vec c v = Ok t /\ repr t [length (concat v)] (concat v).
Proof. exact (@c20_join_vec A c v). Qed.
Print Assumptions C20_join_vec.

(** A slice of equally shaped tensors becomes one tensor with a new leading dimension. *)
Theorem C20_of_tensors {A} c (ts : list (tensor A)) (xss : list (list A)) ds :
  Forall2 (fun t xs => repr t ds xs) ts xss -> ts <> [] ->
  supported (length ts :: ds) ->
  exists r, of_tensors c ts = Ok r /\ repr r (length ts :: ds) (concat xss).
Proof. exact (@c20_of_tensors A c ts xss ds). Qed.
Print Assumptions C20_of_tensors.

Theorem C20_of_tensors_empty {A} c : of_tensors c (@nil (tensor A)) = Panic.
Proof. exact (@c20_of_tensors_empty A c). Qed.
Print Assumptions C20_of_tensors_empty.

(** A tensor of another shape anywhere in the slice panics. *)
Theorem C20_of_tensors_rejects {A} c (t0 t1 : tensor A) l r ds0 ds1 xs0 xs1 :
  repr t0 ds0 xs0 -> repr t1 ds1 xs1 -> ds0 <> ds1 ->
  of_tensors c (t0 :: l ++ t1 :: r) = Panic.
Proof. exact (@c20_of_tensors_rejects A c t0 t1 l r ds0 ds1 xs0 xs1). Qed.
Print Assumptions C20_of_tensors_rejects.

Example C20_example :
  append dev (fresh [1; 2] [1; 2]) (fresh [2; 2] [3; 4; 5; 6]) = Ok (fresh [3; 2] [1; 2; 3; 4; 5; 6]) /\
  of_tensors dev [fresh [2] [1; 2]; fresh [2] [3; 4]] = Ok (fresh [2; 2] [1; 2; 3; 4]).
Proof. split; reflexivity. Qed.

(** ** C21 *)

Theorem C21_eq {A} (eqb : A -> A -> bool) (Heq : forall x y, eqb x y = true <-> x = y)
    (t u : tensor A) ds ds' xs ys :
  repr t ds xs -> repr u ds' ys ->
  exists b, tensor_eqb eqb t u = Ok b /\ (b = true <-> ds = ds' /\ xs = ys).
Proof. exact (@c21_eq A eqb Heq t u ds ds' xs ys). Qed.
Print Assumptions C21_eq.

Theorem C21_partial_cmp {A} (cmp : A -> A -> option comparison) (t u : tensor A) ds ds' xs ys :
  repr t ds xs -> repr u ds' ys ->
  exists o, tensor_partial_cmp cmp t u = Ok o /\ lex_result cmp xs ys o.
Proof. exact (@c21_partial_cmp A cmp t u ds ds' xs ys). Qed.
Print Assumptions C21_partial_cmp.

(** [partial_cmp] says Equal for tensors that differ in shape. *)
Theorem C21_cmp_eq_refuted :
  exists t u : tensor nat, repr t [2; 2] [1; 2; 3; 4] /\ repr u [4] [1; 2; 3; 4] /\
    tensor_partial_cmp (fun a b => Some (a ?= b)) t u = Ok (Some Eq) /\
    tensor_eqb Nat.eqb t u = Ok false.
Proof. exact c21_cmp_eq_refuted. Qed.
Print Assumptions C21_cmp_eq_refuted.

(** A view equals a fresh tensor with the same rows. *)
Example C21_example :
  (let* v := subslice dev (fresh [3; 2] [1; 2; 3; 4; 5; 6]) 1 2 in
   tensor_eqb Nat.eqb v (fresh [2; 2] [3; 4; 5; 6])) = Ok true /\
  tensor_partial_cmp (fun a b => Some (a ?= b)) (fresh [2] [1; 2]) (fresh [2] [1; 3]) = Ok (Some Lt).
Proof. split; reflexivity. Qed.
