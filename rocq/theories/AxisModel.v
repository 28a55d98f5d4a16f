(** * Model of src/tensor/axis.rs *)
From Verif Require Import Base ShapeModel.

(** src/tensor/axis.rs:21-26 *)
Definition axis_from_rank (c : cfg) (axis : option Z) (rank : nat) : outcome nat :=
  match axis with
  | None => Ok 0
  | Some a =>
    let* v := iadd c a (Z.of_nat rank) in
    urem (as_usize v) rank
  end.

(** src/tensor/axis.rs:44-45 and 80-81: truncated remainder, then the assertion. *)
Definition norm_axis (c : cfg) (a : Z) (rank : nat) : outcome nat :=
  let* v := iadd c a (Z.of_nat rank) in
  assert! (negb (rank =? 0)) in                     (* [%] by zero panics *)
  let axis := as_usize (Z.rem v (Z.of_nat rank)) in
  assert! (axis <? rank) in
  Ok axis.

(** Loop of lines 54-58, 61-65, 92-96, 99-103: collect the dimensions [a..b] and their
    [usize] product. *)
Definition collect_dims (c : cfg) (s : shape) (a b : nat) (vec : list nat)
  : outcome (list nat * nat) :=
  for_range a b (fun i '(vec, p) =>
    let* d := dim c s i in
    let* p' := umul c p d in
    Ok (vec ++ [d], p')) (vec, 1).

(** src/tensor/axis.rs:37-71: result shape, outer count, axis length, inner count. *)
Definition axis_reduce (c : cfg) (axis : option Z) (s : shape)
  : outcome (shape * nat * nat * nat) :=
  match axis with
  | None => let* n := size c s in Ok (scalar, 1, n, 1)
  | Some a =>
    let* axis := norm_axis c a (rank s) in
    if rank s =? 1 then
      let* n := size c s in Ok (scalar, 1, n, 1)
    else
      let* '(vec, outer) := collect_dims c s 0 axis [] in
      let* '(vec, inner) := collect_dims c s (axis + 1) (rank s) vec in
      let* o := from_vec_dims vec in
      let* d := dim c s axis in
      Ok (o, outer, d, inner)
  end.

(** src/tensor/axis.rs:73-111 *)
Definition axis_reduce_row (c : cfg) (axis : option Z) (s : shape) (ncols : nat)
  : outcome (shape * nat * nat * nat) :=
  match axis with
  | None =>
    let* o := from_slice_dims [ncols] in
    let* n := size c s in
    let* k := cols s in
    let* q := udiv n k in
    Ok (o, 1, q, 1)
  | Some a =>
    let* axis := norm_axis c a (rank s) in
    if rank s =? 1 then
      let* o := from_slice_dims [ncols] in
      let* n := size c s in
      Ok (o, 1, n, 1)
    else
      assert! (axis + 1 <? rank s) in
      let* '(vec, outer) := collect_dims c s 0 axis [] in
      let* '(vec, inner) := collect_dims c s (axis + 1) (rank s - 1) vec in
      let vec := vec ++ [ncols] in
      let* o := from_vec_dims vec in
      let* d := dim c s axis in
      Ok (o, outer, d, inner)
  end.
