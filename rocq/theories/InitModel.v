(** * Model of src/init/matrix.rs and src/init/vector.rs *)
From Verif Require Import Base ShapeModel TensorModel AxisModel MapModel FloatModel.

(** ** src/init/matrix.rs *)

(** src/init/matrix.rs:53-65 (also [identity], 67-73, and the methods 7-22). *)
Definition eye {T} (c : cfg) (zero one : T) (n : nat) : outcome (tensor T) :=
  if n =? 0 then of_value c zero
  else
    let* s := from_slice_dims [n; n] in
    let* '(_, r) := init_rindexed c s (fun st idx =>
      let* i := aget idx 0 in
      let* j := aget idx 1 in
      Ok (st, if i =? j then one else zero)) tt in
    Ok r.

(** src/init/matrix.rs:75-89 *)
Definition diagflat {T} (c : cfg) (zero : T) (diag : tensor T) : outcome (tensor T) :=
  assert! (rank (tshape diag) =? 1) in
  let n := tsize diag in
  let* s := from_slice_dims [n; n] in
  let* '(_, r) := init_rindexed c s (fun st idx =>
    let* i := aget idx 0 in
    let* j := aget idx 1 in
    if i =? j then let* v := index1 diag i in Ok (st, v) else Ok (st, zero)) tt in
  Ok r.

(** src/init/matrix.rs:91-98 *)
Definition tri {T} (c : cfg) (zero one : T) (n : nat) : outcome (tensor T) :=
  let* s := from_slice_dims [n; n] in
  let* '(_, r) := init_rindexed c s (fun st idx =>
    let* i := aget idx 0 in
    let* j := aget idx 1 in
    Ok (st, if i <=? j then one else zero)) tt in
  Ok r.

(** src/init/matrix.rs:100-129 ([keep i j] is [i <= j]) and 131-160 ([keep i j] is
    [j <= i]); the two functions differ in nothing else.  Indices are below the size, so
    their arithmetic cannot overflow. *)
Definition tri_mask {T} (c : cfg) (keep : nat -> nat -> bool) (zero : T) (t : tensor T)
  : outcome (tensor T) :=
  assert! (2 <=? rank (tshape t)) in
  let* size := size c (tshape t) in
  unsafe_init_ c size (tshape t) (fun o =>
    let* x := as_slice t in
    let* rows := rows (tshape t) in
    let* cols := cols (tshape t) in
    let* n := udiv size (rows * cols) in
    for_ n (fun k o =>
      for_ rows (fun j o =>
        for_ cols (fun i o =>
          let index := k * rows * cols + j * cols + i in
          let* v := (if keep i j then aget x index else Ok zero) in
          write o index v) o) o) o).
Definition tril {T} (c : cfg) (zero : T) (t : tensor T) : outcome (tensor T) :=
  tri_mask c (fun i j => i <=? j) zero t.
Definition triu {T} (c : cfg) (zero : T) (t : tensor T) : outcome (tensor T) :=
  tri_mask c (fun i j => j <=? i) zero t.

(** src/init/matrix.rs:220-252 *)
Definition build_meshgrid_axis {T} (c : cfg) (x : tensor T) (s : shape) (k_s : nat)
  : outcome (tensor T) :=
  assert! (rank (tshape x) =? 1) in
  let* size := size c s in
  let* r := urem size (tsize x) in
  assert! (r =? 0) in
  let* r := urem size k_s in
  assert! (r =? 0) in
  let len := tsize x in
  let* n := udiv size len in
  let* r := urem n k_s in
  assert! (r =? 0) in
  unsafe_init_ c size s (fun o =>
    let* x := as_slice x in
    let i_n := k_s in
    let* j_n := udiv n i_n in
    let* j_s := udiv size j_n in
    for_ len (fun k o =>
      for_ j_n (fun j o =>
        for_ i_n (fun i o =>
          let* v := aget x k in
          write o (k * k_s + j * j_s + i) v) o) o) o).

(** src/init/matrix.rs:162-166 *)
Inductive order := XY | IJ.

(** src/init/matrix.rs:192-218 *)
Definition build_meshgrid {T} (c : cfg) (axes : list (tensor T)) (ord : order)
  : outcome (list (tensor T)) :=
  let axes := match ord with XY => rev axes | IJ => axes end in
  let* s := from_vec_dims (map tsize axes) in
  let* '(vec, _) := for_each (rev axes) (fun x '(vec, inner) =>
    let* t := build_meshgrid_axis c x s inner in
    let* inner := umul c inner (tsize x) in
    Ok (vec ++ [t], inner)) ([], 1) in
  Ok (match ord with XY => vec | IJ => rev vec end).

(** src/init/matrix.rs:170-183 with the arrays of 1 to 3 axes of 254-298 (the array of
    references and the array of values have the same body). *)
Definition meshgrid {T} (c : cfg) (axes : list (tensor T)) : outcome (list (tensor T)) :=
  build_meshgrid c axes XY.
Definition meshgrid_ij {T} (c : cfg) (axes : list (tensor T)) : outcome (list (tensor T)) :=
  build_meshgrid c axes IJ.

(** ** src/init/vector.rs *)

(** src/init/vector.rs:9-35.  Each iteration of a [while] loop costs one unit of fuel;
    [None] means that the loop is still running when the fuel is used up. *)
Fixpoint arange_up {F} (o : fops F) (fuel : nat) (start end_ step : F) (vec : list F)
  : option (list F) :=
  if flt o start end_ then
    match fuel with
    | O => None
    | S fuel => arange_up o fuel (fadd o start step) end_ step (vec ++ [start])
    end
  else Some vec.
Fixpoint arange_down {F} (o : fops F) (fuel : nat) (start end_ step : F) (vec : list F)
  : option (list F) :=
  if flt o end_ start then
    match fuel with
    | O => None
    | S fuel => arange_down o fuel (fsub o start step) end_ step (vec ++ [start])
    end
  else Some vec.
Definition arange {F} (o : fops F) (c : cfg) (fuel : nat) (start end_ step : F)
  : option (outcome (tensor F)) :=
  if feq o step (fzero o) then Some Panic
  else if fle o start end_ && flt o (fzero o) step then
    option_map (of_vec c) (arange_up o fuel start end_ step [])
  else if fle o end_ start && flt o step (fzero o) then
    option_map (of_vec c) (arange_down o fuel start end_ step [])
  else Some Panic.

(** The loops of linspace, geomspace and logspace (src/init/vector.rs:98-114, 62-78,
    153-169): [pre] is applied to the end points, [post] to the interpolated value. *)
Definition space_loop {F} (o : fops F) (pre post : F -> F) (start end_ : tensor F)
    (batch len : nat) (b : buf F) : outcome (buf F) :=
  for_ batch (fun n b =>
    let* s := index1 start n in
    let* e := index1 end_ n in
    let s := pre s in
    let e := pre e in
    assert! (fle o s e) in
    let step := if 1 <? len then fdiv o (fsub o e s) (fof o (len - 1)) else fzero o in
    for_ len (fun k b =>
      let v := fadd o s (fmul o step (fof o k)) in
      write b (k * batch + n) (post v)) b) b.

(** src/init/vector.rs:83-117; the arguments are already converted to tensors. *)
Definition linspace {F} (o : fops F) (c : cfg) (start end_ : tensor F) (len : nat)
  : outcome (tensor F) :=
  assert! (shape_eqb (tshape start) (tshape end_)) in
  let batch := Nat.max 1 (tsize start) in
  let* size := umul c batch len in
  let* s := insert c (tshape start) 0 len in
  unsafe_init_ c size s (fun b => space_loop o (fun x => x) (fun x => x) start end_ batch len b).

(** src/init/vector.rs:37-81 *)
Definition geomspace {F} (o : fops F) (c : cfg) (start end_ : tensor F) (len : nat)
  : outcome (tensor F) :=
  assert! (shape_eqb (tshape start) (tshape end_)) in
  let batch := Nat.max 1 (tsize start) in
  let* size := umul c batch len in
  let* s := (if tsize start =? 1 then from_slice_dims [len] else insert c (tshape start) 0 len) in
  unsafe_init_ c size s (fun b => space_loop o (fln o) (fexp o) start end_ batch len b).

(** src/init/vector.rs:127-172; [base] is the option's value (10 by default). *)
Definition logspace {F} (o : fops F) (c : cfg) (start end_ : tensor F) (len : nat) (base : option F)
  : outcome (tensor F) :=
  assert! (shape_eqb (tshape start) (tshape end_)) in
  let base := match base with Some b => b | None => fof o 10 end in
  let batch := Nat.max 1 (tsize start) in
  let* size := umul c batch len in
  let* s := insert c (tshape start) 0 len in
  unsafe_init_ c size s (fun b => space_loop o (fun x => x) (fpow o base) start end_ batch len b).

(** src/init/vector.rs:207-216 *)
Definition one_hot {F} (o : fops F) (c : cfg) (indices : list nat) (depth : nat)
  : outcome (tensor F) :=
  let* vec := for_each indices (fun i vec => aset vec i (fone o)) (repeat (fzero o) depth) in
  of_vec c vec.

(** src/init/matrix.rs:185-190, [M] and [N] are const generics. *)
Definition mgrid {F} (o : fops F) (c : cfg) (M N : nat) : outcome (list (tensor F)) :=
  let grid n :=
    let* s := of_value c (fzero o) in
    let* e := of_value c (fsub o (fof o n) (fone o)) in
    linspace o c s e n in
  let* x := grid M in
  let* y := grid N in
  meshgrid c [x; y].
