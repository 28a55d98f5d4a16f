(** * Model of src/tensor/tensor.rs, data.rs, index.rs, slice.rs, from.rs and of the
      tensor methods at the end of shape.rs. *)
From Verif Require Import Base ShapeModel.

(** src/tensor/tensor.rs:10-16 (struct) with src/tensor/data.rs:10-13 inlined: [data] is
    the whole allocation behind the [Arc], [offset]/[size] the part this tensor shows.
    Buffers are never written after construction, so sharing is by value here; the
    reference counting is modelled separately in LifeModel.v. *)
Record tensor (A : Type) := mkTensor {
  tshape : shape;
  toffset : nat;
  tsize : nat;
  tdata : list A
}.
Arguments mkTensor {A}.
Arguments tshape {A}.
Arguments toffset {A}.
Arguments tsize {A}.
Arguments tdata {A}.

(** src/tensor/tensor.rs:32-44 and src/tensor/data.rs:17-19 *)
Definition tensor_new {A} (c : cfg) (data : list A) (s : shape) : outcome (tensor A) :=
  let* n := size c s in
  assert! (n =? length data) in
  Ok (mkTensor s 0 (length data) data).

(** src/tensor/tensor.rs:24-30 and src/tensor/data.rs:22-49 ([from_vec], [from_box],
    [from_boxed_slice], [from_boxed_rows]); the shape is already converted. *)
Definition from_vec {A} (c : cfg) (v : list A) (s : shape) : outcome (tensor A) :=
  tensor_new c v s.

(** src/tensor/tensor.rs:19-22 *)
Definition from_scalar {A} (c : cfg) (v : A) : outcome (tensor A) :=
  from_vec c [v] scalar.

(** src/tensor/data.rs:82-98.  The initialiser runs on the uninitialised buffer; the
    state [S] carries a caller's [FnMut] state.  The shape check of [Tensor::new] comes
    after the initialiser.  A cell left uninitialised is reported as [Ub] at the point
    where the buffer becomes a tensor. *)
Definition unsafe_init {A S} (c : cfg) (len : nat) (s : shape)
    (init : S * buf A -> outcome (S * buf A)) (st : S) : outcome (S * tensor A) :=
  let* b := alloc c len in
  let* '(st', b') := init (st, b) in
  let* data := assume_init b' in
  let* t := tensor_new c data s in
  Ok (st', t).

(** [unsafe_init] for initialisers without caller state. *)
Definition unsafe_init_ {A} (c : cfg) (len : nat) (s : shape)
    (init : buf A -> outcome (buf A)) : outcome (tensor A) :=
  let* '(_, t) := unsafe_init c len s
    (fun '(u, b) => let* b' := init b in Ok (u, b')) tt in
  Ok t.

(** Reading [n] elements through a raw pointer at position [p] of the allocation. *)
Definition raw_slice {A} (d : list A) (p n : nat) : outcome (list A) :=
  if p + n <=? length d then Ok (firstn n (skipn p d)) else Ub.

(** Reading one element through a raw pointer at position [p] of the allocation. *)
Definition raw_get {A} (d : list A) (p : nat) : outcome A :=
  match nth_error d p with Some v => Ok v | None => Ub end.

(** src/tensor/tensor.rs:62-72.  [as_ptr] (126-128) already adds the offset. *)
Definition get {A} (c : cfg) (t : tensor A) (offset : nat) : outcome (option A) :=
  if offset <? tsize t then
    let* count := uadd c offset (toffset t) in
    let* v := raw_get (tdata t) (toffset t + count) in
    Ok (Some v)
  else Ok None.

(** src/tensor/tensor.rs:75-83 (also [Deref], 263-269, and [iter], 176-178). *)
Definition as_slice {A} (t : tensor A) : outcome (list A) :=
  raw_slice (tdata t) (toffset t) (tsize t).

(** src/tensor/tensor.rs:90-94: the wrapped position. *)
Definition wrap_pos {A} (t : tensor A) (offset : nat) : outcome nat :=
  if offset <? tsize t then Ok offset else urem offset (tsize t).

(** src/tensor/tensor.rs:89-103 *)
Definition as_wrap_slice {A} (t : tensor A) (offset : nat) : outcome (list A) :=
  let* count := wrap_pos t offset in
  raw_slice (tdata t) (toffset t + count) (tsize t - count).

(** src/tensor/tensor.rs:108-123 *)
Definition as_wrap_slice_n {A} (c : cfg) (t : tensor A) (offset len : nat)
  : outcome (list A) :=
  let* offset := wrap_pos t offset in
  let* count := uadd c (toffset t) offset in
  let* e := uadd c count len in
  assert! (e <=? tsize t) in
  raw_slice (tdata t) (toffset t + count) len.

(** src/tensor/tensor.rs:133-139: the position in the allocation that
    [as_wrap_ptr] points to. *)
Definition as_wrap_ptr {A} (t : tensor A) (offset : nat) : outcome nat :=
  let* k := wrap_pos t offset in Ok (toffset t + k).

(** src/tensor/tensor.rs:141-158; the shape is already converted.  (Line 146's
    conversion runs after the two assertions; a conversion panic and an assertion
    panic are not distinguished.) *)
Definition subslice_flat {A} (c : cfg) (t : tensor A) (offset len : nat) (s : outcome shape)
  : outcome (tensor A) :=
  assert! (offset <=? tsize t) in
  let* e := uadd c offset len in
  assert! (e <=? tsize t) in
  let* s := s in
  let* n := size c s in
  assert! ((n =? len) || ((n =? 0) && (len =? 1))) in
  let* o := uadd c (toffset t) offset in
  Ok (mkTensor s o len (tdata t)).

(** src/tensor/tensor.rs:161-173 *)
Definition subslice {A} (c : cfg) (t : tensor A) (offset len : nat) : outcome (tensor A) :=
  let* dim_0 := dim c (tshape t) 0 in
  let* e := uadd c offset len in
  assert! (e <=? dim_0) in
  let* vec := as_vec c (tshape t) in
  let* rest := aslice vec 1 (length vec) in
  let* size := product64 c 1 rest in
  let* shape := aset vec 0 len in
  let* o := umul c offset size in
  let* l := umul c len size in
  subslice_flat c t o l (from_vec_dims shape).

(** [chunks_exact(n)]: [n = 0] panics, an incomplete tail is dropped. *)
Fixpoint chunks_fuel {A} (fuel n : nat) (l : list A) : list (list A) :=
  match fuel with
  | O => []
  | S fuel' =>
    if n <=? length l then firstn n l :: chunks_fuel fuel' n (skipn n l) else []
  end.
Definition chunks_exact {A} (n : nat) (l : list A) : outcome (list (list A)) :=
  if n =? 0 then Panic else Ok (chunks_fuel (length l) n l).

(** src/tensor/tensor.rs:181-189 *)
Definition iter_row {A} (t : tensor A) : outcome (list (list A)) :=
  let* d := cols (tshape t) in
  let* xs := as_slice t in
  if 1 <? rank (tshape t) then chunks_exact d xs else chunks_exact 1 xs.

(** src/tensor/tensor.rs:193-203 *)
Definition from_slice {A} (c : cfg) (data : list A) : outcome (tensor A) :=
  let* s := from_usize (length data) in
  unsafe_init_ c (length data) s (fun o =>
    for_ (length data) (fun i o =>
      let* v := aget data i in write o i v) o).

(** [iter().sum()] of [usize] values. *)
Fixpoint sum64 (c : cfg) (acc : nat) (l : list nat) : outcome nat :=
  match l with
  | [] => Ok acc
  | d :: l' => let* acc' := uadd c acc d in sum64 c acc' l'
  end.

(** src/tensor/tensor.rs:219-240; the shape is already converted. *)
Definition from_merge {A} (c : cfg) (ts : list (tensor A)) (s : shape) : outcome (tensor A) :=
  let* len := sum64 c 0 (map tsize ts) in
  let* n := size c s in
  assert! (len =? n) in
  let* parts := map_out as_slice ts in
  from_vec c (concat parts) s.

(** src/tensor/tensor.rs:205-217 *)
Definition append {A} (c : cfg) (t u : tensor A) : outcome (tensor A) :=
  let* a := sublen c (tshape t) 1 (rank (tshape t)) in
  let* b := sublen c (tshape u) 1 (rank (tshape u)) in
  assert! (a =? b) in
  let* vec := as_vec c (tshape t) in
  let* d0 := dim c (tshape t) 0 in
  let* d1 := dim c (tshape u) 0 in
  let* n := uadd c d0 d1 in
  let* vec := aset vec 0 n in
  let* s := from_vec_dims vec in
  from_merge c [t; u] s.

(** src/tensor/tensor.rs:244-254 *)
Definition join_vec {A} (c : cfg) (v : list (list A)) : outcome (tensor A) :=
  let data := concat v in
  let* s := from_usize (length data) in
  from_vec c data s.

(** src/tensor/tensor.rs:284-288, for a [PartialEq] element type given by [eqb]. *)
Fixpoint list_eqb {A} (eqb : A -> A -> bool) (a b : list A) : bool :=
  match a, b with
  | [], [] => true
  | x :: a', y :: b' => eqb x y && list_eqb eqb a' b'
  | _, _ => false
  end.
Definition tensor_eqb {A} (eqb : A -> A -> bool) (t u : tensor A) : outcome bool :=
  if shape_eqb (tshape t) (tshape u) then
    let* a := as_slice t in
    let* b := as_slice u in
    Ok (list_eqb eqb a b)
  else Ok false.

(** ** Indexing: src/tensor/index.rs *)

(** src/tensor/index.rs:9-19 *)
Definition index1 {A} (t : tensor A) (i : nat) : outcome A :=
  assert! (i <? tsize t) in
  raw_get (tdata t) (toffset t + i).

(** src/tensor/index.rs:21-38, indexing with two coordinates, is in FmtModel.v: its panic
    messages show the tensor. *)

(** src/tensor/index.rs:40-61.  Line 45 takes [shape.size()], not the rank. *)
Definition index3 {A} (c : cfg) (t : tensor A) (i j k : nat) : outcome A :=
  let s := tshape t in
  let* len := size c s in
  assert! (2 <? len) in
  let* d2 := rdim s 2 in
  assert! (i <? d2) in
  let* d1 := rdim s 1 in
  assert! (j <? d1) in
  let* d0 := rdim s 0 in
  assert! (k <? d0) in
  let* p := umul c d1 i in
  let* p := uadd c j p in
  let* p := umul c d0 p in
  let* p := uadd c k p in
  index1 t p.

(** src/tensor/index.rs:63-87.  Line 68 takes [shape.size()], not the rank. *)
Definition index4 {A} (c : cfg) (t : tensor A) (h i j k : nat) : outcome A :=
  let s := tshape t in
  let* len := size c s in
  assert! (3 <? len) in
  let* d3 := rdim s 3 in
  assert! (h <? d3) in
  let* d2 := rdim s 2 in
  assert! (i <? d2) in
  let* d1 := rdim s 1 in
  assert! (j <? d1) in
  let* d0 := rdim s 0 in
  assert! (k <? d0) in
  let* p := umul c d2 h in
  let* p := uadd c i p in
  let* p := umul c d1 p in
  let* p := uadd c j p in
  let* p := umul c d0 p in
  let* p := uadd c k p in
  index1 t p.

(** src/tensor/index.rs:89-116 *)
Definition index5 {A} (c : cfg) (t : tensor A) (g h i j k : nat) : outcome A :=
  let s := tshape t in
  assert! (4 <? rank s) in
  let* d4 := rdim s 4 in
  assert! (g <? d4) in
  let* d3 := rdim s 3 in
  assert! (h <? d3) in
  let* d2 := rdim s 2 in
  assert! (i <? d2) in
  let* d1 := rdim s 1 in
  assert! (j <? d1) in
  let* d0 := rdim s 0 in
  assert! (k <? d0) in
  let* p := umul c d3 g in
  let* p := uadd c h p in
  let* p := umul c d2 p in
  let* p := uadd c i p in
  let* p := umul c d1 p in
  let* p := uadd c j p in
  let* p := umul c d0 p in
  let* p := uadd c k p in
  index1 t p.

(** ** Reshaping: src/tensor/shape.rs:523-570 *)

(** src/tensor/shape.rs:526-534; the shape is already converted. *)
Definition reshape {A} (c : cfg) (t : tensor A) (s : shape) : outcome (tensor A) :=
  let* n := size c s in
  assert! (n =? tsize t) in
  Ok (mkTensor s (toffset t) (tsize t) (tdata t)).

(** src/tensor/shape.rs:537-545 *)
Definition t_expand_dims {A} (c : cfg) (t : tensor A) (axis : option Z) : outcome (tensor A) :=
  let axis := match axis with Some a => a | None => 0%Z end in
  let* s := expand_dims c (tshape t) axis in
  reshape c t s.

(** src/tensor/shape.rs:549-553 *)
Definition flatten {A} (c : cfg) (t : tensor A) : outcome (tensor A) :=
  let* s := from_slice_dims [tsize t] in
  reshape c t s.

(** src/tensor/shape.rs:557-561 *)
Definition t_squeeze {A} (c : cfg) (t : tensor A) : outcome (tensor A) :=
  let* s := squeeze c (tshape t) None in
  reshape c t s.

(** src/tensor/shape.rs:565-569 *)
Definition squeeze_axis {A} (c : cfg) (t : tensor A) (axis : option Z) : outcome (tensor A) :=
  let* s := squeeze c (tshape t) axis in
  reshape c t s.

(** ** Conversions: src/tensor/from.rs *)

(** src/tensor/from.rs:10-14 *)
Definition of_value {A} (c : cfg) (v : A) : outcome (tensor A) := from_vec c [v] scalar.

(** src/tensor/from.rs:16-26 *)
Definition of_option {A} (c : cfg) (v : option A) : outcome (tensor A) :=
  match v with
  | Some x => from_vec c [x] scalar
  | None => let* s := from_slice_dims [0] in from_vec c [] s
  end.

(** src/tensor/from.rs:30-45, 183-200, 220-237, 283-299: vectors, slices, arrays and
    iterators (all clone the items into a vector first). *)
Definition of_vec {A} (c : cfg) (v : list A) : outcome (tensor A) :=
  let* s := from_usize (length v) in
  from_vec c v s.

(** src/tensor/from.rs:47-67, 202-212, 239-250: rows of a fixed length [n]
    (lists of lists whose inner length is [n] by typing). *)
Definition of_rows {A} (c : cfg) (n : nat) (v : list (list A)) : outcome (tensor A) :=
  let* s := from_slice_dims [length v; n] in
  from_vec c (concat v) s.

(** src/tensor/from.rs:252-265: arrays of fixed inner lengths [m], [n]. *)
Definition of_rows2 {A} (c : cfg) (m n : nat) (v : list (list (list A))) : outcome (tensor A) :=
  let* s := from_slice_dims [length v; m; n] in
  from_vec c (concat (concat v)) s.

(** src/tensor/from.rs:69-81 *)
Definition of_vec2 {A} (c : cfg) (v : list (list A)) : outcome (tensor A) :=
  let* v0 := aget v 0 in
  let len_1 := length v0 in
  let* data := for_each v (fun v1 data =>
    assert! (len_1 =? length v1) in
    Ok (data ++ v1)) [] in
  let* s := from_slice_dims [length v; len_1] in
  from_vec c data s.

(** src/tensor/from.rs:99-120 *)
Definition of_vec3 {A} (c : cfg) (v : list (list (list A))) : outcome (tensor A) :=
  let* v0 := aget v 0 in
  let len_1 := length v0 in
  let* v00 := aget v0 0 in
  let len_2 := length v00 in
  let* data := for_each v (fun v1 data =>
    assert! (len_1 =? length v1) in
    for_each v1 (fun v2 data =>
      assert! (len_2 =? length v2) in
      Ok (data ++ v2)) data) [] in
  let* s := from_slice_dims [length v; len_1; len_2] in
  from_vec c data s.

(** src/tensor/from.rs:122-148 *)
Definition of_vec4 {A} (c : cfg) (v : list (list (list (list A)))) : outcome (tensor A) :=
  let* v0 := aget v 0 in
  let len_1 := length v0 in
  let* v00 := aget v0 0 in
  let len_2 := length v00 in
  let* v000 := aget v00 0 in
  let len_3 := length v000 in
  let* data := for_each v (fun v1 data =>
    assert! (len_1 =? length v1) in
    for_each v1 (fun v2 data =>
      assert! (len_2 =? length v2) in
      for_each v2 (fun v3 data =>
        assert! (len_3 =? length v3) in
        Ok (data ++ v3)) data) data) [] in
  let* s := from_slice_dims [length v; len_1; len_2; len_3] in
  from_vec c data s.

(** src/tensor/from.rs:307-327 *)
Definition of_tensors {A} (c : cfg) (ts : list (tensor A)) : outcome (tensor A) :=
  let n := length ts in
  assert! (0 <? n) in
  let* t0 := aget ts 0 in
  let* _ := for_each ts (fun t _ =>
    assert! (tsize t0 =? tsize t) in
    assert_ (shape_eqb (tshape t0) (tshape t))) tt in
  let* parts := map_out as_slice ts in
  let* s := push (tshape t0) n in
  from_vec c (concat parts) s.
