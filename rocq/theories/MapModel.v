(** * Model of src/tensor/map.rs

    A closure [FnMut(X) -> Y] is a function [S -> X -> outcome (S * Y)]: the state [S]
    makes the order and number of calls observable, and the closure may panic.  Every
    function returns the final closure state together with the tensor. *)
From Verif Require Import Base ShapeModel TensorModel AxisModel.

(** A closure without state. *)
Definition pure1 {X Y} (f : X -> Y) : unit -> X -> outcome (unit * Y) :=
  fun s x => Ok (s, f x).
Definition pure2 {X1 X2 Y} (f : X1 -> X2 -> Y) : unit -> X1 -> X2 -> outcome (unit * Y) :=
  fun s x1 x2 => Ok (s, f x1 x2).
Definition pure3 {X1 X2 X3 Y} (f : X1 -> X2 -> X3 -> Y)
  : unit -> X1 -> X2 -> X3 -> outcome (unit * Y) :=
  fun s x1 x2 x3 => Ok (s, f x1 x2 x3).

(** src/tensor/map.rs:172-187 (and the method 8-13); the shape is already converted. *)
Definition init {S V} (c : cfg) (s : shape) (f : S -> outcome (S * V)) (st : S)
  : outcome (S * tensor V) :=
  let* n := size c s in
  unsafe_init c n s (fun sb =>
    for_ n (fun i '(st, o) =>
      let* '(st, v) := f st in
      let* o := write o i v in
      Ok (st, o)) sb) st.

(** src/tensor/map.rs:189-210 (and the method 15-20); the shape is already converted. *)
Definition init_rindexed {S V} (c : cfg) (s : shape)
    (f : S -> list nat -> outcome (S * V)) (st : S) : outcome (S * tensor V) :=
  let* n := size c s in
  unsafe_init c n s (fun '(st, o) =>
    let* '(st, o, _) := for_ n (fun i '(st, o, index) =>
      let* '(st, v) := f st index in
      let* o := write o i v in
      let* index := next_index s index in
      Ok (st, o, index)) (st, o, repeat 0 (rank s)) in
    Ok (st, o)) st.

(** src/tensor/map.rs:212-228 with the method 23-29 *)
Definition map_ {S U V} (c : cfg) (a : tensor U) (f : S -> U -> outcome (S * V)) (st : S)
  : outcome (S * tensor V) :=
  let len := tsize a in
  unsafe_init c len (tshape a) (fun sb =>
    let* a := as_slice a in
    for_ len (fun i '(st, o) =>
      let* x := aget a i in
      let* '(st, v) := f st x in
      let* o := write o i v in
      Ok (st, o)) sb) st.

(** Writing the items of a returned array: src/tensor/map.rs:249-251, 271-273, 495-497. *)
Definition write_row {V} (o : buf V) (p : nat) (vs : list V) : outcome (buf V) :=
  for_ (length vs) (fun j o =>
    let* v := aget vs j in write o (p + j) v) o.

(** src/tensor/map.rs:33-44 and 230-255.  [N] is the const generic; the closure's result
    is an array of that length, here a list.  (The positions are below the size of the
    output, which has been computed, and are given without overflow.) *)
Definition map_row {S U V} (c : cfg) (N : nat) (a : tensor U)
    (f : S -> list U -> outcome (S * list V)) (st : S) : outcome (S * tensor V) :=
  let* s := (if (N =? 1) && (1 <? rank (tshape a))
             then rremove (tshape a) 0 else with_cols (tshape a) N) in
  let* a_cols := cols (tshape a) in
  let* len := udiv (tsize a) a_cols in
  unsafe_init c (N * len) s (fun sb =>
    for_ len (fun i '(st, o) =>
      let* row := raw_slice (tdata a) (toffset a + i * a_cols) a_cols in
      let* '(st, vs) := f st row in
      let* o := write_row o (i * N) vs in
      Ok (st, o)) sb) st.

(** src/tensor/map.rs:48-55 and 257-277 *)
Definition map_expand {S U V} (c : cfg) (N : nat) (a : tensor U)
    (f : S -> U -> outcome (S * list V)) (st : S) : outcome (S * tensor V) :=
  let* s := rinsert c (tshape a) 0 N in
  let len := tsize a in
  unsafe_init c (N * len) s (fun sb =>
    let* a := as_slice a in
    for_ len (fun i '(st, o) =>
      let* x := aget a i in
      let* '(st, vs) := f st x in
      let* o := write_row o (i * N) vs in
      Ok (st, o)) sb) st.

(** src/tensor/map.rs:58-70 and 279-314 *)
Definition map2 {S T U V} (c : cfg) (a : tensor T) (b : tensor U)
    (f : S -> T -> U -> outcome (S * V)) (st : S) : outcome (S * tensor V) :=
  let* s := broadcast_to (tshape a) (tshape b) in
  let size := Nat.max (tsize a) (tsize b) in
  let inner := Nat.min (tsize a) (tsize b) in
  let* batch := udiv size inner in
  assert! (batch * inner =? size) in
  unsafe_init c size s (fun sb =>
    for_ batch (fun n sb =>
      let offset := n * inner in
      let* xa := as_wrap_slice a offset in
      let* xb := as_wrap_slice b offset in
      for_ inner (fun k '(st, o) =>
        let* x := aget xa k in
        let* y := aget xb k in
        let* '(st, v) := f st x y in
        let* o := write o (offset + k) v in
        Ok (st, o)) sb) sb) st.

(** src/tensor/map.rs:72-83 and 85-96: not implemented. *)
Definition map2_row {V} : outcome (tensor V) := Panic.
Definition map2_expand {V} : outcome (tensor V) := Panic.

(** src/tensor/map.rs:99-114 and 361-400 *)
Definition map3 {S T U V W} (c : cfg) (ta : tensor T) (tb : tensor U) (tc : tensor V)
    (f : S -> T -> U -> V -> outcome (S * W)) (st : S) : outcome (S * tensor W) :=
  let* s := broadcast_to (tshape ta) (tshape tb) in
  let* s := broadcast_to s (tshape tc) in
  let size := Nat.max (Nat.max (tsize ta) (tsize tb)) (tsize tc) in
  let inner := Nat.min (Nat.min (tsize ta) (tsize tb)) (tsize tc) in
  let* batch := udiv size inner in
  assert! (batch * inner =? size) in
  unsafe_init c size s (fun sb =>
    for_ batch (fun n sb =>
      let offset := n * inner in
      let* xa := as_wrap_slice ta offset in
      let* xb := as_wrap_slice tb offset in
      let* xc := as_wrap_slice tc offset in
      for_ inner (fun k '(st, o) =>
        let* x := aget xa k in
        let* y := aget xb k in
        let* z := aget xc k in
        let* '(st, v) := f st x y z in
        let* o := write o (offset + k) v in
        Ok (st, o)) sb) sb) st.

(** src/tensor/map.rs:116-123 and 402-424.  [into] is [FoldState::into_result]. *)
Definition fold_ {S U R V} (c : cfg) (t : tensor U) (ini : R) (into : R -> V)
    (f : S -> R -> U -> outcome (S * R)) (st : S) : outcome (S * tensor V) :=
  let* a := as_slice t in
  let* '(st, value) := for_ (tsize t) (fun i '(st, value) =>
    let* x := aget a i in f st value x) (st, ini) in
  let* r := of_value c (into value) in
  Ok (st, r).

(** src/tensor/map.rs:125-132 and 426-461 *)
Definition fold_axis {S T R V} (c : cfg) (t : tensor T) (axis : option Z)
    (ini : R) (into : R -> V) (f : S -> R -> T -> outcome (S * R)) (st : S)
  : outcome (S * tensor V) :=
  let* '(o_shape, batch, a_len, inner) := axis_reduce c axis (tshape t) in
  let* n_out := size c o_shape in
  unsafe_init c n_out o_shape (fun sb =>
    let* a := as_slice t in
    for_ batch (fun n sb =>
      for_ inner (fun i '(st, o) =>
        let* '(st, state) := for_ a_len (fun k '(st, state) =>
          let* v := aget a ((n * a_len + k) * inner + i) in
          f st state v) (st, ini) in
        let* o := write o (n * inner + i) (into state) in
        Ok (st, o)) sb) sb) st.

(** src/tensor/map.rs:134-141 and 463-502.  [into] yields the array of [N] outputs. *)
Definition fold_row {S T R V} (c : cfg) (N : nat) (t : tensor T) (axis : option Z)
    (ini : R) (into : R -> list V) (f : S -> R -> list T -> outcome (S * R)) (st : S)
  : outcome (S * tensor V) :=
  let* '(o_shape, batch, a_len, inner) := axis_reduce_row c axis (tshape t) N in
  let* ncols := cols (tshape t) in
  let* n_out := size c o_shape in
  unsafe_init c n_out o_shape (fun sb =>
    for_ batch (fun b sb =>
      for_ inner (fun j '(st, o) =>
        let* '(st, state) := for_ a_len (fun k '(st, state) =>
          let offset := (b * a_len + k) * inner + j in
          let* v := as_wrap_slice_n c t (ncols * offset) ncols in
          f st state v) (st, ini) in
        let* o := write_row o ((b * inner + j) * N) (into state) in
        Ok (st, o)) sb) sb) st.

(** src/tensor/map.rs:163-165 and 526-543 *)
Definition reduce {S T} (c : cfg) (t : tensor T) (f : S -> T -> T -> outcome (S * T)) (st : S)
  : outcome (S * tensor T) :=
  let* a := as_slice t in
  let* v0 := aget a 0 in
  let* '(st, value) := for_range 1 (tsize t) (fun i '(st, value) =>
    let* x := aget a i in f st value x) (st, v0) in
  let* r := from_scalar c value in
  Ok (st, r).

(** src/tensor/map.rs:167-169 and 545-577 *)
Definition reduce_axis {S T} (c : cfg) (t : tensor T) (axis : option Z)
    (f : S -> T -> T -> outcome (S * T)) (st : S) : outcome (S * tensor T) :=
  let* '(o_shape, batch, a_len, inner) := axis_reduce c axis (tshape t) in
  let* n_out := size c o_shape in
  unsafe_init c n_out o_shape (fun sb =>
    let* a := as_slice t in
    for_ batch (fun n sb =>
      for_ inner (fun i '(st, o) =>
        let* s0 := aget a (n * a_len * inner + i + 0 * inner) in
        let* '(st, state) := for_range 1 a_len (fun k '(st, state) =>
          let* v := aget a (n * a_len * inner + i + k * inner) in
          f st state v) (st, s0) in
        let* o := write o (n * inner + i) state in
        Ok (st, o)) sb) sb) st.

(** src/tensor/map.rs:143-159 and 580-629 *)
Definition normalize {S T R R1 V} (c : cfg) (t : tensor T) (axis : option Z) (ini : R)
    (accum : S -> R -> T -> outcome (S * R))
    (complete : S -> R -> outcome (S * R1))
    (norm : S -> R1 -> T -> outcome (S * V)) (st : S) : outcome (S * tensor V) :=
  let* '(_, batch, a_len, inner) := axis_reduce c axis (tshape t) in
  let* n_out := size c (tshape t) in
  unsafe_init c n_out (tshape t) (fun sb =>
    let* a := as_slice t in
    for_ batch (fun n sb =>
      for_ inner (fun i '(st, o) =>
        let* '(st, state) := for_ a_len (fun k '(st, state) =>
          let* v := aget a ((n * a_len + k) * inner + i) in
          accum st state v) (st, ini) in
        let* '(st, state) := complete st state in
        for_ a_len (fun k '(st, o) =>
          let* v := aget a ((n * a_len + k) * inner + i) in
          let* '(st, w) := norm st state v in
          let* o := write o ((n * inner + i) * a_len + k) w in
          Ok (st, o)) (st, o)) sb) sb) st.
