(** * Model of src/array: transpose, split, concatenate, stack, tile *)
From Verif Require Import Base ShapeModel TensorModel AxisModel.

(** ** src/array/transpose.rs *)

(** src/array/transpose.rs:3-33.  The product on line 9 is of two 32-bit numbers and
    cannot overflow. *)
Definition transpose {A} (c : cfg) (t : tensor A) : outcome (tensor A) :=
  let* cols0 := cols (tshape t) in
  let cols := Nat.max cols0 1 in
  let* rows0 := rows (tshape t) in
  let rows := Nat.max rows0 1 in
  let* size := size c (tshape t) in
  let n_inner := cols * rows in
  let* batch := udiv size n_inner in
  let* s := (if rank (tshape t) =? 1 then rinsert c (tshape t) 0 1
             else let* s := with_cols (tshape t) rows in with_rows s cols) in
  unsafe_init_ c size s (fun o =>
    let* x := as_slice t in
    for_ batch (fun n o =>
      for_ rows (fun j o =>
        for_ cols (fun i o =>
          let* v := aget x (n * n_inner + j * cols + i) in
          write o (n * n_inner + i * rows + j) v) o) o) o).

(** ** src/array/split.rs *)

(** src/array/split.rs:170-173 (with the conversions 135-167: a number, or a list). *)
Inductive sections := SplitEqual (n : nat) | SplitCuts (cuts : list nat).

(** The [while] loop of src/array/split.rs:49-52.  Each round adds [step > 0], so [len]
    rounds of fuel suffice. *)
Fixpoint equal_cuts (fuel len step i : nat) (cuts : list nat) : list nat :=
  match fuel with
  | O => cuts
  | S fuel => if i <? len then equal_cuts fuel len step (i + step) (cuts ++ [i + step]) else cuts
  end.

(** src/array/split.rs:44-59 *)
Definition section_cuts (len : nat) (s : sections) : outcome (list nat) :=
  match s with
  | SplitEqual n =>
    let* step := udiv len n in
    assert! (0 <? step) in
    Ok (equal_cuts len len step 0 [])
  | SplitCuts l => Ok (l ++ [len])
  end.

(** Dimensions [a..b] as in src/array/split.rs:103-105 and 107-109. *)
Definition push_dims (c : cfg) (s : shape) (a b : nat) (vec : list nat) : outcome (list nat) :=
  for_range a b (fun i vec => let* d := dim c s i in Ok (vec ++ [d])) vec.

(** One piece: src/array/split.rs:102-124. *)
Definition split_piece {A} (c : cfg) (t : tensor A) (axis n_outer n_inner axis_len : nat)
    (x : list A) (prev cut : nat) : outcome (tensor A) :=
  let* vec := push_dims c (tshape t) 0 axis [] in
  let* w := usub c cut prev in
  let* vec := push_dims c (tshape t) (axis + 1) (rank (tshape t)) (vec ++ [w]) in
  let* n := umul c n_outer n_inner in
  let* len := umul c n w in
  let* s := from_vec_dims vec in
  unsafe_init_ c len s (fun o =>
    for_ n_outer (fun j o =>
      for_range prev cut (fun k o =>
        for_ n_inner (fun i o =>
          let* v := aget x (j * axis_len * n_inner + k * n_inner + i) in
          write o (j * n_inner * (cut - prev) + (k - prev) * n_inner + i) v) o) o) o).

(** src/array/split.rs:79-133 *)
Definition split_by_axis {A} (c : cfg) (t : tensor A) (axis : nat) (cuts : list nat)
  : outcome (list (tensor A)) :=
  let* n_outer := sublen c (tshape t) 0 axis in
  let* n_inner := (if axis <? rank (tshape t)
                   then sublen c (tshape t) (axis + 1) (rank (tshape t)) else Ok 1) in
  let* axis_len := dim c (tshape t) axis in
  let* x := as_slice t in
  let* '(slices, _) := for_each cuts (fun cut '(slices, prev) =>
    if cut =? prev then Ok (slices, prev)
    else
      let* data := split_piece c t axis n_outer n_inner axis_len x prev cut in
      Ok (slices ++ [data], cut)) ([], 0) in
  Ok slices.

(** The loop of src/array/split.rs:62-70 and of src/array/stack.rs:160-168. *)
Definition cut_rows {A} (c : cfg) (t : tensor A) (cuts : list nat) : outcome (list (tensor A)) :=
  let* '(slices, _) := for_each cuts (fun i '(slices, prev) =>
    let* slices :=
      (if i =? prev then Ok slices
       else
         let* w := usub c i prev in
         let* piece := subslice c t prev w in
         Ok (slices ++ [piece])) in
    Ok (slices, i)) ([], 0) in
  Ok slices.

(** src/array/split.rs:30-77 *)
Definition split_axis {A} (c : cfg) (axis : option Z) (t : tensor A) (s : sections)
  : outcome (list (tensor A)) :=
  let* axis := axis_from_rank c axis (rank (tshape t)) in
  let* len := dim c (tshape t) axis in
  let* cuts := section_cuts len s in
  if axis =? 0 then cut_rows c t cuts else split_by_axis c t axis cuts.

(** src/array/split.rs:5-27 *)
Definition split {A} (c : cfg) (t : tensor A) (s : sections) := split_axis c None t s.
Definition vsplit {A} (c : cfg) (t : tensor A) (s : sections) := split_axis c (Some 0%Z) t s.
Definition hsplit {A} (c : cfg) (t : tensor A) (s : sections) := split_axis c (Some 1%Z) t s.
Definition dsplit {A} (c : cfg) (t : tensor A) (s : sections) := split_axis c (Some 2%Z) t s.

(** ** src/array/stack.rs

    The conversions [IntoTensorList] only collect the tensors into a vector; here the
    argument is that vector. *)

(** src/array/stack.rs:225-252 *)
Definition validate_concat {A} (c : cfg) (args : list (tensor A)) (axis : nat) : outcome nat :=
  let* t0 := aget args 0 in
  let s := tshape t0 in
  for_each args (fun x axis_len =>
    assert! (rank s =? rank (tshape x)) in
    for_ (rank s) (fun i axis_len =>
      if i =? axis then
        let* d := dim c (tshape x) axis in
        uadd c axis_len d
      else
        let* a := dim c (tshape x) i in
        let* b := dim c s i in
        assert! (a =? b) in
        Ok axis_len) axis_len) 0.

(** src/array/stack.rs:178-223 *)
Definition concat_axis {A} (c : cfg) (axis : nat) (args : list (tensor A)) : outcome (tensor A) :=
  let* t0 := aget args 0 in
  let* axis_len := validate_concat c args axis in
  let* shape_inner := remove (tshape t0) axis in
  let* o_len := sum64 c 0 (map tsize args) in
  let* n_outer := sublen c shape_inner 0 axis in
  let* n_inner := (if axis <? rank shape_inner
                   then sublen c shape_inner axis (rank shape_inner) else Ok 1) in
  let* s := insert c shape_inner axis axis_len in
  unsafe_init_ c o_len s (fun o =>
    let j_stride := n_inner * axis_len in
    let* '(o, _) := for_each args (fun t '(o, off) =>
      let* n_axis := dim c (tshape t) axis in
      let* x := as_slice t in
      let* o := for_ n_outer (fun j o =>
        for_ n_axis (fun k o =>
          for_ n_inner (fun i o =>
            let* v := aget x (j * n_axis * n_inner + k * n_inner + i) in
            write o (j * j_stride + off + k * n_inner + i) v) o) o) o in
      Ok (o, off + n_axis * n_inner)) (o, 0) in
    Ok o).

(** src/array/stack.rs:3-12 and the method 101-108 *)
Definition concatenate {A} (c : cfg) (args : list (tensor A)) : outcome (tensor A) :=
  concat_axis c 0 args.

(** src/array/stack.rs:14-32 and the method 110-120 *)
Definition concatenate_axis {A} (c : cfg) (axis : option Z) (args : list (tensor A))
  : outcome (tensor A) :=
  let* axis := (match args with
                | t0 :: _ => axis_from_rank c axis (rank (tshape t0))
                | [] => Ok 0
                end) in
  concat_axis c axis args.

(** src/array/stack.rs:254-302 *)
Definition stack_vec {A} (c : cfg) (axis : option Z) (x : list (tensor A)) : outcome (tensor A) :=
  let* _ := for_each x (fun t prev =>
    match prev with
    | None => Ok (Some (tshape t))
    | Some s => assert! (shape_eqb s (tshape t)) in Ok (Some s)
    end) None in
  let* t0 := aget x 0 in
  let s := tshape t0 in
  let* axis := axis_from_rank c axis (rank s + 1) in
  let n_args := length x in
  let* x_len := size c s in
  let* n_inner := sublen c s axis (rank s) in
  let* n_outer := udiv x_len n_inner in
  let* o_len := sum64 c 0 (map tsize x) in
  let* os := insert c s axis (length x) in
  unsafe_init_ c o_len os (fun o =>
    let* '(o, _) := for_each x (fun t '(o, j) =>
      assert! (x_len =? tsize t) in
      let* xs := as_slice t in
      let* o := for_ n_outer (fun k o =>
        for_ n_inner (fun i o =>
          let* v := aget xs (k * n_inner + i) in
          write o ((k * n_args + j) * n_inner + i) v) o) o in
      Ok (o, j + 1)) (o, 0) in
    Ok o).

(** src/array/stack.rs:36-45, 47-56 and the method 122-129 *)
Definition stack {A} (c : cfg) (x : list (tensor A)) := stack_vec c None x.
Definition stack_axis {A} (c : cfg) (axis : option Z) (x : list (tensor A)) := stack_vec c axis x.

(** src/array/stack.rs:304-322 (58-67, 131-138) *)
Definition dstack {A} (c : cfg) (x : list (tensor A)) : outcome (tensor A) :=
  let* t0 := aget x 0 in
  let s := tshape t0 in
  let* ts := map_out (fun t =>
    assert! (shape_eqb s (tshape t)) in
    match rank (tshape t) with
    | 0 => Panic
    | 1 => let* s := from_slice_dims [1; tsize t; 1] in reshape c t s
    | 2 =>
      let* r := rows (tshape t) in
      let* k := cols (tshape t) in
      let* s := from_slice_dims [r; k; 1] in reshape c t s
    | _ => Ok t
    end) x in
  concatenate_axis c (Some 2%Z) ts.

(** src/array/stack.rs:69-84 *)
Definition hstack {A} (c : cfg) (x : list (tensor A)) : outcome (tensor A) :=
  let* t0 := aget x 0 in
  if rank (tshape t0) =? 1 then concatenate_axis c (Some 0%Z) x
  else concatenate_axis c (Some 1%Z) x.

(** src/array/stack.rs:324-338 (86-95, 140-149) *)
Definition vstack {A} (c : cfg) (x : list (tensor A)) : outcome (tensor A) :=
  let* ts := map_out (fun t =>
    let* s := insert c (tshape t) 0 1 in reshape c t s) x in
  concatenate_axis c (Some 0%Z) ts.

(** src/array/stack.rs:152-175.  The list of cuts is empty.  ([axis as isize] is the axis
    itself: it is below the rank.) *)
Definition unstack {A} (c : cfg) (axis : option Z) (t : tensor A) : outcome (list (tensor A)) :=
  let* axis := axis_from_rank c axis (rank (tshape t)) in
  let cuts := [] in
  if axis =? 0 then cut_rows c t cuts
  else split_axis c (Some (Z.of_nat axis)) t (SplitCuts cuts).

(** ** src/array/tile.rs *)

(** src/array/tile.rs:63-96.  The last argument of the Rust function, [&mut offset], is
    threaded with the buffer.  The depth of the call stack is not modelled. *)
Fixpoint tile_rec {A} (c : cfg) (x : list A) (x_off x_len : nat) (x_shape_r mult_r : list nat)
    (j : nat) (st : buf A * nat) : outcome (buf A * nat) :=
  let repeat := match nth_error mult_r j with Some m => m | None => 1 end in
  for_ repeat (fun _ '(o, offset) =>
    match j with
    | O =>
      let* o := for_ x_len (fun i o =>
        let* v := aget x (x_off + i) in write o (offset + i) v) o in
      Ok (o, offset + x_len)
    | S j' =>
      match nth_error x_shape_r j with
      | Some d =>
        let* x_len := product64 c 1 (firstn j x_shape_r) in
        for_ d (fun i st =>
          tile_rec c x (x_off + i * x_len) x_len x_shape_r mult_r j' st) (o, offset)
      | None => tile_rec c x x_off x_len x_shape_r mult_r j' (o, offset)
      end
    end) st.

(** src/array/tile.rs:12-59 *)
Definition tile {A} (c : cfg) (t : tensor A) (multiples : tensor nat) : outcome (tensor A) :=
  let s := tshape t in
  let* v := as_vec c s in
  let shape_r := rev v in
  let* m := as_slice multiples in
  let mult_r := rev m in
  let* n_inner := size c s in
  let* n_outer := product64 c 1 m in
  let* x := as_slice t in
  let* m_len := len c (tshape multiples) in
  let o_rank := Nat.max (rank s) m_len in
  let* o_shape_r := for_ o_rank (fun i os =>
    let* tile_dim := (if i <? rank s then aget shape_r i else Ok 1) in
    let* repeat_dim := (if i <? m_len then aget mult_r i else Ok 1) in
    let* d := umul c tile_dim repeat_dim in
    Ok (os ++ [d])) [] in
  let* n := umul c n_outer n_inner in
  let* os := from_vec_dims (rev o_shape_r) in
  unsafe_init_ c n os (fun o =>
    let* j := usub c o_rank 1 in
    let* '(o, _) := tile_rec c x 0 (length x) shape_r mult_r j (o, 0) in
    Ok o).
