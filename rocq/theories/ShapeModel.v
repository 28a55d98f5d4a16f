(** * Model of src/tensor/shape.rs: the type [Shape] and its methods. *)
From Verif Require Import Base.

(** src/tensor/shape.rs:13 *)
Definition MAX_RANK : nat := 6.

(** src/tensor/shape.rs:6-10.  [dims] is the fixed array of six [u32], innermost
    dimension first; [rank] says how many are in use.  The derived [PartialEq]
    compares the whole array and the rank, i.e. it is equality of records. *)
Record shape := mkShape { dims : list nat; rank : nat }.

(** src/tensor/shape.rs:6 derive(PartialEq) *)
Definition shape_eqb (a b : shape) : bool :=
  (if list_eq_dec Nat.eq_dec (dims a) (dims b) then true else false)
  && (rank a =? rank b).

(** [[0; Self::MAX_RANK]] *)
Definition zero_dims : list nat := repeat 0 MAX_RANK.

(** src/tensor/shape.rs:15-22 *)
Definition scalar : shape := mkShape zero_dims 0.

(** src/tensor/shape.rs:24-34 *)
Definition vector (len : nat) : outcome shape :=
  assert! (0 <? len) in
  let* d := aset zero_dims 0 (as_u32 len) in
  Ok (mkShape d 1).

(** src/tensor/shape.rs:37-39 *)
Definition size (c : cfg) (s : shape) : outcome nat :=
  let* d := aslice (dims s) 0 (rank s) in
  product32 c 1 d.

(** src/tensor/shape.rs:50-52 *)
Definition dim (c : cfg) (s : shape) (i : nat) : outcome nat :=
  let* a := usub c (rank s) 1 in
  let* k := usub c a i in
  aget (dims s) k.

(** src/tensor/shape.rs:81-87 *)
Definition rreplace (s : shape) (i value : nat) : outcome shape :=
  assert! (i <? rank s) in
  let* d := aset (dims s) i (as_u32 value) in
  Ok (mkShape d (rank s)).

(** src/tensor/shape.rs:59-61 and 68-74 ([with_dim] is [replace]). *)
Definition replace (c : cfg) (s : shape) (i value : nat) : outcome shape :=
  assert! (i <? rank s) in
  let* a := usub c (rank s) 1 in
  let* k := usub c a i in
  rreplace s k value.
Definition with_dim := replace.

(** src/tensor/shape.rs:93-95 *)
Definition rdim (s : shape) (i : nat) : outcome nat := aget (dims s) i.

(** src/tensor/shape.rs:98-102 *)
Definition idim (c : cfg) (s : shape) (i : Z) : outcome nat :=
  let* v := iadd c i (Z.of_nat (rank s)) in
  let* k := urem (as_usize v) (rank s) in
  dim c s k.

(** src/tensor/shape.rs:105-107 *)
Definition len (c : cfg) (s : shape) : outcome nat := dim c s 0.

(** src/tensor/shape.rs:110-112 *)
Definition cols (s : shape) : outcome nat := aget (dims s) 0.

(** src/tensor/shape.rs:116-122 *)
Definition with_cols (s : shape) (col : nat) : outcome shape :=
  let* d := aset (dims s) 0 (as_u32 col) in
  Ok (mkShape d (rank s)).

(** src/tensor/shape.rs:125-133 *)
Definition rows (s : shape) : outcome nat :=
  if 1 <? rank s then aget (dims s) 1 else Ok 0.

(** src/tensor/shape.rs:137-145 *)
Definition with_rows (s : shape) (row : nat) : outcome shape :=
  assert! (1 <? rank s) in
  let* d := aset (dims s) 1 (as_u32 row) in
  Ok (mkShape d (rank s)).

(** src/tensor/shape.rs:148-156 *)
Definition batch_len (c : cfg) (s : shape) (base_rank : nat) : outcome nat :=
  if base_rank <? rank s then
    let* d := aslice (dims s) 0 (rank s - base_rank) in
    product32 c 1 d
  else Ok 1.

(** src/tensor/shape.rs:171-180.  (The arguments of the panic message are not modelled:
    they are evaluated only on the way to a panic.) *)
Definition check_broadcast (a b : shape) : outcome unit :=
  for_ (Nat.min (rank a) (rank b)) (fun i _ =>
    let* x := rdim a i in
    let* y := rdim b i in
    assert_ (x =? y)) tt.

(** src/tensor/shape.rs:158-169; the loop is that of [check_broadcast]. *)
Definition broadcast (c : cfg) (a b : shape) : outcome nat :=
  let* _ := check_broadcast a b in
  if rank a <? rank b then size c b else size c a.

(** src/tensor/shape.rs:182-197; the loop is that of [check_broadcast]. *)
Definition broadcast_to (a b : shape) : outcome shape :=
  let* _ := check_broadcast a b in
  Ok (if rank a <? rank b then b else a).

(** src/tensor/shape.rs:257-268.  The accumulator is a [u32]. *)
Definition sublen (c : cfg) (s : shape) (start end_ : nat) : outcome nat :=
  let* a := usub c (rank s) end_ in
  let* b := usub c (rank s) start in
  for_range a b (fun i size =>
    let* d := aget (dims s) i in mul32 c size d) 1.

(** src/tensor/shape.rs:271-280 *)
Definition rsublen (c : cfg) (s : shape) (start end_ : nat) : outcome nat :=
  for_range start end_ (fun i size =>
    let* d := aget (dims s) i in mul32 c size d) 1.

(** src/tensor/shape.rs:199-219 *)
Definition broadcast_min (c : cfg) (a : shape) (a_min : nat) (b : shape) (b_min : nat)
  : outcome nat :=
  let* ra := usub c (rank a) a_min in
  let* rb := usub c (rank b) b_min in
  let* _ := for_ (Nat.min ra rb) (fun i _ =>
    let* x := aget (dims a) (i + a_min) in
    let* y := aget (dims b) (i + b_min) in
    assert_ (x =? y)) tt in
  if ra <? rb then sublen c b 0 rb else sublen c a 0 ra.

(** src/tensor/shape.rs:222-230 *)
Definition as_vec (c : cfg) (s : shape) : outcome (list nat) :=
  for_ (rank s) (fun i vec =>
    let* d := dim c s i in Ok (vec ++ [d])) [].

(** src/tensor/shape.rs:232-240 *)
Definition push (s : shape) (d : nat) : outcome shape :=
  let* ds := aset (dims s) (rank s) (as_u32 d) in
  Ok (mkShape ds (rank s + 1)).

(** src/tensor/shape.rs:243-254.  Note [dims.len()] on line 252 is the array length. *)
Definition append_dims (s : shape) (tail : list nat) : outcome shape :=
  let* ds := for_ (length tail) (fun i ds =>
    let* d := aget tail i in
    aset ds (i + rank s) (as_u32 d)) (dims s) in
  Ok (mkShape ds (rank s + length ds)).

(** src/tensor/shape.rs:433-443 *)
Definition from_usize (v : nat) : outcome shape :=
  let* d := aset zero_dims 0 (as_u32 v) in
  Ok (mkShape d 1).

(** src/tensor/shape.rs:445-458 and 460-473 (slice and array; same body). *)
Definition from_slice_dims (value : list nat) : outcome shape :=
  let* d := for_ (length value) (fun i ds =>
    let* x := aget (rev value) i in
    aset ds i (as_u32 x)) zero_dims in
  Ok (mkShape d (length value)).

(** src/tensor/shape.rs:475-489 *)
Definition from_vec_dims (value : list nat) : outcome shape :=
  let* d := for_ (length value) (fun i ds =>
    let* x := aget (rev value) i in
    assert! (0 <? x) in
    aset ds i (as_u32 x)) zero_dims in
  Ok (mkShape d (length value)).

(** [Vec::insert]: panics past the end. *)
Definition vec_insert {A} (l : list A) (i : nat) (x : A) : outcome (list A) :=
  if i <=? length l then Ok (firstn i l ++ x :: skipn i l) else Panic.

(** src/tensor/shape.rs:284-293 *)
Definition expand_dims (c : cfg) (s : shape) (axis : Z) : outcome shape :=
  let* vec := as_vec c s in
  let* z := (if (0 <=? axis)%Z then Ok axis
             else let* a := iadd c (Z.of_nat (length vec)) axis in iadd c a 1) in
  let index := as_usize z in
  assert! (index <=? length vec) in
  let* v := vec_insert vec index 1 in
  from_vec_dims v.

(** Loop shared by the two branches of [squeeze] (src/tensor/shape.rs:305-310 and
    326-331): keep the dimensions [i] for which [keep i d] holds. *)
Definition squeeze_loop (s : shape) (keep : nat -> nat -> bool) : outcome shape :=
  let* d0 := aset zero_dims 0 1 in
  let* '(d, r) := for_ (rank s) (fun i '(d, r) =>
    let* x := aget (dims s) i in
    if keep i x then
      let* d' := aset d r x in Ok (d', r + 1)
    else Ok (d, r)) (d0, 0) in
  Ok (mkShape d (Nat.max r 1)).

(** src/tensor/shape.rs:296-339 *)
Definition squeeze (c : cfg) (s : shape) (axis : option Z) : outcome shape :=
  match axis with
  | None => squeeze_loop s (fun _ d => negb (d =? 1))
  | Some axis =>
    let* a := iadd c axis (Z.of_nat (rank s)) in
    assert! (negb (rank s =? 0)) in                  (* [%] by zero panics *)
    let a := Z.rem a (Z.of_nat (rank s)) in
    let* k := usub c (rank s) (as_usize a) in
    squeeze_loop s (fun i d => negb (i =? k) || negb (d =? 1))
  end.

(** src/tensor/shape.rs:341-350 *)
Definition pop (c : cfg) (s : shape) : outcome shape :=
  let* k := usub c (rank s) 1 in
  let* d := aset (dims s) k 0 in
  Ok (mkShape d (Nat.max (rank s) 1 - 1)).

(** src/tensor/shape.rs:362-373 *)
Definition rremove (s : shape) (axis : nat) : outcome shape :=
  assert! (axis <? rank s) in
  let* d := for_range axis (rank s - 1) (fun i d =>
    let* x := aget d (i + 1) in aset d i x) (dims s) in
  let r := rank s - 1 in
  let* d := aset d r 0 in
  Ok (mkShape d r).

(** src/tensor/shape.rs:353-359 *)
Definition remove (s : shape) (axis : nat) : outcome shape :=
  assert! (axis <? rank s) in
  rremove s (rank s - 1 - axis).

(** src/tensor/shape.rs:376-382 *)
Definition reduce_shape (s : shape) : outcome shape :=
  if 1 <? rank s then rremove s 0 else with_cols s 1.

(** src/tensor/shape.rs:394-405.  The loop runs downwards: iteration [k] handles
    [i = rank - 1 - k]. *)
Definition rinsert (c : cfg) (s : shape) (axis len : nat) : outcome shape :=
  let* a1 := uadd c axis 1 in
  assert! (a1 <? MAX_RANK) in
  let* d := for_ (rank s - axis) (fun k d =>
    let i := rank s - 1 - k in
    let* x := aget d i in aset d (i + 1) x) (dims s) in
  let* d := aset d axis (as_u32 len) in
  Ok (mkShape d (rank s + 1)).

(** src/tensor/shape.rs:386-390 *)
Definition insert (c : cfg) (s : shape) (axis len : nat) : outcome shape :=
  let* k := usub c (rank s) axis in
  rinsert c s k len.

(** Loop of [next_index]: positions [i] still to be incremented, with the break. *)
Fixpoint next_index_from (s : shape) (i : nat) (index : list nat) : outcome (list nat) :=
  match index with
  | [] => Ok []
  | x :: rest =>
    let* d := aget (dims s) i in
    let value := (x + 1) mod (Nat.max d 1) in
    if value =? 0 then
      let* rest' := next_index_from s (i + 1) rest in Ok (value :: rest')
    else Ok (value :: rest)
  end.

(** src/tensor/shape.rs:408-418 *)
Definition next_index (s : shape) (index : list nat) : outcome (list nat) :=
  next_index_from s 0 index.
