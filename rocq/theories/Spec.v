(** * Specification vocabulary

    The notions used to state the properties.  Apart from [repr], which says what a
    tensor of the model looks like from outside, nothing here refers to how the code
    works. *)
From Verif Require Import Base ShapeModel TensorModel.

(** Number of elements of a tensor with the given dimensions (outermost first). *)
Fixpoint prod (ds : list nat) : nat :=
  match ds with
  | [] => 1
  | d :: ds' => d * prod ds'
  end.

(** Row-major position of a coordinate. *)
Fixpoint ravel (ds idx : list nat) : nat :=
  match ds, idx with
  | _ :: ds', i :: idx' => i * prod ds' + ravel ds' idx'
  | _, _ => 0
  end.

(** The coordinate is inside the dimensions. *)
Definition in_shape (ds idx : list nat) : Prop := Forall2 lt idx ds.

(** All coordinates of the dimensions, in row-major order. *)
Fixpoint coords (ds : list nat) : list (list nat) :=
  match ds with
  | [] => [[]]
  | d :: ds' => flat_map (fun i => map (cons i) (coords ds')) (seq 0 d)
  end.

(** Element of a row-major element list at a coordinate. *)
Definition elem {A} (ds : list nat) (xs : list A) (idx : list nat) : option A :=
  nth_error xs (ravel ds idx).

(** Editing a list at a position. *)
Definition insert_at {A} (i : nat) (x : A) (l : list A) : list A := firstn i l ++ x :: skipn i l.
Definition remove_at {A} (i : nat) (l : list A) : list A := firstn i l ++ skipn (S i) l.
Definition replace_at {A} (i : nat) (x : A) (l : list A) : list A :=
  firstn i l ++ match skipn i l with [] => [] | _ :: r => x :: r end.

(** The list [a] is the tail end of the list [b]. *)
Definition suffix {A} (a b : list A) : Prop := exists p, b = p ++ a.

(** Dimension lists within the supported range: at most six dimensions, and no product
    of (some of) the dimensions reaches 2^32. *)
Definition supported (ds : list nat) : Prop :=
  length ds <= 6 /\ (Z.of_nat (prod (map (Nat.max 1) ds)) < 4294967296)%Z.

(** The shape value that stands for a dimension list. *)
Definition canon (ds : list nat) : shape :=
  mkShape (rev ds ++ repeat 0 (6 - length ds)) (length ds).

(** [repr t ds xs]: seen from outside, [t] is a tensor with dimensions [ds] (outermost
    first) and elements [xs] in row-major order.  It may be a view into a larger
    buffer. *)
Record repr {A} (t : tensor A) (ds : list nat) (xs : list A) : Prop := mkRepr {
  repr_supported : supported ds;
  repr_shape : tshape t = canon ds;
  repr_size : tsize t = length xs;
  repr_len : length xs = prod ds;
  repr_data : exists pre post, tdata t = pre ++ xs ++ post /\ length pre = toffset t;
  repr_mem : (Z.of_nat (length (tdata t)) < 9223372036854775808)%Z
}.

(** A newly allocated tensor. *)
Definition fresh {A} (ds : list nat) (xs : list A) : tensor A :=
  mkTensor (canon ds) 0 (length xs) xs.

(** The allocator can serve a request for [n] elements: always for [n > 0], and for
    [n = 0] if it tolerates zero-size requests. *)
Definition can_alloc (c : cfg) (n : nat) : Prop := n <> 0 \/ zero_alloc_ok c = true.

(** Calling a stateful, possibly panicking function on each item of a list, left to
    right, collecting the results. *)
Fixpoint traverse {S X Y} (f : S -> X -> outcome (S * Y)) (s : S) (l : list X)
  : outcome (S * list Y) :=
  match l with
  | [] => Ok (s, [])
  | x :: l' =>
    let* '(s, y) := f s x in
    let* '(s, ys) := traverse f s l' in
    Ok (s, y :: ys)
  end.

(** Left fold with a stateful, possibly panicking function. *)
Fixpoint foldM {S R X} (f : S -> R -> X -> outcome (S * R)) (s : S) (r : R) (l : list X)
  : outcome (S * R) :=
  match l with
  | [] => Ok (s, r)
  | x :: l' => let* '(s, r) := f s r x in foldM f s r l'
  end.

(** Reducing a non-empty line from its first element. *)
Definition reduceM {S T} (f : S -> T -> T -> outcome (S * T)) (st : S) (l : list T) : outcome (S * T) :=
  match l with
  | [] => Panic
  | x :: l' => foldM f st x l'
  end.

(** Statistics of a line, completed, then applied to every element of the line. *)
Definition normM {S T R R1 V} (ini : R) (accum : S -> R -> T -> outcome (S * R))
    (complete : S -> R -> outcome (S * R1)) (norm : S -> R1 -> T -> outcome (S * V))
    (st : S) (l : list T) : outcome (S * list V) :=
  let* '(st, r) := foldM accum st ini l in
  let* '(st, r1) := complete st r in
  traverse (fun st x => norm st r1 x) st l.

(** [a] names the axis at position [p] of a tensor of rank [r]. *)
Definition names_axis (a : Z) (p r : nat) : Prop :=
  p < r /\ (a = Z.of_nat p \/ a = Z.of_nat p - Z.of_nat r)%Z.

(** The cut points are in order and lie between [lo] and [hi]. *)
Fixpoint ascending (lo : nat) (cuts : list nat) (hi : nat) : Prop :=
  match cuts with
  | [] => lo <= hi
  | k :: cuts' => lo <= k /\ ascending k cuts' hi
  end.

(** The non-empty ranges between successive cut points, from [lo]. *)
Fixpoint ranges (lo : nat) (cuts : list nat) : list (nat * nat) :=
  match cuts with
  | [] => []
  | k :: cuts' => if lo <? k then (lo, k) :: ranges k cuts' else ranges k cuts'
  end.

(** [t] is the range [a..b] along the axis between [d1] and [d2] of a tensor with axis
    length [n] and elements [xs]. *)
Definition range_of {A} (d1 : list nat) (n : nat) (d2 : list nat) (xs : list A)
    (t : tensor A) (r : nat * nat) : Prop :=
  exists ys, repr t (d1 ++ (snd r - fst r) :: d2) ys /\
    forall i1 k i2, in_shape d1 i1 -> k < snd r - fst r -> in_shape d2 i2 ->
      elem (d1 ++ (snd r - fst r) :: d2) ys (i1 ++ k :: i2)
      = elem (d1 ++ n :: d2) xs (i1 ++ (fst r + k) :: i2).

(** A list of axis lengths extended to [r] axes with ones in front. *)
Definition pad_to (r : nat) (l : list nat) : list nat := repeat 1 (r - length l) ++ l.

(** Pointwise operation on two lists. *)
Fixpoint zip_with {A B C} (f : A -> B -> C) (a : list A) (b : list B) : list C :=
  match a, b with
  | x :: a', y :: b' => f x y :: zip_with f a' b'
  | _, _ => []
  end.

(** The axis argument [ax] selects position [p] of [r] axes; no axis means the first. *)
Definition selects (ax : option Z) (p r : nat) : Prop :=
  match ax with
  | None => p = 0 /\ 0 < r
  | Some a => names_axis a p r
  end.
