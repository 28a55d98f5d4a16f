(** * Model of src/math/num.rs

    The element operation is a parameter: a Rust operator on the element type, which may
    panic (e.g. integer overflow, division by zero). *)
From Verif Require Import Base ShapeModel TensorModel AxisModel MapModel.

(** A closure without state around a possibly panicking element operation. *)
Definition lift1 {X Y} (f : X -> outcome Y) : unit -> X -> outcome (unit * Y) :=
  fun s x => let* y := f x in Ok (s, y).
Definition lift2 {X1 X2 Y} (f : X1 -> X2 -> outcome Y) : unit -> X1 -> X2 -> outcome (unit * Y) :=
  fun s x1 x2 => let* y := f x1 x2 in Ok (s, y).

(** src/math/num.rs:8-31, 54-56, 63-97: unary operators and functions (abs, neg,
    is_negative, is_positive, square, [-], [!]). *)
Definition unop {T V} (c : cfg) (t : tensor T) (op : T -> outcome V) : outcome (tensor V) :=
  let* '(_, r) := map_ c t (lift1 op) tt in Ok r.

(** src/math/num.rs:105-155: [tensor op tensor] (four ownership variants, one body);
    also [abs_sub], [min] and [max] (14-16, 36-43). *)
Definition binop_tt {T U V} (c : cfg) (a : tensor T) (b : tensor U) (op : T -> U -> outcome V)
  : outcome (tensor V) :=
  let* '(_, r) := map2 c a b (lift2 op) tt in Ok r.

(** src/math/num.rs:157-181: [tensor op scalar]; [$x] is the element, [$y] the scalar. *)
Definition binop_ts {T U V} (c : cfg) (t : tensor T) (y : U) (op : T -> U -> outcome V)
  : outcome (tensor V) :=
  let* '(_, r) := map_ c t (lift1 (fun x => op x y)) tt in Ok r.

(** src/math/num.rs:183-202: [scalar op tensor]; [$x] is the scalar, [$y] the element. *)
Definition binop_st {T U V} (c : cfg) (x : T) (t : tensor U) (op : T -> U -> outcome V)
  : outcome (tensor V) :=
  let* '(_, r) := map_ c t (lift1 (fun y => op x y)) tt in Ok r.

(** [Iterator::partial_cmp] of two slices for an element [partial_cmp]. *)
Fixpoint list_partial_cmp {A} (cmp : A -> A -> option comparison) (a b : list A)
  : option comparison :=
  match a, b with
  | [], [] => Some Eq
  | [], _ :: _ => Some Lt
  | _ :: _, [] => Some Gt
  | x :: a', y :: b' =>
    match cmp x y with
    | Some Eq => list_partial_cmp cmp a' b'
    | o => o
    end
  end.

(** src/math/num.rs:46-50 *)
Definition tensor_partial_cmp {A} (cmp : A -> A -> option comparison) (t u : tensor A)
  : outcome (option comparison) :=
  let* a := as_slice t in
  let* b := as_slice u in
  Ok (list_partial_cmp cmp a b).
