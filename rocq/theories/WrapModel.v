(** * Small functions: constant tensors, accessors, forwarding methods, options

    Most of these forward to a function modelled elsewhere; they are here so that the
    arguments they pass on are part of the model. *)
From Coq Require Import String.
From Verif Require Import Base ShapeModel TensorModel AxisModel MapModel NumModel FloatModel
  InitModel MathModel ArrayModel RandomModel FmtModel.

(** ** Constant tensors *)

(** src/init/mod.rs:36-38 *)
Definition fill {T} (c : cfg) (s : shape) (v : T) : outcome (tensor T) :=
  let* '(_, r) := init c s (fun st : unit => Ok (st, v)) tt in Ok r.
(** src/init/mod.rs:28-30; [one] is the element type's [One::one()]. *)
Definition ones {T} (c : cfg) (one : T) (s : shape) : outcome (tensor T) :=
  let* '(_, r) := init c s (fun st : unit => Ok (st, one)) tt in Ok r.
(** src/init/mod.rs:32-34; [zero] is the element type's [Zero::zero()]. *)
Definition zeros {T} (c : cfg) (zero : T) (s : shape) : outcome (tensor T) :=
  let* '(_, r) := init c s (fun st : unit => Ok (st, zero)) tt in Ok r.
(** src/tensor/tensor.rs:256-261; [default] is [T::default()]. *)
Definition init_default {T} (c : cfg) (default : T) (s : shape) : outcome (tensor T) :=
  let* '(_, r) := init c s (fun st : unit => Ok (st, default)) tt in Ok r.
(** src/tensor/tensor.rs:424-426 *)
Definition scalar_tensor {T} (c : cfg) (v : T) : outcome (tensor T) := of_value c v.

(** ** Accessors of [Tensor] *)

(** src/tensor/shape.rs:41-44 and 491-520 *)
Definition t_rank {A} (t : tensor A) : nat := rank (tshape t).
Definition t_len {A} (c : cfg) (t : tensor A) : outcome nat := len c (tshape t).
Definition t_dim {A} (c : cfg) (t : tensor A) (i : nat) : outcome nat := dim c (tshape t) i.
Definition t_rdim {A} (t : tensor A) (i : nat) : outcome nat := rdim (tshape t) i.
Definition t_cols {A} (t : tensor A) : outcome nat := cols (tshape t).
Definition t_rows {A} (t : tensor A) : outcome nat := rows (tshape t).
(** src/tensor/tensor.rs:46-59 *)
Definition t_size {A} (t : tensor A) : nat := tsize t.
Definition t_offset {A} (t : tensor A) : nat := toffset t.
Definition t_shape {A} (t : tensor A) : shape := tshape t.
(** src/tensor/data.rs:51-60: the length of the buffer and its start (position 0 of the
    list [tdata]). *)
Definition data_len {A} (t : tensor A) : nat := length (tdata t).
(** src/tensor/tensor.rs:264-270 ([Deref]), 290-297 ([IntoIterator]) and 304-308
    ([AsRef<[T]>]): the slice of the elements.  298-302 ([AsRef<Tensor<T>>]): the tensor
    itself. *)
Definition deref {A} (t : tensor A) : outcome (list A) := as_slice t.
Definition into_iter {A} (t : tensor A) : outcome (list A) := as_slice t.
Definition as_ref_slice {A} (t : tensor A) : outcome (list A) := as_slice t.
Definition as_ref_tensor {A} (t : tensor A) : tensor A := t.

(** src/tensor/shape.rs:421-425 ([Debug]) *)
Definition fmt_shape (c : cfg) (s : shape) : outcome string :=
  let* v := as_vec c s in Ok ("Shape" ++ show_vec v)%string.
(** src/tensor/shape.rs:427-431 *)
Definition shape_of_ref (s : shape) : shape := s.

(** ** Options *)

(** src/tensor/axis.rs:8-19 and 114-124.  [Axis] is its only field. *)
Definition axis_new (a : Z) : option Z := Some a.
Definition axis_opt (a : option Z) : option Z := a.
Definition get_axis (a : option Z) : option Z := a.
Definition axis_of_option (a : option Z) : option Z := axis_opt a.
Definition axis_of_isize (a : Z) : option Z := axis_new a.
(** src/tensor/axis.rs:28-35 (not called anywhere) *)
Definition axis_with_shape (c : cfg) (axis : option Z) (s : shape) : outcome nat :=
  match axis with
  | Some a =>
    let* v := iadd c a (Z.of_nat (rank s)) in
    urem (as_usize v) (rank s)
  | None => Ok 0
  end.

(** src/init/vector.rs:181-206.  [Logspace] is its only field. *)
Definition logspace_default {F} : option F := None.
Definition logspace_base {F} (base : F) : option F := Some base.
Definition logspace_of_option {F} (base : option F) : option F := base.
Definition logspace_of_f32 {F} (base : F) : option F := Some base.
(** src/init/vector.rs:119-125 ([InitModel.logspace] is [logspace_opt]) *)
Definition logspace_fn {F} (o : fops F) (c : cfg) (start end_ : tensor F) (len : nat) : outcome (tensor F) :=
  logspace o c start end_ len (logspace_of_option None).

(** ** Methods that call the function of the same name *)

(** src/array/tile.rs:3-10 *)
Definition m_tile {A} (c : cfg) (t : tensor A) (multiples : tensor nat) : outcome (tensor A) := tile c t multiples.
(** src/array/transpose.rs:35-45 *)
Definition m_transpose {A} (c : cfg) (t : tensor A) : outcome (tensor A) := transpose c t.
Definition m_t {A} (c : cfg) (t : tensor A) : outcome (tensor A) := transpose c t.
(** src/init/matrix.rs:7-22; [identity] (67-69) is [eye]. *)
Definition m_eye {T} (c : cfg) (zero one : T) (n : nat) : outcome (tensor T) := eye c zero one n.
Definition m_identity {T} (c : cfg) (zero one : T) (n : nat) : outcome (tensor T) := eye c zero one n.
Definition m_tri {T} (c : cfg) (zero one : T) (n : nat) : outcome (tensor T) := tri c zero one n.
(** src/init/matrix.rs:24-39 *)
Definition m_diagflat {T} (c : cfg) (zero : T) (t : tensor T) : outcome (tensor T) := diagflat c zero t.
Definition m_tril {T} (c : cfg) (zero : T) (t : tensor T) : outcome (tensor T) := tril c zero t.
Definition m_triu {T} (c : cfg) (zero : T) (t : tensor T) : outcome (tensor T) := triu c zero t.
(** src/init/matrix.rs:41-51 *)
Definition m_meshgrid {T} (c : cfg) (t other : tensor T) : outcome (list (tensor T)) := meshgrid c [t; other].
Definition m_meshgrid_ij {T} (c : cfg) (t other : tensor T) : outcome (list (tensor T)) := meshgrid_ij c [t; other].
(** src/init/mod.rs:40-59 *)
Definition m_zeros {T} (c : cfg) (zero : T) (s : shape) : outcome (tensor T) := zeros c zero s.
Definition m_ones {T} (c : cfg) (one : T) (s : shape) : outcome (tensor T) := ones c one s.
Definition m_fill {T} (c : cfg) (s : shape) (v : T) : outcome (tensor T) := fill c s v.
(** src/init/random.rs:32-40 *)
Definition m_random_normal {F} (o : rops F) (c : cfg) (s : shape) (opt : normal_opt F) (entropy : Z)
  : outcome (tensor F) := random_normal o c s opt entropy.
Definition m_random_uniform {F} (o : rops F) (c : cfg) (s : shape) (opt : uniform_opt F) (entropy : Z)
  : outcome (tensor F) := random_uniform o c s opt entropy.
(** src/init/vector.rs:174-178 and 218-234 *)
Definition m_logspace {F} (o : fops F) (c : cfg) (start end_ : tensor F) (len : nat) : outcome (tensor F) :=
  logspace_fn o c start end_ len.
Definition m_arange {F} (o : fops F) (c : cfg) (fuel : nat) (start end_ step : F) : option (outcome (tensor F)) :=
  arange o c fuel start end_ step.
Definition m_linspace {F} (o : fops F) (c : cfg) (start end_ : tensor F) (len : nat) : outcome (tensor F) :=
  linspace o c start end_ len.
Definition m_geomspace {F} (o : fops F) (c : cfg) (start end_ : tensor F) (len : nat) : outcome (tensor F) :=
  geomspace o c start end_ len.
Definition m_one_hot {F} (o : fops F) (c : cfg) (indices : list nat) (depth : nat) : outcome (tensor F) :=
  one_hot o c indices depth.

(** ** Methods on elements that are not in a macro *)

(** [num_complex::Complex] (external) *)
Record complex (T : Type) := mkComplex { cre : T; cim : T }.
Arguments mkComplex {T}.
Arguments cre {T}.
Arguments cim {T}.
(** src/math/complex.rs:54-65 *)
Definition re {T} (c : cfg) (t : tensor (complex T)) : outcome (tensor T) := float_map c t cre.
Definition im {T} (c : cfg) (t : tensor (complex T)) : outcome (tensor T) := float_map c t cim.
(** src/math/complex.rs:88-96; the element functions are num_complex's. *)
Definition to_polar {T} (c : cfg) (polar : complex T -> T * T) (t : tensor (complex T)) : outcome (tensor (T * T)) :=
  float_map c t polar.
Definition from_polar {T} (c : cfg) (cart : T -> T -> complex T) (t : tensor (T * T)) : outcome (tensor (complex T)) :=
  float_map c t (fun a => cart (fst a) (snd a)).
(** src/math/float.rs:32-35, 59-62 and 74-82; the element functions are num_traits's. *)
Definition powi {F} (c : cfg) (pow : F -> Z -> F) (t : tensor F) (rhs : tensor Z) : outcome (tensor F) :=
  float_map2 c t rhs pow.
Definition sin_cos {F} (c : cfg) (sc : F -> F * F) (t : tensor F) : outcome (tensor (F * F)) :=
  float_map c t sc.
Definition mul_add {F} (c : cfg) (fma : F -> F -> F -> F) (t a b : tensor F) : outcome (tensor F) :=
  float_map3 c t a b fma.
(** src/math/integer.rs:31-39 *)
Definition rotate_left {T} (c : cfg) (rot : T -> nat -> T) (t : tensor T) (n : tensor nat) : outcome (tensor T) :=
  float_map2 c t n rot.
Definition rotate_right {T} (c : cfg) (rot : T -> nat -> T) (t : tensor T) (n : tensor nat) : outcome (tensor T) :=
  float_map2 c t n rot.

(** src/tensor/map.rs:504-524: [into_result] of the fold states that are plain values or
    arrays. *)
Definition into_result {V} (v : V) : V := v.

(** src/random/random.rs:62-65 ([next_u64] is the threads' generator, the argument). *)
Definition rand64_new (next_u64 : Z) : Z := next_u64.
