(** * Model of the entry points of src/array/stack.rs that take argument lists

    ArrayModel.v describes what happens to the vector of tensors; here the vector is built
    from the caller's argument list as in the source. *)
From Verif Require Import Base ShapeModel TensorModel FromModel ArrayModel.

(** src/array/stack.rs:3-12 *)
Definition concatenate_args {A} (c : cfg) (x : tensor_list A) : outcome (tensor A) :=
  let* vec := into_list c x [] in concatenate c vec.

(** src/array/stack.rs:14-32 *)
Definition concatenate_axis_args {A} (c : cfg) (axis : option Z) (x : tensor_list A) : outcome (tensor A) :=
  let* vec := into_list c x [] in concatenate_axis c axis vec.

(** src/array/stack.rs:36-45 *)
Definition stack_args {A} (c : cfg) (x : tensor_list A) : outcome (tensor A) :=
  let* vec := into_list c x [] in stack c vec.

(** src/array/stack.rs:47-56 *)
Definition stack_axis_args {A} (c : cfg) (axis : option Z) (x : tensor_list A) : outcome (tensor A) :=
  let* vec := into_list c x [] in stack_axis c axis vec.

(** src/array/stack.rs:58-67 *)
Definition dstack_args {A} (c : cfg) (x : tensor_list A) : outcome (tensor A) :=
  let* vec := into_list c x [] in dstack c vec.

(** src/array/stack.rs:69-84 *)
Definition hstack_args {A} (c : cfg) (x : tensor_list A) : outcome (tensor A) :=
  let* vec := into_list c x [] in hstack c vec.

(** src/array/stack.rs:86-95 *)
Definition vstack_args {A} (c : cfg) (x : tensor_list A) : outcome (tensor A) :=
  let* vec := into_list c x [] in vstack c vec.

(** src/array/stack.rs:101-108 *)
Definition m_concatenate {A} (c : cfg) (t : tensor A) (others : tensor_list A) : outcome (tensor A) :=
  let* vec := into_list c others [t] in concatenate_args c (Tensors vec).

(** src/array/stack.rs:110-120 *)
Definition m_concatenate_axis {A} (c : cfg) (t : tensor A) (axis : option Z) (others : tensor_list A)
  : outcome (tensor A) :=
  let* vec := into_list c others [t] in concatenate_axis_args c axis (Tensors vec).

(** src/array/stack.rs:122-129 *)
Definition m_stack {A} (c : cfg) (t : tensor A) (others : tensor_list A) (axis : option Z)
  : outcome (tensor A) :=
  let* vec := into_list c others [t] in stack_vec c axis vec.

(** src/array/stack.rs:131-138 *)
Definition m_dstack {A} (c : cfg) (t : tensor A) (others : tensor_list A) : outcome (tensor A) :=
  let* vec := into_list c others [t] in dstack c vec.

(** src/array/stack.rs:140-149 *)
Definition m_vstack {A} (c : cfg) (t : tensor A) (others : tensor_list A) : outcome (tensor A) :=
  let* vec := into_list c others [t] in vstack c vec.
