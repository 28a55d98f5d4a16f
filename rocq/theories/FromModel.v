(** * Model of the remaining conversions of src/tensor/from.rs *)
From Verif Require Import Base ShapeModel TensorModel.

(** src/tensor/from.rs:4-8, for a tensor given by reference: a clone. *)
Definition of_tensor_ref {A} (t : tensor A) : tensor A := t.

(** src/tensor/from.rs:83-97: rows of a fixed length [n] in vectors of vectors. *)
Definition of_vec_rows {A} (c : cfg) (n : nat) (v : list (list (list A))) : outcome (tensor A) :=
  let* v0 := aget v 0 in
  let len_1 := length v0 in
  let* data := for_each v (fun v1 data =>
    assert! (len_1 =? length v1) in
    Ok (data ++ concat v1)) [] in
  let* s := from_slice_dims [length v; len_1; n] in
  from_vec c data s.

(** src/tensor/from.rs:150-177 *)
Definition of_vec5 {A} (c : cfg) (v : list (list (list (list (list A))))) : outcome (tensor A) :=
  let* v0 := aget v 0 in
  let len_1 := length v0 in
  let* v00 := aget v0 0 in
  let len_2 := length v00 in
  let* v000 := aget v00 0 in
  let len_3 := length v000 in
  let* v0000 := aget v000 0 in
  let len_4 := length v0000 in
  let* data := for_each v (fun v1 data =>
    assert! (len_1 =? length v1) in
    for_each v1 (fun v2 data =>
      assert! (len_2 =? length v2) in
      for_each v2 (fun v3 data =>
        assert! (len_3 =? length v3) in
        for_each v3 (fun v4 data =>
          assert! (len_4 =? length v4) in
          Ok (data ++ v4)) data) data) data) [] in
  let* s := from_slice_dims [length v; len_1; len_2; len_3; len_4] in
  from_vec c data s.

(** src/tensor/from.rs:267-281: arrays of fixed inner lengths [l], [m], [n]. *)
Definition of_rows3 {A} (c : cfg) (l m n : nat) (v : list (list (list (list A))))
  : outcome (tensor A) :=
  let* s := from_slice_dims [length v; l; m; n] in
  from_vec c (concat (concat (concat v))) s.

(** src/tensor/from.rs:214-218: a string gives a tensor of one [String].  [text] stands
    for the string. *)
Definition of_str {A} (c : cfg) (text : A) : outcome (tensor A) := of_value c text.

(** src/tensor/from.rs:301-305 and 329-335: a vector or an array of tensors. *)
Definition of_tensor_vec {A} (c : cfg) (ts : list (tensor A)) : outcome (tensor A) := of_tensors c ts.

(** src/tensor/from.rs:337-435 and 437-465 ([IntoTensorList]): what an argument list appends
    to the vector of tensors: tensors (moved or cloned), vectors, each converted to a
    tensor, or the components of a tuple, each given by its conversion [Into<Tensor>]. *)
Inductive tensor_list (A : Type) :=
| Tensors (ts : list (tensor A))
| Vecs (vs : list (list A))
| Tuple (xs : list (outcome (tensor A))).
Arguments Tensors {A}.
Arguments Vecs {A}.
Arguments Tuple {A}.
Definition into_list {A} (c : cfg) (x : tensor_list A) (vec : list (tensor A)) : outcome (list (tensor A)) :=
  match x with
  | Tensors ts => Ok (vec ++ ts)
  | Vecs vs => for_each vs (fun v vec => let* t := of_vec c v in Ok (vec ++ [t])) vec
  | Tuple xs => for_each xs (fun x vec => let* t := x in Ok (vec ++ [t])) vec
  end.
