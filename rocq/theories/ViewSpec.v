(** * Vocabulary of C78: tensors that cannot be told apart *)
From Verif Require Import Base ShapeModel TensorModel FromModel ParamSpec.

(** The elements of a tensor are [xs]; its buffer may hold others before and after them.  No
    buffer is larger than half of the address space. *)
Definition shown {A} (t : tensor A) (xs : list A) : Prop :=
  toffset t + tsize t <= length (tdata t) /\
  (Z.of_nat (length (tdata t)) < 9223372036854775808)%Z /\
  firstn (tsize t) (skipn (toffset t) (tdata t)) = xs.

(** Two tensors of the same shape with related elements, wherever in whatever buffers these
    are. *)
Definition sameR {A B} (R : A -> B -> Prop) (t : tensor A) (u : tensor B) : Prop :=
  tshape t = tshape u /\ tsize t = tsize u /\ exists xs ys, shown t xs /\ shown u ys /\ Forall2 R xs ys.

Inductive slR {A B} (R : A -> B -> Prop) : tensor_list A -> tensor_list B -> Prop :=
| slR_tensors a b : Forall2 (sameR R) a b -> slR R (Tensors a) (Tensors b)
| slR_vecs a b : Forall2 (Forall2 R) a b -> slR R (Vecs a) (Vecs b)
| slR_tuple a b : Forall2 (outR (sameR R)) a b -> slR R (Tuple a) (Tuple b).

(** Two tensors of the same shape with the same elements. *)
Definition same {A} (t u : tensor A) : Prop :=
  tshape t = tshape u /\ tsize t = tsize u /\ exists xs, shown t xs /\ shown u xs.

(** Argument lists with such tensors. *)
Inductive sameL {A} : tensor_list A -> tensor_list A -> Prop :=
| sameL_tensors a b : Forall2 same a b -> sameL (Tensors a) (Tensors b)
| sameL_vecs a : sameL (Vecs a) (Vecs a)
| sameL_tuple a b : Forall2 (outR same) a b -> sameL (Tuple a) (Tuple b).

(** The copy of a tensor in a buffer of its own. *)
Definition copy {A} (t : tensor A) (xs : list A) : tensor A := mkTensor (tshape t) 0 (tsize t) xs.
