(** * Vocabulary of C81: what holds of all the elements *)
From Verif Require Import Base ShapeModel TensorModel FromModel FmtModel.

(** If it returns, then a value with the property. *)
Definition okall {A} (P : A -> Prop) (x : outcome A) : Prop := forall a, x = Ok a -> P a.
Definition optall {A} (P : A -> Prop) (x : option A) : Prop := forall a, x = Some a -> P a.
Definition pairall {A B} (P : A -> Prop) (Q : B -> Prop) (x : A * B) : Prop := P (fst x) /\ Q (snd x).
(** Every element of the buffer has the property. *)
Definition tall {A} (P : A -> Prop) (t : tensor A) : Prop := Forall P (tdata t).
Definition tlall {A} (P : A -> Prop) (x : tensor_list A) : Prop :=
  match x with
  | Tensors ts => Forall (tall P) ts
  | Vecs vs => Forall (Forall P) vs
  | Tuple xs => Forall (okall (tall P)) xs
  end.
Definition pieceall {A} (P : A -> Prop) (p : piece A) : Prop := forall a, p = Elem a -> P a.
