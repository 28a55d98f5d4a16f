(** * Vocabulary of C76: relating runs on different element types *)
From Coq Require Import String.
From Verif Require Import Base ShapeModel TensorModel FromModel FloatModel FmtModel.

(** Two outcomes of the same kind, with related values. *)
Inductive outR {A B} (R : A -> B -> Prop) : outcome A -> outcome B -> Prop :=
| outR_ok a b : R a b -> outR R (Ok a) (Ok b)
| outR_panic : outR R Panic Panic
| outR_ub : outR R Ub Ub.

Inductive optR {A B} (R : A -> B -> Prop) : option A -> option B -> Prop :=
| optR_some a b : R a b -> optR R (Some a) (Some b)
| optR_none : optR R None None.

Definition prodR {A B A' B'} (R : A -> A' -> Prop) (Q : B -> B' -> Prop) (p : A * B) (q : A' * B') : Prop :=
  R (fst p) (fst q) /\ Q (snd p) (snd q).

(** Two tensors of the same shape and position whose buffers are related element by
    element. *)
Definition tR {A B} (R : A -> B -> Prop) (t : tensor A) (u : tensor B) : Prop :=
  tshape t = tshape u /\ toffset t = toffset u /\ tsize t = tsize u /\ Forall2 R (tdata t) (tdata u).

Inductive tlR {A B} (R : A -> B -> Prop) : tensor_list A -> tensor_list B -> Prop :=
| tlR_tensors a b : Forall2 (tR R) a b -> tlR R (Tensors a) (Tensors b)
| tlR_vecs a b : Forall2 (Forall2 R) a b -> tlR R (Vecs a) (Vecs b)
| tlR_tuple a b : Forall2 (outR (tR R)) a b -> tlR R (Tuple a) (Tuple b).

Inductive pieceR {A B} (R : A -> B -> Prop) : piece A -> piece B -> Prop :=
| pieceR_lit s : pieceR R (Lit s) (Lit s)
| pieceR_elem a b : R a b -> pieceR R (Elem a) (Elem b).

(** The arithmetic that products of matrices use. *)
Record ringR {F G} (R : F -> G -> Prop) (o : fops F) (o' : fops G) : Prop := mkRingR {
  ring_zero : R (fzero o) (fzero o');
  ring_one : R (fone o) (fone o');
  ring_add : forall x x' y y', R x x' -> R y y' -> R (fadd o x y) (fadd o' x' y');
  ring_mul : forall x x' y y', R x x' -> R y y' -> R (fmul o x y) (fmul o' x' y');
  ring_eq : forall x x' y y', R x x' -> R y y' -> feq o x y = feq o' x' y'
}.

(** The comparisons that least and greatest elements use. *)
Record ordR {F G} (R : F -> G -> Prop) (o : fops F) (o' : fops G) : Prop := mkOrdR {
  ord_lt : forall x x' y y', R x x' -> R y y' -> flt o x y = flt o' x' y';
  ord_eq : forall x x' y y', R x x' -> R y y' -> feq o x y = feq o' x' y'
}.

(** The tensor with [f] applied to every element of the buffer. *)
Definition tmap {A B} (f : A -> B) (t : tensor A) : tensor B :=
  mkTensor (tshape t) (toffset t) (tsize t) (map f (tdata t)).
Definition omap {A B} (f : A -> B) (x : outcome A) : outcome B :=
  match x with Ok a => Ok (f a) | Panic => Panic | Ub => Ub end.
Definition pmap {A B} (f : A -> B) (p : piece A) : piece B :=
  match p with Lit s => Lit s | Elem v => Elem (f v) end.
Definition tlmap {A B} (f : A -> B) (x : tensor_list A) : tensor_list B :=
  match x with
  | Tensors ts => Tensors (map (tmap f) ts)
  | Vecs vs => Vecs (map (map f) vs)
  | Tuple xs => Tuple (map (omap (tmap f)) xs)
  end.
