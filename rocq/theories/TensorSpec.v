(** * Properties C11-C21: building, viewing, indexing, joining and comparing tensors: notions used in the statements *)
From Verif Require Import Base ShapeModel TensorModel NumModel Spec ShapeSpec.

(** ** C12 *)

(** Rectangular nestings with the given extents. *)
Definition rect2 {A} (m n : nat) (v : list (list A)) : Prop :=
  length v = m /\ Forall (fun r => length r = n) v.

Definition rect3 {A} (l m n : nat) (v : list (list (list A))) : Prop :=
  length v = l /\ Forall (rect2 m n) v.

Definition rect4 {A} (k l m n : nat) (v : list (list (list (list A)))) : Prop :=
  length v = k /\ Forall (rect3 l m n) v.

(** The item of a nesting at a position. *)
Definition at1 {A} (v : list A) (i : nat) : option A := nth_error v i.

Definition at2 {A} (v : list (list A)) (i j : nat) : option A :=
  match nth_error v i with Some r => at1 r j | None => None end.

Definition at3 {A} (v : list (list (list A))) (i j k : nat) : option A :=
  match nth_error v i with Some r => at2 r j k | None => None end.

Definition at4 {A} (v : list (list (list (list A)))) (h i j k : nat) : option A :=
  match nth_error v h with Some r => at3 r i j k | None => None end.

(** ** C16 *)

(** The element at a coordinate, or a panic when it is out of range. *)
Definition at_or_panic {A} (ds : list nat) (xs : list A) (idx : list nat) : outcome A :=
  if forallb (fun p => fst p <? snd p) (combine idx ds)
  then match elem ds xs idx with Some v => Ok v | None => Ub end
  else Panic.

(** ** C21 *)

(** Lexicographic comparison stated by the first position that decides it. *)
Definition agree_below {A} (cmp : A -> A -> option comparison) (xs ys : list A) (k : nat) : Prop :=
  forall i, i < k -> exists x y, nth_error xs i = Some x /\ nth_error ys i = Some y /\
                                 cmp x y = Some Eq.

Definition lex_result {A} (cmp : A -> A -> option comparison) (xs ys : list A)
    (o : option comparison) : Prop :=
  exists k, agree_below cmp xs ys k /\
    match nth_error xs k, nth_error ys k with
    | None, None => o = Some Eq
    | None, Some _ => o = Some Lt
    | Some _, None => o = Some Gt
    | Some x, Some y => cmp x y <> Some Eq /\ o = cmp x y
    end.
