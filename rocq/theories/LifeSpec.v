(** * Lifetime of the buffers (C62): notions used in the statements *)
From Coq Require Import Permutation.
From Verif Require Import Base ShapeModel TensorModel LifeModel Spec.

(** The elements an operation creates, those in buffers not yet dropped, those abandoned. *)
Definition made {A} (x : op A) : list A := match x with New xs _ | NewPanics xs => xs | _ => [] end.

Definition created {A} (l : list (op A)) : list A := concat (map made l).

Definition held {A} (st : heap A) : list A :=
  concat (map (fun b => match bphase b with Held | Dying => bdata b | _ => [] end) (blocks st)).

Definition leaked {A} (st : heap A) : list A :=
  concat (map (fun b => match bphase b with Leaked => bdata b | _ => [] end) (blocks st)).

(** The number of live tensors on a block. *)
Definition on (a : nat) (x : option handle) : bool :=
  match x with Some h => haddr h =? a | None => false end.

Definition owners {A} (st : heap A) (a : nat) : nat := length (filter (on a) (tensors st)).

(** ** The invariant *)

Record inv {A} (st : heap A) : Prop := mkInv {
  inv_block : forall a b, nth_error (blocks st) a = Some b ->
    strong b = owners st a /\ (bphase b = Held <-> 0 < owners st a) /\
    (bphase b = Held -> Z.of_nat (length (bdata b)) < two32)%Z;
  inv_tensor : forall i h, live st i = Some h ->
    exists b, nth_error (blocks st) (haddr h) = Some b /\ hoffset h + hsize h <= length (bdata b)
}.

(** ** C62 *)

Definition in_use {A} (b : block A) : list A := match bphase b with Held | Dying => bdata b | _ => [] end.

Definition abandoned {A} (b : block A) : list A := match bphase b with Leaked => bdata b | _ => [] end.

(** Once no tensor is left and no [Drop] is due, every element of every buffer has been
    dropped, exactly once. *)
Definition quiet {A} (st : heap A) : Prop :=
  (forall i, live st i = None) /\ Forall (fun b => bphase b <> Dying) (blocks st).

(** Dropping a tensor whose buffer is still used by another one has no other effect;
    dropping the last one makes the buffer's [Drop] due, and it stays due until it runs. *)
Definition shared {A} (st : heap A) (i : nat) (h : handle) : Prop :=
  exists j h', j <> i /\ live st j = Some h' /\ haddr h' = haddr h.
