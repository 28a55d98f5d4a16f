(** * Model of the buffers behind tensors: reference counts, dropping and freeing

    The other model files share buffers by value.  Here a buffer is a block with the
    [Arc]'s strong count, tensors are handles on blocks, and dropping the last handle
    drops the block's elements.  Operations of different threads interleave freely: a
    history is any list of the operations below, and the two atomic halves of dropping
    (decrementing the count, then dropping the contents) are separate operations. *)
From Verif Require Import Base ShapeModel TensorModel.

(** What has become of a block: in use; its count has reached zero and its [Drop] is due
    ([Arc::drop_slow]); its [Drop] has run; abandoned by an initialiser that panicked. *)
Inductive phase := Held | Dying | Gone | Leaked.

(** src/tensor/data.rs:10-13 inside an [Arc]: [bdata] is the boxed slice, [strong] the
    number of owners according to the [Arc].  (The count is unbounded here; the [Arc]
    aborts the process at 2^63 owners.) *)
Record block (A : Type) := mkBlock { bdata : list A; strong : nat; bphase : phase }.
Arguments mkBlock {A}.
Arguments bdata {A}.
Arguments strong {A}.
Arguments bphase {A}.

(** src/tensor/tensor.rs:10-16: a tensor is a handle on the block at [haddr]. *)
Record handle := mkHandle { haddr : nat; hshape : shape; hoffset : nat; hsize : nat }.

(** All blocks ever made, all tensors ever made ([None] once moved or dropped) and the
    elements dropped so far, in order. *)
Record heap (A : Type) := mkHeap { blocks : list (block A); tensors : list (option handle); dropped : list A }.
Arguments mkHeap {A}.
Arguments blocks {A}.
Arguments tensors {A}.
Arguments dropped {A}.

Definition empty_heap {A} : heap A := mkHeap [] [] [].

(** The tensor behind a handle, as the other model files see it. *)
Definition deref {A} (st : heap A) (h : handle) : option (tensor A) :=
  match nth_error (blocks st) (haddr h) with
  | Some b => Some (mkTensor (hshape h) (hoffset h) (hsize h) (bdata b))
  | None => None
  end.
Definition live {A} (st : heap A) (i : nat) : option handle :=
  match nth_error (tensors st) i with Some h => h | None => None end.

(** [Arc::clone]: the count goes up. *)
Definition incr {A} (st : heap A) (a : nat) : list (block A) :=
  match nth_error (blocks st) a with
  | Some b => set_nth (blocks st) a (mkBlock (bdata b) (S (strong b)) (bphase b))
  | None => blocks st
  end.
(** [Arc::drop], first half: the count goes down; whoever brings it to zero goes on to
    drop the contents. *)
Definition decr {A} (st : heap A) (a : nat) : list (block A) :=
  match nth_error (blocks st) a with
  | Some b => set_nth (blocks st) a
      (mkBlock (bdata b) (strong b - 1) (if strong b =? 1 then Dying else bphase b))
  | None => blocks st
  end.

Inductive op (A : Type) :=
| New (xs : list A) (s : shape)
| NewPanics (xs : list A)
| Clone (i : nat)
| SubsliceFlat (i o n : nat) (s : shape)
| Subslice (i o n : nat)
| Reshape (i : nat) (s : shape)
| Drop (i : nat)
| Free (a : nat).
Arguments New {A}.
Arguments NewPanics {A}.
Arguments Clone {A}.
Arguments SubsliceFlat {A}.
Arguments Subslice {A}.
Arguments Reshape {A}.
Arguments Drop {A}.
Arguments Free {A}.

(** A new handle [t] on block [a]. *)
Definition handle_of {A} (a : nat) (t : tensor A) : handle := mkHandle a (tshape t) (toffset t) (tsize t).

(** One operation.  [None] means that the program does not have the tensor it names (the
    borrow checker excludes it) or that no [Drop] is due; a panic inside an operation is
    caught by the caller and leaves the state after unwinding. *)
Definition step {A} (c : cfg) (st : heap A) (x : op A) : option (heap A) :=
  match x with
  (** src/tensor/data.rs:17-49 and 82-98, src/tensor/tensor.rs:32-44, once all elements
      are there: if the shape does not fit, unwinding drops the [TensorData] (63-71). *)
  | New xs s =>
    match tensor_new c xs s with
    | Ok t => Some (mkHeap (blocks st ++ [mkBlock xs 1 Held])
                           (tensors st ++ [Some (handle_of (length (blocks st)) t)]) (dropped st))
    | _ => Some (mkHeap (blocks st ++ [mkBlock xs 0 Gone]) (tensors st) (dropped st ++ xs))
    end
  (** src/tensor/data.rs:91-93: the initialiser panics after writing [xs]; nothing owns
      the allocation yet. *)
  | NewPanics xs => Some (mkHeap (blocks st ++ [mkBlock xs 0 Leaked]) (tensors st) (dropped st))
  (** src/tensor/tensor.rs:271-282 *)
  | Clone i =>
    match live st i with
    | Some h => Some (mkHeap (incr st (haddr h)) (tensors st ++ [Some h]) (dropped st))
    | None => None
    end
  (** src/tensor/tensor.rs:141-158; the receiver is only borrowed. *)
  | SubsliceFlat i o n s =>
    match live st i with
    | Some h =>
      match deref st h with
      | Some t =>
        match subslice_flat c t o n (Ok s) with
        | Ok v => Some (mkHeap (incr st (haddr h)) (tensors st ++ [Some (handle_of (haddr h) v)]) (dropped st))
        | _ => Some st
        end
      | None => None
      end
    | None => None
    end
  (** src/tensor/tensor.rs:161-173 *)
  | Subslice i o n =>
    match live st i with
    | Some h =>
      match deref st h with
      | Some t =>
        match subslice c t o n with
        | Ok v => Some (mkHeap (incr st (haddr h)) (tensors st ++ [Some (handle_of (haddr h) v)]) (dropped st))
        | _ => Some st
        end
      | None => None
      end
    | None => None
    end
  (** src/tensor/shape.rs:526-534: the receiver is moved into the result; if the assertion
      fails, unwinding drops it. *)
  | Reshape i s =>
    match live st i with
    | Some h =>
      match deref st h with
      | Some t =>
        match reshape c t s with
        | Ok v => Some (mkHeap (blocks st) (set_nth (tensors st) i (Some (handle_of (haddr h) v))) (dropped st))
        | _ => Some (mkHeap (decr st (haddr h)) (set_nth (tensors st) i None) (dropped st))
        end
      | None => None
      end
    | None => None
    end
  (** A tensor goes out of scope. *)
  | Drop i =>
    match live st i with
    | Some h => Some (mkHeap (decr st (haddr h)) (set_nth (tensors st) i None) (dropped st))
    | None => None
    end
  (** src/tensor/data.rs:63-71: the boxed slice is dropped, its elements in order. *)
  | Free a =>
    match nth_error (blocks st) a with
    | Some b =>
      match bphase b with
      | Dying => Some (mkHeap (set_nth (blocks st) a (mkBlock (bdata b) (strong b) Gone)) (tensors st) (dropped st ++ bdata b))
      | _ => None
      end
    | None => None
    end
  end.

Fixpoint run {A} (c : cfg) (st : heap A) (l : list (op A)) : option (heap A) :=
  match l with
  | [] => Some st
  | x :: l' => match step c st x with Some st' => run c st' l' | None => None end
  end.

(** src/tensor/tensor.rs:76-82: reading a tensor's elements; reading a buffer whose
    contents have been or are being dropped is undefined. *)
Definition read {A} (st : heap A) (i : nat) : outcome (list A) :=
  match live st i with
  | Some h =>
    match nth_error (blocks st) (haddr h) with
    | Some b =>
      match bphase b with
      | Held => raw_slice (bdata b) (hoffset h) (hsize h)
      | _ => Ub
      end
    | None => Ub
    end
  | None => Panic
  end.
