(** * Run-time vocabulary of the model: outcomes, machine integers, loops, buffers.

    This file models the parts of Rust that every other file relies on. *)

From Coq Require Export List Arith ZArith NArith Lia Bool.
Export ListNotations.

(** Build configuration.  [overflow_checks]: the cargo profile's overflow checks
    (dev profile: on, release profile: off).  [zero_alloc_ok]: whether the global
    allocator gives a usable pointer for a zero-size request; src/tensor/data.rs:82-95
    makes such requests, which the contract of [alloc::alloc] leaves undefined. *)
Record cfg := mkCfg { overflow_checks : bool; zero_alloc_ok : bool }.

(** Two configurations used in examples. *)
Definition dev : cfg := mkCfg true true.
Definition release : cfg := mkCfg false true.

(** Outcome of a Rust call: a value, a panic, or undefined behaviour. *)
Inductive outcome (A : Type) : Type :=
| Ok (a : A)
| Panic
| Ub.
Arguments Ok {A} a.
Arguments Panic {A}.
Arguments Ub {A}.

(** Sequencing of Rust statements. *)
Definition bind {A B} (x : outcome A) (f : A -> outcome B) : outcome B :=
  match x with
  | Ok a => f a
  | Panic => Panic
  | Ub => Ub
  end.

Notation "'let*' x ':=' a 'in' b" := (bind a (fun x => b))
  (at level 200, x name, a at level 100, b at level 200, right associativity).
Notation "'let*' ' p ':=' a 'in' b" := (bind a (fun p => b))
  (at level 200, p pattern, a at level 100, b at level 200, right associativity).

(** [assert!(b)]: panics when [b] is false. *)
Definition assert_ (b : bool) : outcome unit := if b then Ok tt else Panic.

Notation "'assert!' b 'in' k" := (bind (assert_ b) (fun _ => k))
  (at level 200, b at level 100, k at level 200, right associativity).

(** ** Machine integers *)

Definition two32 : Z := 4294967296%Z.
Definition two63 : Z := 9223372036854775808%Z.
Definition two64 : Z := 18446744073709551616%Z.

(** Result of an integer operation of modulus [m] whose mathematical value is [v]:
    out of range panics with overflow checks and wraps without. *)
Definition arith (c : cfg) (m v : Z) : outcome nat :=
  if ((0 <=? v) && (v <? m))%Z then Ok (Z.to_nat v)
  else if overflow_checks c then Panic
  else Ok (Z.to_nat (v mod m)%Z).

(** [usize] addition, subtraction, multiplication. *)
Definition uadd (c : cfg) (a b : nat) : outcome nat := arith c two64 (Z.of_nat a + Z.of_nat b).
Definition usub (c : cfg) (a b : nat) : outcome nat := arith c two64 (Z.of_nat a - Z.of_nat b).
Definition umul (c : cfg) (a b : nat) : outcome nat := arith c two64 (Z.of_nat a * Z.of_nat b).

(** [u32] multiplication. *)
Definition mul32 (c : cfg) (a b : nat) : outcome nat := arith c two32 (Z.of_nat a * Z.of_nat b).

(** [usize] division and remainder: a zero divisor panics in every profile. *)
Definition udiv (a b : nat) : outcome nat := if b =? 0 then Panic else Ok (a / b).
Definition urem (a b : nat) : outcome nat := if b =? 0 then Panic else Ok (a mod b).

(** [x as u32] for a [usize] x. *)
Definition as_u32 (n : nat) : nat := Z.to_nat (Z.of_nat n mod two32).

(** [x as usize] for an [isize] x. *)
Definition as_usize (z : Z) : nat := Z.to_nat (z mod two64).

(** Range of [isize]. *)
Definition isize_ok (z : Z) : bool := ((- two63 <=? z) && (z <? two63))%Z.

(** [isize] addition. *)
Definition iadd (c : cfg) (a b : Z) : outcome Z :=
  let v := (a + b)%Z in
  if isize_ok v then Ok v
  else if overflow_checks c then Panic
  else Ok ((v + two63) mod two64 - two63)%Z.

(** [iter().product()] for [u32] items and for [usize] items: left to right from 1. *)
Fixpoint product32 (c : cfg) (acc : nat) (l : list nat) : outcome nat :=
  match l with
  | [] => Ok acc
  | d :: l' => let* acc' := mul32 c acc d in product32 c acc' l'
  end.
Fixpoint product64 (c : cfg) (acc : nat) (l : list nat) : outcome nat :=
  match l with
  | [] => Ok acc
  | d :: l' => let* acc' := umul c acc d in product64 c acc' l'
  end.

(** ** Arrays, vectors and slices *)

(** Overwrite position [i] of a list (no effect outside). *)
Fixpoint set_nth {A} (l : list A) (i : nat) (v : A) : list A :=
  match l, i with
  | [], _ => []
  | _ :: l', O => v :: l'
  | x :: l', S i' => x :: set_nth l' i' v
  end.

(** Bounds-checked indexing [l[i]] of an array, vector or slice. *)
Definition aget {A} (l : list A) (i : nat) : outcome A :=
  match nth_error l i with
  | Some v => Ok v
  | None => Panic
  end.

(** Bounds-checked assignment [l[i] = v]. *)
Definition aset {A} (l : list A) (i : nat) (v : A) : outcome (list A) :=
  if i <? length l then Ok (set_nth l i v) else Panic.

(** Bounds-checked slicing [l[a..b]]. *)
Definition aslice {A} (l : list A) (a b : nat) : outcome (list A) :=
  if (a <=? b) && (b <=? length l) then Ok (firstn (b - a) (skipn a l)) else Panic.

(** ** Loops *)

(** [count] iterations of a loop body with loop variable starting at [i]. *)
Fixpoint for_from {S} (i count : nat) (body : nat -> S -> outcome S) (s : S) : outcome S :=
  match count with
  | O => Ok s
  | Datatypes.S k => let* s' := body i s in for_from (Datatypes.S i) k body s'
  end.

(** [for i in 0..n] *)
Definition for_ {S} (n : nat) (body : nat -> S -> outcome S) (s : S) : outcome S :=
  for_from 0 n body s.

(** [for i in a..b] *)
Definition for_range {S} (a b : nat) (body : nat -> S -> outcome S) (s : S) : outcome S :=
  for_from a (b - a) body s.

(** [for x in list] *)
Fixpoint for_each {A S} (l : list A) (body : A -> S -> outcome S) (s : S) : outcome S :=
  match l with
  | [] => Ok s
  | x :: l' => let* s' := body x s in for_each l' body s'
  end.

(** [iter().map(f).collect()] for a function that may panic. *)
Fixpoint map_out {A B} (f : A -> outcome B) (l : list A) : outcome (list B) :=
  match l with
  | [] => Ok []
  | x :: l' => let* y := f x in let* ys := map_out f l' in Ok (y :: ys)
  end.

(** ** Raw buffers *)

(** A freshly allocated buffer: cells start uninitialised. *)
Notation buf A := (list (option A)).

(** [o.add(i).write(v)] through a raw pointer: outside the allocation is undefined. *)
Definition write {A} (b : buf A) (i : nat) (v : A) : outcome (buf A) :=
  if i <? length b then Ok (set_nth b i (Some v)) else Ub.

(** Treat the buffer as initialised: an uninitialised cell is undefined behaviour. *)
Fixpoint assume_init {A} (b : buf A) : outcome (list A) :=
  match b with
  | [] => Ok []
  | Some v :: b' => let* vs := assume_init b' in Ok (v :: vs)
  | None :: _ => Ub
  end.

(** [alloc::alloc(Layout::array::<T>(len))] for a type of non-zero size, as used by
    src/tensor/data.rs:82-95: a length above [isize::MAX] makes [Layout::array] fail and the
    [unwrap] panic.  Failure of the allocation itself is not modelled. *)
Definition alloc {A} (c : cfg) (len : nat) : outcome (buf A) :=
  if (two63 <=? Z.of_nat len)%Z then Panic
  else if (len =? 0) && negb (zero_alloc_ok c) then Ub else Ok (repeat None len).
