(** * Debug output (C64) *)
From Coq Require Import String Ascii ZifyBool ZifyNat ZifyN.
From Verif Require Import Base ShapeModel TensorModel FmtModel Spec BaseFacts ShapeFacts TensorFacts SplitFacts TensorSpec TensorProofs.
From Verif Require Import FmtSpec FmtProofs.

(** A tensor at the start of its buffer is shown as laid out. *)
Theorem C64_debug_partial {A} c name (t : tensor A) ds xs :
  repr t ds xs -> toffset t = 0 ->
  fmt_tensor c name t = Ok (header name ds ++ layout ds xs ++ footer ds).
Proof. exact (@c64_debug_partial A c name t ds xs). Qed.
Print Assumptions C64_debug_partial.

(** Each element is listed once, in row-major order. *)
Theorem C64_elements_partial {A} c name (t : tensor A) ds xs out :
  repr t ds xs -> toffset t = 0 -> fmt_tensor c name t = Ok out -> elements out = xs.
Proof. exact (@c64_elements_partial A c name t ds xs out). Qed.
Print Assumptions C64_elements_partial.

(** Exactly what happens: a view shows the elements twice its offset into the buffer if they
    are inside it, and reads outside the buffer otherwise. *)
Theorem C64_view_actual {A} c name (t : tensor A) ds xs :
  repr t ds xs ->
  fmt_tensor c name t =
  if (length xs =? 0) || (2 * toffset t + length xs <=? length (tdata t))
  then Ok (header name ds ++ layout ds (firstn (length xs) (skipn (2 * toffset t) (tdata t))) ++ footer ds)
  else Ub.
Proof. exact (@c64_view_actual A c name t ds xs). Qed.
Print Assumptions C64_view_actual.

Theorem C64_refuted : exists t : tensor nat,
  subslice dev (fresh [4] [10; 20; 30; 40]) 1 2 = Ok t /\ repr t [2] [20; 30] /\
  fmt_tensor dev "usize" t = Ok [Lit "Tensor<usize> {"; Lit "["; Elem 30; Lit " "; Elem 40; Lit "]"; Lit ", shape: [2]"; Lit "}"].
Proof. exact c64_refuted. Qed.
Print Assumptions C64_refuted.

Theorem C64_out_of_bounds_refuted : exists t : tensor nat,
  subslice dev (fresh [4] [10; 20; 30; 40]) 2 2 = Ok t /\ fmt_tensor dev "usize" t = Ub.
Proof. exact c64_out_of_bounds_refuted. Qed.
Print Assumptions C64_out_of_bounds_refuted.

(** The text of the crate's own test (src/tensor/tensor.rs:514). *)
Example C64_example :
  repr (fresh [2; 3] [0; 1; 2; 10; 11; 12]) [2; 3] [0; 1; 2; 10; 11; 12] /\
  (let* out := fmt_tensor dev "T" (fresh [2; 3] [0; 1; 2; 10; 11; 12]) in Ok (text (fun n => "T(" ++ show_nat n ++ ")")%string out)) =
  Ok ("Tensor<T> {" ++ newline ++ "[[T(0) T(1) T(2)]," ++ newline ++ " [T(10) T(11) T(12)]], shape: [2, 3]}")%string.
Proof. split; [apply repr_fresh; [split; cbn; lia|reflexivity]|vm_compute; reflexivity]. Qed.

(** ** C16, two coordinates *)

(** The claim holds for coordinates in range, and for tensors that start at offset 0. *)
Theorem C16_index2_partial {A} c (t : tensor A) d0 d1 xs i j :
  repr t [d0; d1] xs -> toffset t = 0 \/ (i < d0 /\ j < d1) ->
  index2 c t i j = at_or_panic [d0; d1] xs [i; j].
Proof. exact (@c16_index2_partial A c t d0 d1 xs i j). Qed.
Print Assumptions C16_index2_partial.

(** Coordinates out of range: the message of the panic shows the tensor, and showing a view
    may read outside its buffer.  This is exactly what happens. *)
Theorem C16_index2_actual {A} c (t : tensor A) d0 d1 xs i j :
  repr t [d0; d1] xs ->
  index2 c t i j =
  if (i <? d0) && (j <? d1) then match elem [d0; d1] xs [i; j] with Some v => Ok v | None => Ub end
  else if (length xs =? 0) || (2 * toffset t + length xs <=? length (tdata t)) then Panic
  else Ub.
Proof. exact (@c16_index2_actual A c t d0 d1 xs i j). Qed.
Print Assumptions C16_index2_actual.

Theorem C16_index2_refuted : exists t : tensor nat,
  subslice dev (fresh [3; 2] [1; 2; 3; 4; 5; 6]) 1 2 = Ok t /\ repr t [2; 2] [3; 4; 5; 6] /\ index2 dev t 0 2 = Ub.
Proof. exact c16_index2_refuted. Qed.
Print Assumptions C16_index2_refuted.

Example C16_index2_example :
  index2 dev (fresh [2; 3] [1; 2; 3; 4; 5; 6]) 1 0 = Ok 4 /\
  index2 dev (fresh [2; 3] [1; 2; 3; 4; 5; 6]) 0 3 = Panic.
Proof. repeat split. Qed.
