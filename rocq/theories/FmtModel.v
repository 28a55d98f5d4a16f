(** * Model of the Debug output of tensors (src/tensor/tensor.rs:310-387) *)
From Coq Require Import String Ascii DecimalString.
From Verif Require Import Base ShapeModel TensorModel.

(** The text is produced as a list of pieces: literal text, or an element, which is shown
    by its own Debug implementation. *)
Inductive piece (A : Type) := Lit (s : string) | Elem (v : A).
Arguments Lit {A}.
Arguments Elem {A}.

Definition newline : string := String "010"%char EmptyString.

(** [for j in 0..n { if j > 0 { write!(sep) } body(j) }] *)
Definition separated {A} (n : nat) (sep : string) (body : nat -> outcome (list (piece A)))
  (out : list (piece A)) : outcome (list (piece A)) :=
  for_ n (fun j out =>
    let out := if 0 <? j then out ++ [Lit sep] else out in
    let* b := body j in
    Ok (out ++ b)) out.

(** src/tensor/tensor.rs:328-387 *)
Fixpoint fmt_tensor_rec {A} (c : cfg) (t : tensor A) (rank offset : nat) : outcome (list (piece A)) :=
  match rank with
  | 0 =>
    let* v := get c t offset in
    Ok [match v with Some v => Elem v | None => Lit "None" end]
  | S r =>
    match r with
    | 0 =>
      let* n := cols (tshape t) in
      let* out := separated n " " (fun j =>
        let* o := uadd c offset j in
        fmt_tensor_rec c t r o) [Lit "["] in
      Ok (out ++ [Lit "]"])
    | 1 =>
      let* stride := cols (tshape t) in
      let* n := rows (tshape t) in
      let* out := separated n ("," ++ newline ++ " ") (fun j =>
        let* p := umul c j stride in
        let* o := uadd c offset p in
        fmt_tensor_rec c t r o) [Lit "["] in
      Ok (out ++ [Lit "]"])
    | _ =>
      let* stride := rsublen c (tshape t) 0 r in
      let* n := rdim (tshape t) r in
      let* out := separated n ("," ++ newline ++ newline ++ " ") (fun j =>
        let* p := umul c j stride in
        let* o := uadd c offset p in
        fmt_tensor_rec c t r o) [Lit "["] in
      Ok (out ++ [Lit "]"])
    end
  end.

Definition show_nat (n : nat) : string := NilZero.string_of_uint (Nat.to_uint n).
(** Debug of a [Vec<usize>]. *)
Definition show_vec (l : list nat) : string := ("[" ++ String.concat ", " (map show_nat l) ++ "]")%string.

(** src/tensor/tensor.rs:310-326; [name] is the element type's name. *)
Definition fmt_tensor {A} (c : cfg) (name : string) (t : tensor A) : outcome (list (piece A)) :=
  let out := [Lit ("Tensor<" ++ name ++ "> {")] in
  let out := if 1 <? rank (tshape t) then out ++ [Lit newline] else out in
  let* body := fmt_tensor_rec c t (rank (tshape t)) 0 in
  let* dims := as_vec c (tshape t) in
  Ok (out ++ body ++ [Lit (", shape: " ++ show_vec dims); Lit "}"]).

(** The text itself. *)
Definition text {A} (show : A -> string) (l : list (piece A)) : string :=
  String.concat "" (map (fun p => match p with Lit s => s | Elem v => show v end) l).

(** ** Indexing with two coordinates *)

(** [assert!(b, "Index={:?} is invalid for {:?}", index, self)]: the message is put together
    before the panic starts to unwind (by the panic hook, or else when the payload is
    boxed).  The Debug implementation of the elements is assumed to return. *)
Definition assert_shown {A} (c : cfg) (b : bool) (t : tensor A) : outcome unit :=
  if b then Ok tt else let* _ := fmt_tensor c "" t in Panic.

(** src/tensor/index.rs:21-38.  (The [usize] arithmetic of the offset is bounded by the
    assertions before it and cannot overflow.) *)
Definition index2 {A} (c : cfg) (t : tensor A) (i j : nat) : outcome A :=
  let s := tshape t in
  assert! (1 <? rank s) in
  let* d1 := rdim s 1 in
  let* _ := assert_shown c (i <? d1) t in
  let* d0 := rdim s 0 in
  let* _ := assert_shown c (j <? d0) t in
  let offset := j + d0 * i in
  assert! (offset <? tsize t) in
  index1 t offset.
