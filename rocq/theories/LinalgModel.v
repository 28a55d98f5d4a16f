(** * Model of src/linalg (matmul.rs, matvec.rs, blas.rs, blas_naive.rs) *)
From Verif Require Import Base ShapeModel TensorModel FloatModel.

(** [ptr.add(n)] on a pointer to position [p] of an allocation: the result must stay
    inside the allocation or one past its end. *)
Definition ptr_add {A} (d : list A) (p n : nat) : outcome nat :=
  if p + n <=? length d then Ok (p + n) else Ub.

(** src/linalg/blas_naive.rs:3-36, called from src/linalg/blas.rs:8-35.  Without the
    feature "naive" blas.rs calls [matrixmultiply::sgemm], which is not part of this
    repository; it is taken to compute the same sums, reading and writing the same
    elements (the order of its additions is its own).  [pa], [pb], [pc] are the positions
    the pointers refer to.  The products of strides and indices are computed without
    overflow. *)
Definition sgemm {F} (o : fops F) (m k n : nat) (alpha : F)
    (a : list F) (pa rsa csa : nat) (b : list F) (pb rsb csb : nat) (beta : F)
    (pc rsc csc : nat) (c : buf F) : outcome (buf F) :=
  assert! (feq o beta (fzero o)) in
  for_ m (fun i c =>
    for_ n (fun j c =>
      let* v := for_ k (fun p v =>
        let* x := raw_get a (pa + (rsa * i + csa * p)) in
        let* y := raw_get b (pb + (rsb * p + csb * j)) in
        Ok (fadd o v (fmul o x y))) (fzero o) in
      write c (pc + (rsc * i + csc * j)) (fmul o alpha v)) c) c.

(** src/linalg/matmul.rs:3-9 *)
Inductive trans := TNone | TransposeA | TransposeB | TransposeAB.

(** src/linalg/matmul.rs:72-105 *)
Definition mkn {F} (tr : trans) (a b : tensor F) : outcome (nat * nat * nat) :=
  let* ar := rows (tshape a) in
  let* ac := cols (tshape a) in
  let* br := rows (tshape b) in
  let* bc := cols (tshape b) in
  match tr with
  | TNone => assert! (ac =? br) in Ok (ar, ac, bc)
  | TransposeA => assert! (ar =? br) in Ok (ac, ar, bc)
  | TransposeB => assert! (ac =? bc) in Ok (ar, ar, br)
  | TransposeAB => assert! (ar =? bc) in Ok (ac, ar, br)
  end.

(** src/linalg/matmul.rs:107-159; the operands' pointers are given as positions. *)
Definition matmul_sgemm {F} (o : fops F) (tr : trans) (a b : tensor F) (pa pb pc : nat)
    (c : buf F) : outcome (buf F) :=
  let* ar := rows (tshape a) in
  let* ac := cols (tshape a) in
  let* br := rows (tshape b) in
  let* bc := cols (tshape b) in
  match tr with
  | TNone =>
    sgemm o ar ac bc (fone o) (tdata a) pa ac 1 (tdata b) pb bc 1 (fzero o) pc bc 1 c
  | TransposeA =>
    sgemm o ac ar bc (fone o) (tdata a) pa 1 ac (tdata b) pb bc 1 (fzero o) pc bc 1 c
  | TransposeB =>
    sgemm o ar ac br (fone o) (tdata a) pa ac 1 (tdata b) pb 1 bc (fzero o) pc br 1 c
  | TransposeAB =>
    sgemm o ac ar br (fone o) (tdata a) pa 1 ac (tdata b) pb 1 bc (fzero o) pc br 1 c
  end.

(** src/linalg/matmul.rs:44-70 (with [matmul], 40-42, and the methods 30-38, which pass
    their arguments on).  That [o.add] stays inside the output is only checked at the
    writes. *)
Definition matmul_t {F} (o : fops F) (c : cfg) (a b : tensor F) (tr : trans)
  : outcome (tensor F) :=
  assert! (1 <? rank (tshape a)) in
  let* '(m, _, n) := mkn tr a b in
  let* batch_len := sublen c (tshape a) 0 (rank (tshape a) - 2) in
  let* ar := rows (tshape a) in
  let* ac := cols (tshape a) in
  let* a_size := umul c ar ac in
  let* br := rows (tshape b) in
  let* bc := cols (tshape b) in
  let* b_size := umul c br bc in
  let* o_size := umul c m n in
  let* s := with_cols (tshape b) m in
  let* s := with_rows s n in
  let* len := umul c o_size batch_len in
  unsafe_init_ c len s (fun out =>
    for_ batch_len (fun batch out =>
      let* ka := umul c a_size batch in
      let* pa := ptr_add (tdata a) (toffset a) ka in
      let* kb := umul c b_size batch in
      let* pb := ptr_add (tdata b) (toffset b) kb in
      let* pc := umul c o_size batch in
      matmul_sgemm o tr a b pa pb pc out) out).
Definition matmul {F} (o : fops F) (c : cfg) (a b : tensor F) : outcome (tensor F) :=
  matmul_t o c a b TNone.

(** src/linalg/matvec.rs:67-86: the result is (o_cols, o_rows). *)
Definition matvec_o_size {F} (tr : trans) (a x : tensor F) : outcome (nat * nat) :=
  let* ar := rows (tshape a) in
  let* ac := cols (tshape a) in
  let* xr := rows (tshape x) in
  let* xc := cols (tshape x) in
  match tr with
  | TNone => assert! (ac =? xc) in Ok (ar, Nat.max 1 xr)
  | TransposeA => assert! (ar =? xc) in Ok (ac, Nat.max 1 xr)
  | TransposeB | TransposeAB => Panic
  end.

(** src/linalg/matvec.rs:88-132 *)
Definition matvec_sgemm {F} (o : fops F) (tr : trans) (a x : tensor F) (o_cols o_rows : nat)
    (pa px po : nat) (out : buf F) : outcome (buf F) :=
  let* ac := cols (tshape a) in
  let* xc := cols (tshape x) in
  match tr with
  | TNone =>
    sgemm o o_rows xc o_cols (fone o) (tdata x) px xc 1 (tdata a) pa 1 ac (fzero o) po o_cols 1 out
  | TransposeA =>
    sgemm o o_rows xc o_cols (fone o) (tdata x) px xc 1 (tdata a) pa ac 1 (fzero o) po o_cols 1 out
  | TransposeB | TransposeAB => Panic
  end.

(** src/linalg/matvec.rs:19-49 (and the methods 9-17). *)
Definition matvec_t {F} (o : fops F) (c : cfg) (a x : tensor F) (tr : trans)
  : outcome (tensor F) :=
  assert! (2 <=? rank (tshape a)) in
  let* batch := broadcast_min c (tshape a) 2 (tshape x) (Nat.min 2 (rank (tshape x))) in
  let* ac := cols (tshape a) in
  let* ar := rows (tshape a) in
  let* a_size := umul c ac ar in
  let* xr := rows (tshape x) in
  let x_rows := Nat.max 1 xr in
  let* xc := cols (tshape x) in
  let* x_size := umul c xc x_rows in
  let* '(o_cols, o_rows) := matvec_o_size tr a x in
  let* o_size := umul c o_cols o_rows in
  let* s := with_cols (tshape x) o_cols in
  let* len := umul c o_size batch in
  unsafe_init_ c len s (fun out =>
    for_ batch (fun n out =>
      let* ka := umul c n a_size in
      let* pa := as_wrap_ptr a ka in
      let* kx := umul c n x_size in
      let* px := as_wrap_ptr x kx in
      let* po := umul c n o_size in
      matvec_sgemm o tr a x o_cols o_rows pa px po out) out).
Definition matvec {F} (o : fops F) (c : cfg) (a x : tensor F) : outcome (tensor F) :=
  matvec_t o c a x TNone.
