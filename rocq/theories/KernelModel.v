(** * Matrix products with the kernel as a parameter *)
From Verif Require Import Base ShapeModel TensorModel FloatModel LinalgModel.

(** src/linalg/blas.rs:8-35.  By default the code calls [matrixmultiply::sgemm], which is not
    part of this repository.  Here the kernel is any function of the sizes [m], [k], [n], the
    factor [alpha], the two operands (buffer, position of the pointer, row and column
    strides), the factor [beta], and the position, strides and buffer of the output.  (The
    casts of the strides to [isize] are left out: strides are dimensions, which are below
    2^32.) *)
Definition kernel (F : Type) := nat -> nat -> nat -> F ->
  list F -> nat -> nat -> nat -> list F -> nat -> nat -> nat -> F ->
  nat -> nat -> nat -> buf F -> outcome (buf F).

(** src/linalg/matmul.rs:107-159, as [matmul_sgemm] *)
Definition matmul_sgemm_by {F} (o : fops F) (K : kernel F) (tr : trans) (a b : tensor F) (pa pb pc : nat)
    (c : buf F) : outcome (buf F) :=
  let* ar := rows (tshape a) in
  let* ac := cols (tshape a) in
  let* br := rows (tshape b) in
  let* bc := cols (tshape b) in
  match tr with
  | TNone => K ar ac bc (fone o) (tdata a) pa ac 1 (tdata b) pb bc 1 (fzero o) pc bc 1 c
  | TransposeA => K ac ar bc (fone o) (tdata a) pa 1 ac (tdata b) pb bc 1 (fzero o) pc bc 1 c
  | TransposeB => K ar ac br (fone o) (tdata a) pa ac 1 (tdata b) pb 1 bc (fzero o) pc br 1 c
  | TransposeAB => K ac ar br (fone o) (tdata a) pa 1 ac (tdata b) pb 1 bc (fzero o) pc br 1 c
  end.

(** src/linalg/matmul.rs:44-70, as [matmul_t] *)
Definition matmul_by {F} (o : fops F) (K : kernel F) (c : cfg) (a b : tensor F) (tr : trans)
  : outcome (tensor F) :=
  assert! (1 <? rank (tshape a)) in
  let* '(m, _, n) := mkn tr a b in
  let* batch_len := sublen c (tshape a) 0 (rank (tshape a) - 2) in
  let* ar := rows (tshape a) in
  let* ac := cols (tshape a) in
  let* a_size := umul c ar ac in
  let* br := rows (tshape b) in
  let* bc := cols (tshape b) in
  let* b_size := umul c br bc in
  let* o_size := umul c m n in
  let* s := with_cols (tshape b) m in
  let* s := with_rows s n in
  let* len := umul c o_size batch_len in
  unsafe_init_ c len s (fun out =>
    for_ batch_len (fun batch out =>
      let* ka := umul c a_size batch in
      let* pa := ptr_add (tdata a) (toffset a) ka in
      let* kb := umul c b_size batch in
      let* pb := ptr_add (tdata b) (toffset b) kb in
      let* pc := umul c o_size batch in
      matmul_sgemm_by o K tr a b pa pb pc out) out).

(** src/linalg/matvec.rs:88-132, as [matvec_sgemm] *)
Definition matvec_sgemm_by {F} (o : fops F) (K : kernel F) (tr : trans) (a x : tensor F)
    (o_cols o_rows : nat) (pa px po : nat) (out : buf F) : outcome (buf F) :=
  let* ac := cols (tshape a) in
  let* xc := cols (tshape x) in
  match tr with
  | TNone => K o_rows xc o_cols (fone o) (tdata x) px xc 1 (tdata a) pa 1 ac (fzero o) po o_cols 1 out
  | TransposeA => K o_rows xc o_cols (fone o) (tdata x) px xc 1 (tdata a) pa ac 1 (fzero o) po o_cols 1 out
  | TransposeB | TransposeAB => Panic
  end.

(** src/linalg/matvec.rs:19-49, as [matvec_t] *)
Definition matvec_by {F} (o : fops F) (K : kernel F) (c : cfg) (a x : tensor F) (tr : trans)
  : outcome (tensor F) :=
  assert! (2 <=? rank (tshape a)) in
  let* batch := broadcast_min c (tshape a) 2 (tshape x) (Nat.min 2 (rank (tshape x))) in
  let* ac := cols (tshape a) in
  let* ar := rows (tshape a) in
  let* a_size := umul c ac ar in
  let* xr := rows (tshape x) in
  let x_rows := Nat.max 1 xr in
  let* xc := cols (tshape x) in
  let* x_size := umul c xc x_rows in
  let* '(o_cols, o_rows) := matvec_o_size tr a x in
  let* o_size := umul c o_cols o_rows in
  let* s := with_cols (tshape x) o_cols in
  let* len := umul c o_size batch in
  unsafe_init_ c len s (fun out =>
    for_ batch (fun n out =>
      let* ka := umul c n a_size in
      let* pa := as_wrap_ptr a ka in
      let* kx := umul c n x_size in
      let* px := as_wrap_ptr x kx in
      let* po := umul c n o_size in
      matvec_sgemm_by o K tr a x o_cols o_rows pa px po out) out).
