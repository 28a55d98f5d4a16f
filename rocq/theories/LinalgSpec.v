(** * Properties of matmul and matvec (C46-C49): notions used in the statements *)
From Coq Require Import Reals Lra.
From Flocq Require Import IEEE754.BinarySingleNaN.
From Verif Require Import Base ShapeModel TensorModel FloatModel LinalgModel Spec FloatSpec.

(** ** C46

    The elements of the product, read as [m x n] matrices, are the sums of products of
    the corresponding row and column, added up from the left.  (The scaling by alpha = 1
    is kept here; the versions for the reals and for binary32 below remove it.)  The
    result's own label is the subject of C47. *)

(** Integer entries make the example checkable by computation. *)
Definition Z_ops : fops Z := mkFops 0%Z 1%Z Z.add Z.sub Z.mul Z.div Z.sqrt Z.leb Z.ltb Z.eqb
  Z.of_nat Z.to_nat (fun x => x) (fun x => x) Z.pow 0%Z 0%Z 0%Z.
