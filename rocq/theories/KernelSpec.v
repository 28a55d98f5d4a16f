(** * C82: what a kernel for matrix products may do *)
From Coq Require Import Permutation.
From Flocq Require Import IEEE754.BinarySingleNaN.
From Verif Require Import Base ShapeModel TensorModel FloatModel KernelModel.

(** A kernel that is asked for the product of two matrices (with alpha = 1 and beta = 0),
    all of whose entries lie in their buffers, into [m * n] different cells of the output:
    it returns, writes into each cell a value that is acceptable for the pairs of the factors
    of that entry, in the order of the index, and leaves all other cells as they were.
    Nothing is asked of it for other calls. *)
Definition computes {F} (o : fops F) (E : list (F * F) -> F -> Prop) (K : kernel F) : Prop :=
  forall m k n a pa rsa csa b pb rsb csb pc rsc csc out,
  (forall i p j, i < m -> p < k -> j < n ->
     pa + (rsa * i + csa * p) < length a /\ pb + (rsb * p + csb * j) < length b) ->
  (forall i j, i < m -> j < n -> pc + (rsc * i + csc * j) < length out) ->
  (forall i j i' j', i < m -> j < n -> i' < m -> j' < n ->
     rsc * i + csc * j = rsc * i' + csc * j' -> i = i' /\ j = j') ->
  exists out', K m k n (fone o) a pa rsa csa b pb rsb csb (fzero o) pc rsc csc out = Ok out' /\
    length out' = length out /\
    (forall i j, i < m -> j < n -> exists z, nth_error out' (pc + (rsc * i + csc * j)) = Some (Some z) /\
       E (map (fun p => (nth (pa + (rsa * i + csa * p)) a (fzero o), nth (pb + (rsb * p + csb * j)) b (fzero o)))
            (seq 0 k)) z) /\
    (forall q, (forall i j, i < m -> j < n -> q <> pc + (rsc * i + csc * j)) ->
       nth_error out' q = nth_error out q).

(** A binary32 number that a sum of products may give: rounded products, added in any order
    and grouping, with or without fused multiply-add, starting from zeros or not, and with
    scalings by one anywhere. *)
Inductive sum_of : list (b32 * b32) -> b32 -> Prop :=
| sum_zero : sum_of [] (b32_of_Z 0 0)
| sum_product x y : sum_of [(x, y)] (@Bmult 24 128 b32_prec b32_emax mode_NE x y)
| sum_add ps qs u v : sum_of ps u -> sum_of qs v -> sum_of (ps ++ qs) (@Bplus 24 128 b32_prec b32_emax mode_NE u v)
| sum_fma x y ps u : sum_of ps u -> sum_of ((x, y) :: ps) (@Bfma 24 128 b32_prec b32_emax mode_NE x y u)
| sum_scale ps u : sum_of ps u ->
    sum_of ps (@Bmult 24 128 b32_prec b32_emax mode_NE (b32_of_Z 1 0) u)
| sum_order ps qs u : Permutation ps qs -> sum_of ps u -> sum_of qs u.

(** Kernels of the simplest form: one entry after another, each computed by [f] from the
    pairs of its factors. *)
Definition loop_kernel {F} (f : list (F * F) -> F) : kernel F :=
  fun m k n alpha a pa rsa csa b pb rsb csb beta pc rsc csc c =>
  for_ m (fun i c =>
    for_ n (fun j c =>
      let* ps := map_out (fun p =>
        let* x := raw_get a (pa + (rsa * i + csa * p)) in
        let* y := raw_get b (pb + (rsb * p + csb * j)) in
        Ok (x, y)) (seq 0 k) in
      write c (pc + (rsc * i + csc * j)) (f ps)) c) c.

(** The sum from the last product to the first with fused multiply-add. *)
Definition fma_from_right (ps : list (b32 * b32)) : b32 :=
  fold_right (fun '(x, y) u => @Bfma 24 128 b32_prec b32_emax mode_NE x y u) (b32_of_Z 0 0) ps.
