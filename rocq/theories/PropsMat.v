(** * C73: the algebra of matrices *)
From Coq Require Import Reals Ring_theory.
From Flocq Require Import IEEE754.BinarySingleNaN.
From Verif Require Import Base ShapeModel TensorModel MapModel NumModel FloatModel InitModel ArrayModel LinalgModel
  Spec FloatSpec AlgSpec LinalgSpec MatProofs.

(** ** C73

    [matmul] labels an [m x n] product [n; m] (C47), so products that are used further
    are relabelled with [reshape] first; for square matrices that is not needed.  The
    elements are those of a commutative semiring, such as the real numbers or the
    integers. *)

Theorem C73_semirings :
  semi_ring_theory (fzero R_ops) (fone R_ops) (fadd R_ops) (fmul R_ops) eq /\
  semi_ring_theory (fzero Z_ops) (fone Z_ops) (fadd Z_ops) (fmul Z_ops) eq /\
  feq R_ops (fzero R_ops) (fzero R_ops) = true /\ feq Z_ops (fzero Z_ops) (fzero Z_ops) = true.
Proof. exact c73_semirings. Qed.
Print Assumptions C73_semirings.

(** [(a b) d = a (b d)], for batches of matrices of any fitting sizes, zero included. *)
Theorem C73_assoc {F} (o : fops F) c (a b d : tensor F) ds m k n q xs ys zs :
  semi_ring_theory (fzero o) (fone o) (fadd o) (fmul o) eq -> feq o (fzero o) (fzero o) = true ->
  repr a (ds ++ [m; k]) xs -> repr b (ds ++ [k; n]) ys -> repr d (ds ++ [n; q]) zs ->
  supported (ds ++ [m; n]) -> supported (ds ++ [k; q]) -> supported (ds ++ [m; q]) ->
  zero_alloc_ok c = true ->
  (let* ab := matmul o c a b in let* ab := reshape c ab (canon (ds ++ [m; n])) in matmul o c ab d)
  = (let* bd := matmul o c b d in let* bd := reshape c bd (canon (ds ++ [k; q])) in matmul o c a bd).
Proof. exact (fun SR ZZ => @c73_assoc F o SR ZZ c a b d ds m k n q xs ys zs). Qed.
Print Assumptions C73_assoc.

Theorem C73_assoc_square {F} (o : fops F) c (a b d : tensor F) ds m xs ys zs :
  semi_ring_theory (fzero o) (fone o) (fadd o) (fmul o) eq -> feq o (fzero o) (fzero o) = true ->
  repr a (ds ++ [m; m]) xs -> repr b (ds ++ [m; m]) ys -> repr d (ds ++ [m; m]) zs ->
  zero_alloc_ok c = true ->
  (let* ab := matmul o c a b in matmul o c ab d) = (let* bd := matmul o c b d in matmul o c a bd).
Proof. exact (fun SR ZZ => @c73_assoc_square F o SR ZZ c a b d ds m xs ys zs). Qed.
Print Assumptions C73_assoc_square.

(** Without the relabelling it is false: [(a b) d] is computed and [a (b d)] panics. *)
Theorem C73_assoc_refuted :
  exists a b d : tensor Z,
    repr a [1; 2] [1; 2]%Z /\ repr b [2; 1] [3; 4]%Z /\ repr d [1; 1] [5]%Z /\
    (let* ab := matmul Z_ops dev a b in matmul Z_ops dev ab d) = Ok (fresh [1; 1] [55]%Z) /\
    (let* bd := matmul Z_ops dev b d in matmul Z_ops dev a bd) = Panic.
Proof. exact c73_assoc_refuted. Qed.
Print Assumptions C73_assoc_refuted.

(** With f32 it is false even for 1x1 matrices: 2^100, 2^100 and 2^-100. *)
Theorem C73_b32_refuted ln_ exp_ pow_ :
  exists a b d : tensor b32,
    repr a [1; 1] [b32_of_Z 1 100] /\ repr b [1; 1] [b32_of_Z 1 100] /\ repr d [1; 1] [b32_of_Z 1 (-100)] /\
    (let* ab := matmul (b32_ops ln_ exp_ pow_) dev a b in
     let* r := matmul (b32_ops ln_ exp_ pow_) dev ab d in Ok (map B2SF (tdata r)))
      = Ok [SpecFloat.S754_infinity false] /\
    (let* bd := matmul (b32_ops ln_ exp_ pow_) dev b d in
     let* r := matmul (b32_ops ln_ exp_ pow_) dev a bd in Ok (map B2SF (tdata r)))
      = Ok [SpecFloat.S754_finite false 8388608 77].
Proof. exact (c73_b32_refuted ln_ exp_ pow_). Qed.
Print Assumptions C73_b32_refuted.

(** The identity matrix from [eye] changes no element. *)
Theorem C73_identity_r {F} (o : fops F) c (a : tensor F) m k xs :
  semi_ring_theory (fzero o) (fone o) (fadd o) (fmul o) eq -> feq o (fzero o) (fzero o) = true ->
  repr a [m; k] xs -> 0 < k -> supported [k; k] -> zero_alloc_ok c = true ->
  (let* e := eye c (fzero o) (fone o) k in matmul o c a e) = Ok (fresh [k; m] xs).
Proof. exact (fun SR ZZ => @c73_identity_r F o SR ZZ c a m k xs). Qed.
Print Assumptions C73_identity_r.

Theorem C73_identity_l {F} (o : fops F) c (a : tensor F) m k xs :
  semi_ring_theory (fzero o) (fone o) (fadd o) (fmul o) eq -> feq o (fzero o) (fzero o) = true ->
  repr a [m; k] xs -> 0 < m -> supported [m; m] -> zero_alloc_ok c = true ->
  (let* e := eye c (fzero o) (fone o) m in matmul o c e a) = Ok (fresh [k; m] xs).
Proof. exact (fun SR ZZ => @c73_identity_l F o SR ZZ c a m k xs). Qed.
Print Assumptions C73_identity_l.

(** [a (b + d) = a b + a d] and [(a + b) d = a d + b d], where [+] is the operator on
    tensors. *)
Theorem C73_distrib_l {F} (o : fops F) c (a b d : tensor F) ds m k n xs ys zs :
  semi_ring_theory (fzero o) (fone o) (fadd o) (fmul o) eq -> feq o (fzero o) (fzero o) = true ->
  repr a (ds ++ [m; k]) xs -> repr b (ds ++ [k; n]) ys -> repr d (ds ++ [k; n]) zs ->
  supported (ds ++ [m; n]) -> 0 < prod (ds ++ [m; n]) -> 0 < k ->
  (let* s := binop_tt c b d (ok2 (fadd o)) in matmul o c a s)
  = (let* p := matmul o c a b in let* q := matmul o c a d in binop_tt c p q (ok2 (fadd o))).
Proof. exact (fun SR ZZ => @c73_distrib_l F o SR ZZ c a b d ds m k n xs ys zs). Qed.
Print Assumptions C73_distrib_l.

Theorem C73_distrib_r {F} (o : fops F) c (a b d : tensor F) ds m k n xs ys zs :
  semi_ring_theory (fzero o) (fone o) (fadd o) (fmul o) eq -> feq o (fzero o) (fzero o) = true ->
  repr a (ds ++ [m; k]) xs -> repr b (ds ++ [m; k]) ys -> repr d (ds ++ [k; n]) zs ->
  supported (ds ++ [m; n]) -> 0 < prod (ds ++ [m; n]) -> 0 < k ->
  (let* s := binop_tt c a b (ok2 (fadd o)) in matmul o c s d)
  = (let* p := matmul o c a d in let* q := matmul o c b d in binop_tt c p q (ok2 (fadd o))).
Proof. exact (fun SR ZZ => @c73_distrib_r F o SR ZZ c a b d ds m k n xs ys zs). Qed.
Print Assumptions C73_distrib_r.

(** A number times a product. *)
Theorem C73_scale {F} (o : fops F) c s (a b : tensor F) ds m k n xs ys :
  semi_ring_theory (fzero o) (fone o) (fadd o) (fmul o) eq -> feq o (fzero o) (fzero o) = true ->
  repr a (ds ++ [m; k]) xs -> repr b (ds ++ [k; n]) ys ->
  supported (ds ++ [m; n]) -> zero_alloc_ok c = true ->
  (let* sa := binop_st c s a (ok2 (fmul o)) in matmul o c sa b)
  = (let* ab := matmul o c a b in binop_st c s ab (ok2 (fmul o))) /\
  (let* sb := binop_st c s b (ok2 (fmul o)) in matmul o c a sb)
  = (let* ab := matmul o c a b in binop_st c s ab (ok2 (fmul o))).
Proof. exact (fun SR ZZ => @c73_scale F o SR ZZ c s a b ds m k n xs ys). Qed.
Print Assumptions C73_scale.

(** The transpose of a product, with no law but the commutativity of the multiplication;
    so it also holds with f32, ... *)
Theorem C73_transpose {F} (o : fops F) c (a b : tensor F) ds m k n xs ys :
  feq o (fzero o) (fzero o) = true -> (forall x y, fmul o x y = fmul o y x) ->
  repr a (ds ++ [m; k]) xs -> repr b (ds ++ [k; n]) ys ->
  supported (ds ++ [m; n]) -> 0 < prod (ds ++ [m; n]) -> 0 < k ->
  (let* ab := matmul o c a b in let* ab := reshape c ab (canon (ds ++ [m; n])) in transpose c ab)
  = (let* bt := transpose c b in let* at_ := transpose c a in
     let* r := matmul o c bt at_ in reshape c r (canon (ds ++ [n; m]))).
Proof. exact (@c73_transpose F o c a b ds m k n xs ys). Qed.
Print Assumptions C73_transpose.

(** ... whose multiplication commutes (all NaNs being one). *)
Theorem C73_mul_comm_b32 ln_ exp_ pow_ (x y : b32) :
  fmul (b32_ops ln_ exp_ pow_) x y = fmul (b32_ops ln_ exp_ pow_) y x.
Proof. exact (c73_mul_comm_b32 ln_ exp_ pow_ x y). Qed.
Print Assumptions C73_mul_comm_b32.

(** The transpose flags, for any elements whatever: the same as transposing first. *)
Theorem C73_flag_a {F} (o : fops F) c (a b : tensor F) ds m k n xs ys :
  feq o (fzero o) (fzero o) = true ->
  repr a (ds ++ [k; m]) xs -> repr b (ds ++ [k; n]) ys ->
  supported (ds ++ [n; m]) -> 0 < prod (ds ++ [n; m]) -> 0 < k ->
  matmul_t o c a b TransposeA = (let* u := transpose c a in matmul o c u b).
Proof. exact (@c73_transpose_a F o c a b ds m k n xs ys). Qed.
Print Assumptions C73_flag_a.

Theorem C73_flag_b {F} (o : fops F) c (a b : tensor F) ds m k n xs ys :
  feq o (fzero o) (fzero o) = true ->
  repr a (ds ++ [m; k]) xs -> repr b (ds ++ [n; k]) ys ->
  supported (ds ++ [n; m]) -> 0 < prod (ds ++ [n; m]) -> 0 < k ->
  matmul_t o c a b TransposeB = (let* u := transpose c b in matmul o c a u).
Proof. exact (@c73_transpose_b F o c a b ds m k n xs ys). Qed.
Print Assumptions C73_flag_b.

Theorem C73_flag_ab {F} (o : fops F) c (a b : tensor F) ds m k n xs ys :
  feq o (fzero o) (fzero o) = true ->
  repr a (ds ++ [k; m]) xs -> repr b (ds ++ [n; k]) ys ->
  supported (ds ++ [n; m]) -> 0 < prod (ds ++ [n; m]) -> 0 < k ->
  matmul_t o c a b TransposeAB
  = (let* u := transpose c a in let* v := transpose c b in matmul o c u v).
Proof. exact (@c73_transpose_ab F o c a b ds m k n xs ys). Qed.
Print Assumptions C73_flag_ab.

(** [matvec] of a stack of rows is the product with the transposed matrix, correctly
    labelled. *)
Theorem C73_matvec_matmul {F} (o : fops F) c (a x : tensor F) ds m k r xs ys :
  feq o (fzero o) (fzero o) = true ->
  repr a (ds ++ [m; k]) xs -> repr x (ds ++ [r; k]) ys ->
  supported (ds ++ [r; m]) -> 0 < prod (ds ++ [r; m]) -> 0 < k ->
  matvec o c a x = (let* p := matmul_t o c x a TransposeB in reshape c p (canon (ds ++ [r; m]))).
Proof. exact (@c73_matvec_matmul F o c a x ds m k r xs ys). Qed.
Print Assumptions C73_matvec_matmul.

(** [(a b) x = a (b x)], [a (x + y) = a x + a y] and [1 x = x] for vectors. *)
Theorem C73_matvec {F} (o : fops F) c (a b x : tensor F) m k n xs ys zs :
  semi_ring_theory (fzero o) (fone o) (fadd o) (fmul o) eq -> feq o (fzero o) (fzero o) = true ->
  repr a [m; k] xs -> repr b [k; n] ys -> repr x [n] zs ->
  supported [m; n] -> 0 < m -> 0 < k -> 0 < n ->
  (let* ab := matmul o c a b in let* ab := reshape c ab (canon [m; n]) in matvec o c ab x)
  = (let* bx := matvec o c b x in matvec o c a bx).
Proof. exact (fun SR ZZ => @c73_matvec F o SR ZZ c a b x m k n xs ys zs). Qed.
Print Assumptions C73_matvec.

Theorem C73_matvec_add {F} (o : fops F) c (a x y : tensor F) m k xs ys zs :
  semi_ring_theory (fzero o) (fone o) (fadd o) (fmul o) eq -> feq o (fzero o) (fzero o) = true ->
  repr a [m; k] xs -> repr x [k] ys -> repr y [k] zs -> 0 < m -> 0 < k ->
  (let* s := binop_tt c x y (ok2 (fadd o)) in matvec o c a s)
  = (let* p := matvec o c a x in let* q := matvec o c a y in binop_tt c p q (ok2 (fadd o))).
Proof. exact (fun SR ZZ => @c73_matvec_add F o SR ZZ c a x y m k xs ys zs). Qed.
Print Assumptions C73_matvec_add.

Theorem C73_matvec_identity {F} (o : fops F) c (x : tensor F) n xs :
  semi_ring_theory (fzero o) (fone o) (fadd o) (fmul o) eq -> feq o (fzero o) (fzero o) = true ->
  repr x [n] xs -> 0 < n -> supported [n; n] ->
  (let* e := eye c (fzero o) (fone o) n in matvec o c e x) = Ok (fresh [n] xs).
Proof. exact (fun SR ZZ => @c73_matvec_identity F o SR ZZ c x n xs). Qed.
Print Assumptions C73_matvec_identity.

(** A 2x2, a 2x3 and a 3x1 matrix. *)
Example C73_example :
  let a := fresh [2; 2] [1; 2; 3; 4]%Z in
  let b := fresh [2; 3] [1; 0; 2; 0; 1; 1]%Z in
  let d := fresh [3; 1] [1; 10; 100]%Z in
  (let* ab := matmul Z_ops dev a b in let* ab := reshape dev ab (canon [2; 3]) in matmul Z_ops dev ab d)
    = Ok (fresh [1; 2] [421; 1043]%Z) /\
  (let* bd := matmul Z_ops dev b d in let* bd := reshape dev bd (canon [2; 1]) in matmul Z_ops dev a bd)
    = Ok (fresh [1; 2] [421; 1043]%Z) /\
  (let* e := eye dev 0%Z 1%Z 3 in matmul Z_ops dev b e) = Ok (fresh [3; 2] [1; 0; 2; 0; 1; 1]%Z) /\
  matmul_t Z_ops dev b b TransposeA = (let* u := transpose dev b in matmul Z_ops dev u b).
Proof. repeat split; reflexivity. Qed.
