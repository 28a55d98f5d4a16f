(** * C78: a view behaves like a copy *)
From Coq Require Import String.
From Verif Require Import Base ShapeModel TensorModel AxisModel MapModel ArrayModel NumModel
  FromModel ArgModel FloatModel InitModel MathModel LinalgModel SignalModel RandomModel IoModel WrapModel FmtModel
  ParamSpec Spec LinalgSpec ViewSpec ViewProofs.
Import TensorModel.

(** ** C78 *)

(** Reading a tensor: the outcomes are equal. *)
Theorem C78_reads (c : cfg) :
  (forall (A : Type) (t t' : tensor A),
    same t t' -> as_slice t = as_slice t') /\
  (forall (A : Type) (t t' : tensor A),
    same t t' -> deref t = deref t') /\
  (forall (A : Type) (t t' : tensor A),
    same t t' -> into_iter t = into_iter t') /\
  (forall (A : Type) (t t' : tensor A),
    same t t' -> as_ref_slice t = as_ref_slice t') /\
  (forall (A : Type) (t t' : tensor A),
    same t t' -> iter_row t = iter_row t') /\
  (forall (A : Type) (t t' : tensor A) (offset : nat),
    same t t' -> as_wrap_slice t offset = as_wrap_slice t' offset) /\
  (forall (A : Type) (t t' : tensor A) (i : nat),
    same t t' -> index1 t i = index1 t' i) /\
  (forall (A : Type) (t t' : tensor A) (i : nat) (j : nat) (k : nat),
    same t t' -> index3 c t i j k = index3 c t' i j k) /\
  (forall (A : Type) (t t' : tensor A) (h : nat) (i : nat) (j : nat) (k : nat),
    same t t' -> index4 c t h i j k = index4 c t' h i j k) /\
  (forall (A : Type) (t t' : tensor A) (g : nat) (h : nat) (i : nat) (j : nat) (k : nat),
    same t t' -> index5 c t g h i j k = index5 c t' g h i j k) /\
  (forall (A : Type) (eqb : A -> A -> bool) (t t' : tensor A) (u u' : tensor A),
    same t t' -> same u u' -> tensor_eqb eqb t u = tensor_eqb eqb t' u') /\
  (forall (A : Type) (cmp : A -> A -> option comparison) (t t' : tensor A) (u u' : tensor A),
    same t t' -> same u u' -> tensor_partial_cmp cmp t u = tensor_partial_cmp cmp t' u') /\
  (forall (A : Type) (t t' : tensor A),
    same t t' -> t_rank t = t_rank t') /\
  (forall (A : Type) (t t' : tensor A),
    same t t' -> t_len c t = t_len c t') /\
  (forall (A : Type) (t t' : tensor A) (i : nat),
    same t t' -> t_dim c t i = t_dim c t' i) /\
  (forall (A : Type) (t t' : tensor A) (i : nat),
    same t t' -> t_rdim t i = t_rdim t' i) /\
  (forall (A : Type) (t t' : tensor A),
    same t t' -> t_cols t = t_cols t') /\
  (forall (A : Type) (t t' : tensor A),
    same t t' -> t_rows t = t_rows t') /\
  (forall (A : Type) (t t' : tensor A),
    same t t' -> t_size t = t_size t') /\
  (forall (A : Type) (t t' : tensor A),
    same t t' -> t_shape t = t_shape t').
Proof. exact (c78_reads c). Qed.
Print Assumptions C78_reads.

(** Operations that return a view: the outcomes are of the same kind, and the views returned cannot be told apart either. *)
Theorem C78_views (c : cfg) :
  (forall (A : Type) (t t' : tensor A) (s : shape),
    same t t' -> outR same (reshape c t s) (reshape c t' s)) /\
  (forall (A : Type) (t t' : tensor A) (axis : option Z),
    same t t' -> outR same (t_expand_dims c t axis) (t_expand_dims c t' axis)) /\
  (forall (A : Type) (t t' : tensor A),
    same t t' -> outR same (flatten c t) (flatten c t')) /\
  (forall (A : Type) (t t' : tensor A),
    same t t' -> outR same (t_squeeze c t) (t_squeeze c t')) /\
  (forall (A : Type) (t t' : tensor A) (axis : option Z),
    same t t' -> outR same (squeeze_axis c t axis) (squeeze_axis c t' axis)) /\
  (forall (A : Type) (t t' : tensor A) (offset : nat) (len : nat) (s : outcome shape),
    same t t' -> outR same (subslice_flat c t offset len s) (subslice_flat c t' offset len s)) /\
  (forall (A : Type) (t t' : tensor A) (offset : nat) (len : nat),
    same t t' -> outR same (subslice c t offset len) (subslice c t' offset len)) /\
  (forall (A : Type) (t t' : tensor A),
    same t t' -> same (as_ref_tensor t) (as_ref_tensor t')).
Proof. exact (c78_views c). Qed.
Print Assumptions C78_views.

(** The same for the operations that rearrange and join. *)
Theorem C78_arrays (c : cfg) :
  (forall (A : Type) (t t' : tensor A),
    same t t' -> outR same (transpose c t) (transpose c t')) /\
  (forall (A : Type) (axis : option Z) (t t' : tensor A) (s : sections),
    same t t' -> outR (Forall2 same) (split_axis c axis t s) (split_axis c axis t' s)) /\
  (forall (A : Type) (t t' : tensor A) (s : sections),
    same t t' -> outR (Forall2 same) (split c t s) (split c t' s)) /\
  (forall (A : Type) (t t' : tensor A) (s : sections),
    same t t' -> outR (Forall2 same) (vsplit c t s) (vsplit c t' s)) /\
  (forall (A : Type) (t t' : tensor A) (s : sections),
    same t t' -> outR (Forall2 same) (hsplit c t s) (hsplit c t' s)) /\
  (forall (A : Type) (t t' : tensor A) (s : sections),
    same t t' -> outR (Forall2 same) (dsplit c t s) (dsplit c t' s)) /\
  (forall (A : Type) (axis : option Z) (t t' : tensor A),
    same t t' -> outR (Forall2 same) (unstack c axis t) (unstack c axis t')) /\
  (forall (A : Type) (t t' : tensor A) (u u' : tensor A),
    same t t' -> same u u' -> outR same (append c t u) (append c t' u')) /\
  (forall (A : Type) (ts ts' : list (tensor A)) (s : shape),
    Forall2 same ts ts' -> outR same (from_merge c ts s) (from_merge c ts' s)) /\
  (forall (A : Type) (args args' : list (tensor A)),
    Forall2 same args args' -> outR same (concatenate c args) (concatenate c args')) /\
  (forall (A : Type) (axis : option Z) (args args' : list (tensor A)),
    Forall2 same args args' -> outR same (concatenate_axis c axis args) (concatenate_axis c axis args')) /\
  (forall (A : Type) (x x' : list (tensor A)),
    Forall2 same x x' -> outR same (stack c x) (stack c x')) /\
  (forall (A : Type) (axis : option Z) (x x' : list (tensor A)),
    Forall2 same x x' -> outR same (stack_axis c axis x) (stack_axis c axis x')) /\
  (forall (A : Type) (x x' : list (tensor A)),
    Forall2 same x x' -> outR same (dstack c x) (dstack c x')) /\
  (forall (A : Type) (x x' : list (tensor A)),
    Forall2 same x x' -> outR same (hstack c x) (hstack c x')) /\
  (forall (A : Type) (x x' : list (tensor A)),
    Forall2 same x x' -> outR same (vstack c x) (vstack c x')) /\
  (forall (A : Type) (t t' : tensor A) (multiples multiples' : tensor nat),
    same t t' -> same multiples multiples' -> outR same (tile c t multiples) (tile c t' multiples')) /\
  (forall (A : Type) (ts ts' : list (tensor A)),
    Forall2 same ts ts' -> outR same (of_tensors c ts) (of_tensors c ts')).
Proof. exact (c78_arrays c). Qed.
Print Assumptions C78_arrays.

(** The same for the functions and methods that take lists of arguments. *)
Theorem C78_arguments (c : cfg) :
  (forall (A : Type) (x x' : tensor_list A) (vec vec' : list (tensor A)),
    sameL x x' -> Forall2 same vec vec' -> outR (Forall2 same) (into_list c x vec) (into_list c x' vec')) /\
  (forall (A : Type) (x x' : tensor_list A),
    sameL x x' -> outR same (concatenate_args c x) (concatenate_args c x')) /\
  (forall (A : Type) (axis : option Z) (x x' : tensor_list A),
    sameL x x' -> outR same (concatenate_axis_args c axis x) (concatenate_axis_args c axis x')) /\
  (forall (A : Type) (x x' : tensor_list A),
    sameL x x' -> outR same (stack_args c x) (stack_args c x')) /\
  (forall (A : Type) (axis : option Z) (x x' : tensor_list A),
    sameL x x' -> outR same (stack_axis_args c axis x) (stack_axis_args c axis x')) /\
  (forall (A : Type) (x x' : tensor_list A),
    sameL x x' -> outR same (dstack_args c x) (dstack_args c x')) /\
  (forall (A : Type) (x x' : tensor_list A),
    sameL x x' -> outR same (hstack_args c x) (hstack_args c x')) /\
  (forall (A : Type) (x x' : tensor_list A),
    sameL x x' -> outR same (vstack_args c x) (vstack_args c x')) /\
  (forall (A : Type) (t t' : tensor A) (others others' : tensor_list A),
    same t t' -> sameL others others' -> outR same (m_concatenate c t others) (m_concatenate c t' others')) /\
  (forall (A : Type) (t t' : tensor A) (axis : option Z) (others others' : tensor_list A),
    same t t' -> sameL others others' -> outR same (m_concatenate_axis c t axis others) (m_concatenate_axis c t' axis others')) /\
  (forall (A : Type) (t t' : tensor A) (others others' : tensor_list A) (axis : option Z),
    same t t' -> sameL others others' -> outR same (m_stack c t others axis) (m_stack c t' others' axis)) /\
  (forall (A : Type) (t t' : tensor A) (others others' : tensor_list A),
    same t t' -> sameL others others' -> outR same (m_dstack c t others) (m_dstack c t' others')) /\
  (forall (A : Type) (t t' : tensor A) (others others' : tensor_list A),
    same t t' -> sameL others others' -> outR same (m_vstack c t others) (m_vstack c t' others')).
Proof. exact (c78_arguments c). Qed.
Print Assumptions C78_arguments.

(** The same for the operations that take closures, whatever the closures do: the closures go through the same states. *)
Theorem C78_closures (c : cfg) :
  (forall (S U V : Type) (a a' : tensor U) (f : S -> U -> outcome (S * V)) (st : S),
    same a a' -> outR (prodR eq same) (map_ c a f st) (map_ c a' f st)) /\
  (forall (S U V : Type) (N : nat) (a a' : tensor U) (f : S -> list U -> outcome (S * list V)) (st : S),
    same a a' -> outR (prodR eq same) (map_row c N a f st) (map_row c N a' f st)) /\
  (forall (S U V : Type) (N : nat) (a a' : tensor U) (f : S -> U -> outcome (S * list V)) (st : S),
    same a a' -> outR (prodR eq same) (map_expand c N a f st) (map_expand c N a' f st)) /\
  (forall (S T U V : Type) (a a' : tensor T) (b b' : tensor U) (f : S -> T -> U -> outcome (S * V)) (st : S),
    same a a' -> same b b' -> outR (prodR eq same) (map2 c a b f st) (map2 c a' b' f st)) /\
  (forall (S T U V W : Type) (ta ta' : tensor T) (tb tb' : tensor U) (tc tc' : tensor V) (f : S -> T -> U -> V -> outcome (S * W)) (st : S),
    same ta ta' -> same tb tb' -> same tc tc' -> outR (prodR eq same) (map3 c ta tb tc f st) (map3 c ta' tb' tc' f st)) /\
  (forall (S U R V : Type) (t t' : tensor U) (ini : R) (into : R -> V) (f : S -> R -> U -> outcome (S * R)) (st : S),
    same t t' -> outR (prodR eq same) (fold_ c t ini into f st) (fold_ c t' ini into f st)) /\
  (forall (S T R V : Type) (t t' : tensor T) (axis : option Z) (ini : R) (into : R -> V) (f : S -> R -> T -> outcome (S * R)) (st : S),
    same t t' -> outR (prodR eq same) (fold_axis c t axis ini into f st) (fold_axis c t' axis ini into f st)) /\
  (forall (S T : Type) (t t' : tensor T) (f : S -> T -> T -> outcome (S * T)) (st : S),
    same t t' -> outR (prodR eq same) (reduce c t f st) (reduce c t' f st)) /\
  (forall (S T : Type) (t t' : tensor T) (axis : option Z) (f : S -> T -> T -> outcome (S * T)) (st : S),
    same t t' -> outR (prodR eq same) (reduce_axis c t axis f st) (reduce_axis c t' axis f st)) /\
  (forall (S T R R1 V : Type) (t t' : tensor T) (axis : option Z) (ini : R) (accum : S -> R -> T -> outcome (S * R)) (complete : S -> R -> outcome (S * R1)) (norm : S -> R1 -> T -> outcome (S * V)) (st : S),
    same t t' -> outR (prodR eq same) (normalize c t axis ini accum complete norm st) (normalize c t' axis ini accum complete norm st)).
Proof. exact (c78_closures c). Qed.
Print Assumptions C78_closures.

(** The same for operators and element functions. *)
Theorem C78_operators (c : cfg) :
  (forall (T V : Type) (t t' : tensor T) (op : T -> outcome V),
    same t t' -> outR same (unop c t op) (unop c t' op)) /\
  (forall (T U V : Type) (a a' : tensor T) (b b' : tensor U) (op : T -> U -> outcome V),
    same a a' -> same b b' -> outR same (binop_tt c a b op) (binop_tt c a' b' op)) /\
  (forall (T U V : Type) (t t' : tensor T) (y : U) (op : T -> U -> outcome V),
    same t t' -> outR same (binop_ts c t y op) (binop_ts c t' y op)) /\
  (forall (T U V : Type) (x : T) (t t' : tensor U) (op : T -> U -> outcome V),
    same t t' -> outR same (binop_st c x t op) (binop_st c x t' op)) /\
  (forall (T V : Type) (t t' : tensor T) (f : T -> V),
    same t t' -> outR same (float_map c t f) (float_map c t' f)) /\
  (forall (T U V : Type) (a a' : tensor T) (b b' : tensor U) (f : T -> U -> V),
    same a a' -> same b b' -> outR same (float_map2 c a b f) (float_map2 c a' b' f)) /\
  (forall (T U V W : Type) (ta ta' : tensor T) (tb tb' : tensor U) (tc tc' : tensor V) (f : T -> U -> V -> W),
    same ta ta' -> same tb tb' -> same tc tc' -> outR same (float_map3 c ta tb tc f) (float_map3 c ta' tb' tc' f)).
Proof. exact (c78_operators c). Qed.
Print Assumptions C78_operators.

(** The same for the constructions of matrices and of progressions. *)
Theorem C78_matrices (c : cfg) :
  (forall (T : Type) (zero : T) (diag diag' : tensor T),
    same diag diag' -> outR same (diagflat c zero diag) (diagflat c zero diag')) /\
  (forall (T : Type) (zero : T) (t t' : tensor T),
    same t t' -> outR same (tril c zero t) (tril c zero t')) /\
  (forall (T : Type) (zero : T) (t t' : tensor T),
    same t t' -> outR same (triu c zero t) (triu c zero t')) /\
  (forall (T : Type) (axes axes' : list (tensor T)),
    Forall2 same axes axes' -> outR (Forall2 same) (meshgrid c axes) (meshgrid c axes')) /\
  (forall (T : Type) (axes axes' : list (tensor T)),
    Forall2 same axes axes' -> outR (Forall2 same) (meshgrid_ij c axes) (meshgrid_ij c axes')) /\
  (forall (F : Type) (o : fops F) (start start' : tensor F) (end_ end_' : tensor F) (len : nat),
    same start start' -> same end_ end_' -> outR same (linspace o c start end_ len) (linspace o c start' end_' len)) /\
  (forall (F : Type) (o : fops F) (start start' : tensor F) (end_ end_' : tensor F) (len : nat),
    same start start' -> same end_ end_' -> outR same (geomspace o c start end_ len) (geomspace o c start' end_' len)) /\
  (forall (F : Type) (o : fops F) (start start' : tensor F) (end_ end_' : tensor F) (len : nat) (base : option F),
    same start start' -> same end_ end_' -> outR same (logspace o c start end_ len base) (logspace o c start' end_' len base)).
Proof. exact (c78_matrices c). Qed.
Print Assumptions C78_matrices.

(** The same for the functions on numbers. *)
Theorem C78_numbers (c : cfg) :
  (forall (F : Type) (o : fops F) (t t' : tensor F),
    same t t' -> outR same (reduce_min o c t) (reduce_min o c t')) /\
  (forall (F : Type) (o : fops F) (t t' : tensor F) (axis : option Z),
    same t t' -> outR same (reduce_min_axis o c t axis) (reduce_min_axis o c t' axis)) /\
  (forall (F : Type) (o : fops F) (t t' : tensor F),
    same t t' -> outR same (reduce_max o c t) (reduce_max o c t')) /\
  (forall (F : Type) (o : fops F) (t t' : tensor F) (axis : option Z),
    same t t' -> outR same (reduce_max_axis o c t axis) (reduce_max_axis o c t' axis)) /\
  (forall (F : Type) (o : fops F) (t t' : tensor F),
    same t t' -> outR same (reduce_hypot o c t) (reduce_hypot o c t')) /\
  (forall (F : Type) (o : fops F) (t t' : tensor F),
    same t t' -> outR same (reduce_mean o c t) (reduce_mean o c t')) /\
  (forall (F : Type) (o : fops F) (t t' : tensor F) (axis : option Z),
    same t t' -> outR same (reduce_mean_axis o c t axis) (reduce_mean_axis o c t' axis)) /\
  (forall (F : Type) (o : fops F) (t t' : tensor F),
    same t t' -> outR same (reduce_std o c t) (reduce_std o c t')) /\
  (forall (F : Type) (o : fops F) (t t' : tensor F) (axis : option Z),
    same t t' -> outR same (reduce_std_axis o c t axis) (reduce_std_axis o c t' axis)) /\
  (forall (F : Type) (o : fops F) (t t' : tensor F),
    same t t' -> outR same (reduce_variance o c t) (reduce_variance o c t')) /\
  (forall (F : Type) (o : fops F) (t t' : tensor F) (axis : option Z),
    same t t' -> outR same (reduce_variance_axis o c t axis) (reduce_variance_axis o c t' axis)) /\
  (forall (T : Type) (add : T -> T -> outcome T) (t t' : tensor T),
    same t t' -> outR same (reduce_sum c add t) (reduce_sum c add t')) /\
  (forall (T : Type) (add : T -> T -> outcome T) (t t' : tensor T) (axis : option Z),
    same t t' -> outR same (reduce_sum_axis c add t axis) (reduce_sum_axis c add t' axis)) /\
  (forall (T : Type) (mul : T -> T -> outcome T) (t t' : tensor T),
    same t t' -> outR same (reduce_product c mul t) (reduce_product c mul t')) /\
  (forall (T : Type) (mul : T -> T -> outcome T) (t t' : tensor T) (axis : option Z),
    same t t' -> outR same (reduce_product_axis c mul t axis) (reduce_product_axis c mul t' axis)) /\
  (forall (F : Type) (o : fops F) (t t' : tensor F),
    same t t' -> outR same (normalize_unit o c t) (normalize_unit o c t')) /\
  (forall (F : Type) (o : fops F) (data data' : tensor F) (n_bins : option nat),
    same data data' -> outR (prodR same same) (histogram o c data n_bins) (histogram o c data' n_bins)) /\
  (forall (F : Type) (o : fops F) (data data' : tensor F) (n_bins : option nat),
    same data data' -> outR (prodR (prodR same same) same) (histogram2d o c data n_bins) (histogram2d o c data' n_bins)) /\
  (forall (F C : Type) (o : sigops F C) (t t' : tensor F) (fft_length : option nat),
    same t t' -> outR same (rfft_norm o c t fft_length) (rfft_norm o c t' fft_length)) /\
  (forall (F : Type) (o : rops F) (contents contents' : tensor Z),
    same contents contents' -> outR (prodR same same) (decode_wav o c contents) (decode_wav o c contents')).
Proof. exact (c78_numbers c). Qed.
Print Assumptions C78_numbers.

(** In particular a view cannot be told apart from a copy of its elements. *)
Theorem C78_copy {A} (t : tensor A) xs : shown t xs -> same t (copy t xs).
Proof. exact (@c78_copy A t xs). Qed.
Print Assumptions C78_copy.

(** The products of matrices: whatever two copies compute, views compute. *)
Theorem C78_products {F} (o : fops F) c (a b : tensor F) xs ys tr :
  shown a xs -> shown b ys ->
  (matmul_t o c (copy a xs) (copy b ys) tr <> Ub -> matmul_t o c a b tr = matmul_t o c (copy a xs) (copy b ys) tr) /\
  (matvec_t o c (copy a xs) (copy b ys) tr <> Ub -> matvec_t o c a b tr = matvec_t o c (copy a xs) (copy b ys) tr).
Proof. exact (@c78_products F o c a b xs ys tr). Qed.
Print Assumptions C78_products.

(** The other way round it is false: with fewer matrices on the right the elements after the
    view are read, which are outside the copy's buffer.  (The product then panics.) *)
Theorem C78_products_refuted : exists a b : tensor Z,
  subslice dev (fresh [2; 1] [5; 6]%Z) 0 1 = Ok b /\
  shown a [3; 4]%Z /\ shown b [5]%Z /\
  matmul_t Z_ops dev a b TNone = Panic /\
  matmul_t Z_ops dev (copy a [3; 4]%Z) (copy b [5]%Z) TNone = Ub.
Proof. exact c78_products_refuted. Qed.
Print Assumptions C78_products_refuted.

(** The functions that find elements with [get] or [as_wrap_slice_n] do not distinguish tensors
    that start at the beginning of their buffers. *)
Theorem C78_zero {A} c (t t' : tensor A) :
  same t t' -> toffset t = 0 -> toffset t' = 0 ->
  (forall i, get c t i = get c t' i) /\
  (forall i n, as_wrap_slice_n c t i n = as_wrap_slice_n c t' i n) /\
  (forall name, fmt_tensor c name t = fmt_tensor c name t') /\
  (forall i j, index2 c t i j = index2 c t' i j) /\
  (forall (S R V : Type) N axis (ini : R) (into : R -> list V) (f : S -> R -> list A -> outcome (S * R)) st,
    fold_row c N t axis ini into f st = fold_row c N t' axis ini into f st).
Proof. exact (@c78_zero A c t t'). Qed.
Print Assumptions C78_zero.

(** Other views are distinguished by them: these are C15, C32, C64 and C16. *)
Theorem C78_exceptions_refuted : exists t u : tensor nat,
  subslice dev (fresh [3; 2] [10; 20; 30; 40; 50; 60]) 1 2 = Ok t /\
  same t u /\ as_slice t = Ok [30; 40; 50; 60] /\
  get dev t 0 = Ok (Some 50) /\ get dev u 0 = Ok (Some 30) /\
  as_wrap_slice_n dev t 0 4 = Panic /\ as_wrap_slice_n dev u 0 4 = Ok [30; 40; 50; 60] /\
  fold_row dev 1 t None 0 (fun r => [r]) (pure2 (fun r row => r + list_sum row)) tt = Panic /\
  fold_row dev 1 u None 0 (fun r => [r]) (pure2 (fun r row => r + list_sum row)) tt
    = Ok (tt, fresh [1] [180]) /\
  fmt_tensor dev "usize"%string t = Ub /\ fmt_tensor dev "usize"%string u <> Ub /\
  index2 dev t 0 2 = Ub /\ index2 dev u 0 2 = Panic.
Proof. exact c78_exceptions_refuted. Qed.
Print Assumptions C78_exceptions_refuted.

Example C78_example :
  let t := mkTensor (mkShape [2; 2; 0; 0; 0; 0] 2) 1 4 [9; 1; 2; 3; 4; 8] in
  let u := mkTensor (mkShape [2; 2; 0; 0; 0; 0] 2) 0 4 [1; 2; 3; 4] in
  shown t [1; 2; 3; 4] /\ u = copy t [1; 2; 3; 4] /\
  transpose dev t = Ok (mkTensor (mkShape [2; 2; 0; 0; 0; 0] 2) 0 4 [1; 3; 2; 4]) /\
  transpose dev u = transpose dev t /\
  subslice dev t 1 1 = Ok (mkTensor (mkShape [2; 1; 0; 0; 0; 0] 2) 3 2 [9; 1; 2; 3; 4; 8]) /\
  subslice dev u 1 1 = Ok (mkTensor (mkShape [2; 1; 0; 0; 0; 0] 2) 2 2 [1; 2; 3; 4]).
Proof.
  cbv zeta. split; [split; [cbn; lia|]; split; [cbn; lia|reflexivity]|]. split; [reflexivity|].
  repeat split; vm_compute; reflexivity.
Qed.
