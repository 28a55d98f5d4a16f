(** * Build profiles: agreement of outcomes, and the programs it is about *)
From Coq Require String.
From Verif Require Import Base ShapeModel TensorModel AxisModel MapModel ArrayModel NumModel
  FromModel ArgModel FloatModel InitModel MathModel LinalgModel RandomModel SignalModel IoModel
  FmtModel.

(** [agree x y]: [y] is the same outcome as [x], unless [x] is a panic. *)
Definition agree {A} (x y : outcome A) : Prop := x = Panic \/ y = x.

(** Two builds that differ in the overflow checks only; [z] says whether the allocator
    accepts requests for zero bytes. *)
Definition checked (z : bool) : cfg := mkCfg true z.
Definition unchecked (z : bool) : cfg := mkCfg false z.

(** [program h]: [h] is a program that uses the library; [h c] is its outcome in the build
    [c].  A program may compute anything that does not depend on the build
    ([prog_const], which also covers the functions of the library that the model gives no
    [cfg]), run one program and go on with its result ([prog_bind]), do integer arithmetic,
    run loops, and call the functions of the library.  The closures it passes are programs
    too. *)
Inductive program : forall R : Type, (cfg -> outcome R) -> Prop :=
| prog_const R (x : outcome R) : program R (fun _ => x)
| prog_bind Q R (h : cfg -> outcome Q) (k : cfg -> Q -> outcome R) :
    program Q h -> (forall q, program R (fun c => k c q)) ->
    program R (fun c => bind (h c) (k c))
| prog_arith m v : program nat (fun c => arith c m v)
| prog_zarith m v : program Z (fun c => zarith c m v)
| prog_iadd a b : program Z (fun c => iadd c a b)
| prog_isub a b : program Z (fun c => isub c a b)
| prog_for S n (body : cfg -> nat -> S -> outcome S) s :
    (forall i s, program S (fun c => body c i s)) -> program S (fun c => for_ n (body c) s)
| prog_for_each A S (l : list A) (body : cfg -> A -> S -> outcome S) s :
    (forall a s, program S (fun c => body c a s)) -> program S (fun c => for_each l (body c) s)
| prog_size (s : shape) :
    program nat (fun c => size c s)
| prog_dim (s : shape) (i : nat) :
    program nat (fun c => dim c s i)
| prog_replace (s : shape) (i value : nat) :
    program shape (fun c => replace c s i value)
| prog_idim (s : shape) (i : Z) :
    program nat (fun c => idim c s i)
| prog_len (s : shape) :
    program nat (fun c => len c s)
| prog_batch_len (s : shape) (base_rank : nat) :
    program nat (fun c => batch_len c s base_rank)
| prog_broadcast (a b : shape) :
    program nat (fun c => broadcast c a b)
| prog_sublen (s : shape) (start end_ : nat) :
    program nat (fun c => sublen c s start end_)
| prog_rsublen (s : shape) (start end_ : nat) :
    program nat (fun c => rsublen c s start end_)
| prog_broadcast_min (a : shape) (a_min : nat) (b : shape) (b_min : nat) :
    program nat (fun c => broadcast_min c a a_min b b_min)
| prog_as_vec (s : shape) :
    program (list nat) (fun c => as_vec c s)
| prog_expand_dims (s : shape) (axis : Z) :
    program shape (fun c => expand_dims c s axis)
| prog_squeeze (s : shape) (axis : option Z) :
    program shape (fun c => squeeze c s axis)
| prog_pop (s : shape) :
    program shape (fun c => pop c s)
| prog_rinsert (s : shape) (axis len : nat) :
    program shape (fun c => rinsert c s axis len)
| prog_insert (s : shape) (axis len : nat) :
    program shape (fun c => insert c s axis len)
| prog_tensor_new (A : Type) (data : list A) (s : shape) :
    program (tensor A) (fun c => tensor_new c data s)
| prog_from_vec (A : Type) (v : list A) (s : shape) :
    program (tensor A) (fun c => from_vec c v s)
| prog_from_scalar (A : Type) (v : A) :
    program (tensor A) (fun c => from_scalar c v)
| prog_get (A : Type) (t : tensor A) (offset : nat) :
    program (option A) (fun c => get c t offset)
| prog_as_wrap_slice_n (A : Type) (t : tensor A) (offset len : nat) :
    program (list A) (fun c => as_wrap_slice_n c t offset len)
| prog_subslice_flat (A : Type) (t : tensor A) (offset len : nat) (s : cfg -> outcome shape) :
    program shape s -> program (tensor A) (fun c => subslice_flat c t offset len (s c))
| prog_subslice (A : Type) (t : tensor A) (offset len : nat) :
    program (tensor A) (fun c => subslice c t offset len)
| prog_from_slice (A : Type) (data : list A) :
    program (tensor A) (fun c => from_slice c data)
| prog_from_merge (A : Type) (ts : list (tensor A)) (s : shape) :
    program (tensor A) (fun c => from_merge c ts s)
| prog_append (A : Type) (t u : tensor A) :
    program (tensor A) (fun c => append c t u)
| prog_join_vec (A : Type) (v : list (list A)) :
    program (tensor A) (fun c => join_vec c v)
| prog_index3 (A : Type) (t : tensor A) (i j k : nat) :
    program A (fun c => index3 c t i j k)
| prog_index4 (A : Type) (t : tensor A) (h i j k : nat) :
    program A (fun c => index4 c t h i j k)
| prog_index5 (A : Type) (t : tensor A) (g h i j k : nat) :
    program A (fun c => index5 c t g h i j k)
| prog_reshape (A : Type) (t : tensor A) (s : shape) :
    program (tensor A) (fun c => reshape c t s)
| prog_t_expand_dims (A : Type) (t : tensor A) (axis : option Z) :
    program (tensor A) (fun c => t_expand_dims c t axis)
| prog_flatten (A : Type) (t : tensor A) :
    program (tensor A) (fun c => flatten c t)
| prog_t_squeeze (A : Type) (t : tensor A) :
    program (tensor A) (fun c => t_squeeze c t)
| prog_squeeze_axis (A : Type) (t : tensor A) (axis : option Z) :
    program (tensor A) (fun c => squeeze_axis c t axis)
| prog_of_value (A : Type) (v : A) :
    program (tensor A) (fun c => of_value c v)
| prog_of_option (A : Type) (v : option A) :
    program (tensor A) (fun c => of_option c v)
| prog_of_vec (A : Type) (v : list A) :
    program (tensor A) (fun c => of_vec c v)
| prog_of_rows (A : Type) (n : nat) (v : list (list A)) :
    program (tensor A) (fun c => of_rows c n v)
| prog_of_rows2 (A : Type) (m n : nat) (v : list (list (list A))) :
    program (tensor A) (fun c => of_rows2 c m n v)
| prog_of_vec2 (A : Type) (v : list (list A)) :
    program (tensor A) (fun c => of_vec2 c v)
| prog_of_vec3 (A : Type) (v : list (list (list A))) :
    program (tensor A) (fun c => of_vec3 c v)
| prog_of_vec4 (A : Type) (v : list (list (list (list A)))) :
    program (tensor A) (fun c => of_vec4 c v)
| prog_of_tensors (A : Type) (ts : list (tensor A)) :
    program (tensor A) (fun c => of_tensors c ts)
| prog_axis_from_rank (axis : option Z) (rank : nat) :
    program nat (fun c => axis_from_rank c axis rank)
| prog_axis_reduce (axis : option Z) (s : shape) :
    program (shape * nat * nat * nat) (fun c => axis_reduce c axis s)
| prog_axis_reduce_row (axis : option Z) (s : shape) (ncols : nat) :
    program (shape * nat * nat * nat) (fun c => axis_reduce_row c axis s ncols)
| prog_init (S V : Type) (s : shape) (f : cfg -> S -> outcome (S * V)) (st : S) :
    (forall x, program (S * V) (fun c => f c x)) -> program (S * tensor V) (fun c => init c s (f c) st)
| prog_init_rindexed (S V : Type) (s : shape) (f : cfg -> S -> list nat -> outcome (S * V))
     (st : S) :
    (forall x y, program (S * V) (fun c => f c x y)) -> program (S * tensor V) (fun c => init_rindexed c s (f c) st)
| prog_map_ (S U V : Type) (a : tensor U) (f : cfg -> S -> U -> outcome (S * V)) (st : S) :
    (forall x y, program (S * V) (fun c => f c x y)) -> program (S * tensor V) (fun c => map_ c a (f c) st)
| prog_map_row (S U V : Type) (N : nat) (a : tensor U) (f : cfg -> S -> list U -> outcome
     (S * list V)) (st : S) :
    (forall x y, program (S * list V) (fun c => f c x y)) -> program (S * tensor V) (fun c => map_row c N a (f c) st)
| prog_map_expand (S U V : Type) (N : nat) (a : tensor U) (f : cfg -> S -> U -> outcome
     (S * list V)) (st : S) :
    (forall x y, program (S * list V) (fun c => f c x y)) -> program (S * tensor V) (fun c => map_expand c N a (f c) st)
| prog_map2 (S T U V : Type) (a : tensor T) (b : tensor U) (f : cfg -> S -> T -> U -> outcome
     (S * V)) (st : S) :
    (forall x y z, program (S * V) (fun c => f c x y z)) -> program (S * tensor V) (fun c => map2 c a b (f c) st)
| prog_map3 (S T U V W : Type) (ta : tensor T) (tb : tensor U) (tc : tensor V)
     (f : cfg -> S -> T -> U -> V -> outcome (S * W)) (st : S) :
    (forall w x y z, program (S * W) (fun c => f c w x y z)) -> program (S * tensor W) (fun c => map3 c ta tb tc (f c) st)
| prog_fold_ (S U R V : Type) (t : tensor U) (ini : R) (into : R -> V)
     (f : cfg -> S -> R -> U -> outcome (S * R)) (st : S) :
    (forall x y z, program (S * R) (fun c => f c x y z)) -> program (S * tensor V) (fun c => fold_ c t ini into (f c) st)
| prog_fold_axis (S T R V : Type) (t : tensor T) (axis : option Z) (ini : R) (into : R -> V)
     (f : cfg -> S -> R -> T -> outcome (S * R)) (st : S) :
    (forall x y z, program (S * R) (fun c => f c x y z)) -> program (S * tensor V) (fun c => fold_axis c t axis ini into (f c) st)
| prog_fold_row (S T R V : Type) (N : nat) (t : tensor T) (axis : option Z) (ini : R)
     (into : R -> list V) (f : cfg -> S -> R -> list T -> outcome (S * R)) (st : S) :
    (forall x y z, program (S * R) (fun c => f c x y z)) -> program (S * tensor V) (fun c => fold_row c N t axis ini into (f c) st)
| prog_reduce (S T : Type) (t : tensor T) (f : cfg -> S -> T -> T -> outcome (S * T)) (st : S) :
    (forall x y z, program (S * T) (fun c => f c x y z)) -> program (S * tensor T) (fun c => reduce c t (f c) st)
| prog_reduce_axis (S T : Type) (t : tensor T) (axis : option Z)
     (f : cfg -> S -> T -> T -> outcome (S * T)) (st : S) :
    (forall x y z, program (S * T) (fun c => f c x y z)) -> program (S * tensor T) (fun c => reduce_axis c t axis (f c) st)
| prog_normalize (S T R R1 V : Type) (t : tensor T) (axis : option Z) (ini : R)
     (accum : cfg -> S -> R -> T -> outcome (S * R)) (complete : cfg -> S -> R -> outcome (S * R1)) (norm : cfg -> S -> R1 -> T -> outcome (S * V)) (st : S) :
    (forall x y z, program (S * R) (fun c => accum c x y z)) -> (forall x y, program (S * R1) (fun c => complete c x y)) -> (forall x y z, program (S * V) (fun c => norm c x y z)) -> program (S * tensor V) (fun c => normalize c t axis ini (accum c) (complete c) (norm c) st)
| prog_transpose (A : Type) (t : tensor A) :
    program (tensor A) (fun c => transpose c t)
| prog_split_axis (A : Type) (axis : option Z) (t : tensor A) (s : sections) :
    program (list (tensor A)) (fun c => split_axis c axis t s)
| prog_split (A : Type) (t : tensor A) (s : sections) :
    program (list (tensor A)) (fun c => split c t s)
| prog_vsplit (A : Type) (t : tensor A) (s : sections) :
    program (list (tensor A)) (fun c => vsplit c t s)
| prog_hsplit (A : Type) (t : tensor A) (s : sections) :
    program (list (tensor A)) (fun c => hsplit c t s)
| prog_dsplit (A : Type) (t : tensor A) (s : sections) :
    program (list (tensor A)) (fun c => dsplit c t s)
| prog_concatenate (A : Type) (args : list (tensor A)) :
    program (tensor A) (fun c => concatenate c args)
| prog_concatenate_axis (A : Type) (axis : option Z) (args : list (tensor A)) :
    program (tensor A) (fun c => concatenate_axis c axis args)
| prog_stack (A : Type) (x : list (tensor A)) :
    program (tensor A) (fun c => stack c x)
| prog_stack_axis (A : Type) (axis : option Z) (x : list (tensor A)) :
    program (tensor A) (fun c => stack_axis c axis x)
| prog_dstack (A : Type) (x : list (tensor A)) :
    program (tensor A) (fun c => dstack c x)
| prog_hstack (A : Type) (x : list (tensor A)) :
    program (tensor A) (fun c => hstack c x)
| prog_vstack (A : Type) (x : list (tensor A)) :
    program (tensor A) (fun c => vstack c x)
| prog_unstack (A : Type) (axis : option Z) (t : tensor A) :
    program (list (tensor A)) (fun c => unstack c axis t)
| prog_tile (A : Type) (t : tensor A) (multiples : tensor nat) :
    program (tensor A) (fun c => tile c t multiples)
| prog_unop (T V : Type) (t : tensor T) (op : cfg -> T -> outcome V) :
    (forall x, program V (fun c => op c x)) -> program (tensor V) (fun c => unop c t (op c))
| prog_binop_tt (T U V : Type) (a : tensor T) (b : tensor U) (op : cfg -> T -> U -> outcome V) :
    (forall x y, program V (fun c => op c x y)) ->
    program (tensor V) (fun c => binop_tt c a b (op c))
| prog_binop_ts (T U V : Type) (t : tensor T) (y : U) (op : cfg -> T -> U -> outcome V) :
    (forall x y, program V (fun c => op c x y)) ->
    program (tensor V) (fun c => binop_ts c t y (op c))
| prog_binop_st (T U V : Type) (x : T) (t : tensor U) (op : cfg -> T -> U -> outcome V) :
    (forall x y, program V (fun c => op c x y)) ->
    program (tensor V) (fun c => binop_st c x t (op c))
| prog_of_vec_rows (A : Type) (n : nat) (v : list (list (list A))) :
    program (tensor A) (fun c => of_vec_rows c n v)
| prog_of_vec5 (A : Type) (v : list (list (list (list (list A))))) :
    program (tensor A) (fun c => of_vec5 c v)
| prog_of_rows3 (A : Type) (l m n : nat) (v : list (list (list (list A)))) :
    program (tensor A) (fun c => of_rows3 c l m n v)
| prog_of_str (A : Type) (text : A) :
    program (tensor A) (fun c => of_str c text)
| prog_of_tensor_vec (A : Type) (ts : list (tensor A)) :
    program (tensor A) (fun c => of_tensor_vec c ts)
| prog_concatenate_args (A : Type) (x : tensor_list A) :
    program (tensor A) (fun c => concatenate_args c x)
| prog_concatenate_axis_args (A : Type) (axis : option Z) (x : tensor_list A) :
    program (tensor A) (fun c => concatenate_axis_args c axis x)
| prog_stack_args (A : Type) (x : tensor_list A) :
    program (tensor A) (fun c => stack_args c x)
| prog_stack_axis_args (A : Type) (axis : option Z) (x : tensor_list A) :
    program (tensor A) (fun c => stack_axis_args c axis x)
| prog_dstack_args (A : Type) (x : tensor_list A) :
    program (tensor A) (fun c => dstack_args c x)
| prog_hstack_args (A : Type) (x : tensor_list A) :
    program (tensor A) (fun c => hstack_args c x)
| prog_vstack_args (A : Type) (x : tensor_list A) :
    program (tensor A) (fun c => vstack_args c x)
| prog_m_concatenate (A : Type) (t : tensor A) (others : tensor_list A) :
    program (tensor A) (fun c => m_concatenate c t others)
| prog_m_concatenate_axis (A : Type) (t : tensor A) (axis : option Z) (others : tensor_list A) :
    program (tensor A) (fun c => m_concatenate_axis c t axis others)
| prog_m_stack (A : Type) (t : tensor A) (others : tensor_list A) (axis : option Z) :
    program (tensor A) (fun c => m_stack c t others axis)
| prog_m_dstack (A : Type) (t : tensor A) (others : tensor_list A) :
    program (tensor A) (fun c => m_dstack c t others)
| prog_m_vstack (A : Type) (t : tensor A) (others : tensor_list A) :
    program (tensor A) (fun c => m_vstack c t others)
| prog_eye (T : Type) (zero one : T) (n : nat) :
    program (tensor T) (fun c => eye c zero one n)
| prog_diagflat (T : Type) (zero : T) (diag : tensor T) :
    program (tensor T) (fun c => diagflat c zero diag)
| prog_tri (T : Type) (zero one : T) (n : nat) :
    program (tensor T) (fun c => tri c zero one n)
| prog_tril (T : Type) (zero : T) (t : tensor T) :
    program (tensor T) (fun c => tril c zero t)
| prog_triu (T : Type) (zero : T) (t : tensor T) :
    program (tensor T) (fun c => triu c zero t)
| prog_meshgrid (T : Type) (axes : list (tensor T)) :
    program (list (tensor T)) (fun c => meshgrid c axes)
| prog_meshgrid_ij (T : Type) (axes : list (tensor T)) :
    program (list (tensor T)) (fun c => meshgrid_ij c axes)
| prog_arange (F : Type) (o : fops F) (fuel : nat) (start end_ step : F) (h : cfg -> outcome
     (tensor F)) :
    (forall c, arange o c fuel start end_ step = Some (h c)) -> program (tensor F) h
| prog_linspace (F : Type) (o : fops F) (start end_ : tensor F) (len : nat) :
    program (tensor F) (fun c => linspace o c start end_ len)
| prog_geomspace (F : Type) (o : fops F) (start end_ : tensor F) (len : nat) :
    program (tensor F) (fun c => geomspace o c start end_ len)
| prog_logspace (F : Type) (o : fops F) (start end_ : tensor F) (len : nat) (base : option F) :
    program (tensor F) (fun c => logspace o c start end_ len base)
| prog_one_hot (F : Type) (o : fops F) (indices : list nat) (depth : nat) :
    program (tensor F) (fun c => one_hot o c indices depth)
| prog_mgrid (F : Type) (o : fops F) (M N : nat) :
    program (list (tensor F)) (fun c => mgrid o c M N)
| prog_reduce_hypot (F : Type) (o : fops F) (t : tensor F) :
    program (tensor F) (fun c => reduce_hypot o c t)
| prog_reduce_min (F : Type) (o : fops F) (t : tensor F) :
    program (tensor F) (fun c => reduce_min o c t)
| prog_reduce_min_axis (F : Type) (o : fops F) (t : tensor F) (axis : option Z) :
    program (tensor F) (fun c => reduce_min_axis o c t axis)
| prog_reduce_max (F : Type) (o : fops F) (t : tensor F) :
    program (tensor F) (fun c => reduce_max o c t)
| prog_reduce_max_axis (F : Type) (o : fops F) (t : tensor F) (axis : option Z) :
    program (tensor F) (fun c => reduce_max_axis o c t axis)
| prog_reduce_mean (F : Type) (o : fops F) (t : tensor F) :
    program (tensor F) (fun c => reduce_mean o c t)
| prog_reduce_mean_axis (F : Type) (o : fops F) (t : tensor F) (axis : option Z) :
    program (tensor F) (fun c => reduce_mean_axis o c t axis)
| prog_reduce_std (F : Type) (o : fops F) (t : tensor F) :
    program (tensor F) (fun c => reduce_std o c t)
| prog_reduce_std_axis (F : Type) (o : fops F) (t : tensor F) (axis : option Z) :
    program (tensor F) (fun c => reduce_std_axis o c t axis)
| prog_reduce_variance (F : Type) (o : fops F) (t : tensor F) :
    program (tensor F) (fun c => reduce_variance o c t)
| prog_reduce_variance_axis (F : Type) (o : fops F) (t : tensor F) (axis : option Z) :
    program (tensor F) (fun c => reduce_variance_axis o c t axis)
| prog_reduce_sum (T : Type) (add : cfg -> T -> T -> outcome T) (t : tensor T) :
    (forall x y, program T (fun c => add c x y)) ->
    program (tensor T) (fun c => reduce_sum c (add c) t)
| prog_reduce_sum_axis (T : Type) (add : cfg -> T -> T -> outcome T) (t : tensor T)
     (axis : option Z) :
    (forall x y, program T (fun c => add c x y)) ->
    program (tensor T) (fun c => reduce_sum_axis c (add c) t axis)
| prog_reduce_product (T : Type) (mul : cfg -> T -> T -> outcome T) (t : tensor T) :
    (forall x y, program T (fun c => mul c x y)) ->
    program (tensor T) (fun c => reduce_product c (mul c) t)
| prog_reduce_product_axis (T : Type) (mul : cfg -> T -> T -> outcome T) (t : tensor T)
     (axis : option Z) :
    (forall x y, program T (fun c => mul c x y)) ->
    program (tensor T) (fun c => reduce_product_axis c (mul c) t axis)
| prog_normalize_unit (F : Type) (o : fops F) (t : tensor F) :
    program (tensor F) (fun c => normalize_unit o c t)
| prog_float_map (T V : Type) (t : tensor T) (f : T -> V) :
    program (tensor V) (fun c => float_map c t f)
| prog_float_map2 (T U V : Type) (a : tensor T) (b : tensor U) (f : T -> U -> V) :
    program (tensor V) (fun c => float_map2 c a b f)
| prog_float_map3 (T U V W : Type) (ta : tensor T) (tb : tensor U) (tc : tensor V)
     (f : T -> U -> V -> W) :
    program (tensor W) (fun c => float_map3 c ta tb tc f)
| prog_histogram (F : Type) (o : fops F) (data : tensor F) (n_bins : option nat) :
    program (tensor F * tensor F) (fun c => histogram o c data n_bins)
| prog_histogram2d (F : Type) (o : fops F) (data : tensor F) (n_bins : option nat) :
    program (tensor F * tensor F * tensor F) (fun c => histogram2d o c data n_bins)
| prog_matmul_t (F : Type) (o : fops F) (a b : tensor F) (tr : trans) :
    program (tensor F) (fun c => matmul_t o c a b tr)
| prog_matmul (F : Type) (o : fops F) (a b : tensor F) :
    program (tensor F) (fun c => matmul o c a b)
| prog_matvec_t (F : Type) (o : fops F) (a x : tensor F) (tr : trans) :
    program (tensor F) (fun c => matvec_t o c a x tr)
| prog_matvec (F : Type) (o : fops F) (a x : tensor F) :
    program (tensor F) (fun c => matvec o c a x)
| prog_random_normal (F : Type) (o : rops F) (s : shape) (opt : normal_opt F) (entropy : Z) :
    program (tensor F) (fun c => random_normal o c s opt entropy)
| prog_random_uniform (F : Type) (o : rops F) (s : shape) (opt : uniform_opt F) (entropy : Z) :
    program (tensor F) (fun c => random_uniform o c s opt entropy)
| prog_hann_window (F C : Type) (o : sigops F C) (len : nat) :
    program (tensor F) (fun c => hann_window o c len)
| prog_rfft_norm (F C : Type) (o : sigops F C) (t : tensor F) (fft_length : option nat) :
    program (tensor F) (fun c => rfft_norm o c t fft_length)
| prog_frame (A : Type) (x : tensor A) (len step : nat) :
    program (tensor A) (fun c => frame c x len step)
| prog_slice_usize (A : Type) (t : tensor A) (i : nat) :
    program (tensor A) (fun c => slice_usize c t i)
| prog_slice_pair (A : Type) (t : tensor A) (i j : nat) :
    program (tensor A) (fun c => slice_pair c t i j)
| prog_decode_wav (F : Type) (o : rops F) (contents : tensor Z) :
    program (tensor F * tensor Z) (fun c => decode_wav o c contents)
| prog_read_file (sys : os) :
    program (option (tensor Z)) (fun c => read_file c sys)
| prog_fmt_tensor (A : Type) (name : String.string) (t : tensor A) :
    program (list (piece A)) (fun c => fmt_tensor c name t)
| prog_index2 (A : Type) (t : tensor A) (i j : nat) :
    program A (fun c => index2 c t i j).
