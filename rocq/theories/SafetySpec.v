(** * Memory safety of call histories (C22, C23): notions used in the statements *)
From Verif Require Import Base ShapeModel TensorModel AxisModel MapModel ArrayModel NumModel FromModel ArgModel FloatModel InitModel MathModel LinalgModel RandomModel SignalModel IoModel FmtModel Spec LinalgSpec SafetyFacts SafetyFacts2.

(** The results of a call, as a list of tensors. *)
Definition one {A} (x : outcome (tensor A)) : outcome (list (tensor A)) := let* t := x in Ok [t].

Definition res {S A} (x : outcome (S * tensor A)) : outcome (list (tensor A)) := let* '(_, t) := x in Ok [t].

(** A closure of safe Rust has no undefined behaviour of its own (it may panic). *)
Definition sane1 {S X Y} (f : S -> X -> outcome (S * Y)) : Prop := forall st x, f st x <> Ub.

Definition sane2 {S X1 X2 Y} (f : S -> X1 -> X2 -> outcome (S * Y)) : Prop := forall st x y, f st x y <> Ub.

Definition sane3 {S X1 X2 X3 Y} (f : S -> X1 -> X2 -> X3 -> outcome (S * Y)) : Prop := forall st x y z, f st x y z <> Ub.

(** A closure whose result type is an array of [N] values returns [N] values. *)
Definition array1 {S X Y} (N : nat) (f : S -> X -> outcome (S * list Y)) : Prop :=
  forall st x, f st x <> Ub /\ forall st' ys, f st x = Ok (st', ys) -> length ys = N.

(** [call c A x]: the value [x] is the outcome of a safe call that returns tensors with
    elements [A], where every tensor among the arguments is the result of an earlier
    call.  [live c A t]: such calls produced the tensor [t].  A shape argument is any
    value of the Rust type [Shape] ([a_shape]), not only one the library would build.

    The premises beyond that are the exceptions, each of which is refuted below:
    [subslice_flat] with the length 1 and a shape of size 0, [tile] with multiples that
    are not a vector, [fold_row] to rows of 2^32 or more, [matvec] with a right operand of
    rank 0, [matmul] with fewer matrices on the right, and [get] (and with it the Debug
    output) on tensors that do not start at the beginning of their buffer. *)
Inductive call (c : cfg) : forall A : Type, outcome (list (tensor A)) -> Prop :=
(* src/tensor/tensor.rs, from.rs *)
| call_from_vec A (v : list A) s : a_shape s -> call c A (one (from_vec c v s))
| call_of_value A (v : A) : call c A (one (of_value c v))
| call_of_option A (v : option A) : call c A (one (of_option c v))
| call_of_vec A (v : list A) : call c A (one (of_vec c v))
| call_of_rows A n (v : list (list A)) : call c A (one (of_rows c n v))
| call_of_rows2 A m n (v : list (list (list A))) : call c A (one (of_rows2 c m n v))
| call_of_vec2 A (v : list (list A)) : call c A (one (of_vec2 c v))
| call_of_vec3 A (v : list (list (list A))) : call c A (one (of_vec3 c v))
| call_of_vec4 A (v : list (list (list (list A)))) : call c A (one (of_vec4 c v))
| call_of_vec5 A (v : list (list (list (list (list A))))) : call c A (one (of_vec5 c v))
| call_of_vec_rows A n (v : list (list (list A))) : call c A (one (of_vec_rows c n v))
| call_of_rows3 A l m n (v : list (list (list (list A)))) : call c A (one (of_rows3 c l m n v))
| call_of_tensors A (ts : list (tensor A)) : (forall t, In t ts -> live c A t) -> call c A (one (of_tensors c ts))
| call_from_slice A (v : list A) : call c A (one (from_slice c v))
| call_from_merge A (ts : list (tensor A)) s : a_shape s -> (forall t, In t ts -> live c A t) -> call c A (one (from_merge c ts s))
| call_join_vec A (v : list (list A)) : call c A (one (join_vec c v))
| call_append A (t u : tensor A) : live c A t -> live c A u -> call c A (one (append c t u))
| call_subslice A (t : tensor A) o l : live c A t -> call c A (one (subslice c t o l))
| call_subslice_flat A (t : tensor A) o l s : live c A t -> a_shape s -> ~ (l = 1 /\ size c s = Ok 0) -> call c A (one (subslice_flat c t o l (Ok s)))
(* src/tensor/shape.rs *)
| call_reshape A (t : tensor A) s : live c A t -> a_shape s -> call c A (one (reshape c t s))
| call_expand_dims A (t : tensor A) ax : live c A t -> call c A (one (t_expand_dims c t ax))
| call_flatten A (t : tensor A) : live c A t -> call c A (one (flatten c t))
| call_squeeze A (t : tensor A) : live c A t -> call c A (one (t_squeeze c t))
| call_squeeze_axis A (t : tensor A) ax : live c A t -> call c A (one (squeeze_axis c t ax))
(* src/tensor/map.rs, and everything that only passes a closure to it *)
| call_init S V s (f : S -> outcome (S * V)) st : a_shape s -> (forall st, f st <> Ub) -> call c V (res (init c s f st))
| call_init_rindexed S V s (f : S -> list nat -> outcome (S * V)) st : a_shape s -> sane1 f -> call c V (res (init_rindexed c s f st))
| call_map S U V (t : tensor U) (f : S -> U -> outcome (S * V)) st : live c U t -> sane1 f -> call c V (res (map_ c t f st))
| call_map_row S U V N (t : tensor U) (f : S -> list U -> outcome (S * list V)) st : live c U t -> array1 N f -> call c V (res (map_row c N t f st))
| call_map_expand S U V N (t : tensor U) (f : S -> U -> outcome (S * list V)) st : live c U t -> array1 N f -> call c V (res (map_expand c N t f st))
| call_map2 S T U V (t : tensor T) (u : tensor U) (f : S -> T -> U -> outcome (S * V)) st : live c T t -> live c U u -> sane2 f -> call c V (res (map2 c t u f st))
| call_map3 S T U V W (t : tensor T) (u : tensor U) (v : tensor V) (f : S -> T -> U -> V -> outcome (S * W)) st :
    live c T t -> live c U u -> live c V v -> sane3 f -> call c W (res (map3 c t u v f st))
| call_fold S U R V (t : tensor U) (ini : R) (into : R -> V) (f : S -> R -> U -> outcome (S * R)) st : live c U t -> sane2 f -> call c V (res (fold_ c t ini into f st))
| call_fold_axis S U R V (t : tensor U) ax (ini : R) (into : R -> V) (f : S -> R -> U -> outcome (S * R)) st :
    live c U t -> sane2 f -> call c V (res (fold_axis c t ax ini into f st))
| call_fold_row S U R V N (t : tensor U) ax (ini : R) (into : R -> list V) (f : S -> R -> list U -> outcome (S * R)) st :
    (Z.of_nat N < 4294967296)%Z -> live c U t -> sane2 f -> (forall r, length (into r) = N) -> call c V (res (fold_row c N t ax ini into f st))
| call_reduce S T (t : tensor T) (f : S -> T -> T -> outcome (S * T)) st : live c T t -> sane2 f -> call c T (res (reduce c t f st))
| call_reduce_axis S T (t : tensor T) ax (f : S -> T -> T -> outcome (S * T)) st : live c T t -> sane2 f -> call c T (res (reduce_axis c t ax f st))
| call_normalize S T R R1 V (t : tensor T) ax (ini : R) (accum : S -> R -> T -> outcome (S * R)) (complete : S -> R -> outcome (S * R1))
    (norm : S -> R1 -> T -> outcome (S * V)) st :
    live c T t -> sane2 accum -> sane1 complete -> sane2 norm -> call c V (res (normalize c t ax ini accum complete norm st))
(* src/math: operators, element functions, reductions; the element operations may panic *)
| call_unop T V (t : tensor T) (op : T -> outcome V) : live c T t -> (forall x, op x <> Ub) -> call c V (one (unop c t op))
| call_binop_tt T U V (t : tensor T) (u : tensor U) (op : T -> U -> outcome V) :
    live c T t -> live c U u -> (forall x y, op x y <> Ub) -> call c V (one (binop_tt c t u op))
| call_binop_ts T U V (t : tensor T) (y : U) (op : T -> U -> outcome V) : live c T t -> (forall x y, op x y <> Ub) -> call c V (one (binop_ts c t y op))
| call_binop_st T U V (x : T) (t : tensor U) (op : T -> U -> outcome V) : live c U t -> (forall x y, op x y <> Ub) -> call c V (one (binop_st c x t op))
| call_float_map T V (t : tensor T) (f : T -> V) : live c T t -> call c V (one (float_map c t f))
| call_float_map2 T U V (t : tensor T) (u : tensor U) (f : T -> U -> V) : live c T t -> live c U u -> call c V (one (float_map2 c t u f))
| call_float_map3 T U V W (t : tensor T) (u : tensor U) (v : tensor V) (f : T -> U -> V -> W) :
    live c T t -> live c U u -> live c V v -> call c W (one (float_map3 c t u v f))
| call_reduce_hypot F (o : fops F) t : live c F t -> call c F (one (reduce_hypot o c t))
| call_reduce_min F (o : fops F) t : live c F t -> call c F (one (reduce_min o c t))
| call_reduce_min_axis F (o : fops F) t ax : live c F t -> call c F (one (reduce_min_axis o c t ax))
| call_reduce_max F (o : fops F) t : live c F t -> call c F (one (reduce_max o c t))
| call_reduce_max_axis F (o : fops F) t ax : live c F t -> call c F (one (reduce_max_axis o c t ax))
| call_reduce_mean F (o : fops F) t : live c F t -> call c F (one (reduce_mean o c t))
| call_reduce_mean_axis F (o : fops F) t ax : live c F t -> call c F (one (reduce_mean_axis o c t ax))
| call_reduce_std F (o : fops F) t : live c F t -> call c F (one (reduce_std o c t))
| call_reduce_std_axis F (o : fops F) t ax : live c F t -> call c F (one (reduce_std_axis o c t ax))
| call_reduce_variance F (o : fops F) t : live c F t -> call c F (one (reduce_variance o c t))
| call_reduce_variance_axis F (o : fops F) t ax : live c F t -> call c F (one (reduce_variance_axis o c t ax))
| call_reduce_sum T (add : T -> T -> outcome T) t : live c T t -> (forall x y, add x y <> Ub) -> call c T (one (reduce_sum c add t))
| call_reduce_sum_axis T (add : T -> T -> outcome T) t ax : live c T t -> (forall x y, add x y <> Ub) -> call c T (one (reduce_sum_axis c add t ax))
| call_reduce_product T (mul : T -> T -> outcome T) t : live c T t -> (forall x y, mul x y <> Ub) -> call c T (one (reduce_product c mul t))
| call_reduce_product_axis T (mul : T -> T -> outcome T) t ax : live c T t -> (forall x y, mul x y <> Ub) -> call c T (one (reduce_product_axis c mul t ax))
| call_normalize_unit F (o : fops F) t : live c F t -> call c F (one (normalize_unit o c t))
(* src/array *)
| call_transpose A (t : tensor A) : live c A t -> call c A (one (transpose c t))
| call_split A (t : tensor A) ax sec : live c A t -> call c A (split_axis c ax t sec)
| call_unstack A (t : tensor A) ax : live c A t -> call c A (unstack c ax t)
| call_concatenate A (ts : list (tensor A)) : (forall t, In t ts -> live c A t) -> call c A (one (concatenate c ts))
| call_concatenate_axis A (ts : list (tensor A)) ax : (forall t, In t ts -> live c A t) -> call c A (one (concatenate_axis c ax ts))
| call_stack A (ts : list (tensor A)) ax : (forall t, In t ts -> live c A t) -> call c A (one (stack_axis c ax ts))
| call_dstack A (ts : list (tensor A)) : (forall t, In t ts -> live c A t) -> call c A (one (dstack c ts))
| call_hstack A (ts : list (tensor A)) : (forall t, In t ts -> live c A t) -> call c A (one (hstack c ts))
| call_vstack A (ts : list (tensor A)) : (forall t, In t ts -> live c A t) -> call c A (one (vstack c ts))
| call_tile A (t : tensor A) m : live c A t -> live c nat m -> rank (tshape m) = 1 -> call c A (one (tile c t m))
(* src/array/stack.rs: the functions and methods that take argument lists *)
| call_concatenate_args A (x : tensor_list A) : listed c A x -> call c A (one (concatenate_args c x))
| call_concatenate_axis_args A ax (x : tensor_list A) : listed c A x -> call c A (one (concatenate_axis_args c ax x))
| call_stack_args A (x : tensor_list A) : listed c A x -> call c A (one (stack_args c x))
| call_stack_axis_args A ax (x : tensor_list A) : listed c A x -> call c A (one (stack_axis_args c ax x))
| call_dstack_args A (x : tensor_list A) : listed c A x -> call c A (one (dstack_args c x))
| call_hstack_args A (x : tensor_list A) : listed c A x -> call c A (one (hstack_args c x))
| call_vstack_args A (x : tensor_list A) : listed c A x -> call c A (one (vstack_args c x))
| call_m_concatenate A t (x : tensor_list A) : live c A t -> listed c A x -> call c A (one (m_concatenate c t x))
| call_m_concatenate_axis A t ax (x : tensor_list A) : live c A t -> listed c A x -> call c A (one (m_concatenate_axis c t ax x))
| call_m_stack A t (x : tensor_list A) ax : live c A t -> listed c A x -> call c A (one (m_stack c t x ax))
| call_m_dstack A t (x : tensor_list A) : live c A t -> listed c A x -> call c A (one (m_dstack c t x))
| call_m_vstack A t (x : tensor_list A) : live c A t -> listed c A x -> call c A (one (m_vstack c t x))
(* src/init *)
| call_eye T (zero o : T) n : call c T (one (eye c zero o n))
| call_diagflat T (zero : T) t : live c T t -> call c T (one (diagflat c zero t))
| call_tri T (zero o : T) n : call c T (one (tri c zero o n))
| call_tril T (zero : T) t : live c T t -> call c T (one (tril c zero t))
| call_triu T (zero : T) t : live c T t -> call c T (one (triu c zero t))
| call_meshgrid T (ts : list (tensor T)) : (forall t, In t ts -> live c T t) -> call c T (meshgrid c ts)
| call_meshgrid_ij T (ts : list (tensor T)) : (forall t, In t ts -> live c T t) -> call c T (meshgrid_ij c ts)
| call_mgrid F (o : fops F) m n : call c F (mgrid o c m n)
| call_arange F (o : fops F) fuel a b step x : arange o c fuel a b step = Some x -> call c F (one x)
| call_linspace F (o : fops F) s e n : live c F s -> live c F e -> call c F (one (linspace o c s e n))
| call_geomspace F (o : fops F) s e n : live c F s -> live c F e -> call c F (one (geomspace o c s e n))
| call_logspace F (o : fops F) s e n b : live c F s -> live c F e -> call c F (one (logspace o c s e n b))
| call_one_hot F (o : fops F) ix n : call c F (one (one_hot o c ix n))
| call_random_normal F (o : rops F) s opt seed : a_shape s -> call c F (one (random_normal o c s opt seed))
| call_random_uniform F (o : rops F) s opt seed : a_shape s -> call c F (one (random_uniform o c s opt seed))
(* src/linalg *)
| call_matvec F (o : fops F) a x tr : live c F a -> live c F x -> 1 <= rank (tshape x) -> call c F (one (matvec_t o c a x tr))
| call_matmul F (o : fops F) a b tr : live c F a -> live c F b ->
    (forall n, sublen c (tshape a) 0 (rank (tshape a) - 2) = Ok n -> n <= prod (firstn (rank (tshape b) - 2) (dlist (tshape b)))) ->
    call c F (one (matmul_t o c a b tr))
(* src/stats, src/signal, src/io *)
| call_histogram F (o : fops F) t n : live c F t -> call c F (let* '(a, b) := histogram o c t n in Ok [a; b])
| call_histogram2d F (o : fops F) t n : live c F t -> call c F (let* '(a, b, d) := histogram2d o c t n in Ok [a; b; d])
| call_rfft_norm F C (o : sigops F C) t n : live c F t -> call c F (one (rfft_norm o c t n))
| call_hann_window F C (o : sigops F C) n : call c F (one (hann_window o c n))
| call_frame A (t : tensor A) n step : live c A t -> call c A (one (frame c t n step))
| call_decode_wav F (o : rops F) t : live c Z t -> call c F (let* '(a, _) := decode_wav o c t in Ok [a])
| call_decode_wav_rate F (o : rops F) t : live c Z t -> call c Z (let* '(_, r) := decode_wav o c t in Ok [r])
| call_read_file sys : call c Z (let* r := read_file c sys in Ok (match r with Some t => [t] | None => [] end))
with live (c : cfg) : forall A : Type, tensor A -> Prop :=
| live_result A ts t : call c A (Ok ts) -> In t ts -> live c A t
(* Argument lists: tensors, vectors, or values that are converted. *)
with listed (c : cfg) : forall A : Type, tensor_list A -> Prop :=
| listed_tensors A (ts : list (tensor A)) : (forall t, In t ts -> live c A t) -> listed c A (Tensors ts)
| listed_vecs A (vs : list (list A)) : listed c A (Vecs vs)
| listed_tuple A (xs : list (outcome (tensor A))) : (forall x, In x xs -> call c A (one x)) -> listed c A (Tuple xs).

(** Calls that return something else than tensors. *)
Inductive reads (c : cfg) : forall R : Type, outcome R -> Prop :=
| reads_slice A (t : tensor A) : live c A t -> reads c _ (as_slice t)
| reads_wrap A (t : tensor A) k : live c A t -> reads c _ (as_wrap_slice t k)
| reads_wrap_n A (t : tensor A) k n : live c A t -> reads c _ (as_wrap_slice_n c t k n)
| reads_get A (t : tensor A) k : live c A t -> toffset t = 0 -> reads c _ (get c t k)
| reads_fmt A (t : tensor A) s : live c A t -> toffset t = 0 -> reads c _ (fmt_tensor c s t)
| reads_index1 A (t : tensor A) i : live c A t -> reads c _ (index1 t i)
| reads_index2 A (t : tensor A) i j : live c A t -> toffset t = 0 -> reads c _ (index2 c t i j)
| reads_index2_in A (t : tensor A) i j d0 d1 : live c A t -> rdim (tshape t) 1 = Ok d1 -> rdim (tshape t) 0 = Ok d0 -> i < d1 -> j < d0 ->
    reads c _ (index2 c t i j)
| reads_index3 A (t : tensor A) i j k : live c A t -> reads c _ (index3 c t i j k)
| reads_index4 A (t : tensor A) h i j k : live c A t -> reads c _ (index4 c t h i j k)
| reads_index5 A (t : tensor A) g h i j k : live c A t -> reads c _ (index5 c t g h i j k)
| reads_rows A (t : tensor A) : live c A t -> reads c _ (iter_row t)
| reads_eq A eqb (t u : tensor A) : live c A t -> live c A u -> reads c _ (tensor_eqb eqb t u)
| reads_cmp A cmp (t u : tensor A) : live c A t -> live c A u -> reads c _ (tensor_partial_cmp cmp t u).

Scheme call_ind2 := Induction for call Sort Prop
with live_ind2 := Induction for live Sort Prop
with listed_ind2 := Induction for listed Sort Prop.
