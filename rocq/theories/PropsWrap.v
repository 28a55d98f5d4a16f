(** * C74 and C75: constant tensors; accessors and forwarding methods *)
From Coq Require Import String Reals.
From Verif Require Import Base Spec ShapeModel TensorModel AxisModel MapModel NumModel FloatModel MathModel InitModel
  ArrayModel RandomModel FmtModel WrapModel AlgSpec MathSpec WrapProofs.

(** ** C74 *)

(** [fill], [ones], [zeros] and [Tensor::init_default]: every element is the value. *)
Theorem C74_constant {T} c ds (v : T) :
  supported ds -> can_alloc c (prod ds) ->
  let t := fresh ds (repeat v (prod ds)) in
  fill c (canon ds) v = Ok t /\ ones c v (canon ds) = Ok t /\ zeros c v (canon ds) = Ok t /\
  init_default c v (canon ds) = Ok t /\
  repr t ds (repeat v (prod ds)) /\ forall idx, in_shape ds idx -> elem ds (repeat v (prod ds)) idx = Some v.
Proof. exact (@c74_constant T c ds v). Qed.
Print Assumptions C74_constant.

(** [scalar(v)] is the scalar constant. *)
Theorem C74_scalar {T} c (v : T) : scalar_tensor c v = Ok (fresh [] [v]) /\ scalar_tensor c v = fill c (canon []) v.
Proof. exact (@c74_scalar T c v). Qed.
Print Assumptions C74_scalar.

(** An elementwise function of a constant tensor is the constant of the result. *)
Theorem C74_map {T V} c ds (v : T) (f : T -> V) :
  supported ds -> can_alloc c (prod ds) ->
  (let* t := fill c (canon ds) v in unop c t (ok1 f)) = fill c (canon ds) (f v).
Proof. exact (@c74_map T V c ds v f). Qed.
Print Assumptions C74_map.

(** An operator on two constant tensors gives the constant tensor of the larger shape. *)
Theorem C74_binop {T U V} c da db dl (v : T) (w : U) (f : T -> U -> V) :
  supported da -> supported db -> prod da <> 0 -> prod db <> 0 ->
  (suffix db da /\ dl = da) \/ (suffix da db /\ dl = db) ->
  (let* a := fill c (canon da) v in let* b := fill c (canon db) w in binop_tt c a b (ok2 f)) =
  fill c (canon dl) (f v w).
Proof. exact (@c74_binop T U V c da db dl v w f). Qed.
Print Assumptions C74_binop.

(** Adding zeros, multiplying by ones: a constant tensor of a neutral element, of any
    trailing part of the shape, changes nothing. *)
Theorem C74_unit {T U} c (t : tensor T) ds db xs (e : U) (f : T -> U -> T) :
  repr t ds xs -> xs <> [] -> suffix db ds -> prod db <> 0 -> (forall x, f x e = x) ->
  (let* z := zeros c e (canon db) in binop_tt c t z (ok2 f)) = Ok (fresh ds xs) /\
  (let* z := ones c e (canon db) in binop_tt c t z (ok2 f)) = Ok (fresh ds xs).
Proof. exact (@c74_unit T U c t ds db xs e f). Qed.
Print Assumptions C74_unit.

(** Reshaping gives the constant tensor of the new shape. *)
Theorem C74_reshape {T} c ds ds' (v : T) :
  supported ds -> supported ds' -> can_alloc c (prod ds) -> prod ds = prod ds' ->
  (let* t := fill c (canon ds) v in reshape c t (canon ds')) = fill c (canon ds') v.
Proof. exact (@c74_reshape T c ds ds' v). Qed.
Print Assumptions C74_reshape.

(** Transposing gives the constant tensor of the transposed shape. *)
Theorem C74_transpose {T} c ds m n (v : T) :
  supported (ds ++ [m; n]) -> prod (ds ++ [m; n]) <> 0 ->
  (let* t := fill c (canon (ds ++ [m; n])) v in transpose c t) = fill c (canon (ds ++ [n; m])) v.
Proof. exact (@c74_transpose T c ds m n v). Qed.
Print Assumptions C74_transpose.

(** Over the reals the sum of a constant tensor is the number of elements times the value. *)
Theorem C74_sum c ds (v : R) :
  supported ds -> prod ds <> 0 ->
  (let* t := fill c (canon ds) v in reduce_sum c (ok2 Rplus) t) = Ok (fresh [] [(INR (prod ds) * v)%R]).
Proof. exact (@c74_sum c ds v). Qed.
Print Assumptions C74_sum.

(** In [f32] counting with ones is exact up to 2^24 elements and then stops: the sum of
    more ones is 2^24. *)
Theorem C74_count_b32 ln_ exp_ pow_ c ds :
  let o := b32_ops ln_ exp_ pow_ in
  supported ds -> prod ds <> 0 ->
  (let* t := ones c (fone o) (canon ds) in reduce_sum c (ok2 (fadd o)) t) =
  Ok (fresh [] [b32_of_Z (Z.min (Z.of_nat (prod ds)) (2 ^ 24)) 0]).
Proof. exact (@c74_count_b32 ln_ exp_ pow_ c ds). Qed.
Print Assumptions C74_count_b32.

Example C74_example :
  fill dev (canon [2; 3]) 7 = Ok (fresh [2; 3] [7; 7; 7; 7; 7; 7]) /\
  (let* t := fill dev (canon [2; 3]) 7 in transpose dev t) = fill dev (canon [3; 2]) 7 /\
  (let* t := fill dev (canon [2; 3]) 7 in reduce_sum dev (ok2 Nat.add) t) = Ok (fresh [] [42]) /\
  (let* z := ones dev 1 (canon [3]) in binop_tt dev (fresh [2; 3] [4; 5; 6; 7; 8; 9]) z (ok2 Nat.mul)) =
    Ok (fresh [2; 3] [4; 5; 6; 7; 8; 9]).
Proof. repeat split. Qed.

(** ** C75 *)

(** What the accessors of a tensor return.  [dim] panics from the rank on; [rdim] panics
    only from 6 on and is 0 in between.  [len] panics on a scalar. *)
Theorem C75_accessors {A} c (t : tensor A) ds xs :
  repr t ds xs ->
  t_rank t = length ds /\ t_size t = prod ds /\ t_shape t = canon ds /\
  (forall i, i < length ds -> t_dim c t i = Ok (nth i ds 0) /\ t_rdim t i = Ok (nth (length ds - 1 - i) ds 0)) /\
  (forall i, length ds <= i -> (Z.of_nat i < 2 ^ 63)%Z -> t_dim c t i = Panic) /\
  (forall i, length ds <= i -> t_rdim t i = if i <? 6 then Ok 0 else Panic) /\
  t_len c t = match ds with [] => Panic | d :: _ => Ok d end /\
  t_cols t = Ok (last ds 0) /\ t_rows t = Ok (last (removelast ds) 0) /\
  deref t = Ok xs /\ into_iter t = Ok xs /\ as_ref_slice t = Ok xs /\ as_ref_tensor t = t /\
  t_offset t + t_size t <= data_len t.
Proof. exact (@c75_accessors A c t ds xs). Qed.
Print Assumptions C75_accessors.

(** Release builds: [dim] accepts a position near 2^64 and returns an unused slot. *)
Theorem C75_dim_refuted : exists i, 2 <= i /\ t_dim release (fresh [2; 3] [1; 2; 3; 4; 5; 6]) i = Ok 0.
Proof. exact (@c75_dim_refuted). Qed.
Print Assumptions C75_dim_refuted.

(** The [Debug] text of a shape, and that different shapes print differently. *)
Theorem C75_debug_shape c ds ds' :
  length ds <= 6 -> length ds' <= 6 ->
  fmt_shape c (canon ds) = Ok ("Shape" ++ show_vec ds)%string /\
  (fmt_shape c (canon ds) = fmt_shape c (canon ds') -> ds = ds').
Proof. exact (@c75_debug_shape c ds ds'). Qed.
Print Assumptions C75_debug_shape.

(** [Axis] and its conversions. *)
Theorem C75_axis c a s :
  get_axis (axis_of_isize a) = Some a /\ get_axis (axis_new a) = Some a /\ axis_of_option None = None /\
  (forall x, get_axis (axis_of_option x) = x /\ get_axis (axis_opt x) = x) /\
  (forall x, axis_with_shape c x s = axis_from_rank c x (rank s)).
Proof. exact (@c75_axis c a s). Qed.
Print Assumptions C75_axis.

(** The methods that forward do so with the arguments in the right order. *)
Theorem C75_methods {A} c (t u : tensor A) (m : tensor nat) (z e : A) n s :
  m_tile c t m = tile c t m /\ m_transpose c t = transpose c t /\ m_t c t = transpose c t /\
  m_eye c z e n = eye c z e n /\ m_identity c z e n = eye c z e n /\ m_tri c z e n = tri c z e n /\
  m_diagflat c z t = diagflat c z t /\ m_tril c z t = tril c z t /\ m_triu c z t = triu c z t /\
  m_meshgrid c t u = meshgrid c [t; u] /\ m_meshgrid_ij c t u = meshgrid_ij c [t; u] /\
  m_zeros c z s = zeros c z s /\ m_ones c e s = ones c e s /\ m_fill c s z = fill c s z.
Proof. exact (@c75_methods A c t u m z e n s). Qed.
Print Assumptions C75_methods.

(** The same for the methods of float tensors and for the options of [logspace]. *)
Theorem C75_methods_float {F} (o : fops F) (r : rops F) c (t u : tensor F) x y z fuel n l s p q ent :
  m_random_normal r c s p ent = random_normal r c s p ent /\
  m_random_uniform r c s q ent = random_uniform r c s q ent /\
  m_arange o c fuel x y z = arange o c fuel x y z /\ m_linspace o c t u n = linspace o c t u n /\
  m_geomspace o c t u n = geomspace o c t u n /\ m_one_hot o c l n = one_hot o c l n /\
  logspace_fn o c t u n = logspace o c t u n (Some (fof o 10)) /\
  m_logspace o c t u n = logspace o c t u n (Some (fof o 10)) /\
  logspace o c t u n logspace_default = logspace o c t u n (Some (fof o 10)) /\
  logspace o c t u n (logspace_base x) = logspace o c t u n (Some x) /\
  logspace o c t u n (logspace_of_f32 x) = logspace o c t u n (Some x) /\
  logspace o c t u n (logspace_of_option (Some x)) = logspace o c t u n (Some x).
Proof. exact (@c75_methods_float F o r c t u x y z fuel n l s p q ent). Qed.
Print Assumptions C75_methods_float.

(** [re] and [im] take a complex tensor apart, and nothing is lost. *)
Theorem C75_complex {T} c (t : tensor (complex T)) ds xs :
  repr t ds xs -> xs <> [] ->
  re c t = Ok (fresh ds (map cre xs)) /\ im c t = Ok (fresh ds (map cim xs)) /\
  (let* a := re c t in let* b := im c t in binop_tt c a b (ok2 mkComplex)) = Ok (fresh ds xs).
Proof. exact (@c75_complex T c t ds xs). Qed.
Print Assumptions C75_complex.

(** [to_polar] and [from_polar] are inverse to each other if the functions on elements are. *)
Theorem C75_polar {T} c polar cart (t : tensor (complex T)) ds xs :
  repr t ds xs -> can_alloc c (length xs) -> (forall z, cart (fst (polar z)) (snd (polar z)) = z) ->
  to_polar c polar t = Ok (fresh ds (map polar xs)) /\
  (let* p := to_polar c polar t in from_polar c cart p) = Ok (fresh ds xs).
Proof. exact (@c75_polar T c polar cart t ds xs). Qed.
Print Assumptions C75_polar.

(** [sin_cos], [powi] and the rotations apply the function to the elements, with the tensor
    as first operand and broadcasting. *)
Theorem C75_elementwise {F T} c (t : tensor F) (u : tensor T) (k : tensor Z) (m : tensor nat) pow rot sc ds xs :
  repr t ds xs -> can_alloc c (length xs) ->
  sin_cos c sc t = Ok (fresh ds (map sc xs)) /\
  powi c pow t k = binop_tt c t k (ok2 pow) /\
  rotate_left c rot u m = binop_tt c u m (ok2 rot) /\ rotate_right c rot u m = binop_tt c u m (ok2 rot).
Proof. exact (@c75_elementwise F T c t u k m pow rot sc ds xs). Qed.
Print Assumptions C75_elementwise.

(** [mul_add] applies the function to the broadcast elements, in the order tensor, factor,
    summand. *)
Theorem C75_mul_add {F} c fma (t a b : tensor F) dt da db dl xs ys zs :
  repr t dt xs -> repr a da ys -> repr b db zs -> xs <> [] -> ys <> [] -> zs <> [] ->
  suffix dt dl -> suffix da dl -> suffix db dl -> (dl = dt \/ dl = da \/ dl = db) ->
  exists ws, mul_add c fma t a b = Ok (fresh dl ws) /\ length ws = prod dl /\
    forall idx, in_shape dl idx -> exists x y z,
      elem dt xs (skipn (length dl - length dt) idx) = Some x /\
      elem da ys (skipn (length dl - length da) idx) = Some y /\
      elem db zs (skipn (length dl - length db) idx) = Some z /\
      elem dl ws idx = Some (fma x y z).
Proof. exact (@c75_mul_add F c fma t a b dt da db dl xs ys zs). Qed.
Print Assumptions C75_mul_add.

Example C75_example :
  let t := fresh [2; 3] [4; 5; 6; 7; 8; 9] in
  t_dim dev t 0 = Ok 2 /\ t_rdim t 0 = Ok 3 /\ t_dim dev t 2 = Panic /\ t_rdim t 2 = Ok 0 /\
  fmt_shape dev (tshape t) = Ok "Shape[2, 3]"%string /\
  m_meshgrid dev (fresh [2] [1; 2]) (fresh [3] [7; 8; 9]) =
    Ok [fresh [3; 2] [1; 2; 1; 2; 1; 2]; fresh [3; 2] [7; 7; 8; 8; 9; 9]] /\
  mul_add dev (fun x y z => 100 * x + 10 * y + z) t (fresh [] [1]) (fresh [3] [1; 2; 3]) =
    Ok (fresh [2; 3] [411; 512; 613; 711; 812; 913]).
Proof. repeat split. Qed.
