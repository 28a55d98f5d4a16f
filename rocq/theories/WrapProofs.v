(** * Proofs of C74 and C75 *)
From Coq Require Import String Ascii DecimalString DecimalFacts DecimalNat Reals Lra.
From Verif Require Import Base ShapeModel TensorModel AxisModel MapModel NumModel FloatModel MathModel InitModel
  ArrayModel RandomModel FmtModel WrapModel Spec MapSpec AlgSpec MathSpec
  BaseFacts CoordFacts ShapeFacts ShapeProofs TensorFacts TensorProofs MapFacts MapProofs MathFacts MathProofs
  ArrayProofs AlgFacts AlgProofs MatProofs StatsFacts.

Lemma all_const {T} (v : T) l n : length l = n -> (forall x, In x l -> x = v) -> l = repeat v n.
Proof.
  intros <- H. induction l as [|x l IH]; auto. cbn. f_equal; [apply H; now left|]. apply IH. intros y Hy. apply H. now right.
Qed.

Lemma map_repeat_ {T V} (f : T -> V) v n : map f (repeat v n) = repeat (f v) n.
Proof. induction n; cbn; congruence. Qed.

Lemma init_const {T} c ds (v : T) :
  supported ds -> can_alloc c (prod ds) ->
  (let* '(_, r) := init c (canon ds) (fun st : unit => Ok (st, v)) tt in Ok r) = Ok (fresh ds (repeat v (prod ds))).
Proof.
  intros Hs Ha. rewrite c24_init by auto.
  rewrite (traverse_all (fun _ => v)) by auto. cbn [bind]. do 2 f_equal.
  rewrite <- coords_length. generalize (coords ds). intros l. induction l as [|x l IH]; cbn; congruence.
Qed.

Lemma c74_constant {T} c ds (v : T) :
  supported ds -> can_alloc c (prod ds) ->
  let t := fresh ds (repeat v (prod ds)) in
  fill c (canon ds) v = Ok t /\ ones c v (canon ds) = Ok t /\ zeros c v (canon ds) = Ok t /\
  init_default c v (canon ds) = Ok t /\
  repr t ds (repeat v (prod ds)) /\ forall idx, in_shape ds idx -> elem ds (repeat v (prod ds)) idx = Some v.
Proof.
  intros Hs Ha. cbv zeta. unfold fill, ones, zeros, init_default. rewrite init_const by auto.
  do 4 (split; [reflexivity|]). split; [apply repr_fresh; auto; now rewrite repeat_length|].
  intros idx Hi. unfold elem. rewrite nth_error_repeat' . pose proof (ravel_lt _ _ Hi).
  destruct (Nat.ltb_spec (ravel ds idx) (prod ds)); auto; lia.
Qed.

Lemma const_repr {T} ds (v : T) : supported ds -> repr (fresh ds (repeat v (prod ds))) ds (repeat v (prod ds)).
Proof. intros. apply repr_fresh; auto. now rewrite repeat_length. Qed.

Lemma c74_scalar {T} c (v : T) : scalar_tensor c v = Ok (fresh [] [v]) /\ scalar_tensor c v = fill c (canon []) v.
Proof. split; reflexivity. Qed.

Lemma repeat_nonempty {T} (v : T) n : n <> 0 -> repeat v n <> [].
Proof. destruct n; [congruence|discriminate]. Qed.

Lemma fill_ok {T} c ds (v : T) :
  supported ds -> can_alloc c (prod ds) -> fill c (canon ds) v = Ok (fresh ds (repeat v (prod ds))).
Proof. intros. now apply c74_constant. Qed.

Lemma alloc_pos c n : n <> 0 -> can_alloc c n.
Proof. now left. Qed.

(** Operations on constant tensors. *)
Lemma c74_map {T V} c ds (v : T) (f : T -> V) :
  supported ds -> can_alloc c (prod ds) ->
  (let* t := fill c (canon ds) v in unop c t (ok1 f)) = fill c (canon ds) (f v).
Proof.
  intros Hs Ha. rewrite !fill_ok by auto. cbn [bind].
  rewrite (unop_ok c _ ds (repeat v (prod ds))); [|now apply const_repr|now rewrite repeat_length].
  now rewrite map_repeat_.
Qed.

Lemma c74_binop {T U V} c da db dl (v : T) (w : U) (f : T -> U -> V) :
  supported da -> supported db -> prod da <> 0 -> prod db <> 0 ->
  (suffix db da /\ dl = da) \/ (suffix da db /\ dl = db) ->
  (let* a := fill c (canon da) v in let* b := fill c (canon db) w in binop_tt c a b (ok2 f)) =
  fill c (canon dl) (f v w).
Proof.
  intros Hsa Hsb Pa Pb Hj.
  assert (Hl : supported dl /\ prod dl <> 0) by (destruct Hj as [[_ ->]|[_ ->]]; auto).
  rewrite !fill_ok by (try apply alloc_pos; tauto). cbn [bind].
  assert (J : join da db = Some dl) by (destruct Hj as [[S ->]|[S ->]]; [|rewrite join_comm]; now apply join_of).
  rewrite (binop_tt_join c _ _ da db dl (repeat v (prod da)) (repeat w (prod db)) f v w);
    auto using const_repr, repeat_nonempty.
  do 2 f_equal. apply all_const; [apply bz_length|]. unfold bz. intros x Hx. apply in_map_iff in Hx.
  destruct Hx as (k & <- & _). f_equal.
  - apply (repeat_spec (prod da) v). apply at_in. now apply repeat_nonempty.
  - apply (repeat_spec (prod db) w). apply at_in. now apply repeat_nonempty.
Qed.

(** Neutral elements. *)
Lemma c74_unit {T U} c (t : tensor T) ds db xs (e : U) (f : T -> U -> T) :
  repr t ds xs -> xs <> [] -> suffix db ds -> prod db <> 0 -> (forall x, f x e = x) ->
  (let* z := zeros c e (canon db) in binop_tt c t z (ok2 f)) = Ok (fresh ds xs) /\
  (let* z := ones c e (canon db) in binop_tt c t z (ok2 f)) = Ok (fresh ds xs).
Proof.
  intros H Nx S Pb Hu.
  assert (Hb : supported db) by (destruct S as [p ->]; apply (supported_app_r p db); apply H).
  destruct (c74_constant c db e Hb (alloc_pos c _ Pb)) as (_ & -> & -> & _). cbn [bind].
  assert (E : binop_tt c t (fresh db (repeat e (prod db))) (ok2 f) = Ok (fresh ds xs)); [|auto].
  apply (c72_unit c t _ ds db xs (repeat e (prod db))); auto using const_repr, repeat_nonempty.
  intros x y Hy. apply repeat_spec in Hy. now subst.
Qed.

(** Constant tensors stay constant when their elements are rearranged. *)
Lemma c74_reshape {T} c ds ds' (v : T) :
  supported ds -> supported ds' -> can_alloc c (prod ds) -> prod ds = prod ds' ->
  (let* t := fill c (canon ds) v in reshape c t (canon ds')) = fill c (canon ds') v.
Proof.
  intros Hs Hs' Ha E. rewrite !fill_ok by (auto; congruence). cbn [bind].
  rewrite E. unfold reshape. cbn [tshape tsize fresh]. rewrite size_canon by auto.
  cbn [bind]. rewrite repeat_length, Nat.eqb_refl. cbn [assert_ bind].
  unfold fresh. now rewrite repeat_length.
Qed.

Lemma c74_transpose {T} c ds m n (v : T) :
  supported (ds ++ [m; n]) -> prod (ds ++ [m; n]) <> 0 ->
  (let* t := fill c (canon (ds ++ [m; n])) v in transpose c t) = fill c (canon (ds ++ [n; m])) v.
Proof.
  intros Hs Hp. rewrite fill_ok by (auto using alloc_pos). cbn [bind].
  destruct (c34_transpose c (fresh (ds ++ [m; n]) (repeat v (prod (ds ++ [m; n])))) ds m n
    (repeat v (prod (ds ++ [m; n]))) (const_repr _ _ Hs)) as (ys & E & L & N); [lia|].
  assert (Hs' : supported (ds ++ [n; m])) by now apply supported_flip.
  rewrite E, fill_ok; auto; [|apply alloc_pos; now rewrite prod_flip].
  do 2 f_equal. apply all_const; auto. intros x Hx. apply In_nth_error in Hx. destruct Hx as [k Hk].
  assert (K : k < prod (ds ++ [n; m])) by (rewrite <- L; apply nth_error_Some; congruence).
  apply unravel in K. destruct K as (idx & Hi & R). pose proof Hi as Hi'. apply in_shape_app_inv in Hi.
  destruct Hi as [H1 H2]. rewrite <- (firstn_skipn (length ds) idx) in Hi', R.
  assert (I : exists i j, skipn (length ds) idx = [i; j] /\ i < n /\ j < m).
  { inversion H2 as [|i d r1 r2 Hin Hr E1]; subst. inversion Hr as [|j d' r1' r2' Hjm Hr']; subst. inversion Hr'; subst. eauto. }
  destruct I as (i & j & Ei & Hin & Hjm). rewrite Ei in R. set (i1 := firstn (length ds) idx) in *.
  assert (B : in_shape (ds ++ [m; n]) (i1 ++ [j; i])).
  { apply in_shape_app; auto. repeat constructor; auto. }
  specialize (N i1 j i H1 Hjm Hin). unfold elem in N. rewrite R, Hk in N.
  rewrite nth_error_repeat' in N. pose proof (ravel_lt _ _ B).
  destruct (Nat.ltb_spec (ravel (ds ++ [m; n]) (i1 ++ [j; i])) (prod (ds ++ [m; n]))); [congruence|lia].
Qed.

(** Counting. *)
Lemma fold_repeat {T} (f : T -> T -> T) v n x : fold_left f (repeat v n) x = times n (fun a => f a v) x.
Proof. revert x. induction n as [|n IH]; intros x; auto. cbn. apply IH. Qed.

Lemma sum_const {T} c ds (v : T) (f : T -> T -> T) :
  supported ds -> prod ds <> 0 ->
  (let* t := fill c (canon ds) v in reduce_sum c (ok2 f) t) = Ok (fresh [] [times (prod ds - 1) (fun a => f a v) v]).
Proof.
  intros Hs Hp. rewrite fill_ok by auto using alloc_pos. cbn [bind]. unfold reduce_sum.
  pose proof (const_repr ds v Hs) as H. destruct (prod ds) as [|n] eqn:E; [congruence|]. cbn [repeat] in H |- *.
  rewrite (c29_reduce c _ ds v (repeat v n) _ _ H). unfold lift2, ok2.
  rewrite (foldM_pure f). cbn [bind]. rewrite fold_repeat. now rewrite Nat.sub_succ, Nat.sub_0_r.
Qed.

Lemma c74_sum c ds (v : R) :
  supported ds -> prod ds <> 0 ->
  (let* t := fill c (canon ds) v in reduce_sum c (ok2 Rplus) t) = Ok (fresh [] [(INR (prod ds) * v)%R]).
Proof.
  intros Hs Hp. rewrite sum_const by auto. do 4 f_equal. destruct (prod ds) as [|n]; [congruence|].
  rewrite Nat.sub_succ, Nat.sub_0_r. clear. induction n as [|n IH]; [cbn [times]; change (INR 1) with 1%R; lra|].
  rewrite times_S_r, IH, !S_INR. lra.
Qed.

Lemma c74_count_b32 ln_ exp_ pow_ c ds :
  let o := b32_ops ln_ exp_ pow_ in
  supported ds -> prod ds <> 0 ->
  (let* t := ones c (fone o) (canon ds) in reduce_sum c (ok2 (fadd o)) t) =
  Ok (fresh [] [b32_of_Z (Z.min (Z.of_nat (prod ds)) (2 ^ 24)) 0]).
Proof.
  cbv zeta. intros Hs Hp. pose proof (sum_const c ds (fone (b32_ops ln_ exp_ pow_)) (fadd (b32_ops ln_ exp_ pow_)) Hs Hp) as E.
  change (fill c (canon ds) (fone (b32_ops ln_ exp_ pow_))) with (ones c (fone (b32_ops ln_ exp_ pow_)) (canon ds)) in E.
  rewrite E. do 4 f_equal. change (2 ^ 24)%Z with 16777216%Z. rewrite <- (times_b32 ln_ exp_ pow_).
  destruct (prod ds) as [|n]; [congruence|]. rewrite Nat.sub_succ, Nat.sub_0_r. cbn [times].
  fold (incr (b32_ops ln_ exp_ pow_)). f_equal.
Qed.

(** ** C75 *)

Lemma c75_accessors {A} c (t : tensor A) ds xs :
  repr t ds xs ->
  t_rank t = length ds /\ t_size t = prod ds /\ t_shape t = canon ds /\
  (forall i, i < length ds -> t_dim c t i = Ok (nth i ds 0) /\ t_rdim t i = Ok (nth (length ds - 1 - i) ds 0)) /\
  (forall i, length ds <= i -> (Z.of_nat i < 2 ^ 63)%Z -> t_dim c t i = Panic) /\
  (forall i, length ds <= i -> t_rdim t i = if i <? 6 then Ok 0 else Panic) /\
  t_len c t = match ds with [] => Panic | d :: _ => Ok d end /\
  t_cols t = Ok (last ds 0) /\ t_rows t = Ok (last (removelast ds) 0) /\
  deref t = Ok xs /\ into_iter t = Ok xs /\ as_ref_slice t = Ok xs /\ as_ref_tensor t = t /\
  t_offset t + t_size t <= data_len t.
Proof.
  intros H. pose proof (supported_len _ (repr_supported _ _ _ H)) as Hl.
  unfold t_rank, t_size, t_shape, t_dim, t_rdim, t_len, t_cols, t_rows, deref, into_iter, as_ref_slice, t_offset, data_len.
  rewrite (repr_shape _ _ _ H), (repr_size _ _ _ H), (repr_as_slice _ _ _ H).
  split; [reflexivity|]. split; [apply H|]. split; [reflexivity|]. split.
  { intros i Hi. split; [now apply dim_canon|now apply rdim_canon]. }
  split; [intros i Hi Hb; apply dim_canon_panic; auto; unfold two63; lia|]. split.
  { intros i Hi. unfold rdim. destruct (Nat.ltb_spec i 6).
    - apply aget_canon_0. lia.
    - apply aget_none. rewrite canon_dims_length; auto. }
  split.
  { destruct ds as [|d ds]; [|now apply len_canon]. unfold len. apply dim_canon_panic; cbn; auto. unfold two63. lia. }
  rewrite cols_canon, rows_canon by auto. repeat (split; [reflexivity|]).
  destruct (repr_data _ _ _ H) as (pre & post & -> & <-). rewrite !app_length. lia.
Qed.

(** In release builds [dim] accepts some positions near 2^64. *)
Lemma c75_dim_refuted : exists i, 2 <= i /\ t_dim release (fresh [2; 3] [1; 2; 3; 4; 5; 6]) i = Ok 0.
Proof.
  exists (Z.to_nat (2 ^ 64 - 1)). split; [lia|]. unfold t_dim, dim. cbn [tshape fresh canon rank length].
  rewrite usub_ok by (unfold two64; lia). cbn [bind]. unfold usub.
  replace (Z.of_nat (2 - 1) - Z.of_nat (Z.to_nat (2 ^ 64 - 1)))%Z with (2 - 2 ^ 64)%Z by lia.
  reflexivity.
Qed.

(** The text of a shape. *)
Definition digit (a : ascii) : bool := (48 <=? nat_of_ascii a) && (nat_of_ascii a <=? 57).
Fixpoint digits (s : string) : bool := match s with EmptyString => true | String a s => digit a && digits s end.
Definition stops (s : string) : Prop := match s with EmptyString => True | String a _ => digit a = false end.

Lemma digits_split a b r r' : digits a = true -> digits b = true -> stops r -> stops r' ->
  (a ++ r)%string = (b ++ r')%string -> a = b /\ r = r'.
Proof.
  revert b. induction a as [|x a IH]; intros [|y b] Ha Hb Hr Hr' E; cbn in *; auto.
  - subst r. cbn in Hr. apply andb_prop in Hb. destruct Hb as [Hb _]. congruence.
  - subst r'. cbn in Hr'. apply andb_prop in Ha. destruct Ha as [Ha _]. congruence.
  - injection E as -> E. apply andb_prop in Ha. apply andb_prop in Hb.
    destruct (IH b) as [-> ->]; tauto.
Qed.

Lemma digits_uint d : digits (NilEmpty.string_of_uint d) = true.
Proof. induction d; cbn; auto. Qed.

Lemma digits_nat n : digits (show_nat n) = true.
Proof.
  unfold show_nat, NilZero.string_of_uint. destruct (Nat.to_uint n) eqn:E; try reflexivity; rewrite <- E;
    rewrite E; apply (digits_uint (_ u)).
Qed.

Lemma show_nat_inj m n : show_nat m = show_nat n -> m = n.
Proof.
  unfold show_nat. intros E. apply DecimalNat.Unsigned.to_uint_inj.
  assert (N : forall k, Nat.to_uint k <> Decimal.Nil) 
    by (intros k Ek; pose proof (DecimalNat.Unsigned.of_to k) as Ok; rewrite Ek in Ok; cbn in Ok; now subst k).
  pose proof (NilZero.usu _ (N m)) as Em. pose proof (NilZero.usu _ (N n)) as En.
  rewrite E, En in Em. congruence.
Qed.

Fixpoint rest (l : list nat) : string :=
  match l with [] => "]" | x :: l => ", " ++ show_nat x ++ rest l end%string.

Lemma app_assoc_s a b d : ((a ++ b) ++ d = a ++ (b ++ d))%string.
Proof. induction a; cbn; congruence. Qed.

Lemma show_vec_cons x l : show_vec (x :: l) = ("[" ++ show_nat x ++ rest l)%string.
Proof.
  unfold show_vec. f_equal. revert x. induction l as [|y l IH]; intros x; [reflexivity|].
  cbn [map]. change (String.concat ", " (show_nat x :: show_nat y :: map show_nat l))
    with (show_nat x ++ ", " ++ String.concat ", " (show_nat y :: map show_nat l))%string.
  rewrite !app_assoc_s. f_equal. cbn [rest]. f_equal. apply IH.
Qed.

Lemma stops_rest l : stops (rest l).
Proof. destruct l; reflexivity. Qed.

Lemma rest_inj l l' : rest l = rest l' -> l = l'.
Proof.
  revert l'. induction l as [|x l IH]; intros [|y l'] E; auto; try discriminate.
  cbn [rest] in E. cbn [append] in E. injection E as E.
  apply digits_split in E; auto using digits_nat, stops_rest. destruct E as [E1 E2].
  apply show_nat_inj in E1. apply IH in E2. congruence.
Qed.

Lemma show_vec_inj l l' : show_vec l = show_vec l' -> l = l'.
Proof.
  destruct l as [|x l], l' as [|y l']; auto; rewrite ?show_vec_cons; intros E.
  - cbn in E. injection E as E. pose proof (digits_nat y). destruct (show_nat y) as [|a s] eqn:Ey.
    + exfalso. revert Ey. unfold show_nat, NilZero.string_of_uint. destruct (Nat.to_uint y); discriminate.
    + cbn in E. injection E as <- _. discriminate.
  - cbn in E. injection E as E. pose proof (digits_nat x). destruct (show_nat x) as [|a s] eqn:Ey.
    + exfalso. revert Ey. unfold show_nat, NilZero.string_of_uint. destruct (Nat.to_uint x); discriminate.
    + cbn in E. injection E as -> _. discriminate.
  - cbn [append] in E. injection E as E.
    apply digits_split in E; auto using digits_nat, stops_rest. destruct E as [E1 E2].
    apply show_nat_inj in E1. apply rest_inj in E2. congruence.
Qed.

Lemma app_inj a b d : (a ++ b = a ++ d)%string -> b = d.
Proof. induction a; cbn; auto. intros E. injection E as E. auto. Qed.

Lemma c75_debug_shape c ds ds' :
  length ds <= 6 -> length ds' <= 6 ->
  fmt_shape c (canon ds) = Ok ("Shape" ++ show_vec ds)%string /\
  (fmt_shape c (canon ds) = fmt_shape c (canon ds') -> ds = ds').
Proof.
  intros H H'. unfold fmt_shape. rewrite !as_vec_canon by auto. cbn [bind]. split; auto.
  intros E. apply show_vec_inj. apply (app_inj "Shape"). congruence.
Qed.

Lemma c75_axis c a s :
  get_axis (axis_of_isize a) = Some a /\ get_axis (axis_new a) = Some a /\ axis_of_option None = None /\
  (forall x, get_axis (axis_of_option x) = x /\ get_axis (axis_opt x) = x) /\
  (forall x, axis_with_shape c x s = axis_from_rank c x (rank s)).
Proof. repeat split; auto. Qed.

Lemma c75_methods {A} c (t u : tensor A) (m : tensor nat) (z e : A) n s :
  m_tile c t m = tile c t m /\ m_transpose c t = transpose c t /\ m_t c t = transpose c t /\
  m_eye c z e n = eye c z e n /\ m_identity c z e n = eye c z e n /\ m_tri c z e n = tri c z e n /\
  m_diagflat c z t = diagflat c z t /\ m_tril c z t = tril c z t /\ m_triu c z t = triu c z t /\
  m_meshgrid c t u = meshgrid c [t; u] /\ m_meshgrid_ij c t u = meshgrid_ij c [t; u] /\
  m_zeros c z s = zeros c z s /\ m_ones c e s = ones c e s /\ m_fill c s z = fill c s z.
Proof. repeat split. Qed.

Lemma c75_methods_float {F} (o : fops F) (r : rops F) c (t u : tensor F) x y z fuel n l s p q ent :
  m_random_normal r c s p ent = random_normal r c s p ent /\
  m_random_uniform r c s q ent = random_uniform r c s q ent /\
  m_arange o c fuel x y z = arange o c fuel x y z /\ m_linspace o c t u n = linspace o c t u n /\
  m_geomspace o c t u n = geomspace o c t u n /\ m_one_hot o c l n = one_hot o c l n /\
  logspace_fn o c t u n = logspace o c t u n (Some (fof o 10)) /\
  m_logspace o c t u n = logspace o c t u n (Some (fof o 10)) /\
  logspace o c t u n logspace_default = logspace o c t u n (Some (fof o 10)) /\
  logspace o c t u n (logspace_base x) = logspace o c t u n (Some x) /\
  logspace o c t u n (logspace_of_f32 x) = logspace o c t u n (Some x) /\
  logspace o c t u n (logspace_of_option (Some x)) = logspace o c t u n (Some x).
Proof. repeat split. Qed.

(** Elementwise methods. *)
Lemma float_map_ok {T V} c (t : tensor T) ds xs (f : T -> V) :
  repr t ds xs -> can_alloc c (length xs) -> float_map c t f = Ok (fresh ds (map f xs)).
Proof. exact (unop_ok c t ds xs f). Qed.

Lemma c75_complex {T} c (t : tensor (complex T)) ds xs :
  repr t ds xs -> xs <> [] ->
  re c t = Ok (fresh ds (map cre xs)) /\ im c t = Ok (fresh ds (map cim xs)) /\
  (let* a := re c t in let* b := im c t in binop_tt c a b (ok2 mkComplex)) = Ok (fresh ds xs).
Proof.
  intros H Nx. assert (Ha : can_alloc c (length xs)) by (apply alloc_pos; destruct xs; cbn; congruence).
  unfold re, im. rewrite !(float_map_ok c t ds xs) by auto. split; [reflexivity|]. split; [reflexivity|]. cbn [bind].
  destruct xs as [|x xs]; [congruence|].
  rewrite (binop_tt_join c _ _ ds ds ds (map cre (x :: xs)) (map cim (x :: xs)) mkComplex (cre x) (cim x));
    auto using join_self, (fresh_map_repr t); try discriminate.
  do 2 f_equal. transitivity (map (at_ x (x :: xs)) (seq 0 (prod ds))); [|apply map_at; apply H].
  unfold bz. apply map_ext. intros k. rewrite (at_map cre x), (at_map cim x) by discriminate. now destruct (at_ x (x :: xs) k).
Qed.

Lemma c75_polar {T} c polar cart (t : tensor (complex T)) ds xs :
  repr t ds xs -> can_alloc c (length xs) -> (forall z, cart (fst (polar z)) (snd (polar z)) = z) ->
  to_polar c polar t = Ok (fresh ds (map polar xs)) /\
  (let* p := to_polar c polar t in from_polar c cart p) = Ok (fresh ds xs).
Proof.
  intros H Ha Hp. unfold to_polar, from_polar. rewrite (float_map_ok c t ds xs) by auto. split; [reflexivity|].
  cbn [bind]. rewrite (float_map_ok c _ ds (map polar xs)); [|now apply (fresh_map_repr t)|now rewrite map_length].
  rewrite map_map. do 2 f_equal. rewrite (map_ext _ (fun z => z) Hp). apply map_id.
Qed.


Lemma c75_elementwise {F T} c (t : tensor F) (u : tensor T) (k : tensor Z) (m : tensor nat) pow rot sc ds xs :
  repr t ds xs -> can_alloc c (length xs) ->
  sin_cos c sc t = Ok (fresh ds (map sc xs)) /\
  powi c pow t k = binop_tt c t k (ok2 pow) /\
  rotate_left c rot u m = binop_tt c u m (ok2 rot) /\ rotate_right c rot u m = binop_tt c u m (ok2 rot).
Proof. intros H Ha. split; [now apply (float_map_ok c t ds xs)|]. repeat split. Qed.

Lemma c75_mul_add {F} c fma (t a b : tensor F) dt da db dl xs ys zs :
  repr t dt xs -> repr a da ys -> repr b db zs -> xs <> [] -> ys <> [] -> zs <> [] ->
  suffix dt dl -> suffix da dl -> suffix db dl -> (dl = dt \/ dl = da \/ dl = db) ->
  exists ws, mul_add c fma t a b = Ok (fresh dl ws) /\ length ws = prod dl /\
    forall idx, in_shape dl idx -> exists x y z,
      elem dt xs (skipn (length dl - length dt) idx) = Some x /\
      elem da ys (skipn (length dl - length da) idx) = Some y /\
      elem db zs (skipn (length dl - length db) idx) = Some z /\
      elem dl ws idx = Some (fma x y z).
Proof.
  intros Ht Ha Hb Nx Ny Nz St Sa Sb Hd.
  destruct (c27_map3 (S := unit) (W := F) c t a b dt da db dl xs ys zs) as (ps & L & N & E); auto.
  exists (map (fun p => fma (fst p) (fst (snd p)) (snd (snd p))) ps). split; [|split; [now rewrite map_length|]].
  - unfold mul_add, float_map3. rewrite E.
    rewrite (traverse_all (fun p => fma (fst p) (fst (snd p)) (snd (snd p)))) by now intros (x & y & z).
    reflexivity.
  - intros idx Hi. destruct (N idx Hi) as (x & y & z & E1 & E2 & E3 & E4). exists x, y, z.
    do 3 (split; [assumption|]). unfold elem in *. now rewrite nth_error_map, E4.
Qed.
