(** * C76: runs on different element types *)
From Coq Require Import Reals String.
From Verif Require Import Base ShapeModel TensorModel AxisModel MapModel ArrayModel NumModel
  FromModel ArgModel FloatModel InitModel MathModel LinalgModel LinalgSpec SignalModel FmtModel WrapModel ParamSpec ParamFacts.
Import TensorModel.

(** A relation that is the graph of a function. *)
Definition isgr {A B} (R : A -> B -> Prop) (g : A -> B) : Prop := forall x y, R x y <-> y = g x.
Definition gr {A B} (f : A -> B) (x : A) (y : B) : Prop := y = f x.

Lemma isgr_gr {A B} (f : A -> B) : isgr (gr f) f.
Proof. now intros x y. Qed.
Lemma isgr_list {A B} (R : A -> B -> Prop) g : isgr R g -> isgr (Forall2 R) (map g).
Proof.
  intros H x y. split.
  - induction 1 as [|a b x y E _ IH]; cbn; [reflexivity|]. apply H in E. now rewrite E, IH.
  - intros ->. induction x; cbn; constructor; auto. now apply H.
Qed.
Lemma isgr_opt {A B} (R : A -> B -> Prop) g : isgr R g -> isgr (optR R) (option_map g).
Proof.
  intros H x y. split.
  - intros [a b E|]; cbn; [|reflexivity]. apply H in E. now rewrite E.
  - intros ->. destruct x; cbn; constructor. now apply H.
Qed.
Lemma isgr_out {A B} (R : A -> B -> Prop) g : isgr R g -> isgr (outR R) (omap g).
Proof.
  intros H x y. split.
  - intros [a b E| |]; cbn; [|reflexivity|reflexivity]. apply H in E. now rewrite E.
  - intros ->. destruct x; cbn; constructor. now apply H.
Qed.
Lemma isgr_t {A B} (R : A -> B -> Prop) g : isgr R g -> isgr (tR R) (tmap g).
Proof.
  intros H x y. split.
  - intros (E1 & E2 & E3 & E4). apply (isgr_list _ _ H) in E4. destruct x, y. cbn in *. unfold tmap. cbn. congruence.
  - intros ->. split; [reflexivity|]. split; [reflexivity|]. split; [reflexivity|]. now apply (isgr_list _ _ H).
Qed.
Lemma isgr_piece {A B} (R : A -> B -> Prop) g : isgr R g -> isgr (pieceR R) (pmap g).
Proof.
  intros H x y. split.
  - intros [s|a b E]; cbn; [reflexivity|]. apply H in E. now rewrite E.
  - intros ->. destruct x; cbn; constructor. now apply H.
Qed.
Lemma isgr_tl {A B} (R : A -> B -> Prop) g : isgr R g -> isgr (tlR R) (tlmap g).
Proof.
  intros H x y. split.
  - intros [a b E|a b E|a b E]; cbn; f_equal.
    + now apply (isgr_list _ _ (isgr_t _ _ H)).
    + now apply (isgr_list _ _ (isgr_list _ _ H)).
    + now apply (isgr_list _ _ (isgr_out _ _ (isgr_t _ _ H))).
  - intros ->. destruct x; cbn; constructor.
    + now apply (isgr_list _ _ (isgr_t _ _ H)).
    + now apply (isgr_list _ _ (isgr_list _ _ H)).
    + now apply (isgr_list _ _ (isgr_out _ _ (isgr_t _ _ H))).
Qed.
Global Hint Resolve isgr_gr isgr_list isgr_opt isgr_out isgr_t isgr_piece isgr_tl : isgr.

Lemma to_graph {A B} (R : A -> B -> Prop) g x : isgr R g -> R x (g x).
Proof. intros H. now apply H. Qed.
Lemma from_graph {A B} (R : A -> B -> Prop) g x y : isgr R g -> R x y -> y = g x.
Proof. intros H. apply H. Qed.

Ltac arg := first [reflexivity | apply outR_same | match goal with |- ?R ?x (?g ?x) => apply (to_graph R g x); solve [auto 6 with isgr] end].
Ltac nat_ lem f := intros; eapply from_graph; [|eapply (lem _ _ (gr f)); arg]; auto 6 with isgr.

Lemma c76_views {A B} (f : A -> B) c :
  (forall (t : tensor A),
    as_slice (tmap f t) = omap (map f) (as_slice t)) /\
  (forall (t : tensor A),
    iter_row (tmap f t) = omap (map (map f)) (iter_row t)) /\
  (forall (t : tensor A) (offset : nat),
    as_wrap_slice (tmap f t) offset = omap (map f) (as_wrap_slice t offset)) /\
  (forall (t : tensor A) (offset : nat) (len : nat),
    as_wrap_slice_n c (tmap f t) offset len = omap (map f) (as_wrap_slice_n c t offset len)) /\
  (forall (t : tensor A) (offset : nat),
    get c (tmap f t) offset = omap (option_map f) (get c t offset)) /\
  (forall (t : tensor A) (i : nat),
    index1 (tmap f t) i = omap f (index1 t i)) /\
  (forall (t : tensor A) (i : nat) (j : nat),
    index2 c (tmap f t) i j = omap f (index2 c t i j)) /\
  (forall (t : tensor A) (i : nat) (j : nat) (k : nat),
    index3 c (tmap f t) i j k = omap f (index3 c t i j k)) /\
  (forall (t : tensor A) (h : nat) (i : nat) (j : nat) (k : nat),
    index4 c (tmap f t) h i j k = omap f (index4 c t h i j k)) /\
  (forall (t : tensor A) (g : nat) (h : nat) (i : nat) (j : nat) (k : nat),
    index5 c (tmap f t) g h i j k = omap f (index5 c t g h i j k)) /\
  (forall (t : tensor A) (s : shape),
    reshape c (tmap f t) s = omap (tmap f) (reshape c t s)) /\
  (forall (t : tensor A) (axis : option Z),
    t_expand_dims c (tmap f t) axis = omap (tmap f) (t_expand_dims c t axis)) /\
  (forall (t : tensor A),
    flatten c (tmap f t) = omap (tmap f) (flatten c t)) /\
  (forall (t : tensor A),
    t_squeeze c (tmap f t) = omap (tmap f) (t_squeeze c t)) /\
  (forall (t : tensor A) (axis : option Z),
    squeeze_axis c (tmap f t) axis = omap (tmap f) (squeeze_axis c t axis)) /\
  (forall (t : tensor A) (offset : nat) (len : nat) (s : outcome shape),
    subslice_flat c (tmap f t) offset len s = omap (tmap f) (subslice_flat c t offset len s)) /\
  (forall (t : tensor A) (offset : nat) (len : nat),
    subslice c (tmap f t) offset len = omap (tmap f) (subslice c t offset len)).
Proof.
  repeat match goal with |- _ /\ _ => split end.
  - nat_ @par_as_slice f.
  - nat_ @par_iter_row f.
  - nat_ @par_as_wrap_slice f.
  - nat_ @par_as_wrap_slice_n f.
  - nat_ @par_get f.
  - nat_ @par_index1 f.
  - nat_ @par_index2 f.
  - nat_ @par_index3 f.
  - nat_ @par_index4 f.
  - nat_ @par_index5 f.
  - nat_ @par_reshape f.
  - nat_ @par_t_expand_dims f.
  - nat_ @par_flatten f.
  - nat_ @par_t_squeeze f.
  - nat_ @par_squeeze_axis f.
  - nat_ @par_subslice_flat f.
  - nat_ @par_subslice f.
Qed.

Lemma c76_arrays {A B} (f : A -> B) c :
  (forall (t : tensor A),
    transpose c (tmap f t) = omap (tmap f) (transpose c t)) /\
  (forall (axis : option Z) (t : tensor A) (s : sections),
    split_axis c axis (tmap f t) s = omap (map (tmap f)) (split_axis c axis t s)) /\
  (forall (axis : option Z) (t : tensor A),
    unstack c axis (tmap f t) = omap (map (tmap f)) (unstack c axis t)) /\
  (forall (t : tensor A) (u : tensor A),
    append c (tmap f t) (tmap f u) = omap (tmap f) (append c t u)) /\
  (forall (ts : list (tensor A)) (s : shape),
    from_merge c (map (tmap f) ts) s = omap (tmap f) (from_merge c ts s)) /\
  (forall (args : list (tensor A)),
    concatenate c (map (tmap f) args) = omap (tmap f) (concatenate c args)) /\
  (forall (axis : option Z) (args : list (tensor A)),
    concatenate_axis c axis (map (tmap f) args) = omap (tmap f) (concatenate_axis c axis args)) /\
  (forall (x : list (tensor A)),
    stack c (map (tmap f) x) = omap (tmap f) (stack c x)) /\
  (forall (axis : option Z) (x : list (tensor A)),
    stack_axis c axis (map (tmap f) x) = omap (tmap f) (stack_axis c axis x)) /\
  (forall (x : list (tensor A)),
    dstack c (map (tmap f) x) = omap (tmap f) (dstack c x)) /\
  (forall (x : list (tensor A)),
    hstack c (map (tmap f) x) = omap (tmap f) (hstack c x)) /\
  (forall (x : list (tensor A)),
    vstack c (map (tmap f) x) = omap (tmap f) (vstack c x)) /\
  (forall (t : tensor A) (multiples : tensor nat),
    tile c (tmap f t) multiples = omap (tmap f) (tile c t multiples)).
Proof.
  repeat match goal with |- _ /\ _ => split end.
  - nat_ @par_transpose f.
  - nat_ @par_split_axis f.
  - nat_ @par_unstack f.
  - nat_ @par_append f.
  - nat_ @par_from_merge f.
  - nat_ @par_concatenate f.
  - nat_ @par_concatenate_axis f.
  - nat_ @par_stack f.
  - nat_ @par_stack_axis f.
  - nat_ @par_dstack f.
  - nat_ @par_hstack f.
  - nat_ @par_vstack f.
  - nat_ @par_tile f.
Qed.

Lemma c76_conversions {A B} (f : A -> B) c :
  (forall (v : list A) (s : shape),
    from_vec c (map f v) s = omap (tmap f) (from_vec c v s)) /\
  (forall (data : list A),
    from_slice c (map f data) = omap (tmap f) (from_slice c data)) /\
  (forall (v : list (list A)),
    join_vec c (map (map f) v) = omap (tmap f) (join_vec c v)) /\
  (forall (v : A),
    of_value c (f v) = omap (tmap f) (of_value c v)) /\
  (forall (v : option A),
    of_option c (option_map f v) = omap (tmap f) (of_option c v)) /\
  (forall (v : list A),
    of_vec c (map f v) = omap (tmap f) (of_vec c v)) /\
  (forall (n : nat) (v : list (list A)),
    of_rows c n (map (map f) v) = omap (tmap f) (of_rows c n v)) /\
  (forall (m : nat) (n : nat) (v : list (list (list A))),
    of_rows2 c m n (map (map (map f)) v) = omap (tmap f) (of_rows2 c m n v)) /\
  (forall (l : nat) (m : nat) (n : nat) (v : list (list (list (list A)))),
    of_rows3 c l m n (map (map (map (map f))) v) = omap (tmap f) (of_rows3 c l m n v)) /\
  (forall (v : list (list A)),
    of_vec2 c (map (map f) v) = omap (tmap f) (of_vec2 c v)) /\
  (forall (v : list (list (list A))),
    of_vec3 c (map (map (map f)) v) = omap (tmap f) (of_vec3 c v)) /\
  (forall (v : list (list (list (list A)))),
    of_vec4 c (map (map (map (map f))) v) = omap (tmap f) (of_vec4 c v)) /\
  (forall (v : list (list (list (list (list A))))),
    of_vec5 c (map (map (map (map (map f)))) v) = omap (tmap f) (of_vec5 c v)) /\
  (forall (n : nat) (v : list (list (list A))),
    of_vec_rows c n (map (map (map f)) v) = omap (tmap f) (of_vec_rows c n v)) /\
  (forall (ts : list (tensor A)),
    of_tensors c (map (tmap f) ts) = omap (tmap f) (of_tensors c ts)).
Proof.
  repeat match goal with |- _ /\ _ => split end.
  - nat_ @par_from_vec f.
  - nat_ @par_from_slice f.
  - nat_ @par_join_vec f.
  - nat_ @par_of_value f.
  - nat_ @par_of_option f.
  - nat_ @par_of_vec f.
  - nat_ @par_of_rows f.
  - nat_ @par_of_rows2 f.
  - nat_ @par_of_rows3 f.
  - nat_ @par_of_vec2 f.
  - nat_ @par_of_vec3 f.
  - nat_ @par_of_vec4 f.
  - nat_ @par_of_vec5 f.
  - nat_ @par_of_vec_rows f.
  - nat_ @par_of_tensors f.
Qed.

Lemma c76_arguments {A B} (f : A -> B) c :
  (forall (x : tensor_list A) (vec : list (tensor A)),
    into_list c (tlmap f x) (map (tmap f) vec) = omap (map (tmap f)) (into_list c x vec)) /\
  (forall (x : tensor_list A),
    concatenate_args c (tlmap f x) = omap (tmap f) (concatenate_args c x)) /\
  (forall (axis : option Z) (x : tensor_list A),
    concatenate_axis_args c axis (tlmap f x) = omap (tmap f) (concatenate_axis_args c axis x)) /\
  (forall (x : tensor_list A),
    stack_args c (tlmap f x) = omap (tmap f) (stack_args c x)) /\
  (forall (axis : option Z) (x : tensor_list A),
    stack_axis_args c axis (tlmap f x) = omap (tmap f) (stack_axis_args c axis x)) /\
  (forall (x : tensor_list A),
    dstack_args c (tlmap f x) = omap (tmap f) (dstack_args c x)) /\
  (forall (x : tensor_list A),
    hstack_args c (tlmap f x) = omap (tmap f) (hstack_args c x)) /\
  (forall (x : tensor_list A),
    vstack_args c (tlmap f x) = omap (tmap f) (vstack_args c x)) /\
  (forall (t : tensor A) (others : tensor_list A),
    m_concatenate c (tmap f t) (tlmap f others) = omap (tmap f) (m_concatenate c t others)) /\
  (forall (t : tensor A) (axis : option Z) (others : tensor_list A),
    m_concatenate_axis c (tmap f t) axis (tlmap f others) = omap (tmap f) (m_concatenate_axis c t axis others)) /\
  (forall (t : tensor A) (others : tensor_list A) (axis : option Z),
    m_stack c (tmap f t) (tlmap f others) axis = omap (tmap f) (m_stack c t others axis)) /\
  (forall (t : tensor A) (others : tensor_list A),
    m_dstack c (tmap f t) (tlmap f others) = omap (tmap f) (m_dstack c t others)) /\
  (forall (t : tensor A) (others : tensor_list A),
    m_vstack c (tmap f t) (tlmap f others) = omap (tmap f) (m_vstack c t others)).
Proof.
  repeat match goal with |- _ /\ _ => split end.
  - nat_ @par_into_list f.
  - nat_ @par_concatenate_args f.
  - nat_ @par_concatenate_axis_args f.
  - nat_ @par_stack_args f.
  - nat_ @par_stack_axis_args f.
  - nat_ @par_dstack_args f.
  - nat_ @par_hstack_args f.
  - nat_ @par_vstack_args f.
  - nat_ @par_m_concatenate f.
  - nat_ @par_m_concatenate_axis f.
  - nat_ @par_m_stack f.
  - nat_ @par_m_dstack f.
  - nat_ @par_m_vstack f.
Qed.

Lemma c76_matrices {A B} (f : A -> B) c :
  (forall (s : shape) (v : A),
    fill c s (f v) = omap (tmap f) (fill c s v)) /\
  (forall (zero : A) (one : A) (n : nat),
    eye c (f zero) (f one) n = omap (tmap f) (eye c zero one n)) /\
  (forall (zero : A) (one : A) (n : nat),
    tri c (f zero) (f one) n = omap (tmap f) (tri c zero one n)) /\
  (forall (zero : A) (diag : tensor A),
    diagflat c (f zero) (tmap f diag) = omap (tmap f) (diagflat c zero diag)) /\
  (forall (zero : A) (t : tensor A),
    tril c (f zero) (tmap f t) = omap (tmap f) (tril c zero t)) /\
  (forall (zero : A) (t : tensor A),
    triu c (f zero) (tmap f t) = omap (tmap f) (triu c zero t)) /\
  (forall (axes : list (tensor A)),
    meshgrid c (map (tmap f) axes) = omap (map (tmap f)) (meshgrid c axes)) /\
  (forall (axes : list (tensor A)),
    meshgrid_ij c (map (tmap f) axes) = omap (map (tmap f)) (meshgrid_ij c axes)).
Proof.
  repeat match goal with |- _ /\ _ => split end.
  - nat_ @par_fill f.
  - nat_ @par_eye f.
  - nat_ @par_tri f.
  - nat_ @par_diagflat f.
  - nat_ @par_tril f.
  - nat_ @par_triu f.
  - nat_ @par_meshgrid f.
  - nat_ @par_meshgrid_ij f.
Qed.

Lemma c76_text {A B} (f : A -> B) c :
  (forall (name : String.string) (t : tensor A),
    fmt_tensor c name (tmap f t) = omap (map (pmap f)) (fmt_tensor c name t)).
Proof.
  repeat match goal with |- _ /\ _ => split end.
  - nat_ @par_fmt_tensor f.
Qed.

Lemma c76_init {S S'} {V V'} (RS : S -> S' -> Prop) (RV : V -> V' -> Prop) (c : cfg) (s : shape) (f : S -> outcome (S * V)) (f' : S' -> outcome (S' * V')) (st : S) (st' : S') :
  (forall x0 x0', RS x0 x0' -> outR (prodR RS RV) (f x0) (f' x0')) ->
  RS st st' ->
  outR (prodR RS (tR RV)) (init c s f st) (init c s f' st').
Proof. intros. apply (@par_init S S' V V' RS RV c s f f' st st'); auto. Qed.
Lemma c76_init_rindexed {S S'} {V V'} (RS : S -> S' -> Prop) (RV : V -> V' -> Prop) (c : cfg) (s : shape) (f : S -> list nat -> outcome (S * V)) (f' : S' -> list nat -> outcome (S' * V')) (st : S) (st' : S') :
  (forall x0 x0' x1, RS x0 x0' -> outR (prodR RS RV) (f x0 x1) (f' x0' x1)) ->
  RS st st' ->
  outR (prodR RS (tR RV)) (init_rindexed c s f st) (init_rindexed c s f' st').
Proof. intros. apply (@par_init_rindexed S S' V V' RS RV c s f f' st st'); auto. Qed.
Lemma c76_map {S S'} {U U'} {V V'} (RS : S -> S' -> Prop) (RU : U -> U' -> Prop) (RV : V -> V' -> Prop) (c : cfg) (a : tensor U) (a' : tensor U') (f : S -> U -> outcome (S * V)) (f' : S' -> U' -> outcome (S' * V')) (st : S) (st' : S') :
  tR RU a a' ->
  (forall x0 x0' x1 x1', RS x0 x0' -> RU x1 x1' -> outR (prodR RS RV) (f x0 x1) (f' x0' x1')) ->
  RS st st' ->
  outR (prodR RS (tR RV)) (map_ c a f st) (map_ c a' f' st').
Proof. intros. apply (@par_map_ S S' U U' V V' RS RU RV c a a' f f' st st'); auto. Qed.
Lemma c76_map_row {S S'} {U U'} {V V'} (RS : S -> S' -> Prop) (RU : U -> U' -> Prop) (RV : V -> V' -> Prop) (c : cfg) (N : nat) (a : tensor U) (a' : tensor U') (f : S -> list U -> outcome (S * list V)) (f' : S' -> list U' -> outcome (S' * list V')) (st : S) (st' : S') :
  tR RU a a' ->
  (forall x0 x0' x1 x1', RS x0 x0' -> Forall2 RU x1 x1' -> outR (prodR RS (Forall2 RV)) (f x0 x1) (f' x0' x1')) ->
  RS st st' ->
  outR (prodR RS (tR RV)) (map_row c N a f st) (map_row c N a' f' st').
Proof. intros. apply (@par_map_row S S' U U' V V' RS RU RV c N a a' f f' st st'); auto. Qed.
Lemma c76_map_expand {S S'} {U U'} {V V'} (RS : S -> S' -> Prop) (RU : U -> U' -> Prop) (RV : V -> V' -> Prop) (c : cfg) (N : nat) (a : tensor U) (a' : tensor U') (f : S -> U -> outcome (S * list V)) (f' : S' -> U' -> outcome (S' * list V')) (st : S) (st' : S') :
  tR RU a a' ->
  (forall x0 x0' x1 x1', RS x0 x0' -> RU x1 x1' -> outR (prodR RS (Forall2 RV)) (f x0 x1) (f' x0' x1')) ->
  RS st st' ->
  outR (prodR RS (tR RV)) (map_expand c N a f st) (map_expand c N a' f' st').
Proof. intros. apply (@par_map_expand S S' U U' V V' RS RU RV c N a a' f f' st st'); auto. Qed.
Lemma c76_map2 {S S'} {T T'} {U U'} {V V'} (RS : S -> S' -> Prop) (RT : T -> T' -> Prop) (RU : U -> U' -> Prop) (RV : V -> V' -> Prop) (c : cfg) (a : tensor T) (a' : tensor T') (b : tensor U) (b' : tensor U') (f : S -> T -> U -> outcome (S * V)) (f' : S' -> T' -> U' -> outcome (S' * V')) (st : S) (st' : S') :
  tR RT a a' ->
  tR RU b b' ->
  (forall x0 x0' x1 x1' x2 x2', RS x0 x0' -> RT x1 x1' -> RU x2 x2' -> outR (prodR RS RV) (f x0 x1 x2) (f' x0' x1' x2')) ->
  RS st st' ->
  outR (prodR RS (tR RV)) (map2 c a b f st) (map2 c a' b' f' st').
Proof. intros. apply (@par_map2 S S' T T' U U' V V' RS RT RU RV c a a' b b' f f' st st'); auto. Qed.
Lemma c76_map3 {S S'} {T T'} {U U'} {V V'} {W W'} (RS : S -> S' -> Prop) (RT : T -> T' -> Prop) (RU : U -> U' -> Prop) (RV : V -> V' -> Prop) (RW : W -> W' -> Prop) (c : cfg) (ta : tensor T) (ta' : tensor T') (tb : tensor U) (tb' : tensor U') (tc : tensor V) (tc' : tensor V') (f : S -> T -> U -> V -> outcome (S * W)) (f' : S' -> T' -> U' -> V' -> outcome (S' * W')) (st : S) (st' : S') :
  tR RT ta ta' ->
  tR RU tb tb' ->
  tR RV tc tc' ->
  (forall x0 x0' x1 x1' x2 x2' x3 x3', RS x0 x0' -> RT x1 x1' -> RU x2 x2' -> RV x3 x3' -> outR (prodR RS RW) (f x0 x1 x2 x3) (f' x0' x1' x2' x3')) ->
  RS st st' ->
  outR (prodR RS (tR RW)) (map3 c ta tb tc f st) (map3 c ta' tb' tc' f' st').
Proof. intros. apply (@par_map3 S S' T T' U U' V V' W W' RS RT RU RV RW c ta ta' tb tb' tc tc' f f' st st'); auto. Qed.
Lemma c76_fold {S S'} {U U'} {R R'} {V V'} (RS : S -> S' -> Prop) (RU : U -> U' -> Prop) (RR : R -> R' -> Prop) (RV : V -> V' -> Prop) (c : cfg) (t : tensor U) (t' : tensor U') (ini : R) (ini' : R') (into : R -> V) (into' : R' -> V') (f : S -> R -> U -> outcome (S * R)) (f' : S' -> R' -> U' -> outcome (S' * R')) (st : S) (st' : S') :
  tR RU t t' ->
  RR ini ini' ->
  (forall x0 x0', RR x0 x0' -> RV (into x0) (into' x0')) ->
  (forall x0 x0' x1 x1' x2 x2', RS x0 x0' -> RR x1 x1' -> RU x2 x2' -> outR (prodR RS RR) (f x0 x1 x2) (f' x0' x1' x2')) ->
  RS st st' ->
  outR (prodR RS (tR RV)) (fold_ c t ini into f st) (fold_ c t' ini' into' f' st').
Proof. intros. apply (@par_fold_ S S' U U' R R' V V' RS RU RR RV c t t' ini ini' into into' f f' st st'); auto. Qed.
Lemma c76_fold_axis {S S'} {T T'} {R R'} {V V'} (RS : S -> S' -> Prop) (RT : T -> T' -> Prop) (RR : R -> R' -> Prop) (RV : V -> V' -> Prop) (c : cfg) (t : tensor T) (t' : tensor T') (axis : option Z) (ini : R) (ini' : R') (into : R -> V) (into' : R' -> V') (f : S -> R -> T -> outcome (S * R)) (f' : S' -> R' -> T' -> outcome (S' * R')) (st : S) (st' : S') :
  tR RT t t' ->
  RR ini ini' ->
  (forall x0 x0', RR x0 x0' -> RV (into x0) (into' x0')) ->
  (forall x0 x0' x1 x1' x2 x2', RS x0 x0' -> RR x1 x1' -> RT x2 x2' -> outR (prodR RS RR) (f x0 x1 x2) (f' x0' x1' x2')) ->
  RS st st' ->
  outR (prodR RS (tR RV)) (fold_axis c t axis ini into f st) (fold_axis c t' axis ini' into' f' st').
Proof. intros. apply (@par_fold_axis S S' T T' R R' V V' RS RT RR RV c t t' axis ini ini' into into' f f' st st'); auto. Qed.
Lemma c76_fold_row {S S'} {T T'} {R R'} {V V'} (RS : S -> S' -> Prop) (RT : T -> T' -> Prop) (RR : R -> R' -> Prop) (RV : V -> V' -> Prop) (c : cfg) (N : nat) (t : tensor T) (t' : tensor T') (axis : option Z) (ini : R) (ini' : R') (into : R -> list V) (into' : R' -> list V') (f : S -> R -> list T -> outcome (S * R)) (f' : S' -> R' -> list T' -> outcome (S' * R')) (st : S) (st' : S') :
  tR RT t t' ->
  RR ini ini' ->
  (forall x0 x0', RR x0 x0' -> Forall2 RV (into x0) (into' x0')) ->
  (forall x0 x0' x1 x1' x2 x2', RS x0 x0' -> RR x1 x1' -> Forall2 RT x2 x2' -> outR (prodR RS RR) (f x0 x1 x2) (f' x0' x1' x2')) ->
  RS st st' ->
  outR (prodR RS (tR RV)) (fold_row c N t axis ini into f st) (fold_row c N t' axis ini' into' f' st').
Proof. intros. apply (@par_fold_row S S' T T' R R' V V' RS RT RR RV c N t t' axis ini ini' into into' f f' st st'); auto. Qed.
Lemma c76_reduce {S S'} {T T'} (RS : S -> S' -> Prop) (RT : T -> T' -> Prop) (c : cfg) (t : tensor T) (t' : tensor T') (f : S -> T -> T -> outcome (S * T)) (f' : S' -> T' -> T' -> outcome (S' * T')) (st : S) (st' : S') :
  tR RT t t' ->
  (forall x0 x0' x1 x1' x2 x2', RS x0 x0' -> RT x1 x1' -> RT x2 x2' -> outR (prodR RS RT) (f x0 x1 x2) (f' x0' x1' x2')) ->
  RS st st' ->
  outR (prodR RS (tR RT)) (reduce c t f st) (reduce c t' f' st').
Proof. intros. apply (@par_reduce S S' T T' RS RT c t t' f f' st st'); auto. Qed.
Lemma c76_reduce_axis {S S'} {T T'} (RS : S -> S' -> Prop) (RT : T -> T' -> Prop) (c : cfg) (t : tensor T) (t' : tensor T') (axis : option Z) (f : S -> T -> T -> outcome (S * T)) (f' : S' -> T' -> T' -> outcome (S' * T')) (st : S) (st' : S') :
  tR RT t t' ->
  (forall x0 x0' x1 x1' x2 x2', RS x0 x0' -> RT x1 x1' -> RT x2 x2' -> outR (prodR RS RT) (f x0 x1 x2) (f' x0' x1' x2')) ->
  RS st st' ->
  outR (prodR RS (tR RT)) (reduce_axis c t axis f st) (reduce_axis c t' axis f' st').
Proof. intros. apply (@par_reduce_axis S S' T T' RS RT c t t' axis f f' st st'); auto. Qed.
Lemma c76_normalize {S S'} {T T'} {R R'} {R1 R1'} {V V'} (RS : S -> S' -> Prop) (RT : T -> T' -> Prop) (RR : R -> R' -> Prop) (RR1 : R1 -> R1' -> Prop) (RV : V -> V' -> Prop) (c : cfg) (t : tensor T) (t' : tensor T') (axis : option Z) (ini : R) (ini' : R') (accum : S -> R -> T -> outcome (S * R)) (accum' : S' -> R' -> T' -> outcome (S' * R')) (complete : S -> R -> outcome (S * R1)) (complete' : S' -> R' -> outcome (S' * R1')) (norm : S -> R1 -> T -> outcome (S * V)) (norm' : S' -> R1' -> T' -> outcome (S' * V')) (st : S) (st' : S') :
  tR RT t t' ->
  RR ini ini' ->
  (forall x0 x0' x1 x1' x2 x2', RS x0 x0' -> RR x1 x1' -> RT x2 x2' -> outR (prodR RS RR) (accum x0 x1 x2) (accum' x0' x1' x2')) ->
  (forall x0 x0' x1 x1', RS x0 x0' -> RR x1 x1' -> outR (prodR RS RR1) (complete x0 x1) (complete' x0' x1')) ->
  (forall x0 x0' x1 x1' x2 x2', RS x0 x0' -> RR1 x1 x1' -> RT x2 x2' -> outR (prodR RS RV) (norm x0 x1 x2) (norm' x0' x1' x2')) ->
  RS st st' ->
  outR (prodR RS (tR RV)) (normalize c t axis ini accum complete norm st) (normalize c t' axis ini' accum' complete' norm' st').
Proof. intros. apply (@par_normalize S S' T T' R R' R1 R1' V V' RS RT RR RR1 RV c t t' axis ini ini' accum accum' complete complete' norm norm' st st'); auto. Qed.

(** ** Homomorphisms *)

Lemma c76_sum {A B} (f : A -> B) add add' c (t : tensor A) axis :
  (forall x y, add' (f x) (f y) = omap f (add x y)) ->
  reduce_sum c add' (tmap f t) = omap (tmap f) (reduce_sum c add t) /\
  reduce_sum_axis c add' (tmap f t) axis = omap (tmap f) (reduce_sum_axis c add t axis) /\
  reduce_product c add' (tmap f t) = omap (tmap f) (reduce_product c add t) /\
  reduce_product_axis c add' (tmap f t) axis = omap (tmap f) (reduce_product_axis c add t axis).
Proof.
  intros H.
  assert (H' : forall x x', gr f x x' -> forall y y', gr f y y' -> outR (gr f) (add x y) (add' x' y')).
  { intros x x' -> y y' ->. rewrite H. arg. }
  repeat match goal with |- _ /\ _ => split end; (eapply from_graph; [|first
    [eapply (par_reduce_sum (gr f)) | eapply (par_reduce_sum_axis (gr f)) | eapply (par_reduce_product (gr f))
    |eapply (par_reduce_product_axis (gr f))]; [exact H'|arg]]; auto with isgr).
Qed.

Lemma c76_minmax {A B} (f : A -> B) (o : fops A) (o' : fops B) c (t : tensor A) axis :
  (forall x y, flt o' (f x) (f y) = flt o x y) -> (forall x y, feq o' (f x) (f y) = feq o x y) ->
  reduce_min o' c (tmap f t) = omap (tmap f) (reduce_min o c t) /\
  reduce_min_axis o' c (tmap f t) axis = omap (tmap f) (reduce_min_axis o c t axis) /\
  reduce_max o' c (tmap f t) = omap (tmap f) (reduce_max o c t) /\
  reduce_max_axis o' c (tmap f t) axis = omap (tmap f) (reduce_max_axis o c t axis).
Proof.
  intros H1 H2.
  assert (H' : ordR (gr f) o o') by (split; intros x x' y y' -> ->; auto).
  repeat match goal with |- _ /\ _ => split end; (eapply from_graph; [|first
    [eapply (par_reduce_min (gr f)) | eapply (par_reduce_min_axis (gr f)) | eapply (par_reduce_max (gr f))
    |eapply (par_reduce_max_axis (gr f))]; [exact H'|arg]]; auto with isgr).
Qed.

Lemma c76_compare {A B} (f : A -> B) eqb eqb' cmp cmp' (t u : tensor A) :
  (forall x y, eqb' (f x) (f y) = eqb x y) -> (forall x y, cmp' (f x) (f y) = cmp x y) ->
  tensor_eqb eqb' (tmap f t) (tmap f u) = tensor_eqb eqb t u /\
  tensor_partial_cmp cmp' (tmap f t) (tmap f u) = tensor_partial_cmp cmp t u.
Proof.
  intros H1 H2.
  assert (E : forall X (x y : outcome X), outR eq x y -> y = x) by (now intros X x y []; subst).
  split; apply E; [eapply (par_tensor_eqb (gr f))|eapply (par_tensor_partial_cmp (gr f))]; try arg;
    intros x x' -> y y' ->; auto.
Qed.

Lemma c76_matmul {F G} (f : F -> G) (o : fops F) (o' : fops G) c (a b : tensor F) tr :
  f (fzero o) = fzero o' -> f (fone o) = fone o' ->
  (forall x y, f (fadd o x y) = fadd o' (f x) (f y)) -> (forall x y, f (fmul o x y) = fmul o' (f x) (f y)) ->
  (forall x y, feq o' (f x) (f y) = feq o x y) ->
  matmul_t o' c (tmap f a) (tmap f b) tr = omap (tmap f) (matmul_t o c a b tr) /\
  matvec_t o' c (tmap f a) (tmap f b) tr = omap (tmap f) (matvec_t o c a b tr).
Proof.
  intros H0 H1 Ha Hm He.
  assert (H' : ringR (gr f) o o').
  { split; unfold gr; [now symmetry|now symmetry| | |]; intros x x' y y' -> ->; auto. }
  split; (eapply from_graph; [|first [eapply (par_matmul_t (gr f)) | eapply (par_matvec_t (gr f))]; [exact H'|arg|arg]];
    auto with isgr).
Qed.

Lemma c76_matmul_int c (a b : tensor Z) tr :
  matmul_t R_ops c (tmap IZR a) (tmap IZR b) tr = omap (tmap IZR) (matmul_t Z_ops c a b tr) /\
  matvec_t R_ops c (tmap IZR a) (tmap IZR b) tr = omap (tmap IZR) (matvec_t Z_ops c a b tr).
Proof.
  apply c76_matmul; try reflexivity.
  - intros x y. apply plus_IZR.
  - intros x y. apply mult_IZR.
  - intros x y. cbn. destruct (Req_EM_T (IZR x) (IZR y)) as [E|E]; symmetry.
    + apply Z.eqb_eq. now apply eq_IZR.
    + apply Z.eqb_neq. congruence.
Qed.
