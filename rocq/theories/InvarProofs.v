(** * C81: operations keep what holds of all the elements *)
From Coq Require Import Reals String.
From Verif Require Import Base ShapeModel TensorModel AxisModel MapModel ArrayModel NumModel
  FromModel ArgModel FloatModel InitModel MathModel LinalgModel LinalgSpec SignalModel FmtModel WrapModel
  ParamSpec ParamFacts ParamProofs InvarSpec.
Import TensorModel.

(** A relation between equal values that have a property. *)
Definition isdg {A} (R : A -> A -> Prop) (P : A -> Prop) : Prop := forall x y, R x y <-> y = x /\ P x.
Definition dg {A} (P : A -> Prop) (x y : A) : Prop := y = x /\ P x.

Lemma isdg_dg {A} (P : A -> Prop) : isdg (dg P) P.
Proof. now intros x y. Qed.
Lemma isdg_list {A} (R : A -> A -> Prop) P : isdg R P -> isdg (Forall2 R) (Forall P).
Proof.
  intros H x y. split.
  - induction 1 as [|a b x y E _ IH]; [split; auto|]. apply H in E. destruct E as [-> E], IH as [-> IH]. split; auto.
  - intros [-> K]. induction K; constructor; auto. now apply H.
Qed.
Lemma isdg_opt {A} (R : A -> A -> Prop) P : isdg R P -> isdg (optR R) (optall P).
Proof.
  intros H x y. split.
  - intros [a b E|]; [|split; [reflexivity|intros a K; discriminate]]. apply H in E. destruct E as [-> E].
    split; [reflexivity|]. intros a' K. injection K as <-. exact E.
  - intros [-> K]. destruct x as [a|]; constructor. apply H. auto.
Qed.
Lemma isdg_out {A} (R : A -> A -> Prop) P : isdg R P -> isdg (outR R) (okall P).
Proof.
  intros H x y. split.
  - intros [a b E| |]; [|split; [reflexivity|intros a K; discriminate]..]. apply H in E. destruct E as [-> E].
    split; [reflexivity|]. intros a' K. injection K as <-. exact E.
  - intros [-> K]. destruct x as [a| |]; constructor. apply H. auto.
Qed.
Lemma isdg_prod {A B} (R : A -> A -> Prop) (Q : B -> B -> Prop) P P' :
  isdg R P -> isdg Q P' -> isdg (prodR R Q) (pairall P P').
Proof.
  intros H H' [x x'] [y y']. split.
  - intros [E E']. apply H in E. apply H' in E'. cbn in *. destruct E as [-> E], E' as [-> E']. now split.
  - intros [E [K K']]. injection E as -> ->. split; [now apply H|now apply H'].
Qed.
Lemma isdg_t {A} (R : A -> A -> Prop) P : isdg R P -> isdg (tR R) (tall P).
Proof.
  intros H x y. split.
  - intros (E1 & E2 & E3 & E4). apply (isdg_list _ _ H) in E4. destruct x, y, E4. cbn in *. split; [congruence|assumption].
  - intros [-> K]. split; [reflexivity|]. split; [reflexivity|]. split; [reflexivity|]. now apply (isdg_list _ _ H).
Qed.
Lemma isdg_piece {A} (R : A -> A -> Prop) P : isdg R P -> isdg (pieceR R) (pieceall P).
Proof.
  intros H x y. split.
  - intros [s|a b E]; [split; [reflexivity|intros a K; discriminate]|]. apply H in E. destruct E as [-> E].
    split; [reflexivity|]. intros a' K. injection K as <-. exact E.
  - intros [-> K]. destruct x; constructor. apply H. auto.
Qed.
Lemma isdg_tl {A} (R : A -> A -> Prop) P : isdg R P -> isdg (tlR R) (tlall P).
Proof.
  intros H x y. split.
  - intros [a b E|a b E|a b E].
    + apply (isdg_list _ _ (isdg_t _ _ H)) in E. destruct E as [-> E]. now split.
    + apply (isdg_list _ _ (isdg_list _ _ H)) in E. destruct E as [-> E]. now split.
    + apply (isdg_list _ _ (isdg_out _ _ (isdg_t _ _ H))) in E. destruct E as [-> E]. now split.
  - intros [-> K]. destruct x; cbn in K; constructor.
    + now apply (isdg_list _ _ (isdg_t _ _ H)).
    + now apply (isdg_list _ _ (isdg_list _ _ H)).
    + now apply (isdg_list _ _ (isdg_out _ _ (isdg_t _ _ H))).
Qed.
Global Hint Resolve isdg_dg isdg_list isdg_opt isdg_out isdg_prod isdg_t isdg_piece isdg_tl : isdg.

Lemma to_dg {A} (R : A -> A -> Prop) P x : isdg R P -> P x -> R x x.
Proof. intros H K. now apply H. Qed.
Lemma from_dg {A} (R : A -> A -> Prop) P x : isdg R P -> R x x -> P x.
Proof. intros H K. now apply H in K. Qed.

Ltac argd := first [reflexivity | apply outR_same
  | match goal with |- ?R ?x ?x => eapply (to_dg R _ x); [solve [auto 8 with isdg]|eassumption] end].
Ltac inv_ lem P := intros; eapply from_dg; [|eapply (lem _ _ (dg P)); argd]; auto 8 with isdg.
(** For closures: the arguments of the closure are equal and have the properties. *)
Ltac argc := intros;
  repeat match goal with H : dg _ _ _ |- _ => destruct H as [-> H] end;
  repeat match goal with H : Forall2 (dg ?P) _ _ |- _ => apply (isdg_list _ _ (isdg_dg P)) in H; destruct H as [-> H] end;
  match goal with
  | |- dg _ _ _ => split; [reflexivity|auto]
  | |- ?R ?x ?x => eapply (to_dg R _ x); [solve [auto 8 with isdg]|auto]
  end.

Lemma c81_views {A} (P : A -> Prop) c :
  (forall (t : tensor A),
    tall P t -> okall (Forall P) (as_slice t)) /\
  (forall (t : tensor A),
    tall P t -> okall (Forall (Forall P)) (iter_row t)) /\
  (forall (t : tensor A) (offset : nat),
    tall P t -> okall (Forall P) (as_wrap_slice t offset)) /\
  (forall (t : tensor A) (offset : nat) (len : nat),
    tall P t -> okall (Forall P) (as_wrap_slice_n c t offset len)) /\
  (forall (t : tensor A) (offset : nat),
    tall P t -> okall (optall P) (get c t offset)) /\
  (forall (t : tensor A) (i : nat),
    tall P t -> okall P (index1 t i)) /\
  (forall (t : tensor A) (i : nat) (j : nat),
    tall P t -> okall P (index2 c t i j)) /\
  (forall (t : tensor A) (i : nat) (j : nat) (k : nat),
    tall P t -> okall P (index3 c t i j k)) /\
  (forall (t : tensor A) (h : nat) (i : nat) (j : nat) (k : nat),
    tall P t -> okall P (index4 c t h i j k)) /\
  (forall (t : tensor A) (g : nat) (h : nat) (i : nat) (j : nat) (k : nat),
    tall P t -> okall P (index5 c t g h i j k)) /\
  (forall (t : tensor A) (s : shape),
    tall P t -> okall (tall P) (reshape c t s)) /\
  (forall (t : tensor A) (axis : option Z),
    tall P t -> okall (tall P) (t_expand_dims c t axis)) /\
  (forall (t : tensor A),
    tall P t -> okall (tall P) (flatten c t)) /\
  (forall (t : tensor A),
    tall P t -> okall (tall P) (t_squeeze c t)) /\
  (forall (t : tensor A) (axis : option Z),
    tall P t -> okall (tall P) (squeeze_axis c t axis)) /\
  (forall (t : tensor A) (offset : nat) (len : nat) (s : outcome shape),
    tall P t -> okall (tall P) (subslice_flat c t offset len s)) /\
  (forall (t : tensor A) (offset : nat) (len : nat),
    tall P t -> okall (tall P) (subslice c t offset len)).
Proof.
  repeat match goal with |- _ /\ _ => split end.
  - inv_ @par_as_slice P.
  - inv_ @par_iter_row P.
  - inv_ @par_as_wrap_slice P.
  - inv_ @par_as_wrap_slice_n P.
  - inv_ @par_get P.
  - inv_ @par_index1 P.
  - inv_ @par_index2 P.
  - inv_ @par_index3 P.
  - inv_ @par_index4 P.
  - inv_ @par_index5 P.
  - inv_ @par_reshape P.
  - inv_ @par_t_expand_dims P.
  - inv_ @par_flatten P.
  - inv_ @par_t_squeeze P.
  - inv_ @par_squeeze_axis P.
  - inv_ @par_subslice_flat P.
  - inv_ @par_subslice P.
Qed.

Lemma c81_arrays {A} (P : A -> Prop) c :
  (forall (t : tensor A),
    tall P t -> okall (tall P) (transpose c t)) /\
  (forall (axis : option Z) (t : tensor A) (s : sections),
    tall P t -> okall (Forall (tall P)) (split_axis c axis t s)) /\
  (forall (axis : option Z) (t : tensor A),
    tall P t -> okall (Forall (tall P)) (unstack c axis t)) /\
  (forall (t : tensor A) (u : tensor A),
    tall P t -> tall P u -> okall (tall P) (append c t u)) /\
  (forall (ts : list (tensor A)) (s : shape),
    Forall (tall P) ts -> okall (tall P) (from_merge c ts s)) /\
  (forall (args : list (tensor A)),
    Forall (tall P) args -> okall (tall P) (concatenate c args)) /\
  (forall (axis : option Z) (args : list (tensor A)),
    Forall (tall P) args -> okall (tall P) (concatenate_axis c axis args)) /\
  (forall (x : list (tensor A)),
    Forall (tall P) x -> okall (tall P) (stack c x)) /\
  (forall (axis : option Z) (x : list (tensor A)),
    Forall (tall P) x -> okall (tall P) (stack_axis c axis x)) /\
  (forall (x : list (tensor A)),
    Forall (tall P) x -> okall (tall P) (dstack c x)) /\
  (forall (x : list (tensor A)),
    Forall (tall P) x -> okall (tall P) (hstack c x)) /\
  (forall (x : list (tensor A)),
    Forall (tall P) x -> okall (tall P) (vstack c x)) /\
  (forall (t : tensor A) (multiples : tensor nat),
    tall P t -> okall (tall P) (tile c t multiples)).
Proof.
  repeat match goal with |- _ /\ _ => split end.
  - inv_ @par_transpose P.
  - inv_ @par_split_axis P.
  - inv_ @par_unstack P.
  - inv_ @par_append P.
  - inv_ @par_from_merge P.
  - inv_ @par_concatenate P.
  - inv_ @par_concatenate_axis P.
  - inv_ @par_stack P.
  - inv_ @par_stack_axis P.
  - inv_ @par_dstack P.
  - inv_ @par_hstack P.
  - inv_ @par_vstack P.
  - inv_ @par_tile P.
Qed.

Lemma c81_conversions {A} (P : A -> Prop) c :
  (forall (v : list A) (s : shape),
    Forall P v -> okall (tall P) (from_vec c v s)) /\
  (forall (data : list A),
    Forall P data -> okall (tall P) (from_slice c data)) /\
  (forall (v : list (list A)),
    Forall (Forall P) v -> okall (tall P) (join_vec c v)) /\
  (forall (v : A),
    P v -> okall (tall P) (of_value c v)) /\
  (forall (v : option A),
    optall P v -> okall (tall P) (of_option c v)) /\
  (forall (v : list A),
    Forall P v -> okall (tall P) (of_vec c v)) /\
  (forall (n : nat) (v : list (list A)),
    Forall (Forall P) v -> okall (tall P) (of_rows c n v)) /\
  (forall (m : nat) (n : nat) (v : list (list (list A))),
    Forall (Forall (Forall P)) v -> okall (tall P) (of_rows2 c m n v)) /\
  (forall (l : nat) (m : nat) (n : nat) (v : list (list (list (list A)))),
    Forall (Forall (Forall (Forall P))) v -> okall (tall P) (of_rows3 c l m n v)) /\
  (forall (v : list (list A)),
    Forall (Forall P) v -> okall (tall P) (of_vec2 c v)) /\
  (forall (v : list (list (list A))),
    Forall (Forall (Forall P)) v -> okall (tall P) (of_vec3 c v)) /\
  (forall (v : list (list (list (list A)))),
    Forall (Forall (Forall (Forall P))) v -> okall (tall P) (of_vec4 c v)) /\
  (forall (v : list (list (list (list (list A))))),
    Forall (Forall (Forall (Forall (Forall P)))) v -> okall (tall P) (of_vec5 c v)) /\
  (forall (n : nat) (v : list (list (list A))),
    Forall (Forall (Forall P)) v -> okall (tall P) (of_vec_rows c n v)) /\
  (forall (ts : list (tensor A)),
    Forall (tall P) ts -> okall (tall P) (of_tensors c ts)).
Proof.
  repeat match goal with |- _ /\ _ => split end.
  - inv_ @par_from_vec P.
  - inv_ @par_from_slice P.
  - inv_ @par_join_vec P.
  - inv_ @par_of_value P.
  - inv_ @par_of_option P.
  - inv_ @par_of_vec P.
  - inv_ @par_of_rows P.
  - inv_ @par_of_rows2 P.
  - inv_ @par_of_rows3 P.
  - inv_ @par_of_vec2 P.
  - inv_ @par_of_vec3 P.
  - inv_ @par_of_vec4 P.
  - inv_ @par_of_vec5 P.
  - inv_ @par_of_vec_rows P.
  - inv_ @par_of_tensors P.
Qed.

Lemma c81_arguments {A} (P : A -> Prop) c :
  (forall (x : tensor_list A) (vec : list (tensor A)),
    tlall P x -> Forall (tall P) vec -> okall (Forall (tall P)) (into_list c x vec)) /\
  (forall (x : tensor_list A),
    tlall P x -> okall (tall P) (concatenate_args c x)) /\
  (forall (axis : option Z) (x : tensor_list A),
    tlall P x -> okall (tall P) (concatenate_axis_args c axis x)) /\
  (forall (x : tensor_list A),
    tlall P x -> okall (tall P) (stack_args c x)) /\
  (forall (axis : option Z) (x : tensor_list A),
    tlall P x -> okall (tall P) (stack_axis_args c axis x)) /\
  (forall (x : tensor_list A),
    tlall P x -> okall (tall P) (dstack_args c x)) /\
  (forall (x : tensor_list A),
    tlall P x -> okall (tall P) (hstack_args c x)) /\
  (forall (x : tensor_list A),
    tlall P x -> okall (tall P) (vstack_args c x)) /\
  (forall (t : tensor A) (others : tensor_list A),
    tall P t -> tlall P others -> okall (tall P) (m_concatenate c t others)) /\
  (forall (t : tensor A) (axis : option Z) (others : tensor_list A),
    tall P t -> tlall P others -> okall (tall P) (m_concatenate_axis c t axis others)) /\
  (forall (t : tensor A) (others : tensor_list A) (axis : option Z),
    tall P t -> tlall P others -> okall (tall P) (m_stack c t others axis)) /\
  (forall (t : tensor A) (others : tensor_list A),
    tall P t -> tlall P others -> okall (tall P) (m_dstack c t others)) /\
  (forall (t : tensor A) (others : tensor_list A),
    tall P t -> tlall P others -> okall (tall P) (m_vstack c t others)).
Proof.
  repeat match goal with |- _ /\ _ => split end.
  - inv_ @par_into_list P.
  - inv_ @par_concatenate_args P.
  - inv_ @par_concatenate_axis_args P.
  - inv_ @par_stack_args P.
  - inv_ @par_stack_axis_args P.
  - inv_ @par_dstack_args P.
  - inv_ @par_hstack_args P.
  - inv_ @par_vstack_args P.
  - inv_ @par_m_concatenate P.
  - inv_ @par_m_concatenate_axis P.
  - inv_ @par_m_stack P.
  - inv_ @par_m_dstack P.
  - inv_ @par_m_vstack P.
Qed.

Lemma c81_matrices {A} (P : A -> Prop) c :
  (forall (s : shape) (v : A),
    P v -> okall (tall P) (fill c s v)) /\
  (forall (zero : A) (one : A) (n : nat),
    P zero -> P one -> okall (tall P) (eye c zero one n)) /\
  (forall (zero : A) (one : A) (n : nat),
    P zero -> P one -> okall (tall P) (tri c zero one n)) /\
  (forall (zero : A) (diag : tensor A),
    P zero -> tall P diag -> okall (tall P) (diagflat c zero diag)) /\
  (forall (zero : A) (t : tensor A),
    P zero -> tall P t -> okall (tall P) (tril c zero t)) /\
  (forall (zero : A) (t : tensor A),
    P zero -> tall P t -> okall (tall P) (triu c zero t)) /\
  (forall (axes : list (tensor A)),
    Forall (tall P) axes -> okall (Forall (tall P)) (meshgrid c axes)) /\
  (forall (axes : list (tensor A)),
    Forall (tall P) axes -> okall (Forall (tall P)) (meshgrid_ij c axes)).
Proof.
  repeat match goal with |- _ /\ _ => split end.
  - inv_ @par_fill P.
  - inv_ @par_eye P.
  - inv_ @par_tri P.
  - inv_ @par_diagflat P.
  - inv_ @par_tril P.
  - inv_ @par_triu P.
  - inv_ @par_meshgrid P.
  - inv_ @par_meshgrid_ij P.
Qed.

Lemma c81_text {A} (P : A -> Prop) c :
  (forall (name : String.string) (t : tensor A),
    tall P t -> okall (Forall (pieceall P)) (fmt_tensor c name t)).
Proof.
  repeat match goal with |- _ /\ _ => split end.
  - inv_ @par_fmt_tensor P.
Qed.

Lemma c81_init {S} {V} (I : S -> Prop) (PV : V -> Prop)
    (c : cfg) (s : shape) (f : S -> outcome (S * V)) (st : S) :
  (forall x0, I x0 -> okall (pairall I PV) (f x0)) ->
  I st ->
  okall (pairall I (tall PV)) (init c s f st).
Proof.
  intros. eapply from_dg; [|eapply (c76_init (dg I) (dg PV)); argc]; auto 8 with isdg.
Qed.
Lemma c81_init_rindexed {S} {V} (I : S -> Prop) (PV : V -> Prop)
    (c : cfg) (s : shape) (f : S -> list nat -> outcome (S * V)) (st : S) :
  (forall x0 x1, I x0 -> okall (pairall I PV) (f x0 x1)) ->
  I st ->
  okall (pairall I (tall PV)) (init_rindexed c s f st).
Proof.
  intros. eapply from_dg; [|eapply (c76_init_rindexed (dg I) (dg PV)); argc]; auto 8 with isdg.
Qed.
Lemma c81_map {S} {U} {V} (I : S -> Prop) (PU : U -> Prop) (PV : V -> Prop)
    (c : cfg) (a : tensor U) (f : S -> U -> outcome (S * V)) (st : S) :
  tall PU a ->
  (forall x0 x1, I x0 -> PU x1 -> okall (pairall I PV) (f x0 x1)) ->
  I st ->
  okall (pairall I (tall PV)) (map_ c a f st).
Proof.
  intros. eapply from_dg; [|eapply (c76_map (dg I) (dg PU) (dg PV)); argc]; auto 8 with isdg.
Qed.
Lemma c81_map_row {S} {U} {V} (I : S -> Prop) (PU : U -> Prop) (PV : V -> Prop)
    (c : cfg) (N : nat) (a : tensor U) (f : S -> list U -> outcome (S * list V)) (st : S) :
  tall PU a ->
  (forall x0 x1, I x0 -> Forall PU x1 -> okall (pairall I (Forall PV)) (f x0 x1)) ->
  I st ->
  okall (pairall I (tall PV)) (map_row c N a f st).
Proof.
  intros. eapply from_dg; [|eapply (c76_map_row (dg I) (dg PU) (dg PV)); argc]; auto 8 with isdg.
Qed.
Lemma c81_map_expand {S} {U} {V} (I : S -> Prop) (PU : U -> Prop) (PV : V -> Prop)
    (c : cfg) (N : nat) (a : tensor U) (f : S -> U -> outcome (S * list V)) (st : S) :
  tall PU a ->
  (forall x0 x1, I x0 -> PU x1 -> okall (pairall I (Forall PV)) (f x0 x1)) ->
  I st ->
  okall (pairall I (tall PV)) (map_expand c N a f st).
Proof.
  intros. eapply from_dg; [|eapply (c76_map_expand (dg I) (dg PU) (dg PV)); argc]; auto 8 with isdg.
Qed.
Lemma c81_map2 {S} {T} {U} {V} (I : S -> Prop) (PT : T -> Prop) (PU : U -> Prop) (PV : V -> Prop)
    (c : cfg) (a : tensor T) (b : tensor U) (f : S -> T -> U -> outcome (S * V)) (st : S) :
  tall PT a ->
  tall PU b ->
  (forall x0 x1 x2, I x0 -> PT x1 -> PU x2 -> okall (pairall I PV) (f x0 x1 x2)) ->
  I st ->
  okall (pairall I (tall PV)) (map2 c a b f st).
Proof.
  intros. eapply from_dg; [|eapply (c76_map2 (dg I) (dg PT) (dg PU) (dg PV)); argc]; auto 8 with isdg.
Qed.
Lemma c81_map3 {S} {T} {U} {V} {W} (I : S -> Prop) (PT : T -> Prop) (PU : U -> Prop) (PV : V -> Prop) (PW : W -> Prop)
    (c : cfg) (ta : tensor T) (tb : tensor U) (tc : tensor V) (f : S -> T -> U -> V -> outcome (S * W)) (st : S) :
  tall PT ta ->
  tall PU tb ->
  tall PV tc ->
  (forall x0 x1 x2 x3, I x0 -> PT x1 -> PU x2 -> PV x3 -> okall (pairall I PW) (f x0 x1 x2 x3)) ->
  I st ->
  okall (pairall I (tall PW)) (map3 c ta tb tc f st).
Proof.
  intros. eapply from_dg; [|eapply (c76_map3 (dg I) (dg PT) (dg PU) (dg PV) (dg PW)); argc]; auto 8 with isdg.
Qed.
Lemma c81_fold {S} {U} {R} {V} (I : S -> Prop) (PU : U -> Prop) (PR : R -> Prop) (PV : V -> Prop)
    (c : cfg) (t : tensor U) (ini : R) (into : R -> V) (f : S -> R -> U -> outcome (S * R)) (st : S) :
  tall PU t ->
  PR ini ->
  (forall x0, PR x0 -> PV (into x0)) ->
  (forall x0 x1 x2, I x0 -> PR x1 -> PU x2 -> okall (pairall I PR) (f x0 x1 x2)) ->
  I st ->
  okall (pairall I (tall PV)) (fold_ c t ini into f st).
Proof.
  intros. eapply from_dg; [|eapply (c76_fold (dg I) (dg PU) (dg PR) (dg PV)); argc]; auto 8 with isdg.
Qed.
Lemma c81_fold_axis {S} {T} {R} {V} (I : S -> Prop) (PT : T -> Prop) (PR : R -> Prop) (PV : V -> Prop)
    (c : cfg) (t : tensor T) (axis : option Z) (ini : R) (into : R -> V) (f : S -> R -> T -> outcome (S * R)) (st : S) :
  tall PT t ->
  PR ini ->
  (forall x0, PR x0 -> PV (into x0)) ->
  (forall x0 x1 x2, I x0 -> PR x1 -> PT x2 -> okall (pairall I PR) (f x0 x1 x2)) ->
  I st ->
  okall (pairall I (tall PV)) (fold_axis c t axis ini into f st).
Proof.
  intros. eapply from_dg; [|eapply (c76_fold_axis (dg I) (dg PT) (dg PR) (dg PV)); argc]; auto 8 with isdg.
Qed.
Lemma c81_fold_row {S} {T} {R} {V} (I : S -> Prop) (PT : T -> Prop) (PR : R -> Prop) (PV : V -> Prop)
    (c : cfg) (N : nat) (t : tensor T) (axis : option Z) (ini : R) (into : R -> list V) (f : S -> R -> list T -> outcome (S * R)) (st : S) :
  tall PT t ->
  PR ini ->
  (forall x0, PR x0 -> Forall PV (into x0)) ->
  (forall x0 x1 x2, I x0 -> PR x1 -> Forall PT x2 -> okall (pairall I PR) (f x0 x1 x2)) ->
  I st ->
  okall (pairall I (tall PV)) (fold_row c N t axis ini into f st).
Proof.
  intros. eapply from_dg; [|eapply (c76_fold_row (dg I) (dg PT) (dg PR) (dg PV)); argc]; auto 8 with isdg.
Qed.
Lemma c81_reduce {S} {T} (I : S -> Prop) (PT : T -> Prop)
    (c : cfg) (t : tensor T) (f : S -> T -> T -> outcome (S * T)) (st : S) :
  tall PT t ->
  (forall x0 x1 x2, I x0 -> PT x1 -> PT x2 -> okall (pairall I PT) (f x0 x1 x2)) ->
  I st ->
  okall (pairall I (tall PT)) (reduce c t f st).
Proof.
  intros. eapply from_dg; [|eapply (c76_reduce (dg I) (dg PT)); argc]; auto 8 with isdg.
Qed.
Lemma c81_reduce_axis {S} {T} (I : S -> Prop) (PT : T -> Prop)
    (c : cfg) (t : tensor T) (axis : option Z) (f : S -> T -> T -> outcome (S * T)) (st : S) :
  tall PT t ->
  (forall x0 x1 x2, I x0 -> PT x1 -> PT x2 -> okall (pairall I PT) (f x0 x1 x2)) ->
  I st ->
  okall (pairall I (tall PT)) (reduce_axis c t axis f st).
Proof.
  intros. eapply from_dg; [|eapply (c76_reduce_axis (dg I) (dg PT)); argc]; auto 8 with isdg.
Qed.
Lemma c81_normalize {S} {T} {R} {R1} {V} (I : S -> Prop) (PT : T -> Prop) (PR : R -> Prop) (PR1 : R1 -> Prop) (PV : V -> Prop)
    (c : cfg) (t : tensor T) (axis : option Z) (ini : R) (accum : S -> R -> T -> outcome (S * R)) (complete : S -> R -> outcome (S * R1)) (norm : S -> R1 -> T -> outcome (S * V)) (st : S) :
  tall PT t ->
  PR ini ->
  (forall x0 x1 x2, I x0 -> PR x1 -> PT x2 -> okall (pairall I PR) (accum x0 x1 x2)) ->
  (forall x0 x1, I x0 -> PR x1 -> okall (pairall I PR1) (complete x0 x1)) ->
  (forall x0 x1 x2, I x0 -> PR1 x1 -> PT x2 -> okall (pairall I PV) (norm x0 x1 x2)) ->
  I st ->
  okall (pairall I (tall PV)) (normalize c t axis ini accum complete norm st).
Proof.
  intros. eapply from_dg; [|eapply (c76_normalize (dg I) (dg PT) (dg PR) (dg PR1) (dg PV)); argc]; auto 8 with isdg.
Qed.

Lemma tall_in {A} (l : list A) t : incl (tdata t) l -> tall (fun x => In x l) t.
Proof. intros H. apply Forall_forall. auto. Qed.
Lemma in_tall {A} (l : list A) t : tall (fun x => In x l) t -> incl (tdata t) l.
Proof. intros H x K. unfold tall in H. rewrite Forall_forall in H. auto. Qed.
Lemma tall_concat {A} (ts : list (tensor A)) : Forall (tall (fun x => In x (concat (map tdata ts)))) ts.
Proof.
  apply Forall_forall. intros t H. apply tall_in. intros x K. apply in_concat. exists (tdata t).
  split; [now apply in_map|assumption].
Qed.

Lemma c81_elements {A} c :
  (forall (t r : tensor A), transpose c t = Ok r -> incl (tdata r) (tdata t)) /\
  (forall (t r : tensor A) multiples, tile c t multiples = Ok r -> incl (tdata r) (tdata t)) /\
  (forall axis (ts : list (tensor A)) r, concatenate_axis c axis ts = Ok r -> incl (tdata r) (concat (map tdata ts))) /\
  (forall axis (ts : list (tensor A)) r, stack_axis c axis ts = Ok r -> incl (tdata r) (concat (map tdata ts))) /\
  (forall zero (t r : tensor A), tril c zero t = Ok r -> incl (tdata r) (zero :: tdata t)) /\
  (forall zero (t r : tensor A), triu c zero t = Ok r -> incl (tdata r) (zero :: tdata t)).
Proof.
  split; [|split; [|split; [|split; [|split]]]].
  - intros t r H. apply in_tall. apply (proj1 (c81_arrays (fun x => In x (tdata t)) c) t); [|assumption].
    apply tall_in, incl_refl.
  - intros t r m H. destruct (c81_arrays (fun x => In x (tdata t)) c) as (_ & _ & _ & _ & _ & _ & _ & _ & _ & _ & _ & _ & K).
    apply in_tall. apply (K t m); [|assumption]. apply tall_in, incl_refl.
  - intros axis ts r H. destruct (c81_arrays (fun x => In x (concat (map tdata ts))) c) as (_ & _ & _ & _ & _ & _ & K & _).
    apply in_tall. apply (K axis ts); [|assumption]. apply tall_concat.
  - intros axis ts r H. destruct (c81_arrays (fun x => In x (concat (map tdata ts))) c) as (_ & _ & _ & _ & _ & _ & _ & _ & K & _).
    apply in_tall. apply (K axis ts); [|assumption]. apply tall_concat.
  - intros zero t r H. destruct (c81_matrices (fun x => In x (zero :: tdata t)) c) as (_ & _ & _ & _ & K & _).
    apply in_tall. apply (K zero t); [now left| |assumption]. apply tall_in. intros x L. now right.
  - intros zero t r H. destruct (c81_matrices (fun x => In x (zero :: tdata t)) c) as (_ & _ & _ & _ & _ & K & _).
    apply in_tall. apply (K zero t); [now left| |assumption]. apply tall_in. intros x L. now right.
Qed.
