(** * C81: operations keep what holds of all the elements *)
From Coq Require Import String.
From Verif Require Import Base ShapeModel TensorModel AxisModel MapModel ArrayModel NumModel
  FromModel ArgModel FloatModel InitModel MathModel LinalgModel SignalModel FmtModel WrapModel InvarSpec InvarProofs.
Import TensorModel.

(** ** C81 *)

(** Reading a tensor and taking a view of it: what holds of every element of the buffer holds of every element read, and of every element of the buffer of the view. *)
Theorem C81_views {A} (P : A -> Prop) c :
  (forall (t : tensor A),
    tall P t -> okall (Forall P) (as_slice t)) /\
  (forall (t : tensor A),
    tall P t -> okall (Forall (Forall P)) (iter_row t)) /\
  (forall (t : tensor A) (offset : nat),
    tall P t -> okall (Forall P) (as_wrap_slice t offset)) /\
  (forall (t : tensor A) (offset : nat) (len : nat),
    tall P t -> okall (Forall P) (as_wrap_slice_n c t offset len)) /\
  (forall (t : tensor A) (offset : nat),
    tall P t -> okall (optall P) (get c t offset)) /\
  (forall (t : tensor A) (i : nat),
    tall P t -> okall P (index1 t i)) /\
  (forall (t : tensor A) (i : nat) (j : nat),
    tall P t -> okall P (index2 c t i j)) /\
  (forall (t : tensor A) (i : nat) (j : nat) (k : nat),
    tall P t -> okall P (index3 c t i j k)) /\
  (forall (t : tensor A) (h : nat) (i : nat) (j : nat) (k : nat),
    tall P t -> okall P (index4 c t h i j k)) /\
  (forall (t : tensor A) (g : nat) (h : nat) (i : nat) (j : nat) (k : nat),
    tall P t -> okall P (index5 c t g h i j k)) /\
  (forall (t : tensor A) (s : shape),
    tall P t -> okall (tall P) (reshape c t s)) /\
  (forall (t : tensor A) (axis : option Z),
    tall P t -> okall (tall P) (t_expand_dims c t axis)) /\
  (forall (t : tensor A),
    tall P t -> okall (tall P) (flatten c t)) /\
  (forall (t : tensor A),
    tall P t -> okall (tall P) (t_squeeze c t)) /\
  (forall (t : tensor A) (axis : option Z),
    tall P t -> okall (tall P) (squeeze_axis c t axis)) /\
  (forall (t : tensor A) (offset : nat) (len : nat) (s : outcome shape),
    tall P t -> okall (tall P) (subslice_flat c t offset len s)) /\
  (forall (t : tensor A) (offset : nat) (len : nat),
    tall P t -> okall (tall P) (subslice c t offset len)).
Proof. exact (@c81_views A P c). Qed.
Print Assumptions C81_views.

(** The same for the operations that rearrange and join: they make no elements of their own. Nothing is said here of the elements that the result shows, which are among those of its buffer. *)
Theorem C81_arrays {A} (P : A -> Prop) c :
  (forall (t : tensor A),
    tall P t -> okall (tall P) (transpose c t)) /\
  (forall (axis : option Z) (t : tensor A) (s : sections),
    tall P t -> okall (Forall (tall P)) (split_axis c axis t s)) /\
  (forall (axis : option Z) (t : tensor A),
    tall P t -> okall (Forall (tall P)) (unstack c axis t)) /\
  (forall (t : tensor A) (u : tensor A),
    tall P t -> tall P u -> okall (tall P) (append c t u)) /\
  (forall (ts : list (tensor A)) (s : shape),
    Forall (tall P) ts -> okall (tall P) (from_merge c ts s)) /\
  (forall (args : list (tensor A)),
    Forall (tall P) args -> okall (tall P) (concatenate c args)) /\
  (forall (axis : option Z) (args : list (tensor A)),
    Forall (tall P) args -> okall (tall P) (concatenate_axis c axis args)) /\
  (forall (x : list (tensor A)),
    Forall (tall P) x -> okall (tall P) (stack c x)) /\
  (forall (axis : option Z) (x : list (tensor A)),
    Forall (tall P) x -> okall (tall P) (stack_axis c axis x)) /\
  (forall (x : list (tensor A)),
    Forall (tall P) x -> okall (tall P) (dstack c x)) /\
  (forall (x : list (tensor A)),
    Forall (tall P) x -> okall (tall P) (hstack c x)) /\
  (forall (x : list (tensor A)),
    Forall (tall P) x -> okall (tall P) (vstack c x)) /\
  (forall (t : tensor A) (multiples : tensor nat),
    tall P t -> okall (tall P) (tile c t multiples)).
Proof. exact (@c81_arrays A P c). Qed.
Print Assumptions C81_arrays.

(** The same for the conversions into tensors. *)
Theorem C81_conversions {A} (P : A -> Prop) c :
  (forall (v : list A) (s : shape),
    Forall P v -> okall (tall P) (from_vec c v s)) /\
  (forall (data : list A),
    Forall P data -> okall (tall P) (from_slice c data)) /\
  (forall (v : list (list A)),
    Forall (Forall P) v -> okall (tall P) (join_vec c v)) /\
  (forall (v : A),
    P v -> okall (tall P) (of_value c v)) /\
  (forall (v : option A),
    optall P v -> okall (tall P) (of_option c v)) /\
  (forall (v : list A),
    Forall P v -> okall (tall P) (of_vec c v)) /\
  (forall (n : nat) (v : list (list A)),
    Forall (Forall P) v -> okall (tall P) (of_rows c n v)) /\
  (forall (m : nat) (n : nat) (v : list (list (list A))),
    Forall (Forall (Forall P)) v -> okall (tall P) (of_rows2 c m n v)) /\
  (forall (l : nat) (m : nat) (n : nat) (v : list (list (list (list A)))),
    Forall (Forall (Forall (Forall P))) v -> okall (tall P) (of_rows3 c l m n v)) /\
  (forall (v : list (list A)),
    Forall (Forall P) v -> okall (tall P) (of_vec2 c v)) /\
  (forall (v : list (list (list A))),
    Forall (Forall (Forall P)) v -> okall (tall P) (of_vec3 c v)) /\
  (forall (v : list (list (list (list A)))),
    Forall (Forall (Forall (Forall P))) v -> okall (tall P) (of_vec4 c v)) /\
  (forall (v : list (list (list (list (list A))))),
    Forall (Forall (Forall (Forall (Forall P)))) v -> okall (tall P) (of_vec5 c v)) /\
  (forall (n : nat) (v : list (list (list A))),
    Forall (Forall (Forall P)) v -> okall (tall P) (of_vec_rows c n v)) /\
  (forall (ts : list (tensor A)),
    Forall (tall P) ts -> okall (tall P) (of_tensors c ts)).
Proof. exact (@c81_conversions A P c). Qed.
Print Assumptions C81_conversions.

(** The same for the functions and methods that take lists of arguments. *)
Theorem C81_arguments {A} (P : A -> Prop) c :
  (forall (x : tensor_list A) (vec : list (tensor A)),
    tlall P x -> Forall (tall P) vec -> okall (Forall (tall P)) (into_list c x vec)) /\
  (forall (x : tensor_list A),
    tlall P x -> okall (tall P) (concatenate_args c x)) /\
  (forall (axis : option Z) (x : tensor_list A),
    tlall P x -> okall (tall P) (concatenate_axis_args c axis x)) /\
  (forall (x : tensor_list A),
    tlall P x -> okall (tall P) (stack_args c x)) /\
  (forall (axis : option Z) (x : tensor_list A),
    tlall P x -> okall (tall P) (stack_axis_args c axis x)) /\
  (forall (x : tensor_list A),
    tlall P x -> okall (tall P) (dstack_args c x)) /\
  (forall (x : tensor_list A),
    tlall P x -> okall (tall P) (hstack_args c x)) /\
  (forall (x : tensor_list A),
    tlall P x -> okall (tall P) (vstack_args c x)) /\
  (forall (t : tensor A) (others : tensor_list A),
    tall P t -> tlall P others -> okall (tall P) (m_concatenate c t others)) /\
  (forall (t : tensor A) (axis : option Z) (others : tensor_list A),
    tall P t -> tlall P others -> okall (tall P) (m_concatenate_axis c t axis others)) /\
  (forall (t : tensor A) (others : tensor_list A) (axis : option Z),
    tall P t -> tlall P others -> okall (tall P) (m_stack c t others axis)) /\
  (forall (t : tensor A) (others : tensor_list A),
    tall P t -> tlall P others -> okall (tall P) (m_dstack c t others)) /\
  (forall (t : tensor A) (others : tensor_list A),
    tall P t -> tlall P others -> okall (tall P) (m_vstack c t others)).
Proof. exact (@c81_arguments A P c). Qed.
Print Assumptions C81_arguments.

(** The same for the constructions of matrices, if it also holds of the constants zero and one. *)
Theorem C81_matrices {A} (P : A -> Prop) c :
  (forall (s : shape) (v : A),
    P v -> okall (tall P) (fill c s v)) /\
  (forall (zero : A) (one : A) (n : nat),
    P zero -> P one -> okall (tall P) (eye c zero one n)) /\
  (forall (zero : A) (one : A) (n : nat),
    P zero -> P one -> okall (tall P) (tri c zero one n)) /\
  (forall (zero : A) (diag : tensor A),
    P zero -> tall P diag -> okall (tall P) (diagflat c zero diag)) /\
  (forall (zero : A) (t : tensor A),
    P zero -> tall P t -> okall (tall P) (tril c zero t)) /\
  (forall (zero : A) (t : tensor A),
    P zero -> tall P t -> okall (tall P) (triu c zero t)) /\
  (forall (axes : list (tensor A)),
    Forall (tall P) axes -> okall (Forall (tall P)) (meshgrid c axes)) /\
  (forall (axes : list (tensor A)),
    Forall (tall P) axes -> okall (Forall (tall P)) (meshgrid_ij c axes)).
Proof. exact (@c81_matrices A P c). Qed.
Print Assumptions C81_matrices.

(** The Debug text shows only elements of the buffer. *)
Theorem C81_text {A} (P : A -> Prop) c :
  (forall (name : String.string) (t : tensor A),
    tall P t -> okall (Forall (pieceall P)) (fmt_tensor c name t)).
Proof. exact (@c81_text A P c). Qed.
Print Assumptions C81_text.

(** Operations that take closures: with an invariant of the closure's state, and a closure
    that, from a state with the invariant and elements with the properties of the tensors'
    elements, leaves such a state and returns a value with another property if it returns,
    every element of the result has that property, and the state the invariant. *)
Theorem C81_init {S} {V} (I : S -> Prop) (PV : V -> Prop)
    (c : cfg) (s : shape) (f : S -> outcome (S * V)) (st : S) :
  (forall x0, I x0 -> okall (pairall I PV) (f x0)) ->
  I st ->
  okall (pairall I (tall PV)) (init c s f st).
Proof. exact (@c81_init S V I PV c s f st). Qed.
Print Assumptions C81_init.

Theorem C81_init_rindexed {S} {V} (I : S -> Prop) (PV : V -> Prop)
    (c : cfg) (s : shape) (f : S -> list nat -> outcome (S * V)) (st : S) :
  (forall x0 x1, I x0 -> okall (pairall I PV) (f x0 x1)) ->
  I st ->
  okall (pairall I (tall PV)) (init_rindexed c s f st).
Proof. exact (@c81_init_rindexed S V I PV c s f st). Qed.
Print Assumptions C81_init_rindexed.

Theorem C81_map {S} {U} {V} (I : S -> Prop) (PU : U -> Prop) (PV : V -> Prop)
    (c : cfg) (a : tensor U) (f : S -> U -> outcome (S * V)) (st : S) :
  tall PU a ->
  (forall x0 x1, I x0 -> PU x1 -> okall (pairall I PV) (f x0 x1)) ->
  I st ->
  okall (pairall I (tall PV)) (map_ c a f st).
Proof. exact (@c81_map S U V I PU PV c a f st). Qed.
Print Assumptions C81_map.

Theorem C81_map_row {S} {U} {V} (I : S -> Prop) (PU : U -> Prop) (PV : V -> Prop)
    (c : cfg) (N : nat) (a : tensor U) (f : S -> list U -> outcome (S * list V)) (st : S) :
  tall PU a ->
  (forall x0 x1, I x0 -> Forall PU x1 -> okall (pairall I (Forall PV)) (f x0 x1)) ->
  I st ->
  okall (pairall I (tall PV)) (map_row c N a f st).
Proof. exact (@c81_map_row S U V I PU PV c N a f st). Qed.
Print Assumptions C81_map_row.

Theorem C81_map_expand {S} {U} {V} (I : S -> Prop) (PU : U -> Prop) (PV : V -> Prop)
    (c : cfg) (N : nat) (a : tensor U) (f : S -> U -> outcome (S * list V)) (st : S) :
  tall PU a ->
  (forall x0 x1, I x0 -> PU x1 -> okall (pairall I (Forall PV)) (f x0 x1)) ->
  I st ->
  okall (pairall I (tall PV)) (map_expand c N a f st).
Proof. exact (@c81_map_expand S U V I PU PV c N a f st). Qed.
Print Assumptions C81_map_expand.

Theorem C81_map2 {S} {T} {U} {V} (I : S -> Prop) (PT : T -> Prop) (PU : U -> Prop) (PV : V -> Prop)
    (c : cfg) (a : tensor T) (b : tensor U) (f : S -> T -> U -> outcome (S * V)) (st : S) :
  tall PT a ->
  tall PU b ->
  (forall x0 x1 x2, I x0 -> PT x1 -> PU x2 -> okall (pairall I PV) (f x0 x1 x2)) ->
  I st ->
  okall (pairall I (tall PV)) (map2 c a b f st).
Proof. exact (@c81_map2 S T U V I PT PU PV c a b f st). Qed.
Print Assumptions C81_map2.

Theorem C81_map3 {S} {T} {U} {V} {W} (I : S -> Prop) (PT : T -> Prop) (PU : U -> Prop) (PV : V -> Prop) (PW : W -> Prop)
    (c : cfg) (ta : tensor T) (tb : tensor U) (tc : tensor V) (f : S -> T -> U -> V -> outcome (S * W)) (st : S) :
  tall PT ta ->
  tall PU tb ->
  tall PV tc ->
  (forall x0 x1 x2 x3, I x0 -> PT x1 -> PU x2 -> PV x3 -> okall (pairall I PW) (f x0 x1 x2 x3)) ->
  I st ->
  okall (pairall I (tall PW)) (map3 c ta tb tc f st).
Proof. exact (@c81_map3 S T U V W I PT PU PV PW c ta tb tc f st). Qed.
Print Assumptions C81_map3.

Theorem C81_fold {S} {U} {R} {V} (I : S -> Prop) (PU : U -> Prop) (PR : R -> Prop) (PV : V -> Prop)
    (c : cfg) (t : tensor U) (ini : R) (into : R -> V) (f : S -> R -> U -> outcome (S * R)) (st : S) :
  tall PU t ->
  PR ini ->
  (forall x0, PR x0 -> PV (into x0)) ->
  (forall x0 x1 x2, I x0 -> PR x1 -> PU x2 -> okall (pairall I PR) (f x0 x1 x2)) ->
  I st ->
  okall (pairall I (tall PV)) (fold_ c t ini into f st).
Proof. exact (@c81_fold S U R V I PU PR PV c t ini into f st). Qed.
Print Assumptions C81_fold.

Theorem C81_fold_axis {S} {T} {R} {V} (I : S -> Prop) (PT : T -> Prop) (PR : R -> Prop) (PV : V -> Prop)
    (c : cfg) (t : tensor T) (axis : option Z) (ini : R) (into : R -> V) (f : S -> R -> T -> outcome (S * R)) (st : S) :
  tall PT t ->
  PR ini ->
  (forall x0, PR x0 -> PV (into x0)) ->
  (forall x0 x1 x2, I x0 -> PR x1 -> PT x2 -> okall (pairall I PR) (f x0 x1 x2)) ->
  I st ->
  okall (pairall I (tall PV)) (fold_axis c t axis ini into f st).
Proof. exact (@c81_fold_axis S T R V I PT PR PV c t axis ini into f st). Qed.
Print Assumptions C81_fold_axis.

Theorem C81_fold_row {S} {T} {R} {V} (I : S -> Prop) (PT : T -> Prop) (PR : R -> Prop) (PV : V -> Prop)
    (c : cfg) (N : nat) (t : tensor T) (axis : option Z) (ini : R) (into : R -> list V) (f : S -> R -> list T -> outcome (S * R)) (st : S) :
  tall PT t ->
  PR ini ->
  (forall x0, PR x0 -> Forall PV (into x0)) ->
  (forall x0 x1 x2, I x0 -> PR x1 -> Forall PT x2 -> okall (pairall I PR) (f x0 x1 x2)) ->
  I st ->
  okall (pairall I (tall PV)) (fold_row c N t axis ini into f st).
Proof. exact (@c81_fold_row S T R V I PT PR PV c N t axis ini into f st). Qed.
Print Assumptions C81_fold_row.

Theorem C81_reduce {S} {T} (I : S -> Prop) (PT : T -> Prop)
    (c : cfg) (t : tensor T) (f : S -> T -> T -> outcome (S * T)) (st : S) :
  tall PT t ->
  (forall x0 x1 x2, I x0 -> PT x1 -> PT x2 -> okall (pairall I PT) (f x0 x1 x2)) ->
  I st ->
  okall (pairall I (tall PT)) (reduce c t f st).
Proof. exact (@c81_reduce S T I PT c t f st). Qed.
Print Assumptions C81_reduce.

Theorem C81_reduce_axis {S} {T} (I : S -> Prop) (PT : T -> Prop)
    (c : cfg) (t : tensor T) (axis : option Z) (f : S -> T -> T -> outcome (S * T)) (st : S) :
  tall PT t ->
  (forall x0 x1 x2, I x0 -> PT x1 -> PT x2 -> okall (pairall I PT) (f x0 x1 x2)) ->
  I st ->
  okall (pairall I (tall PT)) (reduce_axis c t axis f st).
Proof. exact (@c81_reduce_axis S T I PT c t axis f st). Qed.
Print Assumptions C81_reduce_axis.

Theorem C81_normalize {S} {T} {R} {R1} {V} (I : S -> Prop) (PT : T -> Prop) (PR : R -> Prop) (PR1 : R1 -> Prop) (PV : V -> Prop)
    (c : cfg) (t : tensor T) (axis : option Z) (ini : R) (accum : S -> R -> T -> outcome (S * R)) (complete : S -> R -> outcome (S * R1)) (norm : S -> R1 -> T -> outcome (S * V)) (st : S) :
  tall PT t ->
  PR ini ->
  (forall x0 x1 x2, I x0 -> PR x1 -> PT x2 -> okall (pairall I PR) (accum x0 x1 x2)) ->
  (forall x0 x1, I x0 -> PR x1 -> okall (pairall I PR1) (complete x0 x1)) ->
  (forall x0 x1 x2, I x0 -> PR1 x1 -> PT x2 -> okall (pairall I PV) (norm x0 x1 x2)) ->
  I st ->
  okall (pairall I (tall PV)) (normalize c t axis ini accum complete norm st).
Proof. exact (@c81_normalize S T R R1 V I PT PR PR1 PV c t axis ini accum complete norm st). Qed.
Print Assumptions C81_normalize.

(** In particular the results hold no elements but those of the arguments (and the constant
    zero). *)
Theorem C81_elements {A} c :
  (forall (t r : tensor A), transpose c t = Ok r -> incl (tdata r) (tdata t)) /\
  (forall (t r : tensor A) multiples, tile c t multiples = Ok r -> incl (tdata r) (tdata t)) /\
  (forall axis (ts : list (tensor A)) r, concatenate_axis c axis ts = Ok r -> incl (tdata r) (concat (map tdata ts))) /\
  (forall axis (ts : list (tensor A)) r, stack_axis c axis ts = Ok r -> incl (tdata r) (concat (map tdata ts))) /\
  (forall zero (t r : tensor A), tril c zero t = Ok r -> incl (tdata r) (zero :: tdata t)) /\
  (forall zero (t r : tensor A), triu c zero t = Ok r -> incl (tdata r) (zero :: tdata t)).
Proof. exact (@c81_elements A c). Qed.
Print Assumptions C81_elements.

(** Even numbers stay even when they are rearranged; a closure that counts its calls and
    doubles its argument makes even numbers of any, and its count stays below a bound that
    it checks itself, or it panics. *)
Example C81_example :
  let t := mkTensor (mkShape [3; 2; 0; 0; 0; 0] 2) 1 6 [8; 2; 4; 6; 8; 10; 12] in
  let f := fun n x => if n <? 10 then Ok (S n, x + x) else Panic in
  tall (fun n => Nat.even n = true) t /\
  transpose dev t = Ok (mkTensor (mkShape [2; 3; 0; 0; 0; 0] 2) 0 6 [2; 8; 4; 10; 6; 12]) /\
  okall (pairall (fun n => n <= 10) (tall (fun n => Nat.even n = true))) (map_ dev t f 3) /\
  map_ dev t f 3 = Ok (9, mkTensor (mkShape [3; 2; 0; 0; 0; 0] 2) 0 6 [4; 8; 12; 16; 20; 24]) /\
  map_ dev t f 5 = Panic.
Proof.
  split; [repeat constructor|]. split; [reflexivity|].
  assert (E : map_ dev (mkTensor (mkShape [3; 2; 0; 0; 0; 0] 2) 1 6 [8; 2; 4; 6; 8; 10; 12])
    (fun n x => if n <? 10 then Ok (S n, x + x) else Panic) 3
    = Ok (9, mkTensor (mkShape [3; 2; 0; 0; 0; 0] 2) 0 6 [4; 8; 12; 16; 20; 24])) by reflexivity.
  split; [|split; [exact E|reflexivity]].
  rewrite E. intros a H. injection H as <-. split; cbn; [lia|]. repeat constructor.
Qed.
