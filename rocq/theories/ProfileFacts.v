(** * Build profiles: every function of the model gives the same outcome with and
      without overflow checks, unless the checked run panics *)
From Coq Require String.
From Verif Require Import Base ShapeModel TensorModel AxisModel MapModel ArrayModel NumModel
  FromModel ArgModel FloatModel InitModel MathModel LinalgModel RandomModel SignalModel IoModel
  FmtModel ProfileSpec.

Section Agree.
Context {A B : Type}.

Lemma agree_refl (x : outcome A) : agree x x.
Proof. now right. Qed.

Lemma agree_bind (x x' : outcome A) (f f' : A -> outcome B) :
  agree x x' -> (forall a, agree (f a) (f' a)) -> agree (bind x f) (bind x' f').
Proof.
  intros [-> | ->] Hf; [now left|]. destruct x as [a| |]; cbn; [apply Hf|now left|now right].
Qed.
End Agree.

Lemma agree_for_from {S} i n (b b' : nat -> S -> outcome S) s :
  (forall i s, agree (b i s) (b' i s)) -> agree (for_from i n b s) (for_from i n b' s).
Proof.
  intros H. revert i s. induction n as [|n IH]; intros i s; cbn; [apply agree_refl|].
  apply agree_bind; [apply H|intros s'; apply IH].
Qed.

Lemma agree_for_ {S} n (b b' : nat -> S -> outcome S) s :
  (forall i s, agree (b i s) (b' i s)) -> agree (for_ n b s) (for_ n b' s).
Proof. apply agree_for_from. Qed.

Lemma agree_for_range {S} x y (b b' : nat -> S -> outcome S) s :
  (forall i s, agree (b i s) (b' i s)) -> agree (for_range x y b s) (for_range x y b' s).
Proof. apply agree_for_from. Qed.

Lemma agree_for_each {A S} (l : list A) (b b' : A -> S -> outcome S) s :
  (forall i s, agree (b i s) (b' i s)) -> agree (for_each l b s) (for_each l b' s).
Proof.
  intros H. revert s. induction l as [|x l IH]; intros s; cbn; [apply agree_refl|].
  apply agree_bind; [apply H|intros s'; apply IH].
Qed.

Lemma agree_map_out {A B} (f f' : A -> outcome B) l :
  (forall a, agree (f a) (f' a)) -> agree (map_out f l) (map_out f' l).
Proof.
  intros H. induction l as [|x l IH]; cbn; [apply agree_refl|].
  apply agree_bind; [apply H|intros y]. apply agree_bind; [apply IH|intros ?; apply agree_refl].
Qed.

Section Arithmetic.
Variable z : bool.
Notation D := (checked z).
Notation U := (unchecked z).

Lemma agree_arith m v : agree (arith D m v) (arith U m v).
Proof.
  unfold arith. destruct ((0 <=? v)%Z && (v <? m)%Z) eqn:E; [now right|now left].
Qed.
Lemma agree_uadd a b : agree (uadd D a b) (uadd U a b). Proof. apply agree_arith. Qed.
Lemma agree_usub a b : agree (usub D a b) (usub U a b). Proof. apply agree_arith. Qed.
Lemma agree_umul a b : agree (umul D a b) (umul U a b). Proof. apply agree_arith. Qed.
Lemma agree_mul32 a b : agree (mul32 D a b) (mul32 U a b). Proof. apply agree_arith. Qed.
Lemma agree_iadd a b : agree (iadd D a b) (iadd U a b).
Proof. unfold iadd. destruct (isize_ok (a + b)%Z); [now right|now left]. Qed.
Lemma agree_isub a b : agree (isub D a b) (isub U a b).
Proof. unfold isub. destruct (isize_ok (a - b)%Z); [now right|now left]. Qed.
Lemma agree_zarith m v : agree (zarith D m v) (zarith U m v).
Proof. unfold zarith. destruct ((0 <=? v)%Z && (v <? m)%Z) eqn:E; [now right|now left]. Qed.
Lemma agree_alloc {A} n : agree (alloc (A:=A) D n) (alloc U n).
Proof. now right. Qed.
Lemma agree_product32 acc l : agree (product32 D acc l) (product32 U acc l).
Proof.
  revert acc. induction l as [|x l IH]; intros acc; cbn; [apply agree_refl|].
  apply agree_bind; [apply agree_mul32|apply IH].
Qed.
Lemma agree_product64 acc l : agree (product64 D acc l) (product64 U acc l).
Proof.
  revert acc. induction l as [|x l IH]; intros acc; cbn; [apply agree_refl|].
  apply agree_bind; [apply agree_umul|apply IH].
Qed.
Lemma agree_sum64 acc l : agree (sum64 D acc l) (sum64 U acc l).
Proof.
  revert acc. induction l as [|x l IH]; intros acc; cbn; [apply agree_refl|].
  apply agree_bind; [apply agree_uadd|apply IH].
Qed.
End Arithmetic.

(** The outcome at the head of an application. *)
Ltac head x := lazymatch x with ?f _ => head f | _ => x end.

Ltac ag_0 h :=
  lazymatch h with
  | @bind => apply agree_bind
  | @for_from => apply agree_for_from
  | @for_ => apply agree_for_
  | @for_range => apply agree_for_range
  | @for_each => apply agree_for_each
  | @map_out => apply agree_map_out
  | @arith => apply agree_arith
  | @uadd => apply agree_uadd
  | @usub => apply agree_usub
  | @umul => apply agree_umul
  | @mul32 => apply agree_mul32
  | @iadd => apply agree_iadd
  | @isub => apply agree_isub
  | @zarith => apply agree_zarith
  | @alloc => apply agree_alloc
  | @product32 => apply agree_product32
  | @product64 => apply agree_product64
  | @sum64 => apply agree_sum64
  | @lift1 => unfold lift1
  | @lift2 => unfold lift2
  | @separated => unfold separated
  end.
Ltac ag_api h := ag_0 h.

Ltac ag1 :=
  lazymatch goal with
  | |- forall _, _ => intro
  | |- agree ?x ?x => apply agree_refl
  | |- agree _ _ => first [solve [match goal with H : _ |- _ => apply H end] | ag2]
  end
with ag2 :=
  lazymatch goal with
  | |- agree (match ?x with _ => _ end) _ => destruct x
  | |- agree (let x := _ in _) _ => cbv zeta
  | |- agree ((fun _ => _) _) _ => cbv beta
  | |- agree ?x _ => let h := head x in first [ag_api h | fail 2 "no rule for" h]
  end.
Ltac ag := repeat ag1.

Lemma agree_size (z : bool) (s : shape) :
  agree (size (checked z) s) (size (unchecked z) s).
Proof. intros; unfold size; ag. Qed.
Ltac ag_1 h := lazymatch h with @size => apply agree_size | _ => ag_0 h end.
Ltac ag_api h ::= ag_1 h.
Lemma agree_dim (z : bool) (s : shape) (i : nat) :
  agree (dim (checked z) s i) (dim (unchecked z) s i).
Proof. intros; unfold dim; ag. Qed.
Ltac ag_2 h := lazymatch h with @dim => apply agree_dim | _ => ag_1 h end.
Ltac ag_api h ::= ag_2 h.
Lemma agree_replace (z : bool) (s : shape) (i value : nat) :
  agree (replace (checked z) s i value) (replace (unchecked z) s i value).
Proof. intros; unfold replace; ag. Qed.
Ltac ag_3 h := lazymatch h with @replace => apply agree_replace | _ => ag_2 h end.
Ltac ag_api h ::= ag_3 h.
Lemma agree_idim (z : bool) (s : shape) (i : Z) :
  agree (idim (checked z) s i) (idim (unchecked z) s i).
Proof. intros; unfold idim; ag. Qed.
Ltac ag_4 h := lazymatch h with @idim => apply agree_idim | _ => ag_3 h end.
Ltac ag_api h ::= ag_4 h.
Lemma agree_len (z : bool) (s : shape) :
  agree (len (checked z) s) (len (unchecked z) s).
Proof. intros; unfold len; ag. Qed.
Ltac ag_5 h := lazymatch h with @len => apply agree_len | _ => ag_4 h end.
Ltac ag_api h ::= ag_5 h.
Lemma agree_batch_len (z : bool) (s : shape) (base_rank : nat) :
  agree (batch_len (checked z) s base_rank) (batch_len (unchecked z) s base_rank).
Proof. intros; unfold batch_len; ag. Qed.
Ltac ag_6 h := lazymatch h with @batch_len => apply agree_batch_len | _ => ag_5 h end.
Ltac ag_api h ::= ag_6 h.
Lemma agree_broadcast (z : bool) (a b : shape) :
  agree (broadcast (checked z) a b) (broadcast (unchecked z) a b).
Proof. intros; unfold broadcast; ag. Qed.
Ltac ag_7 h := lazymatch h with @broadcast => apply agree_broadcast | _ => ag_6 h end.
Ltac ag_api h ::= ag_7 h.
Lemma agree_sublen (z : bool) (s : shape) (start end_ : nat) :
  agree (sublen (checked z) s start end_) (sublen (unchecked z) s start end_).
Proof. intros; unfold sublen; ag. Qed.
Ltac ag_8 h := lazymatch h with @sublen => apply agree_sublen | _ => ag_7 h end.
Ltac ag_api h ::= ag_8 h.
Lemma agree_rsublen (z : bool) (s : shape) (start end_ : nat) :
  agree (rsublen (checked z) s start end_) (rsublen (unchecked z) s start end_).
Proof. intros; unfold rsublen; ag. Qed.
Ltac ag_9 h := lazymatch h with @rsublen => apply agree_rsublen | _ => ag_8 h end.
Ltac ag_api h ::= ag_9 h.
Lemma agree_broadcast_min (z : bool) (a : shape) (a_min : nat) (b : shape) (b_min : nat) :
  agree (broadcast_min (checked z) a a_min b b_min) (broadcast_min (unchecked z) a a_min b b_min).
Proof. intros; unfold broadcast_min; ag. Qed.
Ltac ag_10 h := lazymatch h with @broadcast_min => apply agree_broadcast_min | _ => ag_9 h end.
Ltac ag_api h ::= ag_10 h.
Lemma agree_as_vec (z : bool) (s : shape) :
  agree (as_vec (checked z) s) (as_vec (unchecked z) s).
Proof. intros; unfold as_vec; ag. Qed.
Ltac ag_11 h := lazymatch h with @as_vec => apply agree_as_vec | _ => ag_10 h end.
Ltac ag_api h ::= ag_11 h.
Lemma agree_expand_dims (z : bool) (s : shape) (axis : Z) :
  agree (expand_dims (checked z) s axis) (expand_dims (unchecked z) s axis).
Proof. intros; unfold expand_dims; ag. Qed.
Ltac ag_12 h := lazymatch h with @expand_dims => apply agree_expand_dims | _ => ag_11 h end.
Ltac ag_api h ::= ag_12 h.
Lemma agree_squeeze (z : bool) (s : shape) (axis : option Z) :
  agree (squeeze (checked z) s axis) (squeeze (unchecked z) s axis).
Proof. intros; unfold squeeze; ag. Qed.
Ltac ag_13 h := lazymatch h with @squeeze => apply agree_squeeze | _ => ag_12 h end.
Ltac ag_api h ::= ag_13 h.
Lemma agree_pop (z : bool) (s : shape) :
  agree (pop (checked z) s) (pop (unchecked z) s).
Proof. intros; unfold pop; ag. Qed.
Ltac ag_14 h := lazymatch h with @pop => apply agree_pop | _ => ag_13 h end.
Ltac ag_api h ::= ag_14 h.
Lemma agree_rinsert (z : bool) (s : shape) (axis len : nat) :
  agree (rinsert (checked z) s axis len) (rinsert (unchecked z) s axis len).
Proof. intros; unfold rinsert; ag. Qed.
Ltac ag_15 h := lazymatch h with @rinsert => apply agree_rinsert | _ => ag_14 h end.
Ltac ag_api h ::= ag_15 h.
Lemma agree_insert (z : bool) (s : shape) (axis len : nat) :
  agree (insert (checked z) s axis len) (insert (unchecked z) s axis len).
Proof. intros; unfold insert; ag. Qed.
Ltac ag_16 h := lazymatch h with @insert => apply agree_insert | _ => ag_15 h end.
Ltac ag_api h ::= ag_16 h.
Lemma agree_tensor_new (z : bool) {A} (data : list A) (s : shape) :
  agree (tensor_new (checked z) data s) (tensor_new (unchecked z) data s).
Proof. intros; unfold tensor_new; ag. Qed.
Ltac ag_17 h := lazymatch h with @tensor_new => apply agree_tensor_new | _ => ag_16 h end.
Ltac ag_api h ::= ag_17 h.
Lemma agree_from_vec (z : bool) {A} (v : list A) (s : shape) :
  agree (from_vec (checked z) v s) (from_vec (unchecked z) v s).
Proof. intros; unfold from_vec; ag. Qed.
Ltac ag_18 h := lazymatch h with @from_vec => apply agree_from_vec | _ => ag_17 h end.
Ltac ag_api h ::= ag_18 h.
Lemma agree_from_scalar (z : bool) {A} (v : A) :
  agree (from_scalar (checked z) v) (from_scalar (unchecked z) v).
Proof. intros; unfold from_scalar; ag. Qed.
Ltac ag_19 h := lazymatch h with @from_scalar => apply agree_from_scalar | _ => ag_18 h end.
Ltac ag_api h ::= ag_19 h.
Lemma agree_unsafe_init (z : bool) {A S} (len : nat) (s : shape) (init init' : S * buf A -> outcome (S * buf A)) (st : S) :
  (forall x0, agree (init x0) (init' x0)) -> agree (unsafe_init (checked z) len s init st) (unsafe_init (unchecked z) len s init' st).
Proof. intros; unfold unsafe_init; ag. Qed.
Ltac ag_20 h := lazymatch h with @unsafe_init => apply agree_unsafe_init | _ => ag_19 h end.
Ltac ag_api h ::= ag_20 h.
Lemma agree_unsafe_init_ (z : bool) {A} (len : nat) (s : shape) (init init' : buf A -> outcome (buf A)) :
  (forall x0, agree (init x0) (init' x0)) -> agree (unsafe_init_ (checked z) len s init) (unsafe_init_ (unchecked z) len s init').
Proof. intros; unfold unsafe_init_; ag. Qed.
Ltac ag_21 h := lazymatch h with @unsafe_init_ => apply agree_unsafe_init_ | _ => ag_20 h end.
Ltac ag_api h ::= ag_21 h.
Lemma agree_get (z : bool) {A} (t : tensor A) (offset : nat) :
  agree (get (checked z) t offset) (get (unchecked z) t offset).
Proof. intros; unfold get; ag. Qed.
Ltac ag_22 h := lazymatch h with @get => apply agree_get | _ => ag_21 h end.
Ltac ag_api h ::= ag_22 h.
Lemma agree_as_wrap_slice_n (z : bool) {A} (t : tensor A) (offset len : nat) :
  agree (as_wrap_slice_n (checked z) t offset len) (as_wrap_slice_n (unchecked z) t offset len).
Proof. intros; unfold as_wrap_slice_n; ag. Qed.
Ltac ag_23 h := lazymatch h with @as_wrap_slice_n => apply agree_as_wrap_slice_n | _ => ag_22 h end.
Ltac ag_api h ::= ag_23 h.
Lemma agree_subslice_flat (z : bool) {A} (t : tensor A) (offset len : nat) (s s' : outcome shape) :
  agree s s' -> agree (subslice_flat (checked z) t offset len s) (subslice_flat (unchecked z) t offset len s').
Proof. intros; unfold subslice_flat; ag. Qed.
Ltac ag_24 h := lazymatch h with @subslice_flat => apply agree_subslice_flat | _ => ag_23 h end.
Ltac ag_api h ::= ag_24 h.
Lemma agree_subslice (z : bool) {A} (t : tensor A) (offset len : nat) :
  agree (subslice (checked z) t offset len) (subslice (unchecked z) t offset len).
Proof. intros; unfold subslice; ag. Qed.
Ltac ag_25 h := lazymatch h with @subslice => apply agree_subslice | _ => ag_24 h end.
Ltac ag_api h ::= ag_25 h.
Lemma agree_from_slice (z : bool) {A} (data : list A) :
  agree (from_slice (checked z) data) (from_slice (unchecked z) data).
Proof. intros; unfold from_slice; ag. Qed.
Ltac ag_26 h := lazymatch h with @from_slice => apply agree_from_slice | _ => ag_25 h end.
Ltac ag_api h ::= ag_26 h.
Lemma agree_from_merge (z : bool) {A} (ts : list (tensor A)) (s : shape) :
  agree (from_merge (checked z) ts s) (from_merge (unchecked z) ts s).
Proof. intros; unfold from_merge; ag. Qed.
Ltac ag_27 h := lazymatch h with @from_merge => apply agree_from_merge | _ => ag_26 h end.
Ltac ag_api h ::= ag_27 h.
Lemma agree_append (z : bool) {A} (t u : tensor A) :
  agree (append (checked z) t u) (append (unchecked z) t u).
Proof. intros; unfold append; ag. Qed.
Ltac ag_28 h := lazymatch h with @append => apply agree_append | _ => ag_27 h end.
Ltac ag_api h ::= ag_28 h.
Lemma agree_join_vec (z : bool) {A} (v : list (list A)) :
  agree (join_vec (checked z) v) (join_vec (unchecked z) v).
Proof. intros; unfold join_vec; ag. Qed.
Ltac ag_29 h := lazymatch h with @join_vec => apply agree_join_vec | _ => ag_28 h end.
Ltac ag_api h ::= ag_29 h.
Lemma agree_index3 (z : bool) {A} (t : tensor A) (i j k : nat) :
  agree (index3 (checked z) t i j k) (index3 (unchecked z) t i j k).
Proof. intros; unfold index3; ag. Qed.
Ltac ag_30 h := lazymatch h with @index3 => apply agree_index3 | _ => ag_29 h end.
Ltac ag_api h ::= ag_30 h.
Lemma agree_index4 (z : bool) {A} (t : tensor A) (h i j k : nat) :
  agree (index4 (checked z) t h i j k) (index4 (unchecked z) t h i j k).
Proof. intros; unfold index4; ag. Qed.
Ltac ag_31 h := lazymatch h with @index4 => apply agree_index4 | _ => ag_30 h end.
Ltac ag_api h ::= ag_31 h.
Lemma agree_index5 (z : bool) {A} (t : tensor A) (g h i j k : nat) :
  agree (index5 (checked z) t g h i j k) (index5 (unchecked z) t g h i j k).
Proof. intros; unfold index5; ag. Qed.
Ltac ag_31b h := lazymatch h with @index5 => apply agree_index5 | _ => ag_31 h end.
Ltac ag_api h ::= ag_31b h.
Lemma agree_reshape (z : bool) {A} (t : tensor A) (s : shape) :
  agree (reshape (checked z) t s) (reshape (unchecked z) t s).
Proof. intros; unfold reshape; ag. Qed.
Ltac ag_32 h := lazymatch h with @reshape => apply agree_reshape | _ => ag_31b h end.
Ltac ag_api h ::= ag_32 h.
Lemma agree_t_expand_dims (z : bool) {A} (t : tensor A) (axis : option Z) :
  agree (t_expand_dims (checked z) t axis) (t_expand_dims (unchecked z) t axis).
Proof. intros; unfold t_expand_dims; ag. Qed.
Ltac ag_33 h := lazymatch h with @t_expand_dims => apply agree_t_expand_dims | _ => ag_32 h end.
Ltac ag_api h ::= ag_33 h.
Lemma agree_flatten (z : bool) {A} (t : tensor A) :
  agree (flatten (checked z) t) (flatten (unchecked z) t).
Proof. intros; unfold flatten; ag. Qed.
Ltac ag_34 h := lazymatch h with @flatten => apply agree_flatten | _ => ag_33 h end.
Ltac ag_api h ::= ag_34 h.
Lemma agree_t_squeeze (z : bool) {A} (t : tensor A) :
  agree (t_squeeze (checked z) t) (t_squeeze (unchecked z) t).
Proof. intros; unfold t_squeeze; ag. Qed.
Ltac ag_35 h := lazymatch h with @t_squeeze => apply agree_t_squeeze | _ => ag_34 h end.
Ltac ag_api h ::= ag_35 h.
Lemma agree_squeeze_axis (z : bool) {A} (t : tensor A) (axis : option Z) :
  agree (squeeze_axis (checked z) t axis) (squeeze_axis (unchecked z) t axis).
Proof. intros; unfold squeeze_axis; ag. Qed.
Ltac ag_36 h := lazymatch h with @squeeze_axis => apply agree_squeeze_axis | _ => ag_35 h end.
Ltac ag_api h ::= ag_36 h.
Lemma agree_of_value (z : bool) {A} (v : A) :
  agree (of_value (checked z) v) (of_value (unchecked z) v).
Proof. intros; unfold of_value; ag. Qed.
Ltac ag_37 h := lazymatch h with @of_value => apply agree_of_value | _ => ag_36 h end.
Ltac ag_api h ::= ag_37 h.
Lemma agree_of_option (z : bool) {A} (v : option A) :
  agree (of_option (checked z) v) (of_option (unchecked z) v).
Proof. intros; unfold of_option; ag. Qed.
Ltac ag_38 h := lazymatch h with @of_option => apply agree_of_option | _ => ag_37 h end.
Ltac ag_api h ::= ag_38 h.
Lemma agree_of_vec (z : bool) {A} (v : list A) :
  agree (of_vec (checked z) v) (of_vec (unchecked z) v).
Proof. intros; unfold of_vec; ag. Qed.
Ltac ag_39 h := lazymatch h with @of_vec => apply agree_of_vec | _ => ag_38 h end.
Ltac ag_api h ::= ag_39 h.
Lemma agree_of_rows (z : bool) {A} (n : nat) (v : list (list A)) :
  agree (of_rows (checked z) n v) (of_rows (unchecked z) n v).
Proof. intros; unfold of_rows; ag. Qed.
Ltac ag_40 h := lazymatch h with @of_rows => apply agree_of_rows | _ => ag_39 h end.
Ltac ag_api h ::= ag_40 h.
Lemma agree_of_rows2 (z : bool) {A} (m n : nat) (v : list (list (list A))) :
  agree (of_rows2 (checked z) m n v) (of_rows2 (unchecked z) m n v).
Proof. intros; unfold of_rows2; ag. Qed.
Ltac ag_41 h := lazymatch h with @of_rows2 => apply agree_of_rows2 | _ => ag_40 h end.
Ltac ag_api h ::= ag_41 h.
Lemma agree_of_vec2 (z : bool) {A} (v : list (list A)) :
  agree (of_vec2 (checked z) v) (of_vec2 (unchecked z) v).
Proof. intros; unfold of_vec2; ag. Qed.
Ltac ag_42 h := lazymatch h with @of_vec2 => apply agree_of_vec2 | _ => ag_41 h end.
Ltac ag_api h ::= ag_42 h.
Lemma agree_of_vec3 (z : bool) {A} (v : list (list (list A))) :
  agree (of_vec3 (checked z) v) (of_vec3 (unchecked z) v).
Proof. intros; unfold of_vec3; ag. Qed.
Ltac ag_43 h := lazymatch h with @of_vec3 => apply agree_of_vec3 | _ => ag_42 h end.
Ltac ag_api h ::= ag_43 h.
Lemma agree_of_vec4 (z : bool) {A} (v : list (list (list (list A)))) :
  agree (of_vec4 (checked z) v) (of_vec4 (unchecked z) v).
Proof. intros; unfold of_vec4; ag. Qed.
Ltac ag_44 h := lazymatch h with @of_vec4 => apply agree_of_vec4 | _ => ag_43 h end.
Ltac ag_api h ::= ag_44 h.
Lemma agree_of_tensors (z : bool) {A} (ts : list (tensor A)) :
  agree (of_tensors (checked z) ts) (of_tensors (unchecked z) ts).
Proof. intros; unfold of_tensors; ag. Qed.
Ltac ag_45 h := lazymatch h with @of_tensors => apply agree_of_tensors | _ => ag_44 h end.
Ltac ag_api h ::= ag_45 h.
Lemma agree_axis_from_rank (z : bool) (axis : option Z) (rank : nat) :
  agree (axis_from_rank (checked z) axis rank) (axis_from_rank (unchecked z) axis rank).
Proof. intros; unfold axis_from_rank; ag. Qed.
Ltac ag_46 h := lazymatch h with @axis_from_rank => apply agree_axis_from_rank | _ => ag_45 h end.
Ltac ag_api h ::= ag_46 h.
Lemma agree_norm_axis (z : bool) (a : Z) (rank : nat) :
  agree (norm_axis (checked z) a rank) (norm_axis (unchecked z) a rank).
Proof. intros; unfold norm_axis; ag. Qed.
Ltac ag_47 h := lazymatch h with @norm_axis => apply agree_norm_axis | _ => ag_46 h end.
Ltac ag_api h ::= ag_47 h.
Lemma agree_collect_dims (z : bool) (s : shape) (a b : nat) (vec : list nat) :
  agree (collect_dims (checked z) s a b vec) (collect_dims (unchecked z) s a b vec).
Proof. intros; unfold collect_dims; ag. Qed.
Ltac ag_48 h := lazymatch h with @collect_dims => apply agree_collect_dims | _ => ag_47 h end.
Ltac ag_api h ::= ag_48 h.
Lemma agree_axis_reduce (z : bool) (axis : option Z) (s : shape) :
  agree (axis_reduce (checked z) axis s) (axis_reduce (unchecked z) axis s).
Proof. intros; unfold axis_reduce; ag. Qed.
Ltac ag_49 h := lazymatch h with @axis_reduce => apply agree_axis_reduce | _ => ag_48 h end.
Ltac ag_api h ::= ag_49 h.
Lemma agree_axis_reduce_row (z : bool) (axis : option Z) (s : shape) (ncols : nat) :
  agree (axis_reduce_row (checked z) axis s ncols) (axis_reduce_row (unchecked z) axis s ncols).
Proof. intros; unfold axis_reduce_row; ag. Qed.
Ltac ag_50 h := lazymatch h with @axis_reduce_row => apply agree_axis_reduce_row | _ => ag_49 h end.
Ltac ag_api h ::= ag_50 h.
Lemma agree_init (z : bool) {S V} (s : shape) (f f' : S -> outcome (S * V)) (st : S) :
  (forall x0, agree (f x0) (f' x0)) -> agree (init (checked z) s f st) (init (unchecked z) s f' st).
Proof. intros; unfold init; ag. Qed.
Ltac ag_51 h := lazymatch h with @init => apply agree_init | _ => ag_50 h end.
Ltac ag_api h ::= ag_51 h.
Lemma agree_init_rindexed (z : bool) {S V} (s : shape) (f f' : S -> list nat -> outcome (S * V)) (st : S) :
  (forall x0 x1, agree (f x0 x1) (f' x0 x1)) -> agree (init_rindexed (checked z) s f st) (init_rindexed (unchecked z) s f' st).
Proof. intros; unfold init_rindexed; ag. Qed.
Ltac ag_52 h := lazymatch h with @init_rindexed => apply agree_init_rindexed | _ => ag_51 h end.
Ltac ag_api h ::= ag_52 h.
Lemma agree_map_ (z : bool) {S U V} (a : tensor U) (f f' : S -> U -> outcome (S * V)) (st : S) :
  (forall x0 x1, agree (f x0 x1) (f' x0 x1)) -> agree (map_ (checked z) a f st) (map_ (unchecked z) a f' st).
Proof. intros; unfold map_; ag. Qed.
Ltac ag_53 h := lazymatch h with @map_ => apply agree_map_ | _ => ag_52 h end.
Ltac ag_api h ::= ag_53 h.
Lemma agree_map_row (z : bool) {S U V} (N : nat) (a : tensor U) (f f' : S -> list U -> outcome (S * list V)) (st : S) :
  (forall x0 x1, agree (f x0 x1) (f' x0 x1)) -> agree (map_row (checked z) N a f st) (map_row (unchecked z) N a f' st).
Proof. intros; unfold map_row; ag. Qed.
Ltac ag_54 h := lazymatch h with @map_row => apply agree_map_row | _ => ag_53 h end.
Ltac ag_api h ::= ag_54 h.
Lemma agree_map_expand (z : bool) {S U V} (N : nat) (a : tensor U) (f f' : S -> U -> outcome (S * list V)) (st : S) :
  (forall x0 x1, agree (f x0 x1) (f' x0 x1)) -> agree (map_expand (checked z) N a f st) (map_expand (unchecked z) N a f' st).
Proof. intros; unfold map_expand; ag. Qed.
Ltac ag_55 h := lazymatch h with @map_expand => apply agree_map_expand | _ => ag_54 h end.
Ltac ag_api h ::= ag_55 h.
Lemma agree_map2 (z : bool) {S T U V} (a : tensor T) (b : tensor U) (f f' : S -> T -> U -> outcome (S * V)) (st : S) :
  (forall x0 x1 x2, agree (f x0 x1 x2) (f' x0 x1 x2)) -> agree (map2 (checked z) a b f st) (map2 (unchecked z) a b f' st).
Proof. intros; unfold map2; ag. Qed.
Ltac ag_56 h := lazymatch h with @map2 => apply agree_map2 | _ => ag_55 h end.
Ltac ag_api h ::= ag_56 h.
Lemma agree_map3 (z : bool) {S T U V W} (ta : tensor T) (tb : tensor U) (tc : tensor V) (f f' : S -> T -> U -> V -> outcome (S * W)) (st : S) :
  (forall x0 x1 x2 x3, agree (f x0 x1 x2 x3) (f' x0 x1 x2 x3)) -> agree (map3 (checked z) ta tb tc f st) (map3 (unchecked z) ta tb tc f' st).
Proof. intros; unfold map3; ag. Qed.
Ltac ag_57 h := lazymatch h with @map3 => apply agree_map3 | _ => ag_56 h end.
Ltac ag_api h ::= ag_57 h.
Lemma agree_fold_ (z : bool) {S U R V} (t : tensor U) (ini : R) (into : R -> V) (f f' : S -> R -> U -> outcome (S * R)) (st : S) :
  (forall x0 x1 x2, agree (f x0 x1 x2) (f' x0 x1 x2)) -> agree (fold_ (checked z) t ini into f st) (fold_ (unchecked z) t ini into f' st).
Proof. intros; unfold fold_; ag. Qed.
Ltac ag_58 h := lazymatch h with @fold_ => apply agree_fold_ | _ => ag_57 h end.
Ltac ag_api h ::= ag_58 h.
Lemma agree_fold_axis (z : bool) {S T R V} (t : tensor T) (axis : option Z) (ini : R) (into : R -> V) (f f' : S -> R -> T -> outcome (S * R)) (st : S) :
  (forall x0 x1 x2, agree (f x0 x1 x2) (f' x0 x1 x2)) -> agree (fold_axis (checked z) t axis ini into f st) (fold_axis (unchecked z) t axis ini into f' st).
Proof. intros; unfold fold_axis; ag. Qed.
Ltac ag_59 h := lazymatch h with @fold_axis => apply agree_fold_axis | _ => ag_58 h end.
Ltac ag_api h ::= ag_59 h.
Lemma agree_fold_row (z : bool) {S T R V} (N : nat) (t : tensor T) (axis : option Z) (ini : R) (into : R -> list V) (f f' : S -> R -> list T -> outcome (S * R)) (st : S) :
  (forall x0 x1 x2, agree (f x0 x1 x2) (f' x0 x1 x2)) -> agree (fold_row (checked z) N t axis ini into f st) (fold_row (unchecked z) N t axis ini into f' st).
Proof. intros; unfold fold_row; ag. Qed.
Ltac ag_60 h := lazymatch h with @fold_row => apply agree_fold_row | _ => ag_59 h end.
Ltac ag_api h ::= ag_60 h.
Lemma agree_reduce (z : bool) {S T} (t : tensor T) (f f' : S -> T -> T -> outcome (S * T)) (st : S) :
  (forall x0 x1 x2, agree (f x0 x1 x2) (f' x0 x1 x2)) -> agree (reduce (checked z) t f st) (reduce (unchecked z) t f' st).
Proof. intros; unfold reduce; ag. Qed.
Ltac ag_61 h := lazymatch h with @reduce => apply agree_reduce | _ => ag_60 h end.
Ltac ag_api h ::= ag_61 h.
Lemma agree_reduce_axis (z : bool) {S T} (t : tensor T) (axis : option Z) (f f' : S -> T -> T -> outcome (S * T)) (st : S) :
  (forall x0 x1 x2, agree (f x0 x1 x2) (f' x0 x1 x2)) -> agree (reduce_axis (checked z) t axis f st) (reduce_axis (unchecked z) t axis f' st).
Proof. intros; unfold reduce_axis; ag. Qed.
Ltac ag_62 h := lazymatch h with @reduce_axis => apply agree_reduce_axis | _ => ag_61 h end.
Ltac ag_api h ::= ag_62 h.
Lemma agree_normalize (z : bool) {S T R R1 V} (t : tensor T) (axis : option Z) (ini : R) (accum accum' : S -> R -> T -> outcome (S * R)) (complete complete' : S -> R -> outcome (S * R1)) (norm norm' : S -> R1 -> T -> outcome (S * V)) (st : S) :
  (forall x0 x1 x2, agree (accum x0 x1 x2) (accum' x0 x1 x2)) -> (forall x0 x1, agree (complete x0 x1) (complete' x0 x1)) -> (forall x0 x1 x2, agree (norm x0 x1 x2) (norm' x0 x1 x2)) -> agree (normalize (checked z) t axis ini accum complete norm st) (normalize (unchecked z) t axis ini accum' complete' norm' st).
Proof. intros; unfold normalize; ag. Qed.
Ltac ag_63 h := lazymatch h with @normalize => apply agree_normalize | _ => ag_62 h end.
Ltac ag_api h ::= ag_63 h.
Lemma agree_transpose (z : bool) {A} (t : tensor A) :
  agree (transpose (checked z) t) (transpose (unchecked z) t).
Proof. intros; unfold transpose; ag. Qed.
Ltac ag_64 h := lazymatch h with @transpose => apply agree_transpose | _ => ag_63 h end.
Ltac ag_api h ::= ag_64 h.
Lemma agree_push_dims (z : bool) (s : shape) (a b : nat) (vec : list nat) :
  agree (push_dims (checked z) s a b vec) (push_dims (unchecked z) s a b vec).
Proof. intros; unfold push_dims; ag. Qed.
Ltac ag_65 h := lazymatch h with @push_dims => apply agree_push_dims | _ => ag_64 h end.
Ltac ag_api h ::= ag_65 h.
Lemma agree_split_piece (z : bool) {A} (t : tensor A) (axis n_outer n_inner axis_len : nat) (x : list A) (prev cut : nat) :
  agree (split_piece (checked z) t axis n_outer n_inner axis_len x prev cut) (split_piece (unchecked z) t axis n_outer n_inner axis_len x prev cut).
Proof. intros; unfold split_piece; ag. Qed.
Ltac ag_66 h := lazymatch h with @split_piece => apply agree_split_piece | _ => ag_65 h end.
Ltac ag_api h ::= ag_66 h.
Lemma agree_split_by_axis (z : bool) {A} (t : tensor A) (axis : nat) (cuts : list nat) :
  agree (split_by_axis (checked z) t axis cuts) (split_by_axis (unchecked z) t axis cuts).
Proof. intros; unfold split_by_axis; ag. Qed.
Ltac ag_67 h := lazymatch h with @split_by_axis => apply agree_split_by_axis | _ => ag_66 h end.
Ltac ag_api h ::= ag_67 h.
Lemma agree_cut_rows (z : bool) {A} (t : tensor A) (cuts : list nat) :
  agree (cut_rows (checked z) t cuts) (cut_rows (unchecked z) t cuts).
Proof. intros; unfold cut_rows; ag. Qed.
Ltac ag_68 h := lazymatch h with @cut_rows => apply agree_cut_rows | _ => ag_67 h end.
Ltac ag_api h ::= ag_68 h.
Lemma agree_split_axis (z : bool) {A} (axis : option Z) (t : tensor A) (s : sections) :
  agree (split_axis (checked z) axis t s) (split_axis (unchecked z) axis t s).
Proof. intros; unfold split_axis; ag. Qed.
Ltac ag_69 h := lazymatch h with @split_axis => apply agree_split_axis | _ => ag_68 h end.
Ltac ag_api h ::= ag_69 h.
Lemma agree_split (z : bool) {A} (t : tensor A) (s : sections) :
  agree (split (checked z) t s) (split (unchecked z) t s).
Proof. intros; unfold split; ag. Qed.
Ltac ag_70 h := lazymatch h with @split => apply agree_split | _ => ag_69 h end.
Ltac ag_api h ::= ag_70 h.
Lemma agree_vsplit (z : bool) {A} (t : tensor A) (s : sections) :
  agree (vsplit (checked z) t s) (vsplit (unchecked z) t s).
Proof. intros; unfold vsplit; ag. Qed.
Ltac ag_71 h := lazymatch h with @vsplit => apply agree_vsplit | _ => ag_70 h end.
Ltac ag_api h ::= ag_71 h.
Lemma agree_hsplit (z : bool) {A} (t : tensor A) (s : sections) :
  agree (hsplit (checked z) t s) (hsplit (unchecked z) t s).
Proof. intros; unfold hsplit; ag. Qed.
Ltac ag_72 h := lazymatch h with @hsplit => apply agree_hsplit | _ => ag_71 h end.
Ltac ag_api h ::= ag_72 h.
Lemma agree_dsplit (z : bool) {A} (t : tensor A) (s : sections) :
  agree (dsplit (checked z) t s) (dsplit (unchecked z) t s).
Proof. intros; unfold dsplit; ag. Qed.
Ltac ag_73 h := lazymatch h with @dsplit => apply agree_dsplit | _ => ag_72 h end.
Ltac ag_api h ::= ag_73 h.
Lemma agree_validate_concat (z : bool) {A} (args : list (tensor A)) (axis : nat) :
  agree (validate_concat (checked z) args axis) (validate_concat (unchecked z) args axis).
Proof. intros; unfold validate_concat; ag. Qed.
Ltac ag_74 h := lazymatch h with @validate_concat => apply agree_validate_concat | _ => ag_73 h end.
Ltac ag_api h ::= ag_74 h.
Lemma agree_concat_axis (z : bool) {A} (axis : nat) (args : list (tensor A)) :
  agree (concat_axis (checked z) axis args) (concat_axis (unchecked z) axis args).
Proof. intros; unfold concat_axis; ag. Qed.
Ltac ag_75 h := lazymatch h with @concat_axis => apply agree_concat_axis | _ => ag_74 h end.
Ltac ag_api h ::= ag_75 h.
Lemma agree_concatenate (z : bool) {A} (args : list (tensor A)) :
  agree (concatenate (checked z) args) (concatenate (unchecked z) args).
Proof. intros; unfold concatenate; ag. Qed.
Ltac ag_76 h := lazymatch h with @concatenate => apply agree_concatenate | _ => ag_75 h end.
Ltac ag_api h ::= ag_76 h.
Lemma agree_concatenate_axis (z : bool) {A} (axis : option Z) (args : list (tensor A)) :
  agree (concatenate_axis (checked z) axis args) (concatenate_axis (unchecked z) axis args).
Proof. intros; unfold concatenate_axis; ag. Qed.
Ltac ag_77 h := lazymatch h with @concatenate_axis => apply agree_concatenate_axis | _ => ag_76 h end.
Ltac ag_api h ::= ag_77 h.
Lemma agree_stack_vec (z : bool) {A} (axis : option Z) (x : list (tensor A)) :
  agree (stack_vec (checked z) axis x) (stack_vec (unchecked z) axis x).
Proof. intros; unfold stack_vec; ag. Qed.
Ltac ag_78 h := lazymatch h with @stack_vec => apply agree_stack_vec | _ => ag_77 h end.
Ltac ag_api h ::= ag_78 h.
Lemma agree_stack (z : bool) {A} (x : list (tensor A)) :
  agree (stack (checked z) x) (stack (unchecked z) x).
Proof. intros; unfold stack; ag. Qed.
Ltac ag_79 h := lazymatch h with @stack => apply agree_stack | _ => ag_78 h end.
Ltac ag_api h ::= ag_79 h.
Lemma agree_stack_axis (z : bool) {A} (axis : option Z) (x : list (tensor A)) :
  agree (stack_axis (checked z) axis x) (stack_axis (unchecked z) axis x).
Proof. intros; unfold stack_axis; ag. Qed.
Ltac ag_80 h := lazymatch h with @stack_axis => apply agree_stack_axis | _ => ag_79 h end.
Ltac ag_api h ::= ag_80 h.
Lemma agree_dstack (z : bool) {A} (x : list (tensor A)) :
  agree (dstack (checked z) x) (dstack (unchecked z) x).
Proof. intros; unfold dstack; ag. Qed.
Ltac ag_81 h := lazymatch h with @dstack => apply agree_dstack | _ => ag_80 h end.
Ltac ag_api h ::= ag_81 h.
Lemma agree_hstack (z : bool) {A} (x : list (tensor A)) :
  agree (hstack (checked z) x) (hstack (unchecked z) x).
Proof. intros; unfold hstack; ag. Qed.
Ltac ag_82 h := lazymatch h with @hstack => apply agree_hstack | _ => ag_81 h end.
Ltac ag_api h ::= ag_82 h.
Lemma agree_vstack (z : bool) {A} (x : list (tensor A)) :
  agree (vstack (checked z) x) (vstack (unchecked z) x).
Proof. intros; unfold vstack; ag. Qed.
Ltac ag_83 h := lazymatch h with @vstack => apply agree_vstack | _ => ag_82 h end.
Ltac ag_api h ::= ag_83 h.
Lemma agree_unstack (z : bool) {A} (axis : option Z) (t : tensor A) :
  agree (unstack (checked z) axis t) (unstack (unchecked z) axis t).
Proof. intros; unfold unstack; ag. Qed.
Ltac ag_84 h := lazymatch h with @unstack => apply agree_unstack | _ => ag_83 h end.
Ltac ag_api h ::= ag_84 h.
Lemma agree_tile_rec (z : bool) {A} (x : list A) (x_off x_len : nat) (x_shape_r mult_r : list nat) (j : nat) (st : buf A * nat) :
  agree (tile_rec (checked z) x x_off x_len x_shape_r mult_r j st) (tile_rec (unchecked z) x x_off x_len x_shape_r mult_r j st).
Proof. revert x_off x_len st; induction j as [|j IH]; intros; cbn [tile_rec]; ag. Qed.
Ltac ag_85 h := lazymatch h with @tile_rec => apply agree_tile_rec | _ => ag_84 h end.
Ltac ag_api h ::= ag_85 h.
Lemma agree_tile (z : bool) {A} (t : tensor A) (multiples : tensor nat) :
  agree (tile (checked z) t multiples) (tile (unchecked z) t multiples).
Proof. intros; unfold tile; ag. Qed.
Ltac ag_86 h := lazymatch h with @tile => apply agree_tile | _ => ag_85 h end.
Ltac ag_api h ::= ag_86 h.
Lemma agree_unop (z : bool) {T V} (t : tensor T) (op op' : T -> outcome V) :
  (forall x0, agree (op x0) (op' x0)) -> agree (unop (checked z) t op) (unop (unchecked z) t op').
Proof. intros; unfold unop; ag. Qed.
Ltac ag_87 h := lazymatch h with @unop => apply agree_unop | _ => ag_86 h end.
Ltac ag_api h ::= ag_87 h.
Lemma agree_binop_tt (z : bool) {T U V} (a : tensor T) (b : tensor U) (op op' : T -> U -> outcome V) :
  (forall x0 x1, agree (op x0 x1) (op' x0 x1)) -> agree (binop_tt (checked z) a b op) (binop_tt (unchecked z) a b op').
Proof. intros; unfold binop_tt; ag. Qed.
Ltac ag_88 h := lazymatch h with @binop_tt => apply agree_binop_tt | _ => ag_87 h end.
Ltac ag_api h ::= ag_88 h.
Lemma agree_binop_ts (z : bool) {T U V} (t : tensor T) (y : U) (op op' : T -> U -> outcome V) :
  (forall x0 x1, agree (op x0 x1) (op' x0 x1)) -> agree (binop_ts (checked z) t y op) (binop_ts (unchecked z) t y op').
Proof. intros; unfold binop_ts; ag. Qed.
Ltac ag_89 h := lazymatch h with @binop_ts => apply agree_binop_ts | _ => ag_88 h end.
Ltac ag_api h ::= ag_89 h.
Lemma agree_binop_st (z : bool) {T U V} (x : T) (t : tensor U) (op op' : T -> U -> outcome V) :
  (forall x0 x1, agree (op x0 x1) (op' x0 x1)) -> agree (binop_st (checked z) x t op) (binop_st (unchecked z) x t op').
Proof. intros; unfold binop_st; ag. Qed.
Ltac ag_90 h := lazymatch h with @binop_st => apply agree_binop_st | _ => ag_89 h end.
Ltac ag_api h ::= ag_90 h.
Lemma agree_of_vec_rows (z : bool) {A} (n : nat) (v : list (list (list A))) :
  agree (of_vec_rows (checked z) n v) (of_vec_rows (unchecked z) n v).
Proof. intros; unfold of_vec_rows; ag. Qed.
Ltac ag_91 h := lazymatch h with @of_vec_rows => apply agree_of_vec_rows | _ => ag_90 h end.
Ltac ag_api h ::= ag_91 h.
Lemma agree_of_vec5 (z : bool) {A} (v : list (list (list (list (list A))))) :
  agree (of_vec5 (checked z) v) (of_vec5 (unchecked z) v).
Proof. intros; unfold of_vec5; ag. Qed.
Ltac ag_92 h := lazymatch h with @of_vec5 => apply agree_of_vec5 | _ => ag_91 h end.
Ltac ag_api h ::= ag_92 h.
Lemma agree_of_rows3 (z : bool) {A} (l m n : nat) (v : list (list (list (list A)))) :
  agree (of_rows3 (checked z) l m n v) (of_rows3 (unchecked z) l m n v).
Proof. intros; unfold of_rows3; ag. Qed.
Ltac ag_93 h := lazymatch h with @of_rows3 => apply agree_of_rows3 | _ => ag_92 h end.
Ltac ag_api h ::= ag_93 h.
Lemma agree_of_str (z : bool) {A} (text : A) :
  agree (of_str (checked z) text) (of_str (unchecked z) text).
Proof. intros; unfold of_str; ag. Qed.
Ltac ag_94 h := lazymatch h with @of_str => apply agree_of_str | _ => ag_93 h end.
Ltac ag_api h ::= ag_94 h.
Lemma agree_of_tensor_vec (z : bool) {A} (ts : list (tensor A)) :
  agree (of_tensor_vec (checked z) ts) (of_tensor_vec (unchecked z) ts).
Proof. intros; unfold of_tensor_vec; ag. Qed.
Ltac ag_95 h := lazymatch h with @of_tensor_vec => apply agree_of_tensor_vec | _ => ag_94 h end.
Ltac ag_api h ::= ag_95 h.
Lemma agree_into_list (z : bool) {A} (x : tensor_list A) (vec : list (tensor A)) :
  agree (into_list (checked z) x vec) (into_list (unchecked z) x vec).
Proof. intros; unfold into_list; ag. Qed.
Ltac ag_96 h := lazymatch h with @into_list => apply agree_into_list | _ => ag_95 h end.
Ltac ag_api h ::= ag_96 h.
Lemma agree_concatenate_args (z : bool) {A} (x : tensor_list A) :
  agree (concatenate_args (checked z) x) (concatenate_args (unchecked z) x).
Proof. intros; unfold concatenate_args; ag. Qed.
Ltac ag_97 h := lazymatch h with @concatenate_args => apply agree_concatenate_args | _ => ag_96 h end.
Ltac ag_api h ::= ag_97 h.
Lemma agree_concatenate_axis_args (z : bool) {A} (axis : option Z) (x : tensor_list A) :
  agree (concatenate_axis_args (checked z) axis x) (concatenate_axis_args (unchecked z) axis x).
Proof. intros; unfold concatenate_axis_args; ag. Qed.
Ltac ag_98 h := lazymatch h with @concatenate_axis_args => apply agree_concatenate_axis_args | _ => ag_97 h end.
Ltac ag_api h ::= ag_98 h.
Lemma agree_stack_args (z : bool) {A} (x : tensor_list A) :
  agree (stack_args (checked z) x) (stack_args (unchecked z) x).
Proof. intros; unfold stack_args; ag. Qed.
Ltac ag_99 h := lazymatch h with @stack_args => apply agree_stack_args | _ => ag_98 h end.
Ltac ag_api h ::= ag_99 h.
Lemma agree_stack_axis_args (z : bool) {A} (axis : option Z) (x : tensor_list A) :
  agree (stack_axis_args (checked z) axis x) (stack_axis_args (unchecked z) axis x).
Proof. intros; unfold stack_axis_args; ag. Qed.
Ltac ag_100 h := lazymatch h with @stack_axis_args => apply agree_stack_axis_args | _ => ag_99 h end.
Ltac ag_api h ::= ag_100 h.
Lemma agree_dstack_args (z : bool) {A} (x : tensor_list A) :
  agree (dstack_args (checked z) x) (dstack_args (unchecked z) x).
Proof. intros; unfold dstack_args; ag. Qed.
Ltac ag_101 h := lazymatch h with @dstack_args => apply agree_dstack_args | _ => ag_100 h end.
Ltac ag_api h ::= ag_101 h.
Lemma agree_hstack_args (z : bool) {A} (x : tensor_list A) :
  agree (hstack_args (checked z) x) (hstack_args (unchecked z) x).
Proof. intros; unfold hstack_args; ag. Qed.
Ltac ag_102 h := lazymatch h with @hstack_args => apply agree_hstack_args | _ => ag_101 h end.
Ltac ag_api h ::= ag_102 h.
Lemma agree_vstack_args (z : bool) {A} (x : tensor_list A) :
  agree (vstack_args (checked z) x) (vstack_args (unchecked z) x).
Proof. intros; unfold vstack_args; ag. Qed.
Ltac ag_103 h := lazymatch h with @vstack_args => apply agree_vstack_args | _ => ag_102 h end.
Ltac ag_api h ::= ag_103 h.
Lemma agree_m_concatenate (z : bool) {A} (t : tensor A) (others : tensor_list A) :
  agree (m_concatenate (checked z) t others) (m_concatenate (unchecked z) t others).
Proof. intros; unfold m_concatenate; ag. Qed.
Ltac ag_104 h := lazymatch h with @m_concatenate => apply agree_m_concatenate | _ => ag_103 h end.
Ltac ag_api h ::= ag_104 h.
Lemma agree_m_concatenate_axis (z : bool) {A} (t : tensor A) (axis : option Z) (others : tensor_list A) :
  agree (m_concatenate_axis (checked z) t axis others) (m_concatenate_axis (unchecked z) t axis others).
Proof. intros; unfold m_concatenate_axis; ag. Qed.
Ltac ag_105 h := lazymatch h with @m_concatenate_axis => apply agree_m_concatenate_axis | _ => ag_104 h end.
Ltac ag_api h ::= ag_105 h.
Lemma agree_m_stack (z : bool) {A} (t : tensor A) (others : tensor_list A) (axis : option Z) :
  agree (m_stack (checked z) t others axis) (m_stack (unchecked z) t others axis).
Proof. intros; unfold m_stack; ag. Qed.
Ltac ag_106 h := lazymatch h with @m_stack => apply agree_m_stack | _ => ag_105 h end.
Ltac ag_api h ::= ag_106 h.
Lemma agree_m_dstack (z : bool) {A} (t : tensor A) (others : tensor_list A) :
  agree (m_dstack (checked z) t others) (m_dstack (unchecked z) t others).
Proof. intros; unfold m_dstack; ag. Qed.
Ltac ag_107 h := lazymatch h with @m_dstack => apply agree_m_dstack | _ => ag_106 h end.
Ltac ag_api h ::= ag_107 h.
Lemma agree_m_vstack (z : bool) {A} (t : tensor A) (others : tensor_list A) :
  agree (m_vstack (checked z) t others) (m_vstack (unchecked z) t others).
Proof. intros; unfold m_vstack; ag. Qed.
Ltac ag_108 h := lazymatch h with @m_vstack => apply agree_m_vstack | _ => ag_107 h end.
Ltac ag_api h ::= ag_108 h.
Lemma agree_eye (z : bool) {T} (zero one : T) (n : nat) :
  agree (eye (checked z) zero one n) (eye (unchecked z) zero one n).
Proof. intros; unfold eye; ag. Qed.
Ltac ag_109 h := lazymatch h with @eye => apply agree_eye | _ => ag_108 h end.
Ltac ag_api h ::= ag_109 h.
Lemma agree_diagflat (z : bool) {T} (zero : T) (diag : tensor T) :
  agree (diagflat (checked z) zero diag) (diagflat (unchecked z) zero diag).
Proof. intros; unfold diagflat; ag. Qed.
Ltac ag_110 h := lazymatch h with @diagflat => apply agree_diagflat | _ => ag_109 h end.
Ltac ag_api h ::= ag_110 h.
Lemma agree_tri (z : bool) {T} (zero one : T) (n : nat) :
  agree (tri (checked z) zero one n) (tri (unchecked z) zero one n).
Proof. intros; unfold tri; ag. Qed.
Ltac ag_111 h := lazymatch h with @tri => apply agree_tri | _ => ag_110 h end.
Ltac ag_api h ::= ag_111 h.
Lemma agree_tri_mask (z : bool) {T} (keep : nat -> nat -> bool) (zero : T) (t : tensor T) :
  agree (tri_mask (checked z) keep zero t) (tri_mask (unchecked z) keep zero t).
Proof. intros; unfold tri_mask; ag. Qed.
Ltac ag_112 h := lazymatch h with @tri_mask => apply agree_tri_mask | _ => ag_111 h end.
Ltac ag_api h ::= ag_112 h.
Lemma agree_tril (z : bool) {T} (zero : T) (t : tensor T) :
  agree (tril (checked z) zero t) (tril (unchecked z) zero t).
Proof. intros; unfold tril; ag. Qed.
Ltac ag_113 h := lazymatch h with @tril => apply agree_tril | _ => ag_112 h end.
Ltac ag_api h ::= ag_113 h.
Lemma agree_triu (z : bool) {T} (zero : T) (t : tensor T) :
  agree (triu (checked z) zero t) (triu (unchecked z) zero t).
Proof. intros; unfold triu; ag. Qed.
Ltac ag_114 h := lazymatch h with @triu => apply agree_triu | _ => ag_113 h end.
Ltac ag_api h ::= ag_114 h.
Lemma agree_build_meshgrid_axis (z : bool) {T} (x : tensor T) (s : shape) (k_s : nat) :
  agree (build_meshgrid_axis (checked z) x s k_s) (build_meshgrid_axis (unchecked z) x s k_s).
Proof. intros; unfold build_meshgrid_axis; ag. Qed.
Ltac ag_115 h := lazymatch h with @build_meshgrid_axis => apply agree_build_meshgrid_axis | _ => ag_114 h end.
Ltac ag_api h ::= ag_115 h.
Lemma agree_build_meshgrid (z : bool) {T} (axes : list (tensor T)) (ord : order) :
  agree (build_meshgrid (checked z) axes ord) (build_meshgrid (unchecked z) axes ord).
Proof. intros; unfold build_meshgrid; ag. Qed.
Ltac ag_116 h := lazymatch h with @build_meshgrid => apply agree_build_meshgrid | _ => ag_115 h end.
Ltac ag_api h ::= ag_116 h.
Lemma agree_meshgrid (z : bool) {T} (axes : list (tensor T)) :
  agree (meshgrid (checked z) axes) (meshgrid (unchecked z) axes).
Proof. intros; unfold meshgrid; ag. Qed.
Ltac ag_117 h := lazymatch h with @meshgrid => apply agree_meshgrid | _ => ag_116 h end.
Ltac ag_api h ::= ag_117 h.
Lemma agree_meshgrid_ij (z : bool) {T} (axes : list (tensor T)) :
  agree (meshgrid_ij (checked z) axes) (meshgrid_ij (unchecked z) axes).
Proof. intros; unfold meshgrid_ij; ag. Qed.
Ltac ag_118 h := lazymatch h with @meshgrid_ij => apply agree_meshgrid_ij | _ => ag_117 h end.
Ltac ag_api h ::= ag_118 h.
Lemma agree_linspace (z : bool) {F} (o : fops F) (start end_ : tensor F) (len : nat) :
  agree (linspace o (checked z) start end_ len) (linspace o (unchecked z) start end_ len).
Proof. intros; unfold linspace; ag. Qed.
Ltac ag_119 h := lazymatch h with @linspace => apply agree_linspace | _ => ag_118 h end.
Ltac ag_api h ::= ag_119 h.
Lemma agree_geomspace (z : bool) {F} (o : fops F) (start end_ : tensor F) (len : nat) :
  agree (geomspace o (checked z) start end_ len) (geomspace o (unchecked z) start end_ len).
Proof. intros; unfold geomspace; ag. Qed.
Ltac ag_120 h := lazymatch h with @geomspace => apply agree_geomspace | _ => ag_119 h end.
Ltac ag_api h ::= ag_120 h.
Lemma agree_logspace (z : bool) {F} (o : fops F) (start end_ : tensor F) (len : nat) (base : option F) :
  agree (logspace o (checked z) start end_ len base) (logspace o (unchecked z) start end_ len base).
Proof. intros; unfold logspace; ag. Qed.
Ltac ag_121 h := lazymatch h with @logspace => apply agree_logspace | _ => ag_120 h end.
Ltac ag_api h ::= ag_121 h.
Lemma agree_one_hot (z : bool) {F} (o : fops F) (indices : list nat) (depth : nat) :
  agree (one_hot o (checked z) indices depth) (one_hot o (unchecked z) indices depth).
Proof. intros; unfold one_hot; ag. Qed.
Ltac ag_122 h := lazymatch h with @one_hot => apply agree_one_hot | _ => ag_121 h end.
Ltac ag_api h ::= ag_122 h.
Lemma agree_mgrid (z : bool) {F} (o : fops F) (M N : nat) :
  agree (mgrid o (checked z) M N) (mgrid o (unchecked z) M N).
Proof. intros; unfold mgrid; ag. Qed.
Ltac ag_123 h := lazymatch h with @mgrid => apply agree_mgrid | _ => ag_122 h end.
Ltac ag_api h ::= ag_123 h.
Lemma agree_reduce_hypot (z : bool) {F} (o : fops F) (t : tensor F) :
  agree (reduce_hypot o (checked z) t) (reduce_hypot o (unchecked z) t).
Proof. intros; unfold reduce_hypot; ag. Qed.
Ltac ag_124 h := lazymatch h with @reduce_hypot => apply agree_reduce_hypot | _ => ag_123 h end.
Ltac ag_api h ::= ag_124 h.
Lemma agree_reduce_min (z : bool) {F} (o : fops F) (t : tensor F) :
  agree (reduce_min o (checked z) t) (reduce_min o (unchecked z) t).
Proof. intros; unfold reduce_min; ag. Qed.
Ltac ag_125 h := lazymatch h with @reduce_min => apply agree_reduce_min | _ => ag_124 h end.
Ltac ag_api h ::= ag_125 h.
Lemma agree_reduce_min_axis (z : bool) {F} (o : fops F) (t : tensor F) (axis : option Z) :
  agree (reduce_min_axis o (checked z) t axis) (reduce_min_axis o (unchecked z) t axis).
Proof. intros; unfold reduce_min_axis; ag. Qed.
Ltac ag_126 h := lazymatch h with @reduce_min_axis => apply agree_reduce_min_axis | _ => ag_125 h end.
Ltac ag_api h ::= ag_126 h.
Lemma agree_reduce_max (z : bool) {F} (o : fops F) (t : tensor F) :
  agree (reduce_max o (checked z) t) (reduce_max o (unchecked z) t).
Proof. intros; unfold reduce_max; ag. Qed.
Ltac ag_127 h := lazymatch h with @reduce_max => apply agree_reduce_max | _ => ag_126 h end.
Ltac ag_api h ::= ag_127 h.
Lemma agree_reduce_max_axis (z : bool) {F} (o : fops F) (t : tensor F) (axis : option Z) :
  agree (reduce_max_axis o (checked z) t axis) (reduce_max_axis o (unchecked z) t axis).
Proof. intros; unfold reduce_max_axis; ag. Qed.
Ltac ag_128 h := lazymatch h with @reduce_max_axis => apply agree_reduce_max_axis | _ => ag_127 h end.
Ltac ag_api h ::= ag_128 h.
Lemma agree_mean_update (z : bool) {F} (o : fops F) (st : unit) (s : nat * F) (v : F) :
  agree (mean_update o (checked z) st s v) (mean_update o (unchecked z) st s v).
Proof. intros; unfold mean_update; ag. Qed.
Ltac ag_129 h := lazymatch h with @mean_update => apply agree_mean_update | _ => ag_128 h end.
Ltac ag_api h ::= ag_129 h.
Lemma agree_reduce_mean (z : bool) {F} (o : fops F) (t : tensor F) :
  agree (reduce_mean o (checked z) t) (reduce_mean o (unchecked z) t).
Proof. intros; unfold reduce_mean; ag. Qed.
Ltac ag_130 h := lazymatch h with @reduce_mean => apply agree_reduce_mean | _ => ag_129 h end.
Ltac ag_api h ::= ag_130 h.
Lemma agree_reduce_mean_axis (z : bool) {F} (o : fops F) (t : tensor F) (axis : option Z) :
  agree (reduce_mean_axis o (checked z) t axis) (reduce_mean_axis o (unchecked z) t axis).
Proof. intros; unfold reduce_mean_axis; ag. Qed.
Ltac ag_131 h := lazymatch h with @reduce_mean_axis => apply agree_reduce_mean_axis | _ => ag_130 h end.
Ltac ag_api h ::= ag_131 h.
Lemma agree_welford_update (z : bool) {F} (o : fops F) (st : unit) (w : welford F) (x : F) :
  agree (welford_update o (checked z) st w x) (welford_update o (unchecked z) st w x).
Proof. intros; unfold welford_update; ag. Qed.
Ltac ag_132 h := lazymatch h with @welford_update => apply agree_welford_update | _ => ag_131 h end.
Ltac ag_api h ::= ag_132 h.
Lemma agree_reduce_std (z : bool) {F} (o : fops F) (t : tensor F) :
  agree (reduce_std o (checked z) t) (reduce_std o (unchecked z) t).
Proof. intros; unfold reduce_std; ag. Qed.
Ltac ag_133 h := lazymatch h with @reduce_std => apply agree_reduce_std | _ => ag_132 h end.
Ltac ag_api h ::= ag_133 h.
Lemma agree_reduce_std_axis (z : bool) {F} (o : fops F) (t : tensor F) (axis : option Z) :
  agree (reduce_std_axis o (checked z) t axis) (reduce_std_axis o (unchecked z) t axis).
Proof. intros; unfold reduce_std_axis; ag. Qed.
Ltac ag_134 h := lazymatch h with @reduce_std_axis => apply agree_reduce_std_axis | _ => ag_133 h end.
Ltac ag_api h ::= ag_134 h.
Lemma agree_reduce_variance (z : bool) {F} (o : fops F) (t : tensor F) :
  agree (reduce_variance o (checked z) t) (reduce_variance o (unchecked z) t).
Proof. intros; unfold reduce_variance; ag. Qed.
Ltac ag_135 h := lazymatch h with @reduce_variance => apply agree_reduce_variance | _ => ag_134 h end.
Ltac ag_api h ::= ag_135 h.
Lemma agree_reduce_variance_axis (z : bool) {F} (o : fops F) (t : tensor F) (axis : option Z) :
  agree (reduce_variance_axis o (checked z) t axis) (reduce_variance_axis o (unchecked z) t axis).
Proof. intros; unfold reduce_variance_axis; ag. Qed.
Ltac ag_136 h := lazymatch h with @reduce_variance_axis => apply agree_reduce_variance_axis | _ => ag_135 h end.
Ltac ag_api h ::= ag_136 h.
Lemma agree_reduce_sum (z : bool) {T} (add add' : T -> T -> outcome T) (t : tensor T) :
  (forall x0 x1, agree (add x0 x1) (add' x0 x1)) -> agree (reduce_sum (checked z) add t) (reduce_sum (unchecked z) add' t).
Proof. intros; unfold reduce_sum; ag. Qed.
Ltac ag_137 h := lazymatch h with @reduce_sum => apply agree_reduce_sum | _ => ag_136 h end.
Ltac ag_api h ::= ag_137 h.
Lemma agree_reduce_sum_axis (z : bool) {T} (add add' : T -> T -> outcome T) (t : tensor T) (axis : option Z) :
  (forall x0 x1, agree (add x0 x1) (add' x0 x1)) -> agree (reduce_sum_axis (checked z) add t axis) (reduce_sum_axis (unchecked z) add' t axis).
Proof. intros; unfold reduce_sum_axis; ag. Qed.
Ltac ag_138 h := lazymatch h with @reduce_sum_axis => apply agree_reduce_sum_axis | _ => ag_137 h end.
Ltac ag_api h ::= ag_138 h.
Lemma agree_reduce_product (z : bool) {T} (mul mul' : T -> T -> outcome T) (t : tensor T) :
  (forall x0 x1, agree (mul x0 x1) (mul' x0 x1)) -> agree (reduce_product (checked z) mul t) (reduce_product (unchecked z) mul' t).
Proof. intros; unfold reduce_product; ag. Qed.
Ltac ag_139 h := lazymatch h with @reduce_product => apply agree_reduce_product | _ => ag_138 h end.
Ltac ag_api h ::= ag_139 h.
Lemma agree_reduce_product_axis (z : bool) {T} (mul mul' : T -> T -> outcome T) (t : tensor T) (axis : option Z) :
  (forall x0 x1, agree (mul x0 x1) (mul' x0 x1)) -> agree (reduce_product_axis (checked z) mul t axis) (reduce_product_axis (unchecked z) mul' t axis).
Proof. intros; unfold reduce_product_axis; ag. Qed.
Ltac ag_140 h := lazymatch h with @reduce_product_axis => apply agree_reduce_product_axis | _ => ag_139 h end.
Ltac ag_api h ::= ag_140 h.
Lemma agree_normalize_unit (z : bool) {F} (o : fops F) (t : tensor F) :
  agree (normalize_unit o (checked z) t) (normalize_unit o (unchecked z) t).
Proof. intros; unfold normalize_unit; ag. Qed.
Ltac ag_141 h := lazymatch h with @normalize_unit => apply agree_normalize_unit | _ => ag_140 h end.
Ltac ag_api h ::= ag_141 h.
Lemma agree_float_map (z : bool) {T V} (t : tensor T) (f : T -> V) :
  agree (float_map (checked z) t f) (float_map (unchecked z) t f).
Proof. intros; unfold float_map; ag. Qed.
Ltac ag_142 h := lazymatch h with @float_map => apply agree_float_map | _ => ag_141 h end.
Ltac ag_api h ::= ag_142 h.
Lemma agree_float_map2 (z : bool) {T U V} (a : tensor T) (b : tensor U) (f : T -> U -> V) :
  agree (float_map2 (checked z) a b f) (float_map2 (unchecked z) a b f).
Proof. intros; unfold float_map2; ag. Qed.
Ltac ag_143 h := lazymatch h with @float_map2 => apply agree_float_map2 | _ => ag_142 h end.
Ltac ag_api h ::= ag_143 h.
Lemma agree_float_map3 (z : bool) {T U V W} (ta : tensor T) (tb : tensor U) (tc : tensor V) (f : T -> U -> V -> W) :
  agree (float_map3 (checked z) ta tb tc f) (float_map3 (unchecked z) ta tb tc f).
Proof. intros; unfold float_map3; ag. Qed.
Ltac ag_144 h := lazymatch h with @float_map3 => apply agree_float_map3 | _ => ag_143 h end.
Ltac ag_api h ::= ag_144 h.
Lemma agree_hist_loop (z : bool) {F} (o : fops F) (mn delta : F) (n : nat) (data values : list F) :
  agree (hist_loop o (checked z) mn delta n data values) (hist_loop o (unchecked z) mn delta n data values).
Proof. intros; unfold hist_loop; ag. Qed.
Ltac ag_145 h := lazymatch h with @hist_loop => apply agree_hist_loop | _ => ag_144 h end.
Ltac ag_api h ::= ag_145 h.
Lemma agree_histogram (z : bool) {F} (o : fops F) (data : tensor F) (n_bins : option nat) :
  agree (histogram o (checked z) data n_bins) (histogram o (unchecked z) data n_bins).
Proof. intros; unfold histogram; ag. Qed.
Ltac ag_146 h := lazymatch h with @histogram => apply agree_histogram | _ => ag_145 h end.
Ltac ag_api h ::= ag_146 h.
Lemma agree_histogram2d (z : bool) {F} (o : fops F) (data : tensor F) (n_bins : option nat) :
  agree (histogram2d o (checked z) data n_bins) (histogram2d o (unchecked z) data n_bins).
Proof. intros; unfold histogram2d; ag. Qed.
Ltac ag_147 h := lazymatch h with @histogram2d => apply agree_histogram2d | _ => ag_146 h end.
Ltac ag_api h ::= ag_147 h.
Lemma agree_matmul_t (z : bool) {F} (o : fops F) (a b : tensor F) (tr : trans) :
  agree (matmul_t o (checked z) a b tr) (matmul_t o (unchecked z) a b tr).
Proof. intros; unfold matmul_t; ag. Qed.
Ltac ag_148 h := lazymatch h with @matmul_t => apply agree_matmul_t | _ => ag_147 h end.
Ltac ag_api h ::= ag_148 h.
Lemma agree_matmul (z : bool) {F} (o : fops F) (a b : tensor F) :
  agree (matmul o (checked z) a b) (matmul o (unchecked z) a b).
Proof. intros; unfold matmul; ag. Qed.
Ltac ag_149 h := lazymatch h with @matmul => apply agree_matmul | _ => ag_148 h end.
Ltac ag_api h ::= ag_149 h.
Lemma agree_matvec_t (z : bool) {F} (o : fops F) (a x : tensor F) (tr : trans) :
  agree (matvec_t o (checked z) a x tr) (matvec_t o (unchecked z) a x tr).
Proof. intros; unfold matvec_t; ag. Qed.
Ltac ag_150 h := lazymatch h with @matvec_t => apply agree_matvec_t | _ => ag_149 h end.
Ltac ag_api h ::= ag_150 h.
Lemma agree_matvec (z : bool) {F} (o : fops F) (a x : tensor F) :
  agree (matvec o (checked z) a x) (matvec o (unchecked z) a x).
Proof. intros; unfold matvec; ag. Qed.
Ltac ag_151 h := lazymatch h with @matvec => apply agree_matvec | _ => ag_150 h end.
Ltac ag_api h ::= ag_151 h.
Lemma agree_random_normal (z : bool) {F} (o : rops F) (s : shape) (opt : normal_opt F) (entropy : Z) :
  agree (random_normal o (checked z) s opt entropy) (random_normal o (unchecked z) s opt entropy).
Proof. intros; unfold random_normal; ag. Qed.
Ltac ag_152 h := lazymatch h with @random_normal => apply agree_random_normal | _ => ag_151 h end.
Ltac ag_api h ::= ag_152 h.
Lemma agree_random_uniform (z : bool) {F} (o : rops F) (s : shape) (opt : uniform_opt F) (entropy : Z) :
  agree (random_uniform o (checked z) s opt entropy) (random_uniform o (unchecked z) s opt entropy).
Proof. intros; unfold random_uniform; ag. Qed.
Ltac ag_153 h := lazymatch h with @random_uniform => apply agree_random_uniform | _ => ag_152 h end.
Ltac ag_api h ::= ag_153 h.
Lemma agree_hann_window (z : bool) {F C} (o : sigops F C) (len : nat) :
  agree (hann_window o (checked z) len) (hann_window o (unchecked z) len).
Proof. intros; unfold hann_window; ag. Qed.
Ltac ag_154 h := lazymatch h with @hann_window => apply agree_hann_window | _ => ag_153 h end.
Ltac ag_api h ::= ag_154 h.
Lemma agree_rfft_norm (z : bool) {F C} (o : sigops F C) (t : tensor F) (fft_length : option nat) :
  agree (rfft_norm o (checked z) t fft_length) (rfft_norm o (unchecked z) t fft_length).
Proof. intros; unfold rfft_norm; ag. Qed.
Ltac ag_155 h := lazymatch h with @rfft_norm => apply agree_rfft_norm | _ => ag_154 h end.
Ltac ag_api h ::= ag_155 h.
Lemma agree_frame (z : bool) {A} (x : tensor A) (len step : nat) :
  agree (frame (checked z) x len step) (frame (unchecked z) x len step).
Proof. intros; unfold frame; ag. Qed.
Ltac ag_156 h := lazymatch h with @frame => apply agree_frame | _ => ag_155 h end.
Ltac ag_api h ::= ag_156 h.
Lemma agree_slice_usize (z : bool) {A} (t : tensor A) (i : nat) :
  agree (slice_usize (checked z) t i) (slice_usize (unchecked z) t i).
Proof. intros; unfold slice_usize; ag. Qed.
Ltac ag_157 h := lazymatch h with @slice_usize => apply agree_slice_usize | _ => ag_156 h end.
Ltac ag_api h ::= ag_157 h.
Lemma agree_slice_pair (z : bool) {A} (t : tensor A) (i j : nat) :
  agree (slice_pair (checked z) t i j) (slice_pair (unchecked z) t i j).
Proof. intros; unfold slice_pair; ag. Qed.
Ltac ag_158 h := lazymatch h with @slice_pair => apply agree_slice_pair | _ => ag_157 h end.
Ltac ag_api h ::= ag_158 h.
Lemma agree_read (z : bool) (bs : list Z) (i : nat) :
  agree (read (checked z) bs i) (read (unchecked z) bs i).
Proof. intros; unfold read; ag. Qed.
Ltac ag_159 h := lazymatch h with @read => apply agree_read | _ => ag_158 h end.
Ltac ag_api h ::= ag_159 h.
Lemma agree_read_u16_little (z : bool) (bs : list Z) (i : nat) :
  agree (read_u16_little (checked z) bs i) (read_u16_little (unchecked z) bs i).
Proof. intros; unfold read_u16_little; ag. Qed.
Ltac ag_160 h := lazymatch h with @read_u16_little => apply agree_read_u16_little | _ => ag_159 h end.
Ltac ag_api h ::= ag_160 h.
Lemma agree_read_i16_little (z : bool) (bs : list Z) (i : nat) :
  agree (read_i16_little (checked z) bs i) (read_i16_little (unchecked z) bs i).
Proof. intros; unfold read_i16_little; ag. Qed.
Ltac ag_161 h := lazymatch h with @read_i16_little => apply agree_read_i16_little | _ => ag_160 h end.
Ltac ag_api h ::= ag_161 h.
Lemma agree_read_u32_big (z : bool) (bs : list Z) (i : nat) :
  agree (read_u32_big (checked z) bs i) (read_u32_big (unchecked z) bs i).
Proof. intros; unfold read_u32_big; ag. Qed.
Ltac ag_162 h := lazymatch h with @read_u32_big => apply agree_read_u32_big | _ => ag_161 h end.
Ltac ag_api h ::= ag_162 h.
Lemma agree_read_u32_little (z : bool) (bs : list Z) (i : nat) :
  agree (read_u32_little (checked z) bs i) (read_u32_little (unchecked z) bs i).
Proof. intros; unfold read_u32_little; ag. Qed.
Ltac ag_163 h := lazymatch h with @read_u32_little => apply agree_read_u32_little | _ => ag_162 h end.
Ltac ag_api h ::= ag_163 h.
Lemma agree_decode_wav (z : bool) {F} (o : rops F) (contents : tensor Z) :
  agree (decode_wav o (checked z) contents) (decode_wav o (unchecked z) contents).
Proof. intros; unfold decode_wav; ag. Qed.
Ltac ag_164 h := lazymatch h with @decode_wav => apply agree_decode_wav | _ => ag_163 h end.
Ltac ag_api h ::= ag_164 h.
Lemma agree_read_file (z : bool) (sys : os) :
  agree (read_file (checked z) sys) (read_file (unchecked z) sys).
Proof. intros; unfold read_file; ag. Qed.
Ltac ag_165 h := lazymatch h with @read_file => apply agree_read_file | _ => ag_164 h end.
Ltac ag_api h ::= ag_165 h.
Lemma agree_fmt_tensor_rec (z : bool) {A} (t : tensor A) (rank offset : nat) :
  agree (fmt_tensor_rec (checked z) t rank offset) (fmt_tensor_rec (unchecked z) t rank offset).
Proof. revert offset; induction rank as [|rank IH]; intros; cbn [fmt_tensor_rec]; ag. Qed.
Ltac ag_166 h := lazymatch h with @fmt_tensor_rec => apply agree_fmt_tensor_rec | _ => ag_165 h end.
Ltac ag_api h ::= ag_166 h.
Lemma agree_fmt_tensor (z : bool) {A} (name : String.string) (t : tensor A) :
  agree (fmt_tensor (checked z) name t) (fmt_tensor (unchecked z) name t).
Proof. intros; unfold fmt_tensor; ag. Qed.
Ltac ag_167 h := lazymatch h with @fmt_tensor => apply agree_fmt_tensor | _ => ag_166 h end.
Ltac ag_api h ::= ag_167 h.
Lemma agree_assert_shown (z : bool) {A} (b : bool) (t : tensor A) :
  agree (assert_shown (checked z) b t) (assert_shown (unchecked z) b t).
Proof. intros; unfold assert_shown; ag. Qed.
Ltac ag_168 h := lazymatch h with @assert_shown => apply agree_assert_shown | _ => ag_167 h end.
Ltac ag_api h ::= ag_168 h.
Lemma agree_index2 (z : bool) {A} (t : tensor A) (i j : nat) :
  agree (index2 (checked z) t i j) (index2 (unchecked z) t i j).
Proof. intros; unfold index2; ag. Qed.
Ltac ag_169 h := lazymatch h with @index2 => apply agree_index2 | _ => ag_168 h end.
Ltac ag_api h ::= ag_169 h.
