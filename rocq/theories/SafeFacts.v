(** * Absence of undefined behaviour: compositional lemmas *)
From Verif Require Import Base ShapeModel TensorModel AxisModel.

(** The call does not exhibit undefined behaviour. *)
Definition safe {A} (x : outcome A) : Prop := x <> Ub.

Lemma safe_ok {A} (a : A) : safe (Ok a).
Proof. discriminate. Qed.
Lemma safe_panic {A} : safe (@Panic A).
Proof. discriminate. Qed.
Lemma safe_bind {A B} (x : outcome A) (f : A -> outcome B) :
  safe x -> (forall a, x = Ok a -> safe (f a)) -> safe (bind x f).
Proof. destruct x; cbn; intros H Hf; [now apply Hf|discriminate|now destruct H]. Qed.
Lemma safe_bind' {A B} (x : outcome A) (f : A -> outcome B) :
  safe x -> (forall a, safe (f a)) -> safe (bind x f).
Proof. intros. apply safe_bind; auto. Qed.
Lemma safe_if {A} (b : bool) (x y : outcome A) : safe x -> safe y -> safe (if b then x else y).
Proof. destruct b; auto. Qed.
Lemma safe_assert b : safe (assert_ b).
Proof. destruct b; discriminate. Qed.
Lemma safe_arith c m v : safe (arith c m v).
Proof. unfold arith. repeat apply safe_if; discriminate. Qed.
Lemma safe_uadd c a b : safe (uadd c a b).
Proof. apply safe_arith. Qed.
Lemma safe_usub c a b : safe (usub c a b).
Proof. apply safe_arith. Qed.
Lemma safe_umul c a b : safe (umul c a b).
Proof. apply safe_arith. Qed.
Lemma safe_mul32 c a b : safe (mul32 c a b).
Proof. apply safe_arith. Qed.
Lemma safe_udiv a b : safe (udiv a b).
Proof. unfold udiv. apply safe_if; discriminate. Qed.
Lemma safe_urem a b : safe (urem a b).
Proof. unfold urem. apply safe_if; discriminate. Qed.
Lemma safe_iadd c a b : safe (iadd c a b).
Proof. unfold iadd. repeat apply safe_if; discriminate. Qed.
Lemma safe_aget {A} (l : list A) i : safe (aget l i).
Proof. unfold aget. destruct (nth_error l i); discriminate. Qed.
Lemma safe_aset {A} (l : list A) i v : safe (aset l i v).
Proof. unfold aset. apply safe_if; discriminate. Qed.
Lemma safe_aslice {A} (l : list A) a b : safe (aslice l a b).
Proof. unfold aslice. apply safe_if; discriminate. Qed.

Lemma safe_for_from {S} i n (body : nat -> S -> outcome S) s :
  (forall k s, i <= k < i + n -> safe (body k s)) -> safe (for_from i n body s).
Proof.
  revert i s. induction n as [|n IH]; intros i s H; cbn; [discriminate|].
  apply safe_bind; [apply H; lia|]. intros s' _. apply IH. intros. apply H. lia.
Qed.
Lemma safe_for {S} n (body : nat -> S -> outcome S) s :
  (forall k s, k < n -> safe (body k s)) -> safe (for_ n body s).
Proof. intros H. apply safe_for_from. intros. apply H. lia. Qed.
Lemma safe_for_range {S} a b (body : nat -> S -> outcome S) s :
  (forall k s, a <= k < b -> safe (body k s)) -> safe (for_range a b body s).
Proof. intros H. apply safe_for_from. intros. apply H. lia. Qed.
Lemma safe_for_each {A S} (l : list A) (body : A -> S -> outcome S) s :
  (forall x s, In x l -> safe (body x s)) -> safe (for_each l body s).
Proof.
  revert s. induction l as [|x l IH]; intros s H; cbn; [discriminate|].
  apply safe_bind; [apply H; left; auto|]. intros s' _. apply IH. intros. apply H. right; auto.
Qed.
Lemma safe_map_out {A B} (f : A -> outcome B) l :
  (forall x, In x l -> safe (f x)) -> safe (map_out f l).
Proof.
  induction l as [|x l IH]; intros H; cbn; [discriminate|].
  apply safe_bind; [apply H; left; auto|]. intros y _.
  apply safe_bind; [apply IH; intros; apply H; right; auto|]. intros; discriminate.
Qed.
Lemma safe_product32 c acc l : safe (product32 c acc l).
Proof.
  revert acc. induction l as [|d l IH]; intros acc; cbn; [discriminate|].
  apply safe_bind'; [apply safe_mul32|auto].
Qed.
Lemma safe_product64 c acc l : safe (product64 c acc l).
Proof.
  revert acc. induction l as [|d l IH]; intros acc; cbn; [discriminate|].
  apply safe_bind'; [apply safe_umul|auto].
Qed.
Lemma safe_sum64 c acc l : safe (sum64 c acc l).
Proof.
  revert acc. induction l as [|d l IH]; intros acc; cbn; [discriminate|].
  apply safe_bind'; [apply safe_uadd|auto].
Qed.

Create HintDb safe.
#[export] Hint Resolve safe_ok safe_panic safe_assert safe_uadd safe_usub safe_umul safe_mul32
  safe_udiv safe_urem safe_iadd safe_aget safe_aset safe_aslice safe_product32 safe_product64
  safe_sum64 : safe.

(** Decompose a safety goal into its parts. *)
Ltac safe_step :=
  match goal with
  | |- forall _, _ => intro
  | |- safe (bind _ _) => apply safe_bind; [|intros ? ?]
  | |- safe (if _ then _ else _) => apply safe_if
  | |- safe (match ?x with _ => _ end) => destruct x
  | |- safe (let '(_, _) := ?p in _) => destruct p
  | |- safe (for_ _ _ _) => apply safe_for; intros ? ? ?
  | |- safe (for_range _ _ _ _) => apply safe_for_range; intros ? ? ?
  | |- safe (for_from _ _ _ _) => apply safe_for_from; intros ? ? ?
  | |- safe (for_each _ _ _) => apply safe_for_each; intros ? ? ?
  | |- safe (map_out _ _) => apply safe_map_out; intros ? ?
  | |- safe _ => solve [auto with safe]
  end.
Ltac safe := repeat safe_step.

(** ** Shapes: no shape function has undefined behaviour *)

Lemma safe_size c s : safe (size c s). Proof. unfold size; safe. Qed.
Lemma safe_dim c s i : safe (dim c s i). Proof. unfold dim; safe. Qed.
Lemma safe_rdim s i : safe (rdim s i). Proof. unfold rdim; safe. Qed.
Lemma safe_cols s : safe (cols s). Proof. unfold cols; safe. Qed.
Lemma safe_rows s : safe (rows s). Proof. unfold rows; safe. Qed.
Lemma safe_with_cols s n : safe (with_cols s n). Proof. unfold with_cols; safe. Qed.
Lemma safe_with_rows s n : safe (with_rows s n). Proof. unfold with_rows; safe. Qed.
Lemma safe_rreplace s i v : safe (rreplace s i v). Proof. unfold rreplace; safe. Qed.
Lemma safe_push s d : safe (push s d). Proof. unfold push; safe. Qed.
Lemma safe_vector n : safe (vector n). Proof. unfold vector; safe. Qed.
Lemma safe_pop c s : safe (pop c s). Proof. unfold pop; safe. Qed.
Lemma safe_rremove s i : safe (rremove s i). Proof. unfold rremove; safe. Qed.
Lemma safe_rinsert c s i n : safe (rinsert c s i n). Proof. unfold rinsert; safe. Qed.
Lemma safe_sublen c s a b : safe (sublen c s a b). Proof. unfold sublen; safe. Qed.
Lemma safe_rsublen c s a b : safe (rsublen c s a b). Proof. unfold rsublen; safe. Qed.
Lemma safe_batch_len c s b : safe (batch_len c s b). Proof. unfold batch_len; safe. Qed.
Lemma safe_from_usize n : safe (from_usize n). Proof. unfold from_usize; safe. Qed.
Lemma safe_from_slice_dims l : safe (from_slice_dims l). Proof. unfold from_slice_dims; safe. Qed.
Lemma safe_from_vec_dims l : safe (from_vec_dims l). Proof. unfold from_vec_dims; safe. Qed.
Lemma safe_check_broadcast a b : safe (check_broadcast a b).
Proof. unfold check_broadcast, rdim; safe. Qed.
Lemma safe_append_dims s l : safe (append_dims s l). Proof. unfold append_dims; safe. Qed.
Lemma safe_next_index_from s l : forall i, safe (next_index_from s i l).
Proof. induction l as [|x l IH]; intros i; cbn; safe. Qed.
Lemma safe_next_index s l : safe (next_index s l). Proof. apply safe_next_index_from. Qed.
Lemma safe_squeeze_loop s k : safe (squeeze_loop s k). Proof. unfold squeeze_loop; safe. Qed.

#[export] Hint Resolve safe_size safe_dim safe_rdim safe_cols safe_rows safe_with_cols safe_with_rows
  safe_rreplace safe_push safe_vector safe_pop safe_rremove safe_rinsert safe_sublen safe_rsublen
  safe_batch_len safe_from_usize safe_from_slice_dims safe_from_vec_dims safe_check_broadcast
  safe_append_dims safe_next_index safe_squeeze_loop : safe.

Lemma safe_replace c s i v : safe (replace c s i v). Proof. unfold replace; safe. Qed.
Lemma safe_len c s : safe (len c s). Proof. unfold len; safe. Qed.
Lemma safe_idim c s i : safe (idim c s i). Proof. unfold idim; safe. Qed.
Lemma safe_remove s i : safe (remove s i). Proof. unfold remove; safe. Qed.
Lemma safe_insert c s i n : safe (insert c s i n). Proof. unfold insert; safe. Qed.
Lemma safe_reduce_shape s : safe (reduce_shape s). Proof. unfold reduce_shape; safe. Qed.
Lemma safe_broadcast c a b : safe (broadcast c a b). Proof. unfold broadcast; safe. Qed.
Lemma safe_broadcast_to a b : safe (broadcast_to a b). Proof. unfold broadcast_to; safe. Qed.
Lemma safe_broadcast_min c a m b n : safe (broadcast_min c a m b n).
Proof. unfold broadcast_min; safe. Qed.
Lemma safe_as_vec c s : safe (as_vec c s). Proof. unfold as_vec; safe. Qed.
Lemma safe_squeeze c s a : safe (squeeze c s a). Proof. unfold squeeze; safe. Qed.
Lemma safe_vec_insert {A} (l : list A) i x : safe (vec_insert l i x).
Proof. unfold vec_insert; safe. Qed.
#[export] Hint Resolve safe_replace safe_len safe_idim safe_remove safe_insert safe_reduce_shape
  safe_broadcast safe_broadcast_to safe_broadcast_min safe_as_vec safe_squeeze safe_vec_insert : safe.
Lemma safe_expand_dims c s a : safe (expand_dims c s a). Proof. unfold expand_dims; safe. Qed.
Lemma safe_axis_from_rank c a r : safe (axis_from_rank c a r). Proof. unfold axis_from_rank; safe. Qed.
Lemma safe_norm_axis c a r : safe (norm_axis c a r). Proof. unfold norm_axis; safe. Qed.
Lemma safe_collect_dims c s a b v : safe (collect_dims c s a b v). Proof. unfold collect_dims; safe. Qed.
#[export] Hint Resolve safe_expand_dims safe_axis_from_rank safe_norm_axis safe_collect_dims : safe.
Lemma safe_axis_reduce c a s : safe (axis_reduce c a s). Proof. unfold axis_reduce; safe. Qed.
Lemma safe_axis_reduce_row c a s n : safe (axis_reduce_row c a s n).
Proof. unfold axis_reduce_row; safe. Qed.
Lemma safe_tensor_new {A} c (d : list A) s : safe (tensor_new c d s).
Proof. unfold tensor_new; safe. Qed.
#[export] Hint Resolve safe_axis_reduce safe_axis_reduce_row safe_tensor_new : safe.

(** ** Panics *)

(** A loop one of whose steps panics, and none of whose steps is undefined, panics. *)
Lemma for_each_panic {A S} (l : list A) (body : A -> S -> outcome S) s x :
  In x l -> (forall s, body x s = Panic) -> (forall y s, In y l -> safe (body y s)) ->
  for_each l body s = Panic.
Proof.
  revert s. induction l as [|y l IH]; intros s Hin Hx Hs; [destruct Hin|]. cbn.
  destruct Hin as [->|Hin]; [now rewrite Hx|].
  pose proof (Hs y s (or_introl eq_refl)) as Hy.
  destruct (body y s) as [s'| |]; cbn; [|reflexivity|now destruct Hy].
  apply IH; auto. intros. apply Hs. right; auto.
Qed.

Lemma bind_panic {A B} (x : outcome A) (f : A -> outcome B) :
  safe x -> (forall a, x = Ok a -> f a = Panic) -> bind x f = Panic.
Proof. destruct x; cbn; intros H Hf; auto. now destruct H. Qed.
