(** * Facts about joining the tensors of an argument list *)
From Coq Require Import ZifyBool ZifyNat.
From Verif Require Import Base ShapeModel TensorModel AxisModel MapModel ArrayModel FromModel ArgModel
  Spec BaseFacts ShapeFacts ShapeFacts2 CoordFacts TensorFacts TensorFacts2 ArrayFacts SplitFacts
  TensorSpec TensorProofs ArrayProofs FromFacts.

Lemma sum_blocks {A} P (parts : list (nat * list A)) :
  Forall (fun p => length (snd p) = fst p * P) parts ->
  length (concat (map snd parts)) = list_sum (map fst parts) * P.
Proof.
  induction 1 as [|[m xs] parts H _ IH]; cbn [map concat length fst snd] in *; [reflexivity|].
  change (list_sum (m :: map fst parts)) with (m + list_sum (map fst parts)).
  rewrite app_length, Nat.mul_add_distr_r. lia.
Qed.

Lemma nth_error_block {A} P (parts : list (nat * list A)) q m xs j :
  Forall (fun p => length (snd p) = fst p * P) parts ->
  nth_error parts q = Some (m, xs) -> j < m * P ->
  nth_error (concat (map snd parts)) (list_sum (firstn q (map fst parts)) * P + j) = nth_error xs j.
Proof.
  intros H. revert q. induction H as [|[n ys] parts Hy H IH]; intros [|q] E Hj; cbn in E; try discriminate.
  - injection E as -> ->. cbn [firstn map concat snd fst] in *. rewrite nth_error_app1 by (cbn; lia).
    f_equal; cbn; lia.
  - cbn [firstn map concat snd fst] in *.
    change (list_sum (n :: firstn q (map fst parts))) with (n + list_sum (firstn q (map fst parts))).
    rewrite Nat.mul_add_distr_r, nth_error_app2 by lia. rewrite <- (IH q E Hj). f_equal. lia.
Qed.

(** Along the first axis the elements are the elements of the inputs, one after another. *)
Lemma concatenate_flat {A} c ds (ts : list (tensor A)) parts :
  parts <> [] -> Forall2 (fun t p => repr t (fst p :: ds) (snd p)) ts parts -> length ds < 5 ->
  supported (list_sum (map fst parts) :: ds) -> can_alloc c (prod (list_sum (map fst parts) :: ds)) ->
  exists r, concatenate c ts = Ok r /\
    repr r (list_sum (map fst parts) :: ds) (concat (map snd parts)).
Proof.
  intros Hne J Hd Hs Hc.
  destruct (c35_concatenate c None [] ds ts parts) as (ys & E & Hl & B); auto.
  { cbn. lia. }
  cbn [app] in *. rewrite <- c35_concatenate_first in E. eexists. split; [exact E|].
  enough (ys = concat (map snd parts)) as <- by now apply repr_fresh.
  assert (F : Forall (fun p => length (snd p) = fst p * prod ds) parts).
  { clear -J. induction J as [|t p ts parts H J IH]; constructor; auto.
    apply repr_len in H. exact H. }
  apply nth_error_ext. intros i. destruct (Nat.lt_ge_cases i (length ys)) as [Hi|Hi].
  - rewrite Hl in Hi. cbn [prod] in Hi. set (P := prod ds) in *.
    assert (0 < P) by (destruct P; lia).
    destruct (sum_find (map fst parts) (i / P)) as (q & m & Eq & Hq).
    { apply Nat.div_lt_upper_bound; lia. }
    rewrite nth_error_map in Eq. destruct (nth_error parts q) as [[m' xs]|] eqn:Ep; [|discriminate].
    injection Eq as ->.
    destruct (unravel ds (i mod P)) as (i2 & Hi2 & Er); [apply Nat.mod_upper_bound; lia|].
    set (k := i / P - list_sum (firstn q (map fst parts))).
    specialize (B q m xs Ep [] k i2 in_shape_nil ltac:(unfold k; lia) Hi2).
    cbn [app] in B. unfold elem in B. rewrite !ravel_cons, Er in B.
    pose proof (Nat.div_mod_eq i P) as Hdm. fold P in B.
    assert (i mod P < P) by (apply Nat.mod_upper_bound; lia).
    replace ((list_sum (firstn q (map fst parts)) + k) * P + i mod P) with i in B by (unfold k; nia).
    rewrite B. rewrite <- (nth_error_block P parts q m xs) by (auto; unfold k; nia).
    f_equal. unfold k. nia.
  - rewrite (proj2 (nth_error_None ys i)) by lia. symmetry. apply nth_error_None.
    rewrite (sum_blocks (prod ds)) by auto. cbn [prod] in Hl. lia.
Qed.

Lemma concatenate_vectors {A} c (t : tensor A) n xs (vs : list (list A)) :
  repr t [n] xs -> supported [length (xs ++ concat vs)] -> can_alloc c (length (xs ++ concat vs)) ->
  exists r, m_concatenate c t (Vecs vs) = Ok r /\ repr r [length (xs ++ concat vs)] (xs ++ concat vs).
Proof.
  intros H Hs Hc. assert (Hn : n = length xs) by (apply repr_len in H; cbn in H; lia).
  destruct (into_list_vecs c vs [t]) as (ts & E & F).
  { apply Forall_forall. intros v Hv. apply supported1. apply supported_in with (d := length (xs ++ concat vs)) in Hs; [|now left].
    assert (length v <= length (concat vs)).
    { clear -Hv. induction vs as [|w vs IH]; [easy|]. cbn. rewrite app_length. destruct Hv as [->|Hv]; [lia|]. apply IH in Hv. lia. }
    rewrite app_length in Hs. unfold two32 in Hs. lia. }
  unfold m_concatenate. rewrite E. cbn [bind]. unfold concatenate_args. cbn [into_list bind app].
  assert (Hsum : list_sum (map fst ((n, xs) :: map (fun v => (length v, v)) vs)) = length (xs ++ concat vs)).
  { rewrite app_length, Hn. change (list_sum (map fst ((length xs, xs) :: map (fun v => (length v, v)) vs)))
      with (length xs + list_sum (map fst (map (fun v => (length v, v)) vs))). f_equal.
    clear. induction vs as [|v vs IH]; cbn [map concat]; [reflexivity|]. rewrite app_length, <- IH. reflexivity. }
  assert (Hcat : concat (map snd ((n, xs) :: map (fun v => (length v, v)) vs)) = xs ++ concat vs).
  { cbn [map concat snd]. f_equal. rewrite map_map. cbn [snd]. now rewrite map_id. }
  destruct (concatenate_flat c [] (t :: ts) ((n, xs) :: map (fun v => (length v, v)) vs)) as (r & Er & Hr).
  - discriminate.
  - constructor; [exact H|]. clear -F. induction F; cbn [map]; constructor; auto.
  - cbn; lia.
  - now rewrite Hsum.
  - rewrite Hsum. cbn [prod]. now rewrite Nat.mul_1_r.
  - rewrite Hsum, Hcat in Hr. eauto.
Qed.

(** The functions act on the list the arguments stand for, the methods put the receiver
    in front. *)
Lemma args_functions {A} c (x : tensor_list A) ts ax :
  into_list c x [] = Ok ts ->
  concatenate_args c x = concatenate c ts /\ concatenate_axis_args c ax x = concatenate_axis c ax ts /\
  stack_args c x = stack c ts /\ stack_axis_args c ax x = stack_axis c ax ts /\
  dstack_args c x = dstack c ts /\ hstack_args c x = hstack c ts /\ vstack_args c x = vstack c ts.
Proof.
  intros H. unfold concatenate_args, concatenate_axis_args, stack_args, stack_axis_args, dstack_args,
    hstack_args, vstack_args. rewrite H. repeat split.
Qed.

Lemma args_methods {A} c (t : tensor A) (x : tensor_list A) ts ax :
  into_list c x [] = Ok ts ->
  m_concatenate c t x = concatenate c (t :: ts) /\
  m_concatenate_axis c t ax x = concatenate_axis c ax (t :: ts) /\
  m_stack c t x ax = stack_axis c ax (t :: ts) /\
  m_dstack c t x = dstack c (t :: ts) /\ m_vstack c t x = vstack c (t :: ts).
Proof.
  intros H. unfold m_concatenate, m_concatenate_axis, m_stack, m_dstack, m_vstack.
  rewrite !(into_list_appends c x [t]), H. repeat split.
Qed.

Lemma args_panic {A} c (t : tensor A) (x : tensor_list A) ax :
  into_list c x [] = Panic ->
  concatenate_args c x = Panic /\ concatenate_axis_args c ax x = Panic /\ stack_args c x = Panic /\
  stack_axis_args c ax x = Panic /\ dstack_args c x = Panic /\ hstack_args c x = Panic /\
  vstack_args c x = Panic /\ m_concatenate c t x = Panic /\ m_concatenate_axis c t ax x = Panic /\
  m_stack c t x ax = Panic /\ m_dstack c t x = Panic /\ m_vstack c t x = Panic.
Proof.
  intros H. unfold concatenate_args, concatenate_axis_args, stack_args, stack_axis_args, dstack_args,
    hstack_args, vstack_args, m_concatenate, m_concatenate_axis, m_stack, m_dstack, m_vstack.
  rewrite !(into_list_appends c x [t]), H. repeat split.
Qed.
