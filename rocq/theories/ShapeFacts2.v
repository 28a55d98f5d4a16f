(** * Further lemmas about the shape model: squeeze, expand_dims, reduce, batch_len *)
From Coq Require Import ZifyBool ZifyNat ZifyN.
From Verif Require Import Base ShapeModel TensorModel Spec BaseFacts ShapeFacts.

Ltac Zify.zify_post_hook ::= Z.div_mod_to_equations.

(** Evaluates closed comparisons and subtractions. *)
Ltac ceval :=
  repeat match goal with
  | |- context [?x =? ?y] =>
    let v := eval cbv in (x =? y) in
    first [constr_eq v true | constr_eq v false]; change (x =? y) with v
  | |- context [?x - ?y] =>
    let v := eval cbv in (x - y) in
    let b := eval cbv in (v =? v) in constr_eq b true; change (x - y) with v
  | |- context [?x <? ?y] =>
    let v := eval cbv in (x <? y) in
    first [constr_eq v true | constr_eq v false]; change (x <? y) with v
  end.

(** The dimensions different from 1, or [1] if there are none. *)
Definition squeezed (ds : list nat) : list nat :=
  match filter (fun d => negb (d =? 1)) ds with [] => [1] | l => l end.

Lemma squeeze_none_canon c ds :
  length ds <= 6 -> squeeze c (canon ds) None = Ok (canon (squeezed ds)).
Proof.
  intros H. unfold squeeze, squeeze_loop, squeezed.
  ds_cases ds H; cbn [canon rank dims length rev app repeat zero_dims MAX_RANK aset set_nth];
  cbn;
  repeat match goal with |- context [?d =? 1] => destruct (d =? 1); cbn end; reflexivity.
Qed.

Lemma prod_squeezed ds : prod (squeezed ds) = prod ds.
Proof.
  assert (E : prod (filter (fun d => negb (d =? 1)) ds) = prod ds).
  { induction ds as [|d ds IH]; auto. cbn [filter prod].
    destruct (Nat.eqb_spec d 1); cbn [negb prod]; lia. }
  unfold squeezed. destruct (filter _ ds); cbn in *; lia.
Qed.

Lemma supported_squeezed ds : supported ds -> supported (squeezed ds).
Proof.
  intros [Hl Hp]. unfold supported, squeezed in *.
  assert (E : prod (map (Nat.max 1) (filter (fun d => negb (d =? 1)) ds))
              = prod (map (Nat.max 1) ds) /\
              length (filter (fun d => negb (d =? 1)) ds) <= length ds).
  { clear. induction ds as [|d ds IH]; auto. cbn [filter map prod length].
    destruct (Nat.eqb_spec d 1); cbn [negb prod map length]; subst; cbn [Nat.max]; lia. }
  destruct E as [E1 E2].
  destruct (filter _ ds); cbn [map prod length] in *.
  - split; [lia|]. cbn. lia.
  - split; [lia|]. rewrite E1. lia.
Qed.

(** What [squeeze(Some(axis))] does: it tests the dimension before the named one. *)
Lemma squeeze_some_canon c ds a :
  length ds <= 6 -> 0 < length ds -> a < length ds ->
  squeeze c (canon ds) (Some (Z.of_nat a)) =
  Ok (canon (if (0 <? a) && (nth (a - 1) ds 0 =? 1)
             then match remove_at (a - 1) ds with [] => [1] | l => l end
             else ds)).
Proof.
  intros H H0 Ha. unfold squeeze.
  change (rank (canon ds)) with (length ds).
  rewrite iadd_ok by (unfold two63; lia). cbn [bind].
  destruct (Nat.eqb_spec (length ds) 0) as [|_]; [lia|]. cbn [negb assert_ bind].
  replace (Z.rem (Z.of_nat a + Z.of_nat (length ds)) (Z.of_nat (length ds))) with (Z.of_nat a)
    by (rewrite Z.rem_mod_nonneg by lia;
        replace (Z.of_nat a + Z.of_nat (length ds))%Z
          with (Z.of_nat a + 1 * Z.of_nat (length ds))%Z by lia;
        rewrite Z_mod_plus_full, Z.mod_small; lia).
  rewrite as_usize_small by (unfold two64; lia). rewrite Nat2Z.id.
  rewrite usub_ok by (unfold two64; lia). cbn [bind].
  unfold squeeze_loop.
  ds_cases ds H; [exfalso; cbn in H0; lia| | | | | |];
  do 6 (try (destruct a as [|a])); try (exfalso; cbn in Ha; lia);
  cbn; ceval; cbn;
  repeat match goal with
    |- context [?d =? 1] => is_var d; destruct (Nat.eqb_spec d 1); subst; cbn end;
  reflexivity.
Qed.

(** [expand_dims] at a position of the list. *)
Lemma expand_dims_canon c ds (z : Z) p :
  length ds < 6 -> Forall (fun d => 0 < d) ds -> Forall (fun d => Z.of_nat d < two32)%Z ds ->
  p <= length ds ->
  (z = Z.of_nat p \/ z = (Z.of_nat p - Z.of_nat (length ds) - 1)%Z) ->
  expand_dims c (canon ds) z = Ok (canon (insert_at p 1 ds)).
Proof.
  intros Hl Hpos Hs Hp Hz. unfold expand_dims.
  rewrite as_vec_canon by lia. cbn [bind].
  assert (E : (if (0 <=? z)%Z then Ok z
               else let* a := iadd c (Z.of_nat (length ds)) z in iadd c a 1) = Ok (Z.of_nat p)).
  { destruct (Z.leb_spec 0 z).
    - f_equal. lia.
    - rewrite iadd_ok by (unfold two63; lia). cbn [bind].
      rewrite iadd_ok by (unfold two63; lia). f_equal. lia. }
  rewrite E. cbn [bind]. rewrite as_usize_small by (unfold two64; lia). rewrite Nat2Z.id.
  rewrite assert_true by lia. cbn [bind]. unfold vec_insert.
  destruct (Nat.leb_spec p (length ds)); [|lia]. cbn [bind].
  assert (Hf : forall (P : nat -> Prop), P 1 -> Forall P ds -> Forall P (insert_at p 1 ds)).
  { intros P H1 HF. unfold insert_at. apply Forall_app. rewrite <- (firstn_skipn p ds) in HF.
    apply Forall_app in HF. destruct HF. split; auto. }
  fold (insert_at p 1 ds). rewrite from_vec_dims_canon.
  - f_equal. f_equal. apply map_as_u32_small. apply Hf; [unfold two32; lia | auto].
  - unfold insert_at. rewrite app_length, firstn_length. cbn. rewrite skipn_length. lia.
  - apply Hf; auto.
Qed.

Lemma prod_insert_at p x ds : prod (insert_at p x ds) = x * prod ds.
Proof.
  unfold insert_at. rewrite prod_app. cbn [prod].
  rewrite <- (firstn_skipn p ds) at 3. rewrite prod_app. lia.
Qed.

Lemma insert_at_length {A} p (x : A) l : length (insert_at p x l) = S (length l).
Proof. unfold insert_at. rewrite app_length, firstn_length. cbn. rewrite skipn_length. lia. Qed.

Lemma remove_insert_at {A} p (x : A) l : p <= length l -> remove_at p (insert_at p x l) = l.
Proof.
  intros H. unfold remove_at, insert_at.
  assert (E : length (firstn p l) = p) by (rewrite firstn_length; lia).
  rewrite firstn_app, E, Nat.sub_diag, firstn_O, app_nil_r, firstn_firstn, Nat.min_id.
  rewrite skipn_app, E. replace (S p - p) with 1 by lia. rewrite skipn_all2 by lia. cbn.
  apply firstn_skipn.
Qed.

Lemma remove_at_length {A} p (l : list A) : p < length l -> length (remove_at p l) = length l - 1.
Proof. intros H. unfold remove_at. rewrite app_length, firstn_length, skipn_length. lia. Qed.

Lemma map_insert_at {A B} (f : A -> B) p x l : map f (insert_at p x l) = insert_at p (f x) (map f l).
Proof. unfold insert_at. rewrite map_app. cbn [map]. now rewrite firstn_map, skipn_map. Qed.

Lemma prod_remove_at p ds : p < length ds -> nth p ds 0 * prod (remove_at p ds) = prod ds.
Proof.
  revert p; induction ds as [|d ds IH]; intros p H; cbn in H; [lia|].
  destruct p; [reflexivity|]. cbn [nth]. unfold remove_at in *. cbn [firstn skipn app prod].
  rewrite <- (IH p) by lia. cbn. lia.
Qed.

Lemma nth_insert_at {A} p (x d : A) l : p <= length l -> nth p (insert_at p x l) d = x.
Proof.
  intros H. unfold insert_at. rewrite app_nth2; rewrite firstn_length, Nat.min_l by lia; [|lia].
  now rewrite Nat.sub_diag.
Qed.

Lemma insert_remove_at p ds : p < length ds -> insert_at p (nth p ds 0) (remove_at p ds) = ds.
Proof.
  revert p; induction ds as [|d ds IH]; intros p H; cbn in H; [lia|].
  destruct p; [reflexivity|]. specialize (IH p ltac:(lia)).
  unfold insert_at, remove_at in *. cbn [nth firstn skipn app]. f_equal. exact IH.
Qed.

Lemma supported_insert_at p x ds :
  length ds < 6 -> 0 < x -> (Z.of_nat x * Z.of_nat (prod1 ds) < two32)%Z -> supported (insert_at p x ds).
Proof.
  intros Hl Hx H. split.
  - rewrite insert_at_length. lia.
  - rewrite map_insert_at, prod_insert_at. change (prod (map _ ds)) with (prod1 ds).
    unfold two32 in H. rewrite Nat.max_r by lia. lia.
Qed.

(** [reduce] drops the innermost dimension. *)
Lemma reduce_shape_canon ds d :
  length (ds ++ [d]) <= 6 ->
  reduce_shape (canon (ds ++ [d])) = Ok (canon (match ds with [] => [1] | _ => ds end)).
Proof.
  intros H. unfold reduce_shape. rewrite app_length in H. cbn in H.
  change (rank (canon (ds ++ [d]))) with (length (ds ++ [d])).
  destruct ds as [|x ds]; [reflexivity|].
  rewrite app_length. cbn [length].
  destruct (Nat.ltb_spec 1 (S (length ds) + 1)); [|lia].
  rewrite rremove_canon by (rewrite app_length; cbn [length] in *; lia).
  f_equal. f_equal. unfold remove_at.
  rewrite app_length. cbn [length]. replace (S (length ds) + 1 - 1 - 0) with (length (x :: ds)) by (cbn; lia).
  rewrite firstn_app_exact, skipn_all2 by (rewrite app_length; cbn; lia). apply app_nil_r.
Qed.

(** [batch_len] multiplies the innermost [rank - base] dimensions. *)
Lemma batch_len_canon c ds base :
  supported ds -> base <= length ds ->
  batch_len c (canon ds) base = Ok (prod (skipn base ds)).
Proof.
  intros H Hb. pose proof (supported_len _ H) as Hl. unfold batch_len.
  change (rank (canon ds)) with (length ds).
  destruct (Nat.ltb_spec base (length ds)).
  2: { rewrite skipn_all2 by lia. reflexivity. }
  rewrite aslice_ok by (rewrite ?canon_dims_length; lia). cbn [bind skipn].
  rewrite Nat.sub_0_r.
  assert (E : firstn (length ds - base) (dims (canon ds)) = rev (skipn base ds)).
  { unfold canon. cbn [dims]. rewrite <- (firstn_skipn base ds) at 2. rewrite rev_app_distr.
    rewrite <- app_assoc.
    rewrite firstn_app. rewrite rev_length, skipn_length, Nat.sub_diag, firstn_O, app_nil_r.
    rewrite <- skipn_length, <- rev_length. apply firstn_all. }
  rewrite E, product32_ok.
  - now rewrite Nat.mul_1_l, prod_rev.
  - assert (prod1 (rev (skipn base ds)) = prod1 (skipn base ds)) as ->
      by (unfold prod1; now rewrite map_rev, prod_rev).
    pose proof (supported_prod1 _ (supported_skipn base _ H)). lia.
Qed.
