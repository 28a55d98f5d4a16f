(** * Arguments without elements (C34, C36-C40), and products of unequal batches (C48) *)
From Coq Require Import ZifyBool ZifyNat ZifyN.
From Verif Require Import Base ShapeModel TensorModel AxisModel MapModel ArrayModel NumModel FloatModel LinalgModel Spec BaseFacts
  ShapeFacts ShapeFacts2 CoordFacts TensorFacts TensorFacts2 MapFacts ArrayFacts SplitFacts StackFacts SafeFacts SafetyFacts
  LinalgFacts ShapeSpec ShapeProofs TensorSpec TensorProofs MapSpec MapProofs ArrayProofs ExactProofs.
Ltac Zify.zify_post_hook ::= idtac.

(** ** Transpose *)

Lemma c34_transpose_empty {A} c (t : tensor A) ds r k :
  repr t (ds ++ [r; k]) [] -> can_alloc c 0 ->
  transpose c t = if prod ds =? 0 then Ok (fresh (ds ++ [Nat.max 1 k; Nat.max 1 r]) []) else Panic.
Proof.
  intros H Hc. pose proof (repr_supported _ _ _ H) as Hsup. pose proof (repr_len _ _ _ H) as Hlen.
  assert (Hl6 : length (ds ++ [r; k]) <= 6) by apply Hsup.
  destruct (last2 ds r k) as [Lk Lr].
  assert (Hk32 : (Z.of_nat k < two32)%Z) by (eapply supported_in; [exact Hsup|apply in_or_app; right; cbn; auto]).
  assert (Hr32 : (Z.of_nat r < two32)%Z) by (eapply supported_in; [exact Hsup|apply in_or_app; right; cbn; auto]).
  set (k1 := Nat.max 1 k). set (r1 := Nat.max 1 r).
  assert (Hsup' : supported (ds ++ [k1; r1])).
  { destruct Hsup as [S1 S2]. split.
    - rewrite app_length in *. cbn in *. lia.
    - rewrite map_app in *. rewrite prod_app in *. cbn [map prod] in *.
      replace (Nat.max 1 k1 * (Nat.max 1 r1 * 1)) with (Nat.max 1 r * (Nat.max 1 k * 1)) by (subst k1 r1; lia). auto. }
  unfold transpose. rewrite (repr_shape _ _ _ H).
  rewrite cols_canon, rows_canon by auto. cbn [bind]. rewrite Lk, Lr.
  replace (Nat.max k 1) with k1 by (subst k1; lia). replace (Nat.max r 1) with r1 by (subst r1; lia).
  rewrite size_canon by auto. cbn [bind]. rewrite <- Hlen. cbn [length].
  rewrite udiv_ok by (subst k1 r1; nia). cbn [bind].
  change (rank (canon (ds ++ [r; k]))) with (length (ds ++ [r; k])).
  replace (length (ds ++ [r; k]) =? 1) with false by (rewrite app_length; cbn [length]; lia).
  replace (ds ++ [r; k]) with ((ds ++ [r]) ++ [k]) by now rewrite <- app_assoc.
  rewrite with_cols_canon by (rewrite <- app_assoc; cbn [app]; auto).
  cbn [bind]. rewrite <- !app_assoc. cbn [app].
  rewrite with_rows_canon by (rewrite app_length in *; cbn [length] in *; lia).
  cbn [bind]. rewrite !as_u32_small by (subst k1 r1; unfold two32 in *; lia).
  rewrite Nat.div_0_l by (subst k1 r1; nia).
  unfold unsafe_init_, unsafe_init. rewrite alloc_ok by (auto; lia). cbn [bind repeat].
  rewrite (repr_as_slice _ _ _ H). cbn [bind for_ for_from assume_init map_out].
  unfold tensor_new. rewrite size_canon by auto. cbn [bind length]. rewrite prod_app. cbn [prod].
  destruct (Nat.eqb_spec (prod ds) 0) as [E|E].
  - rewrite E. reflexivity.
  - destruct (Nat.eqb_spec (prod ds * (k1 * (r1 * 1))) 0) as [E'|E']; [subst k1 r1; nia|reflexivity].
Qed.

(** ** Split *)

Lemma prod_zero_in l : prod l = 0 -> In 0 l.
Proof. induction l as [|x l IH]; cbn [prod]; [lia|]. intros E. destruct (Nat.eq_dec x 0); [left; auto|right; apply IH; nia]. Qed.

Lemma in_prod_zero l : In 0 l -> prod l = 0.
Proof. induction l as [|x l IH]; cbn; [tauto|]. intros [->|H]; [auto|]. rewrite IH by auto. lia. Qed.

Lemma zero_around d1 w d2 : prod d1 * prod d2 = 0 -> In 0 (d1 ++ w :: d2).
Proof.
  intros H. apply in_or_app. cbn. destruct (Nat.eq_dec (prod d1) 0).
  - left. now apply prod_zero_in.
  - right. right. apply prod_zero_in. nia.
Qed.

Lemma piece_zero {A} c (t : tensor A) d1 n d2 xs a b l x prev cut :
  repr t (d1 ++ n :: d2) xs -> prod d1 * prod d2 = 0 -> split_piece c t (length d1) a b l x prev cut = Panic.
Proof.
  intros H Hz. pose proof (supported_len _ (repr_supported _ _ _ H)) as Hl. rewrite mid_length in Hl.
  unfold split_piece. rewrite (repr_shape _ _ _ H). cbn [rank canon].
  change (mkShape _ (length (d1 ++ n :: d2))) with (canon (d1 ++ n :: d2)).
  rewrite push_dims_canon by (rewrite mid_length; lia). cbn [bind app].
  rewrite Nat.sub_0_r. cbn [skipn]. rewrite firstn_app_exact.
  apply bind_safe_panic; [auto with safe|]. intros w.
  rewrite push_dims_canon by (rewrite mid_length; lia). cbn [bind].
  replace (skipn (length d1 + 1) (d1 ++ n :: d2)) with d2.
  2:{ rewrite Nat.add_comm, <- skipn_skipn, skipn_app_exact. reflexivity. }
  rewrite firstn_all2 by (rewrite mid_length; lia). rewrite <- app_assoc. cbn [app].
  apply bind_safe_panic; [auto with safe|]. intros u.
  apply bind_safe_panic; [auto with safe|]. intros v.
  rewrite from_vec_dims_zero by now apply zero_around. reflexivity.
Qed.

Lemma subslice_zero {A} c (t : tensor A) n d2 xs p w :
  repr t (n :: d2) xs -> prod d2 = 0 -> subslice c t p w = Panic.
Proof.
  intros H Hz. pose proof (supported_len _ (repr_supported _ _ _ H)) as Hl.
  unfold subslice. rewrite (repr_shape _ _ _ H).
  apply bind_panic; [apply safe_dim|]. intros d0 _.
  apply bind_panic; [apply safe_uadd|]. intros e _.
  apply bind_panic; [apply safe_assert|]. intros _ _.
  rewrite as_vec_canon by auto. cbn [bind].
  apply bind_panic; [apply safe_aslice|]. intros r _.
  apply bind_panic; [apply safe_product64|]. intros sz _.
  unfold aset. cbn [length]. replace (0 <? S (length d2)) with true by (symmetry; now apply Nat.ltb_lt; lia).
  cbn [bind].
  apply bind_panic; [apply safe_umul|]. intros o _.
  apply bind_panic; [apply safe_umul|]. intros l _.
  unfold subslice_flat.
  apply bind_panic; [apply safe_assert|]. intros _ _.
  apply bind_panic; [apply safe_uadd|]. intros e' _.
  apply bind_panic; [apply safe_assert|]. intros _ _.
  rewrite from_vec_dims_zero; [reflexivity|].
  right. now apply prod_zero_in.
Qed.

Lemma zero_loop {P} (body : nat -> list P * nat -> outcome (list P * nat)) cuts :
  body 0 ([], 0) = Ok ([], 0) -> (forall k, In k cuts -> 0 < k -> body k ([], 0) = Panic) ->
  for_each cuts body ([], 0) = if forallb (Nat.eqb 0) cuts then Ok ([], 0) else Panic.
Proof.
  intros H0. induction cuts as [|k cuts IH]; intros HP; [reflexivity|]. cbn [for_each forallb].
  destruct k as [|k]; cbn [Nat.eqb andb].
  - rewrite H0. cbn [bind]. apply IH. intros k Hk. apply HP. now right.
  - rewrite HP; auto; [now left|lia].
Qed.

Lemma split_empty {A} c ax (t : tensor A) d1 n d2 xs sec cuts :
  repr t (d1 ++ n :: d2) xs -> selects ax (length d1) (length d1 + 1 + length d2) ->
  section_cuts n sec = Ok cuts -> (forallb (Nat.eqb 0) cuts = true \/ prod d1 * prod d2 = 0) ->
  split_axis c ax t sec = if forallb (Nat.eqb 0) cuts then Ok [] else Panic.
Proof.
  intros H Hax Hsec Hz. pose proof (repr_supported _ _ _ H) as Hs. pose proof (supported_len _ Hs) as Hl.
  rewrite mid_length in Hl.
  assert (Eax : axis_from_rank c ax (length (d1 ++ n :: d2)) = Ok (length d1)).
  { apply selects_axis; rewrite mid_length; [lia|].
    replace (length d1 + (1 + length d2)) with (length d1 + 1 + length d2) by lia. auto. }
  unfold split_axis. rewrite (repr_shape _ _ _ H). cbn [rank canon]. rewrite Eax. cbn [bind].
  change (mkShape _ (length (d1 ++ n :: d2))) with (canon (d1 ++ n :: d2)).
  rewrite dim_canon by (rewrite mid_length; lia). cbn [bind]. rewrite nth_mid, Hsec. cbn [bind].
  assert (Hpos : forall k, In k cuts -> 0 < k -> prod d1 * prod d2 = 0).
  { intros k Hk Hk0. destruct Hz as [Hz|Hz]; auto. rewrite forallb_forall in Hz. specialize (Hz k Hk).
    destruct k; [lia|discriminate]. }
  destruct (Nat.eqb_spec (length d1) 0) as [E0|E0].
  - destruct d1; [|discriminate]. cbn [app prod] in *. unfold cut_rows.
    rewrite zero_loop.
    + destruct (forallb _ cuts); reflexivity.
    + reflexivity.
    + intros k Hk Hk0. replace (k =? 0) with false by (symmetry; apply Nat.eqb_neq; lia).
      rewrite (bind_safe_panic (usub c k 0)); auto with safe. intros w.
      rewrite (subslice_zero c t n d2 xs); auto. specialize (Hpos k Hk Hk0). lia.
  - rewrite (split_by_axis_unfold c t d1 n d2 xs) by auto. rewrite zero_loop.
    + destruct (forallb _ cuts); reflexivity.
    + reflexivity.
    + intros k Hk Hk0. replace (k =? 0) with false by (symmetry; apply Nat.eqb_neq; lia).
      rewrite (piece_zero c t d1 n d2 xs); eauto.
Qed.

Lemma ascending_zero cuts n lo : ascending lo cuts n -> n = 0 -> forallb (Nat.eqb 0) cuts = true.
Proof.
  revert lo. induction cuts as [|k cuts IH]; intros lo H E; [reflexivity|]. cbn [ascending] in H. destruct H as [H1 H2].
  pose proof (ascending_le _ _ _ H2). replace k with 0 by lia. cbn. now apply (IH k).
Qed.

Lemma c36_empty {A} c ax (t : tensor A) d1 n d2 cuts :
  repr t (d1 ++ n :: d2) [] -> selects ax (length d1) (length d1 + 1 + length d2) -> ascending 0 cuts n ->
  split_axis c ax t (SplitCuts cuts) = if n =? 0 then Ok [] else Panic.
Proof.
  intros H Hax Ha. pose proof (repr_len _ _ _ H) as L. rewrite prod_app in L. cbn [length prod] in L.
  rewrite (split_empty c ax t d1 n d2 [] (SplitCuts cuts) (cuts ++ [n])); auto.
  - rewrite forallb_app. cbn [forallb]. rewrite andb_true_r. destruct (Nat.eqb_spec n 0) as [E|E].
    + rewrite (ascending_zero cuts n 0) by auto. subst. reflexivity.
    + replace (0 =? n) with false by (symmetry; apply Nat.eqb_neq; lia). now rewrite andb_false_r.
  - destruct (Nat.eq_dec n 0) as [E|E]; [left|right; nia].
    rewrite forallb_app, (ascending_zero cuts n 0) by auto. now subst.
Qed.

Lemma c37_empty {A} c ax (t : tensor A) d1 n d2 k :
  repr t (d1 ++ n :: d2) [] -> selects ax (length d1) (length d1 + 1 + length d2) ->
  split_axis c ax t (SplitEqual k) = Panic.
Proof.
  intros H Hax. pose proof (repr_len _ _ _ H) as L. rewrite prod_app in L. cbn [length prod] in L.
  pose proof (supported_len _ (repr_supported _ _ _ H)) as Hl. rewrite mid_length in Hl.
  assert (Eax : axis_from_rank c ax (length (d1 ++ n :: d2)) = Ok (length d1)).
  { apply selects_axis; rewrite mid_length; [lia|].
    replace (length d1 + (1 + length d2)) with (length d1 + 1 + length d2) by lia. auto. }
  assert (Hsimple : section_cuts n (SplitEqual k) = Panic -> split_axis c ax t (SplitEqual k) = Panic).
  { intros E. unfold split_axis. rewrite (repr_shape _ _ _ H). cbn [rank canon]. rewrite Eax. cbn [bind].
    change (mkShape _ (length (d1 ++ n :: d2))) with (canon (d1 ++ n :: d2)).
    rewrite dim_canon by (rewrite mid_length; lia). cbn [bind]. rewrite nth_mid, E. reflexivity. }
  destruct (Nat.eq_dec k 0) as [->|Hk]; [apply Hsimple; reflexivity|].
  destruct (Nat.eq_dec (n / k) 0) as [E0|E0].
  { apply Hsimple. unfold section_cuts. rewrite udiv_ok by lia. cbn [bind]. rewrite E0. reflexivity. }
  assert (Hn : n <> 0) by (intros ->; rewrite Nat.div_0_l in E0 by auto; lia).
  pose proof (section_cuts_equal n k (proj1 (Nat.neq_0_lt_0 _) E0) ltac:(lia)) as Hsec.
  erewrite split_empty; [|exact H|exact Hax|exact Hsec|right; nia].
  remember (n / k) as st eqn:Est. clear Est. assert (Q : (n + st - 1) / st <> 0).
  { intros Q. apply Nat.div_small_iff in Q; lia. }
  destruct ((n + st - 1) / st) as [|m]; [congruence|]. cbn [seq map forallb].
  replace (0 =? (0 + 1) * st) with false by (symmetry; apply Nat.eqb_neq; lia). reflexivity.
Qed.

Lemma c39_empty {A} c ax (t : tensor A) d1 n d2 :
  repr t (d1 ++ n :: d2) [] -> selects ax (length d1) (length d1 + 1 + length d2) ->
  unstack c ax t = match d1 with [] => Ok [] | _ => if n =? 0 then Ok [] else Panic end.
Proof.
  intros H Hax. pose proof (repr_supported _ _ _ H) as Hs. pose proof (supported_len _ Hs) as Hl.
  rewrite mid_length in Hl.
  assert (Eax : axis_from_rank c ax (length (d1 ++ n :: d2)) = Ok (length d1)).
  { apply selects_axis; rewrite mid_length; [lia|].
    replace (length d1 + (1 + length d2)) with (length d1 + 1 + length d2) by lia. auto. }
  unfold unstack. rewrite (repr_shape _ _ _ H). cbn [rank canon]. rewrite Eax. cbn [bind].
  destruct d1 as [|d d1]; [reflexivity|].
  replace (length (d :: d1) =? 0) with false by reflexivity.
  apply (c36_empty c (Some (Z.of_nat (length (d :: d1)))) t (d :: d1) n d2); auto.
  - split; [cbn [length]; lia|left; reflexivity].
  - cbn. lia.
Qed.

(** ** Stack *)

Lemma c38_stack_general {A} c ax d1 d2 (ts : list (tensor A)) xss :
  xss <> [] -> Forall2 (fun t xs => repr t (d1 ++ d2) xs) ts xss ->
  selects ax (length d1) (length d1 + length d2 + 1) ->
  0 < prod d2 -> length d2 < 5 -> supported (d1 ++ length xss :: d2) ->
  can_alloc c (prod (d1 ++ length xss :: d2)) ->
  exists ys, stack_axis c ax ts = Ok (fresh (d1 ++ length xss :: d2) ys) /\
    length ys = prod (d1 ++ length xss :: d2) /\
    forall q xs, nth_error xss q = Some xs ->
      forall i1 i2, in_shape d1 i1 -> in_shape d2 i2 ->
        elem (d1 ++ length xss :: d2) ys (i1 ++ q :: i2) = elem (d1 ++ d2) xs (i1 ++ i2).
Proof.
  intros Hne F Hax Hp Hd2 Hs Hc. apply stack_vec_repr; auto.
  pose proof (supported_len _ Hs) as Hl. rewrite mid_length in Hl.
  rewrite app_length. apply selects_axis; [lia|exact Hax].
Qed.

Lemma c38_stack_zero {A} c ax d1 d2 (t : tensor A) ts :
  repr t (d1 ++ d2) [] -> selects ax (length d1) (length d1 + length d2 + 1) -> prod d2 = 0 ->
  stack_axis c ax (t :: ts) = Panic.
Proof.
  intros H Hax Hz. pose proof (repr_supported _ _ _ H) as Hs. pose proof (supported_len _ Hs) as Hl.
  unfold stack_axis, stack_vec.
  apply bind_safe_panic.
  { apply safe_for_each. intros x prev _. destruct prev; safe. }
  intros _. cbn [aget nth_error bind]. rewrite (repr_shape _ _ _ H).
  change (rank (canon (d1 ++ d2))) with (length (d1 ++ d2)).
  rewrite app_length in *. rewrite (selects_axis c ax (length d1)) by (auto; lia). cbn [bind].
  apply bind_safe_panic; [auto with safe|]. intros x_len.
  rewrite sublen_canon by (rewrite ?app_length; auto; lia). cbn [bind].
  rewrite skipn_app_exact, firstn_all2 by lia. rewrite Hz. reflexivity.
Qed.

(** ** Tile *)

Lemma umul_zero_l c b : umul c 0 b = Ok 0.
Proof. apply umul_ok. cbn. reflexivity. Qed.

Lemma umul_zero c a b : a * b = 0 -> umul c a b = Ok 0.
Proof.
  intros E. unfold umul. replace (Z.of_nat a * Z.of_nat b)%Z with 0%Z by nia. reflexivity.
Qed.

Lemma c40_tile_zero {A} c (t : tensor A) ds xs mt ms :
  repr t ds xs -> repr mt [length ms] ms -> prod ds * prod ms = 0 -> tile c t mt = Panic.
Proof.
  intros H Hm Hz. pose proof (supported_len _ (repr_supported _ _ _ H)) as Hl.
  unfold tile. rewrite (repr_shape _ _ _ H), as_vec_canon by auto. cbn [bind].
  rewrite (repr_as_slice _ _ _ Hm). cbn [bind].
  apply bind_safe_panic; [auto with safe|]. intros n_inner.
  apply bind_safe_panic; [auto with safe|]. intros n_outer.
  rewrite (repr_as_slice _ _ _ H). cbn [bind]. rewrite (repr_shape _ _ _ Hm).
  rewrite len_canon by (cbn [length]; lia). cbn [bind]. change (rank (canon ds)) with (length ds).
  set (r := Nat.max (length ds) (length ms)).
  match goal with |- context [for_ r ?b []] => set (body := b) end.
  assert (P : post (for_ r body []) (fun os => exists j, nth_error os j = Some 0)).
  { assert (Z0 : exists j, j < r /\ nth j (rev ds) 1 * nth j (rev ms) 1 = 0).
    { destruct (Nat.eq_dec (prod ds) 0) as [E|E].
      - apply prod_zero_in, in_rev, In_nth with (d := 1) in E. destruct E as (j & Hj & E). rewrite rev_length in Hj.
        exists j. split; [lia|]. rewrite E. lia.
      - assert (E' : prod ms = 0) by nia. apply prod_zero_in, in_rev, In_nth with (d := 1) in E'.
        destruct E' as (j & Hj & E'). rewrite rev_length in Hj. exists j. split; [lia|]. rewrite E'. lia. }
    destruct Z0 as (j0 & Hj0 & Z0).
    apply post_weaken with (P := fun os => length os = r /\
      forall j, j < r -> nth j (rev ds) 1 * nth j (rev ms) 1 = 0 -> nth_error os j = Some 0); [|intros os [_ Q]; eauto].
    apply (post_for (fun i os => length os = i /\
      forall j, j < i -> nth j (rev ds) 1 * nth j (rev ms) 1 = 0 -> nth_error os j = Some 0)).
    - split; [reflexivity|]. intros j Hj. lia.
    - intros i os Hi [Lo Q]. unfold body.
      assert (E1 : (if i <? length ds then aget (rev ds) i else Ok 1) = Ok (nth i (rev ds) 1)).
      { destruct (Nat.ltb_spec i (length ds)).
        - apply aget_nth. now rewrite rev_length.
        - rewrite nth_overflow by (now rewrite rev_length). reflexivity. }
      assert (E2 : (if i <? length ms then aget (rev ms) i else Ok 1) = Ok (nth i (rev ms) 1)).
      { destruct (Nat.ltb_spec i (length ms)).
        - apply aget_nth. now rewrite rev_length.
        - rewrite nth_overflow by (now rewrite rev_length). reflexivity. }
      rewrite E1, E2. cbn [bind]. apply post_bind_safe; [auto with safe|]. intros d Ed. cbn [post].
      split; [rewrite app_length; cbn [length]; lia|]. intros j Hj Zj.
      destruct (Nat.eq_dec j i) as [->|Hne].
      + rewrite umul_zero in Ed by auto. injection Ed as <-. rewrite nth_error_app2 by lia.
        replace (i - length os) with 0 by lia. reflexivity.
      + rewrite nth_error_app1 by lia. apply Q; [lia|exact Zj]. }
  destruct (for_ r body []) as [os| |]; cbn [bind]; [|reflexivity|destruct P].
  destruct P as [j Hj].
  apply bind_safe_panic; [auto with safe|]. intros n.
  rewrite from_vec_dims_zero; [reflexivity|]. rewrite <- in_rev. now apply nth_error_In in Hj.
Qed.

Lemma c40_tile_scalar_multiple {A} c (t : tensor A) ds xs mt ms :
  repr t ds xs -> repr mt [] ms -> tile c t mt = Panic.
Proof.
  intros H Hm. pose proof (supported_len _ (repr_supported _ _ _ H)) as Hl.
  unfold tile. rewrite (repr_shape _ _ _ H), as_vec_canon by auto. cbn [bind].
  rewrite (repr_as_slice _ _ _ Hm). cbn [bind].
  apply bind_safe_panic; [auto with safe|]. intros n_inner.
  apply bind_safe_panic; [auto with safe|]. intros n_outer.
  rewrite (repr_as_slice _ _ _ H). cbn [bind]. rewrite (repr_shape _ _ _ Hm).
  unfold len. rewrite dim_canon_panic by (first [apply Nat.le_0_l|reflexivity]). reflexivity.
Qed.

Lemma axes_ones n : axes_r [] [] n = repeat (1, 1) n.
Proof.
  induction n as [|n IH]; [reflexivity|]. rewrite axes_r_S, IH. destruct n; reflexivity.
Qed.

Lemma tiles_ones n off : tiles (repeat (1, 1) n) off = [off].
Proof.
  revert off. induction n as [|n IH]; intros off; [reflexivity|]. cbn [repeat tiles]. 
  cbn. rewrite !IH. cbn. f_equal. lia.
Qed.

Lemma tiled_ones n : prod (tiled (repeat (1, 1) n)) = 1.
Proof. induction n as [|n IH]; [reflexivity|]. cbn [repeat tiled map prod fst snd]. unfold tiled in IH. rewrite IH. lia. Qed.

Lemma c40_tile_nothing {A} c (t : tensor A) x mt :
  repr t [] [x] -> repr mt [0] [] -> tile c t mt = if overflow_checks c then Panic else Ok (fresh [] [x]).
Proof.
  intros H Hm.
  unfold tile. rewrite (repr_shape _ _ _ H), as_vec_canon by (cbn; lia). cbn [bind].
  rewrite (repr_as_slice _ _ _ Hm). cbn [bind].
  rewrite size_canon by apply supported_nil. cbn [bind prod product64].
  rewrite (repr_as_slice _ _ _ H). cbn [bind]. rewrite (repr_shape _ _ _ Hm).
  rewrite len_canon by (cbn [length]; lia). cbn [bind rank canon length rev]. change (Nat.max 0 0) with 0.
  match goal with |- context [for_ 0 ?b []] => change (for_ 0 b []) with (@Ok (list nat) []) end. cbn [bind].
  rewrite umul_ok by (cbn; reflexivity). cbn [bind rev Nat.mul Nat.add].
  change (from_vec_dims []) with (Ok (canon [])). cbn [bind].
  unfold unsafe_init_, unsafe_init. rewrite alloc_ok by (try (left; discriminate); reflexivity). cbn [bind repeat length].
  unfold usub, arith.
  replace (Z.of_nat 0 - Z.of_nat 1)%Z with (-1)%Z by reflexivity. cbn [Z.leb Z.compare andb].
  destruct (overflow_checks c); [reflexivity|]. cbn [bind].
  generalize (Z.to_nat ((-1) mod two64)). intros j.
  assert (Ef : prod (firstn (S j) []) = 1) by reflexivity.
  pose proof (tile_rec_spec c [x] [] [] j eq_refl 0 [] 0) as T. rewrite Ef, axes_ones, tiles_ones, tiled_ones in T.
  specialize (T (le_n 1)). unfold filled in T. cbn [map app length repeat Nat.add vals flat_map nth_error] in T.
  rewrite T. reflexivity.
Qed.

(** ** Products of unequal batches *)

Lemma c48_matmul_more_t {F} (o : fops F) c (a b : tensor F) da db ar ac br bc m n xs ys tr :
  feq o (fzero o) (fzero o) = true ->
  repr a (da ++ [ar; ac]) xs -> repr b (db ++ [br; bc]) ys -> prod da < prod db -> 0 < prod da ->
  m = (match tr with TNone | TransposeB => ar | _ => ac end) ->
  n = (match tr with TNone | TransposeA => bc | _ => br end) ->
  0 < m -> 0 < n -> supported (db ++ [n; m]) ->
  matmul_t o c a b tr = Panic.
Proof.
  intros Hz Ha Hb Hd Hp Em En Hm Hn Hs.
  apply (matmul_more o c a b da db ar ac br bc xs ys tr Ha Hb Hz); unfold out_rows, out_cols; rewrite <- ?Em, <- ?En; auto.
  left. nia.
Qed.

Lemma c48_matmul_fewer_t {F} (o : fops F) c (a b : tensor F) da db ar ac br bc m k n xs ys tr :
  feq o (fzero o) (fzero o) = true ->
  repr a (da ++ [ar; ac]) xs -> repr b (db ++ [br; bc]) ys -> prod db < prod da ->
  m = (match tr with TNone | TransposeB => ar | _ => ac end) ->
  n = (match tr with TNone | TransposeA => bc | _ => br end) ->
  k = (match tr with TNone | TransposeB => ac | _ => ar end) ->
  k = (match tr with TNone | TransposeA => br | _ => bc end) ->
  0 < m -> 0 < k -> 0 < n -> (Z.of_nat (prod da * (m * n)) < 2 ^ 63)%Z ->
  toffset b + tsize b = length (tdata b) ->
  matmul_t o c a b tr = Ub.
Proof.
  intros Hz Ha Hb Hd Em En Ek Ek' Hm Hk Hn Hmem He.
  apply (matmul_fewer o c a b da db ar ac br bc xs ys tr Ha Hb Hz);
    unfold out_rows, out_cols, inner_a, inner_b; rewrite <- ?Em, <- ?En, <- ?Ek, <- ?Ek'; auto.
  now rewrite Nat.mul_comm.
Qed.
