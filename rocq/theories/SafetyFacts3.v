(** * Safety of views, conversions and the functions of src/array *)
From Coq Require Import ZifyBool ZifyNat ZifyN.
From Verif Require Import Base ShapeModel TensorModel AxisModel MapModel ArrayModel Spec BaseFacts SafeFacts ShapeFacts ShapeFacts2
  SplitFacts SafetyFacts SafetyFacts2.

Lemma rremove_dlist s i s' : a_shape s -> rank s <= 6 -> rremove s i = Ok s' ->
  i < rank s /\ rank s' = rank s - 1 /\ dlist s' = remove_at (rank s - 1 - i) (dlist s).
Proof.
  intros [Hl _] Hr H. destruct (Nat.lt_ge_cases i (rank s)) as [Hi|Hi]; [|rewrite rremove_panic in H by exact Hi; discriminate].
  split; [exact Hi|]. destruct s as [d r]. cbn [dims rank] in *.
  do 6 (destruct d as [|? d]; [discriminate|]). destruct d; [|discriminate].
  do 7 (destruct r as [|r]; [do 6 (try (destruct i as [|i]; [try (exfalso; lia); vm_compute in H; apply Ok_inj in H; subst s'; split; reflexivity|])); exfalso; lia|]).
  exfalso; lia.
Qed.

Lemma cols_value s d : a_shape s -> 1 <= rank s -> rank s <= 6 -> cols s = Ok d -> exists r, dlist s = r ++ [d].
Proof.
  intros [Hl _] H1 Hr H. destruct s as [l r]. unfold cols, aget, dlist in *. cbn [dims rank] in *.
  destruct l as [|x l]; [discriminate|]. cbn in H. apply Ok_inj in H. subst x. destruct r as [|r]; [lia|]. cbn. eauto.
Qed.
Lemma rows_value s r d : a_shape s -> 1 < rank s -> rank s <= 6 -> rows s = Ok r -> cols s = Ok d -> exists q, dlist s = q ++ [r; d].
Proof.
  intros [Hl _] H1 Hr H H'. destruct s as [l k]. unfold rows, cols, aget, dlist in *. cbn [dims rank] in *.
  replace (1 <? k) with true in H by lia.
  destruct l as [|x [|y l]]; try discriminate. cbn in H, H'. apply Ok_inj in H, H'. subst x y. destruct k as [|[|k]]; [lia|lia|]. cbn. exists (rev (firstn k l)).
  now rewrite <- app_assoc.
Qed.
Lemma aget0 {A} (l : list A) x : aget l 0 = Ok x -> exists r, l = x :: r.
Proof. destruct l as [|y l]; cbn; [discriminate|]. intros H. apply Ok_inj in H. subst. eauto. Qed.
Lemma remove_dlist s i s' : a_shape s -> rank s <= 6 -> remove s i = Ok s' ->
  i < rank s /\ a_shape s' /\ rank s' = rank s - 1 /\ dlist s' = remove_at i (dlist s).
Proof.
  intros Ha Hr H. pose proof (remove_post s i Ha) as Hs. rewrite H in Hs. cbn in Hs. unfold remove in H.
  unfold assert_ in H. destruct (i <? rank s) eqn:E; [|discriminate]. cbn [bind] in H.
  unfold usub, arith in H. apply rremove_dlist in H; auto. destruct H as (H1 & H2 & H3). split; [lia|]. split; [exact Hs|]. split; [exact H2|].
  rewrite H3. f_equal. lia.
Qed.
Lemma list_sum_split {X} (f : X -> nat) l x r : list_sum (map f (l ++ x :: r)) = list_sum (map f l) + f x + list_sum (map f r).
Proof. rewrite map_app, list_sum_app. cbn. fold (list_sum (map f r)). lia. Qed.
Lemma shape_eqb_eq a b : shape_eqb a b = true -> a = b.
Proof.
  unfold shape_eqb. destruct (list_eq_dec _ _ _) as [E|]; [|discriminate]. destruct a, b. cbn in *. intros H. f_equal; [exact E|lia].
Qed.

Section Ops.
  Context (c : cfg) (Hc : overflow_checks c = true) (Hz : zero_alloc_ok c = true).

  (** ** src/tensor *)

  Lemma from_slice_post {A} (d : list A) : post (from_slice c d) (inside c).
  Proof.
    unfold from_slice. eapply post_bind; [apply from_usize_post|]. intros s Hs. apply unsafe_init__post; auto.
    eapply adds_weaken; [apply (adds_for (length d) (fun b => b) (length d) _ (fun k p => p = k))|intros p Hp; exists p; auto].
    intros k Hk W o Ho. apply post_bind_safe; [auto with safe|]. intros v _. now apply write_post.
  Qed.
  Lemma from_merge_post {A} (ts : list (tensor A)) s : a_shape s -> Forall (inside c) ts -> post (from_merge c ts s) (inside c).
  Proof.
    intros Hs Ht. unfold from_merge. apply post_bind_safe; [auto with safe|]. intros n _. apply post_bind_safe; [auto with safe|]. intros m _.
    apply post_assert. intros _. apply post_bind_safe; [apply safe_map_out; rewrite Forall_forall in Ht; eauto with safe|]. intros parts _.
    now apply tensor_new_post.
  Qed.
  Lemma append_post {A} (t u : tensor A) : inside c t -> inside c u -> post (append c t u) (inside c).
  Proof.
    intros Ht Hu. unfold append. do 2 (apply post_bind_safe; [auto with safe|]; intros ? _). apply post_assert. intros _.
    do 5 (apply post_bind_safe; [auto with safe|]; intros ? _).
    eapply post_bind; [apply from_vec_dims_post|]. intros s (_ & Hs & _). apply from_merge_post; auto.
  Qed.
  Lemma join_vec_post {A} (v : list (list A)) : post (join_vec c v) (inside c).
  Proof. unfold join_vec. eapply post_bind; [apply from_usize_post|]. intros s Hs. now apply tensor_new_post. Qed.
  Lemma subslice_flat_post {A} (t : tensor A) o l (s : outcome shape) : inside c t ->
    post s (fun s => a_shape s /\ (size c s = Ok 0 -> l <> 1)) -> post (subslice_flat c t o l s) (inside c).
  Proof.
    intros (_ & _ & Ht) Hs. unfold subslice_flat. apply post_assert. intros H1. apply post_bind_safe; [auto with safe|]. intros e He.
    apply (uadd_value c Hc) in He. apply post_assert. intros H2. eapply post_bind; [apply Hs|]. intros s' [Hs' H0].
    apply post_bind_safe; [auto with safe|]. intros n Hn. apply post_assert. intros H3. apply post_bind_safe; [auto with safe|]. intros p Hp.
    apply (uadd_value c Hc) in Hp. cbn. split; [exact Hs'|]. cbn. split; [|lia]. rewrite Hn. f_equal.
    assert (n = 0 -> l <> 1) by (intros ->; auto). lia.
  Qed.
  Lemma subslice_post {A} (t : tensor A) o l : inside c t -> post (subslice c t o l) (inside c).
  Proof.
    intros Ht. pose proof Ht as (Ha & Hn & _). destruct (size_value c Hc _ _ Ha Hn) as [Hr _]. unfold subslice.
    apply post_bind_safe; [auto with safe|]. intros d0 Hd0. apply (dim_value c Hc) in Hd0; auto. destruct Hd0 as [_ Hd0].
    apply post_bind_safe; [auto with safe|]. intros e He. apply (uadd_value c Hc) in He. apply post_assert. intros Hle.
    apply post_bind_safe; [auto with safe|]. intros v Hv. apply (as_vec_value c Hc) in Hv; auto. subst v.
    do 2 (apply post_bind_safe; [auto with safe|]; intros ? _).
    apply post_bind_safe; [auto with safe|]. intros v Hv. do 2 (apply post_bind_safe; [auto with safe|]; intros ? _).
    apply subslice_flat_post; [exact Ht|]. eapply post_weaken; [apply from_vec_dims_post|]. intros s (Es & Hs & Hpos). split; [exact Hs|].
    intros H0. exfalso. apply (size_value c Hc) in H0; auto. destruct H0 as [_ H0].
    assert (Hsm : Forall (fun d => Z.of_nat d < two32)%Z v).
    { pose proof (dlist_small _ Ha) as Hf. rewrite Forall_forall in *. unfold aset in Hv. destruct (0 <? _) eqn:E0 in Hv; [|discriminate].
      apply Ok_inj in Hv. subst v. intros d Hd. apply In_nth_error in Hd. destruct Hd as [k Hk].
      destruct (Nat.eq_dec k 0) as [->|N]; [rewrite nth_error_set_nth_eq in Hk by lia|rewrite nth_error_set_nth_neq in Hk by auto].
      - injection Hk as <-. apply nth_error_In in Hd0. specialize (Hf _ Hd0). lia.
      - apply Hf. eapply nth_error_In; eauto. }
    rewrite Es, dlist_canon, map_as_u32_small in H0 by exact Hsm. apply prod_pos in Hpos. lia.
  Qed.
  Lemma reshape_post {A} (t : tensor A) s : inside c t -> a_shape s -> post (reshape c t s) (inside c).
  Proof.
    intros (_ & _ & Ht) Hs. unfold reshape. apply post_bind_safe; [auto with safe|]. intros n Hn. apply post_assert. intros E.
    cbn. split; [exact Hs|]. cbn. split; [rewrite Hn; f_equal; lia|lia].
  Qed.
  Lemma t_expand_dims_post {A} (t : tensor A) ax : inside c t -> post (t_expand_dims c t ax) (inside c).
  Proof. intros Ht. unfold t_expand_dims. eapply post_bind; [apply expand_dims_post|]. intros s Hs. now apply reshape_post. Qed.
  Lemma flatten_post {A} (t : tensor A) : inside c t -> post (flatten c t) (inside c).
  Proof. intros Ht. unfold flatten. eapply post_bind; [apply from_slice_dims_post|]. intros s [_ Hs]. now apply reshape_post. Qed.
  Lemma t_squeeze_post {A} (t : tensor A) : inside c t -> post (t_squeeze c t) (inside c).
  Proof. intros Ht. unfold t_squeeze. eapply post_bind; [apply squeeze_post, Ht|]. intros s Hs. now apply reshape_post. Qed.
  Lemma squeeze_axis_post {A} (t : tensor A) ax : inside c t -> post (squeeze_axis c t ax) (inside c).
  Proof. intros Ht. unfold squeeze_axis. eapply post_bind; [apply squeeze_post, Ht|]. intros s Hs. now apply reshape_post. Qed.

  Lemma of_option_post {A} (v : option A) : post (of_option c v) (inside c).
  Proof.
    destruct v as [v|]; [apply tensor_new_post, scalar_a_shape|]. unfold of_option. eapply post_bind; [apply from_slice_dims_post|].
    intros s [_ Hs]. now apply tensor_new_post.
  Qed.
  Lemma of_vec_post {A} (v : list A) : post (of_vec c v) (inside c).
  Proof. unfold of_vec. eapply post_bind; [apply from_usize_post|]. intros s Hs. now apply tensor_new_post. Qed.
  Lemma of_rows_post {A} n (v : list (list A)) : post (of_rows c n v) (inside c).
  Proof. unfold of_rows. eapply post_bind; [apply from_slice_dims_post|]. intros s [_ Hs]. now apply tensor_new_post. Qed.
  Lemma of_rows2_post {A} m n (v : list (list (list A))) : post (of_rows2 c m n v) (inside c).
  Proof. unfold of_rows2. eapply post_bind; [apply from_slice_dims_post|]. intros s [_ Hs]. now apply tensor_new_post. Qed.
  Lemma of_vec2_post {A} (v : list (list A)) : post (of_vec2 c v) (inside c).
  Proof.
    unfold of_vec2. apply post_bind_safe; [auto with safe|]. intros v0 _. apply post_bind_safe; [safe|]. intros d _.
    eapply post_bind; [apply from_slice_dims_post|]. intros s [_ Hs]. now apply tensor_new_post.
  Qed.
  Lemma of_vec3_post {A} (v : list (list (list A))) : post (of_vec3 c v) (inside c).
  Proof.
    unfold of_vec3. do 2 (apply post_bind_safe; [auto with safe|]; intros ? _). apply post_bind_safe; [safe|]. intros d _.
    eapply post_bind; [apply from_slice_dims_post|]. intros s [_ Hs]. now apply tensor_new_post.
  Qed.
  Lemma of_vec4_post {A} (v : list (list (list (list A)))) : post (of_vec4 c v) (inside c).
  Proof.
    unfold of_vec4. do 3 (apply post_bind_safe; [auto with safe|]; intros ? _). apply post_bind_safe; [safe|]. intros d _.
    eapply post_bind; [apply from_slice_dims_post|]. intros s [_ Hs]. now apply tensor_new_post.
  Qed.
  Lemma of_tensors_post {A} (ts : list (tensor A)) : Forall (inside c) ts -> post (of_tensors c ts) (inside c).
  Proof.
    intros Ht. rewrite Forall_forall in Ht. unfold of_tensors. apply post_assert. intros _.
    apply post_bind_safe; [auto with safe|]. intros t0 H0. apply post_bind_safe; [safe|]. intros _ _.
    apply post_bind_safe; [apply safe_map_out; eauto with safe|]. intros parts _.
    assert (In t0 ts). { unfold aget in H0. destruct (nth_error ts 0) eqn:E; [|discriminate]. apply Ok_inj in H0. subst. eapply nth_error_In; eauto. }
    eapply post_bind; [apply push_post, (Ht t0); assumption|]. intros s Hs. now apply tensor_new_post.
  Qed.

  (** Reading. *)
  Lemma safe_index1 {A} (t : tensor A) i : inside c t -> safe (index1 t i).
  Proof.
    intros (_ & _ & Ht). unfold index1. apply safe_bind; [auto with safe|]. intros [] H. unfold assert_ in H.
    destruct (i <? tsize t) eqn:E; [|discriminate]. apply safe_raw_get; lia.
  Qed.
  Hint Resolve safe_index1 : safe.
  Lemma safe_index3 {A} (t : tensor A) i j k : inside c t -> safe (index3 c t i j k).
  Proof. intros. unfold index3. safe. Qed.
  Lemma safe_index4 {A} (t : tensor A) h i j k : inside c t -> safe (index4 c t h i j k).
  Proof. intros. unfold index4. safe. Qed.
  Lemma safe_index5 {A} (t : tensor A) g h i j k : inside c t -> safe (index5 c t g h i j k).
  Proof. intros. unfold index5. safe. Qed.
  Lemma safe_iter_row {A} (t : tensor A) : inside c t -> safe (iter_row t).
  Proof. intros. unfold iter_row, chunks_exact. apply safe_bind; [auto with safe|]. intros d _. apply safe_bind; [eauto with safe|]. intros. safe. Qed.
  Lemma safe_tensor_eqb {A} eqb (t u : tensor A) : inside c t -> inside c u -> safe (tensor_eqb eqb t u).
  Proof. intros. unfold tensor_eqb. safe; eauto with safe. Qed.

  (** ** src/array/transpose.rs *)


  Lemma transpose_post {A} (t : tensor A) : inside c t -> post (transpose c t) (inside c).
  Proof.
    intros Ht. pose proof Ht as (Ha & Hn & _). destruct (size_value c Hc _ _ Ha Hn) as [Hr Hp]. unfold transpose.
    apply post_bind_safe; [auto with safe|]. intros k0 Hk0. apply post_bind_safe; [auto with safe|]. intros r0 Hr0. cbn zeta.
    rewrite Hn. cbn [bind]. set (k := Nat.max k0 1). set (r := Nat.max r0 1). apply post_bind_safe; [auto with safe|]. intros batch Hb.
    unfold udiv in Hb. destruct (k * r =? 0) eqn:E0; [discriminate|]. apply Ok_inj in Hb.
    assert (Hs : post (if rank (tshape t) =? 1 then rinsert c (tshape t) 0 1 else let* s := with_cols (tshape t) r in with_rows s k)
      (fun s => a_shape s /\ batch * (k * r) = tsize t)).
    { destruct (Nat.eq_dec (rank (tshape t)) 1) as [E1|E1].
      - replace (rank (tshape t) =? 1) with true by lia. eapply post_weaken; [apply rinsert_post, Ha|]. intros s Hs. split; [exact Hs|].
        assert (r = 1) as Er. { unfold rows in Hr0. rewrite E1 in Hr0. cbn in Hr0. apply Ok_inj in Hr0. unfold r. lia. }
        destruct (cols_value _ _ Ha ltac:(lia) Hr Hk0) as [q Eq]. assert (Hl := dlist_length _ Ha Hr). rewrite Eq, app_length in Hl. cbn in Hl.
        destruct q; [|cbn in Hl; lia]. rewrite Eq in Hp. cbn in Hp. rewrite Nat.mul_1_r in Hp. rewrite Er, Nat.mul_1_r. rewrite Er, Nat.mul_1_r in Hb. subst batch.
        destruct (Nat.eq_dec k0 0) as [->|]; [subst k; rewrite Hp; reflexivity|]. replace k with k0 by lia. rewrite Hp, Nat.div_same by lia. lia.
      - replace (rank (tshape t) =? 1) with false by lia. eapply post_bind; [eapply post_weaken; [apply post_safe; auto with safe|]|].
        { intros s Es. exact Es. }
        intros s Es. cbn beta in Es. pose proof (with_cols_post (tshape t) r Ha) as Hs. rewrite Es in Hs. cbn in Hs.
        assert (Ers : rank s = rank (tshape t)).
        { unfold with_cols in Es. destruct (aset _ _ _); try discriminate. cbn in Es. apply Ok_inj in Es. now subst s. }
        unfold with_rows. apply post_assert. intros E2. apply post_bind_safe; [auto with safe|]. intros d Hd.
        pose proof (aset_six (dims s) 1 (as_u32 k) Hs (as_u32_lt k)) as Hd6. rewrite Hd in Hd6. cbn. split; [exact Hd6|].
        destruct (rows_value _ _ _ Ha ltac:(lia) Hr Hr0 Hk0) as [q Eq]. rewrite Eq, prod_app in Hp. cbn [prod] in Hp. rewrite Nat.mul_1_r in Hp.
        subst batch. rewrite Hp.
        destruct (Nat.eq_dec k0 0) as [->|]; [rewrite Nat.mul_0_r, Nat.mul_0_r, Nat.div_0_l; lia|].
        destruct (Nat.eq_dec r0 0) as [->|]; [rewrite Nat.mul_0_l, Nat.mul_0_r, Nat.div_0_l; lia|].
        replace k with k0 by lia. replace r with r0 by lia. rewrite (Nat.mul_comm r0 k0), Nat.div_mul by nia. reflexivity. }
    eapply post_bind; [exact Hs|]. intros s [Hsa Hsz]. apply unsafe_init__post; auto. intros W o Ho.
    apply post_bind_safe; [eauto with safe|]. intros x _.
    apply (adds_weaken _ _ _ (fun p => exists n, n < batch /\ exists j, j < r /\ exists i, i < k /\ p = n * (k * r) + i * r + j)); [| |exact Ho].
    - apply (adds_for (tsize t) (fun b => b)). intros n Hnb. apply (adds_for (tsize t) (fun b => b)). intros j Hj.
      apply (adds_for (tsize t) (fun b => b)). intros i Hi W' o' Ho'. apply post_bind_safe; [auto with safe|]. intros v _. apply write_post; [exact Ho'|].
      rewrite <- Hsz. pose proof (idx2_lt k r i j Hi Hj). pose proof (idx2_lt batch (k * r) n (i * r + j) Hnb H). lia.
    - intros p Hpp. rewrite <- Hsz in Hpp. destruct (idx2 p batch (k * r) Hpp) as (n & q & Hnn & Hq & ->).
      destruct (idx2 q k r Hq) as (i & j & Hi & Hj & ->). exists n. split; [exact Hnn|]. exists j. split; [exact Hj|]. exists i. split; [exact Hi|]. lia.
  Qed.

  (** ** src/array/split.rs *)

  Lemma split_piece_post {A} (t : tensor A) axis n_outer n_inner axis_len x prev cut :
    post (split_piece c t axis n_outer n_inner axis_len x prev cut) (inside c).
  Proof.
    unfold split_piece. apply post_bind_safe; [apply push_dims_safe|]. intros v1 _. apply post_bind_safe; [auto with safe|]. intros w Hw.
    apply (usub_value c Hc) in Hw. apply post_bind_safe; [apply push_dims_safe|]. intros v2 _.
    apply post_bind_safe; [auto with safe|]. intros n Hn. apply (umul_val c Hc) in Hn.
    apply post_bind_safe; [auto with safe|]. intros len Hl. apply (umul_val c Hc) in Hl.
    eapply post_bind; [apply from_vec_dims_post|]. intros s (_ & Hs & _). destruct Hw as [Hle ->]. subst n len.
    apply unsafe_init__post; auto. set (w := cut - prev).
    apply (adds_weaken _ _ _ (fun p => exists j, j < n_outer /\ exists k, prev <= k < cut /\ exists i, i < n_inner /\ p = j * n_inner * w + (k - prev) * n_inner + i)).
    - apply (adds_for _ (fun b => b)). intros j Hj. apply (adds_for_range _ (fun b => b)). intros k Hk.
      apply (adds_for _ (fun b => b)). intros i Hi W' o' Ho'. apply post_bind_safe; [auto with safe|]. intros v _. apply write_post; [exact Ho'|].
      pose proof (idx2_lt w n_inner (k - prev) i ltac:(lia) Hi). pose proof (idx2_lt n_outer (w * n_inner) j _ Hj H). nia.
    - intros p Hp. destruct (idx2 p n_outer (w * n_inner)) as (j & q & Hj & Hq & ->); [nia|].
      destruct (idx2 q w n_inner Hq) as (k & i & Hk & Hi & ->). exists j. split; [exact Hj|]. exists (prev + k). split; [lia|]. exists i. split; [exact Hi|].
      replace (prev + k - prev) with k by lia. nia.
  Qed.
  Lemma split_by_axis_post {A} (t : tensor A) axis cuts : inside c t -> post (split_by_axis c t axis cuts) (Forall (inside c)).
  Proof.
    intros Ht. unfold split_by_axis. apply post_bind_safe; [auto with safe|]. intros n_outer _. apply post_bind_safe; [safe|]. intros n_inner _.
    apply post_bind_safe; [auto with safe|]. intros axis_len _. apply post_bind_safe; [eauto with safe|]. intros x _.
    eapply post_bind.
    - apply (post_for_each (fun _ '(slices, _) => Forall (inside c) slices)); [constructor|].
      intros done cut left [slices prev] _ Hsl. destruct (cut =? prev); [exact Hsl|].
      eapply post_bind; [apply split_piece_post|]. intros d Hd. cbn. apply Forall_app. auto.
    - intros [slices p] Hsl. exact Hsl.
  Qed.
  Lemma cut_rows_post {A} (t : tensor A) cuts : inside c t -> post (cut_rows c t cuts) (Forall (inside c)).
  Proof.
    intros Ht. unfold cut_rows. eapply post_bind.
    - apply (post_for_each (fun _ '(slices, _) => Forall (inside c) slices)); [constructor|].
      intros done cut left [slices prev] _ Hsl. eapply post_bind with (Q := Forall (inside c)).
      + destruct (cut =? prev); [exact Hsl|]. apply post_bind_safe; [auto with safe|]. intros w _.
        eapply post_bind; [apply subslice_post, Ht|]. intros d Hd. cbn. apply Forall_app. auto.
      + intros sl H. exact H.
    - intros [slices p] Hsl. exact Hsl.
  Qed.
  Lemma split_axis_post {A} ax (t : tensor A) sec : inside c t -> post (split_axis c ax t sec) (Forall (inside c)).
  Proof.
    intros Ht. unfold split_axis. do 2 (apply post_bind_safe; [auto with safe|]; intros ? _).
    apply post_bind_safe; [destruct sec; cbn; safe|]. intros cuts _.
    destruct (_ =? 0); [now apply cut_rows_post|now apply split_by_axis_post].
  Qed.
  Lemma unstack_post {A} ax (t : tensor A) : inside c t -> post (unstack c ax t) (Forall (inside c)).
  Proof.
    intros Ht. unfold unstack. apply post_bind_safe; [auto with safe|]. intros axis _. cbn zeta.
    destruct (axis =? 0); [now apply cut_rows_post|now apply split_axis_post].
  Qed.

  (** ** src/array/stack.rs *)

  (** The dimension of [t] along an axis. *)
  Definition along {A} (axis : nat) (t : tensor A) : nat := nth axis (dlist (tshape t)) 0.

  Lemma inside_rank {A} (t : tensor A) : inside c t -> rank (tshape t) <= 6.
  Proof. intros (Ha & Hn & _). now destruct (size_value c Hc _ _ Ha Hn). Qed.

  Lemma validate_post {A} (args : list (tensor A)) axis t0 : Forall (inside c) args -> aget args 0 = Ok t0 -> axis < rank (tshape t0) ->
    post (validate_concat c args axis) (fun n => n = list_sum (map (along axis) args) /\
      forall t, In t args -> rank (tshape t) = rank (tshape t0) /\
        forall i, i <> axis -> i < rank (tshape t0) -> nth i (dlist (tshape t)) 0 = nth i (dlist (tshape t0)) 0).
  Proof.
    intros Hin H0 Hax. unfold validate_concat. rewrite H0. cbn [bind]. cbn zeta.
    assert (Ht0 : inside c t0). { destruct (aget0 _ _ H0) as [r ->]. now inversion Hin. }
    rewrite Forall_forall in Hin.
    apply (post_for_each (fun done n => n = list_sum (map (along axis) done) /\
      forall t, In t done -> rank (tshape t) = rank (tshape t0) /\
        forall i, i <> axis -> i < rank (tshape t0) -> nth i (dlist (tshape t)) 0 = nth i (dlist (tshape t0)) 0)); [split; [reflexivity|easy]|].
    intros done x left n El [Hsum Hd]. apply post_assert. intros Er. apply Nat.eqb_eq in Er.
    assert (Hx : inside c x) by (apply Hin; rewrite El; apply in_or_app; right; now left).
    eapply post_weaken; [apply (post_for (fun k m => m = n + (if axis <? k then along axis x else 0) /\
      forall i, i <> axis -> i < k -> nth i (dlist (tshape x)) 0 = nth i (dlist (tshape t0)) 0))|].
    - split; [replace (axis <? 0) with false by lia; lia|]. intros; lia.
    - intros k m Hk [-> Hi]. destruct (Nat.eqb_spec k axis) as [->|N].
      + apply post_bind_safe; [auto with safe|]. intros d Hdm. apply (dim_value c Hc) in Hdm; [|apply Hx|apply inside_rank, Hx]. destruct Hdm as [_ Hdm].
        eapply post_weaken; [apply post_safe; auto with safe|]. intros m Hm. cbn beta in Hm. apply (uadd_value c Hc) in Hm.
        replace (axis <? axis) with false in Hm by lia. replace (axis <? S axis) with true by lia. split.
        * unfold along. rewrite (nth_error_nth _ _ 0 Hdm). lia.
        * intros i Hi1 Hi2. apply Hi; lia.
      + apply post_bind_safe; [auto with safe|]. intros a Hda. apply (dim_value c Hc) in Hda; [|apply Hx|apply inside_rank, Hx]. destruct Hda as [_ Hda].
        apply post_bind_safe; [auto with safe|]. intros b Hdb. apply (dim_value c Hc) in Hdb; [|apply Ht0|apply inside_rank, Ht0]. destruct Hdb as [_ Hdb].
        apply post_assert. intros Eab. cbn. split; [replace (axis <? S k) with (axis <? k) by lia; reflexivity|].
        intros i Hi1 Hi2. destruct (Nat.eq_dec i k) as [->|]; [|apply Hi; lia].
        rewrite (nth_error_nth _ _ 0 Hda), (nth_error_nth _ _ 0 Hdb). lia.
    - intros m [-> Hi]. replace (axis <? rank (tshape t0)) with true by lia. split.
      + rewrite map_app, list_sum_app, <- Hsum. cbn. lia.
      + intros t Hin'. apply in_app_or in Hin'. destruct Hin' as [Hin'|[->|[]]]; [now apply Hd|]. split; [now symmetry|exact Hi].
  Qed.



  Lemma concat_axis_post {A} axis (args : list (tensor A)) : Forall (inside c) args -> post (concat_axis c axis args) (inside c).
  Proof.
    intros Hin. unfold concat_axis. apply post_bind_safe; [auto with safe|]. intros t0 H0.
    assert (Ht0 : inside c t0). { destruct (aget0 _ _ H0) as [r ->]. now inversion Hin. }
    destruct (Nat.lt_ge_cases axis (rank (tshape t0))) as [Hax|Hax].
    2:{ apply post_bind_safe.
        - unfold validate_concat. safe.
        - intros n _. apply post_bind_safe; [auto with safe|]. intros s Hs. exfalso. unfold remove, assert_ in Hs.
          destruct (axis <? rank (tshape t0)) eqn:E; [lia|discriminate]. }
    eapply post_bind; [apply validate_post; eauto|]. intros axis_len [Hlen Hd]. rewrite Forall_forall in Hin.
    apply post_bind_safe; [auto with safe|]. intros si Hsi. apply remove_dlist in Hsi; [|apply Ht0|apply inside_rank, Ht0].
    destruct Hsi as (_ & Hsa & Hsr & Hsd). pose proof (inside_rank _ Ht0) as Hr0.
    apply post_bind_safe; [auto with safe|]. intros o_len Ho. apply (sum64_value c Hc) in Ho.
    apply post_bind_safe; [auto with safe|]. intros n_outer Hno. apply (sublen_value c Hc) in Hno; auto; try lia. destruct Hno as [_ Hno].
    rewrite Nat.sub_0_r in Hno. cbn [skipn] in Hno.
    set (D := dlist (tshape t0)) in *. assert (HD : length D = rank (tshape t0)) by (apply dlist_length; [apply Ht0|exact Hr0]).
    assert (Hf : firstn axis (remove_at axis D) = firstn axis D).
    { unfold remove_at. rewrite firstn_app, firstn_length, Nat.min_l by lia. rewrite Nat.sub_diag. cbn [firstn]. rewrite app_nil_r. apply firstn_all2. rewrite firstn_length. lia. }
    assert (Hk : skipn axis (remove_at axis D) = skipn (S axis) D).
    { unfold remove_at. rewrite skipn_app, firstn_length, Nat.min_l by lia. rewrite Nat.sub_diag. rewrite (skipn_all2 (n := axis)) by (rewrite firstn_length; lia). reflexivity. }
    rewrite Hsd, Hf in Hno.
    eapply post_bind with (Q := fun n_inner => n_inner = prod (skipn (S axis) D)).
    { destruct (axis <? rank si) eqn:Er.
      - eapply post_weaken; [apply post_safe; auto with safe|]. intros n Hn. cbn beta in Hn. apply (sublen_value c Hc) in Hn; auto; try lia.
        destruct Hn as [_ ->]. rewrite Hsd, Hk. f_equal. apply firstn_all2. rewrite skipn_length. lia.
      - change (1 = prod (skipn (S axis) D)). rewrite skipn_all2 by lia. reflexivity. }
    intros n_inner Hni. eapply post_bind; [apply insert_post, Hsa|]. intros s Hs.
    assert (Hsz : forall t, In t args -> tsize t = n_outer * along axis t * n_inner).
    { intros t Ht. destruct (Hin t Ht) as (Ha & Hn & _). destruct (size_value c Hc _ _ Ha Hn) as [Hr ->].
      destruct (Hd t Ht) as [Hrk Hdd]. assert (Hl : length (dlist (tshape t)) = rank (tshape t0)) by (rewrite dlist_length; auto).
      rewrite (prod_split _ axis (along axis t)) by (unfold along; apply nth_error_nth'; lia).
      replace (firstn axis (dlist (tshape t))) with (firstn axis D).
      - replace (skipn (axis + 1) (dlist (tshape t))) with (skipn (S axis) D); [now rewrite Hno, Hni|].
        replace (axis + 1) with (S axis) by lia. apply nth_error_ext. intros i. rewrite !nth_error_skipn.
        destruct (Nat.lt_ge_cases (S axis + i) (rank (tshape t0))).
        + rewrite !(nth_error_nth' _ 0) by lia. f_equal. symmetry. apply Hdd; lia.
        + rewrite !(proj2 (nth_error_None _ _)) by lia. reflexivity.
      - apply nth_error_ext. intros i. rewrite !nth_error_firstn. destruct (i <? axis) eqn:Ei; [|reflexivity].
        rewrite !(nth_error_nth' _ 0) by lia. f_equal. symmetry. apply Hdd; lia. }
    assert (Ho2 : o_len = n_outer * (n_inner * axis_len)).
    { rewrite Ho, Hlen. cbn [Nat.add]. clear - Hsz. induction args as [|t l IH]; [cbn; lia|].
      change (tsize t + list_sum (map tsize l) = n_outer * (n_inner * (along axis t + list_sum (map (along axis) l)))).
      rewrite IH by (intros; apply Hsz; now right). rewrite (Hsz t) by now left. nia. }
    apply unsafe_init__post; auto. cbn zeta. set (js := n_inner * axis_len) in *. intros W o Hob.
    eapply post_bind.
    - apply (post_for_each (fun done '(o, off) => off = list_sum (map (along axis) done) * n_inner /\
        has o_len (fun p => W p \/ exists j q, j < n_outer /\ q < off /\ p = j * js + q) o)).
      + split; [reflexivity|]. eapply has_weaken; [exact Hob|]. intros p [Hp|(j & q & _ & Hq & _)]; [exact Hp|lia].
      + intros done t left [ob off] El [Hoff Hob']. assert (Hti : In t args) by (rewrite El; apply in_or_app; right; now left).
        apply post_bind_safe; [auto with safe|]. intros na Hna. apply (dim_value c Hc) in Hna; [|apply (Hin t Hti)|apply inside_rank; auto].
        destruct Hna as [_ Hna]. assert (Ena : along axis t = na) by (unfold along; now apply nth_error_nth).
        assert (Hbound : off + na * n_inner <= js).
        { unfold js. rewrite Hlen, El, list_sum_split, Ena. nia. }
        apply post_bind_safe; [eauto with safe|]. intros x _.
        eapply post_bind.
        * apply (adds_for o_len (fun b => b) n_outer _ (fun j p => exists k, k < na /\ exists i, i < n_inner /\ p = j * js + off + k * n_inner + i)); [|exact Hob'].
          intros j Hj. apply (adds_for o_len (fun b => b)). intros k Hkn. apply (adds_for o_len (fun b => b)). intros i Hi W' o' Ho'.
          apply post_bind_safe; [auto with safe|]. intros v _. apply write_post; [exact Ho'|].
          pose proof (idx2_lt na n_inner k i Hkn Hi). pose proof (idx2_lt n_outer js j (off + (k * n_inner + i)) Hj ltac:(lia)). lia.
        * intros o1 Ho1. cbn. split; [rewrite map_app, list_sum_app; cbn; rewrite Ena; lia|]. eapply has_weaken; [exact Ho1|].
          intros p [Hp|(j & q & Hj & Hq & ->)]; [auto|]. destruct (Nat.lt_ge_cases q off) as [Hlt|Hge].
          -- left. right. now exists j, q.
          -- right. exists j. split; [exact Hj|]. destruct (idx2 (q - off) na n_inner) as (k & i & Hk1 & Hi1 & E1); [lia|].
             exists k. split; [exact Hk1|]. exists i. split; [exact Hi1|]. lia.
    - intros [o1 off] [Hoff Ho1]. cbn. eapply has_weaken; [exact Ho1|]. intros p [Hp|Hp]; [auto|]. right.
      rewrite Ho2 in Hp. destruct (idx2 p n_outer js Hp) as (j & q & Hj & Hq & ->). exists j, q. repeat split; auto.
      rewrite Hoff, <- Hlen. unfold js in Hq. lia.
  Qed.
  Lemma concatenate_post {A} (args : list (tensor A)) : Forall (inside c) args -> post (concatenate c args) (inside c).
  Proof. apply concat_axis_post. Qed.
  Lemma concatenate_axis_post {A} ax (args : list (tensor A)) : Forall (inside c) args -> post (concatenate_axis c ax args) (inside c).
  Proof. intros H. unfold concatenate_axis. apply post_bind_safe; [safe|]. intros axis _. now apply concat_axis_post. Qed.


  Lemma stack_vec_post {A} ax (x : list (tensor A)) : Forall (inside c) x -> post (stack_vec c ax x) (inside c).
  Proof.
    intros Hin. unfold stack_vec. eapply post_bind.
    - apply (post_for_each (fun done p => match p with None => done = [] | Some s => exists t0 l, done = t0 :: l /\ forall t, In t done -> tshape t = s end)); [reflexivity|].
      intros done t left [s|] El Hp.
      + destruct Hp as (t0 & l & -> & Hp). apply post_assert. intros E. apply shape_eqb_eq in E. cbn. exists t0, (l ++ [t]). split; [reflexivity|].
        intros t' Ht'. cbn in Ht'. destruct Ht' as [->|Ht']; [apply Hp; now left|]. apply in_app_or in Ht'. destruct Ht' as [Ht'|[->|[]]]; [apply Hp; now right|now symmetry].
      + subst done. cbn. exists t, []. split; [reflexivity|]. intros t' [->|[]]. reflexivity.
    - intros pr Hpr. apply post_bind_safe; [auto with safe|]. intros t0 H0. cbn zeta.
      assert (Hsame : forall t, In t x -> tshape t = tshape t0).
      { destruct (aget0 _ _ H0) as [r ->]. destruct pr as [s|]; [|discriminate]. destruct Hpr as (t1 & l & E & Hs). intros t Ht.
        rewrite (Hs t Ht). symmetry. apply Hs. now left. }
      clear Hpr. assert (Ht0 : inside c t0). { destruct (aget0 _ _ H0) as [r ->]. now inversion Hin. }
      pose proof Ht0 as (Ha & Hn & _). destruct (size_value c Hc _ _ Ha Hn) as [Hr Hp]. rewrite Forall_forall in Hin.
      apply post_bind_safe; [auto with safe|]. intros axis Hax.
      assert (Hal : axis <= rank (tshape t0)).
      { unfold axis_from_rank in Hax. destruct ax as [z|]; [|apply Ok_inj in Hax; lia]. destruct (iadd _ _ _); try discriminate. cbn [bind] in Hax.
        unfold urem in Hax. replace (rank (tshape t0) + 1 =? 0) with false in Hax by lia. apply Ok_inj in Hax. subst axis.
        match goal with |- ?a mod ?b <= _ => pose proof (Nat.mod_upper_bound a b) end. lia. }
      rewrite Hn. cbn [bind]. apply post_bind_safe; [auto with safe|]. intros n_inner Hni. apply (sublen_value c Hc) in Hni; auto. destruct Hni as [_ Hni].
      apply post_bind_safe; [auto with safe|]. intros n_outer Hno. unfold udiv in Hno. destruct (n_inner =? 0) eqn:E0; [discriminate|]. apply Ok_inj in Hno.
      assert (Hx : n_outer * n_inner = tsize t0).
      { rewrite firstn_all2 in Hni by (rewrite skipn_length, dlist_length; auto).
        assert (Hps : tsize t0 = prod (firstn axis (dlist (tshape t0))) * n_inner).
        { rewrite Hp, Hni, <- prod_app. now rewrite firstn_skipn. }
        subst n_outer. rewrite Hps, Nat.div_mul by lia. reflexivity. }
      apply post_bind_safe; [auto with safe|]. intros o_len Ho. apply (sum64_value c Hc) in Ho.
      assert (Ho2 : o_len = n_outer * length x * n_inner).
      { rewrite Ho. cbn [Nat.add]. assert (G : forall t, In t x -> tsize t = n_outer * n_inner).
        { intros t Ht. destruct (Hin t Ht) as (_ & Hnt & _). rewrite (Hsame t Ht), Hn in Hnt. apply Ok_inj in Hnt. lia. }
        clear - G. induction x as [|t l IH]; [cbn; lia|]. change (tsize t + list_sum (map tsize l) = n_outer * S (length l) * n_inner).
        rewrite IH by (intros; apply G; now right). rewrite (G t) by now left. nia. }
      eapply post_bind; [apply insert_post, Ha|]. intros os Hos. apply unsafe_init__post; auto. intros W o Hob.
      eapply post_bind.
      + apply (post_for_each (fun done '(o, j) => j = length done /\
          has o_len (fun p => W p \/ exists k j i, k < n_outer /\ j < length done /\ i < n_inner /\ p = (k * length x + j) * n_inner + i) o)).
        * split; [reflexivity|]. eapply has_weaken; [exact Hob|]. intros p [Hq|(k & j & i & _ & Hj & _)]; [exact Hq|cbn in Hj; lia].
        * intros done t left [ob j] El [-> Hob']. assert (Hti : In t x) by (rewrite El; apply in_or_app; right; now left).
          assert (Hj : length done < length x) by (rewrite El, app_length; cbn; lia).
          apply post_assert. intros _. apply post_bind_safe; [eauto with safe|]. intros xs _.
          eapply post_bind.
          -- apply (adds_for o_len (fun b => b) n_outer _ (fun k p => exists i, i < n_inner /\ p = (k * length x + length done) * n_inner + i)); [|exact Hob'].
             intros k Hk. apply (adds_for o_len (fun b => b)). intros i Hi W' o' Ho'. apply post_bind_safe; [auto with safe|]. intros v _.
             apply write_post; [exact Ho'|]. rewrite Ho2. apply idx2_lt; [apply idx2_lt; assumption|exact Hi].
          -- intros o1 Ho1. cbn. split; [rewrite app_length; cbn; lia|]. eapply has_weaken; [exact Ho1|].
             intros p [Hq|(k & j & i & Hk & Hj2 & Hi & ->)]; [auto|]. rewrite app_length in Hj2. cbn in Hj2.
             destruct (Nat.eq_dec j (length done)) as [->|].
             ++ right. exists k. split; [exact Hk|]. now exists i.
             ++ left. right. exists k, j, i. repeat split; auto; lia.
      + intros [o1 j] [-> Ho1]. cbn. eapply has_weaken; [exact Ho1|]. intros p [Hq|Hq]; [auto|]. right.
        rewrite Ho2 in Hq. destruct (idx3 p n_outer (length x) n_inner Hq) as (k & j & i & Hk & Hj & Hi & ->). now exists k, j, i.
  Qed.

  Lemma dstack_post {A} (x : list (tensor A)) : Forall (inside c) x -> post (dstack c x) (inside c).
  Proof.
    intros Hin. rewrite Forall_forall in Hin. unfold dstack. apply post_bind_safe; [auto with safe|]. intros t0 _. cbn zeta. eapply post_bind.
    - apply (post_map_out _ x (inside c)). intros t Ht. apply post_assert. intros _. destruct (rank (tshape t)) as [|[|[|r]]]; [exact I| | |].
      + eapply post_bind; [apply from_slice_dims_post|]. intros s [_ Hs]. apply reshape_post; auto.
      + do 2 (apply post_bind_safe; [auto with safe|]; intros ? _). eapply post_bind; [apply from_slice_dims_post|]. intros s [_ Hs]. apply reshape_post; auto.
      + cbn. auto.
    - intros ts [_ Hts]. now apply concatenate_axis_post.
  Qed.
  Lemma hstack_post {A} (x : list (tensor A)) : Forall (inside c) x -> post (hstack c x) (inside c).
  Proof.
    intros Hin. unfold hstack. apply post_bind_safe; [auto with safe|]. intros t0 _. destruct (_ =? 1); now apply concatenate_axis_post.
  Qed.
  Lemma vstack_post {A} (x : list (tensor A)) : Forall (inside c) x -> post (vstack c x) (inside c).
  Proof.
    intros Hin. rewrite Forall_forall in Hin. unfold vstack. eapply post_bind.
    - apply (post_map_out _ x (inside c)). intros t Ht. eapply post_bind; [apply insert_post, (Hin t Ht)|]. intros s Hs. apply reshape_post; auto.
    - intros ts [_ Hts]. now apply concatenate_axis_post.
  Qed.
End Ops.
#[export] Hint Resolve safe_index1 : safe.
