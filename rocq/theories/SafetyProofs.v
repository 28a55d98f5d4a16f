(** * Memory safety of call histories (C22, C23): proofs *)
From Coq Require Import ZifyBool ZifyNat ZifyN.
From Verif Require Import Base ShapeModel TensorModel AxisModel MapModel ArrayModel NumModel FromModel ArgModel FloatModel InitModel MathModel LinalgModel RandomModel
  SignalModel IoModel FmtModel Spec BaseFacts SafeFacts ShapeFacts ShapeFacts2 SplitFacts SafetyFacts SafetyFacts2 SafetyFacts3 SafetyFacts4 StrictFacts LinalgSpec LinalgProofs.
From Verif Require Import SafetySpec.

Combined Scheme call_live_ind from call_ind2, live_ind2, listed_ind2.

Lemma one_post {A} c (x : outcome (tensor A)) : post x (inside c) -> post (one x) (Forall (inside c)).
Proof. intros H. eapply post_bind; [exact H|]. intros t Ht. repeat constructor; exact Ht || apply Ht. Qed.

Lemma res_post {S A} c (x : outcome (S * tensor A)) : post x (fun r => inside c (snd r)) -> post (res x) (Forall (inside c)).
Proof. intros H. eapply post_bind; [exact H|]. intros [s t] Ht. cbn. constructor; [exact Ht|constructor]. Qed.

Lemma array_returns {X S V} N (f : S -> X -> outcome (S * list V)) : array1 N f -> returns N f.
Proof.
  intros H st x. destruct (H st x) as [H1 H2]. destruct (f st x) as [[st' ys]| |]; [|exact I|now destruct H1]. cbn. eauto.
Qed.

Lemma snd_post {S A} c (x : outcome (S * tensor A)) :
  post x (fun r => inside c (snd r)) -> post (let* '(_, r) := x in Ok r) (inside c).
Proof. intros H. eapply post_bind; [exact H|]. intros [s t] Ht. exact Ht. Qed.

Lemma safe_lift1 {X Y} (op : X -> outcome Y) : (forall x, op x <> Ub) -> forall st x, safe (lift1 op st x).
Proof. intros H st x. unfold lift1. apply safe_bind; [apply H|]. intros. discriminate. Qed.
Lemma safe_lift2 {X X' Y} (op : X -> X' -> outcome Y) : (forall x y, op x y <> Ub) -> forall st x y, safe (lift2 op st x y).
Proof. intros H st x y. unfold lift2. apply safe_bind; [apply H|]. intros. discriminate. Qed.
Lemma safe_mean_update {F} (o : fops F) c st s v : safe (mean_update o c st s v).
Proof. unfold mean_update. apply safe_bind; [auto with safe|]. intros. discriminate. Qed.
Lemma safe_welford_update {F} (o : fops F) c st s v : safe (welford_update o c st s v).
Proof. unfold welford_update. destruct (_ =? 0); [discriminate|]. apply safe_bind; [auto with safe|]. intros. discriminate. Qed.

(** The reductions and operators: a closure passed to one of the functions of map.rs. *)
Ltac closure_post :=
  apply snd_post;
  first [apply map_post | apply map2_post | apply map3_post | apply fold_post | apply fold_axis_post | apply reduce_post
        | apply reduce_axis_post | apply normalize_post];
  auto; intros;
  first [discriminate | apply safe_lift1; auto | apply safe_lift2; auto | apply safe_mean_update | apply safe_welford_update].

Section From.
Context (c : cfg) (Hc : overflow_checks c = true).

Lemma of_vec5_post {A} (v : list (list (list (list (list A))))) : post (of_vec5 c v) (inside c).
Proof.
  unfold of_vec5. do 4 (apply post_bind_safe; [auto with safe|]; intros ? _). apply post_bind_safe; [safe|]. intros d _.
  eapply post_bind; [apply from_slice_dims_post|]. intros s [_ Hs]. now apply tensor_new_post.
Qed.
Lemma of_vec_rows_post {A} n (v : list (list (list A))) : post (of_vec_rows c n v) (inside c).
Proof.
  unfold of_vec_rows. apply post_bind_safe; [auto with safe|]. intros ? _. apply post_bind_safe; [safe|]. intros d _.
  eapply post_bind; [apply from_slice_dims_post|]. intros s [_ Hs]. now apply tensor_new_post.
Qed.
Lemma of_rows3_post {A} l m n (v : list (list (list (list A)))) : post (of_rows3 c l m n v) (inside c).
Proof. unfold of_rows3. eapply post_bind; [apply from_slice_dims_post|]. intros s [_ Hs]. now apply tensor_new_post. Qed.

(** What an argument list appends is inside, if its members are. *)
Definition list_inside {A} (x : tensor_list A) : Prop :=
  match x with
  | Tensors ts => Forall (inside c) ts
  | Vecs _ => True
  | Tuple xs => Forall (fun x => post (one x) (Forall (inside c))) xs
  end.

Lemma into_list_post {A} (x : tensor_list A) vec : list_inside x -> Forall (inside c) vec ->
  post (into_list c x vec) (Forall (inside c)).
Proof.
  intros Hx Hv. destruct x as [ts|vs|xs]; cbn [into_list].
  - cbn. apply Forall_app. split; [exact Hv|exact Hx].
  - apply (post_for_each (fun _ v => Forall (inside c) v)); [exact Hv|]. intros done v left vec' _ Hvec.
    eapply post_bind; [apply of_vec_post; exact Hc|]. intros t Ht. cbn. apply Forall_app. auto.
  - cbn in Hx. rewrite Forall_forall in Hx.
    apply (post_for_each (fun _ v => Forall (inside c) v)); [exact Hv|]. intros done x left vec' E Hvec.
    assert (Hin : In x xs) by (rewrite E; apply in_or_app; right; now left).
    specialize (Hx x Hin). destruct x as [t| |]; cbn in Hx |- *; [|exact I|exact Hx].
    apply Forall_app. split; [exact Hvec|]. exact Hx.
Qed.
End From.

Lemma call_safe c : overflow_checks c = true -> zero_alloc_ok c = true ->
  (forall A x, call c A x -> post x (Forall (inside c))) /\ (forall A t, live c A t -> inside c t) /\ (forall A x, listed c A x -> list_inside c x).
Proof.
  intros Hc Hz.
  assert (L : forall A (ts : list (tensor A)), (forall t, In t ts -> inside c t) -> Forall (inside c) ts) by (intros; now apply Forall_forall).
  apply (call_live_ind c (fun A x _ => post x (Forall (inside c))) (fun A t _ => inside c t) (fun A x _ => list_inside c x));
    try (intros; apply one_post;
      match goal with
      | |- post (from_vec _ _ _) _ => apply tensor_new_post
      | |- post (of_value _ _) _ => apply of_value_post
      | |- post (of_option _ _) _ => apply of_option_post
      | |- post (of_vec _ _) _ => apply of_vec_post
      | |- post (of_rows _ _ _) _ => apply of_rows_post
      | |- post (of_rows2 _ _ _ _) _ => apply of_rows2_post
      | |- post (of_vec2 _ _) _ => apply of_vec2_post
      | |- post (of_vec3 _ _) _ => apply of_vec3_post
      | |- post (of_vec4 _ _) _ => apply of_vec4_post
      | |- post (of_vec5 _ _) _ => apply of_vec5_post
      | |- post (of_vec_rows _ _ _) _ => apply of_vec_rows_post
      | |- post (of_rows3 _ _ _ _ _) _ => apply of_rows3_post
      | |- post (of_tensors _ _) _ => apply of_tensors_post
      | |- post (from_slice _ _) _ => apply from_slice_post
      | |- post (from_merge _ _ _) _ => apply from_merge_post
      | |- post (join_vec _ _) _ => apply join_vec_post
      | |- post (append _ _ _) _ => apply append_post
      | |- post (subslice _ _ _ _) _ => apply subslice_post
      | |- post (reshape _ _ _) _ => apply reshape_post
      | |- post (t_expand_dims _ _ _) _ => apply t_expand_dims_post
      | |- post (flatten _ _) _ => apply flatten_post
      | |- post (t_squeeze _ _) _ => apply t_squeeze_post
      | |- post (squeeze_axis _ _ _) _ => apply squeeze_axis_post
      | |- post (transpose _ _) _ => apply transpose_post
      | |- post (concatenate _ _) _ => apply concatenate_post
      | |- post (concatenate_axis _ _ _) _ => apply concatenate_axis_post
      | |- post (stack_axis _ _ _) _ => apply stack_vec_post
      | |- post (dstack _ _) _ => apply dstack_post
      | |- post (hstack _ _) _ => apply hstack_post
      | |- post (vstack _ _) _ => apply vstack_post
      | |- post (tile _ _ _) _ => apply tile_post
      | |- post (concatenate_args _ _) _ => eapply post_bind; [apply into_list_post; auto|apply concatenate_post; auto]
      | |- post (concatenate_axis_args _ _ _) _ => eapply post_bind; [apply into_list_post; auto|intros; apply concatenate_axis_post; auto]
      | |- post (stack_args _ _) _ => eapply post_bind; [apply into_list_post; auto|intros; apply stack_vec_post; auto]
      | |- post (stack_axis_args _ _ _) _ => eapply post_bind; [apply into_list_post; auto|intros; apply stack_vec_post; auto]
      | |- post (dstack_args _ _) _ => eapply post_bind; [apply into_list_post; auto|intros; apply dstack_post; auto]
      | |- post (hstack_args _ _) _ => eapply post_bind; [apply into_list_post; auto|intros; apply hstack_post; auto]
      | |- post (vstack_args _ _) _ => eapply post_bind; [apply into_list_post; auto|intros; apply vstack_post; auto]
      | |- post (m_concatenate _ _ _) _ => eapply post_bind; [apply into_list_post; auto|intros; apply concatenate_post; auto]
      | |- post (m_concatenate_axis _ _ _ _) _ => eapply post_bind; [apply into_list_post; auto|intros; apply concatenate_axis_post; auto]
      | |- post (m_stack _ _ _ _) _ => eapply post_bind; [apply into_list_post; auto|intros; apply stack_vec_post; auto]
      | |- post (m_dstack _ _ _) _ => eapply post_bind; [apply into_list_post; auto|intros; apply dstack_post; auto]
      | |- post (m_vstack _ _ _) _ => eapply post_bind; [apply into_list_post; auto|intros; apply vstack_post; auto]
      | |- post (unop _ _ _) _ => unfold unop; closure_post
      | |- post (binop_tt _ _ _ _) _ => unfold binop_tt; closure_post
      | |- post (binop_ts _ _ _ _) _ => unfold binop_ts; closure_post
      | |- post (binop_st _ _ _ _) _ => unfold binop_st; closure_post
      | |- post (float_map _ _ _) _ => unfold float_map; closure_post
      | |- post (float_map2 _ _ _ _) _ => unfold float_map2; closure_post
      | |- post (float_map3 _ _ _ _ _) _ => unfold float_map3; closure_post
      | |- post (reduce_hypot _ _ _) _ => unfold reduce_hypot; closure_post
      | |- post (reduce_min _ _ _) _ => unfold reduce_min; closure_post
      | |- post (reduce_min_axis _ _ _ _) _ => unfold reduce_min_axis; closure_post
      | |- post (reduce_max _ _ _) _ => unfold reduce_max; closure_post
      | |- post (reduce_max_axis _ _ _ _) _ => unfold reduce_max_axis; closure_post
      | |- post (reduce_mean _ _ _) _ => unfold reduce_mean; closure_post
      | |- post (reduce_mean_axis _ _ _ _) _ => unfold reduce_mean_axis; closure_post
      | |- post (reduce_std _ _ _) _ => unfold reduce_std; closure_post
      | |- post (reduce_std_axis _ _ _ _) _ => unfold reduce_std_axis; closure_post
      | |- post (reduce_variance _ _ _) _ => unfold reduce_variance; closure_post
      | |- post (reduce_variance_axis _ _ _ _) _ => unfold reduce_variance_axis; closure_post
      | |- post (reduce_sum _ _ _) _ => unfold reduce_sum; closure_post
      | |- post (reduce_sum_axis _ _ _ _) _ => unfold reduce_sum_axis; closure_post
      | |- post (reduce_product _ _ _) _ => unfold reduce_product; closure_post
      | |- post (reduce_product_axis _ _ _ _) _ => unfold reduce_product_axis; closure_post
      | |- post (normalize_unit _ _ _) _ => unfold normalize_unit; closure_post
      | |- post (eye _ _ _ _) _ => apply eye_post
      | |- post (diagflat _ _ _) _ => apply diagflat_post
      | |- post (tri _ _ _ _) _ => apply tri_post
      | |- post (tril _ _ _) _ => apply tri_mask_post
      | |- post (triu _ _ _) _ => apply tri_mask_post
      | H : arange _ _ _ _ _ _ = Some _ |- _ => eapply arange_post; exact H
      | |- post (linspace _ _ _ _ _) _ => apply linspace_post
      | |- post (geomspace _ _ _ _ _) _ => apply geomspace_post
      | |- post (logspace _ _ _ _ _ _) _ => apply logspace_post
      | |- post (one_hot _ _ _ _) _ => apply one_hot_post
      | |- post (random_normal _ _ _ _ _) _ => apply random_normal_post
      | |- post (random_uniform _ _ _ _ _) _ => apply random_uniform_post
      | |- post (matvec_t _ _ _ _ _) _ => apply matvec_post
      | |- post (matmul_t _ _ _ _ _) _ => apply matmul_post
      | |- post (rfft_norm _ _ _ _) _ => apply rfft_norm_post
      | |- post (hann_window _ _ _) _ => apply hann_post
      | |- post (frame _ _ _ _) _ => apply frame_post
      end; auto; fail).
  - intros A t o l s _ Ht Hs Hn. apply one_post. apply subslice_flat_post; auto. cbn. split; [exact Hs|]. intros E ->. apply Hn. auto.
  - intros. apply res_post. now apply init_post.
  - intros. apply res_post. now apply init_rindexed_post.
  - intros. apply res_post. now apply map_post.
  - intros. apply res_post. apply map_row_post; auto. now apply array_returns.
  - intros. apply res_post. apply map_expand_post; auto. now apply array_returns.
  - intros. apply res_post. now apply map2_post.
  - intros. apply res_post. now apply map3_post.
  - intros. apply res_post. now apply fold_post.
  - intros. apply res_post. now apply fold_axis_post.
  - intros. apply res_post. now apply fold_row_post.
  - intros. apply res_post. now apply reduce_post.
  - intros. apply res_post. now apply reduce_axis_post.
  - intros. apply res_post. now apply normalize_post.
  - intros. now apply split_axis_post.
  - intros. now apply unstack_post.
  - intros. apply build_meshgrid_post; auto.
  - intros. apply build_meshgrid_post; auto.
  - intros. now apply mgrid_post.
  - intros. eapply post_bind; [now apply histogram_post|]. intros [a b] [Ha Hb]. cbn. auto.
  - intros. eapply post_bind; [now apply histogram2d_post|]. intros [[a b] d] (Ha & Hb & Hd). cbn. auto.
  - intros. eapply post_bind; [now apply decode_wav_post|]. intros [a b] [Ha Hb]. cbn. auto.
  - intros. eapply post_bind; [now apply decode_wav_post|]. intros [a b] [Ha Hb]. cbn. auto.
  - intros. eapply post_bind; [now apply read_file_post|]. intros [t|] Ht; cbn; auto.
  - intros A ts t _ H Hin. cbn in H. rewrite Forall_forall in H. auto.
  - intros A ts _ H. cbn. auto.
  - intros A vs. exact I.
  - intros A xs _ H. cbn. now apply Forall_forall.
Qed.

Lemma safe_get0 {A} c (t : tensor A) k : overflow_checks c = true -> inside c t -> toffset t = 0 -> safe (get c t k).
Proof.
  intros Hc (_ & _ & Hl) H0. unfold get. destruct (k <? tsize t) eqn:E; [|auto with safe]. apply safe_bind; [auto with safe|]. intros n Hn.
  apply (uadd_value c Hc) in Hn. apply safe_bind; [apply safe_raw_get; lia|]. intros. auto with safe.
Qed.

Lemma safe_separated {A} n sep (body : nat -> outcome (list (piece A))) out : (forall j, safe (body j)) -> safe (separated n sep body out).
Proof. intros H. unfold separated. apply safe_for. intros j o _. cbn zeta. apply safe_bind; [apply H|]. intros. auto with safe. Qed.

Lemma safe_fmt_rec {A} c (t : tensor A) r : overflow_checks c = true -> inside c t -> toffset t = 0 -> forall o, safe (fmt_tensor_rec c t r o).
Proof.
  intros Hc Ht H0. induction r as [|r IH]; intros o; cbn [fmt_tensor_rec].
  - apply safe_bind; [now apply safe_get0|]. intros. auto with safe.
  - assert (B : forall st o j, safe (let* p := umul c j st in let* o := uadd c o p in fmt_tensor_rec c t r o)).
    { intros st o' j. do 2 (apply safe_bind; [auto with safe|]; intros ? _). apply IH. }
    destruct r as [|[|r]].
    + apply safe_bind; [auto with safe|]. intros n _. apply safe_bind; [|intros; auto with safe]. apply safe_separated. intros j.
      apply safe_bind; [auto with safe|]. intros o' _. apply IH.
    + do 2 (apply safe_bind; [auto with safe|]; intros ? _). apply safe_bind; [|intros; auto with safe]. apply safe_separated. intros j. apply B.
    + apply safe_bind; [unfold rsublen; safe|]. intros st _. apply safe_bind; [auto with safe|]. intros n _. apply safe_bind; [|intros; auto with safe].
      apply safe_separated. intros j. apply B.
Qed.

Lemma safe_fmt {A} c s (t : tensor A) : overflow_checks c = true -> inside c t -> toffset t = 0 -> safe (fmt_tensor c s t).
Proof.
  intros Hc Ht H0. unfold fmt_tensor. apply safe_bind; [now apply safe_fmt_rec|]. intros b _. apply safe_bind; [auto with safe|]. intros. auto with safe.
Qed.

Lemma safe_index2 {A} c (t : tensor A) i j : overflow_checks c = true -> inside c t -> toffset t = 0 -> safe (index2 c t i j).
Proof.
  intros Hc Ht H0. assert (S : forall b, safe (assert_shown c b t)).
  { intros []; unfold assert_shown; [auto with safe|]. apply safe_bind; [now apply safe_fmt|]. auto with safe. }
  unfold index2. safe. now apply (safe_index1 c).
Qed.

Lemma safe_index2_in {A} c (t : tensor A) i j d0 d1 : inside c t ->
  rdim (tshape t) 1 = Ok d1 -> rdim (tshape t) 0 = Ok d0 -> i < d1 -> j < d0 -> safe (index2 c t i j).
Proof.
  intros Ht E1 E0 Hi Hj. unfold index2. apply safe_bind; [auto with safe|]. intros _ _. rewrite E1. cbn [bind].
  replace (i <? d1) with true by lia. unfold assert_shown at 1. cbn [bind]. rewrite E0. cbn [bind].
  replace (j <? d0) with true by lia. unfold assert_shown. cbn [bind]. safe. now apply (safe_index1 c).
Qed.

Lemma c22_history c : overflow_checks c = true -> zero_alloc_ok c = true ->
  (forall A x, call c A x -> x <> Ub) /\
  (forall R x, reads c R x -> x <> Ub) /\
  (forall A t, live c A t ->
     tsize t = prod (dlist (tshape t)) /\
     exists pre xs post, tdata t = pre ++ xs ++ post /\ length pre = toffset t /\ length xs = tsize t).
Proof.
  intros Hc Hz. destruct (call_safe c Hc Hz) as (H1 & H2 & _). split; [|split].
  - intros A x H. eapply post_not_ub. eauto.
  - intros R x H. destruct H; repeat match goal with H : live _ _ _ |- _ => apply H2 in H end;
      [eapply safe_as_slice; eauto | eapply safe_as_wrap_slice; eauto | eapply safe_as_wrap_slice_n; eauto | now apply safe_get0 | now apply safe_fmt
      | eapply safe_index1; eauto | now apply safe_index2 | eapply safe_index2_in; eauto | eapply safe_index3; eauto | eapply safe_index4; eauto | eapply safe_index5; eauto
      | eapply safe_iter_row; eauto | eapply safe_tensor_eqb; eauto |].
    unfold tensor_partial_cmp. do 2 (apply safe_bind; [eapply safe_as_slice; eauto|]; intros ? _). discriminate.
  - intros A t H. apply H2 in H. destruct H as (Ha & Hn & Hl). apply (size_value c Hc) in Hn; auto. destruct Hn as [_ Hn]. split; [exact Hn|].
    exists (firstn (toffset t) (tdata t)), (firstn (tsize t) (skipn (toffset t) (tdata t))), (skipn (tsize t) (skipn (toffset t) (tdata t))).
    rewrite !firstn_length, skipn_length. repeat split; try lia. now rewrite !firstn_skipn.
Qed.

(** *** The exceptions *)

Lemma live_vec : live dev nat (fresh [3] [1; 2; 3]).
Proof. apply (live_result dev nat [fresh [3] [1; 2; 3]]); [|now left]. exact (call_of_vec dev nat [1; 2; 3]). Qed.

Lemma live_seven : live dev nat (fresh [1] [7]).
Proof. apply (live_result dev nat [fresh [1] [7]]); [|now left]. exact (call_of_vec dev nat [7]). Qed.

Lemma c22_get_refuted : exists t : tensor nat, live dev nat t /\ get dev t 0 = Ub.
Proof.
  set (v := mkTensor (canon [1]) 2 1 [1; 2; 3]). exists v. split; [|reflexivity].
  apply (live_result dev nat [v]); [|now left]. exact (call_subslice dev nat _ 2 1 live_vec).
Qed.

Lemma c22_subslice_flat_refuted : exists t v : tensor nat,
  live dev nat t /\ subslice_flat dev t 0 1 (Ok (canon [0])) = Ok v /\ tsize v <> prod (dlist (tshape v)) /\ concatenate dev [v] = Ub.
Proof.
  exists (fresh [1] [7]). eexists. split; [exact live_seven|]. split; [vm_compute; reflexivity|]. split; [discriminate|]. vm_compute. reflexivity.
Qed.

Lemma c22_tile_refuted : exists (t : tensor nat) (m : tensor nat),
  live dev nat t /\ live dev nat m /\ rank (tshape m) = 2 /\ tile dev t m = Ub.
Proof.
  exists (fresh [1] [7]), (fresh [2; 2] [2; 2; 2; 2]). split; [exact live_seven|]. split; [|split; [reflexivity|vm_compute; reflexivity]].
  apply (live_result dev nat [fresh [2; 2] [2; 2; 2; 2]]); [|now left].
  exact (call_from_vec dev nat [2; 2; 2; 2] (canon [2; 2]) (canon_a_shape [2; 2] ltac:(cbn; lia) ltac:(repeat constructor))).
Qed.

Lemma c22_fold_row_refuted : exists N (into : nat -> list nat) (t : tensor nat),
  Z.of_nat N = 4294967296%Z /\ (forall r, length (into r) = N) /\ live dev nat t /\
  fold_row dev N t None 0 into (pure2 (fun r row => r + list_sum row)) tt = Ub.
Proof.
  set (N := Z.to_nat 4294967296). assert (HN : Z.of_nat N = 4294967296%Z) by (unfold N; lia). clearbody N.
  exists N, (fun _ => repeat 0 N), (fresh [1] [7]). split; [exact HN|]. split; [intros _; apply repeat_length|]. split; [exact live_seven|].
  destruct N as [|M]; [discriminate|]. assert (HU : as_u32 (S M) = 0) by (unfold as_u32; rewrite HN; reflexivity).
  assert (HA : axis_reduce_row dev None (tshape (fresh [1] [7])) (S M) = Ok (canon [0], 1, 1, 1)).
  { unfold axis_reduce_row. pose proof (from_slice_dims_post [S M]) as H. destruct (from_slice_dims [S M]) as [s| |] eqn:E; cbn in H.
    - destruct H as [-> _]. rewrite HU. reflexivity.
    - unfold from_slice_dims in E. discriminate.
    - contradiction. }
  unfold fold_row. rewrite HA. cbn [bind]. change (cols (tshape (fresh [1] [7]))) with (Ok 1). cbn [bind].
  change (size dev (canon [0])) with (Ok 0). cbn [bind]. reflexivity.
Qed.

Lemma c22_matvec_refuted : exists a x : tensor Z,
  live dev Z a /\ live dev Z x /\ rank (tshape x) = 0 /\ tsize x = 1 /\ matvec Z_ops dev a x = Ub.
Proof.
  set (s := mkShape [3; 0; 0; 0; 0; 0] 0). assert (Hs : a_shape s) by (split; [reflexivity|repeat constructor]).
  set (x := mkTensor s 0 1 [5%Z]). exists (fresh [2; 3] [1; 2; 3; 4; 5; 6]%Z), x.
  split; [|split; [|split; [reflexivity|split; [reflexivity|vm_compute; reflexivity]]]].
  - apply (live_result dev Z [fresh [2; 3] [1; 2; 3; 4; 5; 6]%Z]); [|now left].
    exact (call_from_vec dev Z [1; 2; 3; 4; 5; 6]%Z (canon [2; 3]) (canon_a_shape [2; 3] ltac:(cbn; lia) ltac:(repeat constructor))).
  - apply (live_result dev Z [x]); [|now left]. refine (call_reshape dev Z (fresh [] [5%Z]) s _ Hs).
    apply (live_result dev Z [fresh [] [5%Z]]); [|now left]. exact (call_of_value dev Z 5%Z).
Qed.

Lemma c22_release_refuted : exists (s : shape) (t : tensor nat),
  a_shape s /\ from_vec release [] s = Ok t /\ fold_axis release t (Some 2%Z) 0 (fun r => r) (pure2 Nat.add) tt = Ub.
Proof.
  set (n := Z.to_nat 65536). assert (Hn : Z.of_nat n = 65536%Z) by (unfold n; lia). clearbody n.
  assert (Hs : a_shape (canon [n; n; 0])) by (apply canon_a_shape; [cbn; lia|repeat constructor; rewrite ?Hn; reflexivity]).
  exists (canon [n; n; 0]), (mkTensor (canon [n; n; 0]) 0 0 []). split; [exact Hs|].
  assert (Hu : as_u32 n = n). { apply as_u32_small. unfold two32. lia. }
  assert (Hm : umul release 1 n = Ok n) by (rewrite umul_ok by (unfold two64; lia); f_equal; lia).
  assert (Hnn : umul release n n = Ok (n * n)) by (apply umul_ok; unfold two64; nia).
  assert (H1 : mul32 release 1 n = Ok n) by (rewrite mul32_ok by (unfold two32; lia); f_equal; lia).
  assert (H0 : mul32 release n n = Ok 0).
  { unfold mul32. rewrite arith_wrap; [|unfold two32; lia|reflexivity]. replace (Z.of_nat n * Z.of_nat n)%Z with two32 by (unfold two32; lia).
    rewrite Z_mod_same_full. reflexivity. }
  split.
  - unfold from_vec, tensor_new. replace (size release (canon [n; n; 0])) with (@Ok nat 0); [reflexivity|].
    unfold size. change (aslice (dims (canon [n; n; 0])) 0 (rank (canon [n; n; 0]))) with (Ok [0; n; n]). cbn [bind product32].
    rewrite mul32_ok by (unfold two32; lia). cbn [bind]. rewrite mul32_ok by (unfold two32; lia). cbn [bind]. rewrite mul32_ok by (unfold two32; lia). reflexivity.
  - unfold fold_axis.
    assert (HA : axis_reduce release (Some 2%Z) (canon [n; n; 0]) = Ok (canon [n; n], n * n, 0, 1)).
    { unfold axis_reduce. change (norm_axis release 2 (rank (canon [n; n; 0]))) with (@Ok nat 2). cbn [bind]. change (rank (canon [n; n; 0]) =? 1) with false. cbn match.
      assert (E : collect_dims release (canon [n; n; 0]) 0 2 [] = Ok ([n; n], n * n)).
      { assert (D0 : dim release (canon [n; n; 0]) 0 = Ok n) by reflexivity. assert (D1 : dim release (canon [n; n; 0]) 1 = Ok n) by reflexivity.
        unfold collect_dims, for_range. set (sh := canon [n; n; 0]) in *. change (2 - 0) with 2. cbn [for_from]. rewrite D0. cbn [bind]. rewrite Hm. cbn [bind app].
        rewrite D1. cbn [bind]. rewrite Hnn. reflexivity. }
      rewrite E. cbn [bind]. change (collect_dims release (canon [n; n; 0]) (2 + 1) (rank (canon [n; n; 0])) [n; n]) with (@Ok (list nat * nat) ([n; n], 1)). cbn [bind].
      rewrite from_vec_dims_canon; [|cbn; lia|repeat constructor; lia]. cbn [map bind]. rewrite Hu. reflexivity. }
    cbn [tshape]. rewrite HA. cbn [bind]. replace (size release (canon [n; n])) with (@Ok nat 0).
    2:{ unfold size. change (aslice (dims (canon [n; n])) 0 (rank (canon [n; n]))) with (Ok [n; n]). cbn [bind product32]. rewrite H1. cbn [bind]. now rewrite H0. }
    cbn [bind]. destruct (n * n) as [|k] eqn:E; [nia|]. reflexivity.
Qed.

Lemma c23_refuted : exists (t : tensor nat),
  live (mkCfg true false) nat t /\ map_ (mkCfg true false) t (pure1 S) tt = Ub.
Proof.
  set (t := fresh [0] (@nil nat)). exists t. split; [|reflexivity].
  apply (live_result _ nat [t]); [|now left].
  exact (call_from_vec (mkCfg true false) nat [] (canon [0]) (canon_a_shape [0] ltac:(cbn; lia) ltac:(repeat constructor))).
Qed.

Lemma c23_map {S U V} (t : tensor U) (f : S -> U -> outcome (S * V)) st :
  inside dev t -> sane1 f -> (map_ (strict true) t f st = Ub <-> tsize t = 0).
Proof.
  intros Ht Hf. destruct (Nat.eq_dec (tsize t) 0) as [E|E].
  - split; [auto|]. intros _. unfold map_. rewrite E. reflexivity.
  - split; [|contradiction]. intros H. exfalso. revert H. unfold map_. rewrite unsafe_init_strict by exact E.
    change (map_ dev t f st <> Ub). eapply post_not_ub. now apply map_post.
Qed.

Lemma c23_map2 {S T U V W} b (t : tensor T) (u : tensor U) (v : tensor V)
    (f : S -> T -> U -> outcome (S * V)) (g : S -> T -> U -> V -> outcome (S * W)) st :
  map2 (strict b) t u f st = map2 (lenient b) t u f st /\
  map3 (strict b) t u v g st = map3 (lenient b) t u v g st.
Proof. split; [apply map2_strict|apply map3_strict]. Qed.

Lemma c23_views {A} b (t : tensor A) (v : list A) s fs o n (l : list (tensor A)) :
  from_vec (strict b) v s = from_vec (lenient b) v s /\
  from_merge (strict b) l s = from_merge (lenient b) l s /\
  reshape (strict b) t s = reshape (lenient b) t s /\
  subslice_flat (strict b) t o n fs = subslice_flat (lenient b) t o n fs /\
  subslice (strict b) t o n = subslice (lenient b) t o n.
Proof.
  repeat split; [apply tensor_new_strict|apply from_merge_strict|apply reshape_strict|apply subslice_flat_strict|apply subslice_strict].
Qed.

Lemma c23_result {A} b (t r : tensor A) (l : list (tensor A)) m ax : tsize r <> 0 ->
  (transpose (lenient b) t = Ok r -> transpose (strict b) t = Ok r) /\
  (concatenate_axis (lenient b) ax l = Ok r -> concatenate_axis (strict b) ax l = Ok r) /\
  (stack_axis (lenient b) ax l = Ok r -> stack_axis (strict b) ax l = Ok r) /\
  (tile (lenient b) t m = Ok r -> tile (strict b) t m = Ok r) /\
  (from_slice (lenient b) (tdata t) = Ok r -> from_slice (strict b) (tdata t) = Ok r).
Proof.
  intros N. repeat split; intros H.
  - now apply (transpose_sim b t).
  - now apply (concatenate_axis_sim b ax l).
  - now apply (stack_vec_sim b ax l).
  - now apply (tile_sim b t m).
  - now apply (from_slice_sim b (tdata t)).
Qed.

Lemma c23_result_map {A S V} b (t : tensor A) (r : tensor V) ax R (ini : R) (into : R -> V)
    (f : S -> R -> A -> outcome (S * R)) s (g : S -> outcome (S * V)) (h : S -> list nat -> outcome (S * V))
    (k : S -> V -> V -> outcome (S * V)) (u : tensor V) st st' : tsize r <> 0 ->
  (init (lenient b) s g st = Ok (st', r) -> init (strict b) s g st = Ok (st', r)) /\
  (init_rindexed (lenient b) s h st = Ok (st', r) -> init_rindexed (strict b) s h st = Ok (st', r)) /\
  (fold_axis (lenient b) t ax ini into f st = Ok (st', r) -> fold_axis (strict b) t ax ini into f st = Ok (st', r)) /\
  (reduce_axis (lenient b) u ax k st = Ok (st', r) -> reduce_axis (strict b) u ax k st = Ok (st', r)).
Proof.
  intros N. repeat split; intros H.
  - now apply (init_sim b s g st).
  - now apply (init_rindexed_sim b s h st).
  - now apply (fold_axis_sim b t ax ini into f st).
  - now apply (reduce_axis_sim b u ax k st).
Qed.

Lemma c23_result_float {A} b (F : fops A) (x y r : tensor A) n tr base : tsize r <> 0 ->
  (linspace F (lenient b) x y n = Ok r -> linspace F (strict b) x y n = Ok r) /\
  (geomspace F (lenient b) x y n = Ok r -> geomspace F (strict b) x y n = Ok r) /\
  (logspace F (lenient b) x y n base = Ok r -> logspace F (strict b) x y n base = Ok r) /\
  (matmul_t F (lenient b) x y tr = Ok r -> matmul_t F (strict b) x y tr = Ok r) /\
  (matvec_t F (lenient b) x y tr = Ok r -> matvec_t F (strict b) x y tr = Ok r).
Proof.
  intros N. repeat split; intros H.
  - now apply (linspace_sim b F x y n).
  - now apply (geomspace_sim b F x y n).
  - now apply (logspace_sim b F x y n base).
  - now apply (matmul_sim b F x y tr).
  - now apply (matvec_sim b F x y tr).
Qed.

(** *** Public fields *)

Lemma c22_fields {A} (t : tensor A) s o n :
  (as_slice (mkTensor s o n (tdata t)) = Ub <-> length (tdata t) < o + n) /\
  (o + n <= length (tdata t) -> as_slice (mkTensor s o n (tdata t)) = Ok (firstn n (skipn o (tdata t)))).
Proof.
  unfold as_slice, raw_slice. cbn [tdata toffset tsize]. destruct (Nat.leb_spec (o + n) (length (tdata t))); split; try split; intros; try reflexivity; try discriminate; lia.
Qed.

Lemma c22_fields_refuted : exists t : tensor nat, live dev nat t /\
  as_slice (mkTensor (tshape t) (toffset t) 4 (tdata t)) = Ub /\
  as_slice (mkTensor (tshape t) 1 (tsize t) (tdata t)) = Ub /\
  concatenate dev [mkTensor (canon [2]) (toffset t) (tsize t) (tdata t)] = Ub.
Proof. exists (fresh [3] [1; 2; 3]). split; [exact live_vec|]. repeat split; reflexivity. Qed.
