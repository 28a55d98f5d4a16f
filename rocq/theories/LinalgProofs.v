(** * Properties of matmul and matvec (C46-C49): proofs *)
From Coq Require Import Reals Lra.
From Flocq Require Import IEEE754.BinarySingleNaN.
From Coq Require Import ZifyBool ZifyNat ZifyN.
From Verif Require Import Base ShapeModel TensorModel FloatModel LinalgModel Spec FloatSpec BaseFacts
  ShapeFacts ShapeFacts2 CoordFacts TensorFacts TensorFacts2 SafeFacts RealFacts LinalgFacts.
From Verif Require Import LinalgSpec.

Ltac Zify.zify_post_hook ::= Z.div_mod_to_equations.

Lemma ravel_mat ds idx r k i j : length idx = length ds ->
  ravel (ds ++ [r; k]) (idx ++ [i; j]) = ravel ds idx * (r * k) + (i * k + j).
Proof. intros H. rewrite ravel_app by auto. cbn [ravel prod]. lia. Qed.

(** ** C46

    The elements of the product, read as [m x n] matrices, are the sums of products of
    the corresponding row and column, added up from the left.  (The scaling by alpha = 1
    is kept here; the versions for the reals and for binary32 below remove it.)  The
    result's own label is the subject of C47. *)

Lemma c46_matmul {F} (o : fops F) c (a b : tensor F) ds m k n xs ys :
  feq o (fzero o) (fzero o) = true ->
  repr a (ds ++ [m; k]) xs -> repr b (ds ++ [k; n]) ys ->
  supported (ds ++ [n; m]) -> can_alloc c (prod (ds ++ [n; m])) ->
  exists zs, matmul o c a b = Ok (fresh (ds ++ [n; m]) zs) /\ length zs = prod (ds ++ [n; m]) /\
    forall idx i j, in_shape ds idx -> i < m -> j < n ->
      elem (ds ++ [m; n]) zs (idx ++ [i; j])
      = option_map (fmul o (fone o))
          (dot o k (fun p => elem (ds ++ [m; k]) xs (idx ++ [i; p]))
                   (fun p => elem (ds ++ [k; n]) ys (idx ++ [p; j]))).
Proof.
  intros Hz Ha Hb Hs Hc.
  destruct (matmul_repr o c a b ds ds m k k n xs ys TNone Ha Hb Hz) as (zs & E & L & Hy); auto.
  exists zs. split; [exact E|]. split; [exact L|]. intros idx i j Hi Him Hjn.
  pose proof (in_shape_length _ _ Hi) as Hl. unfold elem. rewrite ravel_mat by auto.
  etransitivity; [exact (Hy (ravel ds idx) i j (ravel_lt _ _ Hi) Him Hjn)|]. f_equal. cbn [stride_a stride_b fst snd inner_a].
  apply dot_ext; intros p Hp; rewrite ravel_mat by auto; f_equal; lia.
Qed.

Lemma c46_matmul_transpose_a {F} (o : fops F) c (a b : tensor F) ds m k n xs ys :
  feq o (fzero o) (fzero o) = true ->
  repr a (ds ++ [k; m]) xs -> repr b (ds ++ [k; n]) ys ->
  supported (ds ++ [n; m]) -> can_alloc c (prod (ds ++ [n; m])) ->
  exists zs, matmul_t o c a b TransposeA = Ok (fresh (ds ++ [n; m]) zs) /\ length zs = prod (ds ++ [n; m]) /\
    forall idx i j, in_shape ds idx -> i < m -> j < n ->
      elem (ds ++ [m; n]) zs (idx ++ [i; j])
      = option_map (fmul o (fone o))
          (dot o k (fun p => elem (ds ++ [k; m]) xs (idx ++ [p; i]))
                   (fun p => elem (ds ++ [k; n]) ys (idx ++ [p; j]))).
Proof.
  intros Hz Ha Hb Hs Hc.
  destruct (matmul_repr o c a b ds ds k m k n xs ys TransposeA Ha Hb Hz) as (zs & E & L & Hy); auto.
  exists zs. split; [exact E|]. split; [exact L|]. intros idx i j Hi Him Hjn.
  pose proof (in_shape_length _ _ Hi) as Hl. unfold elem. rewrite ravel_mat by auto.
  etransitivity; [exact (Hy (ravel ds idx) i j (ravel_lt _ _ Hi) Him Hjn)|]. f_equal. cbn [stride_a stride_b fst snd inner_a].
  apply dot_ext; intros p Hp; rewrite ravel_mat by auto; f_equal; lia.
Qed.

Lemma c46_matmul_transpose_b {F} (o : fops F) c (a b : tensor F) ds m k n xs ys :
  feq o (fzero o) (fzero o) = true ->
  repr a (ds ++ [m; k]) xs -> repr b (ds ++ [n; k]) ys ->
  supported (ds ++ [n; m]) -> can_alloc c (prod (ds ++ [n; m])) ->
  exists zs, matmul_t o c a b TransposeB = Ok (fresh (ds ++ [n; m]) zs) /\ length zs = prod (ds ++ [n; m]) /\
    forall idx i j, in_shape ds idx -> i < m -> j < n ->
      elem (ds ++ [m; n]) zs (idx ++ [i; j])
      = option_map (fmul o (fone o))
          (dot o k (fun p => elem (ds ++ [m; k]) xs (idx ++ [i; p]))
                   (fun p => elem (ds ++ [n; k]) ys (idx ++ [j; p]))).
Proof.
  intros Hz Ha Hb Hs Hc.
  destruct (matmul_repr o c a b ds ds m k n k xs ys TransposeB Ha Hb Hz) as (zs & E & L & Hy); auto.
  exists zs. split; [exact E|]. split; [exact L|]. intros idx i j Hi Him Hjn.
  pose proof (in_shape_length _ _ Hi) as Hl. unfold elem. rewrite ravel_mat by auto.
  etransitivity; [exact (Hy (ravel ds idx) i j (ravel_lt _ _ Hi) Him Hjn)|]. f_equal. cbn [stride_a stride_b fst snd inner_a].
  apply dot_ext; intros p Hp; rewrite ravel_mat by auto; f_equal; lia.
Qed.

Lemma c46_matmul_transpose_ab {F} (o : fops F) c (a b : tensor F) ds m k n xs ys :
  feq o (fzero o) (fzero o) = true ->
  repr a (ds ++ [k; m]) xs -> repr b (ds ++ [n; k]) ys ->
  supported (ds ++ [n; m]) -> can_alloc c (prod (ds ++ [n; m])) ->
  exists zs, matmul_t o c a b TransposeAB = Ok (fresh (ds ++ [n; m]) zs) /\ length zs = prod (ds ++ [n; m]) /\
    forall idx i j, in_shape ds idx -> i < m -> j < n ->
      elem (ds ++ [m; n]) zs (idx ++ [i; j])
      = option_map (fmul o (fone o))
          (dot o k (fun p => elem (ds ++ [k; m]) xs (idx ++ [p; i]))
                   (fun p => elem (ds ++ [n; k]) ys (idx ++ [j; p]))).
Proof.
  intros Hz Ha Hb Hs Hc.
  destruct (matmul_repr o c a b ds ds k m n k xs ys TransposeAB Ha Hb Hz) as (zs & E & L & Hy); auto.
  exists zs. split; [exact E|]. split; [exact L|]. intros idx i j Hi Him Hjn.
  pose proof (in_shape_length _ _ Hi) as Hl. unfold elem. rewrite ravel_mat by auto.
  etransitivity; [exact (Hy (ravel ds idx) i j (ravel_lt _ _ Hi) Him Hjn)|]. f_equal. cbn [stride_a stride_b fst snd inner_a].
  apply dot_ext; intros p Hp; rewrite ravel_mat by auto; f_equal; lia.
Qed.

(** Over the real numbers: the textbook sum. *)
Lemma dot_real k f g f' g' :
  (forall p, p < k -> f p = Some (f' p)) -> (forall p, p < k -> g p = Some (g' p)) ->
  dot R_ops k f g = Some (fold_right Rplus 0%R (map (fun p => f' p * g' p)%R (seq 0 k))).
Proof.
  induction k as [|k IH]; intros Hf Hg; [reflexivity|].
  cbn [dot]. rewrite IH, Hf, Hg by auto.
  replace (S k) with (k + 1) by lia. rewrite seq_app, map_app. cbn [seq map].
  rewrite fold_right_app. cbn [fold_right Nat.add fadd fmul R_ops].
  f_equal. generalize (map (fun p => (f' p * g' p)%R) (seq 0 k)). intros l.
  generalize (f' k * g' k)%R. intros r.
  induction l as [|u l IHl]; cbn [fold_right]; [ring|]. rewrite <- IHl. ring.
Qed.

Lemma R_zero_eq : feq R_ops (fzero R_ops) (fzero R_ops) = true.
Proof. cbn. destruct (Req_EM_T 0 0); auto. Qed.

Lemma c46_matmul_real c (a b : tensor R) ds m k n xs ys :
  repr a (ds ++ [m; k]) xs -> repr b (ds ++ [k; n]) ys ->
  supported (ds ++ [n; m]) -> can_alloc c (prod (ds ++ [n; m])) ->
  exists zs, matmul R_ops c a b = Ok (fresh (ds ++ [n; m]) zs) /\
    forall (A B : list nat -> nat -> nat -> R),
      (forall idx i p, in_shape ds idx -> i < m -> p < k -> elem (ds ++ [m; k]) xs (idx ++ [i; p]) = Some (A idx i p)) ->
      (forall idx p j, in_shape ds idx -> p < k -> j < n -> elem (ds ++ [k; n]) ys (idx ++ [p; j]) = Some (B idx p j)) ->
      forall idx i j, in_shape ds idx -> i < m -> j < n ->
        elem (ds ++ [m; n]) zs (idx ++ [i; j])
        = Some (fold_right Rplus 0%R (map (fun p => A idx i p * B idx p j)%R (seq 0 k))).
Proof.
  intros Ha Hb Hs Hc. destruct (c46_matmul R_ops c a b ds m k n xs ys R_zero_eq Ha Hb Hs Hc) as (zs & E & L & Hy).
  exists zs. split; [exact E|]. intros A B HA HB idx i j Hi Him Hjn. rewrite Hy by auto.
  rewrite (dot_real k _ _ (A idx i) (fun p => B idx p j)) by auto. cbn [option_map]. f_equal.
  cbn [fmul fone R_ops]. ring.
Qed.

Lemma c46_matmul_b32 ln_ exp_ pow_ c (a b : tensor b32) ds m k n xs ys :
  repr a (ds ++ [m; k]) xs -> repr b (ds ++ [k; n]) ys ->
  supported (ds ++ [n; m]) -> can_alloc c (prod (ds ++ [n; m])) ->
  exists zs, matmul (b32_ops ln_ exp_ pow_) c a b = Ok (fresh (ds ++ [n; m]) zs) /\
    forall idx i j, in_shape ds idx -> i < m -> j < n ->
      elem (ds ++ [m; n]) zs (idx ++ [i; j])
      = dot (b32_ops ln_ exp_ pow_) k (fun p => elem (ds ++ [m; k]) xs (idx ++ [i; p]))
          (fun p => elem (ds ++ [k; n]) ys (idx ++ [p; j])).
Proof.
  intros Ha Hb Hs Hc.
  destruct (c46_matmul (b32_ops ln_ exp_ pow_) c a b ds m k n xs ys eq_refl Ha Hb Hs Hc) as (zs & E & L & Hy).
  exists zs. split; [exact E|]. intros idx i j Hi Him Hjn. rewrite Hy by auto.
  destruct (dot _ _ _ _) as [v|]; [|reflexivity]. cbn [option_map]. f_equal. apply b32_one_mul.
Qed.

(** ** C47

    The result of an [m x k] by [k x n] product is labelled [n; m]. *)

Lemma c47_matmul_label {F} (o : fops F) c (a b : tensor F) ds m k n xs ys :
  feq o (fzero o) (fzero o) = true ->
  repr a (ds ++ [m; k]) xs -> repr b (ds ++ [k; n]) ys ->
  supported (ds ++ [n; m]) -> can_alloc c (prod (ds ++ [n; m])) ->
  exists t, matmul o c a b = Ok t /\ tshape t = canon (ds ++ [n; m]) /\
    (m <> n -> tshape t <> canon (ds ++ [m; n])).
Proof.
  intros Hz Ha Hb Hs Hc.
  destruct (c46_matmul o c a b ds m k n xs ys Hz Ha Hb Hs Hc) as (zs & E & _).
  exists (fresh (ds ++ [n; m]) zs). split; [exact E|]. split; [reflexivity|]. intros Hmn H.
  cbn [tshape fresh] in H. unfold canon in H. apply (f_equal dims) in H. cbn [dims] in H.
  rewrite !rev_app_distr in H. cbn in H. congruence.
Qed.

Lemma c47_refuted :
  exists (a b : tensor Z) t, repr a [1; 2] [1; 2]%Z /\ repr b [2; 3] [1; 2; 3; 4; 5; 6]%Z /\
    matmul Z_ops dev a b = Ok t /\ tshape t <> canon [1; 3] /\ tshape t = canon [3; 1].
Proof.
  exists (fresh [1; 2] [1; 2]%Z), (fresh [2; 3] [1; 2; 3; 4; 5; 6]%Z), (fresh [3; 1] [9; 12; 15]%Z).
  split; [|split; [|split; [|split]]]; try reflexivity.
  - apply repr_fresh; [split; cbn; lia|reflexivity].
  - apply repr_fresh; [split; cbn; lia|reflexivity].
  - discriminate.
Qed.

(** ** C48 *)

Lemma c48_matmul_safe {F} (o : fops F) c (a b : tensor F) da db ar ac br bc xs ys tr :
  feq o (fzero o) (fzero o) = true ->
  repr a (da ++ [ar; ac]) xs -> repr b (db ++ [br; bc]) ys -> prod da <= prod db ->
  can_alloc c (prod da * ((match tr with TNone | TransposeB => ar | _ => ac end)
                          * (match tr with TNone | TransposeA => bc | _ => br end))) ->
  matmul_t o c a b tr <> Ub.
Proof.
  intros Hz Ha Hb Hd Hc. apply (matmul_safe o c a b da db ar ac br bc xs ys tr Ha Hb Hz Hd).
  unfold out_rows, out_cols. rewrite Nat.mul_comm. exact Hc.
Qed.

Lemma c48_matmul_rank {F} (o : fops F) c (a b : tensor F) da db xs ys tr :
  repr a da xs -> repr b db ys -> length da < 2 \/ length db < 2 -> matmul_t o c a b tr = Panic.
Proof.
  intros Ha Hb H. unfold matmul_t, mkn. rewrite (repr_shape _ _ _ Ha), (repr_shape _ _ _ Hb).
  pose proof (supported_len _ (repr_supported _ _ _ Ha)) as La.
  pose proof (supported_len _ (repr_supported _ _ _ Hb)) as Lb.
  change (rank (canon da)) with (length da).
  destruct (Nat.ltb_spec 1 (length da)) as [H1|H1]; [|reflexivity]. cbn [assert_ bind].
  rewrite !rows_canon, !cols_canon by auto. cbn [bind].
  destruct H as [H|H]; [lia|].
  assert (W : forall v w, (let* s := with_cols (canon db) v in with_rows s w) = Panic).
  { intros v w. unfold with_cols, with_rows, aset.
    assert (H6 : length (dims (canon db)) = 6).
    { cbn [dims canon]. rewrite app_length, rev_length, repeat_length. lia. }
    rewrite H6. change (0 <? 6) with true. cbn [bind rank].
    change (rank (canon db)) with (length db). destruct (Nat.ltb_spec 1 (length db)); [lia|reflexivity]. }
  assert (W1 : forall v w s, with_cols (canon db) v = Ok s -> with_rows s w = Panic).
  { intros v w s E. specialize (W v w). rewrite E in W. exact W. }
  destruct tr; (destruct (_ =? _); cbn [assert_ bind]; [|reflexivity]);
    apply bind_panic; auto with safe; intros ? _;
    apply bind_panic; auto with safe; intros ? _;
    apply bind_panic; auto with safe; intros ? _;
    apply bind_panic; auto with safe; intros ? _;
    (apply bind_panic; [unfold with_cols; safe|]); intros s Es; now rewrite (W1 _ _ _ Es).
Qed.

Lemma c48_matmul_more {F} (o : fops F) c (a b : tensor F) da db m k n xs ys :
  feq o (fzero o) (fzero o) = true ->
  repr a (da ++ [m; k]) xs -> repr b (db ++ [k; n]) ys -> prod da < prod db -> 0 < prod da ->
  0 < m -> 0 < n -> supported (db ++ [n; m]) ->
  matmul o c a b = Panic.
Proof.
  intros Hz Ha Hb Hd Hp Hm Hn Hs.
  apply (matmul_more o c a b da db m k k n xs ys TNone Ha Hb Hz); auto.
  left. cbn. nia.
Qed.

Lemma c48_matmul_fewer {F} (o : fops F) c (a b : tensor F) da db m k n xs ys :
  feq o (fzero o) (fzero o) = true ->
  repr a (da ++ [m; k]) xs -> repr b (db ++ [k; n]) ys -> prod db < prod da ->
  0 < m -> 0 < k -> 0 < n -> (Z.of_nat (prod da * (m * n)) < two63)%Z ->
  toffset b + tsize b = length (tdata b) ->
  matmul o c a b = Ub.
Proof.
  intros Hz Ha Hb Hd Hm Hk Hn Hmem He.
  apply (matmul_fewer o c a b da db m k k n xs ys TNone Ha Hb Hz); auto.
  cbn [out_rows out_cols]. now rewrite Nat.mul_comm.
Qed.

Lemma c48_refuted :
  exists a b : tensor Z, repr a [2; 1; 1] [3; 4]%Z /\ repr b [1; 1] [5]%Z /\
    matmul Z_ops dev a b = Ub /\ matmul Z_ops release a b = Ub.
Proof.
  exists (fresh [2; 1; 1] [3; 4]%Z), (fresh [1; 1] [5]%Z).
  repeat split; try reflexivity; try (cbn; lia);
    try (exists [], []; split; [reflexivity|reflexivity]).
Qed.

(** ** C49 *)

Lemma c49_matvec {F} (o : fops F) c (a x : tensor F) dp da m k r xs ys :
  feq o (fzero o) (fzero o) = true ->
  repr a (da ++ [m; k]) xs -> repr x (dp ++ da ++ [r; k]) ys ->
  0 < prod (da ++ [m; k]) -> 0 < prod (dp ++ da ++ [r; k]) -> supported (dp ++ da ++ [r; m]) ->
  exists zs, matvec o c a x = Ok (fresh (dp ++ da ++ [r; m]) zs) /\
    length zs = prod (dp ++ da ++ [r; m]) /\
    forall ip ia i j, in_shape dp ip -> in_shape da ia -> i < r -> j < m ->
      elem (dp ++ da ++ [r; m]) zs (ip ++ ia ++ [i; j])
      = option_map (fmul o (fone o))
          (dot o k (fun p => elem (dp ++ da ++ [r; k]) ys (ip ++ ia ++ [i; p]))
                   (fun p => elem (da ++ [m; k]) xs (ia ++ [j; p]))).
Proof.
  intros Hz Ha Hx Pa Px Hs. rewrite !(app_assoc dp da) in *.
  assert (Hr : 0 < r). { rewrite prod_app in Px. cbn [prod] in Px. nia. }
  assert (Hcb : check_broadcast (canon da) (canon (dp ++ da)) = Ok tt).
  { pose proof (supported_len _ (repr_supported _ _ _ Hx)) as L. rewrite !app_length in L.
    apply check_broadcast_iff; [lia|rewrite app_length; lia|]. left. now exists dp. }
  destruct (matvec_repr o c a x da (dp ++ da) [r; k] m k xs ys Ha Hx) with (tr := TNone) as (zs & E & L & Hy); auto.
  - rewrite app_length. cbn [length]. lia.
  - destruct (Nat.ltb_spec (length da) (length (dp ++ da))) as [|H]; auto.
    rewrite app_length in H. destruct dp; [reflexivity|cbn in H; lia].
  - exists zs. split; [exact E|]. split; [exact L|]. intros ip ia i j Hp Hi Hir Hjm.
    pose proof (in_shape_length _ _ Hp) as Lp. pose proof (in_shape_length _ _ Hi) as Li.
    assert (Hpa : in_shape (dp ++ da) (ip ++ ia)) by now apply in_shape_app.
    assert (Lpa : length (ip ++ ia) = length (dp ++ da)) by (now apply in_shape_length).
    rewrite (app_assoc ip ia [i; j]). unfold elem. rewrite ravel_mat by auto.
    cbn [trow mv_cols] in Hy. rewrite (Nat.max_r 1 r) in Hy by lia.
    etransitivity; [exact (Hy (ravel (dp ++ da) (ip ++ ia)) i j (ravel_lt _ _ Hpa) Hir Hjm)|]. f_equal.
    unfold tcol. cbn [last mv_stride fst snd].
    apply dot_ext; intros p Hpk; rewrite ?(app_assoc ip ia [_; _]), ravel_mat by auto; f_equal; [lia|].
    rewrite (ravel_suffix dp da) by auto. rewrite <- Lp, skipn_app, skipn_all, Nat.sub_diag. cbn [skipn app]. lia.
Qed.

Lemma c49_matvec_transpose {F} (o : fops F) c (a x : tensor F) dp da m k r xs ys :
  feq o (fzero o) (fzero o) = true ->
  repr a (da ++ [k; m]) xs -> repr x (dp ++ da ++ [r; k]) ys ->
  0 < prod (da ++ [k; m]) -> 0 < prod (dp ++ da ++ [r; k]) -> supported (dp ++ da ++ [r; m]) ->
  exists zs, matvec_t o c a x TransposeA = Ok (fresh (dp ++ da ++ [r; m]) zs) /\
    length zs = prod (dp ++ da ++ [r; m]) /\
    forall ip ia i j, in_shape dp ip -> in_shape da ia -> i < r -> j < m ->
      elem (dp ++ da ++ [r; m]) zs (ip ++ ia ++ [i; j])
      = option_map (fmul o (fone o))
          (dot o k (fun p => elem (dp ++ da ++ [r; k]) ys (ip ++ ia ++ [i; p]))
                   (fun p => elem (da ++ [k; m]) xs (ia ++ [p; j]))).
Proof.
  intros Hz Ha Hx Pa Px Hs. rewrite !(app_assoc dp da) in *.
  assert (Hr : 0 < r). { rewrite prod_app in Px. cbn [prod] in Px. nia. }
  assert (Hcb : check_broadcast (canon da) (canon (dp ++ da)) = Ok tt).
  { pose proof (supported_len _ (repr_supported _ _ _ Hx)) as L. rewrite !app_length in L.
    apply check_broadcast_iff; [lia|rewrite app_length; lia|]. left. now exists dp. }
  destruct (matvec_repr o c a x da (dp ++ da) [r; k] k m xs ys Ha Hx) with (tr := TransposeA) as (zs & E & L & Hy); auto.
  - rewrite app_length. cbn [length]. lia.
  - destruct (Nat.ltb_spec (length da) (length (dp ++ da))) as [|H]; auto.
    rewrite app_length in H. destruct dp; [reflexivity|cbn in H; lia].
  - exists zs. split; [exact E|]. split; [exact L|]. intros ip ia i j Hp Hi Hir Hjm.
    pose proof (in_shape_length _ _ Hp) as Lp. pose proof (in_shape_length _ _ Hi) as Li.
    assert (Hpa : in_shape (dp ++ da) (ip ++ ia)) by now apply in_shape_app.
    assert (Lpa : length (ip ++ ia) = length (dp ++ da)) by (now apply in_shape_length).
    rewrite (app_assoc ip ia [i; j]). unfold elem. rewrite ravel_mat by auto.
    cbn [trow mv_cols] in Hy. rewrite (Nat.max_r 1 r) in Hy by lia.
    etransitivity; [exact (Hy (ravel (dp ++ da) (ip ++ ia)) i j (ravel_lt _ _ Hpa) Hir Hjm)|]. f_equal.
    unfold tcol. cbn [last mv_stride fst snd].
    apply dot_ext; intros p Hpk; rewrite ?(app_assoc ip ia [_; _]), ravel_mat by auto; f_equal; [lia|].
    rewrite (ravel_suffix dp da) by auto. rewrite <- Lp, skipn_app, skipn_all, Nat.sub_diag. cbn [skipn app]. lia.
Qed.

Lemma c49_matvec_vector {F} (o : fops F) c (a x : tensor F) m k xs ys :
  feq o (fzero o) (fzero o) = true ->
  repr a [m; k] xs -> repr x [k] ys -> 0 < m -> 0 < k ->
  exists zs, matvec o c a x = Ok (fresh [m] zs) /\ length zs = m /\
    forall j, j < m ->
      nth_error zs j
      = option_map (fmul o (fone o)) (dot o k (fun p => nth_error ys p) (fun p => elem [m; k] xs [j; p])).
Proof.
  intros Hz Ha Hx Hm Hk.
  destruct (matvec_repr o c a x [] [] [k] m k xs ys Ha Hx) with (tr := TNone) as (zs & E & L & Hy); auto.
  - cbn [app prod]. nia.
  - cbn [app prod]. lia.
  - cbn [app removelast mv_cols]. pose proof (supported_last2 [] m k (repr_supported _ _ _ Ha)) as H.
    split; [cbn; lia|]. cbn [map prod]. unfold two32 in H. lia.
  - exists zs. split; [exact E|]. split; [rewrite L; cbn [app removelast prod mv_cols]; lia|].
    intros j Hj. specialize (Hy 0 0 j). cbn [prod mv_cols trow tcol last mv_stride fst snd] in Hy.
    change (Nat.max 1 0) with 1 in Hy. cbn [Nat.mul Nat.add] in Hy. rewrite Hy by lia. f_equal.
    change (0 mod 1) with 0. unfold elem.
    apply dot_ext; intros p Hp; cbn [ravel prod]; f_equal; lia.
Qed.

Lemma c49_matvec_vector_transpose {F} (o : fops F) c (a x : tensor F) m k xs ys :
  feq o (fzero o) (fzero o) = true ->
  repr a [k; m] xs -> repr x [k] ys -> 0 < m -> 0 < k ->
  exists zs, matvec_t o c a x TransposeA = Ok (fresh [m] zs) /\ length zs = m /\
    forall j, j < m ->
      nth_error zs j
      = option_map (fmul o (fone o)) (dot o k (fun p => nth_error ys p) (fun p => elem [k; m] xs [p; j])).
Proof.
  intros Hz Ha Hx Hm Hk.
  destruct (matvec_repr o c a x [] [] [k] k m xs ys Ha Hx) with (tr := TransposeA) as (zs & E & L & Hy); auto.
  - cbn [app prod]. nia.
  - cbn [app prod]. lia.
  - cbn [app removelast mv_cols]. pose proof (supported_last2 [] k m (repr_supported _ _ _ Ha)) as H.
    split; [cbn; lia|]. cbn [map prod]. unfold two32 in H. lia.
  - exists zs. split; [exact E|]. split; [rewrite L; cbn [app removelast prod mv_cols]; lia|].
    intros j Hj. specialize (Hy 0 0 j). cbn [prod mv_cols trow tcol last mv_stride fst snd] in Hy.
    change (Nat.max 1 0) with 1 in Hy. cbn [Nat.mul Nat.add] in Hy. rewrite Hy by lia. f_equal.
    change (0 mod 1) with 0. unfold elem.
    apply dot_ext; intros p Hp; cbn [ravel prod]; f_equal; lia.
Qed.

Lemma c49_matvec_incompatible {F} (o : fops F) c (a x : tensor F) da dx m k r kx xs ys tr :
  repr a (da ++ [m; k]) xs -> repr x (dx ++ [r; kx]) ys ->
  tr = TransposeB \/ tr = TransposeAB \/ (tr = TNone /\ k <> kx) \/ (tr = TransposeA /\ m <> kx) \/
    (~ suffix da dx /\ ~ suffix dx da) ->
  matvec_t o c a x tr = Panic.
Proof.
  intros Ha Hx H.
  apply (matvec_incompatible o c a x da dx [r; kx] m k xs ys Ha Hx).
  - rewrite app_length. cbn [length]. lia.
  - unfold mv_inner, tcol. cbn [last].
    destruct H as [H|[H|[[-> H]|[[-> H]|H]]]]; auto.
Qed.

Lemma c49_matvec_vector_incompatible {F} (o : fops F) c (a x : tensor F) da m k kx xs ys tr :
  repr a (da ++ [m; k]) xs -> repr x [kx] ys ->
  tr = TransposeB \/ tr = TransposeAB \/ (tr = TNone /\ k <> kx) \/ (tr = TransposeA /\ m <> kx) ->
  matvec_t o c a x tr = Panic.
Proof.
  intros Ha Hx H.
  apply (matvec_incompatible o c a x da [] [kx] m k xs ys Ha Hx); [reflexivity|].
  unfold mv_inner, tcol. cbn [last]. destruct H as [H|[H|[[-> H]|[-> H]]]]; auto.
Qed.

Lemma c49_matvec_rank {F} (o : fops F) c (a x : tensor F) da xs tr :
  repr a da xs -> length da < 2 -> matvec_t o c a x tr = Panic.
Proof.
  intros Ha H. unfold matvec_t. rewrite (repr_shape _ _ _ Ha). change (rank (canon da)) with (length da).
  destruct (Nat.leb_spec 2 (length da)); [lia|reflexivity].
Qed.

Lemma c49_matvec_fewer {F} (o : fops F) c (a x : tensor F) dp dx m k r kx xs ys tr :
  feq o (fzero o) (fzero o) = true ->
  repr a (dp ++ dx ++ [m; k]) xs -> repr x (dx ++ [r; kx]) ys ->
  0 < prod (dp ++ dx ++ [m; k]) -> 0 < r -> 1 < prod dp ->
  supported (dx ++ [r; match tr with TNone => m | _ => k end]) ->
  matvec_t o c a x tr = Panic.
Proof.
  intros Hz Ha Hx Pa Hr Hp Hs. rewrite app_assoc in Ha.
  rewrite !prod_app in Pa. cbn [prod] in Pa.
  assert (Hm : 0 < m) by nia. assert (Hk : 0 < k) by nia. assert (Hd : 0 < prod dx) by nia.
  assert (Hc : 0 < match tr with TNone => m | _ => k end) by (destruct tr; auto).
  pose proof (supported_len _ (repr_supported _ _ _ Hx)) as Lx.
  assert (EB : (if length (dp ++ dx) <? length dx then prod dx else prod (dp ++ dx)) = prod dp * prod dx).
  { destruct (Nat.ltb_spec (length (dp ++ dx)) (length dx)) as [H|H]; [rewrite app_length in H; lia|apply prod_app]. }
  destruct (matvec_done o c a x (dp ++ dx) dx [r; kx] m k xs ys Ha Hx) with (tr := tr)
    as [E|(zs & s & L & Ew & E)]; auto.
  - rewrite app_length. cbn [length]. lia.
  - left. rewrite EB. unfold mv_cols. cbn [trow]. rewrite (Nat.max_r 1 r) by lia. nia.
  - rewrite E. clear E. rewrite EB in L. unfold mv_cols in L, Ew. cbn [trow] in L. rewrite (Nat.max_r 1 r) in L by lia.
    set (w := match tr with TNone => m | _ => k end) in *.
    assert (Hw : (Z.of_nat w < two32)%Z).
    { destruct (supported_last2 _ _ _ (repr_supported _ _ _ Ha)) as (_ & ? & ? & _). unfold w. destruct tr; auto. }
    replace (dx ++ [r; kx]) with ((dx ++ [r]) ++ [kx]) in Ew by now rewrite <- app_assoc.
    rewrite with_cols_canon in Ew by (rewrite <- app_assoc; auto).
    injection Ew as <-. rewrite as_u32_small by auto. rewrite <- app_assoc. cbn [app].
    unfold tensor_new. rewrite size_canon by auto. cbn [bind]. rewrite L, prod_app. cbn [prod].
    destruct (Nat.eqb_spec (prod dx * (r * (w * 1))) (r * w * (prod dp * prod dx))) as [E|]; [|reflexivity].
    exfalso. assert (Hq : 0 < prod dx * (r * w)) by nia.
    replace (prod dx * (r * (w * 1))) with (prod dx * (r * w)) in E by lia.
    replace (r * w * (prod dp * prod dx)) with (prod dp * (prod dx * (r * w))) in E by lia. nia.
Qed.

Lemma c49_matvec_empty {F} (o : fops F) c (a x : tensor F) dp da m k r kx xs ys :
  feq o (fzero o) (fzero o) = true ->
  repr a (da ++ [m; k]) xs -> repr x (dp ++ da ++ [r; kx]) ys ->
  0 < prod dp -> 0 < prod da -> m = 0 \/ k = 0 \/ r = 0 -> zero_alloc_ok c = true ->
  matvec o c a x = Panic.
Proof.
  intros Hz Ha Hx Hp Hd H Hc. rewrite !(app_assoc dp da) in *.
  unfold matvec. rewrite (matvec_head o c a x da (dp ++ da) [r; kx] m k xs ys Ha Hx); auto.
  2:{ rewrite app_length. cbn [length]. lia. }
  assert (EB : (if length da <? length (dp ++ da) then prod (dp ++ da) else prod da) = prod (dp ++ da)).
  { destruct (Nat.ltb_spec (length da) (length (dp ++ da))) as [|H1]; auto.
    rewrite app_length in H1. destruct dp; [reflexivity|cbn in H1; lia]. }
  rewrite EB. clear EB.
  pose proof (supported_len _ (repr_supported _ _ _ Hx)) as Lx. rewrite !app_length in Lx.
  destruct (check_broadcast_tt da (dp ++ da)) as [E|E]; [lia|rewrite app_length; lia| |];
    rewrite E; cbn [bind]; [|reflexivity].
  unfold tcol. cbn [mv_inner last].
  destruct (Nat.eqb_spec k kx) as [<-|]; [|reflexivity]. cbn [assert_ bind].
  destruct (with_cols _ _) as [s| |] eqn:Ew; cbn [bind]; auto.
  2:{ exfalso. unfold with_cols, aset in Ew. destruct (0 <? _); discriminate. }
  unfold unsafe_init_, unsafe_init, alloc.
  destruct (two63 <=? _)%Z; [reflexivity|]. rewrite Hc, andb_false_r. cbn [bind].
  assert (HB : 0 < prod (dp ++ da)) by (rewrite prod_app; nia).
  destruct (prod (dp ++ da)) as [|B'] eqn:EB; [lia|]. unfold for_. rewrite for_from_S.
  destruct (Nat.eq_dec (m * k) 0) as [E0|E0].
  - rewrite (wrap_ptr_empty a); [reflexivity|]. rewrite (repr_size_prod _ _ _ Ha), prod_app. cbn [prod].
    rewrite Nat.mul_1_r, E0. lia.
  - assert (r = 0) as -> by (destruct H as [H|[H|H]]; [subst; lia|subst; lia|auto]).
    rewrite (wrap_ptr_spec a (prod da)).
    2:{ rewrite (repr_size_prod _ _ _ Ha), prod_app. cbn [prod]. lia. }
    2:{ nia. }
    rewrite (wrap_ptr_empty x); [reflexivity|].
    rewrite (repr_size_prod _ _ _ Hx), prod_app. cbn [prod]. lia.
Qed.

Lemma c49_matvec_safe {F} (o : fops F) c (a x : tensor F) da dx xs ys tr :
  feq o (fzero o) (fzero o) = true ->
  repr a da xs -> repr x dx ys -> zero_alloc_ok c = true ->
  matvec_t o c a x tr <> Ub.
Proof.
  intros Hz Ha Hx Hc.
  destruct (Nat.lt_ge_cases (length da) 2) as [H|H].
  { rewrite (c49_matvec_rank o c a x da xs tr) by auto. discriminate. }
  assert (Ea : da = firstn (length da - 2) da ++ skipn (length da - 2) da) by (symmetry; apply firstn_skipn).
  assert (La : length (skipn (length da - 2) da) = 2) by (rewrite skipn_length; lia).
  destruct (skipn (length da - 2) da) as [|m [|k [|w l]]] eqn:Es; try discriminate.
  rewrite Ea in Ha.
  set (n := length dx - Nat.min 2 (length dx)).
  assert (Ex : dx = firstn n dx ++ skipn n dx) by (symmetry; apply firstn_skipn).
  assert (Lx : length (skipn n dx) = Nat.min 2 (length (firstn n dx ++ skipn n dx))).
  { rewrite <- Ex, skipn_length. unfold n. lia. }
  rewrite Ex in Hx.
  apply (matvec_safe o c a x _ _ _ m k xs ys Ha Hx Lx Hz). now right.
Qed.
