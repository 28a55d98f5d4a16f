(** * Proofs of C73: the algebra of matrices *)
From Coq Require Import Reals Ring_theory Ring.
From Flocq Require Import IEEE754.BinarySingleNaN.
From Verif Require Import Base ShapeModel TensorModel AxisModel MapModel NumModel FloatModel InitModel
  ArrayModel LinalgModel Spec FloatSpec AlgSpec BaseFacts CoordFacts ShapeFacts ShapeFacts2 TensorFacts TensorFacts2
  TensorProofs ArrayProofs InitProofs MapFacts AlgFacts AlgProofs LinalgFacts LinalgSpec LinalgProofs.

Ltac Zify.zify_post_hook ::= idtac.

(** ** Batches of matrices *)

Definition mat {F} (ds : list nat) (m n : nat) (xs : list F) (A : list nat -> nat -> nat -> F) : Prop :=
  length xs = prod (ds ++ [m; n]) /\
  forall idx i j, in_shape ds idx -> i < m -> j < n ->
    elem (ds ++ [m; n]) xs (idx ++ [i; j]) = Some (A idx i j).

Lemma mat_ext {F} ds m n (xs ys : list F) A B :
  mat ds m n xs A -> mat ds m n ys B ->
  (forall idx i j, in_shape ds idx -> i < m -> j < n -> A idx i j = B idx i j) -> xs = ys.
Proof.
  intros [Lx Hx] [Ly Hy] H. apply (elem_ext (ds ++ [m; n])); auto. intros idx Hi.
  apply in_shape_app_inv in Hi. destruct Hi as [I1 I2]. rewrite <- (firstn_skipn (length ds) idx).
  inversion I2 as [|i ? l1 ? Hi Hr E1]; subst. inversion Hr as [|j ? l2 ? Hj Hr2 E2]; subst. inversion Hr2; subst.
  rewrite Hx, Hy by auto. f_equal. auto.
Qed.

Lemma mat_ex {F} (d : F) ds m n (xs : list F) : length xs = prod (ds ++ [m; n]) -> exists A, mat ds m n xs A.
Proof.
  intros L. exists (fun idx i j => nth (ravel (ds ++ [m; n]) (idx ++ [i; j])) xs d). split; auto.
  intros idx i j Hi Him Hjn. unfold elem. apply nth_error_nth'. rewrite L. apply ravel_lt.
  apply in_shape_app; auto. apply in_shape_cons. split; auto. apply in_shape_cons. split; auto. apply in_shape_nil.
Qed.

Lemma repr_mat {F} (d : F) (t : tensor F) ds m n xs : repr t (ds ++ [m; n]) xs -> exists A, mat ds m n xs A.
Proof. intros H. apply (mat_ex d). apply H. Qed.

Lemma mat_map {F G} ds m n (xs : list F) A (f : F -> G) :
  mat ds m n xs A -> mat ds m n (map f xs) (fun idx i j => f (A idx i j)).
Proof.
  intros [L H]. split; [now rewrite map_length|]. intros. unfold elem. rewrite nth_error_map.
  fold (elem (ds ++ [m; n]) xs (idx ++ [i; j])). now rewrite H.
Qed.

Lemma prod_flip ds m n : prod (ds ++ [m; n]) = prod (ds ++ [n; m]).
Proof. rewrite !prod_app. cbn [prod]. lia. Qed.

Lemma supported_flip ds m n : supported (ds ++ [m; n]) -> supported (ds ++ [n; m]).
Proof.
  unfold supported. rewrite !app_length, !map_app, !prod_app. cbn [length map prod]. intros [H1 H2].
  split; auto. replace (Nat.max 1 n * (Nat.max 1 m * 1)) with (Nat.max 1 m * (Nat.max 1 n * 1)) by lia. exact H2.
Qed.

Lemma fresh_repr {F} ds (xs : list F) : supported ds -> length xs = prod ds -> repr (fresh ds xs) ds xs.
Proof. intros. now apply repr_fresh. Qed.

Lemma reshape_fresh {F} c ds ds' (xs : list F) :
  supported ds' -> length xs = prod ds' -> reshape c (fresh ds xs) (canon ds') = Ok (fresh ds' xs).
Proof.
  intros Hs Hl. unfold reshape. rewrite size_canon by auto. cbn [bind fresh tsize].
  rewrite assert_true by now apply Nat.eqb_eq. reflexivity.
Qed.

Lemma transpose_mat {F} c (t : tensor F) ds m n xs A :
  repr t (ds ++ [m; n]) xs -> mat ds m n xs A -> 0 < prod (ds ++ [m; n]) ->
  exists ys, transpose c t = Ok (fresh (ds ++ [n; m]) ys) /\ mat ds n m ys (fun idx i j => A idx j i).
Proof.
  intros H [L HA] P. destruct (c34_transpose c t ds m n xs H P) as (ys & E & Ly & Hy).
  exists ys. split; auto. split; auto. intros idx i j Hi Hin Hjm. rewrite Hy by auto. now apply HA.
Qed.

(** ** Sums over a commutative semiring *)

Section Semiring.
  Context {F : Type} (o : fops F).
  Context (SR : semi_ring_theory (fzero o) (fone o) (fadd o) (fmul o) eq).
  Context (ZZ : feq o (fzero o) (fzero o) = true).
  Add Ring semiring : SR.

  Notation "0" := (fzero o).
  Notation "1" := (fone o).
  Infix "+" := (fadd o).
  Infix "*" := (fmul o).

  Fixpoint msum (k : nat) (g : nat -> F) : F :=
    match k with
    | O => 0
    | Datatypes.S k => msum k g + g k
    end.

  Lemma msum_ext k g h : (forall p, (p < k)%nat -> g p = h p) -> msum k g = msum k h.
  Proof. clear SR ZZ. induction k as [|k IH]; intros H; auto. cbn. now rewrite IH, H by auto. Qed.
  Lemma msum_zero k : msum k (fun _ => 0) = 0.
  Proof. induction k as [|k IH]; auto. cbn. rewrite IH. ring. Qed.
  Lemma msum_add k g h : msum k (fun p => g p + h p) = msum k g + msum k h.
  Proof. induction k as [|k IH]; cbn; [ring|]. rewrite IH. ring. Qed.
  Lemma msum_mul_l k x g : msum k (fun p => x * g p) = x * msum k g.
  Proof. induction k as [|k IH]; cbn; [ring|]. rewrite IH. ring. Qed.
  Lemma msum_mul_r k x g : msum k (fun p => g p * x) = msum k g * x.
  Proof. induction k as [|k IH]; cbn; [ring|]. rewrite IH. ring. Qed.
  Lemma msum_swap m n (g : nat -> nat -> F) :
    msum m (fun p => msum n (g p)) = msum n (fun q => msum m (fun p => g p q)).
  Proof. induction m as [|m IH]; cbn; [now rewrite msum_zero|]. now rewrite msum_add, IH. Qed.
  Lemma msum_one k i g : (i < k)%nat ->
    msum k (fun p => (if Nat.eqb i p then 1 else 0) * g p) = g i.
  Proof.
    assert (Z : forall k, (k <= i)%nat -> msum k (fun p => (if Nat.eqb i p then 1 else 0) * g p) = 0).
    { clear k. induction k as [|k IH]; intros H; auto. cbn. rewrite IH by lia.
      destruct (Nat.eqb_spec i k); [lia|ring]. }
    induction k as [|k IH]; intros H; [lia|]. cbn. destruct (Nat.eqb_spec i k) as [->|N].
    - rewrite Z by lia. ring.
    - rewrite IH by lia. ring.
  Qed.

  Lemma dot_msum k f g f' g' :
    (forall p, (p < k)%nat -> f p = Some (f' p)) -> (forall p, (p < k)%nat -> g p = Some (g' p)) ->
    dot o k f g = Some (msum k (fun p => f' p * g' p)).
  Proof.
    clear SR ZZ. induction k as [|k IH]; intros Hf Hg; auto. cbn. rewrite IH by auto. now rewrite Hf, Hg by auto.
  Qed.

  Lemma one_dot v : option_map (fmul o 1) (Some v) = Some v.
  Proof. cbn. f_equal. ring. Qed.

  Lemma matmul_mat c (a b : tensor F) ds m k n xs ys A B :
    repr a (ds ++ [m; k]) xs -> repr b (ds ++ [k; n]) ys -> mat ds m k xs A -> mat ds k n ys B ->
    supported (ds ++ [m; n]) -> can_alloc c (prod (ds ++ [m; n])) ->
    exists zs, matmul o c a b = Ok (fresh (ds ++ [n; m]) zs) /\
      mat ds m n zs (fun idx i j => msum k (fun p => A idx i p * B idx p j)).
  Proof.
    intros Ha Hb [La HA] [Lb HB] Hs Hc. apply supported_flip in Hs. rewrite prod_flip in Hc.
    destruct (c46_matmul o c a b ds m k n xs ys ZZ Ha Hb Hs Hc) as (zs & E & L & H).
    exists zs. split; auto. split; [now rewrite prod_flip|]. intros idx i j Hi Him Hjn. rewrite H by auto.
    rewrite (dot_msum k _ _ (fun p => A idx i p) (fun p => B idx p j)); [apply one_dot| |]; intros; auto.
  Qed.

  Lemma add_mat c (a b : tensor F) ds m n xs ys A B :
    repr a (ds ++ [m; n]) xs -> repr b (ds ++ [m; n]) ys -> mat ds m n xs A -> mat ds m n ys B ->
    (0 < prod (ds ++ [m; n]))%nat ->
    exists zs, binop_tt c a b (ok2 (fadd o)) = Ok (fresh (ds ++ [m; n]) zs) /\
      mat ds m n zs (fun idx i j => A idx i j + B idx i j).
  Proof.
    clear SR ZZ. intros Ha Hb [La HA] [Lb HB] P.
    assert (Nx : xs <> []) by (destruct xs; cbn in *; [lia|discriminate]).
    assert (Ny : ys <> []) by (destruct ys; cbn in *; [lia|discriminate]).
    eexists. split.
    - apply (binop_tt_join c a b _ _ _ xs ys (fadd o) 0 0 Ha Hb Nx Ny). apply join_self.
    - split; [apply bz_length|]. intros idx i j Hi Him Hjn.
      assert (Hr : (ravel (ds ++ [m; n]) (idx ++ [i; j]) < prod (ds ++ [m; n]))%nat).
      { apply ravel_lt. apply in_shape_app; auto. repeat (apply in_shape_cons; split; auto). apply in_shape_nil. }
      unfold elem, bz. rewrite nth_error_map_seq by auto. cbn [Nat.add]. unfold at_.
      rewrite La, Lb, Nat.mod_small by auto. f_equal.
      f_equal; eapply nth_error_nth; [apply (HA idx i j)|apply (HB idx i j)]; auto.
  Qed.

  Lemma c73_assoc c (a b d : tensor F) ds m k n q xs ys zs :
    repr a (ds ++ [m; k]) xs -> repr b (ds ++ [k; n]) ys -> repr d (ds ++ [n; q]) zs ->
    supported (ds ++ [m; n]) -> supported (ds ++ [k; q]) -> supported (ds ++ [m; q]) ->
    zero_alloc_ok c = true ->
    (let* ab := matmul o c a b in let* ab := reshape c ab (canon (ds ++ [m; n])) in matmul o c ab d)
    = (let* bd := matmul o c b d in let* bd := reshape c bd (canon (ds ++ [k; q])) in matmul o c a bd).
  Proof.
    intros Ha Hb Hd S1 S2 S3 Hz.
    assert (CA : forall x, can_alloc c x) by (now right).
    destruct (repr_mat 0 _ _ _ _ _ Ha) as [A HA]. destruct (repr_mat 0 _ _ _ _ _ Hb) as [B HB].
    destruct (repr_mat 0 _ _ _ _ _ Hd) as [D HD].
    destruct (matmul_mat c a b ds m k n xs ys A B) as (ab & -> & Hab); auto.
    destruct (matmul_mat c b d ds k n q ys zs B D) as (bd & -> & Hbd); auto. cbn [bind].
    rewrite !reshape_fresh by (auto; first [apply Hab|apply Hbd]). cbn [bind].
    destruct (matmul_mat c (fresh (ds ++ [m; n]) ab) d ds m n q ab zs _ D
      (fresh_repr _ _ S1 (proj1 Hab)) Hd Hab HD) as (u & -> & Hu); auto.
    destruct (matmul_mat c a (fresh (ds ++ [k; q]) bd) ds m k q xs bd A _
      Ha (fresh_repr _ _ S2 (proj1 Hbd)) HA Hbd) as (v & -> & Hv); auto.
    do 2 f_equal. eapply mat_ext; [exact Hu|exact Hv|]. intros idx i j _ _ _. cbn beta.
    rewrite (msum_ext n _ (fun p => msum k (fun p0 => A idx i p0 * B idx p0 p * D idx p j)))
      by (intros; symmetry; apply msum_mul_r).
    rewrite msum_swap. apply msum_ext. intros p _. rewrite <- msum_mul_l. apply msum_ext. intros. ring.
  Qed.

  Lemma c73_assoc_square c (a b d : tensor F) ds m xs ys zs :
    repr a (ds ++ [m; m]) xs -> repr b (ds ++ [m; m]) ys -> repr d (ds ++ [m; m]) zs ->
    zero_alloc_ok c = true ->
    (let* ab := matmul o c a b in matmul o c ab d) = (let* bd := matmul o c b d in matmul o c a bd).
  Proof.
    intros Ha Hb Hd Hz. pose proof (repr_supported _ _ _ Ha) as Hs.
    pose proof (c73_assoc c a b d ds m m m m xs ys zs Ha Hb Hd Hs Hs Hs Hz) as H.
    assert (CA : forall x, can_alloc c x) by (now right).
    destruct (repr_mat 0 _ _ _ _ _ Ha) as [A HA]. destruct (repr_mat 0 _ _ _ _ _ Hb) as [B HB].
    destruct (repr_mat 0 _ _ _ _ _ Hd) as [D HD].
    destruct (matmul_mat c a b ds m m m xs ys A B) as (ab & E1 & Hab); auto.
    destruct (matmul_mat c b d ds m m m ys zs B D) as (bd & E2 & Hbd); auto.
    rewrite E1, E2 in *. cbn [bind] in *.
    rewrite !reshape_fresh in H by (auto; first [apply Hab|apply Hbd]). exact H.
  Qed.

  Lemma c73_identity_r c (a : tensor F) m k xs :
    repr a [m; k] xs -> (0 < k)%nat -> supported [k; k] -> zero_alloc_ok c = true ->
    (let* e := eye c 0 1 k in matmul o c a e) = Ok (fresh [k; m] xs).
  Proof.
    intros Ha Hk Hs Hz. assert (CA : forall x, can_alloc c x) by (now right).
    destruct (c41_eye c 0 1 k Hk Hs) as (es & -> & Le & He). cbn [bind].
    destruct (repr_mat 0 _ [] _ _ _ Ha) as [A HA].
    assert (Me : mat [] k k es (fun _ i j => if Nat.eqb i j then 1 else 0)).
    { split; [cbn [app prod]; lia|]. intros [|? idx] i j Hi ? ?; [|inversion Hi]. now apply He. }
    assert (Re : repr (fresh [k; k] es) [k; k] es) by (apply fresh_repr; auto; apply Me).
    destruct (matmul_mat c a (fresh [k; k] es) [] m k k xs es A _ Ha Re HA Me (repr_supported _ _ _ Ha) (CA _)) as (zs & E & Hm).
    rewrite E. cbn [app]. do 2 f_equal. eapply mat_ext; [exact Hm|exact HA|]. intros idx i j _ Hi Hj. cbn beta.
    rewrite <- (msum_one k j (fun p => A idx i p)) by auto. apply msum_ext. intros p _. rewrite (Nat.eqb_sym j p). ring.
  Qed.

  Lemma c73_identity_l c (a : tensor F) m k xs :
    repr a [m; k] xs -> (0 < m)%nat -> supported [m; m] -> zero_alloc_ok c = true ->
    (let* e := eye c 0 1 m in matmul o c e a) = Ok (fresh [k; m] xs).
  Proof.
    intros Ha Hk Hs Hz. assert (CA : forall x, can_alloc c x) by (now right).
    destruct (c41_eye c 0 1 m Hk Hs) as (es & -> & Le & He). cbn [bind].
    destruct (repr_mat 0 _ [] _ _ _ Ha) as [A HA].
    assert (Me : mat [] m m es (fun _ i j => if Nat.eqb i j then 1 else 0)).
    { split; [cbn [app prod]; lia|]. intros [|? idx] i j Hi ? ?; [|inversion Hi]. now apply He. }
    assert (Re : repr (fresh [m; m] es) [m; m] es) by (apply fresh_repr; auto; apply Me).
    destruct (matmul_mat c (fresh [m; m] es) a [] m m k es xs _ A Re Ha Me HA (repr_supported _ _ _ Ha) (CA _)) as (zs & E & Hm).
    rewrite E. cbn [app]. do 2 f_equal. eapply mat_ext; [exact Hm|exact HA|]. intros idx i j _ Hi Hj. cbn beta.
    now apply (msum_one m i (fun p => A idx p j)).
  Qed.

  Lemma c73_distrib_l c (a b d : tensor F) ds m k n xs ys zs :
    repr a (ds ++ [m; k]) xs -> repr b (ds ++ [k; n]) ys -> repr d (ds ++ [k; n]) zs ->
    supported (ds ++ [m; n]) -> (0 < prod (ds ++ [m; n]))%nat -> (0 < k)%nat ->
    (let* s := binop_tt c b d (ok2 (fadd o)) in matmul o c a s)
    = (let* p := matmul o c a b in let* q := matmul o c a d in binop_tt c p q (ok2 (fadd o))).
  Proof.
    intros Ha Hb Hd Hs P Hk.
    assert (P2 : (0 < prod (ds ++ [k; n]))%nat) by (rewrite prod_app in *; cbn [prod] in *; nia).
    assert (CA : can_alloc c (prod (ds ++ [m; n]))) by (left; lia).
    destruct (repr_mat 0 _ _ _ _ _ Ha) as [A HA]. destruct (repr_mat 0 _ _ _ _ _ Hb) as [B HB].
    destruct (repr_mat 0 _ _ _ _ _ Hd) as [D HD].
    destruct (add_mat c b d ds k n ys zs B D Hb Hd HB HD P2) as (s & -> & Ms). cbn [bind].
    pose proof (fresh_repr _ _ (repr_supported _ _ _ Hb) (proj1 Ms)) as Rs.
    destruct (matmul_mat c a _ ds m k n xs s A _ Ha Rs HA Ms Hs CA) as (r & -> & Mr).
    destruct (matmul_mat c a b ds m k n xs ys A B Ha Hb HA HB Hs CA) as (p & -> & Mp).
    destruct (matmul_mat c a d ds m k n xs zs A D Ha Hd HA HD Hs CA) as (q & -> & Mq). cbn [bind].
    pose proof (supported_flip _ _ _ Hs) as Hs'.
    assert (Rp : repr (fresh (ds ++ [n; m]) p) (ds ++ [n; m]) p) by (apply fresh_repr; auto; rewrite prod_flip; apply Mp).
    assert (Rq : repr (fresh (ds ++ [n; m]) q) (ds ++ [n; m]) q) by (apply fresh_repr; auto; rewrite prod_flip; apply Mq).
    pose proof (repr_len _ _ _ Rp) as Lp. pose proof (repr_len _ _ _ Rq) as Lq.
    pose proof (prod_flip ds m n) as PF.
    rewrite (binop_tt_join c _ _ _ _ (ds ++ [n; m]) p q (fadd o) 0 0 Rp Rq)
      by first [apply join_self | destruct p; cbn in *; [lia|discriminate] | destruct q; cbn in *; [lia|discriminate]].
    do 2 f_equal. rewrite <- PF.
    destruct (add_mat c (fresh (ds ++ [m; n]) p) (fresh (ds ++ [m; n]) q) ds m n p q _ _
      (fresh_repr _ _ Hs (proj1 Mp)) (fresh_repr _ _ Hs (proj1 Mq)) Mp Mq P) as (w & Ew & Mw).
    rewrite (binop_tt_join c _ _ _ _ (ds ++ [m; n]) p q (fadd o) 0 0 (fresh_repr _ _ Hs (proj1 Mp)) (fresh_repr _ _ Hs (proj1 Mq))) in Ew
      by first [apply join_self | destruct p; cbn in *; [lia|discriminate] | destruct q; cbn in *; [lia|discriminate]].
    injection Ew as _ Ew. rewrite Ew.
    eapply mat_ext; [exact Mr|exact Mw|]. intros idx i j _ _ _. cbn beta. rewrite <- msum_add.
    apply msum_ext. intros. ring.
  Qed.

  Lemma add_flip c ds m n p q P Q :
    supported (ds ++ [m; n]) -> (0 < prod (ds ++ [m; n]))%nat -> mat ds m n p P -> mat ds m n q Q ->
    exists w, binop_tt c (fresh (ds ++ [n; m]) p) (fresh (ds ++ [n; m]) q) (ok2 (fadd o)) = Ok (fresh (ds ++ [n; m]) w) /\
      mat ds m n w (fun idx i j => P idx i j + Q idx i j).
  Proof.
    clear SR ZZ. intros Hs HP Mp Mq. pose proof (supported_flip _ _ _ Hs) as Hs'. pose proof (prod_flip ds m n) as PF.
    pose proof (proj1 Mp) as Lp. pose proof (proj1 Mq) as Lq.
    assert (Np : p <> []) by (destruct p; cbn in *; [lia|discriminate]).
    assert (Nq : q <> []) by (destruct q; cbn in *; [lia|discriminate]).
    assert (Rp : repr (fresh (ds ++ [n; m]) p) (ds ++ [n; m]) p) by (apply fresh_repr; auto; lia).
    assert (Rq : repr (fresh (ds ++ [n; m]) q) (ds ++ [n; m]) q) by (apply fresh_repr; auto; lia).
    rewrite (binop_tt_join c _ _ _ _ (ds ++ [n; m]) p q (fadd o) 0 0 Rp Rq) by (auto; apply join_self).
    eexists. split; [reflexivity|]. rewrite <- PF.
    pose proof (fresh_repr _ _ Hs Lp) as Sp. pose proof (fresh_repr _ _ Hs Lq) as Sq.
    destruct (add_mat c _ _ ds m n p q _ _ Sp Sq Mp Mq HP) as (w & Ew & Mw).
    rewrite (binop_tt_join c _ _ _ _ (ds ++ [m; n]) p q (fadd o) 0 0 Sp Sq) in Ew by (auto; apply join_self).
    injection Ew as _ Ew. rewrite Ew. exact Mw.
  Qed.

  Lemma c73_distrib_r c (a b d : tensor F) ds m k n xs ys zs :
    repr a (ds ++ [m; k]) xs -> repr b (ds ++ [m; k]) ys -> repr d (ds ++ [k; n]) zs ->
    supported (ds ++ [m; n]) -> (0 < prod (ds ++ [m; n]))%nat -> (0 < k)%nat ->
    (let* s := binop_tt c a b (ok2 (fadd o)) in matmul o c s d)
    = (let* p := matmul o c a d in let* q := matmul o c b d in binop_tt c p q (ok2 (fadd o))).
  Proof.
    intros Ha Hb Hd Hs P Hk.
    assert (P2 : (0 < prod (ds ++ [m; k]))%nat) by (rewrite prod_app in *; cbn [prod] in *; nia).
    assert (CA : can_alloc c (prod (ds ++ [m; n]))) by (left; lia).
    destruct (repr_mat 0 _ _ _ _ _ Ha) as [A HA]. destruct (repr_mat 0 _ _ _ _ _ Hb) as [B HB].
    destruct (repr_mat 0 _ _ _ _ _ Hd) as [D HD].
    destruct (add_mat c a b ds m k xs ys A B Ha Hb HA HB P2) as (s & -> & Ms). cbn [bind].
    pose proof (fresh_repr _ _ (repr_supported _ _ _ Hb) (proj1 Ms)) as Rs.
    destruct (matmul_mat c _ d ds m k n s zs _ D Rs Hd Ms HD Hs CA) as (r & -> & Mr).
    destruct (matmul_mat c a d ds m k n xs zs A D Ha Hd HA HD Hs CA) as (p & -> & Mp).
    destruct (matmul_mat c b d ds m k n ys zs B D Hb Hd HB HD Hs CA) as (q & -> & Mq). cbn [bind].
    destruct (add_flip c ds m n p q _ _ Hs P Mp Mq) as (w & -> & Mw).
    do 2 f_equal. eapply mat_ext; [exact Mr|exact Mw|]. intros idx i j _ _ _. cbn beta. rewrite <- msum_add.
    apply msum_ext. intros. ring.
  Qed.

  Lemma scale_mat c s (a : tensor F) dl xs :
    repr a dl xs -> can_alloc c (length xs) ->
    binop_st c s a (ok2 (fmul o)) = Ok (fresh dl (map (fmul o s) xs)).
  Proof. clear SR ZZ. intros Ha Hc. exact (unop_ok c a dl xs (fmul o s) Ha Hc). Qed.

  Lemma c73_scale c s (a b : tensor F) ds m k n xs ys :
    repr a (ds ++ [m; k]) xs -> repr b (ds ++ [k; n]) ys ->
    supported (ds ++ [m; n]) -> zero_alloc_ok c = true ->
    (let* sa := binop_st c s a (ok2 (fmul o)) in matmul o c sa b)
    = (let* ab := matmul o c a b in binop_st c s ab (ok2 (fmul o))) /\
    (let* sb := binop_st c s b (ok2 (fmul o)) in matmul o c a sb)
    = (let* ab := matmul o c a b in binop_st c s ab (ok2 (fmul o))).
  Proof.
    intros Ha Hb Hs Hz. assert (CA : forall x, can_alloc c x) by (now right).
    destruct (repr_mat 0 _ _ _ _ _ Ha) as [A HA]. destruct (repr_mat 0 _ _ _ _ _ Hb) as [B HB].
    destruct (matmul_mat c a b ds m k n xs ys A B Ha Hb HA HB Hs (CA _)) as (p & -> & Mp). cbn [bind].
    assert (Rp : repr (fresh (ds ++ [n; m]) p) (ds ++ [n; m]) p)
      by (apply fresh_repr; [now apply supported_flip|rewrite prod_flip; apply Mp]).
    rewrite (scale_mat c s _ _ _ Rp), (scale_mat c s _ _ _ Ha), (scale_mat c s _ _ _ Hb) by auto. cbn [bind].
    pose proof (fresh_map_repr a _ xs (fmul o s) Ha) as Ra. pose proof (fresh_map_repr b _ ys (fmul o s) Hb) as Rb.
    pose proof (mat_map _ _ _ _ _ (fmul o s) HA) as HA'. pose proof (mat_map _ _ _ _ _ (fmul o s) HB) as HB'.
    pose proof (mat_map _ _ _ _ _ (fmul o s) Mp) as Mp'.
    destruct (matmul_mat c _ b ds m k n _ ys _ B Ra Hb HA' HB Hs (CA _)) as (u & -> & Mu).
    destruct (matmul_mat c a _ ds m k n xs _ A _ Ha Rb HA HB' Hs (CA _)) as (v & -> & Mv).
    split; do 2 f_equal.
    - eapply mat_ext; [exact Mu|exact Mp'|]. intros idx i j _ _ _. cbn beta. rewrite <- msum_mul_l.
      apply msum_ext. intros. ring.
    - eapply mat_ext; [exact Mv|exact Mp'|]. intros idx i j _ _ _. cbn beta. rewrite <- msum_mul_l.
      apply msum_ext. intros. ring.
  Qed.

  Lemma matvec_mat c (a x : tensor F) m k xs ys A :
    repr a [m; k] xs -> repr x [k] ys -> mat [] m k xs A -> (0 < m)%nat -> (0 < k)%nat ->
    exists zs, matvec o c a x = Ok (fresh [m] zs) /\ length zs = m /\
      forall i, (i < m)%nat -> nth_error zs i = Some (msum k (fun p => nth p ys 0 * A [] i p)).
  Proof.
    intros Ha Hx [LA HA] Hm Hk. destruct (c49_matvec_vector o c a x m k xs ys ZZ Ha Hx Hm Hk) as (zs & E & L & H).
    exists zs. split; auto. split; auto. intros i Hi. rewrite H by auto.
    pose proof (repr_len _ _ _ Hx) as Lx. cbn [prod] in Lx.
    rewrite (dot_msum k _ _ (fun p => nth p ys 0) (fun p => A [] i p)); [apply one_dot| |].
    - intros p Hp. apply nth_error_nth'. lia.
    - intros p Hp. apply (HA [] i p); auto. apply in_shape_nil.
  Qed.

  Lemma c73_matvec c (a b x : tensor F) m k n xs ys zs :
    repr a [m; k] xs -> repr b [k; n] ys -> repr x [n] zs ->
    supported [m; n] -> (0 < m)%nat -> (0 < k)%nat -> (0 < n)%nat ->
    (let* ab := matmul o c a b in let* ab := reshape c ab (canon [m; n]) in matvec o c ab x)
    = (let* bx := matvec o c b x in matvec o c a bx).
  Proof.
    intros Ha Hb Hx Hs Hm Hk Hn.
    destruct (repr_mat 0 _ [] _ _ _ Ha) as [A HA]. destruct (repr_mat 0 _ [] _ _ _ Hb) as [B HB].
    destruct (matmul_mat c a b [] m k n xs ys A B Ha Hb HA HB Hs) as (p & -> & Mp).
    { left. cbn [app prod]. nia. }
    cbn [bind app]. rewrite reshape_fresh by (auto; apply Mp). cbn [bind].
    destruct (matvec_mat c _ x m n p zs _ (fresh_repr _ _ Hs (proj1 Mp)) Hx Mp Hm Hn) as (u & -> & Lu & Hu).
    destruct (matvec_mat c b x k n ys zs B Hb Hx HB Hk Hn) as (v & -> & Lv & Hv). cbn [bind].
    assert (Rv : repr (fresh [k] v) [k] v).
    { apply fresh_repr; [|cbn [prod]; lia]. pose proof (repr_supported _ _ _ Hb) as [_ Sb].
      split; [cbn; lia|]. cbn [map prod] in *. nia. }
    destruct (matvec_mat c a (fresh [k] v) m k xs v A Ha Rv HA Hm Hk) as (w & -> & Lw & Hw).
    do 2 f_equal. apply nth_error_ext. intros i. destruct (Nat.lt_ge_cases i m) as [Hi|Hi].
    2:{ rewrite !(proj2 (nth_error_None _ _)); auto; lia. }
    rewrite Hu, Hw by auto. f_equal. cbn beta.
    rewrite (msum_ext n _ (fun q => msum k (fun r => nth q zs 0 * (A [] i r * B [] r q))))
      by (intros; symmetry; apply msum_mul_l).
    rewrite msum_swap. apply msum_ext. intros r Hr.
    rewrite (nth_error_nth v r 0 (Hv r Hr)). rewrite <- msum_mul_r. apply msum_ext. intros. ring.
  Qed.

  Lemma c73_matvec_add c (a x y : tensor F) m k xs ys zs :
    repr a [m; k] xs -> repr x [k] ys -> repr y [k] zs -> (0 < m)%nat -> (0 < k)%nat ->
    (let* s := binop_tt c x y (ok2 (fadd o)) in matvec o c a s)
    = (let* p := matvec o c a x in let* q := matvec o c a y in binop_tt c p q (ok2 (fadd o))).
  Proof.
    intros Ha Hx Hy Hm Hk. destruct (repr_mat 0 _ [] _ _ _ Ha) as [A HA].
    pose proof (repr_len _ _ _ Hx) as Lx. pose proof (repr_len _ _ _ Hy) as Ly. cbn [prod] in Lx, Ly.
    assert (Nx : ys <> []) by (destruct ys; cbn in *; [lia|discriminate]).
    assert (Ny : zs <> []) by (destruct zs; cbn in *; [lia|discriminate]).
    destruct (matvec_mat c a x m k xs ys A Ha Hx HA Hm Hk) as (u & -> & Lu & Hu).
    destruct (matvec_mat c a y m k xs zs A Ha Hy HA Hm Hk) as (v & -> & Lv & Hv). cbn [bind].
    rewrite (binop_tt_join c x y [k] [k] [k] ys zs (fadd o) 0 0 Hx Hy) by (auto; apply join_self). cbn [bind].
    pose proof (bz_repr (fadd o) 0 0 ys zs [k] (repr_supported _ _ _ Hx)) as Rs.
    destruct (matvec_mat c a _ m k xs _ A Ha Rs HA Hm Hk) as (w & -> & Lw & Hw).
    assert (Sm : supported [m]).
    { pose proof (repr_supported _ _ _ Ha) as [_ Sb]. split; [cbn; lia|]. cbn [map prod] in *. nia. }
    assert (Ru : repr (fresh [m] u) [m] u) by (apply fresh_repr; auto; cbn [prod]; lia).
    assert (Rv : repr (fresh [m] v) [m] v) by (apply fresh_repr; auto; cbn [prod]; lia).
    rewrite (binop_tt_join c _ _ [m] [m] [m] u v (fadd o) 0 0 Ru Rv)
      by first [apply join_self|destruct u; cbn in *; [lia|discriminate]|destruct v; cbn in *; [lia|discriminate]].
    do 2 f_equal. apply nth_error_ext. intros i. destruct (Nat.lt_ge_cases i m) as [Hi|Hi].
    2:{ rewrite !(proj2 (nth_error_None _ _)); auto; [rewrite bz_length; cbn [prod]|]; lia. }
    rewrite Hw by auto. unfold bz at 2. rewrite nth_error_map_seq by (cbn [prod]; lia). cbn [Nat.add].
    unfold at_ at 1 2. rewrite Lu, Lv, Nat.mod_small by auto.
    rewrite (nth_error_nth u i 0 (Hu i Hi)), (nth_error_nth v i 0 (Hv i Hi)). f_equal.
    rewrite <- msum_add. apply msum_ext. intros p Hp.
    assert (E : nth p (bz (fadd o) 0 0 ys zs (prod [k])) 0 = nth p ys 0 + nth p zs 0).
    { apply nth_error_nth. unfold bz. rewrite nth_error_map_seq by (cbn [prod]; lia). cbn [Nat.add].
      unfold at_. rewrite Lx, Ly. rewrite Nat.mod_small by lia. reflexivity. }
    rewrite E. ring.
  Qed.

  Lemma c73_matvec_identity c (x : tensor F) n xs :
    repr x [n] xs -> (0 < n)%nat -> supported [n; n] ->
    (let* e := eye c 0 1 n in matvec o c e x) = Ok (fresh [n] xs).
  Proof.
    intros Hx Hn Hs. destruct (c41_eye c 0 1 n Hn Hs) as (es & -> & Le & He). cbn [bind].
    assert (Me : mat [] n n es (fun _ i j => if Nat.eqb i j then 1 else 0)).
    { split; [cbn [app prod]; lia|]. intros [|? idx] i j Hi ? ?; [|inversion Hi]. now apply He. }
    assert (Re : repr (fresh [n; n] es) [n; n] es) by (apply fresh_repr; auto; apply Me).
    destruct (matvec_mat c _ x n n es xs _ Re Hx Me Hn Hn) as (v & -> & Lv & Hv).
    pose proof (repr_len _ _ _ Hx) as Lx. cbn [prod] in Lx.
    do 2 f_equal. apply nth_error_ext. intros i. destruct (Nat.lt_ge_cases i n) as [Hi|Hi].
    2:{ rewrite !(proj2 (nth_error_None _ _)); auto; lia. }
    rewrite Hv by auto. rewrite (nth_error_nth' xs 0) by lia. f_equal. cbn beta.
    rewrite <- (msum_one n i (fun p => nth p xs 0)) by auto. apply msum_ext. intros. ring.
  Qed.
End Semiring.

(** ** Without laws *)

Lemma c73_transpose_a {F} (o : fops F) c (a b : tensor F) ds m k n xs ys :
  feq o (fzero o) (fzero o) = true ->
  repr a (ds ++ [k; m]) xs -> repr b (ds ++ [k; n]) ys ->
  supported (ds ++ [n; m]) -> 0 < prod (ds ++ [n; m]) -> 0 < k ->
  matmul_t o c a b TransposeA = (let* u := transpose c a in matmul o c u b).
Proof.
  intros ZZ Ha Hb Hs P Hk.
  assert (P1 : 0 < prod (ds ++ [k; m])) by (rewrite prod_app in *; cbn [prod] in *; nia).
  destruct (c46_matmul_transpose_a o c a b ds m k n xs ys ZZ Ha Hb Hs) as (p & -> & Lp & Hp); [left; lia|].
  destruct (c34_transpose c a ds k m xs Ha P1) as (u & -> & Lu & Hu). cbn [bind].
  assert (Ru : repr (fresh (ds ++ [m; k]) u) (ds ++ [m; k]) u)
    by (apply fresh_repr; auto; apply supported_flip; apply Ha).
  destruct (c46_matmul o c _ b ds m k n u ys ZZ Ru Hb Hs) as (q & -> & Lq & Hq); [left; lia|].
  do 2 f_equal. apply (elem_ext (ds ++ [m; n])); try (rewrite prod_flip; assumption). intros idx Hi.
  apply in_shape_app_inv in Hi. destruct Hi as [I1 I2]. rewrite <- (firstn_skipn (length ds) idx).
  inversion I2 as [|i ? l1 ? Hi Hr E1]; subst. inversion Hr as [|j ? l2 ? Hj Hr2 E2]; subst. inversion Hr2; subst.
  rewrite Hp, Hq by auto. f_equal. apply dot_ext; intros r Hr'; auto. symmetry. auto.
Qed.

Lemma c73_transpose_b {F} (o : fops F) c (a b : tensor F) ds m k n xs ys :
  feq o (fzero o) (fzero o) = true ->
  repr a (ds ++ [m; k]) xs -> repr b (ds ++ [n; k]) ys ->
  supported (ds ++ [n; m]) -> 0 < prod (ds ++ [n; m]) -> 0 < k ->
  matmul_t o c a b TransposeB = (let* u := transpose c b in matmul o c a u).
Proof.
  intros ZZ Ha Hb Hs P Hk.
  assert (P1 : 0 < prod (ds ++ [n; k])) by (rewrite prod_app in *; cbn [prod] in *; nia).
  destruct (c46_matmul_transpose_b o c a b ds m k n xs ys ZZ Ha Hb Hs) as (p & -> & Lp & Hp); [left; lia|].
  destruct (c34_transpose c b ds n k ys Hb P1) as (u & -> & Lu & Hu). cbn [bind].
  assert (Ru : repr (fresh (ds ++ [k; n]) u) (ds ++ [k; n]) u)
    by (apply fresh_repr; auto; apply supported_flip; apply Hb).
  destruct (c46_matmul o c a _ ds m k n xs u ZZ Ha Ru Hs) as (q & -> & Lq & Hq); [left; lia|].
  do 2 f_equal. apply (elem_ext (ds ++ [m; n])); try (rewrite prod_flip; assumption). intros idx Hi.
  apply in_shape_app_inv in Hi. destruct Hi as [I1 I2]. rewrite <- (firstn_skipn (length ds) idx).
  inversion I2 as [|i ? l1 ? Hi Hr E1]; subst. inversion Hr as [|j ? l2 ? Hj Hr2 E2]; subst. inversion Hr2; subst.
  rewrite Hp, Hq by auto. f_equal. apply dot_ext; intros r Hr'; auto. symmetry. auto.
Qed.

Lemma c73_transpose_ab {F} (o : fops F) c (a b : tensor F) ds m k n xs ys :
  feq o (fzero o) (fzero o) = true ->
  repr a (ds ++ [k; m]) xs -> repr b (ds ++ [n; k]) ys ->
  supported (ds ++ [n; m]) -> 0 < prod (ds ++ [n; m]) -> 0 < k ->
  matmul_t o c a b TransposeAB
  = (let* u := transpose c a in let* v := transpose c b in matmul o c u v).
Proof.
  intros ZZ Ha Hb Hs P Hk.
  assert (P1 : 0 < prod (ds ++ [k; m])) by (rewrite prod_app in *; cbn [prod] in *; nia).
  assert (P2 : 0 < prod (ds ++ [n; k])) by (rewrite prod_app in *; cbn [prod] in *; nia).
  destruct (c46_matmul_transpose_ab o c a b ds m k n xs ys ZZ Ha Hb Hs) as (p & -> & Lp & Hp); [left; lia|].
  destruct (c34_transpose c a ds k m xs Ha P1) as (u & -> & Lu & Hu). cbn [bind].
  destruct (c34_transpose c b ds n k ys Hb P2) as (v & -> & Lv & Hv). cbn [bind].
  assert (Ru : repr (fresh (ds ++ [m; k]) u) (ds ++ [m; k]) u)
    by (apply fresh_repr; auto; apply supported_flip; apply Ha).
  assert (Rv : repr (fresh (ds ++ [k; n]) v) (ds ++ [k; n]) v)
    by (apply fresh_repr; auto; apply supported_flip; apply Hb).
  destruct (c46_matmul o c _ _ ds m k n u v ZZ Ru Rv Hs) as (q & -> & Lq & Hq); [left; lia|].
  do 2 f_equal. apply (elem_ext (ds ++ [m; n])); try (rewrite prod_flip; assumption). intros idx Hi.
  apply in_shape_app_inv in Hi. destruct Hi as [I1 I2]. rewrite <- (firstn_skipn (length ds) idx).
  inversion I2 as [|i ? l1 ? Hi Hr E1]; subst. inversion Hr as [|j ? l2 ? Hj Hr2 E2]; subst. inversion Hr2; subst.
  rewrite Hp, Hq by auto. f_equal. apply dot_ext; intros r Hr'; symmetry; auto.
Qed.

Lemma c73_matvec_matmul {F} (o : fops F) c (a x : tensor F) ds m k r xs ys :
  feq o (fzero o) (fzero o) = true ->
  repr a (ds ++ [m; k]) xs -> repr x (ds ++ [r; k]) ys ->
  supported (ds ++ [r; m]) -> 0 < prod (ds ++ [r; m]) -> 0 < k ->
  matvec o c a x = (let* p := matmul_t o c x a TransposeB in reshape c p (canon (ds ++ [r; m]))).
Proof.
  intros ZZ Ha Hx Hs P Hk. pose proof (supported_flip _ _ _ Hs) as Hs'.
  destruct (c49_matvec o c a x [] ds m k r xs ys ZZ Ha Hx) as (p & E & Lp & Hp).
  { rewrite prod_app in *; cbn [prod] in *; nia. } { cbn [app]. rewrite prod_app in *; cbn [prod] in *; nia. }
  { exact Hs. }
  rewrite E. cbn [app] in *.
  destruct (c46_matmul_transpose_b o c x a ds r k m ys xs ZZ Hx Ha Hs') as (q & -> & Lq & Hq).
  { left. rewrite prod_flip. lia. }
  cbn [bind]. rewrite reshape_fresh by (auto; now rewrite prod_flip).
  do 2 f_equal. apply (elem_ext (ds ++ [r; m])); auto; [now rewrite prod_flip|]. intros idx Hi.
  apply in_shape_app_inv in Hi. destruct Hi as [I1 I2]. rewrite <- (firstn_skipn (length ds) idx).
  inversion I2 as [|i ? l1 ? Hi Hr E1]; subst. inversion Hr as [|j ? l2 ? Hj Hr2 E2]; subst. inversion Hr2; subst.
  rewrite Hq by auto. specialize (Hp [] (firstn (length ds) idx) i j in_shape_nil I1 Hi Hj). cbn [app] in Hp. exact Hp.
Qed.

Lemma dot_comm {F} (o : fops F) k f g :
  (forall x y, fmul o x y = fmul o y x) -> dot o k f g = dot o k g f.
Proof.
  intros C. induction k as [|k IH]; auto. cbn. rewrite IH.
  destruct (dot o k g f); auto. destruct (f k), (g k); auto. now rewrite C.
Qed.

Lemma c73_transpose {F} (o : fops F) c (a b : tensor F) ds m k n xs ys :
  feq o (fzero o) (fzero o) = true -> (forall x y, fmul o x y = fmul o y x) ->
  repr a (ds ++ [m; k]) xs -> repr b (ds ++ [k; n]) ys ->
  supported (ds ++ [m; n]) -> 0 < prod (ds ++ [m; n]) -> 0 < k ->
  (let* ab := matmul o c a b in let* ab := reshape c ab (canon (ds ++ [m; n])) in transpose c ab)
  = (let* bt := transpose c b in let* at_ := transpose c a in
     let* r := matmul o c bt at_ in reshape c r (canon (ds ++ [n; m]))).
Proof.
  intros ZZ C Ha Hb Hs P Hk. pose proof (supported_flip _ _ _ Hs) as Hs'. pose proof (prod_flip ds m n) as PF.
  assert (P1 : 0 < prod (ds ++ [m; k])) by (rewrite prod_app in *; cbn [prod] in *; nia).
  assert (P2 : 0 < prod (ds ++ [k; n])) by (rewrite prod_app in *; cbn [prod] in *; nia).
  destruct (c46_matmul o c a b ds m k n xs ys ZZ Ha Hb Hs') as (p & -> & Lp & Hp); [left; lia|]. cbn [bind].
  rewrite reshape_fresh by (auto; lia). cbn [bind].
  destruct (c34_transpose c (fresh (ds ++ [m; n]) p) ds m n p) as (u & -> & Lu & Hu); auto.
  { apply fresh_repr; auto. lia. }
  destruct (c34_transpose c b ds k n ys Hb P2) as (v & -> & Lv & Hv). cbn [bind].
  destruct (c34_transpose c a ds m k xs Ha P1) as (w & -> & Lw & Hw). cbn [bind].
  assert (Rv : repr (fresh (ds ++ [n; k]) v) (ds ++ [n; k]) v)
    by (apply fresh_repr; auto; apply supported_flip; apply Hb).
  assert (Rw : repr (fresh (ds ++ [k; m]) w) (ds ++ [k; m]) w)
    by (apply fresh_repr; auto; apply supported_flip; apply Ha).
  destruct (c46_matmul o c _ _ ds n k m v w ZZ Rv Rw Hs) as (q & -> & Lq & Hq); [left; lia|]. cbn [bind].
  rewrite reshape_fresh by (auto; lia).
  do 2 f_equal. apply (elem_ext (ds ++ [n; m])); auto; [lia|]. intros idx Hi.
  apply in_shape_app_inv in Hi. destruct Hi as [I1 I2]. rewrite <- (firstn_skipn (length ds) idx).
  inversion I2 as [|i ? l1 ? Hi Hr E1]; subst. inversion Hr as [|j ? l2 ? Hj Hr2 E2]; subst. inversion Hr2; subst.
  rewrite Hu, Hp, Hq by auto. f_equal. rewrite dot_comm by auto. apply dot_ext; intros r Hr'; symmetry; auto.
Qed.

Lemma c73_mul_comm_b32 ln_ exp_ pow_ (x y : b32) :
  fmul (b32_ops ln_ exp_ pow_) x y = fmul (b32_ops ln_ exp_ pow_) y x.
Proof.
  change (fmul (b32_ops ln_ exp_ pow_)) with (@Bmult 24 128 b32_prec b32_emax mode_NE). apply B2SF_inj.
  generalize b32_prec, b32_emax. unfold b32 in *. revert x y. generalize 24%Z, 128%Z. intros p e x y hp he.
  destruct x as [sx|sx| |sx mx ex Hx], y as [sy|sy| |sy my ey Hy]; unfold Bmult; cbn [B2SF];
    try reflexivity; try (now rewrite xorb_comm).
  rewrite !B2SF_SF2B. now rewrite (xorb_comm sx), (Pos.mul_comm mx), (Z.add_comm ex).
Qed.

(** ** Instances and counterexamples *)

Lemma c73_semirings :
  semi_ring_theory (fzero R_ops) (fone R_ops) (fadd R_ops) (fmul R_ops) eq /\
  semi_ring_theory (fzero Z_ops) (fone Z_ops) (fadd Z_ops) (fmul Z_ops) eq /\
  feq R_ops (fzero R_ops) (fzero R_ops) = true /\ feq Z_ops (fzero Z_ops) (fzero Z_ops) = true.
Proof.
  split; [|split; [|split; [apply R_zero_eq|reflexivity]]].
  - constructor; cbn [fzero fone fadd fmul R_ops Z_ops]; intros; ring.
  - constructor; cbn [fzero fone fadd fmul R_ops Z_ops]; intros; ring.
Qed.

Lemma c73_assoc_refuted :
  exists a b d : tensor Z,
    repr a [1; 2] [1; 2]%Z /\ repr b [2; 1] [3; 4]%Z /\ repr d [1; 1] [5]%Z /\
    (let* ab := matmul Z_ops dev a b in matmul Z_ops dev ab d) = Ok (fresh [1; 1] [55]%Z) /\
    (let* bd := matmul Z_ops dev b d in matmul Z_ops dev a bd) = Panic.
Proof.
  exists (fresh [1; 2] [1; 2]%Z), (fresh [2; 1] [3; 4]%Z), (fresh [1; 1] [5]%Z).
  split; [|split; [|split; [|split; reflexivity]]]; apply repr_fresh; try reflexivity;
    split; cbn; lia.
Qed.

Lemma c73_b32_refuted ln_ exp_ pow_ :
  exists a b d : tensor b32,
    repr a [1; 1] [b32_of_Z 1 100] /\ repr b [1; 1] [b32_of_Z 1 100] /\ repr d [1; 1] [b32_of_Z 1 (-100)] /\
    (let* ab := matmul (b32_ops ln_ exp_ pow_) dev a b in
     let* r := matmul (b32_ops ln_ exp_ pow_) dev ab d in Ok (map B2SF (tdata r)))
      = Ok [SpecFloat.S754_infinity false] /\
    (let* bd := matmul (b32_ops ln_ exp_ pow_) dev b d in
     let* r := matmul (b32_ops ln_ exp_ pow_) dev a bd in Ok (map B2SF (tdata r)))
      = Ok [SpecFloat.S754_finite false 8388608 77].
Proof.
  exists (fresh [1; 1] [b32_of_Z 1 100]), (fresh [1; 1] [b32_of_Z 1 100]), (fresh [1; 1] [b32_of_Z 1 (-100)]).
  assert (S : supported [1; 1]) by (split; cbn; lia).
  split; [|split; [|split; [|split; vm_compute; reflexivity]]]; now apply repr_fresh.
Qed.
