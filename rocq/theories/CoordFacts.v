(** * Lemmas about coordinates and row-major positions *)
From Coq Require Import ZifyBool ZifyNat ZifyN.
From Verif Require Import Base ShapeModel TensorModel Spec BaseFacts ShapeFacts.

Ltac Zify.zify_post_hook ::= Z.div_mod_to_equations.

Lemma in_shape_length ds idx : in_shape ds idx -> length idx = length ds.
Proof. unfold in_shape. induction 1; cbn; congruence. Qed.

Lemma in_shape_nil : in_shape [] [].
Proof. constructor. Qed.

Lemma in_shape_cons d ds i idx : in_shape (d :: ds) (i :: idx) <-> i < d /\ in_shape ds idx.
Proof.
  unfold in_shape. split.
  - inversion 1; auto.
  - intros []. now constructor.
Qed.

Lemma in_shape_app a b i j :
  in_shape a i -> in_shape b j -> in_shape (a ++ b) (i ++ j).
Proof. unfold in_shape. intros. now apply Forall2_app. Qed.

Lemma in_shape_app_inv a b i :
  in_shape (a ++ b) i -> in_shape a (firstn (length a) i) /\ in_shape b (skipn (length a) i).
Proof.
  revert i; induction a as [|d a IH]; intros i H; cbn in *.
  - split; [constructor | assumption].
  - destruct i as [|x i]; [inversion H|]. apply in_shape_cons in H. destruct H as [H1 H2].
    apply IH in H2. cbn. split; [apply in_shape_cons|]; tauto.
Qed.

Lemma ravel_lt ds idx : in_shape ds idx -> ravel ds idx < prod ds.
Proof.
  revert idx; induction ds as [|d ds IH]; intros [|i idx] H; cbn; try (inversion H; fail); [lia|].
  apply in_shape_cons in H. destruct H as [H1 H2]. specialize (IH _ H2). nia.
Qed.

Lemma ravel_app a b i j :
  length i = length a -> ravel (a ++ b) (i ++ j) = ravel a i * prod b + ravel b j.
Proof.
  revert i; induction a as [|d a IH]; intros [|x i] H; cbn in *; try lia.
  rewrite IH by lia. rewrite prod_app. lia.
Qed.

Lemma ravel_cons d ds i idx : ravel (d :: ds) (i :: idx) = i * prod ds + ravel ds idx.
Proof. reflexivity. Qed.

Lemma coords_length ds : length (coords ds) = prod ds.
Proof.
  induction ds as [|d ds IH]; cbn; auto.
  rewrite flat_map_concat_map.
  assert (G : forall l, length (concat (map (fun i => map (cons i) (coords ds)) l)) = length l * prod ds).
  { induction l as [|x l IHl]; cbn; auto. rewrite app_length, map_length, IHl, IH. lia. }
  now rewrite G, seq_length.
Qed.

(** Indexing a concatenation of equally long blocks. *)
Lemma nth_error_concat_blocks {A} (ls : list (list A)) n i j :
  (forall l, In l ls -> length l = n) -> j < n ->
  nth_error (concat ls) (i * n + j) =
  match nth_error ls i with Some l => nth_error l j | None => None end.
Proof.
  revert i; induction ls as [|l ls IH]; intros i Hn Hj; cbn.
  - rewrite (proj2 (nth_error_None (@nil A) _)) by (cbn; lia).
    now rewrite (proj2 (nth_error_None (@nil (list A)) _)) by (cbn; lia).
  - assert (length l = n) as Hl by (apply Hn; now left).
    destruct i; cbn.
    + now rewrite nth_error_app1 by lia.
    + rewrite nth_error_app2 by lia.
      replace (n + i * n + j - length l) with (i * n + j) by lia.
      apply IH; auto. intros. apply Hn. now right.
Qed.

Lemma nth_error_flat_map_blocks {A} (f : nat -> list A) d n i j :
  (forall k, length (f k) = n) -> j < n ->
  nth_error (flat_map f (seq 0 d)) (i * n + j) = if i <? d then nth_error (f i) j else None.
Proof.
  intros Hn Hj. rewrite flat_map_concat_map.
  rewrite (nth_error_concat_blocks _ n); auto.
  - rewrite nth_error_map. destruct (Nat.ltb_spec i d).
    + now rewrite nth_error_seq.
    + now rewrite (proj2 (nth_error_None _ _)) by (rewrite seq_length; lia).
  - intros l Hl. apply in_map_iff in Hl. destruct Hl as (k & <- & _). auto.
Qed.

Lemma coords_nth ds idx :
  in_shape ds idx -> nth_error (coords ds) (ravel ds idx) = Some idx.
Proof.
  revert idx; induction ds as [|d ds IH]; intros [|i idx] H; try (inversion H; fail); auto.
  apply in_shape_cons in H. destruct H as [H1 H2]. cbn [coords ravel].
  pose proof (ravel_lt _ _ H2).
  rewrite (nth_error_flat_map_blocks _ d (prod ds)); auto.
  - destruct (Nat.ltb_spec i d); [|lia]. rewrite nth_error_map, IH; auto.
  - intros. now rewrite map_length, coords_length.
Qed.

Lemma coords_in ds idx : In idx (coords ds) <-> in_shape ds idx.
Proof.
  split.
  - revert idx; induction ds as [|d ds IH]; cbn; intros idx H.
    + destruct H as [<-|[]]. constructor.
    + apply in_flat_map in H. destruct H as (i & Hi & H). apply in_seq in Hi.
      apply in_map_iff in H. destruct H as (j & <- & Hj). apply in_shape_cons. split; [lia|auto].
  - intros H. eapply nth_error_In. now apply coords_nth.
Qed.

Lemma coords_nth_inv ds k idx :
  nth_error (coords ds) k = Some idx -> in_shape ds idx /\ ravel ds idx = k.
Proof.
  revert k idx; induction ds as [|d ds IH]; intros k idx H.
  - destruct k; cbn in H; [|now destruct k]. injection H as <-. split; [constructor|reflexivity].
  - assert (Hk : k < prod (d :: ds)).
    { rewrite <- coords_length. now apply nth_error_Some_lt in H. }
    cbn [prod] in Hk. assert (Hp : prod ds <> 0) by nia.
    rewrite (Nat.div_mod k (prod ds)) in H by auto. rewrite Nat.mul_comm in H.
    pose proof (Nat.mod_upper_bound k (prod ds) Hp) as Hm.
    cbn [coords] in H. rewrite (nth_error_flat_map_blocks _ d (prod ds)) in H; auto.
    2: { intros. now rewrite map_length, coords_length. }
    destruct (Nat.ltb_spec (k / prod ds) d) as [Hlt|]; [|discriminate].
    rewrite nth_error_map in H.
    destruct (nth_error (coords ds) (k mod prod ds)) as [j|] eqn:E; cbn in H; [|discriminate].
    injection H as <-. apply IH in E. destruct E as [E1 E2].
    split; [apply in_shape_cons; auto|]. cbn [ravel]. rewrite E2.
    rewrite (Nat.div_mod k (prod ds)) at 3 by auto. lia.
Qed.

(** Every position below the element count is the position of some coordinate. *)
Lemma unravel ds k : k < prod ds -> exists idx, in_shape ds idx /\ ravel ds idx = k.
Proof.
  intros H. rewrite <- coords_length in H. apply nth_error_lt_ex in H. destruct H as [idx H].
  exists idx. now apply coords_nth_inv.
Qed.

Lemma ravel_inj ds i j : in_shape ds i -> in_shape ds j -> ravel ds i = ravel ds j -> i = j.
Proof.
  intros Hi Hj H. apply coords_nth in Hi. apply coords_nth in Hj. congruence.
Qed.

(** Lists of the right length are determined by their elements at coordinates. *)
Lemma elem_ext {A} ds (xs ys : list A) :
  length xs = prod ds -> length ys = prod ds ->
  (forall idx, in_shape ds idx -> elem ds xs idx = elem ds ys idx) -> xs = ys.
Proof.
  intros Hx Hy H. apply nth_error_ext. intros k.
  destruct (Nat.lt_ge_cases k (prod ds)) as [Hk|Hk].
  - destruct (unravel ds k Hk) as (idx & Hi & <-). now apply H.
  - rewrite !(proj2 (nth_error_None _ _)); auto; lia.
Qed.

Lemma elem_some {A} ds (xs : list A) idx :
  length xs = prod ds -> in_shape ds idx -> exists v, elem ds xs idx = Some v.
Proof. intros Hx Hi. apply nth_error_lt_ex. rewrite Hx. now apply ravel_lt. Qed.

(** A position modulo the size of the trailing dimensions is the position of the
    trailing part of the coordinate. *)
Lemma ravel_suffix a b idx :
  in_shape (a ++ b) idx -> ravel (a ++ b) idx mod prod b = ravel b (skipn (length a) idx).
Proof.
  intros H. pose proof (in_shape_app_inv _ _ _ H) as [H1 H2].
  rewrite <- (firstn_skipn (length a) idx) at 1.
  rewrite ravel_app by (now apply in_shape_length in H1).
  pose proof (ravel_lt _ _ H2). rewrite Nat.add_comm, Nat.mod_add by lia.
  now apply Nat.mod_small.
Qed.

(** Blocks: mixed-radix uniqueness. *)
Lemma radix_inj n a b a' b' : b < n -> b' < n -> a * n + b = a' * n + b' -> a = a' /\ b = b'.
Proof. intros. assert (a = a') by nia. subst. lia. Qed.
