(** * Lemmas about the tensor model *)
From Coq Require Import ZifyBool ZifyNat ZifyN.
From Verif Require Import Base ShapeModel TensorModel Spec BaseFacts ShapeFacts CoordFacts.

Ltac Zify.zify_post_hook ::= Z.div_mod_to_equations.

Lemma raw_slice_mid {A} (pre xs post : list A) :
  raw_slice (pre ++ xs ++ post) (length pre) (length xs) = Ok xs.
Proof.
  unfold raw_slice. rewrite !app_length.
  destruct (Nat.leb_spec (length pre + length xs) (length pre + (length xs + length post))); [|lia].
  now rewrite skipn_app_exact, firstn_app_exact.
Qed.

Lemma repr_as_slice {A} (t : tensor A) ds xs : repr t ds xs -> as_slice t = Ok xs.
Proof.
  intros [_ _ Hs _ (pre & post & Hd & Hp) _]. unfold as_slice.
  rewrite Hd, Hs, <- Hp. apply raw_slice_mid.
Qed.

Lemma repr_as_vec {A} c (t : tensor A) ds xs : repr t ds xs -> as_vec c (tshape t) = Ok ds.
Proof. intros [H -> _ _ _ _]. apply as_vec_canon. now apply supported_len. Qed.

Lemma repr_size_prod {A} (t : tensor A) ds xs : repr t ds xs -> tsize t = prod ds.
Proof. intros [_ _ H1 H2 _ _]. congruence. Qed.

Lemma repr_fresh {A} ds (xs : list A) :
  supported ds -> length xs = prod ds -> repr (fresh ds xs) ds xs.
Proof.
  intros H Hl. constructor; auto; cbn.
  - exists [], []. cbn. now rewrite app_nil_r.
  - rewrite Hl. apply supported_prod in H. unfold two32 in H. lia.
Qed.

Lemma repr_unique {A} (t : tensor A) ds xs ds' xs' :
  repr t ds xs -> repr t ds' xs' -> ds = ds' /\ xs = xs'.
Proof.
  intros H H'. pose proof (repr_as_slice _ _ _ H) as E. rewrite (repr_as_slice _ _ _ H') in E.
  split; [|congruence]. apply canon_inj. rewrite <- (repr_shape _ _ _ H).
  apply (repr_shape _ _ _ H').
Qed.

Lemma tensor_new_canon {A} c (xs : list A) ds :
  supported ds ->
  tensor_new c xs (canon ds) = if prod ds =? length xs then Ok (fresh ds xs) else Panic.
Proof.
  intros H. unfold tensor_new. rewrite size_canon by auto. cbn [bind].
  destruct (prod ds =? length xs); reflexivity.
Qed.

Lemma tensor_new_ok {A} c (xs : list A) ds :
  supported ds -> length xs = prod ds -> tensor_new c xs (canon ds) = Ok (fresh ds xs).
Proof.
  intros H Hl. rewrite tensor_new_canon by auto. now rewrite Hl, Nat.eqb_refl.
Qed.

(** An initialiser that fills all [n] cells with the results of a computation [X]. *)
Lemma unsafe_init_filled {A S} c n ds (f : S * buf A -> outcome (S * buf A)) st
      (X : outcome (S * list A)) :
  can_alloc c n -> supported ds -> n = prod ds ->
  f (st, repeat None n) = (let* '(st, vs) := X in Ok (st, map Some vs)) ->
  (forall st vs, X = Ok (st, vs) -> length vs = n) ->
  unsafe_init c n (canon ds) f st = (let* '(st, vs) := X in Ok (st, fresh ds vs)).
Proof.
  intros Hc Hs Hn Hf Hl. unfold unsafe_init. rewrite alloc_ok by (auto; subst n; now apply supported_prod). cbn [bind].
  rewrite Hf. destruct X as [[st' vs]| |]; cbn [bind]; auto.
  rewrite assume_init_some. cbn [bind].
  rewrite tensor_new_ok; auto. rewrite (Hl _ _ eq_refl). congruence.
Qed.

(** An initialiser that performs writes at distinct positions covering the buffer. *)
Lemma unsafe_init_writes {A} c n ds (f : buf A -> outcome (buf A)) (l : list (nat * A)) :
  can_alloc c n -> supported ds -> n = prod ds ->
  f (repeat None n) = run_writes l (repeat None n) ->
  NoDup (map fst l) -> (forall p, In p (map fst l) -> p < n) -> length l = n ->
  exists ys, unsafe_init_ c n (canon ds) f = Ok (fresh ds ys) /\ length ys = n /\
    forall p v, In (p, v) l -> nth_error ys p = Some v.
Proof.
  intros Hc Hs Hn Hf Hnd Hlt Hlen.
  destruct (run_writes_full l n Hnd Hlt Hlen) as (ys & E & Hl & Hv).
  exists ys. repeat split; auto.
  unfold unsafe_init_, unsafe_init. rewrite alloc_ok by (auto; subst n; now apply supported_prod). cbn [bind].
  rewrite Hf, E. cbn [bind]. rewrite assume_init_some. cbn [bind].
  rewrite tensor_new_ok; auto. congruence.
Qed.

(** ** Views *)

Lemma nth_error_data {A} (t : tensor A) ds xs i :
  repr t ds xs -> i < length xs -> nth_error (tdata t) (toffset t + i) = nth_error xs i.
Proof.
  intros [_ _ _ _ (pre & post & -> & <-) _] Hi.
  rewrite nth_error_app2 by lia. rewrite nth_error_app1 by lia. f_equal. lia.
Qed.

Lemma raw_slice_data {A} (t : tensor A) ds xs i n :
  repr t ds xs -> i + n <= length xs ->
  raw_slice (tdata t) (toffset t + i) n = Ok (firstn n (skipn i xs)).
Proof.
  intros [_ _ _ _ (pre & post & -> & <-) _] Hi. unfold raw_slice.
  rewrite !app_length.
  destruct (Nat.leb_spec (length pre + i + n) (length pre + (length xs + length post))); [|lia].
  f_equal. rewrite skipn_app.
  rewrite (skipn_all2 pre) by lia. cbn [app].
  replace (length pre + i - length pre) with i by lia.
  rewrite skipn_app, firstn_app, skipn_length.
  replace (n - (length xs - i)) with 0 by lia. now rewrite firstn_O, app_nil_r.
Qed.

Lemma raw_get_data {A} (t : tensor A) ds xs i v :
  repr t ds xs -> nth_error xs i = Some v -> raw_get (tdata t) (toffset t + i) = Ok v.
Proof.
  intros H Hv. unfold raw_get. rewrite (nth_error_data _ _ _ _ H).
  - now rewrite Hv.
  - now apply nth_error_Some_lt in Hv.
Qed.

Lemma repr_sub {A} (t : tensor A) ds xs o ds' n :
  repr t ds xs -> o + n <= length xs -> n = prod ds' -> supported ds' ->
  repr (mkTensor (canon ds') (toffset t + o) n (tdata t)) ds' (firstn n (skipn o xs)).
Proof.
  intros [_ _ _ _ (pre & post & Hd & Hp) Hm] Ho Hn Hs.
  assert (Hlen : length (firstn n (skipn o xs)) = n).
  { rewrite firstn_length, skipn_length. lia. }
  constructor; cbn; auto; try congruence.
  exists (pre ++ firstn o xs), (skipn n (skipn o xs) ++ post). split.
  - rewrite Hd, <- !app_assoc. f_equal. rewrite (app_assoc (firstn n _)).
    rewrite firstn_skipn, app_assoc, firstn_skipn. reflexivity.
  - rewrite app_length, firstn_length. lia.
Qed.

Lemma repr_offset_bound {A} (t : tensor A) ds xs :
  repr t ds xs -> (Z.of_nat (toffset t + length xs) < two63)%Z.
Proof.
  intros [_ _ _ _ (pre & post & Hd & Hp) Hm].
  rewrite Hd in Hm. rewrite !app_length in Hm. unfold two63. lia.
Qed.

Lemma subslice_flat_canon {A} c (t : tensor A) ds xs o n ds' :
  repr t ds xs -> o + n <= length xs -> supported ds' -> n = prod ds' ->
  subslice_flat c t o n (Ok (canon ds')) =
  Ok (mkTensor (canon ds') (toffset t + o) n (tdata t)).
Proof.
  intros H Ho Hs Hn. unfold subslice_flat.
  pose proof (repr_offset_bound _ _ _ H) as Hb. unfold two63 in Hb.
  rewrite (repr_size _ _ _ H).
  rewrite assert_true by lia. cbn [bind].
  rewrite uadd_ok by (unfold two64; lia). cbn [bind].
  rewrite assert_true by lia. cbn [bind].
  rewrite size_canon by auto. cbn [bind].
  rewrite assert_true by lia. cbn [bind].
  rewrite uadd_ok by (unfold two64; lia). reflexivity.
Qed.

Lemma subslice_canon {A} c (t : tensor A) d ds xs o n :
  repr t (d :: ds) xs -> 0 < n -> o + n <= d -> Forall (fun d => 0 < d) ds ->
  subslice c t o n =
  Ok (mkTensor (canon (n :: ds)) (toffset t + o * prod ds) (n * prod ds) (tdata t)).
Proof.
  intros H Hn Ho Hpos. pose proof H as [Hs Hshape Hsize Hlen _ _].
  pose proof (supported_len _ Hs) as Hl.
  pose proof (prod_pos _ Hpos) as Hpp.
  pose proof (supported_prod _ Hs) as Hp. unfold two32 in Hp. cbn [prod] in Hp, Hlen.
  assert (Hs' : supported (n :: ds)).
  { apply supported_pos; cbn [prod length] in *; [auto | nia |]. unfold two32. nia. }
  unfold subslice. rewrite Hshape.
  rewrite dim_canon by (cbn; auto; lia). cbn [nth bind].
  rewrite uadd_ok by (unfold two64; nia). cbn [bind].
  rewrite assert_true by lia. cbn [bind].
  rewrite as_vec_canon by auto. cbn [bind].
  rewrite aslice_ok by (cbn [length]; lia). cbn [bind].
  cbn [skipn length]. replace (S (length ds) - 1) with (length ds) by lia.
  rewrite firstn_all.
  rewrite product64_ok.
  2: { rewrite prod1_id by auto. unfold two64. nia. }
  rewrite Nat.mul_1_l. cbn [bind]. rewrite aset_ok by (cbn; lia). cbn [bind set_nth].
  rewrite umul_ok by (unfold two64; nia). cbn [bind].
  rewrite umul_ok by (unfold two64; nia). cbn [bind].
  rewrite from_vec_dims_supported; auto.
  eapply subslice_flat_canon; eauto. nia.
Qed.
