(** * Properties C11-C21: building, viewing, indexing, joining and comparing tensors: proofs *)
From Coq Require Import ZifyBool ZifyNat.
From Verif Require Import Base ShapeModel TensorModel NumModel Spec BaseFacts ShapeFacts
  ShapeFacts2 CoordFacts TensorFacts TensorFacts2 ShapeSpec ShapeProofs.
From Verif Require Import TensorSpec.

Ltac Zify.zify_post_hook ::= Z.div_mod_to_equations.

(** ** C11 *)

Lemma c11_from_vec {A} c (xs : list A) ds :
  supported ds ->
  (length xs = prod ds ->
     exists t, from_vec c xs (canon ds) = Ok t /\ repr t ds xs) /\
  (length xs <> prod ds -> from_vec c xs (canon ds) = Panic).
Proof.
  intros Hs. unfold from_vec. split; intros H.
  - exists (fresh ds xs). rewrite tensor_new_ok by auto. auto using repr_fresh.
  - rewrite tensor_new_canon by auto. destruct (Nat.eqb_spec (prod ds) (length xs)); congruence.
Qed.

Lemma c11_observe {A} c (t : tensor A) ds xs :
  repr t ds xs -> as_vec c (tshape t) = Ok ds /\ as_slice t = Ok xs /\ tsize t = length xs.
Proof.
  intros H. repeat split; eauto using repr_as_vec, repr_as_slice. apply (repr_size _ _ _ H).
Qed.

Lemma c11_unique {A} (t : tensor A) ds xs ds' xs' :
  repr t ds xs -> repr t ds' xs' -> ds = ds' /\ xs = xs'.
Proof. exact (repr_unique t ds xs ds' xs'). Qed.

Lemma c11_scalar {A} c (v : A) :
  exists t, of_value c v = Ok t /\ from_scalar c v = Ok t /\ repr t [] [v].
Proof.
  exists (fresh [] [v]). split; [reflexivity|]. split; [reflexivity|].
  apply repr_fresh; auto using supported_nil.
Qed.

Lemma c11_option {A} c (o : option A) :
  exists t, of_option c o = Ok t /\
    match o with Some v => repr t [] [v] | None => repr t [0] [] end.
Proof.
  destruct o as [v|].
  - destruct (c11_scalar c v) as (t & H & _ & Hr). exists t. split; auto.
  - exists (fresh [0] []). split; [reflexivity|]. apply repr_fresh; [|reflexivity].
    split; cbn; lia.
Qed.

Lemma supported1 n : (Z.of_nat n < 4294967296)%Z -> supported [n].
Proof. intros. split; cbn; [lia|]. rewrite Nat.mul_1_r. lia. Qed.

Lemma c11_items {A} c (xs : list A) :
  (Z.of_nat (length xs) < 4294967296)%Z ->
  exists t, of_vec c xs = Ok t /\ repr t [length xs] xs.
Proof.
  intros H. exists (fresh [length xs] xs). unfold of_vec. rewrite from_usize_canon. cbn [bind].
  rewrite as_u32_small by auto. unfold from_vec.
  rewrite tensor_new_ok; auto using supported1, repr_fresh.
  - split; auto. apply repr_fresh; auto using supported1. cbn. lia.
  - cbn. lia.
Qed.

Lemma c11_from_slice {A} c (xs : list A) :
  (Z.of_nat (length xs) < 4294967296)%Z -> can_alloc c (length xs) ->
  exists t, from_slice c xs = Ok t /\ repr t [length xs] xs.
Proof.
  intros H Ha. exists (fresh [length xs] xs). split.
  2: { apply repr_fresh; auto using supported1. cbn; lia. }
  unfold from_slice. rewrite from_usize_canon. cbn [bind]. rewrite as_u32_small by auto.
  unfold unsafe_init_. erewrite unsafe_init_filled with (X := Ok (tt, xs)); auto.
  - now apply supported1.
  - cbn. lia.
  - cbn [bind].
    destruct (for_inv (fun k (o : buf A) =>
        o = map Some (firstn k xs) ++ repeat None (length xs - k)) (length xs)
        (fun i o => let* v := aget xs i in write o i v) (repeat None (length xs)))
      as (o & E & Ho).
    + intros k o Hk ->. destruct (nth_error_lt_ex xs k Hk) as [v Hv].
      exists (map Some (firstn k xs ++ [v]) ++ repeat None (length xs - S k)). split.
      * rewrite (aget_ok _ _ _ Hv). cbn [bind].
        replace (length xs - k) with (S (length xs - S k)) by lia.
        rewrite <- write_next. f_equal. rewrite firstn_length. lia.
      * f_equal. f_equal. apply nth_error_split in Hv. destruct Hv as (l1 & l2 & -> & <-).
        rewrite firstn_app_exact. replace (S (length l1)) with (length (l1 ++ [v]))
          by (rewrite app_length; cbn; lia).
        change (l1 ++ v :: l2) with (l1 ++ ([v] ++ l2)). rewrite app_assoc.
        now rewrite firstn_app_exact.
    + cbn [firstn map app]. now rewrite Nat.sub_0_r.
    + rewrite E. cbn [bind]. rewrite Ho, firstn_all, Nat.sub_diag. cbn [repeat].
      now rewrite app_nil_r.
  - now intros ? ? [= _ <-].
Qed.

(** ** C12 *)

Lemma rect2_concat {A} m n (v : list (list A)) : rect2 m n v -> length (concat v) = m * n.
Proof. intros [<- H]. now apply concat_length_const. Qed.

Lemma rect2_at {A} m n (v : list (list A)) i j :
  rect2 m n v -> j < n -> nth_error (concat v) (i * n + j) = at2 v i j.
Proof.
  intros [_ H] Hj. rewrite (nth_error_concat_blocks _ n); auto.
  intros l Hl. rewrite Forall_forall in H. auto.
Qed.

Lemma rect3_rows {A} l m n (v : list (list (list A))) : rect3 l m n v -> rect2 (l * m) n (concat v).
Proof.
  intros [<- H]. split.
  - rewrite (concat_length_const m); auto.
    eapply Forall_impl; [|exact H]. now intros a [].
  - induction H as [|p v [_ Hp] _ IH]; cbn; auto. now apply Forall_app.
Qed.

Lemma rect4_planes {A} k l m n (v : list (list (list (list A)))) :
  rect4 k l m n v -> rect3 (k * l) m n (concat v).
Proof.
  intros [<- H]. split.
  - rewrite (concat_length_const l); auto. eapply Forall_impl; [|exact H]. now intros a [].
  - induction H as [|p v [_ Hp] _ IH]; cbn; auto. now apply Forall_app.
Qed.

Lemma rect3_at {A} l m n (v : list (list (list A))) i j k :
  rect3 l m n v -> j < m -> k < n ->
  nth_error (concat (concat v)) ((i * m + j) * n + k) = at3 v i j k.
Proof.
  intros H Hj Hk. rewrite (rect2_at (l * m)); auto using rect3_rows.
  unfold at2, at3. destruct H as [_ H].
  rewrite (nth_error_concat_blocks _ m); auto.
  - unfold at2. now destruct (nth_error v i).
  - intros p Hp. rewrite Forall_forall in H. apply H in Hp. apply Hp.
Qed.

Lemma rect4_at {A} l0 l m n (v : list (list (list (list A)))) h i j k :
  rect4 l0 l m n v -> i < l -> j < m -> k < n ->
  nth_error (concat (concat (concat v))) (((h * l + i) * m + j) * n + k) = at4 v h i j k.
Proof.
  intros H Hi Hj Hk. rewrite (rect3_at (l0 * l) m n); auto using rect4_planes.
  unfold at3, at4. destruct H as [_ H].
  rewrite (nth_error_concat_blocks _ l); auto.
  - unfold at3. now destruct (nth_error v h).
  - intros p Hp. rewrite Forall_forall in H. apply H in Hp. apply Hp.
Qed.

Lemma forallb_rect1 {A} n (v : list (list A)) :
  forallb (fun r => n =? length r) v = true <-> Forall (fun r => length r = n) v.
Proof.
  rewrite forallb_forall, Forall_forall. split; intros H x Hx; apply H in Hx; lia.
Qed.

Lemma forallb_rect2 {A} m n (v : list (list (list A))) :
  forallb (fun p => (m =? length p) && forallb (fun r => n =? length r) p) v = true
  <-> Forall (rect2 m n) v.
Proof.
  rewrite forallb_forall, Forall_forall. split; intros H x Hx; apply H in Hx.
  - apply andb_true_iff in Hx. rewrite forallb_rect1 in Hx. unfold rect2. intuition lia.
  - apply andb_true_iff. rewrite forallb_rect1. unfold rect2 in Hx. intuition lia.
Qed.

Lemma forallb_rect3 {A} l m n (v : list (list (list (list A)))) :
  forallb (fun q => (l =? length q) &&
     forallb (fun p => (m =? length p) && forallb (fun r => n =? length r) p) q) v = true
  <-> Forall (rect3 l m n) v.
Proof.
  rewrite forallb_forall, Forall_forall. split; intros H x Hx; apply H in Hx.
  - apply andb_true_iff in Hx. rewrite forallb_rect2 in Hx. unfold rect3. intuition lia.
  - apply andb_true_iff. rewrite forallb_rect2. unfold rect3 in Hx. intuition lia.
Qed.

Lemma c12_vec2 {A} c (v : list (list A)) m n :
  rect2 m n v -> 0 < m -> supported [m; n] ->
  exists t xs, of_vec2 c v = Ok t /\ repr t [m; n] xs /\
    forall i j, i < m -> j < n -> elem [m; n] xs [i; j] = at2 v i j.
Proof.
  intros H Hm Hs. exists (fresh [m; n] (concat v)), (concat v).
  assert (Hl : length (concat v) = prod [m; n]) by (rewrite (rect2_concat m n); auto; cbn; lia).
  split; [|split; [now apply repr_fresh|]].
  - unfold of_vec2. destruct v as [|r v]; [destruct H; cbn in *; lia|].
    cbn [aget nth_error bind]. destruct H as [H1 H2].
    assert (length r = n) as -> by (now inversion H2).
    rewrite collect_rows. rewrite (proj2 (forallb_rect1 n (r :: v))) by auto.
    cbn [bind app]. rewrite H1, from_slice_dims_supported by auto. cbn [bind].
    now apply tensor_new_ok.
  - intros i j Hi Hj. unfold elem. cbn [ravel prod].
    rewrite <- (rect2_at m n) by auto. f_equal. lia.
Qed.

Lemma c12_vec2_rejects {A} c (v : list (list A)) :
  v = [] \/ ~ rect2 (length v) (length (hd [] v)) v -> of_vec2 c v = Panic.
Proof.
  intros [->|H]; [reflexivity|]. unfold of_vec2. destruct v as [|r v]; [reflexivity|].
  cbn [aget nth_error bind hd] in *. rewrite collect_rows.
  destruct (forallb _ (r :: v)) eqn:E; [|reflexivity].
  exfalso. apply H. split; auto. now apply forallb_rect1.
Qed.

Lemma c12_vec3 {A} c (v : list (list (list A))) l m n :
  rect3 l m n v -> 0 < l -> 0 < m -> supported [l; m; n] ->
  exists t xs, of_vec3 c v = Ok t /\ repr t [l; m; n] xs /\
    forall i j k, i < l -> j < m -> k < n -> elem [l; m; n] xs [i; j; k] = at3 v i j k.
Proof.
  intros H Hl0 Hm Hs. exists (fresh [l; m; n] (concat (concat v))), (concat (concat v)).
  assert (Hl : length (concat (concat v)) = prod [l; m; n]).
  { rewrite (rect2_concat (l * m) n); auto using rect3_rows. cbn; lia. }
  split; [|split; [now apply repr_fresh|]].
  - unfold of_vec3. destruct v as [|p v]; [destruct H; cbn in *; lia|].
    cbn [aget nth_error bind]. destruct H as [H1 H2].
    assert (Hp : rect2 m n p) by now inversion H2.
    destruct p as [|r p]; [destruct Hp; cbn in *; lia|].
    cbn [aget nth_error bind]. destruct Hp as [Hp1 Hp2].
    assert (length r = n) as -> by (now inversion Hp2). rewrite Hp1.
    rewrite collect_rows3. rewrite (proj2 (forallb_rect2 m n ((r :: p) :: v))) by auto.
    cbn [bind app]. rewrite H1, from_slice_dims_supported by auto. cbn [bind].
    now apply tensor_new_ok.
  - intros i j k Hi Hj Hk. unfold elem. cbn [ravel prod].
    rewrite <- (rect3_at l m n) by auto. f_equal. lia.
Qed.

Lemma c12_vec3_rejects {A} c (v : list (list (list A))) :
  v = [] \/ hd [] v = [] \/
  ~ rect3 (length v) (length (hd [] v)) (length (hd [] (hd [] v))) v ->
  of_vec3 c v = Panic.
Proof.
  intros H. unfold of_vec3. destruct v as [|p v]; [reflexivity|].
  destruct p as [|r p]; [reflexivity|]. destruct H as [H|[H|H]]; try discriminate.
  cbn [aget nth_error bind hd] in *. rewrite collect_rows3.
  destruct (forallb _ ((r :: p) :: v)) eqn:E; [|reflexivity].
  exfalso. apply H. split; auto. now apply forallb_rect2.
Qed.

Lemma c12_vec4 {A} c (v : list (list (list (list A)))) k l m n :
  rect4 k l m n v -> 0 < k -> 0 < l -> 0 < m -> supported [k; l; m; n] ->
  exists t xs, of_vec4 c v = Ok t /\ repr t [k; l; m; n] xs /\
    forall g h i j, g < k -> h < l -> i < m -> j < n ->
      elem [k; l; m; n] xs [g; h; i; j] = at4 v g h i j.
Proof.
  intros H Hk Hl0 Hm Hs.
  exists (fresh [k; l; m; n] (concat (concat (concat v)))), (concat (concat (concat v))).
  assert (Hl : length (concat (concat (concat v))) = prod [k; l; m; n]).
  { rewrite (rect2_concat (k * l * m) n).
    - cbn; lia.
    - apply rect3_rows. now apply rect4_planes. }
  split; [|split; [now apply repr_fresh|]].
  - unfold of_vec4. destruct v as [|q v]; [destruct H; cbn in *; lia|].
    cbn [aget nth_error bind]. destruct H as [H1 H2].
    assert (Hq : rect3 l m n q) by now inversion H2.
    destruct q as [|p q]; [destruct Hq; cbn in *; lia|].
    cbn [aget nth_error bind]. destruct Hq as [Hq1 Hq2].
    assert (Hp : rect2 m n p) by now inversion Hq2.
    destruct p as [|r p]; [destruct Hp; cbn in *; lia|].
    cbn [aget nth_error bind]. destruct Hp as [Hp1 Hp2].
    assert (length r = n) as -> by (now inversion Hp2). rewrite Hp1, Hq1.
    rewrite collect_rows4. rewrite (proj2 (forallb_rect3 l m n _)) by auto.
    cbn [bind app]. rewrite H1, from_slice_dims_supported by auto. cbn [bind].
    now apply tensor_new_ok.
  - intros g h i j Hg Hh Hi Hj. unfold elem. cbn [ravel prod].
    rewrite <- (rect4_at k l m n) by auto. f_equal. lia.
Qed.

Lemma c12_vec4_rejects {A} c (v : list (list (list (list A)))) :
  v = [] \/ hd [] v = [] \/ hd [] (hd [] v) = [] \/
  ~ rect4 (length v) (length (hd [] v)) (length (hd [] (hd [] v)))
      (length (hd [] (hd [] (hd [] v)))) v ->
  of_vec4 c v = Panic.
Proof.
  intros H. unfold of_vec4. destruct v as [|q v]; [reflexivity|].
  destruct q as [|p q]; [reflexivity|]. destruct p as [|r p]; [reflexivity|].
  destruct H as [H|[H|[H|H]]]; try discriminate.
  cbn [aget nth_error bind hd] in *. rewrite collect_rows4.
  destruct (forallb _ (((r :: p) :: q) :: v)) eqn:E; [|reflexivity].
  exfalso. apply H. split; auto. now apply forallb_rect3.
Qed.

Lemma c12_rows {A} c (v : list (list A)) m n :
  rect2 m n v -> supported [m; n] ->
  exists t, of_rows c n v = Ok t /\ repr t [m; n] (concat v).
Proof.
  intros H Hs. exists (fresh [m; n] (concat v)).
  assert (Hl : length (concat v) = prod [m; n]) by (rewrite (rect2_concat m n); auto; cbn; lia).
  split; [|now apply repr_fresh]. unfold of_rows. destruct H as [-> _].
  rewrite from_slice_dims_supported by auto. now apply tensor_new_ok.
Qed.

Lemma c12_rows2 {A} c (v : list (list (list A))) l m n :
  rect3 l m n v -> supported [l; m; n] ->
  exists t, of_rows2 c m n v = Ok t /\ repr t [l; m; n] (concat (concat v)).
Proof.
  intros H Hs. exists (fresh [l; m; n] (concat (concat v))).
  assert (Hl : length (concat (concat v)) = prod [l; m; n]).
  { rewrite (rect2_concat (l * m) n); auto using rect3_rows. cbn; lia. }
  split; [|now apply repr_fresh]. unfold of_rows2. destruct H as [-> _].
  rewrite from_slice_dims_supported by auto. now apply tensor_new_ok.
Qed.

(** ** C13 *)

Lemma c13_subslice {A} c (t : tensor A) d ds xs o n :
  repr t (d :: ds) xs -> positive ds -> 0 < n -> o + n <= d ->
  exists t' ys, subslice c t o n = Ok t' /\ repr t' (n :: ds) ys /\
    tdata t' = tdata t /\
    (forall i idx, i < n -> in_shape ds idx ->
       elem (n :: ds) ys (i :: idx) = elem (d :: ds) xs (o + i :: idx)) /\
    ys = firstn (n * prod ds) (skipn (o * prod ds) xs).
Proof.
  intros H Hpos Hn Ho. eexists. exists (firstn (n * prod ds) (skipn (o * prod ds) xs)).
  pose proof (repr_len _ _ _ H) as Hlen. cbn [prod] in Hlen.
  pose proof (repr_supported _ _ _ H) as Hs.
  pose proof (supported_prod _ Hs) as Hp. cbn [prod] in Hp.
  pose proof (prod_pos _ Hpos) as Hpp.
  split; [now eapply subslice_canon; eauto|]. split; [|split; [reflexivity|split; [|reflexivity]]].
  - apply repr_sub with (ds := d :: ds); auto.
    + nia.
    + apply supported_pos; cbn [prod].
      * apply supported_len in Hs. exact Hs.
      * nia.
      * unfold two32 in *. nia.
  - intros i idx Hi Hidx. unfold elem. cbn [ravel].
    pose proof (ravel_lt _ _ Hidx).
    rewrite nth_error_firstn, nth_error_skipn.
    destruct (Nat.ltb_spec (i * prod ds + ravel ds idx) (n * prod ds)); [|nia].
    f_equal. nia.
Qed.

Lemma c13_subslice_rejects {A} c (t : tensor A) d ds xs o n :
  repr t (d :: ds) xs -> (Z.of_nat o + Z.of_nat n < 18446744073709551616)%Z ->
  n = 0 \/ d < o + n \/ ~ positive ds -> subslice c t o n = Panic.
Proof.
  intros H Hw Hbad. pose proof (repr_supported _ _ _ H) as Hs.
  pose proof (supported_len _ Hs) as Hl. pose proof (repr_len _ _ _ H) as Hlen.
  unfold subslice. rewrite (repr_shape _ _ _ H).
  rewrite dim_canon by (cbn; auto; lia). cbn [nth bind].
  rewrite uadd_ok by exact Hw. cbn [bind]. unfold assert_ at 1.
  destruct (Nat.leb_spec (o + n) d) as [Hle|]; [|reflexivity]. cbn [bind].
  rewrite as_vec_canon by auto. cbn [bind].
  rewrite aslice_ok by (cbn [length]; lia). cbn [bind skipn length].
  replace (S (length ds) - 1) with (length ds) by lia. rewrite firstn_all.
  pose proof (supported_prod1 _ Hs) as Hp1. rewrite prod1_cons in Hp1. unfold two32 in Hp1.
  pose proof (prod1_pos ds). pose proof (prod_le_prod1 ds) as Hpl.
  rewrite product64_ok by (unfold two64; nia). rewrite Nat.mul_1_l. cbn [bind].
  rewrite aset_ok by (cbn; lia). cbn [bind set_nth].
  rewrite umul_ok by (unfold two64; nia). cbn [bind].
  rewrite umul_ok by (unfold two64; nia). cbn [bind].
  assert (Hz : from_vec_dims (n :: ds) = Panic).
  { apply from_vec_dims_zero. destruct Hbad as [->|[Hb|Hb]]; [now left|lia|].
    right. unfold positive in Hb. rewrite Forall_forall in Hb.
    destruct (in_dec Nat.eq_dec 0 ds) as [|Hn]; auto. exfalso. apply Hb.
    intros x Hx. destruct x; [easy|lia]. }
  rewrite Hz. unfold subslice_flat, assert_. cbn [prod] in Hlen. rewrite (repr_size _ _ _ H).
  destruct (_ <=? _); [|reflexivity]. cbn [bind].
  rewrite uadd_ok by (unfold two64; nia). cbn [bind].
  destruct (_ <=? _); reflexivity.
Qed.

Lemma c13_subslice_subslice {A} c (t : tensor A) d ds xs o n o2 n2 :
  repr t (d :: ds) xs -> positive ds -> 0 < n -> o + n <= d -> 0 < n2 -> o2 + n2 <= n ->
  (let* u := subslice c t o n in subslice c u o2 n2) = subslice c t (o + o2) n2.
Proof.
  intros H Hpos Hn Ho Hn2 Ho2.
  destruct (c13_subslice c t d ds xs o n H Hpos Hn Ho) as (u & ys & E & Hu & _ & _).
  rewrite E. cbn [bind].
  rewrite (subslice_canon c u n ds ys o2 n2) by auto.
  rewrite (subslice_canon c t d ds xs (o + o2) n2) by (auto; lia).
  rewrite (subslice_canon c t d ds xs o n) in E by auto. injection E as <-.
  cbn [toffset tdata]. f_equal. f_equal. lia.
Qed.

(** ** C14 *)

Lemma c14_checked {A} c (t : tensor A) d ds xs o n :
  repr t (d :: ds) xs -> overflow_checks c = true -> d < o + n ->
  (Z.of_nat o < 18446744073709551616)%Z -> (Z.of_nat n < 18446744073709551616)%Z ->
  subslice c t o n = Panic.
Proof.
  intros H Hc Hd _ _. pose proof (supported_len _ (repr_supported _ _ _ H)) as Hl.
  unfold subslice. rewrite (repr_shape _ _ _ H).
  rewrite dim_canon by (cbn; auto; lia). cbn [nth bind].
  destruct (Z.lt_ge_cases (Z.of_nat o + Z.of_nat n) two64) as [Hw|Hw].
  - rewrite uadd_ok by auto. cbn [bind]. rewrite assert_false by lia. reflexivity.
  - unfold uadd. rewrite arith_panic; auto. lia.
Qed.

Lemma c14_release_refuted :
  exists (t : tensor nat) o n t', repr t [1; 2] [10; 20] /\ 1 < o + n /\
    (Z.of_nat o < 18446744073709551616)%Z /\ (Z.of_nat n < 18446744073709551616)%Z /\
    subslice release t o n = Ok t' /\ as_slice t' = Ok [10; 20].
Proof.
  exists (fresh [1; 2] [10; 20]).
  destruct (Z_of_nat_complete 9223372036854775808) as [o Ho]; [lia|]. symmetry in Ho.
  destruct (Z_of_nat_complete 9223372036854775809) as [n Hn]; [lia|]. symmetry in Hn.
  exists o, n, (fresh [1; 2] [10; 20]).
  split; [apply repr_fresh; [split; cbn; lia|reflexivity]|].
  split; [lia|]. split; [lia|]. split; [lia|]. split; [|reflexivity].
  unfold subslice. change (dim release (tshape (fresh [1; 2] [10; 20])) 0) with (Ok 1).
  cbn [bind].
  unfold uadd at 1. rewrite arith_wrap; [|unfold two64; lia|reflexivity]. cbn [bind].
  rewrite Ho, Hn. change (Z.to_nat _ <=? 1) with true. cbn [assert_ bind].
  change (as_vec release (tshape (fresh [1; 2] [10; 20]))) with (Ok [1; 2]). cbn [bind].
  change (aslice [1; 2] 1 (length [1; 2])) with (Ok [2]). cbn [bind].
  change (product64 release 1 [2]) with (Ok 2). cbn [bind].
  change (aset [1; 2] 0 n) with (Ok [n; 2]). cbn [bind].
  unfold umul at 1. rewrite arith_wrap; [|unfold two64; lia|reflexivity]. cbn [bind].
  unfold umul at 1. rewrite arith_wrap; [|unfold two64; lia|reflexivity]. cbn [bind].
  rewrite Ho, Hn.
  assert (E : from_vec_dims [n; 2] = Ok (canon [1; 2])).
  { rewrite from_vec_dims_canon.
    - cbn [map]. assert (as_u32 n = 1) as ->; [|reflexivity].
      unfold as_u32. rewrite Hn. reflexivity.
    - cbn; lia.
    - repeat constructor; lia. }
  rewrite E. reflexivity.
Qed.

(** ** C15 *)

Lemma c15_get_partial {A} c (t : tensor A) ds xs i :
  repr t ds xs -> toffset t = 0 -> get c t i = Ok (nth_error xs i).
Proof.
  intros H H0. unfold get. rewrite (repr_size _ _ _ H), H0.
  destruct (Nat.ltb_spec i (length xs)) as [Hi|Hi].
  - destruct (nth_error_lt_ex xs i Hi) as [v Hv]. rewrite Hv.
    pose proof (repr_offset_bound _ _ _ H) as Hb. unfold two63 in Hb.
    rewrite uadd_ok by (unfold two64; lia). cbn [bind].
    replace (0 + (i + 0)) with (toffset t + i) by lia.
    now rewrite (raw_get_data _ _ _ _ _ H Hv).
  - now rewrite (proj2 (nth_error_None _ _)).
Qed.

(* Missing: views with a non-zero offset, where the claim is false: *)

Lemma c15_refuted :
  exists t : tensor nat, subslice dev (fresh [4; 1] [10; 20; 30; 40]) 1 3 = Ok t /\
    repr t [3; 1] [20; 30; 40] /\
    get dev t 0 = Ok (Some 30) /\ get dev t 2 = Ub.
Proof.
  eexists. split; [reflexivity|]. split; [|split; reflexivity].
  constructor; try reflexivity.
  - split; cbn; lia.
  - exists [10], []. split; reflexivity.
Qed.

Lemma c15_get_actual {A} c (t : tensor A) ds xs i :
  repr t ds xs -> i < length xs ->
  get c t i = match nth_error (tdata t) (2 * toffset t + i) with
              | Some v => Ok (Some v) | None => Ub end.
Proof.
  intros H Hi. unfold get. rewrite (repr_size _ _ _ H).
  destruct (Nat.ltb_spec i (length xs)); [|lia].
  pose proof (repr_offset_bound _ _ _ H) as Hb. unfold two63 in Hb.
  rewrite uadd_ok by (unfold two64; lia). cbn [bind]. unfold raw_get.
  replace (toffset t + (i + toffset t)) with (2 * toffset t + i) by lia.
  now destruct (nth_error _ _).
Qed.

(** ** C16 *)

Lemma c16_index1 {A} (t : tensor A) ds xs i :
  repr t ds xs ->
  index1 t i = match nth_error xs i with Some v => Ok v | None => Panic end.
Proof.
  intros H. unfold index1. rewrite (repr_size _ _ _ H).
  destruct (Nat.lt_ge_cases i (length xs)) as [Hi|Hi].
  - rewrite assert_true by lia. cbn [bind].
    destruct (nth_error_lt_ex xs i Hi) as [v Hv]. rewrite Hv.
    now apply (raw_get_data _ _ _ _ _ H).
  - rewrite assert_false by lia. now rewrite (proj2 (nth_error_None _ _)).
Qed.

Ltac use_dims H :=
  rewrite (repr_shape _ _ _ H);
  rewrite ?(rdim_canon _ _ (supported_len _ (repr_supported _ _ _ H))) by (cbn; lia);
  cbn [rdim canon dims rank length nth bind rev app repeat aget nth_error].

Lemma rank3_pos d0 d1 d2 i j k :
  i < d0 -> j < d1 -> k < d2 -> k + d2 * (j + d1 * i) < d0 * (d1 * (d2 * 1)).
Proof.
  intros. assert (j + d1 * i < d0 * d1) by nia.
  replace (d0 * (d1 * (d2 * 1))) with (d0 * d1 * d2) by lia. nia.
Qed.

(** One step of the offset's computation. *)
Lemma flat_ok {B} c x d p (K : nat -> outcome B) : (Z.of_nat (x + d * p) < two64)%Z ->
  (let* q := umul c d p in let* r := uadd c x q in K r) = K (x + d * p).
Proof.
  intros H. rewrite umul_ok by lia. cbn [bind]. rewrite uadd_ok by lia. reflexivity.
Qed.
Lemma flat_le x d p : x < d -> p <= x + d * p.
Proof. intros. nia. Qed.

Lemma c16_index3_partial {A} c (t : tensor A) d0 d1 d2 xs i j k :
  repr t [d0; d1; d2] xs -> 2 < length xs ->
  index3 c t i j k = at_or_panic [d0; d1; d2] xs [i; j; k].
Proof.
  intros H H2. unfold index3, at_or_panic. rewrite (repr_shape _ _ _ H).
  pose proof (repr_len _ _ _ H) as Hl. cbn [prod] in Hl.
  rewrite size_canon by apply H. cbn [bind]. cbn [prod].
  rewrite assert_true by (rewrite <- Hl; lia). cbn [bind].
  change (rdim (canon [d0; d1; d2]) 2) with (Ok d0).
  change (rdim (canon [d0; d1; d2]) 1) with (Ok d1).
  change (rdim (canon [d0; d1; d2]) 0) with (Ok d2).
  cbn [bind combine forallb fst snd]. unfold assert_ at 1.
  destruct (Nat.ltb_spec i d0); [|reflexivity]. cbn [bind andb]. unfold assert_ at 1.
  destruct (Nat.ltb_spec j d1); [|reflexivity]. cbn [bind andb]. unfold assert_ at 1.
  destruct (Nat.ltb_spec k d2); [|reflexivity]. cbn [bind andb].
  pose proof (rank3_pos d0 d1 d2 i j k) as Hp.
  pose proof (supported_prod _ (repr_supported _ _ _ H)) as Hs. cbn [prod] in Hs.
  pose proof (flat_le k d2 (j + d1 * i)).
  unfold two32 in Hs. rewrite !flat_ok by (unfold two64; lia).
  rewrite (c16_index1 t [d0; d1; d2] xs) by auto. unfold elem. cbn [ravel prod].
  replace (k + d2 * (j + d1 * i)) with (i * (d1 * (d2 * 1)) + (j * (d2 * 1) + (k * 1 + 0))) in * by lia.
  destruct (nth_error_lt_ex xs (i * (d1 * (d2 * 1)) + (j * (d2 * 1) + (k * 1 + 0)))) as [v ->];
    [lia|reflexivity].
Qed.

Lemma c16_index3_refuted :
  exists t : tensor nat, repr t [1; 1; 2] [10; 20] /\ index3 dev t 0 0 1 = Panic.
Proof.
  exists (fresh [1; 1; 2] [10; 20]). split; [|reflexivity].
  apply repr_fresh; [split; cbn; lia | reflexivity].
Qed.

Lemma rank4_pos d0 d1 d2 d3 h i j k :
  h < d0 -> i < d1 -> j < d2 -> k < d3 ->
  k + d3 * (j + d2 * (i + d1 * h)) < d0 * (d1 * (d2 * (d3 * 1))).
Proof.
  intros. assert (i + d1 * h < d0 * d1) by nia.
  pose proof (rank3_pos (d0 * d1) d2 d3 (i + d1 * h) j k).
  replace (d0 * (d1 * (d2 * (d3 * 1)))) with (d0 * d1 * (d2 * (d3 * 1))) by lia. lia.
Qed.

Lemma c16_index4_partial {A} c (t : tensor A) d0 d1 d2 d3 xs h i j k :
  repr t [d0; d1; d2; d3] xs -> 3 < length xs ->
  index4 c t h i j k = at_or_panic [d0; d1; d2; d3] xs [h; i; j; k].
Proof.
  intros H H2. unfold index4, at_or_panic. rewrite (repr_shape _ _ _ H).
  pose proof (repr_len _ _ _ H) as Hl. cbn [prod] in Hl.
  rewrite size_canon by apply H. cbn [bind]. cbn [prod].
  rewrite assert_true by (rewrite <- Hl; lia). cbn [bind].
  change (rdim (canon [d0; d1; d2; d3]) 3) with (Ok d0).
  change (rdim (canon [d0; d1; d2; d3]) 2) with (Ok d1).
  change (rdim (canon [d0; d1; d2; d3]) 1) with (Ok d2).
  change (rdim (canon [d0; d1; d2; d3]) 0) with (Ok d3).
  cbn [bind combine forallb fst snd]. unfold assert_ at 1.
  destruct (Nat.ltb_spec h d0); [|reflexivity]. cbn [bind andb]. unfold assert_ at 1.
  destruct (Nat.ltb_spec i d1); [|reflexivity]. cbn [bind andb]. unfold assert_ at 1.
  destruct (Nat.ltb_spec j d2); [|reflexivity]. cbn [bind andb]. unfold assert_ at 1.
  destruct (Nat.ltb_spec k d3); [|reflexivity]. cbn [bind andb].
  pose proof (rank4_pos d0 d1 d2 d3 h i j k).
  pose proof (supported_prod _ (repr_supported _ _ _ H)) as Hs. cbn [prod] in Hs.
  pose proof (flat_le j d2 (i + d1 * h)). pose proof (flat_le k d3 (j + d2 * (i + d1 * h))).
  unfold two32 in Hs. rewrite !flat_ok by (unfold two64; lia).
  rewrite (c16_index1 t [d0; d1; d2; d3] xs) by auto. unfold elem. cbn [ravel prod].
  replace (k + d3 * (j + d2 * (i + d1 * h))) with
    (h * (d1 * (d2 * (d3 * 1))) + (i * (d2 * (d3 * 1)) + (j * (d3 * 1) + (k * 1 + 0)))) in * by lia.
  destruct (nth_error_lt_ex xs
    (h * (d1 * (d2 * (d3 * 1))) + (i * (d2 * (d3 * 1)) + (j * (d3 * 1) + (k * 1 + 0))))) as [v ->];
    [lia|reflexivity].
Qed.

Lemma c16_index4_refuted :
  exists t : tensor nat, repr t [1; 1; 1; 3] [10; 20; 30] /\ index4 dev t 0 0 0 1 = Panic.
Proof.
  exists (fresh [1; 1; 1; 3] [10; 20; 30]). split; [|reflexivity].
  apply repr_fresh; [split; cbn; lia | reflexivity].
Qed.

Lemma rank5_pos d0 d1 d2 d3 d4 g h i j k :
  g < d0 -> h < d1 -> i < d2 -> j < d3 -> k < d4 ->
  k + d4 * (j + d3 * (i + d2 * (h + d1 * g))) < d0 * (d1 * (d2 * (d3 * (d4 * 1)))).
Proof.
  intros. assert (h + d1 * g < d0 * d1) by nia.
  pose proof (rank4_pos (d0 * d1) d2 d3 d4 (h + d1 * g) i j k).
  replace (d0 * (d1 * (d2 * (d3 * (d4 * 1))))) with (d0 * d1 * (d2 * (d3 * (d4 * 1)))) by lia. lia.
Qed.

Lemma c16_index5 {A} c (t : tensor A) d0 d1 d2 d3 d4 xs g h i j k :
  repr t [d0; d1; d2; d3; d4] xs ->
  index5 c t g h i j k = at_or_panic [d0; d1; d2; d3; d4] xs [g; h; i; j; k].
Proof.
  intros H. unfold index5, at_or_panic. rewrite (repr_shape _ _ _ H).
  pose proof (repr_len _ _ _ H) as Hl. cbn [prod] in Hl.
  change (rank (canon [d0; d1; d2; d3; d4])) with 5. rewrite assert_true by reflexivity. cbn [bind].
  change (rdim (canon [d0; d1; d2; d3; d4]) 4) with (Ok d0).
  change (rdim (canon [d0; d1; d2; d3; d4]) 3) with (Ok d1).
  change (rdim (canon [d0; d1; d2; d3; d4]) 2) with (Ok d2).
  change (rdim (canon [d0; d1; d2; d3; d4]) 1) with (Ok d3).
  change (rdim (canon [d0; d1; d2; d3; d4]) 0) with (Ok d4).
  cbn [bind combine forallb fst snd]. unfold assert_ at 1.
  destruct (Nat.ltb_spec g d0); [|reflexivity]. cbn [bind andb]. unfold assert_ at 1.
  destruct (Nat.ltb_spec h d1); [|reflexivity]. cbn [bind andb]. unfold assert_ at 1.
  destruct (Nat.ltb_spec i d2); [|reflexivity]. cbn [bind andb]. unfold assert_ at 1.
  destruct (Nat.ltb_spec j d3); [|reflexivity]. cbn [bind andb]. unfold assert_ at 1.
  destruct (Nat.ltb_spec k d4); [|reflexivity]. cbn [bind andb].
  pose proof (rank5_pos d0 d1 d2 d3 d4 g h i j k).
  pose proof (supported_prod _ (repr_supported _ _ _ H)) as Hs. cbn [prod] in Hs.
  pose proof (flat_le i d2 (h + d1 * g)). pose proof (flat_le j d3 (i + d2 * (h + d1 * g))).
  pose proof (flat_le k d4 (j + d3 * (i + d2 * (h + d1 * g)))).
  unfold two32 in Hs. rewrite !flat_ok by (unfold two64; lia).
  rewrite (c16_index1 t [d0; d1; d2; d3; d4] xs) by auto. unfold elem. cbn [ravel prod].
  replace (k + d4 * (j + d3 * (i + d2 * (h + d1 * g)))) with
    (g * (d1 * (d2 * (d3 * (d4 * 1)))) + (h * (d2 * (d3 * (d4 * 1))) +
     (i * (d3 * (d4 * 1)) + (j * (d4 * 1) + (k * 1 + 0))))) in * by lia.
  destruct (nth_error_lt_ex xs
    (g * (d1 * (d2 * (d3 * (d4 * 1)))) + (h * (d2 * (d3 * (d4 * 1))) +
     (i * (d3 * (d4 * 1)) + (j * (d4 * 1) + (k * 1 + 0)))))) as [v ->];
    [lia|reflexivity].
Qed.

(** ** C17 *)

Lemma repr_reshape {A} (t : tensor A) ds xs ds' :
  repr t ds xs -> supported ds' -> prod ds' = prod ds ->
  repr (mkTensor (canon ds') (toffset t) (tsize t) (tdata t)) ds' xs.
Proof. intros [H1 H2 H3 H4 H5 H6] Hs Hp. constructor; cbn; auto. congruence. Qed.

Lemma c17_reshape {A} c (t : tensor A) ds xs ds' :
  repr t ds xs -> supported ds' ->
  (prod ds' = prod ds -> exists t', reshape c t (canon ds') = Ok t' /\ repr t' ds' xs) /\
  (prod ds' <> prod ds -> reshape c t (canon ds') = Panic).
Proof.
  intros H Hs. unfold reshape. rewrite size_canon by auto. cbn [bind].
  rewrite (repr_size_prod _ _ _ H). split; intros Hp.
  - rewrite assert_true by lia. eexists. split; [reflexivity|].
    rewrite <- (repr_size_prod _ _ _ H). now apply repr_reshape with (ds := ds).
  - rewrite assert_false; [reflexivity|]. destruct (Nat.eqb_spec (prod ds') (prod ds)); auto; lia.
Qed.

Lemma c17_reshape_back {A} c (t : tensor A) ds xs ds' :
  repr t ds xs -> supported ds' -> prod ds' = prod ds ->
  (let* u := reshape c t (canon ds') in reshape c u (canon ds)) = Ok t.
Proof.
  intros H Hs Hp. unfold reshape. rewrite !size_canon by (auto; apply H). cbn [bind].
  rewrite assert_true by (rewrite (repr_size_prod _ _ _ H); lia). cbn [bind tsize].
  rewrite assert_true by (rewrite (repr_size_prod _ _ _ H); lia). cbn [bind tsize toffset tdata].
  rewrite <- (repr_shape _ _ _ H). now destruct t.
Qed.

Lemma c17_flatten {A} c (t : tensor A) ds xs :
  repr t ds xs -> exists t', flatten c t = Ok t' /\ repr t' [prod ds] xs.
Proof.
  intros H. unfold flatten. rewrite (repr_size_prod _ _ _ H).
  assert (Hs : supported [prod ds]).
  { apply supported1. apply supported_prod. apply H. }
  rewrite from_slice_dims_supported by auto. cbn [bind].
  destruct (c17_reshape c t ds xs [prod ds] H Hs) as [E _]. apply E. cbn. lia.
Qed.

Lemma c17_expand_dims {A} c (t : tensor A) ds xs (axis : option Z) p :
  repr t ds xs -> length ds < 6 -> positive ds -> p <= length ds ->
  (match axis with Some a => a | None => 0 end = Z.of_nat p \/
   match axis with Some a => a | None => 0 end = Z.of_nat p - Z.of_nat (length ds) - 1)%Z ->
  exists t', t_expand_dims c t axis = Ok t' /\ repr t' (insert_at p 1 ds) xs.
Proof.
  intros H Hl Hpos Hp Ha. unfold t_expand_dims. rewrite (repr_shape _ _ _ H).
  pose proof (repr_supported _ _ _ H) as Hs.
  rewrite (expand_dims_canon c ds _ p); auto using supported_small. cbn [bind].
  assert (Hs' : supported (insert_at p 1 ds)).
  { apply supported_insert_at; auto. pose proof (supported_prod1 _ Hs). unfold two32 in *. lia. }
  destruct (c17_reshape c t ds xs _ H Hs') as [E _]. apply E. rewrite prod_insert_at. lia.
Qed.

Lemma c17_squeeze {A} c (t : tensor A) ds xs :
  repr t ds xs ->
  exists t', t_squeeze c t = Ok t' /\
    repr t' (match filter (fun d => negb (d =? 1)) ds with [] => [1] | l => l end) xs.
Proof.
  intros H. unfold t_squeeze. rewrite (repr_shape _ _ _ H).
  pose proof (repr_supported _ _ _ H) as Hs.
  rewrite squeeze_none_canon by now apply supported_len. cbn [bind].
  destruct (c17_reshape c t ds xs (squeezed ds) H (supported_squeezed _ Hs)) as [E _].
  apply E. apply prod_squeezed.
Qed.

Lemma prod_replace_unit i ds :
  i < length ds -> nth i ds 0 = 1 ->
  prod (match remove_at i ds with [] => [1] | l => l end) = prod ds.
Proof.
  intros Hi H1. pose proof (prod_remove_at i ds Hi) as E. rewrite H1 in E.
  destruct (remove_at i ds); cbn in *; lia.
Qed.

Lemma c17_squeeze_axis {A} c (t : tensor A) ds xs a :
  repr t ds xs -> a < length ds ->
  exists t' ds', squeeze_axis c t (Some (Z.of_nat a)) = Ok t' /\ repr t' ds' xs.
Proof.
  intros H Ha. unfold squeeze_axis. rewrite (repr_shape _ _ _ H).
  pose proof (repr_supported _ _ _ H) as Hs. pose proof (supported_len _ Hs) as Hl.
  rewrite squeeze_some_canon by (auto; lia). cbn [bind].
  destruct ((0 <? a) && (nth (a - 1) ds 0 =? 1)) eqn:E.
  - apply andb_true_iff in E. destruct E as [E1 E2].
    assert (Hs' : supported (match remove_at (a - 1) ds with [] => [1] | l => l end)).
    { pose proof (supported_remove_at (a - 1) _ Hs) as H'.
      destruct (remove_at (a - 1) ds); auto. split; cbn; lia. }
    destruct (c17_reshape c t ds xs _ H Hs') as [(t' & E3 & E4) _].
    + apply prod_replace_unit; [lia|]. now apply Nat.eqb_eq.
    + eauto.
  - destruct (c17_reshape c t ds xs ds H Hs) as [(t' & E3 & E4) _]; eauto.
Qed.

(** ** C18 *)

Lemma c18_wrap_slice {A} (t : tensor A) ds xs k :
  repr t ds xs -> xs <> [] -> as_wrap_slice t k = Ok (skipn (k mod length xs) xs).
Proof.
  intros H Hne. assert (Hl : length xs <> 0) by (destruct xs; cbn; congruence).
  assert (E : wrap_pos t k = Ok (k mod length xs)).
  { unfold wrap_pos. rewrite (repr_size _ _ _ H). destruct (Nat.ltb_spec k (length xs)).
    - now rewrite Nat.mod_small.
    - now rewrite urem_ok. }
  unfold as_wrap_slice. rewrite E. cbn [bind]. rewrite (repr_size _ _ _ H).
  pose proof (Nat.mod_upper_bound k (length xs) Hl).
  rewrite (raw_slice_data _ _ _ _ _ H) by lia. f_equal.
  rewrite <- skipn_length. apply firstn_all.
Qed.

Lemma c18_wrap_ptr {A} (t : tensor A) ds xs k v :
  repr t ds xs -> nth_error xs (k mod length xs) = Some v ->
  exists p, as_wrap_ptr t k = Ok p /\ nth_error (tdata t) p = Some v.
Proof.
  intros H Hv. assert (Hl : length xs <> 0).
  { apply nth_error_Some_lt in Hv. lia. }
  unfold as_wrap_ptr, wrap_pos. rewrite (repr_size _ _ _ H).
  exists (toffset t + k mod length xs). split.
  - destruct (Nat.ltb_spec k (length xs)).
    + now rewrite Nat.mod_small.
    + now rewrite urem_ok.
  - rewrite (nth_error_data _ _ _ _ H); auto. now apply Nat.mod_upper_bound.
Qed.

Lemma c18_wrap_slice_n_partial {A} c (t : tensor A) ds xs k n :
  repr t ds xs -> toffset t = 0 -> k mod length xs + n <= length xs -> xs <> [] ->
  as_wrap_slice_n c t k n = Ok (firstn n (skipn (k mod length xs) xs)).
Proof.
  intros H H0 Hn Hne. assert (Hl : length xs <> 0) by (destruct xs; cbn; congruence).
  unfold as_wrap_slice_n.
  assert (E : wrap_pos t k = Ok (k mod length xs)).
  { unfold wrap_pos. rewrite (repr_size _ _ _ H). destruct (Nat.ltb_spec k (length xs)).
    - now rewrite Nat.mod_small.
    - now rewrite urem_ok. }
  rewrite E. cbn [bind]. rewrite H0.
  pose proof (repr_offset_bound _ _ _ H) as Hb. unfold two63 in Hb.
  rewrite uadd_ok by (unfold two64; lia). cbn [bind].
  rewrite uadd_ok by (unfold two64; lia). cbn [bind].
  rewrite assert_true by (rewrite (repr_size _ _ _ H); lia). cbn [bind].
  pose proof (raw_slice_data _ _ _ (k mod length xs) n H Hn) as R. rewrite H0 in R. exact R.
Qed.

(* Missing: views at a non-zero offset, for which it is false. *)

Lemma c18_wrap_slice_n_refuted :
  exists t u : tensor nat,
    subslice dev (fresh [4; 1] [10; 20; 30; 40]) 1 3 = Ok t /\ repr t [3; 1] [20; 30; 40] /\
    as_wrap_slice_n dev t 0 1 = Ok [30] /\
    as_wrap_slice_n dev t 2 1 = Panic /\ u = t.
Proof.
  eexists. eexists. split; [reflexivity|]. split; [|repeat split].
  constructor; try reflexivity.
  - split; cbn; lia.
  - exists [10], []. split; reflexivity.
Qed.

(** ** C19 *)

Lemma c19_iter_row {A} (t : tensor A) ds k xs :
  repr t (ds ++ [k]) xs -> ds <> [] -> 0 < k ->
  exists rows, iter_row t = Ok rows /\ concat rows = xs /\ length rows = prod ds /\
    Forall (fun r => length r = k) rows /\
    (forall idx j, in_shape ds idx -> j < k ->
       exists r, nth_error rows (ravel ds idx) = Some r /\
                 nth_error r j = elem (ds ++ [k]) xs (idx ++ [j])).
Proof.
  intros H Hne Hk. pose proof (repr_supported _ _ _ H) as Hs. pose proof (supported_len _ Hs) as Hl.
  pose proof (repr_len _ _ _ H) as Hlen. rewrite prod_app in Hlen. cbn [prod] in Hlen.
  rewrite Nat.mul_1_r in Hlen.
  exists (map (fun i => firstn k (skipn (i * k) xs)) (seq 0 (prod ds))). split.
  - unfold iter_row. rewrite (repr_shape _ _ _ H), cols_canon by auto. cbn [bind].
    rewrite last_last. rewrite (repr_as_slice _ _ _ H). cbn [bind].
    change (rank (canon (ds ++ [k]))) with (length (ds ++ [k])). rewrite app_length. cbn [length].
    destruct (Nat.ltb_spec 1 (length ds + 1)); [|destruct ds; [easy|cbn in *; lia]].
    unfold chunks_exact. destruct (Nat.eqb_spec k 0); [lia|].
    rewrite (chunks_fuel_exact k (prod ds)); auto. nia.
  - split; [now apply concat_chunks|]. split; [now rewrite map_length, seq_length|]. split.
    + apply Forall_forall. intros r Hr. apply in_map_iff in Hr. destruct Hr as (i & <- & Hi).
      apply in_seq in Hi. rewrite firstn_length, skipn_length. nia.
    + intros idx j Hidx Hj. pose proof (ravel_lt _ _ Hidx). eexists. split.
      * now rewrite nth_error_map_seq.
      * cbn [Nat.add]. rewrite nth_error_firstn, nth_error_skipn.
        destruct (Nat.ltb_spec j k); [|lia]. unfold elem.
        rewrite ravel_app by now apply in_shape_length. cbn [ravel prod]. f_equal. lia.
Qed.

Lemma c19_iter_row_rank1 {A} (t : tensor A) ds xs :
  repr t ds xs -> length ds <= 1 -> iter_row t = Ok (map (fun x => [x]) xs).
Proof.
  intros H Hd. pose proof (supported_len _ (repr_supported _ _ _ H)) as Hl.
  unfold iter_row. rewrite (repr_shape _ _ _ H), cols_canon by auto. cbn [bind].
  rewrite (repr_as_slice _ _ _ H). cbn [bind].
  change (rank (canon ds)) with (length ds).
  destruct (Nat.ltb_spec 1 (length ds)); [lia|].
  unfold chunks_exact. change (1 =? 0) with false. cbn iota. f_equal.
  assert (G : forall l fuel, length l <= fuel ->
     chunks_fuel fuel 1 l = map (fun x : A => [x]) l).
  { induction l as [|x l IH]; intros fuel Hf; destruct fuel; auto; cbn in Hf; try lia.
    cbn [chunks_fuel length firstn skipn map].
    change (1 <=? S (length l)) with true. cbn iota. f_equal.
    apply IH. lia. }
  apply G. auto.
Qed.

Lemma c19_iter {A} (t : tensor A) ds xs : repr t ds xs -> as_slice t = Ok xs.
Proof. exact (repr_as_slice t ds xs). Qed.

(** ** C20 *)

Lemma c20_append {A} c (t u : tensor A) d d' ds ds' xs ys :
  repr t (d :: ds) xs -> repr u (d' :: ds') ys ->
  positive ds -> 0 < d + d' -> prod ds' = prod ds ->
  (Z.of_nat ((d + d') * prod ds) < 4294967296)%Z ->
  exists r, append c t u = Ok r /\ repr r (d + d' :: ds) (xs ++ ys).
Proof.
  intros Ht Hu Hpos Hd Hp Hb.
  pose proof (repr_supported _ _ _ Ht) as Hs. pose proof (repr_supported _ _ _ Hu) as Hs'.
  pose proof (supported_len _ Hs) as Hl. pose proof (supported_len _ Hs') as Hl'.
  pose proof (repr_len _ _ _ Ht) as Hlt. pose proof (repr_len _ _ _ Hu) as Hlu.
  pose proof (prod_pos _ Hpos) as Hpp. cbn [prod] in Hlt, Hlu.
  assert (HsR : supported (d + d' :: ds)).
  { apply supported_pos; cbn [prod length] in *; auto; try lia. nia. }
  exists (fresh (d + d' :: ds) (xs ++ ys)). split.
  2: { apply repr_fresh; auto. rewrite app_length. cbn [prod]. nia. }
  unfold append. rewrite (repr_shape _ _ _ Ht), (repr_shape _ _ _ Hu).
  change (rank (canon (d :: ds))) with (length (d :: ds)).
  change (rank (canon (d' :: ds'))) with (length (d' :: ds')).
  rewrite !sublen_canon by (auto; cbn; lia). cbn [bind length skipn].
  replace (S (length ds) - 1) with (length ds) by lia.
  replace (S (length ds') - 1) with (length ds') by lia. rewrite !firstn_all.
  rewrite assert_true by (rewrite Hp; apply Nat.eqb_refl). cbn [bind].
  rewrite as_vec_canon by auto. cbn [bind].
  rewrite !dim_canon by (auto; cbn; lia). cbn [bind nth].
  rewrite uadd_ok by (unfold two64; nia). cbn [bind].
  rewrite aset_ok by (cbn; lia). cbn [bind set_nth].
  rewrite from_vec_dims_supported by (auto; now constructor). cbn [bind].
  rewrite (from_merge_repr c [t; u] [(d :: ds, xs); (d' :: ds', ys)]); auto.
  - cbn [map snd concat]. rewrite app_nil_r, app_length, Hlt, Hlu. cbn [prod].
    destruct (Nat.eqb_spec (d * prod ds + d' * prod ds') ((d + d') * prod ds)); [reflexivity|nia].
  - cbn [map snd concat]. rewrite app_nil_r, app_length, Hlt, Hlu. unfold two64. nia.
Qed.

Lemma c20_append_rejects {A} c (t u : tensor A) d d' ds ds' xs ys :
  repr t (d :: ds) xs -> repr u (d' :: ds') ys -> prod ds' <> prod ds -> append c t u = Panic.
Proof.
  intros Ht Hu Hp.
  pose proof (repr_supported _ _ _ Ht) as Hs. pose proof (repr_supported _ _ _ Hu) as Hs'.
  unfold append. rewrite (repr_shape _ _ _ Ht), (repr_shape _ _ _ Hu).
  change (rank (canon (d :: ds))) with (length (d :: ds)).
  change (rank (canon (d' :: ds'))) with (length (d' :: ds')).
  rewrite !sublen_canon by (auto; cbn; lia). cbn [bind length skipn].
  replace (S (length ds) - 1) with (length ds) by lia.
  replace (S (length ds') - 1) with (length ds') by lia. rewrite !firstn_all.
  rewrite assert_false; [reflexivity|]. apply Nat.eqb_neq. auto.
Qed.

Lemma c20_append_shape_refuted :
  exists r, append dev (fresh [1; 6] [1; 2; 3; 4; 5; 6]) (fresh [1; 2; 3] [7; 8; 9; 10; 11; 12])
            = Ok r /\ repr r [2; 6] [1; 2; 3; 4; 5; 6; 7; 8; 9; 10; 11; 12].
Proof.
  exists (fresh [2; 6] [1; 2; 3; 4; 5; 6; 7; 8; 9; 10; 11; 12]).
  split; [reflexivity|]. apply repr_fresh; [split; cbn; lia|reflexivity].
Qed.

Lemma c20_from_merge {A} c (ts : list (tensor A)) parts ds :
  Forall2 (fun t p => repr t (fst p) (snd p)) ts parts ->
  (Z.of_nat (length (concat (map snd parts))) < 18446744073709551616)%Z -> supported ds ->
  (length (concat (map snd parts)) = prod ds ->
     exists r, from_merge c ts (canon ds) = Ok r /\ repr r ds (concat (map snd parts))) /\
  (length (concat (map snd parts)) <> prod ds -> from_merge c ts (canon ds) = Panic).
Proof.
  intros H Hm Hs. rewrite (from_merge_repr c ts parts ds) by auto. split; intros E.
  - rewrite E, Nat.eqb_refl. eexists. split; [reflexivity|]. now apply repr_fresh.
  - apply Nat.eqb_neq in E. now rewrite E.
Qed.

Lemma c20_join_vec {A} c (v : list (list A)) :
  (Z.of_nat (length (concat v)) < 4294967296)%Z ->
  exists t, join_vec c v = Ok t /\ repr t [length (concat v)] (concat v).
Proof. intros H. exact (c11_items c (concat v) H). Qed.

Lemma c20_of_tensors {A} c (ts : list (tensor A)) (xss : list (list A)) ds :
  Forall2 (fun t xs => repr t ds xs) ts xss -> ts <> [] ->
  supported (length ts :: ds) ->
  exists r, of_tensors c ts = Ok r /\ repr r (length ts :: ds) (concat xss).
Proof.
  intros H Hne Hs.
  assert (Hlen : length xss = length ts) by (symmetry; clear -H; induction H; cbn; auto).
  assert (Hc : length (concat xss) = prod (length ts :: ds)).
  { rewrite (concat_length_const (prod ds)); [cbn; lia|]. clear -H.
    induction H as [|t xs ts xss Ht _ IH]; constructor; auto. apply (repr_len _ _ _ Ht). }
  exists (fresh (length ts :: ds) (concat xss)). split; [|now apply repr_fresh].
  unfold of_tensors. destruct ts as [|t0 ts]; [easy|].
  rewrite assert_true by reflexivity. cbn [bind]. cbn [aget nth_error bind].
  inversion H as [|? xs0 ? xss0 Ht0 Hrest]; subst.
  assert (E : forall (us : list (tensor A)) (yss : list (list A)), Forall2 (fun t xs => repr t ds xs) us yss ->
      for_each us (fun t _ =>
        assert! (tsize t0 =? tsize t) in assert_ (shape_eqb (tshape t0) (tshape t))) tt = Ok tt).
  { induction 1 as [|t xs us yss Ht _ IH]; auto. cbn [for_each].
    rewrite (repr_size_prod _ _ _ Ht0), (repr_size_prod _ _ _ Ht), Nat.eqb_refl.
    rewrite (repr_shape _ _ _ Ht0), (repr_shape _ _ _ Ht).
    rewrite (proj2 (shape_eqb_canon ds ds)) by auto. cbn [assert_ bind].
    rewrite (repr_size_prod _ _ _ Ht0), (repr_shape _ _ _ Ht0) in IH. exact IH. }
  rewrite (E _ _ H). cbn [bind].
  assert (E2 : forall (us : list (tensor A)) (yss : list (list A)), Forall2 (fun t xs => repr t ds xs) us yss ->
      map_out as_slice us = Ok yss).
  { induction 1 as [|t xs us yss Ht _ IH]; auto. cbn [map_out].
    rewrite (repr_as_slice _ _ _ Ht), IH. reflexivity. }
  rewrite (E2 _ _ H). cbn [bind]. rewrite (repr_shape _ _ _ Ht0).
  pose proof (supported_len _ Hs) as Hl. cbn [length] in Hl.
  rewrite push_canon by lia. cbn [bind].
  rewrite as_u32_small by (apply (supported_in _ (length (t0 :: ts)) Hs); now left).
  unfold from_vec. now apply tensor_new_ok.
Qed.

Lemma c20_of_tensors_empty {A} c : of_tensors c (@nil (tensor A)) = Panic.
Proof. reflexivity. Qed.

Lemma c20_of_tensors_rejects {A} c (t0 t1 : tensor A) l r ds0 ds1 xs0 xs1 :
  repr t0 ds0 xs0 -> repr t1 ds1 xs1 -> ds0 <> ds1 ->
  of_tensors c (t0 :: l ++ t1 :: r) = Panic.
Proof.
  intros H0 H1 Hne. unfold of_tensors. rewrite assert_true by reflexivity.
  cbn [bind aget nth_error].
  assert (G : forall l, for_each (l ++ t1 :: r) (fun t _ =>
      assert! (tsize t0 =? tsize t) in assert_ (shape_eqb (tshape t0) (tshape t))) tt = Panic).
  { clear l. induction l as [|t l IH]; cbn [app for_each].
    - unfold assert_ at 1. destruct (tsize t0 =? tsize t1); [|reflexivity]. cbn [bind].
      rewrite assert_false; [reflexivity|].
      rewrite (repr_shape _ _ _ H0), (repr_shape _ _ _ H1).
      destruct (shape_eqb _ _) eqn:E; auto. apply shape_eqb_canon in E. congruence.
    - unfold assert_ at 1. destruct (tsize t0 =? tsize t); [|reflexivity]. cbn [bind].
      unfold assert_ at 1. destruct (shape_eqb _ _); [|reflexivity]. exact IH. }
  change (t0 :: l ++ t1 :: r) with ((t0 :: l) ++ t1 :: r). rewrite (G (t0 :: l)). reflexivity.
Qed.

(** ** C21 *)

Lemma c21_eq {A} (eqb : A -> A -> bool) (Heq : forall x y, eqb x y = true <-> x = y)
    (t u : tensor A) ds ds' xs ys :
  repr t ds xs -> repr u ds' ys ->
  exists b, tensor_eqb eqb t u = Ok b /\ (b = true <-> ds = ds' /\ xs = ys).
Proof.
  intros Ht Hu. unfold tensor_eqb. rewrite (repr_shape _ _ _ Ht), (repr_shape _ _ _ Hu).
  destruct (shape_eqb (canon ds) (canon ds')) eqn:E.
  - apply shape_eqb_canon in E. subst ds'.
    rewrite (repr_as_slice _ _ _ Ht), (repr_as_slice _ _ _ Hu). cbn [bind].
    eexists. split; [reflexivity|]. rewrite list_eqb_spec by auto. tauto.
  - exists false. split; [reflexivity|]. split; [discriminate|]. intros [-> _].
    rewrite (proj2 (shape_eqb_canon ds' ds')) in E; congruence.
Qed.

Lemma list_partial_cmp_lex {A} (cmp : A -> A -> option comparison) xs ys :
  lex_result cmp xs ys (list_partial_cmp cmp xs ys).
Proof.
  revert ys; induction xs as [|x xs IH]; intros [|y ys].
  - exists 0. split; [intros i Hi; lia|reflexivity].
  - exists 0. split; [intros i Hi; lia|reflexivity].
  - exists 0. split; [intros i Hi; lia|reflexivity].
  - cbn. destruct (cmp x y) as [[| |]|] eqn:E.
    + destruct (IH ys) as (k & Hk & Hr). exists (S k). split; auto.
      intros [|i] Hi; cbn; eauto. apply Hk. lia.
    + exists 0. split; [intros i Hi; lia|]. cbn. rewrite E. split; congruence.
    + exists 0. split; [intros i Hi; lia|]. cbn. rewrite E. split; congruence.
    + exists 0. split; [intros i Hi; lia|]. cbn. rewrite E. split; congruence.
Qed.

Lemma c21_partial_cmp {A} (cmp : A -> A -> option comparison) (t u : tensor A) ds ds' xs ys :
  repr t ds xs -> repr u ds' ys ->
  exists o, tensor_partial_cmp cmp t u = Ok o /\ lex_result cmp xs ys o.
Proof.
  intros Ht Hu. unfold tensor_partial_cmp.
  rewrite (repr_as_slice _ _ _ Ht), (repr_as_slice _ _ _ Hu). cbn [bind].
  eexists. split; [reflexivity|]. apply list_partial_cmp_lex.
Qed.

Lemma c21_cmp_eq_refuted :
  exists t u : tensor nat, repr t [2; 2] [1; 2; 3; 4] /\ repr u [4] [1; 2; 3; 4] /\
    tensor_partial_cmp (fun a b => Some (a ?= b)) t u = Ok (Some Eq) /\
    tensor_eqb Nat.eqb t u = Ok false.
Proof.
  exists (fresh [2; 2] [1; 2; 3; 4]), (fresh [4] [1; 2; 3; 4]).
  split; [apply repr_fresh; [split; cbn; lia|reflexivity]|].
  split; [apply repr_fresh; [split; cbn; lia|reflexivity]|]. split; reflexivity.
Qed.
