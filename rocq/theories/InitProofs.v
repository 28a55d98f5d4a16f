(** * Properties of eye, tri, tril, triu, diagflat, meshgrid, linspace, arange, one_hot (C41-C45): proofs *)
From Coq Require Import Reals Lra.
From Flocq Require Import IEEE754.BinarySingleNaN.
From Coq Require Import ZifyBool ZifyNat ZifyN.
From Verif Require Import Base ShapeModel TensorModel AxisModel MapModel FloatModel InitModel Spec BaseFacts
  ShapeFacts ShapeFacts2 CoordFacts TensorFacts TensorFacts2 MapFacts SafeFacts InitFacts RealFacts.
From Verif Require Import InitSpec.

Ltac Zify.zify_post_hook ::= Z.div_mod_to_equations.

(** ** C41 *)

Lemma c41_eye {T} c (zero one : T) n :
  0 < n -> supported [n; n] ->
  exists ys, eye c zero one n = Ok (fresh [n; n] ys) /\ length ys = n * n /\
    forall i j, i < n -> j < n -> elem [n; n] ys [i; j] = Some (if i =? j then one else zero).
Proof.
  intros Hn Hs. unfold eye. destruct (Nat.eqb_spec n 0); [lia|].
  rewrite from_slice_dims_supported by auto. cbn [bind].
  apply rindexed2; auto; [left; nia|]. intros i j _ _. cbn [aget nth_error bind].
  do 3 f_equal. rewrite Nat.eqb_sym. reflexivity.
Qed.

Lemma c41_eye_zero {T} c (zero one : T) : eye c zero one 0 = Ok (fresh [] [zero]).
Proof. reflexivity. Qed.

Lemma c41_tri {T} c (zero one : T) n :
  supported [n; n] -> can_alloc c (n * n) ->
  exists ys, tri c zero one n = Ok (fresh [n; n] ys) /\ length ys = n * n /\
    forall i j, i < n -> j < n -> elem [n; n] ys [i; j] = Some (if j <=? i then one else zero).
Proof.
  intros Hs Hc. unfold tri.
  rewrite from_slice_dims_supported by auto. cbn [bind].
  apply rindexed2; auto.
Qed.

Lemma c41_diagflat {T} c (zero : T) (t : tensor T) n xs :
  repr t [n] xs -> supported [n; n] -> can_alloc c (n * n) ->
  exists ys, diagflat c zero t = Ok (fresh [n; n] ys) /\ length ys = n * n /\
    forall i j, i < n -> j < n ->
      elem [n; n] ys [i; j] = if i =? j then nth_error xs i else Some zero.
Proof.
  intros H Hs Hc. unfold diagflat. rewrite (repr_shape _ _ _ H), (repr_size _ _ _ H).
  pose proof (repr_len _ _ _ H) as Hl. cbn [prod] in Hl. rewrite Nat.mul_1_r in Hl.
  cbn [canon rank length]. change (1 =? 1) with true. cbv iota.
  rewrite Hl, from_slice_dims_supported by auto. cbn [bind].
  set (f := fun (st : unit) (idx : list nat) => _).
  destruct xs as [|x0 xs'] eqn:Exs.
  - cbn in Hl. subst n. destruct (rindexed2 c 0 0 f (fun _ _ => zero) Hs Hc) as (ys & E & El & Ev); [intros; lia|].
    exists ys. split; [exact E|]. split; [exact El|]. intros; lia.
  - rewrite <- Exs in *.
    destruct (rindexed2 c n n f (fun i j => if i =? j then nth i xs x0 else zero) Hs Hc) as (ys & E & El & Ev).
    + intros i j Hi Hj. unfold f. cbn [aget nth_error bind]. rewrite (Nat.eqb_sym j i).
      destruct (Nat.eqb_spec i j) as [->|]; [|reflexivity].
      rewrite (repr_index1 t [n] xs j (nth j xs x0)); auto. apply nth_error_nth'. lia.
    + exists ys. split; [exact E|]. split; [exact El|]. intros i j Hi Hj. rewrite Ev by auto.
      destruct (i =? j); auto. symmetry. apply nth_error_nth'. lia.
Qed.

Lemma c41_diagflat_rank {T} c (zero : T) (t : tensor T) ds xs :
  repr t ds xs -> length ds <> 1 -> diagflat c zero t = Panic.
Proof.
  intros H Hl. unfold diagflat. rewrite (repr_shape _ _ _ H). cbn [canon rank].
  destruct (Nat.eqb_spec (length ds) 1); [lia|reflexivity].
Qed.

Lemma c41_tril {T} c (zero : T) (t : tensor T) ds r k xs :
  repr t (ds ++ [r; k]) xs -> 0 < r -> 0 < k -> can_alloc c (length xs) ->
  exists ys, tril c zero t = Ok (fresh (ds ++ [r; k]) ys) /\ length ys = prod (ds ++ [r; k]) /\
    forall b i j, in_shape ds b -> i < r -> j < k ->
      elem (ds ++ [r; k]) ys (b ++ [i; j])
      = if j <=? i then elem (ds ++ [r; k]) xs (b ++ [i; j]) else Some zero.
Proof. intros. eapply tri_mask_repr; eauto. Qed.

Lemma c41_triu {T} c (zero : T) (t : tensor T) ds r k xs :
  repr t (ds ++ [r; k]) xs -> 0 < r -> 0 < k -> can_alloc c (length xs) ->
  exists ys, triu c zero t = Ok (fresh (ds ++ [r; k]) ys) /\ length ys = prod (ds ++ [r; k]) /\
    forall b i j, in_shape ds b -> i < r -> j < k ->
      elem (ds ++ [r; k]) ys (b ++ [i; j])
      = if i <=? j then elem (ds ++ [r; k]) xs (b ++ [i; j]) else Some zero.
Proof. intros. eapply tri_mask_repr; eauto. Qed.

Lemma c41_tril_triu_rank {T} c (zero : T) (t : tensor T) ds xs :
  repr t ds xs -> length ds < 2 -> tril c zero t = Panic /\ triu c zero t = Panic.
Proof. intros H Hl. split; eapply tri_mask_low; eauto. Qed.

Lemma c41_tril_triu_empty {T} c (zero : T) (t : tensor T) ds r k xs :
  repr t (ds ++ [r; k]) xs -> r * k = 0 -> zero_alloc_ok c = true ->
  tril c zero t = Panic /\ triu c zero t = Panic.
Proof. intros H Hl Hz. split; eapply tri_mask_empty; eauto. Qed.

(** ** C42 *)

Lemma rev_in_shape ds idx : in_shape ds idx -> in_shape (rev ds) (rev idx).
Proof.
  intros H. induction H; cbn [rev]; [constructor|]. apply Forall2_app; auto.
Qed.

Lemma c42_meshgrid_xy {T} c (axes : list (tensor T)) (xss : list (list T)) :
  Forall2 (fun t xs => repr t [length xs] xs) axes xss ->
  supported (map (@length T) xss) -> Forall (fun xs => xs <> []) xss ->
  exists ts, meshgrid c axes = Ok ts /\ length ts = length xss /\
    forall i xs, nth_error xss i = Some xs ->
      exists ys, nth_error ts i = Some (fresh (rev (map (@length T) xss)) ys) /\
        length ys = prod (map (@length T) xss) /\
        forall idx, in_shape (map (@length T) xss) idx ->
          elem (rev (map (@length T) xss)) ys (rev idx) = nth_error xs (nth i idx 0).
Proof.
  intros H Hs Hne.
  assert (Hpos : Forall (fun xs => 0 < length xs) xss).
  { eapply Forall_impl; [|exact Hne]. intros [|] Hx; cbn; [congruence|lia]. }
  destruct (meshgrid_xy_repr c axes xss H Hs Hpos) as (ts & E & El & Ev).
  exists ts. split; auto. split; auto. intros i xs Hi. destruct (Ev i xs Hi) as (t & Et & ys & -> & Ly & Hy).
  exists ys. split; auto. split; [now rewrite Ly, prod_rev|]. intros idx Hidx.
  rewrite Hy by now apply rev_in_shape. f_equal.
  pose proof (in_shape_length _ _ Hidx) as Hlen. rewrite map_length in Hlen.
  assert (i < length xss) by (apply nth_error_Some; congruence).
  rewrite rev_nth by lia. f_equal. lia.
Qed.

Lemma c42_meshgrid_ij {T} c (axes : list (tensor T)) (xss : list (list T)) :
  Forall2 (fun t xs => repr t [length xs] xs) axes xss ->
  supported (map (@length T) xss) -> Forall (fun xs => xs <> []) xss ->
  exists ts, meshgrid_ij c axes = Ok ts /\ length ts = length xss /\
    forall i xs, nth_error xss i = Some xs ->
      exists ys, nth_error ts i = Some (fresh (map (@length T) xss) ys) /\
        length ys = prod (map (@length T) xss) /\
        forall idx, in_shape (map (@length T) xss) idx ->
          elem (map (@length T) xss) ys idx = nth_error xs (nth i idx 0).
Proof.
  intros H Hs Hne.
  assert (Hpos : Forall (fun xs => 0 < length xs) xss).
  { eapply Forall_impl; [|exact Hne]. intros [|] Hx; cbn; [congruence|lia]. }
  destruct (meshgrid_ij_repr c axes xss H Hs Hpos) as (ts & E & El & Ev).
  exists ts. split; auto. split; auto. intros i xs Hi. destruct (Ev i xs Hi) as (t & Et & ys & -> & Ly & Hy).
  exists ys. auto.
Qed.

Lemma c42_meshgrid_rank {T} c (t : tensor T) ds xs :
  repr t ds xs -> length ds <> 1 -> 0 < length xs -> supported [length xs] ->
  meshgrid c [t] = Panic /\ meshgrid_ij c [t] = Panic.
Proof.
  intros H Hl Hp Hs.
  assert (E : forall ord, build_meshgrid c [t] ord = Panic).
  { intros ord. unfold build_meshgrid. destruct ord; cbn [rev app map]; rewrite (repr_size _ _ _ H);
      rewrite from_vec_dims_supported by (auto; constructor; auto); cbn [bind for_each];
      unfold build_meshgrid_axis; rewrite (repr_shape _ _ _ H); cbn [canon rank];
      (destruct (Nat.eqb_spec (length ds) 1); [lia|reflexivity]). }
  split; apply E.
Qed.

(** ** C43 *)

Lemma c43_linspace {F} (o : fops F) c (s e : tensor F) ds xs ys len :
  repr s ds xs -> repr e ds ys -> 0 < prod ds -> length ds < 5 -> supported (len :: ds) ->
  can_alloc c (len * prod ds) ->
  (forall i x y, nth_error xs i = Some x -> nth_error ys i = Some y -> fle o x y = true) ->
  exists zs, linspace o c s e len = Ok (fresh (len :: ds) zs) /\ length zs = prod (len :: ds) /\
    forall k idx x y, k < len -> elem ds xs idx = Some x -> elem ds ys idx = Some y ->
      elem (len :: ds) zs (k :: idx)
      = Some (fadd o x (fmul o (if 1 <? len then fdiv o (fsub o y x) (fof o (len - 1)) else fzero o) (fof o k))).
Proof. apply linspace_repr. Qed.

Lemma c43_linspace_real c (s e : tensor R) ds xs ys len :
  repr s ds xs -> repr e ds ys -> 0 < prod ds -> length ds < 5 -> supported (len :: ds) ->
  2 <= len ->
  (forall i x y, nth_error xs i = Some x -> nth_error ys i = Some y -> (x <= y)%R) ->
  exists zs, linspace R_ops c s e len = Ok (fresh (len :: ds) zs) /\ length zs = prod (len :: ds) /\
    (forall k idx x y, k < len -> elem ds xs idx = Some x -> elem ds ys idx = Some y ->
      elem (len :: ds) zs (k :: idx) = Some (x + INR k * (y - x) / (INR len - 1))%R) /\
    (forall idx x y, elem ds xs idx = Some x -> elem ds ys idx = Some y ->
      elem (len :: ds) zs (0 :: idx) = Some x /\ elem (len :: ds) zs (len - 1 :: idx) = Some y).
Proof.
  intros Hs He Hp Hl Hsup H2 Hle.
  destruct (c43_linspace R_ops c s e ds xs ys len) as (zs & E & El & Ev); auto.
  - left. nia.
  - intros i x y Hx Hy. apply R_fle. eauto.
  - exists zs. split; auto. split; auto.
    assert (Hn : INR (len - 1) = (INR len - 1)%R) by (rewrite minus_INR by lia; reflexivity).
    assert (Hpos : (0 < INR len - 1)%R).
    { rewrite <- Hn. apply lt_0_INR. lia. }
    assert (Hall : forall k idx x y, k < len -> elem ds xs idx = Some x -> elem ds ys idx = Some y ->
      elem (len :: ds) zs (k :: idx) = Some (x + INR k * (y - x) / (INR len - 1))%R).
    { intros k idx x y Hk Hx Hy. rewrite (Ev k idx x y) by auto.
      replace (1 <? len) with true by lia. cbn [R_ops fadd fmul fdiv fsub fof]. f_equal. rewrite Hn. field. lra. }
    split; auto. intros idx x y Hx Hy. split.
    + rewrite (Hall 0 idx x y) by (auto; lia). cbn [INR]. f_equal. field. lra.
    + rewrite (Hall (len - 1) idx x y) by (auto; lia). rewrite Hn. f_equal. field. lra.
Qed.

Lemma c43_linspace_one c (s e : tensor R) ds xs ys :
  repr s ds xs -> repr e ds ys -> 0 < prod ds -> length ds < 5 -> supported (1 :: ds) ->
  (forall i x y, nth_error xs i = Some x -> nth_error ys i = Some y -> (x <= y)%R) ->
  linspace R_ops c s e 1 = Ok (fresh (1 :: ds) xs).
Proof.
  intros Hs He Hp Hl Hsup Hle.
  destruct (c43_linspace R_ops c s e ds xs ys 1) as (zs & E & El & Ev); auto.
  - left. lia.
  - intros i x y Hx Hy. apply R_fle. eauto.
  - rewrite E. do 2 f_equal. pose proof (repr_len _ _ _ Hs) as Lx. pose proof (repr_len _ _ _ He) as Ly.
    cbn [prod] in El. apply (elem_ext (1 :: ds)); [cbn [prod]; lia|cbn [prod]; lia|].
    intros idx Hi. inversion Hi as [|k ? idx' ? Hk Hi']; subst. assert (k = 0) by lia. subst k.
    pose proof (ravel_lt _ _ Hi') as Hr.
    destruct (nth_error xs (ravel ds idx')) as [x|] eqn:Ex; [|apply nth_error_None in Ex; lia].
    destruct (nth_error ys (ravel ds idx')) as [y|] eqn:Ey; [|apply nth_error_None in Ey; lia].
    rewrite (Ev 0 idx' x y) by (auto; lia). unfold elem. cbn [ravel]. change (0 * prod ds) with 0. cbn [Nat.add].
    rewrite Ex. f_equal. cbn. lra.
Qed.

Lemma c43_logspace_real c (s e : tensor R) ds xs ys len base :
  repr s ds xs -> repr e ds ys -> 0 < prod ds -> length ds < 5 -> supported (len :: ds) ->
  2 <= len ->
  (forall i x y, nth_error xs i = Some x -> nth_error ys i = Some y -> (x <= y)%R) ->
  exists zs, logspace R_ops c s e len base = Ok (fresh (len :: ds) zs) /\ length zs = prod (len :: ds) /\
    forall k idx x y, k < len -> elem ds xs idx = Some x -> elem ds ys idx = Some y ->
      elem (len :: ds) zs (k :: idx)
      = Some (Rpower (match base with Some b => b | None => 10 end) (x + INR k * (y - x) / (INR len - 1)))%R.
Proof.
  intros Hs He Hp Hl Hsup H2 Hle.
  destruct (logspace_repr R_ops c s e ds xs ys len base) as (zs & E & El & Ev); auto.
  - left. nia.
  - intros i x y Hx Hy. apply R_fle. eauto.
  - exists zs. split; auto. split; auto.
    assert (Hn : INR (len - 1) = (INR len - 1)%R) by (rewrite minus_INR by lia; reflexivity).
    assert (Hpos : (0 < INR len - 1)%R).
    { rewrite <- Hn. apply lt_0_INR. lia. }
    intros k idx x y Hk Hx Hy. rewrite (Ev k idx x y) by auto. unfold space_value.
    replace (1 <? len) with true by lia. cbn [R_ops fadd fmul fdiv fsub fof fpow]. f_equal. f_equal.
    + destruct base; auto. cbn [INR]. lra.
    + rewrite Hn. field. lra.
Qed.

Lemma ln_div x y : (0 < x)%R -> (0 < y)%R -> ln (y / x) = (ln y - ln x)%R.
Proof.
  intros Hx Hy. unfold Rdiv. rewrite ln_mult, ln_Rinv by (try apply Rinv_0_lt_compat; lra). lra.
Qed.

Lemma c43_geomspace_real c (s e : tensor R) ds xs ys len :
  repr s ds xs -> repr e ds ys -> 1 < prod ds -> length ds < 5 -> supported (len :: ds) ->
  2 <= len ->
  (forall i x y, nth_error xs i = Some x -> nth_error ys i = Some y -> (0 < x <= y)%R) ->
  exists zs, geomspace R_ops c s e len = Ok (fresh (len :: ds) zs) /\ length zs = prod (len :: ds) /\
    forall k idx x y, k < len -> elem ds xs idx = Some x -> elem ds ys idx = Some y ->
      elem (len :: ds) zs (k :: idx) = Some (x * Rpower (y / x) (INR k / (INR len - 1)))%R.
Proof.
  intros Hs He Hp Hl Hsup H2 Hle.
  destruct (geomspace_repr R_ops c s e ds xs ys len) as (zs & E & El & Ev); auto.
  - lia.
  - left. nia.
  - intros i x y Hx Hy. apply R_fle. specialize (Hle i x y Hx Hy). cbn [R_ops fln].
    destruct (Req_dec x y) as [->|Hne]; [lra|]. apply Rlt_le, ln_increasing; lra.
  - unfold geom_dims in E. destruct (Nat.eqb_spec (prod ds) 1); [lia|].
    exists zs. split; auto. split; [cbn [prod]; lia|].
    assert (Hn : INR (len - 1) = (INR len - 1)%R) by (rewrite minus_INR by lia; reflexivity).
    assert (Hpos : (0 < INR len - 1)%R).
    { rewrite <- Hn. apply lt_0_INR. lia. }
    intros k idx x y Hk Hx Hy. unfold elem. cbn [ravel]. rewrite (Ev k _ x y) by auto. unfold space_value.
    replace (1 <? len) with true by lia. cbn [R_ops fadd fmul fdiv fsub fof fln fexp]. f_equal.
    specialize (Hle _ x y Hx Hy). unfold Rpower. rewrite exp_plus, exp_ln by lra. f_equal. f_equal.
    rewrite ln_div by lra. rewrite Hn. field. lra.
Qed.

Lemma c43_geomspace_scalar c (s e : tensor R) ds x y len :
  repr s ds [x] -> repr e ds [y] -> supported [len] -> 2 <= len -> (0 < x <= y)%R ->
  exists zs, geomspace R_ops c s e len = Ok (fresh [len] zs) /\ length zs = len /\
    forall k, k < len -> nth_error zs k = Some (x * Rpower (y / x) (INR k / (INR len - 1)))%R.
Proof.
  intros Hs He Hsup H2 Hle. pose proof (repr_len _ _ _ Hs) as Lx. cbn [length] in Lx.
  destruct (geomspace_repr R_ops c s e ds [x] [y] len) as (zs & E & El & Ev); auto.
  - lia.
  - left. nia.
  - intros [|[|i]] x' y' Hx Hy; cbn in Hx, Hy; try discriminate.
    injection Hx as <-. injection Hy as <-. apply R_fle. cbn [R_ops fln].
    destruct (Req_dec x y) as [->|Hne]; [lra|]. apply Rlt_le, ln_increasing; lra.
  - unfold geom_dims in E. rewrite <- Lx in E. change (1 =? 1) with true in E. cbv iota in E.
    exists zs. split; auto. split; [lia|].
    assert (Hn : INR (len - 1) = (INR len - 1)%R) by (rewrite minus_INR by lia; reflexivity).
    assert (Hpos : (0 < INR len - 1)%R).
    { rewrite <- Hn. apply lt_0_INR. lia. }
    intros k Hk. specialize (Ev k 0 x y Hk eq_refl eq_refl).
    replace (k * prod ds + 0) with k in Ev by (rewrite <- Lx; lia). rewrite Ev. unfold space_value.
    replace (1 <? len) with true by lia. cbn [R_ops fadd fmul fdiv fsub fof fln fexp]. f_equal.
    unfold Rpower. rewrite exp_plus, exp_ln by lra. f_equal. f_equal.
    rewrite ln_div by lra. rewrite Hn. field. lra.
Qed.

Lemma c42_mgrid_real c M N :
  0 < M -> 0 < N -> supported [M; N] ->
  exists xs ys, mgrid R_ops c M N = Ok [fresh [N; M] xs; fresh [N; M] ys] /\
    length xs = N * M /\ length ys = N * M /\
    forall i j, i < N -> j < M ->
      elem [N; M] xs [i; j] = Some (INR j) /\ elem [N; M] ys [i; j] = Some (INR i).
Proof.
  intros HM HN Hs.
  assert (Hgrid : forall n, 0 < n -> supported [n] ->
    (let* s := of_value c (fzero R_ops) in
     let* e := of_value c (fsub R_ops (fof R_ops n) (fone R_ops)) in
     linspace R_ops c s e n) = Ok (fresh [n] (map INR (seq 0 n)))).
  { intros n Hn Hsn. cbn [of_value bind].
    destruct (c43_linspace R_ops c (fresh [] [fzero R_ops]) (fresh [] [fsub R_ops (fof R_ops n) (fone R_ops)])
                [] [fzero R_ops] [fsub R_ops (fof R_ops n) (fone R_ops)] n) as (zs & E & El & Ev).
    - apply repr_fresh; [split; cbn; lia|reflexivity].
    - apply repr_fresh; [split; cbn; lia|reflexivity].
    - cbn; lia.
    - cbn; lia.
    - auto.
    - left. cbn. lia.
    - intros [|[|i]] x y Hx Hy; cbn in Hx, Hy; try discriminate.
      injection Hx as <-. injection Hy as <-. apply R_fle.
      apply (le_INR 1) in Hn. cbn [INR] in Hn. lra.
    - cbn [prod] in El. rewrite Nat.mul_1_r in El. transitivity (Ok (fresh [n] zs)); [exact E|].
      do 2 f_equal. apply nth_error_ext. intros k. destruct (Nat.lt_ge_cases k n) as [Hk|Hk].
      2:{ rewrite !(proj2 (nth_error_None _ _)); auto; rewrite ?map_length, ?seq_length; lia. } specialize (Ev k [] _ _ Hk eq_refl eq_refl). unfold elem in Ev. cbn [ravel prod] in Ev.
      replace (k * 1 + 0) with k in Ev by lia. rewrite Ev.
      rewrite nth_error_map. rewrite (nth_error_nth' _ 0) by now rewrite seq_length.
      rewrite seq_nth by auto. cbn [option_map Nat.add]. f_equal. cbn [R_ops fadd fmul fdiv fsub fof fzero fone].
      destruct (Nat.ltb_spec 1 n) as [H1|H1].
      + rewrite minus_INR by lia. cbn [INR].
        assert (1 < INR n)%R by (apply (lt_INR 1); auto). field. lra.
      + assert (k = 0) by lia. subst k. cbn [INR]. lra. }
  assert (HsM : supported [M]) by (destruct Hs as [_ Hb]; split; [cbn; lia|cbn [map prod] in *; nia]).
  assert (HsN : supported [N]) by (destruct Hs as [_ Hb]; split; [cbn; lia|cbn [map prod] in *; nia]).
  unfold mgrid. rewrite (Hgrid M HM HsM). cbn [bind]. rewrite (Hgrid N HN HsN). cbn [bind].
  set (vM := map INR (seq 0 M)). set (vN := map INR (seq 0 N)).
  assert (LM : length vM = M) by (unfold vM; now rewrite map_length, seq_length).
  assert (LN : length vN = N) by (unfold vN; now rewrite map_length, seq_length).
  destruct (c42_meshgrid_xy c [fresh [M] vM; fresh [N] vN] [vM; vN]) as (ts & E & El & Ev).
  - constructor; [|constructor; [|constructor]]; rewrite ?LM, ?LN; apply repr_fresh; auto; cbn [prod]; lia.
  - cbn [map]. now rewrite LM, LN.
  - constructor; [|constructor; [|constructor]]; intros Ex; rewrite Ex in *; cbn in *; lia.
  - destruct (Ev 0 vM eq_refl) as (xs & Ex & Lx & Hx). destruct (Ev 1 vN eq_refl) as (ys & Ey & Ly & Hy).
    cbn [map rev app] in Ex, Ey, Lx, Ly, Hx, Hy. rewrite LM, LN in *.
    exists xs, ys. destruct ts as [|t0 [|t1 [|]]]; try discriminate. cbn [nth_error] in Ex, Ey.
    injection Ex as ->. injection Ey as ->. split; auto. cbn [prod] in Lx, Ly.
    split; [lia|]. split; [lia|].
    intros i j Hi Hj. assert (Hin : in_shape [M; N] [j; i]) by (repeat constructor; auto).
    specialize (Hx _ Hin). specialize (Hy _ Hin). cbn [rev app nth] in Hx, Hy. rewrite Hx, Hy.
    unfold vM, vN. rewrite !nth_error_map, !(nth_error_nth' _ 0) by now rewrite seq_length.
    rewrite !seq_nth by auto. auto.
Qed.

Lemma c43_order {F} (o : fops F) c (s e : tensor F) ds xs ys len base i x y :
  repr s ds xs -> repr e ds ys -> length ds < 5 -> supported (len :: ds) -> can_alloc c (len * prod ds) ->
  nth_error xs i = Some x -> nth_error ys i = Some y -> fle o x y = false ->
  linspace o c s e len = Panic /\ logspace o c s e len base = Panic.
Proof. intros. split; [eapply linspace_bad|eapply logspace_bad]; eauto. Qed.

Lemma c43_shapes {F} (o : fops F) c (s e : tensor F) ds ds' xs ys len base :
  repr s ds xs -> repr e ds' ys -> ds <> ds' ->
  linspace o c s e len = Panic /\ logspace o c s e len base = Panic /\ geomspace o c s e len = Panic.
Proof.
  intros Hs He Hne. unfold linspace, logspace, geomspace. rewrite (shape_mismatch s e ds ds' xs ys Hs He Hne).
  auto.
Qed.

Lemma c43_linspace_deep {F} (o : fops F) c (s e : tensor F) ds xs ys len :
  repr s ds xs -> repr e ds ys -> 5 <= length ds -> 0 < len -> supported [len] ->
  linspace o c s e len <> Ub /\ forall t, linspace o c s e len <> Ok t.
Proof. apply linspace_deep. Qed.

Lemma c43_linspace_first_b32 ln_ exp_ pow_ c (s e : tensor b32) ds xs ys len :
  repr s ds xs -> repr e ds ys -> 0 < prod ds -> length ds < 5 -> supported (len :: ds) -> 0 < len ->
  (forall i x y, nth_error xs i = Some x -> nth_error ys i = Some y ->
     Bleb x y = true /\ is_finite x = true /\
     is_finite (@Bminus 24 128 b32_prec b32_emax mode_NE y x) = true) ->
  exists zs, linspace (b32_ops ln_ exp_ pow_) c s e len = Ok (fresh (len :: ds) zs) /\
    forall idx x y, elem ds xs idx = Some x -> elem ds ys idx = Some y ->
      exists z, elem (len :: ds) zs (0 :: idx) = Some z /\ Beqb z x = true.
Proof.
  intros Hs He Hp Hl Hsup Hlen Hle.
  destruct (c43_linspace (b32_ops ln_ exp_ pow_) c s e ds xs ys len) as (zs & E & El & Ev); auto.
  - left. nia.
  - intros i x y Hx Hy. destruct (Hle i x y Hx Hy) as [H _]. exact H.
  - exists zs. split; auto. intros idx x y Hx Hy. eexists. split; [apply (Ev 0 idx x y); auto|].
    destruct (Hle _ x y Hx Hy) as (_ & Hf & Hd).
    apply b32_add_zero; auto. destruct (Nat.ltb_spec 1 len); [|reflexivity].
    apply b32_div_nat_finite; [exact Hd|lia|].
    destruct Hsup as [_ Hb]. cbn [map prod] in Hb.
    assert (1 <= prod (map (Nat.max 1) ds)) by apply prod1_pos. nia.
Qed.

Lemma Some_inj {A} (x y : A) : Some x = Some y -> x = y.
Proof. congruence. Qed.

Lemma c43_linspace_b32_refuted ln_ exp_ pow_ :
  let o := b32_ops ln_ exp_ pow_ in
  (exists z zs, linspace o dev (fresh [] [fmin_value o]) (fresh [] [fmax_value o]) 2 = Ok (fresh [2] (z :: zs)) /\
     is_nan z = true) /\
  (exists zs z, linspace o dev (fresh [] [fzero o]) (fresh [] [fone o]) 42 = Ok (fresh [42] zs) /\
     nth_error zs 41 = Some z /\ Beqb z (fone o) = false).
Proof.
  cbv zeta. split.
  - exists B754_nan, [B754_infinity false]. split; [vm_compute; reflexivity|reflexivity].
  - destruct (c43_linspace (b32_ops ln_ exp_ pow_) dev (fresh [] [b32_of_Z 0 0]) (fresh [] [b32_of_Z 1 0]) []
                [b32_of_Z 0 0] [b32_of_Z 1 0] 42) as (zs & E & _ & Ev).
    + apply repr_fresh; [split; cbn; lia|reflexivity].
    + apply repr_fresh; [split; cbn; lia|reflexivity].
    + cbn; lia.
    + cbn; lia.
    + split; cbn; lia.
    + left. cbn. lia.
    + intros [|[|i]] x y Hx Hy; cbn in Hx, Hy; try discriminate.
      apply Some_inj in Hx, Hy. subst. vm_compute. reflexivity.
    + exists zs. eexists. split; [exact E|]. split.
      * apply (Ev 41 [] (b32_of_Z 0 0) (b32_of_Z 1 0)); [lia|reflexivity|reflexivity].
      * vm_compute. reflexivity.
Qed.

(** ** C44 *)

Lemma c44_arange_result {F} (o : fops F) c fuel start end_ step r :
  feq o step (fzero o) = false -> fle o start end_ = true -> flt o (fzero o) step = true ->
  arange o c fuel start end_ step = Some r ->
  exists N, r = of_vec c (map (fun k => iterate (fun x => fadd o x step) k start) (seq 0 N)) /\
    (forall k, k < N -> flt o (iterate (fun x => fadd o x step) k start) end_ = true) /\
    flt o (iterate (fun x => fadd o x step) N start) end_ = false.
Proof.
  intros H0 Hle Hlt. unfold arange. rewrite H0, Hle, Hlt. cbn [andb].
  assert (Hgen : forall fuel start vec l, arange_up o fuel start end_ step vec = Some l ->
    exists N, l = vec ++ map (fun k => iterate (fun x => fadd o x step) k start) (seq 0 N) /\
      (forall k, k < N -> flt o (iterate (fun x => fadd o x step) k start) end_ = true) /\
      flt o (iterate (fun x => fadd o x step) N start) end_ = false).
  { clear. intros fuel. induction fuel as [|fuel IH]; intros start vec l E; cbn [arange_up] in E;
      destruct (flt o start end_) eqn:Es; try discriminate.
    - injection E as <-. exists 0. cbn. rewrite app_nil_r. repeat split; auto. intros; lia.
    - destruct (IH _ _ _ E) as (N & El & H1 & H2). exists (S N). split; [|split].
      + rewrite El, <- app_assoc. f_equal. cbn [seq map app iterate]. f_equal.
        rewrite <- seq_shift, map_map. reflexivity.
      + intros [|k] Hk; [exact Es|]. apply (H1 k). lia.
      + exact H2.
    - injection E as <-. exists 0. cbn. rewrite app_nil_r. repeat split; auto. intros; lia. }
  intros E. destruct (arange_up o fuel start end_ step []) as [l|] eqn:El; [|discriminate].
  cbn [option_map] in E. injection E as <-.
  destruct (Hgen _ _ _ _ El) as (N & El' & H1 & H2). exists N. rewrite El'. auto.
Qed.

Lemma c44_arange_real c start end_ step :
  (0 < step)%R -> (start <= end_)%R ->
  exists N, (forall k, k < N <-> (start + INR k * step < end_)%R) /\
    (supported [N] -> forall fuel, N <= fuel ->
      arange R_ops c fuel start end_ step
      = Some (Ok (fresh [N] (map (fun k => (start + INR k * step)%R) (seq 0 N))))).
Proof.
  intros Hs Hle. destruct (progression_length start end_ step Hs) as [N HN].
  exists N. split; auto. intros Hsup fuel Hf. unfold arange.
  replace (feq R_ops step (fzero R_ops)) with false.
  2:{ symmetry. destruct (feq R_ops step (fzero R_ops)) eqn:E; auto. apply R_feq in E. cbn in E. lra. }
  replace (fle R_ops start end_) with true by (symmetry; now apply R_fle).
  replace (flt R_ops (fzero R_ops) step) with true by (symmetry; now apply R_flt). cbn [andb].
  assert (Hend : (end_ <= start + INR N * step)%R).
  { apply Rnot_lt_le. intros Hn. apply HN in Hn. lia. }
  rewrite (arange_up_spec N); auto; [|intros; now apply HN].
  cbn [option_map app]. f_equal. rewrite of_vec_canon; rewrite map_length, seq_length; auto.
Qed.

Lemma c44_arange_int_b32 ln_ exp_ pow_ c a e s N :
  (0 < s <= 16777216)%Z -> (- 16777216 <= a <= e)%Z -> (e + s <= 16777216)%Z ->
  (forall k, k < N <-> (a + Z.of_nat k * s < e)%Z) -> supported [N] ->
  forall fuel, N <= fuel ->
    arange (b32_ops ln_ exp_ pow_) c fuel (b32_of_Z a 0) (b32_of_Z e 0) (b32_of_Z s 0)
    = Some (Ok (fresh [N] (map (fun k => b32_of_Z (a + Z.of_nat k * s) 0) (seq 0 N)))).
Proof.
  intros Hs Ha He HN Hsup fuel Hf. unfold arange.
  change (fzero (b32_ops ln_ exp_ pow_)) with (b32_of_Z 0 0).
  rewrite b32_eq_int, b32_le_int, b32_lt_int by lia.
  replace (s =? 0)%Z with false by lia. replace (a <=? e)%Z with true by lia.
  replace (0 <? s)%Z with true by lia. cbn [andb].
  rewrite (arange_up_int ln_ exp_ pow_ N) by (auto; lia).
  cbn [option_map app]. f_equal. rewrite of_vec_canon; rewrite map_length, seq_length; auto.
Qed.

Lemma c44_arange_direction c fuel start end_ step :
  (step = 0 \/ (start < end_ /\ step < 0) \/ (end_ < start /\ 0 < step))%R ->
  arange R_ops c fuel start end_ step = Some Panic.
Proof.
  intros H. unfold arange. destruct (feq R_ops step (fzero R_ops)) eqn:E0; auto.
  assert (Hne : step <> 0%R) by (intros E; apply (R_feq step (fzero R_ops)) in E; rewrite E in E0; discriminate).
  destruct H as [H|[[H1 H2]|[H1 H2]]]; [contradiction| |].
  - replace (flt R_ops (fzero R_ops) step) with false by (symmetry; apply R_flt_false; cbn; lra).
    replace (fle R_ops end_ start) with false by (symmetry; now apply R_fle_false).
    rewrite andb_false_r. reflexivity.
  - replace (fle R_ops start end_) with false by (symmetry; now apply R_fle_false).
    replace (flt R_ops step (fzero R_ops)) with false by (symmetry; apply R_flt_false; cbn; lra).
    cbn [andb]. rewrite andb_false_r. reflexivity.
Qed.

Lemma c44_arange_refuted c start end_ step :
  (step < 0)%R -> (end_ < start)%R -> forall fuel, arange R_ops c fuel start end_ step = None.
Proof.
  intros Hs Hlt fuel. unfold arange.
  replace (feq R_ops step (fzero R_ops)) with false.
  2:{ symmetry. destruct (feq R_ops step (fzero R_ops)) eqn:E; auto. apply R_feq in E. cbn in E. lra. }
  replace (fle R_ops start end_) with false by (symmetry; now apply R_fle_false).
  replace (fle R_ops end_ start) with true by (symmetry; apply R_fle; lra).
  replace (flt R_ops step (fzero R_ops)) with true by (symmetry; now apply R_flt). cbn [andb].
  now rewrite arange_down_R.
Qed.

Lemma c44_arange_b32_refuted ln_ exp_ pow_ c (start end_ step : b32) :
  is_finite end_ = true -> is_finite step = true ->
  Bltb step (B754_zero false) = true -> Bltb end_ start = true ->
  forall fuel, arange (b32_ops ln_ exp_ pow_) c fuel start end_ step = None.
Proof.
  intros He Hs Hneg Hlt fuel. unfold arange.
  assert (Hneg' : flt (b32_ops ln_ exp_ pow_) step (fzero (b32_ops ln_ exp_ pow_)) = true) by exact Hneg.
  change (fzero (b32_ops ln_ exp_ pow_)) with (B754_zero false : b32) in *.
  replace (feq (b32_ops ln_ exp_ pow_) step (B754_zero false)) with false
    by (destruct step as [|[]| |[]]; cbn in *; congruence).
  replace (flt (b32_ops ln_ exp_ pow_) (B754_zero false) step) with false
    by (destruct step as [|[]| |[]]; cbn in *; congruence).
  rewrite andb_false_r, Hneg'.
  assert (Hle : fle (b32_ops ln_ exp_ pow_) end_ start = true).
  { cbn [fle b32_ops]. unfold Bleb, Bltb, SpecFloat.SFleb, SpecFloat.SFltb in *.
    destruct (SpecFloat.SFcompare (B2SF end_) (B2SF start)) as [[]|]; congruence. }
  rewrite Hle. cbn [andb]. now rewrite arange_down_b32.
Qed.

Lemma c44_arange_stuck_refuted ln_ exp_ pow_ c :
  forall fuel, arange (b32_ops ln_ exp_ pow_) c fuel (b32_of_Z 16777216 0) (b32_of_Z 16777218 0) (b32_of_Z 1 0)
               = None.
Proof.
  intros fuel. unfold arange.
  replace (feq _ _ _) with false by (vm_compute; reflexivity).
  replace (fle _ _ _ && flt _ _ _) with true by (vm_compute; reflexivity).
  rewrite arange_up_stuck; [reflexivity|vm_compute; reflexivity|].
  cbn [fadd b32_ops]. apply B2SF_inj. vm_compute. reflexivity.
Qed.

(** ** C45 *)

Lemma c45_one_hot {F} (o : fops F) c indices depth :
  supported [depth] -> Forall (fun i => i < depth) indices ->
  exists ys, one_hot o c indices depth = Ok (fresh [depth] ys) /\ length ys = depth /\
    forall k, k < depth ->
      (In k indices -> nth_error ys k = Some (fone o)) /\ (~ In k indices -> nth_error ys k = Some (fzero o)).
Proof.
  intros Hs Hi. unfold one_hot.
  destruct (one_hot_loop (fone o) indices (repeat (fzero o) depth)) as (l & E & El & Ev).
  { now rewrite repeat_length. }
  rewrite repeat_length in El, Ev. rewrite E. cbn [bind]. exists l. split; [|split; auto].
  - rewrite of_vec_canon; rewrite El; auto.
  - intros k Hk. rewrite Ev by auto. destruct (existsb (Nat.eqb k) indices) eqn:Ex.
    + apply existsb_In in Ex. split; [auto|contradiction].
    + split; intros Hin.
      * apply existsb_In in Hin. congruence.
      * now rewrite nth_error_repeat.
Qed.

Lemma c45_one_hot_range {F} (o : fops F) c indices depth i :
  In i indices -> depth <= i -> one_hot o c indices depth = Panic.
Proof.
  intros Hin Hle. unfold one_hot. rewrite (one_hot_loop_bad _ _ _ i); auto. now rewrite repeat_length.
Qed.
