(** * What [subslice] does when its range wraps around (C14): proofs *)
From Coq Require Import ZifyBool ZifyNat ZifyN.
From Verif Require Import Base ShapeModel TensorModel AxisModel MapModel ArrayModel NumModel Spec BaseFacts
  ShapeFacts ShapeFacts2 CoordFacts TensorFacts TensorFacts2 MapFacts ArrayFacts SplitFacts StackFacts SafeFacts SafetyFacts ShapeSpec ShapeProofs TensorSpec TensorProofs MapSpec MapProofs ExactProofs.
Ltac Zify.zify_post_hook ::= idtac.

Lemma arith_wrap c m v : (0 < m)%Z -> overflow_checks c = false -> arith c m v = Ok (Z.to_nat (v mod m)).
Proof.
  intros Hm Hc. unfold arith. rewrite Hc. destruct ((0 <=? v) && (v <? m))%Z eqn:E; [|reflexivity].
  rewrite Z.mod_small by lia. reflexivity.
Qed.

Lemma wrap_sum (x y s B e : Z) :
  (0 < B)%Z -> (x + y = B + e)%Z -> (0 <= e)%Z -> (0 <= s)%Z -> (e * s < B)%Z -> (((x * s) mod B + (y * s) mod B) mod B = e * s)%Z.
Proof.
  intros HB Hxy He Hs Hes. rewrite <- Z.add_mod, <- Z.mul_add_distr_r, Hxy by lia.
  rewrite Z.mul_add_distr_r, Z.add_comm, Z.mul_comm with (n := B), Z.mod_add by lia. apply Z.mod_small. nia.
Qed.

Lemma mod_mod_div (x a b : Z) : (0 < a -> 0 < b -> (x mod (a * b)) mod a = x mod a)%Z.
Proof. intros Ha Hb. rewrite Z.rem_mul_r by lia. rewrite Z.mul_comm with (n := a), Z.mod_add, Z.mod_mod by lia. reflexivity. Qed.

Lemma c14_release_exact {A} c (t : tensor A) d ds xs o n w O L :
  repr t (d :: ds) xs -> Forall (fun d => 0 < d) ds -> overflow_checks c = false ->
  (Z.of_nat o < 18446744073709551616)%Z -> (Z.of_nat n < 18446744073709551616)%Z ->
  (18446744073709551616 <= Z.of_nat o + Z.of_nat n)%Z ->
  (Z.of_nat w = Z.of_nat n mod 4294967296)%Z ->
  (Z.of_nat O = (Z.of_nat o * Z.of_nat (prod ds)) mod 18446744073709551616)%Z ->
  (Z.of_nat L = (Z.of_nat n * Z.of_nat (prod ds)) mod 18446744073709551616)%Z ->
  subslice c t o n =
  (if (Z.of_nat o + Z.of_nat n <=? 18446744073709551616 + Z.of_nat d)%Z && (O <=? length xs) && (Z.of_nat L <? 4294967296)%Z
   then Ok (mkTensor (canon (w :: ds)) (toffset t + O) L (tdata t)) else Panic).
Proof.
  intros H Hpos Hc Ho Hn Hon Hw HO HL. pose proof H as [Hs Hshape Hsize Hlen _ Hmem].
  pose proof (supported_len _ Hs) as Hl.
  pose proof (prod_pos _ Hpos) as Hpp. pose proof (repr_offset_bound _ _ _ H) as Hoff. unfold two63 in Hoff.
  pose proof (supported_prod _ Hs) as Hp. unfold two32 in Hp. cbn [prod] in Hp, Hlen.
  pose proof (supported_prod1 _ Hs) as Hp1. rewrite prod1_cons in Hp1. unfold two32 in Hp1.
  assert (HP : (Z.of_nat (prod ds) < 4294967296)%Z).
  { pose proof (prod_le_prod1 ds). pose proof (prod1_pos ds). nia. }
  unfold subslice. rewrite Hshape.
  rewrite dim_canon by (cbn; auto; lia). cbn [nth bind].
  unfold uadd at 1. rewrite arith_wrap by (try exact Hc; reflexivity). cbn [bind].
  replace ((Z.of_nat o + Z.of_nat n) mod two64)%Z with (Z.of_nat o + Z.of_nat n - two64)%Z.
  2: { apply Z.mod_unique with (q := 1%Z); unfold two64; lia. }
  destruct (Z.leb_spec (Z.of_nat o + Z.of_nat n) (18446744073709551616 + Z.of_nat d)) as [Hd|Hd].
  2: { rewrite assert_false; [reflexivity|]. unfold two64. lia. }
  rewrite assert_true by (unfold two64; lia). cbn [bind andb].
  rewrite as_vec_canon by auto. cbn [bind].
  rewrite aslice_ok by (cbn [length]; lia). cbn [bind].
  cbn [skipn length]. replace (S (length ds) - 1) with (length ds) by lia.
  rewrite firstn_all.
  rewrite product64_ok.
  2: { rewrite prod1_id by auto. unfold two64. lia. }
  rewrite Nat.mul_1_l. cbn [bind]. rewrite aset_ok by (cbn; lia). cbn [bind set_nth].
  unfold umul at 1. rewrite arith_wrap by (try exact Hc; reflexivity). cbn [bind].
  unfold umul at 1. rewrite arith_wrap by (try exact Hc; reflexivity). cbn [bind].
  fold two64 in HO, HL. rewrite <- HO, <- HL, !Nat2Z.id.
  rewrite from_vec_dims_canon by (auto; constructor; auto; lia). cbn [map].
  rewrite map_as_u32_small by (pose proof (supported_small _ Hs) as Hsm; inversion Hsm; auto).
  replace (as_u32 n) with w by (unfold as_u32; fold two32 in Hw; lia).
  unfold subslice_flat. rewrite Hsize.
  destruct (Nat.leb_spec O (length xs)) as [HOl|HOl]; [|rewrite assert_false by lia; reflexivity].
  rewrite assert_true by lia. cbn [bind andb].
  unfold uadd at 1. rewrite arith_wrap by (try exact Hc; reflexivity). cbn [bind].
  pose (e := (Z.of_nat o + Z.of_nat n - two64)%Z).
  assert (Ee : ((Z.of_nat O + Z.of_nat L) mod two64 = e * Z.of_nat (prod ds))%Z).
  { rewrite HO, HL. apply wrap_sum; unfold e, two64; nia. }
  assert (Hle : (0 <= e * Z.of_nat (prod ds) <= Z.of_nat (length xs))%Z).
  { rewrite Hlen, Nat2Z.inj_mul. unfold e, two64. split; [apply Z.mul_nonneg_nonneg; lia|apply Z.mul_le_mono_nonneg_r; lia]. }
  rewrite Ee. rewrite assert_true by (clear - Hle; lia). cbn [bind].
  destruct (c10_release_exact c (w :: ds) Hc) as (m & Em & Hm); [cbn [length] in Hl |- *; clear - Hl; lia|].
  rewrite Em. cbn [bind].
  assert (HmL : (Z.of_nat m = Z.of_nat L mod 4294967296)%Z).
  { rewrite Hm, HL. cbn [prod]. rewrite Nat2Z.inj_mul, Hw, Z.mul_mod_idemp_l by lia.
    symmetry. apply (mod_mod_div _ 4294967296 4294967296); reflexivity. }
  destruct (Z.ltb_spec (Z.of_nat L) 4294967296) as [HLl|HLl].
  - rewrite Z.mod_small in HmL by lia. rewrite assert_true by lia. cbn [bind].
    rewrite uadd_ok by (unfold two64; lia). reflexivity.
  - pose proof (Z.mod_pos_bound (Z.of_nat L) 4294967296 eq_refl). rewrite assert_false by lia. reflexivity.
Qed.


Lemma slice_view {A} (t : tensor A) ds xs s O L :
  repr t ds xs -> O + L <= length xs -> as_slice (mkTensor s (toffset t + O) L (tdata t)) = Ok (firstn L (skipn O xs)).
Proof.
  intros [_ _ _ _ (pre & post & Hd & Hp) _] Hl. unfold as_slice. cbn [toffset tsize tdata].
  unfold raw_slice. rewrite Hd, !app_length. destruct (Nat.leb_spec (toffset t + O + L) (length pre + (length xs + length post))); [|lia].
  rewrite skipn_app, (skipn_all2 pre) by lia. cbn [app]. rewrite skipn_app.
  rewrite firstn_app. replace (L - length (skipn (toffset t + O - length pre) xs)) with 0 by (rewrite skipn_length; lia).
  cbn [firstn]. rewrite app_nil_r. now replace (toffset t + O - length pre) with O by lia.
Qed.

Lemma c14_inside {A} c (t t' : tensor A) d ds xs o n :
  repr t (d :: ds) xs -> (Z.of_nat o < 18446744073709551616)%Z -> (Z.of_nat n < 18446744073709551616)%Z ->
  subslice c t o n = Ok t' ->
  exists O, O + tsize t' <= length xs /\ as_slice t' = Ok (firstn (tsize t') (skipn O xs)).
Proof.
  intros H Ho Hn E. pose proof (repr_len _ _ _ H) as Hlen. cbn [prod] in Hlen.
  destruct (Z.lt_ge_cases (Z.of_nat o + Z.of_nat n) 18446744073709551616) as [Hw|Hw].
  - assert (Hg : ~ (n = 0 \/ d < o + n \/ ~ positive ds)).
    { intros Hg. rewrite (c13_subslice_rejects c t d ds xs o n H Hw Hg) in E. discriminate. }
    assert (Hpos : Forall (fun d => 0 < d) ds).
    { apply Forall_forall. intros x Hx. destruct x; [|lia]. exfalso. apply Hg. right. right. unfold positive. rewrite Forall_forall. intros Hf. specialize (Hf 0 Hx). lia. }
    rewrite (subslice_canon c t d ds xs o n) in E by (auto; lia). injection E as <-. cbn [tsize].
    exists (o * prod ds). assert (o * prod ds + n * prod ds <= length xs) by nia. split; [auto|]. eapply slice_view; eauto.
  - destruct (overflow_checks c) eqn:Hc.
    { rewrite (c14_checked c t d ds xs o n H Hc) in E; try discriminate; auto. 
      pose proof (repr_mem _ _ _ H). pose proof (supported_in _ _ (repr_supported _ _ _ H) (or_introl eq_refl)). unfold two32 in *. lia. }
    assert (Hpos : Forall (fun d => 0 < d) ds).
    { apply Forall_forall. intros x Hx. destruct x; [|lia]. exfalso. revert E. unfold subslice.
      rewrite (repr_shape _ _ _ H). pose proof (supported_len _ (repr_supported _ _ _ H)) as Hl.
      rewrite dim_canon by (cbn; auto; lia). cbn [nth bind].
      unfold uadd at 1. rewrite arith_wrap by (try exact Hc; reflexivity). cbn [bind]. unfold assert_ at 1. destruct (_ <=? _); [|discriminate]. cbn [bind].
      rewrite as_vec_canon by auto. cbn [bind].
      rewrite aslice_ok by (cbn [length]; lia). cbn [bind skipn length]. replace (S (length ds) - 1) with (length ds) by lia. rewrite firstn_all.
      destruct (product64 c 1 ds) as [s| |]; cbn [bind]; try discriminate.
      rewrite aset_ok by (cbn; lia). cbn [bind set_nth].
      destruct (umul c o s) as [a| |]; cbn [bind]; try discriminate.
      destruct (umul c n s) as [b| |]; cbn [bind]; try discriminate.
      rewrite from_vec_dims_zero by now right. unfold subslice_flat, assert_.
      destruct (_ <=? _); cbn [bind]; try discriminate. destruct (uadd _ _ _); cbn [bind]; try discriminate. destruct (_ <=? _); discriminate. }
    set (w := Z.to_nat (Z.of_nat n mod 4294967296)).
    set (O := Z.to_nat ((Z.of_nat o * Z.of_nat (prod ds)) mod 18446744073709551616)).
    set (L := Z.to_nat ((Z.of_nat n * Z.of_nat (prod ds)) mod 18446744073709551616)).
    pose proof (Z.mod_pos_bound (Z.of_nat n) 4294967296 eq_refl).
    pose proof (Z.mod_pos_bound (Z.of_nat o * Z.of_nat (prod ds)) 18446744073709551616 eq_refl).
    pose proof (Z.mod_pos_bound (Z.of_nat n * Z.of_nat (prod ds)) 18446744073709551616 eq_refl).
    assert (HO : (Z.of_nat O = (Z.of_nat o * Z.of_nat (prod ds)) mod 18446744073709551616)%Z) by (unfold O; lia).
    assert (HL : (Z.of_nat L = (Z.of_nat n * Z.of_nat (prod ds)) mod 18446744073709551616)%Z) by (unfold L; lia).
    rewrite (c14_release_exact c t d ds xs o n w O L) in E; auto; [|unfold w; lia].
    destruct (Z.leb_spec (Z.of_nat o + Z.of_nat n) (18446744073709551616 + Z.of_nat d)) as [Hd|]; [|discriminate].
    destruct (Nat.leb_spec O (length xs)); [|discriminate]. destruct (Z.ltb_spec (Z.of_nat L) 4294967296); [|discriminate].
    cbn [andb] in E. injection E as <-. cbn [tsize].
    pose proof (supported_prod _ (repr_supported _ _ _ H)) as Hp. unfold two32 in Hp. cbn [prod] in Hp.
    assert (Ee : ((Z.of_nat O + Z.of_nat L) mod 18446744073709551616 = (Z.of_nat o + Z.of_nat n - 18446744073709551616) * Z.of_nat (prod ds))%Z).
    { rewrite HO, HL. apply wrap_sum; nia. }
    rewrite Z.mod_small in Ee by lia.
    assert (Hle : ((Z.of_nat o + Z.of_nat n - 18446744073709551616) * Z.of_nat (prod ds) <= Z.of_nat (length xs))%Z).
    { rewrite Hlen, Nat2Z.inj_mul. apply Z.mul_le_mono_nonneg_r; lia. }
    assert (O + L <= length xs) by (clear - Ee Hle; lia). exists O. split; [auto|]. eapply slice_view; eauto.
Qed.
