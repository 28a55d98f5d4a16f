(** * What the code does where a property as stated fails: exact characterisations: proofs *)
From Coq Require Import ZifyBool ZifyNat ZifyN.
From Verif Require Import Base ShapeModel TensorModel AxisModel MapModel ArrayModel NumModel Spec BaseFacts
  ShapeFacts ShapeFacts2 CoordFacts TensorFacts TensorFacts2 MapFacts ArrayFacts SplitFacts StackFacts SafeFacts SafetyFacts ShapeSpec ShapeProofs TensorSpec TensorProofs MapSpec MapProofs.

Ltac Zify.zify_post_hook ::= Z.div_mod_to_equations.

(** ** C02 *)

Lemma as_vec_raw c s : length (dims s) = 6 -> rank s <= 6 -> as_vec c s = Ok (rev (firstn (rank s) (dims s))).
Proof.
  destruct s as [l r]. cbn [dims rank]. intros Hl Hr.
  do 6 (destruct l as [|? l]; [discriminate|]). destruct l; [|discriminate].
  do 7 (destruct r as [|r]; [reflexivity|]). exfalso. lia.
Qed.

Lemma c02_exact c a b :
  length (dims a) = 6 -> length (dims b) = 6 -> rank a <= 6 -> rank b <= 6 ->
  (shape_eqb a b = true <->
   as_vec c a = as_vec c b /\ forall i, rank a <= i < 6 -> nth i (dims a) 0 = nth i (dims b) 0).
Proof.
  intros La Lb Ra Rb. rewrite !as_vec_raw by auto. unfold shape_eqb. split.
  - intros H. apply andb_prop in H as [H1 H2]. destruct (list_eq_dec _ _ _) as [E|]; [|discriminate].
    apply Nat.eqb_eq in H2. rewrite E, H2. auto.
  - intros [Hv Hh]. apply Ok_inj in Hv. apply (f_equal (@rev nat)) in Hv. rewrite !rev_involutive in Hv.
    assert (Er : rank a = rank b).
    { apply (f_equal (@length nat)) in Hv. rewrite !firstn_length in Hv. lia. }
    assert (Ed : dims a = dims b).
    { apply (nth_ext _ _ 0 0); [lia|]. intros i Hi. destruct (Nat.lt_ge_cases i (rank a)) as [Hlt|Hge].
      - rewrite <- (firstn_skipn (rank a) (dims a)), <- (firstn_skipn (rank b) (dims b)).
        rewrite !app_nth1 by (rewrite firstn_length; lia). now rewrite Hv.
      - apply Hh. lia. }
    rewrite Ed, Er, Nat.eqb_refl. destruct (list_eq_dec _ _ _); [reflexivity|congruence].
Qed.

(** ** C04 *)

Lemma c04_exact c ds i v :
  length ds <= 6 -> i <= length ds ->
  ((exists s, insert c (canon ds) i v = Ok s) <-> length ds < 6 /\ ~ (length ds = 5 /\ i = 0)).
Proof.
  intros Hl Hi. split.
  - intros [s H]. destruct (Nat.eq_dec (length ds) 6) as [E6|].
    + exfalso. unfold insert in H. rewrite usub_ok in H by (cbn; unfold two64; lia). cbn [bind canon rank] in H.
      destruct (Nat.le_gt_cases 5 (length ds - i)) as [H5|H5].
      * rewrite rinsert_panic5 in H; [discriminate| |lia]. now rewrite canon_dims_length.
      * clear -H E6 H5. ds_cases ds E6; cbn in E6; try lia. cbn [length] in H, H5.
        destruct i as [|[|[|[|[|[|[|i]]]]]]]; cbn in H, H5; try discriminate; lia.
    + split; [lia|]. intros [E5 ->]. rewrite c04_rank5_always_panics in H by auto. discriminate.
  - intros [H6 H5]. now apply c04_insert_total_partial.
Qed.

(** ** C06 *)

Lemma c06_exact c ds a :
  0 < length ds <= 6 -> (- two63 <= a)%Z -> (a + 6 < two63)%Z ->
  let r := Z.of_nat (length ds) in
  let p := Z.to_nat (a mod r) in
  squeeze c (canon ds) (Some a) =
  if ((- r <=? a) || (a mod r =? 0))%Z
  then Ok (canon (if (0 <? p) && (nth (p - 1) ds 0 =? 1)
                  then match remove_at (p - 1) ds with [] => [1] | l => l end
                  else ds))
  else if overflow_checks c then Panic else Ok (canon ds).
Proof.
  intros Hl Hlo Hhi r p.
  assert (Hr : (0 < r <= 6)%Z) by (unfold r; lia).
  pose proof (Z.mod_pos_bound a r ltac:(lia)) as Hm.
  assert (Hp : p < length ds) by (unfold p, r in *; lia).
  assert (Hsame : forall v, Z.rem v r = (a mod r)%Z -> (- two63 <= v < two63)%Z -> v = (a + r)%Z ->
    squeeze c (canon ds) (Some a) = squeeze c (canon ds) (Some (Z.of_nat p))).
  { intros v Hv Hb Ev. unfold squeeze. cbn [canon rank]. fold r. rewrite !iadd_ok by (unfold two63 in *; lia).
    cbn [bind]. rewrite assert_true by (unfold r in *; lia). cbn [bind].
    rewrite <- Ev, Hv. replace (Z.rem (Z.of_nat p + r) r) with (a mod r)%Z; [reflexivity|].
    rewrite Z.rem_mod_nonneg by lia. unfold p. rewrite Z2Nat.id by lia. symmetry.
    replace (a mod r + r)%Z with (a mod r + 1 * r)%Z by lia. rewrite Z_mod_plus_full. rewrite Z.mod_mod by lia. reflexivity. }
  assert (Em : ((a + r) mod r)%Z = (a mod r)%Z)
    by (rewrite <- (Z_mod_plus_full a 1 r); f_equal; lia).
  destruct (Z.leb_spec (- r) a) as [Hle|Hgt]; cbn [orb].
  - rewrite (Hsame (a + r)%Z); [| |unfold two63 in *; lia|reflexivity].
    + apply c06_squeeze_axis_actual; lia.
    + rewrite Z.rem_mod_nonneg by lia. exact Em.
  - set (v := (a + r)%Z) in *.
    assert (Erem : Z.rem v r = (- ((- v) mod r))%Z).
    { rewrite <- (Z.opp_involutive v) at 1. rewrite Z.rem_opp_l by lia.
      rewrite Z.rem_mod_nonneg by lia. reflexivity. }
    pose proof (Z.mod_pos_bound (- v) r ltac:(lia)).
    destruct (Z.eqb_spec (a mod r) 0) as [E0|E0].
    + assert (E1 : ((- v) mod r = 0)%Z) by (apply Z_mod_zero_opp_full; lia).
      rewrite (Hsame v); [| |unfold two63 in *; lia|reflexivity].
      * apply c06_squeeze_axis_actual; lia.
      * rewrite Erem. lia.
    + assert (E1 : ((- v) mod r <> 0)%Z).
      { intros E1. apply Z_mod_zero_opp_full in E1. rewrite Z.opp_involutive in E1. lia. }
      unfold squeeze. cbn [canon rank]. fold r. fold v. rewrite iadd_ok by (fold v; unfold two63 in *; lia). cbn [bind].
      rewrite assert_true by (unfold r in *; lia). cbn [bind]. fold v. rewrite Erem.
      set (q := ((- v) mod r)%Z) in *.
      assert (Eu : Z.of_nat (as_usize (- q)) = (two64 - q)%Z).
      { unfold as_usize. rewrite Z2Nat.id by (apply Z.mod_pos_bound; reflexivity).
        rewrite <- (Z_mod_plus_full _ 1). rewrite Z.mod_small; unfold two64; lia. }
      destruct (overflow_checks c) eqn:Ec.
      * unfold usub. rewrite arith_panic; auto. unfold two64 in *. lia.
      * unfold usub. rewrite arith_wrap; auto; [|unfold two64 in *; lia]. cbn [bind].
        rewrite Eu. replace (Z.of_nat (length ds) - (two64 - q))%Z with (r + q + (-1) * two64)%Z by (unfold r; lia).
        rewrite Z_mod_plus_full, Z.mod_small by (unfold two64; lia).
        set (k := Z.to_nat (r + q)). assert (Hk : length ds < k) by (unfold k, r; lia).
        clearbody k. clear -Hl Hk.
        assert (Hkeep : forall i, i < length ds -> (i =? k) = false) by (intros; lia).
        clear Hk. destruct Hl as [Hl0 Hl]. unfold squeeze_loop.
        ds_cases ds Hl; [cbn in Hl0; lia|..]; cbn [length rank canon dims] in *.
        all: cbn -[Nat.eqb].
        all: rewrite ?(Hkeep 0), ?(Hkeep 1), ?(Hkeep 2), ?(Hkeep 3), ?(Hkeep 4), ?(Hkeep 5) by lia; cbn; reflexivity.
Qed.

(** ** C07 *)

Lemma rev_repeat {A} (x : A) n : rev (repeat x n) = repeat x n.
Proof.
  induction n as [|n IH]; [reflexivity|]. cbn [repeat rev]. rewrite IH. clear.
  induction n as [|n IH]; [reflexivity|]. cbn [repeat app]. now rewrite IH.
Qed.

Lemma c07_exact c ds tail :
  length ds <= 6 ->
  (6 < length ds + length tail -> append_dims (canon ds) tail = Panic) /\
  (length ds + length tail <= 6 ->
   exists s, append_dims (canon ds) tail = Ok s /\ rank s = length ds + 6 /\
     dims s = rev ds ++ map as_u32 tail ++ repeat 0 (6 - length ds - length tail) /\
     (ds <> [] -> as_vec c s = Panic) /\
     (ds = [] -> as_vec c s = Ok (repeat 0 (6 - length tail) ++ rev (map as_u32 tail)))).
Proof.
  intros Hl.
  assert (Hloop : forall n, n <= length tail -> length ds + n <= 6 ->
    for_ n (fun i l => let* d := aget tail i in aset l (i + length ds) (as_u32 d)) (dims (canon ds))
    = Ok (rev ds ++ map as_u32 (firstn n tail) ++ repeat 0 (6 - length ds - n))).
  { intros n Hn H6.
    destruct (for_inv (fun k l => l = rev ds ++ map as_u32 (firstn k tail) ++ repeat 0 (6 - length ds - k)) n
      (fun i l => let* d := aget tail i in aset l (i + length ds) (as_u32 d)) (dims (canon ds))) as (l & E & ->).
    - intros k l Hk ->. rewrite (aget_nth _ _ 0) by lia. cbn [bind].
      assert (Hfl : length (firstn k tail) = k) by (rewrite firstn_length; lia).
      rewrite aset_ok by (rewrite !app_length, rev_length, map_length, repeat_length; lia).
      eexists. split; [reflexivity|].
      replace (6 - length ds - k) with (S (6 - length ds - S k)) by lia. cbn [repeat].
      rewrite !app_assoc.
      replace (k + length ds) with (length (rev ds ++ map as_u32 (firstn k tail)))
        by (rewrite app_length, rev_length, map_length; lia).
      rewrite set_nth_middle. rewrite <- !app_assoc. f_equal.
      rewrite (firstn_S_nth tail k (nth k tail 0)) by (apply nth_error_nth'; lia). rewrite map_app. rewrite <- app_assoc. reflexivity.
    - cbn. now rewrite Nat.sub_0_r.
    - exact E. }
  split.
  - intros H6. unfold append_dims. cbn [rank canon].
    pose proof (Hloop (6 - length ds) ltac:(lia) ltac:(lia)) as E.
    unfold for_ in *. replace (length tail) with ((6 - length ds) + (length tail - (6 - length ds))) by lia.
    rewrite for_from_app. change (dims (canon ds)) with (rev ds ++ repeat 0 (6 - length ds)) in E.
    cbn [dims canon]. rewrite E. cbn [bind].
    destruct (length tail - (6 - length ds)) as [|m] eqn:Em; [lia|]. rewrite for_from_S.
    rewrite (aget_nth _ _ 0) by lia. cbn [bind]. rewrite aset_none; [reflexivity|].
    rewrite !app_length, rev_length, map_length, firstn_length, repeat_length. lia.
  - intros H6. unfold append_dims. cbn [rank canon]. rewrite (Hloop (length tail)) by lia. cbn [bind].
    rewrite firstn_all. set (l := rev ds ++ _).
    assert (Hll : length l = 6).
    { unfold l. rewrite !app_length, rev_length, map_length, repeat_length. lia. }
    eexists. split; [reflexivity|]. cbn [rank dims]. rewrite Hll. split; [reflexivity|]. split; [reflexivity|]. split.
    + intros Hd. unfold as_vec. cbn [rank]. destruct ds as [|d ds]; [congruence|].
      cbn [length]. unfold for_. replace (S (length ds) + 6) with (S (length ds + 6)) by lia. rewrite for_from_S.
      unfold dim. cbn [rank dims]. rewrite usub_ok by (cbn [length] in Hl; unfold two64; lia). cbn [bind].
      rewrite usub_ok by (cbn [length] in Hl; unfold two64; lia). cbn [bind].
      rewrite aget_none by lia. reflexivity.
    + intros ->. cbn [length Nat.add]. rewrite as_vec_raw by (cbn [dims rank]; lia). cbn [dims rank].
      rewrite firstn_all2 by lia. unfold l. cbn [rev app length]. rewrite rev_app_distr, Nat.sub_0_r. f_equal. f_equal.
      apply rev_repeat.
Qed.

(** ** C10 *)

Lemma product32_wraps c l : overflow_checks c = false -> forall acc, (Z.of_nat acc < two32)%Z ->
  exists n, product32 c acc l = Ok n /\ (Z.of_nat n < two32)%Z /\
    (Z.of_nat n = (Z.of_nat acc * Z.of_nat (prod l)) mod two32)%Z.
Proof.
  intros Hc. induction l as [|d l IH]; intros acc Ha; cbn [product32 prod].
  - exists acc. rewrite Z.mul_1_r, Z.mod_small by lia. auto.
  - assert (Hm : exists q, mul32 c acc d = Ok q /\ (Z.of_nat q = (Z.of_nat acc * Z.of_nat d) mod two32)%Z).
    { unfold mul32, arith. destruct ((0 <=? Z.of_nat acc * Z.of_nat d) && (Z.of_nat acc * Z.of_nat d <? two32))%Z eqn:E.
      - eexists. split; [reflexivity|]. apply andb_prop in E as [E1 E2]. apply Z.leb_le in E1. apply Z.ltb_lt in E2.
        rewrite Z2Nat.id, Z.mod_small; auto.
      - rewrite Hc. eexists. split; [reflexivity|]. rewrite Z2Nat.id; [reflexivity|].
        apply Z.mod_pos_bound. reflexivity. }
    destruct Hm as (q & -> & Hq). cbn [bind].
    assert (Hql : (Z.of_nat q < two32)%Z) by (rewrite Hq; apply Z.mod_pos_bound; reflexivity).
    destruct (IH q Hql) as (n & -> & Hn & En). exists n. split; auto. split; auto. rewrite En, Hq.
    rewrite Z.mul_mod_idemp_l by (unfold two32; lia). f_equal. lia.
Qed.

Lemma c10_release_exact c ds :
  overflow_checks c = false -> length ds <= 6 ->
  exists n, size c (canon ds) = Ok n /\ (Z.of_nat n = Z.of_nat (prod ds) mod 4294967296)%Z.
Proof.
  intros Hc Hl. unfold size. cbn [canon dims rank]. rewrite aslice_ok by (rewrite ?app_length, ?rev_length; lia). cbn [bind].
  destruct (product32_wraps c (firstn (length ds - 0) (skipn 0 (rev ds ++ repeat 0 (6 - length ds)))) Hc 1 ltac:(reflexivity)) as (n & E & _ & En).
  exists n. split; [exact E|]. rewrite En, Z.mul_1_l. cbn [skipn]. rewrite Nat.sub_0_r.
  rewrite <- (rev_length ds) at 1. rewrite firstn_app_exact, prod_rev. reflexivity.
Qed.

(** ** C14 *)

Lemma c14_no_wrap {A} c (t : tensor A) d ds xs o n :
  repr t (d :: ds) xs -> d < o + n -> (Z.of_nat o + Z.of_nat n < 18446744073709551616)%Z ->
  subslice c t o n = Panic.
Proof.
  intros H Hd Hw. pose proof (supported_len _ (repr_supported _ _ _ H)) as Hl.
  unfold subslice. rewrite (repr_shape _ _ _ H).
  rewrite dim_canon by (cbn; auto; lia). cbn [nth bind].
  rewrite uadd_ok by (unfold two64; lia). cbn [bind]. rewrite assert_false by lia. reflexivity.
Qed.

(** ** C15 *)

Lemma c15_get_beyond {A} c (t : tensor A) ds xs i :
  repr t ds xs -> length xs <= i -> get c t i = Ok None.
Proof.
  intros H Hi. unfold get. rewrite (repr_size _ _ _ H).
  destruct (Nat.ltb_spec i (length xs)); [lia|reflexivity].
Qed.

(** ** C16 *)

Lemma c16_index3_small {A} c (t : tensor A) d0 d1 d2 xs i j k :
  repr t [d0; d1; d2] xs -> length xs <= 2 -> index3 c t i j k = Panic.
Proof.
  intros H H2. unfold index3. rewrite (repr_shape _ _ _ H), size_canon by apply H. cbn [bind].
  rewrite <- (repr_len _ _ _ H). rewrite assert_false by lia. reflexivity.
Qed.

Lemma c16_index4_small {A} c (t : tensor A) d0 d1 d2 d3 xs h i j k :
  repr t [d0; d1; d2; d3] xs -> length xs <= 3 -> index4 c t h i j k = Panic.
Proof.
  intros H H2. unfold index4. rewrite (repr_shape _ _ _ H), size_canon by apply H. cbn [bind].
  rewrite <- (repr_len _ _ _ H). rewrite assert_false by lia. reflexivity.
Qed.

Lemma c16_wrap_refuted :
  exists (d : nat) (s : shape) (t : tensor nat), (Z.of_nat d = 4294967295)%Z /\
    from_slice_dims [3; d; d] = Ok s /\
    from_vec dev [10; 20; 30] s = Panic /\ from_vec release [10; 20; 30] s = Ok t /\
    index3 release t 1 2 1 = Ok 10.
Proof.
  assert (Hd : exists d, Z.of_nat d = 4294967295%Z) by (exists (Z.to_nat 4294967295); lia).
  destruct Hd as [d Hd].
  assert (Hu : as_u32 d = d) by (apply as_u32_small; unfold two32; lia).
  assert (H1 : forall c, mul32 c 1 d = Ok d).
  { intros c. unfold mul32, arith, two32.
    destruct ((0 <=? Z.of_nat 1 * Z.of_nat d) && (Z.of_nat 1 * Z.of_nat d <? 4294967296))%Z eqn:E; [f_equal; lia|lia]. }
  assert (H2 : mul32 release d d = Ok 1) by (unfold mul32, arith; rewrite Hd; reflexivity).
  assert (H2' : mul32 dev d d = Panic) by (unfold mul32, arith; rewrite Hd; reflexivity).
  exists d, (mkShape [d; d; 3; 0; 0; 0] 3), (mkTensor (mkShape [d; d; 3; 0; 0; 0] 3) 0 3 [10; 20; 30]).
  split; [exact Hd|]. split.
  { unfold from_slice_dims. cbn [length for_ for_from rev app aget nth_error bind]. rewrite Hu. reflexivity. }
  split.
  { unfold from_vec, tensor_new, size. cbn [dims rank]. change (aslice [d; d; 3; 0; 0; 0] 0 3) with (Ok [d; d; 3]).
    cbn [bind product32]. rewrite H1. cbn [bind]. rewrite H2'. reflexivity. }
  assert (Hs : size release (mkShape [d; d; 3; 0; 0; 0] 3) = Ok 3).
  { unfold size. cbn [dims rank]. change (aslice [d; d; 3; 0; 0; 0] 0 3) with (Ok [d; d; 3]).
    cbn [bind product32]. rewrite H1. cbn [bind]. rewrite H2. reflexivity. }
  split.
  { unfold from_vec, tensor_new. rewrite Hs. reflexivity. }
  unfold index3. cbn [tshape]. rewrite Hs. cbn [bind].
  change (rdim (mkShape [d; d; 3; 0; 0; 0] 3) 2) with (Ok 3).
  change (rdim (mkShape [d; d; 3; 0; 0; 0] 3) 1) with (Ok d).
  change (rdim (mkShape [d; d; 3; 0; 0; 0] 3) 0) with (Ok d). cbn [bind].
  rewrite (assert_true (2 <? 3)) by reflexivity. rewrite (assert_true (1 <? 3)) by reflexivity. cbn [bind].
  rewrite (assert_true (2 <? d)) by lia. rewrite (assert_true (1 <? d)) by lia. cbn [bind].
  rewrite umul_ok by (unfold two64; lia). cbn [bind]. rewrite uadd_ok by (unfold two64; lia). cbn [bind].
  rewrite umul_ok by (unfold two64; rewrite Nat2Z.inj_add, Nat2Z.inj_mul, Hd; lia). cbn [bind].
  assert (E : uadd release 1 (d * (2 + d * 1)) = Ok 0).
  { unfold uadd, arith. rewrite Nat2Z.inj_mul, Nat2Z.inj_add, Nat2Z.inj_mul, Hd. reflexivity. }
  rewrite E. reflexivity.
Qed.

(** ** C18 *)

Lemma c18_wrap_slice_n_actual {A} c (t : tensor A) ds xs k n :
  repr t ds xs -> xs <> [] -> (Z.of_nat n < 9223372036854775808)%Z ->
  as_wrap_slice_n c t k n =
  if toffset t + k mod length xs + n <=? length xs
  then Ok (firstn n (skipn (2 * toffset t + k mod length xs) (tdata t)))
  else Panic.
Proof.
  intros H Hne Hn. assert (Hl : length xs <> 0) by (destruct xs; cbn; congruence).
  unfold as_wrap_slice_n.
  assert (E : wrap_pos t k = Ok (k mod length xs)).
  { unfold wrap_pos. rewrite (repr_size _ _ _ H). destruct (Nat.ltb_spec k (length xs)).
    - now rewrite Nat.mod_small.
    - now rewrite urem_ok. }
  rewrite E. cbn [bind]. pose proof (Nat.mod_upper_bound k (length xs) Hl) as Hk.
  pose proof (repr_offset_bound _ _ _ H) as Hb. unfold two63 in Hb.
  rewrite uadd_ok by (unfold two64; lia). cbn [bind].
  rewrite uadd_ok by (unfold two64; lia). cbn [bind]. rewrite (repr_size _ _ _ H).
  destruct (Nat.leb_spec (toffset t + k mod length xs + n) (length xs)) as [Hle|Hgt]; cbn [assert_ bind]; [|reflexivity].
  unfold raw_slice. destruct (repr_data _ _ _ H) as (pre & post & Ed & Ep).
  replace (toffset t + (toffset t + k mod length xs)) with (2 * toffset t + k mod length xs) by lia.
  replace (2 * toffset t + k mod length xs + n <=? length (tdata t)) with true; [reflexivity|].
  symmetry. apply Nat.leb_le. rewrite Ed, !app_length. lia.
Qed.

(** ** C20 *)

Lemma c20_append_zero {A} c (t u : tensor A) d d' ds ds' xs ys :
  repr t (d :: ds) xs -> repr u (d' :: ds') ys -> In 0 ds \/ d + d' = 0 -> append c t u = Panic.
Proof.
  intros Ht Hu Hz. destruct (Nat.eq_dec (prod ds') (prod ds)) as [Ep|Ep]; [|eapply c20_append_rejects; eauto].
  pose proof (repr_supported _ _ _ Ht) as Hs. pose proof (repr_supported _ _ _ Hu) as Hs'.
  pose proof (supported_len _ Hs) as Hl. pose proof (supported_len _ Hs') as Hl'.
  unfold append. rewrite (repr_shape _ _ _ Ht), (repr_shape _ _ _ Hu).
  change (rank (canon (d :: ds))) with (length (d :: ds)).
  change (rank (canon (d' :: ds'))) with (length (d' :: ds')).
  rewrite !sublen_canon by (auto; cbn; lia). cbn [bind length skipn].
  replace (S (length ds) - 1) with (length ds) by lia.
  replace (S (length ds') - 1) with (length ds') by lia. rewrite !firstn_all.
  rewrite assert_true by lia. cbn [bind]. rewrite as_vec_canon by auto. cbn [bind].
  rewrite !dim_canon by (cbn in *; lia). cbn [nth bind].
  assert (Hd : forall e l, supported (e :: l) -> (Z.of_nat e < two32)%Z).
  { intros e l [_ He]. cbn [map prod] in He. unfold two32.
    assert (1 <= prod (map (Nat.max 1) l)).
    { clear. induction l as [|x l IH]; cbn; [lia|]. nia. }
    nia. }
  pose proof (Hd _ _ Hs). pose proof (Hd _ _ Hs').
  rewrite uadd_ok by (unfold two64, two32 in *; lia). cbn [bind]. rewrite aset_ok by (cbn; lia). cbn [set_nth bind].
  rewrite from_vec_dims_zero; [reflexivity|]. cbn. destruct Hz as [Hz|Hz]; [right; exact Hz|left; lia].
Qed.

(** ** C21 *)

Lemma c21_cmp_eq_exact {A} (cmp : A -> A -> option comparison) (t u : tensor A) ds ds' xs ys :
  (forall x y, cmp x y = Some Eq <-> x = y) -> repr t ds xs -> repr u ds' ys ->
  (tensor_partial_cmp cmp t u = Ok (Some Eq) <-> xs = ys).
Proof.
  intros Hc Ht Hu. destruct (c21_partial_cmp cmp t u ds ds' xs ys Ht Hu) as (o & -> & k & Hk & Hr). split.
  - intros E. apply Ok_inj in E. subst o.
    assert (Hn : nth_error xs k = None /\ nth_error ys k = None).
    { destruct (nth_error xs k), (nth_error ys k); try discriminate; auto. destruct Hr as [H1 H2]. congruence. }
    destruct Hn as [Hx Hy]. apply nth_error_ext. intros i. destruct (Nat.lt_ge_cases i k) as [Hi|Hi].
    + destruct (Hk i Hi) as (x & y & -> & -> & Exy). apply Hc in Exy. now subst.
    + apply nth_error_None in Hx, Hy. transitivity (@None A); [|symmetry]; apply nth_error_None; lia.
  - intros <-. f_equal. destruct (nth_error xs k) as [x|] eqn:E; [|assumption].
    destruct Hr as [H1 _]. exfalso. apply H1, Hc. reflexivity.
Qed.

(** ** C31 *)

Lemma c31_axis_from_rank_actual c a r :
  0 < r <= 7 -> (- two63 <= a)%Z -> (a + Z.of_nat r < two63)%Z ->
  axis_from_rank c (Some a) r =
  Ok (Z.to_nat (if (- Z.of_nat r <=? a)%Z then a mod Z.of_nat r
                else (18446744073709551616 + Z.of_nat r + a) mod Z.of_nat r)).
Proof.
  intros Hr Hlo Hhi. unfold axis_from_rank. rewrite iadd_ok by lia. cbn [bind].
  rewrite urem_ok by lia. f_equal. unfold as_usize. apply Nat2Z.inj.
  rewrite Nat2Z.inj_mod, Z2Nat.id by (apply Z.mod_pos_bound; reflexivity).
  rewrite Z2Nat.id by (destruct (_ <=? _)%Z; apply Z.mod_pos_bound; lia).
  destruct (Z.leb_spec (- Z.of_nat r) a).
  - rewrite (Z.mod_small _ two64) by (unfold two63, two64 in *; lia).
    rewrite <- (Z_mod_plus_full a 1). f_equal. lia.
  - rewrite <- (Z_mod_plus_full (a + Z.of_nat r) 1). rewrite (Z.mod_small _ two64) by (unfold two63, two64 in *; lia).
    f_equal. unfold two64. lia.
Qed.

(** ** C32 *)

Lemma c32_rank1_actual {S T R V} c N (t : tensor T) a k xs (ini : R) (into : R -> list V)
    (f : S -> R -> list T -> outcome (S * R)) st :
  repr t [k] xs -> toffset t = 0 -> 0 < k -> (- two63 <= a)%Z -> (a + 1 < two63)%Z ->
  supported [N] -> can_alloc c N -> (forall r, length (into r) = N) ->
  fold_row c N t (Some a) ini into f st =
  let* '(st', r) := foldM f st ini (repeat xs k) in Ok (st', fresh [N] (into r)).
Proof.
  intros H H0 Hk Hlo Hhi HsN Hc Hinto. unfold fold_row.
  pose proof (repr_supported _ _ _ H) as Hs. pose proof (repr_len _ _ _ H) as Hl. cbn [prod] in Hl. rewrite Nat.mul_1_r in Hl.
  rewrite (repr_shape _ _ _ H). cbn [axis_reduce_row]. change (rank (canon [k])) with 1.
  rewrite c31_actual by (try lia). rewrite Z.mod_1_r, orb_true_r. cbn [bind]. change (1 =? 1) with true. cbn iota.
  rewrite from_slice_dims_supported by auto. cbn [bind]. rewrite size_canon by auto. cbn [bind].
  rewrite cols_canon by (cbn; lia). cbn [last bind].
  rewrite size_canon by auto. cbn [bind prod]. rewrite !Nat.mul_1_r.
  rewrite (unsafe_init_filled _ _ _ _ _ (let* '(st', r) := foldM f st ini (repeat xs k) in Ok (st', into r))); auto.
  - rewrite bind_assoc. apply bind_ext. now intros [s r] _.
  - cbn. lia.
  - unfold for_ at 1 2. cbn [for_from].
    rewrite (fold_gen f (fun m => as_wrap_slice_n c t (k * ((0 * k + m) * 1 + 0)) k) (repeat xs k)).
    + destruct (foldM f st ini (repeat xs k)) as [[s r]| |]; cbn [bind]; auto.
      pose proof (write_row_next [] (into r) 0) as E. cbn [map app length Nat.mul Nat.add] in E.
      rewrite !Nat.add_0_r, !app_nil_r, Hinto in E. cbn [Nat.mul Nat.add]. rewrite E. reflexivity.
    + now rewrite repeat_length.
    + rewrite repeat_length. intros m Hm.
      rewrite (aget_nth _ _ xs) by (rewrite repeat_length; lia).
      replace (nth m (repeat xs k) xs) with xs.
      2:{ symmetry. clear. revert m. induction k as [|k IH]; intros [|m]; cbn; auto. }
      assert (Ez : (k * ((0 * k + m) * 1 + 0)) mod length xs = 0).
      { rewrite Hl. replace (k * ((0 * k + m) * 1 + 0)) with (m * k) by lia. apply Nat.mod_mul. lia. }
      assert (Hx : xs <> []) by (intros ->; cbn in Hl; lia).
      rewrite (c18_wrap_slice_n_partial c t [k] xs) by (auto; rewrite Ez; lia).
      rewrite Ez. cbn [skipn]. rewrite <- Hl, firstn_all. reflexivity.
  - intros st' vs E. destruct (foldM f st ini (repeat xs k)) as [[s r]| |]; cbn in E; try discriminate.
    injection E as _ <-. apply Hinto.
Qed.

Lemma for_ok_at {S} (body : nat -> S -> outcome S) n i s s' :
  for_ n body s = Ok s' -> i < n -> exists s1 s2, body i s1 = Ok s2.
Proof.
  unfold for_. intros H Hi.
  assert (G : forall m j s, j <= i < j + m -> for_from j m body s = Ok s' -> exists s1 s2, body i s1 = Ok s2).
  { induction m as [|m IH]; intros j s0 Hj E; [lia|]. rewrite for_from_S in E.
    destruct (body j s0) as [s1| |] eqn:E1; try discriminate. cbn [bind] in E.
    destruct (Nat.eq_dec j i) as [->|]; [eauto|]. apply (IH (j + 1) s1); [lia|]. now replace (j + 1) with (Datatypes.S j) by lia. }
  apply (G n 0 s); auto. lia.
Qed.

Lemma safe_not_ok {A B} (x : outcome A) (f : A -> outcome B) b : bind x f = Ok b -> exists a, x = Ok a /\ f a = Ok b.
Proof. destruct x; cbn; try discriminate. eauto. Qed.

(** The loop nest of [fold_row] on a view. *)
Lemma fold_row_view_loop {S T R V} c N (t : tensor T) ds k xs batch a_len inner (ini : R) (into : R -> list V)
    (f : S -> R -> list T -> outcome (S * R)) sb sb' :
  repr t (ds ++ [k]) xs -> 0 < toffset t -> 0 < prod ds -> 0 < k ->
  (batch * a_len * inner = prod ds \/ ds = [] /\ batch = 1 /\ inner = 1 /\ 0 < a_len) ->
  for_ batch (fun b sb =>
      for_ inner (fun j '(st, o) =>
        let* '(st, state) := for_ a_len (fun m '(st, state) =>
          let offset := (b * a_len + m) * inner + j in
          let* v := as_wrap_slice_n c t (k * offset) k in
          f st state v) (st, ini) in
        let* o := write_row o ((b * inner + j) * N) (into state) in
        Ok (st, o)) sb) sb <> Ok sb'.
Proof.
  intros H Ho Hp Hk Hb E.
  pose proof (repr_len _ _ _ H) as Hl. rewrite prod_app in Hl. cbn [prod] in Hl. rewrite Nat.mul_1_r in Hl.
  assert (Hpos : 0 < batch /\ 0 < a_len /\ 0 < inner).
  { destruct Hb as [Hb|(-> & -> & -> & Ha)]; [|lia].
    destruct batch; [cbn in Hb; lia|]. destruct a_len; [rewrite Nat.mul_0_r in Hb; cbn in Hb; lia|].
    destruct inner; [rewrite Nat.mul_0_r in Hb; lia|]. lia. }
  destruct (for_ok_at _ _ (batch - 1) _ _ E) as (sb1 & sb2 & E1); [lia|].
  destruct (for_ok_at _ _ (inner - 1) _ _ E1) as ((st1 & o1) & sb3 & E2); [lia|].
  apply safe_not_ok in E2 as ((st2 & state) & E2 & _).
  destruct (for_ok_at _ _ (a_len - 1) _ _ E2) as ((st3 & state3) & sb4 & E3); [lia|].
  cbn zeta in E3. apply safe_not_ok in E3 as (v & E3 & _).
  assert (Hd : 0 < length xs) by (rewrite Hl; nia).
  assert (Hkb : (Z.of_nat k < 9223372036854775808)%Z).
  { pose proof (repr_offset_bound _ _ _ H) as Hbd. unfold two63 in Hbd.
    assert (k <= length xs) by (rewrite Hl; nia). lia. }
  assert (Hx : xs <> []) by (intros ->; cbn in Hd; lia).
  rewrite (c18_wrap_slice_n_actual c t _ xs _ _ H Hx Hkb) in E3.
  assert (Em : (k * (((batch - 1) * a_len + (a_len - 1)) * inner + (inner - 1))) mod length xs + k = length xs).
  { destruct Hb as [Hb|(-> & -> & -> & Ha)].
    - assert (Eo : ((batch - 1) * a_len + (a_len - 1)) * inner + (inner - 1) = prod ds - 1).
      { rewrite <- Hb. destruct batch as [|b]; [lia|]. destruct a_len as [|a]; [lia|]. destruct inner as [|i]; [lia|].
        replace (Datatypes.S b - 1) with b by lia. replace (Datatypes.S a - 1) with a by lia. replace (Datatypes.S i - 1) with i by lia. nia. }
      rewrite Eo, Hl. rewrite Nat.mod_small by nia. nia.
    - rewrite Hl. cbn [prod]. rewrite Nat.mul_1_l.
      rewrite (Nat.mul_comm k), Nat.mod_mul by lia. lia. }
  destruct (Nat.leb_spec (toffset t + (k * (((batch - 1) * a_len + (a_len - 1)) * inner + (inner - 1))) mod length xs + k) (length xs)); [lia|discriminate].
Qed.

Lemma c32_view_never_returns {S T R V} c N (t : tensor T) ax ds xs (ini : R) (into : R -> list V)
    (f : S -> R -> list T -> outcome (S * R)) st st' r :
  repr t ds xs -> 0 < toffset t -> ds <> [] -> 0 < prod ds ->
  fold_row c N t ax ini into f st <> Ok (st', r).
Proof.
  intros H Ho Hne Hp E. destruct (exists_last Hne) as (ds' & k & ->). rename ds' into ds.
  rewrite prod_app in Hp. cbn [prod] in Hp. rewrite Nat.mul_1_r in Hp.
  assert (Hk : 0 < k) by nia. assert (Hd : 0 < prod ds) by nia.
  pose proof (repr_supported _ _ _ H) as Hs. pose proof (supported_len _ Hs) as Hl6.
  unfold fold_row in E. rewrite (repr_shape _ _ _ H) in E.
  apply safe_not_ok in E as ((((o_shape & batch) & a_len) & inner) & E1 & E).
  rewrite cols_canon in E by auto. cbn [bind] in E. rewrite last_last in E.
  apply safe_not_ok in E as (n_out & _ & E). unfold unsafe_init in E.
  apply safe_not_ok in E as (o & _ & E). apply safe_not_ok in E as (sb' & E & _).
  refine (fold_row_view_loop c N t ds k xs batch a_len inner ini into f _ _ H Ho Hd Hk _ E).
  clear E. destruct ax as [a|]; cbn [axis_reduce_row] in E1.
  - apply safe_not_ok in E1 as (p & Ep & E1). cbn [canon rank] in *.
    assert (Hpl : p < length (ds ++ [k])).
    { unfold norm_axis in Ep. apply safe_not_ok in Ep as (v & _ & Ep). apply safe_not_ok in Ep as ([] & _ & Ep).
      apply safe_not_ok in Ep as ([] & Ea & Ep). apply Ok_inj in Ep. subst p. unfold assert_ in Ea.
      destruct (Nat.ltb_spec (as_usize (Z.rem v (Z.of_nat (length (ds ++ [k]))))) (length (ds ++ [k]))); [assumption|discriminate]. }
    destruct (Nat.eqb_spec (length (ds ++ [k])) 1) as [E0|E0].
    + right. rewrite app_length in E0. cbn in E0. destruct ds; [|cbn in E0; lia].
      apply safe_not_ok in E1 as (? & _ & E1). apply safe_not_ok in E1 as (n & En & E1).
      apply Ok_inj in E1. injection E1 as <- <- <- <-. fold (canon [k]) in En.
      change (size c (canon [k]) = Ok n) in En. rewrite size_canon in En by auto. apply Ok_inj in En. cbn in En. repeat split. lia.
    + left. apply safe_not_ok in E1 as ([] & Ea & E1).
      assert (Hp1 : p + 1 < length (ds ++ [k])).
      { unfold assert_ in Ea. destruct (Nat.ltb_spec (p + 1) (length (ds ++ [k]))); [assumption|discriminate]. }
      rewrite app_length in Hp1. cbn in Hp1.
      change (mkShape (rev (ds ++ [k]) ++ repeat 0 (6 - length (ds ++ [k]))) (length (ds ++ [k]))) with (canon (ds ++ [k])) in E1.
      rewrite collect_dims_ok in E1 by (auto; rewrite app_length; cbn; lia). cbn [bind] in E1.
      rewrite collect_dims_ok in E1 by (auto; rewrite app_length; cbn; lia). cbn [bind] in E1.
      apply safe_not_ok in E1 as (os & _ & E1).
      rewrite dim_canon in E1 by (auto; rewrite app_length; cbn; lia). cbn [bind] in E1.
      apply Ok_inj in E1. injection E1 as <- <- <- <-.
      rewrite Nat.sub_0_r. cbn [skipn]. rewrite app_length. cbn [length].
      replace (length ds + 1 - 1 - (p + 1)) with (length ds - (p + 1)) by lia.
      rewrite app_nth1 by lia. rewrite firstn_app, skipn_app.
      replace (p - length ds) with 0 by lia. replace (p + 1 - length ds) with 0 by lia. cbn [firstn skipn].
      rewrite app_nil_r. rewrite firstn_app, skipn_length.
      replace (length ds - (p + 1) - (length ds - (p + 1))) with 0 by lia. cbn [firstn]. rewrite app_nil_r.
      rewrite (firstn_all2 (n := length ds - (p + 1))) by (rewrite skipn_length; lia).
      rewrite <- (firstn_skipn p ds) at 4.
      assert (Esk : skipn p ds = nth p ds 0 :: skipn (p + 1) ds).
      { rewrite <- (firstn_skipn p ds) at 2. rewrite app_nth2 by (rewrite firstn_length; lia).
        rewrite firstn_length. replace (p - Nat.min p (length ds)) with 0 by lia.
        rewrite Nat.add_1_r, <- (skipn_skipn 1 p) . destruct (skipn p ds) eqn:Es; [|reflexivity].
        apply (f_equal (@length nat)) in Es. rewrite skipn_length in Es. cbn in Es. lia. }
      rewrite Esk, prod_app. cbn [prod]. lia.
  - left. apply safe_not_ok in E1 as (o1 & _ & E1). rewrite size_canon in E1 by auto. cbn [bind] in E1.
    rewrite cols_canon in E1 by auto. cbn [bind] in E1. rewrite last_last, udiv_ok in E1 by lia. cbn [bind] in E1.
    apply Ok_inj in E1. injection E1 as <- <- <- <-.
    rewrite prod_app. cbn [prod]. rewrite !Nat.mul_1_r, Nat.div_mul by lia. lia.
Qed.

(** ** C35, C38 *)

Lemma bind_safe_panic {A B} (x : outcome A) (f : A -> outcome B) : safe x -> (forall a, f a = Panic) -> bind x f = Panic.
Proof. intros Hs Hf. destruct x; cbn; [apply Hf|reflexivity|now destruct Hs]. Qed.

Lemma c35_rank6_always_panics {A} c (t : tensor A) ts ds xs :
  repr t ds xs -> length ds = 6 ->
  concatenate c (t :: ts) = Panic /\ concatenate_axis c (Some 0%Z) (t :: ts) = Panic /\
  concatenate_axis c None (t :: ts) = Panic.
Proof.
  intros H H6.
  assert (G : concat_axis c 0 (t :: ts) = Panic).
  { unfold concat_axis. cbn [aget nth_error bind]. rewrite (repr_shape _ _ _ H).
    apply bind_safe_panic; [unfold validate_concat; safe|]. intros axis_len.
    unfold remove. cbn [canon rank]. rewrite assert_true by lia. cbn [bind].
    change (mkShape _ (length ds)) with (canon ds).
    destruct ds as [|d ds]; [discriminate|]. cbn [length] in H6.
    assert (Er : rremove (canon (d :: ds)) (length (d :: ds) - 1 - 0) = Ok (canon ds)).
    { rewrite rremove_canon by (cbn; lia). f_equal. f_equal. cbn [length].
      replace (S (length ds) - 1 - (S (length ds) - 1 - 0)) with 0 by lia. reflexivity. }
    rewrite Er. cbn [bind].
    apply bind_safe_panic; [auto with safe|]. intros o_len.
    apply bind_safe_panic; [auto with safe|]. intros n_outer.
    apply bind_safe_panic; [destruct (0 <? rank (canon ds)); auto with safe|]. intros n_inner.
    rewrite c04_rank5_always_panics by lia. reflexivity. }
  split; [exact G|]. split; [|exact G].
  unfold concatenate_axis. rewrite (repr_shape _ _ _ H). cbn [canon rank].
  rewrite c31_axis_from_rank_valid with (p := 0); [exact G|lia|]. split; [lia|left; reflexivity].
Qed.

Lemma c38_rank5_always_panics {A} c (t : tensor A) ts ds xs :
  repr t ds xs -> length ds = 5 ->
  stack c (t :: ts) = Panic /\ stack_axis c (Some 0%Z) (t :: ts) = Panic /\ stack_axis c None (t :: ts) = Panic.
Proof.
  intros H H5.
  assert (G : forall ax, axis_from_rank c ax (length ds + 1) = Ok 0 -> stack_vec c ax (t :: ts) = Panic).
  { intros ax Ha. unfold stack_vec.
    apply bind_safe_panic.
    { apply safe_for_each. intros x prev. destruct prev; safe. }
    intros _. cbn [aget nth_error bind]. rewrite (repr_shape _ _ _ H). cbn [canon rank]. rewrite Ha. cbn [bind].
    change (mkShape _ (length ds)) with (canon ds).
    apply bind_safe_panic; [auto with safe|]. intros x_len.
    apply bind_safe_panic; [auto with safe|]. intros n_inner.
    apply bind_safe_panic; [auto with safe|]. intros n_outer.
    apply bind_safe_panic; [auto with safe|]. intros o_len.
    rewrite c04_rank5_always_panics by lia. reflexivity. }
  split; [|split]; apply G; try reflexivity.
  apply c31_axis_from_rank_valid; [lia|]. split; [lia|left; reflexivity].
Qed.
