(** * tile with any tensor of multiples (C40) *)
From Coq Require Import ZifyBool ZifyNat ZifyN.
From Verif Require Import Base ShapeModel TensorModel ArrayModel Spec BaseFacts
  ShapeFacts ShapeFacts2 CoordFacts TensorFacts TensorFacts2 StackFacts.

Ltac Zify.zify_post_hook ::= Z.div_mod_to_equations.

Lemma assume_init_none {A} (l : list A) k : 0 < k -> assume_init (map Some l ++ repeat None k) = Ub.
Proof. intros H. induction l as [|x l IH]; cbn [map app assume_init]; [destruct k; [lia|reflexivity]|now rewrite IH]. Qed.

Definition ending {A} (n : nat) (l : list A) : list A := skipn (length l - n) l.

Lemma nth_rev_ending n (l : list nat) i : i < n -> nth i (rev (ending n l)) 1 = nth i (rev l) 1.
Proof.
  intros H. unfold ending. rewrite <- (firstn_skipn (length l - n) l) at 3. rewrite rev_app_distr.
  destruct (Nat.lt_ge_cases i (length (rev (skipn (length l - n) l)))) as [Hi|Hi].
  - now rewrite app_nth1.
  - rewrite (nth_overflow (rev (skipn (length l - n) l))) by assumption.
    rewrite rev_length, skipn_length in Hi. rewrite nth_overflow; [reflexivity|].
    rewrite app_length, !rev_length, firstn_length, skipn_length. lia.
Qed.
Lemma ending_length {A} n (l : list A) : length (ending n l) = Nat.min n (length l).
Proof. unfold ending. rewrite skipn_length. lia. Qed.

Lemma axes_r_ending sr n ms : axes_r sr (rev (ending n ms)) n = axes_r sr (rev ms) n.
Proof.
  unfold axes_r. apply map_ext_in. intros i Hi. apply in_rev, in_seq in Hi. now rewrite nth_rev_ending by lia.
Qed.

Lemma prod_axes_r sr mr n : prod (tiled (axes_r sr mr n)) = prod (firstn n sr) * prod (firstn n mr).
Proof.
  induction n as [|n IH]; [reflexivity|]. rewrite axes_r_S. cbn [tiled map prod fst snd]. fold (tiled (axes_r sr mr n)).
  rewrite IH, !prod_firstn_S. lia.
Qed.

Lemma firstn_rev_ending n (l : list nat) : prod (firstn n (rev l)) = prod (ending n l).
Proof. rewrite firstn_rev, prod_rev. reflexivity. Qed.

Lemma ending_split n (l : list nat) : prod l = prod (firstn (length l - n) l) * prod (ending n l).
Proof. unfold ending. now rewrite <- prod_app, firstn_skipn. Qed.

(** The last [k] of the last [r]. *)
Lemma ending_ending k r (l : list nat) : k <= r -> ending k (ending r l) = ending k l.
Proof.
  intros H. unfold ending. rewrite skipn_length, skipn_skipn. f_equal. lia.
Qed.

Lemma prod_one l : 0 < prod l -> prod l = 1 -> forall x, In x l -> x = 1.
Proof.
  intros _. induction l as [|y l IH]; cbn [prod In]; intros E x; [easy|].
  apply Nat.eq_mul_1 in E. destruct E as [E1 E2]. intros [<-|Hx]; auto.
Qed.

Lemma tile_start {A} c (t : tensor A) ds xs mt ms k md r :
  repr t ds xs -> repr mt (k :: md) ms -> 0 < prod ds -> 0 < prod ms -> k <= length ms ->
  r = Nat.max (length ds) k -> 0 < r -> (Z.of_nat (prod ds * prod ms) < two32)%Z ->
  supported (zip_with Nat.mul (pad_to r ds) (pad_to r (ending k ms))) ->
  tile c t mt = unsafe_init_ c (prod ms * prod ds) (canon (zip_with Nat.mul (pad_to r ds) (pad_to r (ending k ms))))
    (fun o => let* '(o, _) := tile_rec c xs 0 (length xs) (rev ds) (rev ms) (r - 1) (o, 0) in Ok o).
Proof.
  intros H Hm Pd Pm Lk Er Hr Hb Hsup.
  pose proof (repr_supported _ _ _ H) as Hds. pose proof (repr_len _ _ _ H) as Hlen.
  assert (Le : length (ending k ms) = k) by (rewrite ending_length; lia).
  assert (Pe : 0 < prod (ending k ms)) by (pose proof (ending_split k ms); nia).
  unfold tile. rewrite (repr_shape _ _ _ H), as_vec_canon by (now apply supported_len). cbn [bind].
  rewrite (repr_as_slice _ _ _ Hm). cbn [bind]. rewrite size_canon by auto. cbn [bind].
  rewrite product64_ok by (rewrite prod1_id by auto; unfold two32, two64 in *; nia). cbn [bind]. rewrite Nat.mul_1_l.
  rewrite (repr_as_slice _ _ _ H). cbn [bind]. rewrite (repr_shape _ _ _ Hm).
  rewrite len_canon by (apply supported_len; apply (repr_supported _ _ _ Hm)).
  cbn [bind rank canon]. fold (canon ds). rewrite <- Er.
  destruct (for_inv (fun i os => os = map (fun j => nth j (rev ds) 1 * nth j (rev (ending k ms)) 1) (seq 0 i)) r
    (fun i os =>
      let* tile_dim := (if i <? length ds then aget (rev ds) i else Ok 1) in
      let* repeat_dim := (if i <? k then aget (rev ms) i else Ok 1) in
      let* d := umul c tile_dim repeat_dim in
      Ok (os ++ [d])) []) as (os & Eos & ->).
  { intros i os Hi ->.
    assert (E1 : (if i <? length ds then aget (rev ds) i else Ok 1) = Ok (nth i (rev ds) 1)).
    { destruct (Nat.ltb_spec i (length ds)).
      - apply aget_nth. now rewrite rev_length.
      - rewrite nth_overflow by (now rewrite rev_length). reflexivity. }
    assert (E2 : (if i <? k then aget (rev ms) i else Ok 1) = Ok (nth i (rev (ending k ms)) 1)).
    { destruct (Nat.ltb_spec i k).
      - rewrite nth_rev_ending by assumption. apply aget_nth. rewrite rev_length. lia.
      - rewrite nth_overflow by (rewrite rev_length; lia). reflexivity. }
    rewrite E1, E2. cbn [bind].
    assert (B1 : nth i (rev ds) 1 <= prod ds).
    { destruct (Nat.lt_ge_cases i (length (rev ds))) as [Hi'|Hi'].
      - rewrite <- (prod1_id ds Pd). apply prod1_in. apply in_rev. now apply nth_In.
      - rewrite nth_overflow by auto. lia. }
    assert (B2 : nth i (rev (ending k ms)) 1 <= prod ms).
    { destruct (Nat.lt_ge_cases i (length (rev (ending k ms)))) as [Hi'|Hi'].
      - rewrite <- (prod1_id ms Pm). apply prod1_in.
        assert (I : In (nth i (rev (ending k ms)) 1) (ending k ms)) by (apply in_rev; now apply nth_In).
        revert I. generalize (nth i (rev (ending k ms)) 1). intros x I.
        rewrite <- (firstn_skipn (length ms - k) ms). apply in_or_app. right. exact I.
      - rewrite nth_overflow by auto. lia. }
    rewrite umul_ok by (unfold two32, two64 in *; nia). cbn [bind]. eexists. split; [reflexivity|].
    rewrite seq_S, map_app. reflexivity. }
  { reflexivity. }
  rewrite Eos. cbn [bind]. rewrite umul_ok by (unfold two32, two64 in *; nia). cbn [bind].
  assert (Eod : zip_with Nat.mul (pad_to r ds) (pad_to r (ending k ms)) = tiled (axes_r (rev ds) (rev (ending k ms)) r)).
  { rewrite zip_with_combine, axes_r_combine by lia. reflexivity. }
  replace (rev (map (fun j => nth j (rev ds) 1 * nth j (rev (ending k ms)) 1) (seq 0 r)))
    with (tiled (axes_r (rev ds) (rev (ending k ms)) r)).
  2:{ unfold axes_r, tiled. rewrite map_map, map_rev. reflexivity. }
  rewrite <- Eod. rewrite from_vec_dims_supported; [|auto|].
  2:{ apply prod_pos_inv. rewrite prod_zip by (rewrite !pad_to_length; lia). rewrite !prod_pad_to. nia. }
  cbn [bind]. rewrite usub_ok.
  2: lia.
  2:{ pose proof (supported_len _ Hsup) as L6. rewrite zip_with_combine, map_length, combine_length, !pad_to_length in L6 by lia.
      unfold two64. lia. }
  reflexivity.
Qed.

Lemma c40_tile_any {A} c (t : tensor A) ds xs mt ms k md r :
  repr t ds xs -> repr mt (k :: md) ms -> 0 < prod ds -> 0 < prod ms -> k <= length ms ->
  r = Nat.max (length ds) k -> 0 < r -> (Z.of_nat (prod ds * prod ms) < 2 ^ 32)%Z ->
  supported (zip_with Nat.mul (pad_to r ds) (pad_to r (skipn (length ms - k) ms))) ->
  let last n := skipn (length ms - n) ms in
  let od := zip_with Nat.mul (pad_to r ds) (pad_to r (last k)) in
  (prod (last r) < prod ms -> tile c t mt = Ub) /\
  (prod (last k) < prod (last r) -> prod (last r) = prod ms -> tile c t mt = Panic) /\
  (prod (last k) = prod ms ->
   exists ys, tile c t mt = Ok (fresh od ys) /\ length ys = prod od /\
     forall idx, in_shape od idx -> elem od ys idx = elem ds xs (zip_with Nat.modulo (skipn (r - length ds) idx) ds)).
Proof.
  intros H Hm Pd Pm Lk Er Hr Hb Hsup. cbv zeta.
  change (2 ^ 32)%Z with two32 in Hb.
  pose proof (repr_supported _ _ _ H) as Hds. pose proof (repr_len _ _ _ H) as Hlen.
  change (skipn (length ms - k) ms) with (ending k ms) in *. change (skipn (length ms - r) ms) with (ending r ms) in *.
  assert (Le : length (ending k ms) = k) by (rewrite ending_length; lia).
  set (od := zip_with Nat.mul (pad_to r ds) (pad_to r (ending k ms))) in *.
  assert (Eod : od = tiled (axes_r (rev ds) (rev (ending k ms)) r)).
  { unfold od. rewrite zip_with_combine, axes_r_combine by lia. reflexivity. }
  assert (Ep : prod od = prod ds * prod (ending k ms)).
  { unfold od. rewrite prod_zip by (rewrite !pad_to_length; lia). now rewrite !prod_pad_to. }
  rewrite (tile_start c t ds xs mt ms k md r H Hm Pd Pm Lk Er Hr Hb Hsup). fold od.
  set (ax := axes_r (rev ds) (rev ms) r).
  assert (Ef : prod (firstn r (rev ds)) = prod ds) by (rewrite firstn_all2 by (rewrite rev_length; lia); apply prod_rev).
  assert (Ea : prod (tiled ax) = prod ds * prod (ending r ms)).
  { unfold ax. rewrite prod_axes_r, Ef, firstn_rev_ending. reflexivity. }
  assert (T : forall q, tile_rec c xs 0 (length xs) (rev ds) (rev ms) (r - 1) (repeat None (prod (tiled ax) + q), 0)
    = Ok (map Some (vals xs (tiles ax 0)) ++ repeat None q, length (vals xs (tiles ax 0)))).
  { intros q. pose proof (tile_rec_spec c xs (rev ds) (rev ms) (r - 1)) as T.
    replace (S (r - 1)) with r in T by lia. fold ax in T. rewrite Ef, <- Hlen in T.
    specialize (T ltac:(unfold prod1; rewrite map_rev, prod_rev; apply (supported_prod1 _ Hds)) 0 [] q ltac:(lia)).
    cbn [app] in T. unfold filled in T. cbn [map app length] in T. exact T. }
  assert (Efst : prod (map fst ax) = prod ds) by (unfold ax; now rewrite axes_r_prod).
  destruct (vals_spec xs (tiles ax 0)) as [VL VN].
  { eapply Forall_impl; [|apply tiles_range]. cbn. intros p B. rewrite Hlen. lia. }
  rewrite tiles_length, Ea in VL.
  pose proof (ending_split r ms) as Sr. pose proof (ending_split k (ending r ms)) as Sk. rewrite ending_ending in Sk by lia.
  assert (Pe : 0 < prod (ending k ms)) by nia.
  assert (Sm : prod (tiled ax) <= prod ms * prod ds).
  { rewrite Ea, (Nat.mul_comm (prod ms)). apply Nat.mul_le_mono_l. rewrite Sr at 1. rewrite <- (Nat.mul_1_l (prod (ending r ms))) at 1.
    apply Nat.mul_le_mono_r. destruct (prod (firstn (length ms - r) ms)); lia. }
  assert (AL : alloc (A := A) c (prod ms * prod ds) = Ok (repeat None (prod ms * prod ds))).
  { apply alloc_ok; [left; nia|]. unfold two32 in Hb. lia. }
  unfold unsafe_init_, unsafe_init. rewrite AL. cbn [bind].
  split; [|split].
  - intros Hlt. change (prod (ending r ms) < prod ms) in Hlt.
    replace (prod ms * prod ds) with (prod (tiled ax) + (prod ms * prod ds - prod (tiled ax))) by lia.
    rewrite T. cbn [bind]. rewrite assume_init_none; [reflexivity|].
    assert (prod ds * prod (ending r ms) < prod ds * prod ms) by (apply Nat.mul_lt_mono_pos_l; assumption). lia.
  - intros Hlt Heq. change (prod (ending k ms) < prod (ending r ms)) in Hlt. change (prod (ending r ms) = prod ms) in Heq.
    replace (prod ms * prod ds) with (prod (tiled ax) + 0) by (rewrite Ea, Heq, Nat.add_0_r; apply Nat.mul_comm).
    rewrite T. cbn [bind repeat]. rewrite app_nil_r, assume_init_some. cbn [bind]. unfold tensor_new.
    rewrite size_canon by assumption. cbn [bind]. rewrite VL, Ep.
    destruct (Nat.eqb_spec (prod ds * prod (ending k ms)) (prod ds * prod (ending r ms))) as [E|E]; [exfalso; apply Nat.mul_cancel_l in E; lia|reflexivity].
  - intros Heq. change (prod (ending k ms) = prod ms) in Heq.
    assert (Hkr : prod (ending r ms) = prod (ending k ms)).
    { apply Nat.le_antisymm.
      - rewrite Heq, Sr at 1. rewrite <- (Nat.mul_1_l (prod (ending r ms))) at 1. apply Nat.mul_le_mono_r.
        destruct (prod (firstn (length ms - r) ms)); lia.
      - rewrite Sk at 1. rewrite <- (Nat.mul_1_l (prod (ending k ms))) at 1. apply Nat.mul_le_mono_r.
        destruct (prod (firstn (length (ending r ms) - k) (ending r ms))); lia. }
    assert (Eax : tiled ax = od /\ map fst ax = pad_to r ds).
    { assert (X : ax = axes_r (rev ds) (rev (ending k ms)) r).
      { unfold ax. rewrite <- axes_r_ending. unfold axes_r. apply map_ext_in. intros i Hi. apply in_rev, in_seq in Hi. f_equal.
        destruct (Nat.lt_ge_cases i k) as [Hik|Hik]; [rewrite !nth_rev_ending by lia; reflexivity|].
        rewrite (nth_overflow (rev (ending k ms))) by (rewrite rev_length; lia).
        destruct (Nat.lt_ge_cases i (length (rev (ending r ms)))) as [Hi'|Hi']; [|now rewrite nth_overflow].
        rewrite rev_length in Hi'. rewrite rev_nth by assumption.
        apply (prod_one (firstn (length (ending r ms) - k) (ending r ms))); [nia|nia|].
        rewrite <- (firstn_skipn (length (ending r ms) - k) (ending r ms)) at 2.
        rewrite app_nth1 by (rewrite firstn_length; lia). apply nth_In. rewrite firstn_length. lia. }
      rewrite X. split; [now rewrite Eod|]. rewrite axes_r_combine by lia. apply map_fst_combine. rewrite !pad_to_length; lia. }
    destruct Eax as [Eax Efx].
    change (zip_with Nat.mul (pad_to r ds) (pad_to r (skipn (length ms - k) ms))) with od.
    exists (vals xs (tiles ax 0)). split; [|split].
    + replace (prod ms * prod ds) with (prod (tiled ax) + 0) by (rewrite Ea, Hkr, Heq, Nat.add_0_r; apply Nat.mul_comm).
      rewrite T. cbn [bind repeat]. rewrite app_nil_r, assume_init_some. cbn [bind].
      rewrite tensor_new_ok; [reflexivity|assumption|]. rewrite VL, Ep. nia.
    + rewrite VL, Ep. nia.
    + intros idx Hi. unfold elem. rewrite <- Eax in *. pose proof (tiles_elem ax 0 idx Hi) as T'.
      rewrite (VN _ _ T'). f_equal. cbn [Nat.add]. rewrite Efx. unfold pad_to. rewrite ravel_ones, wrap_zip. reflexivity.
Qed.

Lemma c40_tile_no_multiples {A} c (t : tensor A) ds xs mt k md :
  repr t ds xs -> repr mt (k :: md) [] -> 0 < k -> tile c t mt = Panic.
Proof.
  intros H Hm Hk. pose proof (repr_supported _ _ _ H) as Hds.
  unfold tile. rewrite (repr_shape _ _ _ H), as_vec_canon by (now apply supported_len). cbn [bind].
  rewrite (repr_as_slice _ _ _ Hm). cbn [bind]. rewrite size_canon by auto. cbn [bind].
  rewrite product64_ok by (cbn; unfold two64; lia). cbn [bind].
  rewrite (repr_as_slice _ _ _ H). cbn [bind]. rewrite (repr_shape _ _ _ Hm).
  rewrite len_canon by (apply supported_len; apply (repr_supported _ _ _ Hm)).
  cbn [bind rank canon]. fold (canon ds). unfold for_.
  destruct (Nat.max (length ds) k) as [|r] eqn:Er; [lia|]. cbn [for_from].
  assert (E1 : (if 0 <? length ds then aget (rev ds) 0 else Ok 1) = Ok (nth 0 (rev ds) 1)).
  { destruct (Nat.ltb_spec 0 (length ds)).
    - apply aget_nth. now rewrite rev_length.
    - rewrite nth_overflow by (rewrite rev_length; lia). reflexivity. }
  rewrite E1. cbn [bind]. destruct (Nat.ltb_spec 0 k); [|lia]. reflexivity.
Qed.
