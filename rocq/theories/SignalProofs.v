(** * Properties of rfft_norm and of the unimplemented functions (C61, C65): proofs *)
From Coq Require Import Reals Lra ZifyBool ZifyNat ZifyN.
From Verif Require Import Base ShapeModel TensorModel MapModel FloatModel SignalModel
  Spec BaseFacts ShapeFacts CoordFacts TensorFacts MapFacts SafeFacts SplitFacts TensorSpec TensorProofs MapSpec MapProofs.
From Verif Require Import SignalSpec.

(** ** C61 *)

Lemma coords_vector n : coords [n] = map (fun i => [i]) (seq 0 n).
Proof.
  cbn [coords map]. generalize 0. induction n as [|n IH]; intros k; [reflexivity|]. cbn [seq flat_map map app]. now rewrite IH.
Qed.

Lemma hann_window_ok {F C} (o : sigops F C) c n :
  supported [n] -> can_alloc c n -> hann_window o c n = Ok (fresh [n] (hann o n)).
Proof.
  intros Hs Hc. unfold hann_window. rewrite from_slice_dims_supported by auto. cbn [bind].
  rewrite init_rindexed_canon by (auto; cbn [prod]; now rewrite Nat.mul_1_r).
  rewrite coords_vector.
  match goal with |- context [traverse ?h tt _] =>
    assert (E : forall l, traverse h tt (map (fun i => [i]) l) =
      Ok (tt, map (fun i => let s := ssin o (fmul (sbase o) (fdiv (sbase o) (spi o) (fof (sbase o) n)) (fof (sbase o) i)) in
                fmul (sbase o) s s) l)) end.
  { induction l as [|i l IH]; [reflexivity|]. cbn [map traverse rev app aget nth_error bind]. rewrite IH. reflexivity. }
  rewrite E. reflexivity.
Qed.

Lemma for_aset {X} n (body : nat -> list X -> outcome (list X)) (g : nat -> X) b0 :
  length b0 = n -> (forall i b, i < n -> length b = n -> body i b = aset b i (g i)) ->
  for_ n body b0 = Ok (map g (seq 0 n)).
Proof.
  intros Hl Hb. destruct (for_inv (fun i b => b = map g (seq 0 i) ++ skipn i b0) n body b0) as (b & E & ->).
  - intros i b Hi ->. assert (Hlen : length (map g (seq 0 i) ++ skipn i b0) = n)
      by (rewrite app_length, map_length, seq_length, skipn_length; lia).
    rewrite Hb by auto. rewrite aset_ok by lia. eexists. split; [reflexivity|].
    destruct (skipn i b0) as [|x r] eqn:E.
    { assert (length (skipn i b0) = 0) by now rewrite E. rewrite skipn_length in *. lia. }
    assert (Er : skipn (S i) b0 = r).
    { assert (G : forall (l : list X) i, skipn (S i) l = match skipn i l with [] => [] | _ :: r => r end).
      { clear. induction l as [|y l IH]; intros [|i]; try reflexivity. cbn [skipn] in *. apply IH. }
      rewrite G, E. reflexivity. }
    rewrite Er, seq_S, map_app. cbn [map Nat.add]. rewrite <- app_assoc. cbn [app].
    rewrite <- (seq_length i 0) at 2. rewrite <- (map_length g). apply set_nth_middle.
  - reflexivity.
  - rewrite E. rewrite skipn_all2 by lia. now rewrite app_nil_r.
Qed.

Lemma for_write_at {X} m (body : nat -> buf X -> outcome (buf X)) (g : nat -> X) w k :
  (forall i b, i < m -> body i b = write b (length w + i) (g i)) ->
  for_ m body (map Some w ++ repeat None (m + k)) = Ok (map Some (w ++ map g (seq 0 m)) ++ repeat None k).
Proof.
  intros Hb. destruct (for_inv (fun i b => b = map Some (w ++ map g (seq 0 i)) ++ repeat None (m - i + k)) m body
    (map Some w ++ repeat None (m + k))) as (b & E & ->).
  - intros i b Hi ->. rewrite Hb by auto.
    rewrite write_ok by (rewrite app_length, !map_length, app_length, map_length, seq_length, repeat_length; lia).
    eexists. split; [reflexivity|]. replace (m - i + k) with (S (m - S i + k)) by lia. cbn [repeat].
    replace (length w + i) with (length (map (@Some X) (w ++ map g (seq 0 i))))
      by (rewrite !map_length, app_length, map_length, seq_length; lia).
    rewrite set_nth_middle. rewrite seq_S, !map_app. cbn [map Nat.add]. rewrite <- !app_assoc. reflexivity.
  - cbn [seq map]. rewrite app_nil_r, Nat.sub_0_r. reflexivity.
  - rewrite E, Nat.sub_diag. reflexivity.
Qed.

Lemma zip_with_length {A B C} (f : A -> B -> C) a b : length (zip_with f a b) = Nat.min (length a) (length b).
Proof. revert b. induction a as [|x a IH]; intros [|y b]; try reflexivity. cbn [zip_with length]. now rewrite IH. Qed.

Lemma nth_error_zip_with {A B C} (f : A -> B -> C) a b i x y :
  nth_error a i = Some x -> nth_error b i = Some y -> nth_error (zip_with f a b) i = Some (f x y).
Proof.
  revert b i. induction a as [|x' a IH]; intros [|y' b] [|i]; cbn [nth_error zip_with]; try discriminate.
  - intros E1 E2. injection E1 as ->. injection E2 as ->. reflexivity.
  - apply IH.
Qed.

Lemma map_nth_seq {A} (l : list A) d : map (fun i => nth i l d) (seq 0 (length l)) = l.
Proof.
  induction l as [|x l IH]; [reflexivity|]. cbn [length seq map nth]. f_equal.
  rewrite <- seq_shift, map_map. exact IH.
Qed.

Section Rfft.

Context {F C : Type} (o : sigops F C).

(** rustfft transforms in place. *)
Hypothesis cfft_length : forall l, length (cfft o l) = length l.

Lemma hann_length n : length (hann o n) = n.
Proof. unfold hann. now rewrite map_length, seq_length. Qed.

Lemma spectrum_length xs : length (spectrum o xs) = length xs.
Proof. unfold spectrum. rewrite cfft_length, map_length. rewrite zip_with_length, hann_length. lia. Qed.

Lemma magnitudes_length m xs : length (magnitudes o m xs) = m.
Proof. unfold magnitudes. now rewrite map_length, seq_length. Qed.

Lemma rfft_row c t xs ds n m k w rest (window : tensor F) :
    repr t ds xs -> repr window [n] (hann o n) -> 0 < n -> (k + 1) * n <= length xs ->
    (Z.of_nat (length xs) < two32)%Z ->
    length w = k * m -> (Z.of_nat (k * m + m) < two63)%Z ->
    forall buffer, length buffer = n ->
    (let* p := umul c k n in
     let* x := as_wrap_slice t p in
     let* buffer := for_ n (fun i buffer =>
        let* xi := aget x i in
        let* wi := index1 window i in
        aset buffer i (creal o (fmul (sbase o) xi wi))) buffer in
      let buffer := cfft o buffer in
      let* offset := umul c k m in
      let* out := for_ (Nat.min (n / 2 + 1) m) (fun i out =>
        let* z := aget buffer i in
        let* q := uadd c offset i in
        write out q (cnorm o z)) (map Some w ++ repeat None (m + rest)) in
      let* out := for_range (n / 2 + 1) m (fun i out =>
        let* q := uadd c offset i in
        write out q (fzero (sbase o))) out in
      Ok (buffer, out)) =
    let r := firstn n (skipn (k * n) xs) in
    Ok (spectrum o r, map Some (w ++ magnitudes o m r) ++ repeat None rest).
Proof.
    intros H Hw Hn Hk Hx Hlw Hm buffer Hlb. set (r := firstn n (skipn (k * n) xs)). cbv zeta.
    assert (Hr : length r = n) by (unfold r; rewrite firstn_length, skipn_length; lia).
    assert (Hne : xs <> []) by (destruct xs; cbn [length] in *; [lia|congruence]).
    assert (Hkn : k * n < length xs) by lia.
    rewrite umul_ok by (unfold two64, two32 in *; lia). cbn [bind].
    rewrite (c18_wrap_slice t ds xs (k * n) H Hne), Nat.mod_small by auto. cbn [bind].
    rewrite (for_aset n _ (fun i => nth i (map (creal o) (zip_with (fmul (sbase o)) r (hann o n))) (creal o (fzero (sbase o))))); auto.
    2:{ intros i b Hi Hb. destruct (nth_error r i) as [v|] eqn:Ev; [|apply nth_error_None in Ev; lia].
        assert (Ev' : nth_error (skipn (k * n) xs) i = Some v).
        { unfold r in Ev. rewrite nth_error_firstn in Ev. destruct (i <? n); [exact Ev|discriminate]. }
        rewrite (aget_ok _ _ _ Ev'). cbn [bind].
        destruct (nth_error (hann o n) i) as [h|] eqn:Eh; [|apply nth_error_None in Eh; rewrite hann_length in Eh; lia].
        rewrite (c16_index1 window [n] (hann o n) i Hw), Eh. cbn [bind]. f_equal.
        symmetry. apply nth_error_nth. rewrite nth_error_map, (nth_error_zip_with _ _ _ _ _ _ Ev Eh). reflexivity. }
    cbn [bind].
    set (z0 := creal o (fzero (sbase o))).
    assert (Eb : map (fun i => nth i (map (creal o) (zip_with (fmul (sbase o)) r (hann o n))) z0) (seq 0 n)
                 = map (creal o) (zip_with (fmul (sbase o)) r (hann o n))).
    { assert (Hl : length (map (creal o) (zip_with (fmul (sbase o)) r (hann o n))) = n)
        by (rewrite map_length, zip_with_length, hann_length; lia).
      pose proof (map_nth_seq (map (creal o) (zip_with (fmul (sbase o)) r (hann o n))) z0) as G.
      rewrite Hl in G. exact G. }
    rewrite Eb. replace (hann o n) with (hann o (length r)) by now rewrite Hr. fold (spectrum o r).
    rewrite umul_ok by (unfold two64, two63 in *; lia). cbn [bind].
    set (f1 := Nat.min (n / 2 + 1) m).
    assert (Hf1 : f1 <= n).
    { unfold f1. pose proof (Nat.div_lt n 2). destruct (Nat.eq_dec n 1) as [->|]; [cbn; lia|].
      assert (n / 2 < n) by (apply Nat.div_lt; lia). lia. }
    replace (m + rest) with (f1 + ((m - f1) + rest)) by (unfold f1; lia).
    rewrite (for_write_at f1 _ (fun i => cnorm o (nth i (spectrum o r) z0)) w).
    2:{ intros i b Hi. rewrite (aget_nth _ _ z0) by (rewrite spectrum_length; lia). cbn [bind].
        rewrite uadd_ok by (unfold two64, two63 in *; unfold f1 in *; lia). cbn [bind]. now rewrite Hlw. }
    cbn [bind]. rewrite for_range_shift.
    assert (Em : m - (n / 2 + 1) = m - f1) by (unfold f1; lia). rewrite Em.
    rewrite (for_write_at (m - f1) _ (fun _ => fzero (sbase o))).
    2:{ intros i b Hi. rewrite uadd_ok by (unfold two64, two63 in *; unfold f1 in *; lia). cbn [bind].
        f_equal. rewrite app_length, map_length, seq_length, Hlw. unfold f1 in *. lia. }
    cbn [bind]. f_equal. f_equal. f_equal. rewrite <- app_assoc. f_equal. f_equal.
    unfold magnitudes. rewrite Hr. replace m with (f1 + (m - f1)) at 2 by (unfold f1; lia).
    rewrite seq_app, map_app. f_equal.
    - apply map_ext_in. intros i Hi. apply in_seq in Hi. replace (i <? n / 2 + 1) with true by (unfold f1 in *; lia). reflexivity.
    - cbn [Nat.add]. apply nth_error_ext. intros i. rewrite !nth_error_map.
      destruct (Nat.lt_ge_cases i (m - f1)) as [Hi|Hi].
      + rewrite !nth_error_seq by auto. cbn [option_map]. replace (f1 + i <? n / 2 + 1) with false by (unfold f1 in *; lia). reflexivity.
      + rewrite !(proj2 (nth_error_None _ _)) by (rewrite seq_length; auto). reflexivity.
  Qed.

(** What the code computes: it reads [batch] rows, the first dimension divided by the
      last, and keeps the result only if that is the number of rows there are. *)
Lemma rfft_norm_canon c t outer n xs fft_length :
    let m := out_len n fft_length in
    let batch := hd 0 (outer ++ [n]) / n in
    repr t (outer ++ [n]) xs -> 0 < prod (outer ++ [n]) -> supported (outer ++ [m]) ->
    can_alloc c (batch * m) ->
    rfft_norm o c t fft_length =
    if batch * m =? prod outer * m
    then Ok (fresh (outer ++ [m]) (flat_map (fun k => magnitudes o m (firstn n (skipn (k * n) xs))) (seq 0 batch)))
    else Panic.
Proof.
    intros m batch H Hp Hs Hc.
    pose proof (repr_supported _ _ _ H) as Hs0. pose proof (supported_len _ Hs0) as Hl0.
    pose proof (supported_prod _ Hs) as Hm. pose proof (supported_prod _ Hs0) as Hn0.
    rewrite prod_app in Hp, Hm, Hn0. cbn [prod] in Hp, Hm, Hn0. rewrite Nat.mul_1_r in Hp, Hm, Hn0.
    assert (Hn : 0 < n) by nia. assert (Ho : 0 < prod outer) by nia.
    pose proof (repr_len _ _ _ H) as Hx. rewrite prod_app in Hx. cbn [prod] in Hx. rewrite Nat.mul_1_r in Hx.
    assert (Hhd : hd 0 (outer ++ [n]) <= prod outer * n /\ batch <= prod outer).
    { unfold batch. destruct outer as [|d outer].
      - cbn [app hd prod]. rewrite Nat.div_same by lia. lia.
      - cbn [app hd prod] in *. assert (0 < prod outer) by nia. assert (d <= d * prod outer) by nia. split; [nia|].
        pose proof (Nat.div_le_upper_bound d n (d * prod outer)). apply Nat.div_le_upper_bound; nia. }
    destruct Hhd as [Hhd Hbatch].
    assert (Hbn : batch * n <= length xs).
    { rewrite Hx. unfold batch. pose proof (Nat.mul_div_le (hd 0 (outer ++ [n])) n). lia. }
    assert (Hms : (Z.of_nat m < two32)%Z) by nia.
    assert (Hns : (Z.of_nat n < two32)%Z) by nia.
    assert (Hbm : batch * m <= prod outer * m) by nia.
    unfold rfft_norm. cbv zeta. rewrite (repr_shape _ _ _ H), cols_canon, last_last by auto. cbn [bind].
    replace (len c (canon (outer ++ [n]))) with (Ok (hd 0 (outer ++ [n]))).
    2:{ destruct outer as [|d outer]; cbn [app hd]; symmetry; apply len_canon; auto. }
    cbn [bind]. rewrite udiv_ok by lia. cbn [bind]. fold batch.
    assert (Hsn : supported [n]) by (eapply supported_app_r; eauto).
    rewrite hann_window_ok; [|auto|left; lia]. cbn [bind].
    assert (Hhalf : n / 2 <= n) by (apply Nat.div_le_upper_bound; lia).
    rewrite uadd_ok by (unfold two64, two32 in *; lia). cbn [bind].
    change (match fft_length with Some l => l | None => n / 2 + 1 end) with m.
    rewrite with_cols_canon, as_u32_small by auto. cbn [bind].
    rewrite umul_ok by (unfold two64, two32 in *; nia). cbn [bind].
    unfold unsafe_init. rewrite alloc_ok by (auto; unfold two32 in *; nia). cbn [bind].
    set (row := fun k => magnitudes o m (firstn n (skipn (k * n) xs))).
    assert (Hrow : forall k, length (flat_map row (seq 0 k)) = k * m).
    { intros k. induction k as [|k IH]; [reflexivity|]. rewrite seq_S, flat_map_app, app_length, IH.
      cbn [flat_map Nat.add]. rewrite app_nil_r. unfold row. rewrite magnitudes_length. lia. }
    match goal with |- context [for_ batch ?f _] =>
      destruct (for_inv (fun k '(buffer, out) => length buffer = n /\
        out = map Some (flat_map row (seq 0 k)) ++ repeat None ((batch - k) * m)) batch f
        (repeat (creal o (fzero (sbase o))) n, repeat None (batch * m))) as ([buffer out] & E & Hlb & ->)
    end.
    - intros k [buffer out] Hk (Hlb & ->).
      assert (Hk1 : (k + 1) * n <= length xs) by nia.
      pose proof (rfft_row c t xs (outer ++ [n]) n m k (flat_map row (seq 0 k)) ((batch - S k) * m)
        (fresh [n] (hann o n)) H) as R.
      replace ((batch - k) * m) with (m + (batch - S k) * m) by nia.
      rewrite R; auto.
      + eexists. split; [reflexivity|]. cbv zeta. split.
        * rewrite spectrum_length, firstn_length, skipn_length. nia.
        * rewrite seq_S, flat_map_app. cbn [flat_map Nat.add]. rewrite app_nil_r. reflexivity.
      + apply repr_fresh; auto. rewrite hann_length. cbn [prod]. lia.
      + rewrite Hx. exact Hn0.
      + unfold two63, two32 in *. nia.
    - split; [apply repeat_length|]. cbn [seq flat_map map app]. now rewrite Nat.sub_0_r.
    - rewrite E. cbn [bind]. rewrite Nat.sub_diag, Nat.mul_0_l. cbn [repeat]. rewrite app_nil_r, assume_init_some. cbn [bind].
      rewrite tensor_new_canon by auto. rewrite Hrow, prod_app. cbn [prod]. rewrite Nat.mul_1_r, Nat.eqb_sym.
      destruct (batch * m =? prod outer * m); reflexivity.
  Qed.

End Rfft.

Lemma c61_vector {F C} (o : sigops F C) c (t : tensor F) n xs fft_length :
  (forall l, length (cfft o l) = length l) ->
  repr t [n] xs -> 0 < n -> supported [out_len n fft_length] -> can_alloc c (out_len n fft_length) ->
  rfft_norm o c t fft_length =
  Ok (fresh [out_len n fft_length] (magnitudes o (out_len n fft_length) xs)).
Proof.
  intros Hf H Hn Hs Hc. pose proof (repr_len _ _ _ H) as Hx. cbn [prod] in Hx.
  pose proof (rfft_norm_canon o Hf c t [] n xs fft_length) as E. cbn [app hd prod] in E.
  rewrite Nat.div_same in E by lia. rewrite !Nat.mul_1_l in E. rewrite Nat.eqb_refl in E.
  rewrite E by (auto; lia). cbn [seq flat_map Nat.mul skipn]. rewrite app_nil_r, firstn_all2 by lia. reflexivity.
Qed.

Lemma c61_rows {F C} (o : sigops F C) c (t : tensor F) d ds n xs fft_length :
  (forall l, length (cfft o l) = length l) ->
  let m := out_len n fft_length in
  repr t (d :: ds ++ [n]) xs -> 0 < prod (d :: ds ++ [n]) -> supported (d :: ds ++ [m]) ->
  0 < m -> can_alloc c (d / n * m) ->
  rfft_norm o c t fft_length =
  if (n =? 1) && (prod ds =? 1)
  then Ok (fresh (d :: ds ++ [m]) (flat_map (fun k => magnitudes o m (row_of n xs k)) (seq 0 d)))
  else Panic.
Proof.
  intros Hf m H Hp Hs Hm Hc.
  pose proof (rfft_norm_canon o Hf c t (d :: ds) n xs fft_length) as E. cbv zeta in E. fold m in E.
  cbn [app hd] in E. rewrite E by auto. clear E.
  cbn [prod] in Hp. rewrite prod_app in Hp. cbn [prod] in Hp.
  assert (0 < d) by nia. assert (0 < prod ds) by nia. assert (0 < n) by nia.
  destruct (Nat.eqb_spec n 1) as [->|N1]; cbn [andb].
  - rewrite Nat.div_1_r. destruct (Nat.eqb_spec (prod ds) 1) as [P|P].
    + replace (d * m =? prod (d :: ds) * m) with true; [reflexivity|]. cbn [prod]. rewrite P, Nat.mul_1_r. symmetry. apply Nat.eqb_refl.
    + replace (d * m =? prod (d :: ds) * m) with false; [reflexivity|]. symmetry. apply Nat.eqb_neq. cbn [prod]. nia.
  - replace (d / n * m =? prod (d :: ds) * m) with false; [reflexivity|]. symmetry. apply Nat.eqb_neq. cbn [prod].
    assert (d / n < d) by (apply Nat.div_lt; lia). clear - H0 H1 H3 Hm. generalize dependent (d / n). intros q Hq.
    assert (d <= d * prod ds) by nia. nia.
Qed.

Lemma c61_refuted {F C} (o : sigops F C) c (t : tensor F) d n xs :
  (forall l, length (cfft o l) = length l) ->
  repr t [d; n] xs -> 0 < d -> 1 < n -> supported [d; n / 2 + 1] -> can_alloc c (d / n) ->
  rfft_norm o c t None = Panic.
Proof.
  intros Hf H Hd Hn Hs Hc. pose proof (c61_rows o c t d [] n xs None Hf) as E. cbv zeta in E. unfold out_len in E.
  cbn [app] in E. rewrite E; auto.
  - replace (n =? 1) with false by lia. reflexivity.
  - cbn [prod]. nia.
  - lia.
  - destruct Hc as [Hc|Hc]; [left|now right].
    apply Nat.neq_mul_0. split; [auto|]. rewrite Nat.add_1_r. discriminate.
Qed.

Lemma c61_no_columns {F C} (o : sigops F C) c (t : tensor F) ds xs fft_length :
  repr t (ds ++ [0]) xs -> rfft_norm o c t fft_length = Panic.
Proof.
  intros H. pose proof (supported_len _ (repr_supported _ _ _ H)) as Hl.
  unfold rfft_norm. cbv zeta. rewrite (repr_shape _ _ _ H), cols_canon, last_last by auto. cbn [bind].
  apply bind_panic; [safe|]. intros a Ea. reflexivity.
Qed.

Lemma c61_scalar {F C} (o : sigops F C) c (t : tensor F) xs fft_length :
  repr t [] xs -> rfft_norm o c t fft_length = Panic.
Proof.
  intros H. unfold rfft_norm. cbv zeta. rewrite (repr_shape _ _ _ H), cols_canon by (cbn; lia). cbn [bind last].
  apply bind_panic; [safe|]. intros a Ea. reflexivity.
Qed.

Lemma c61_no_rows {F C} (o : sigops F C) c (t : tensor F) d ds n xs fft_length :
  let m := out_len n fft_length in
  repr t (d :: ds ++ [n]) xs -> prod (d :: ds) = 0 -> 0 < n -> supported (d :: ds ++ [m]) -> can_alloc c (d / n * m) ->
  rfft_norm o c t fft_length = if d <? n then Ok (fresh (d :: ds ++ [m]) []) else Panic.
Proof.
  intros m H Hp Hn Hs Hc.
  pose proof (repr_supported _ _ _ H) as Hs0. pose proof (supported_len _ Hs0) as Hl0.
  assert (Hms : (Z.of_nat m < two32)%Z) by (apply (supported_in _ m Hs); right; apply in_or_app; right; now left).
  assert (Hns : (Z.of_nat n < two32)%Z) by (apply (supported_in _ n Hs0); right; apply in_or_app; right; now left).
  assert (Hds : (Z.of_nat d < two32)%Z) by (apply (supported_in _ d Hs0); now left).
  unfold rfft_norm. cbv zeta. rewrite (repr_shape _ _ _ H), cols_canon by auto.
  replace (last (d :: ds ++ [n]) 0) with n by (symmetry; apply (last_last (d :: ds))). cbn [bind].
  rewrite len_canon by auto. cbn [bind]. rewrite udiv_ok by lia. cbn [bind].
  assert (Hsn : supported [n]) by (apply (supported_app_r (d :: ds)); auto).
  rewrite hann_window_ok; [|auto|left; lia]. cbn [bind].
  assert (Hhalf : n / 2 <= n) by (apply Nat.div_le_upper_bound; lia).
  rewrite uadd_ok by (unfold two64, two32 in *; lia). cbn [bind].
  change (match fft_length with Some l => l | None => n / 2 + 1 end) with m.
  change (d :: ds ++ [n]) with ((d :: ds) ++ [n]). rewrite with_cols_canon, as_u32_small by auto. cbn [bind].
  change ((d :: ds) ++ [m]) with (d :: ds ++ [m]).
  assert (Hdn : d / n <= d) by (apply Nat.div_le_upper_bound; nia).
  rewrite umul_ok by (unfold two64, two32 in *; nia). cbn [bind].
  destruct (Nat.ltb_spec d n) as [Hlt|Hge].
  - rewrite Nat.div_small in * by auto. cbn [Nat.mul] in *. unfold unsafe_init. rewrite alloc_ok by (auto; lia). cbn [bind repeat].
    unfold for_. cbn [for_from bind assume_init]. rewrite tensor_new_canon by auto.
    change (prod (d :: ds ++ [m])) with (prod ((d :: ds) ++ [m])). rewrite prod_app, Hp. reflexivity.
  - assert (Hb : 0 < d / n) by (apply Nat.div_str_pos; lia).
    unfold unsafe_init, alloc. destruct (two63 <=? Z.of_nat (d / n * m))%Z; [reflexivity|].
    assert (Ez : ((d / n * m =? 0) && negb (zero_alloc_ok c)) = false).
    { destruct Hc as [Hc|Hc]; [|rewrite Hc; now rewrite andb_false_r]. replace (d / n * m =? 0) with false by lia. reflexivity. }
    rewrite Ez. cbn [bind]. destruct (d / n) as [|b]; [lia|]. unfold for_. rewrite for_from_S. cbv beta.
    rewrite umul_ok by (unfold two64, two32 in *; lia). cbn [bind Nat.mul].
    unfold as_wrap_slice, wrap_pos. rewrite (repr_size _ _ _ H).
    assert (E0 : length xs = 0).
    { rewrite (repr_len _ _ _ H). change (d :: ds ++ [n]) with ((d :: ds) ++ [n]). now rewrite prod_app, Hp. }
    rewrite E0. reflexivity.
Qed.

Lemma c61_dft c (t : tensor R) n xs :
  repr t [n] xs -> 0 < n ->
  rfft_norm R_sig c t None = Ok (fresh [n / 2 + 1] (map (fun k =>
    let '(a, b) := coefficient xs k in sqrt (a * a + b * b)) (seq 0 (n / 2 + 1)))).
Proof.
  intros H Hn.
  assert (Hhalf : n / 2 + 1 <= n \/ n = 1).
  { destruct (Nat.eq_dec n 1); [auto|left]. assert (n / 2 < n) by (apply Nat.div_lt; lia). lia. }
  pose proof (repr_len _ _ _ H) as Hx. cbn [prod] in Hx. rewrite Nat.mul_1_r in Hx.
  rewrite (c61_vector R_sig c t n xs None); auto.
  2:{ intros l. cbn [cfft R_sig]. unfold dft. now rewrite map_length, seq_length. }
  2:{ pose proof (supported_in _ n (repr_supported _ _ _ H) (or_introl eq_refl)). apply supported1. cbn [out_len].
      destruct Hhalf as [?| ->]; [|reflexivity]. unfold two32 in *. lia. }
  2:{ left. cbn [out_len]. lia. }
  cbn [out_len]. unfold magnitudes. rewrite Hx. do 2 f_equal. apply map_ext_in. intros k Hk. apply in_seq in Hk.
  replace (k <? n / 2 + 1) with true by lia.
  assert (Hkn : k < n) by (destruct Hhalf as [?| ->]; [lia|cbn in *; lia]).
  unfold spectrum. cbn [cfft R_sig]. unfold dft.
  assert (Hl : length (map (creal R_sig) (zip_with (fmul (sbase R_sig)) xs (hann R_sig (length xs)))) = n)
    by (rewrite map_length, zip_with_length, hann_length; lia).
  rewrite Hl.
  match goal with |- context [nth k (map ?f (seq 0 n)) ?d] =>
    rewrite (nth_indep (map f (seq 0 n)) d (f 0)) by (rewrite map_length, seq_length; auto); rewrite (map_nth f) end.
  rewrite seq_nth by auto. cbn [Nat.add].
  assert (E : forall a xs, fold_right (fun jz acc =>
      let '(j, (x, y)) := jz in
      let th := (- (2 * PI * INR j * INR k / INR n))%R in
      (x * cos th - y * sin th + fst acc, x * sin th + y * cos th + snd acc)%R) (0, 0)%R
      (combine (seq a (length xs)) (map (creal R_sig) (zip_with Rmult xs
         (map (fun i => let s := sin (PI / INR n * INR i) in (s * s)%R) (seq a (length xs)))))) =
      (fold_right Rplus 0 (map (fun '(j, x) => x * (sin (PI / INR n * INR j) * sin (PI / INR n * INR j)) * cos (- (2 * PI * INR j * INR k / INR n))) (combine (seq a (length xs)) xs)),
       fold_right Rplus 0 (map (fun '(j, x) => x * (sin (PI / INR n * INR j) * sin (PI / INR n * INR j)) * sin (- (2 * PI * INR j * INR k / INR n))) (combine (seq a (length xs)) xs)))%R).
  { clear. intros a xs. revert a. induction xs as [|x xs IH]; intros a; [reflexivity|].
    cbn [length seq map zip_with combine fold_right]. rewrite IH. cbn [creal R_sig fst snd]. f_equal; ring. }
  specialize (E 0 xs). rewrite Hx in E. unfold hann. cbn [sbase R_sig fmul fdiv fof ssin spi R_ops]. rewrite Hx.
  cbv zeta in E. rewrite E. unfold coefficient. rewrite Hx. reflexivity.
Qed.

(** ** C65 *)

Lemma safe_isub c a b : safe (isub c a b).
Proof. unfold isub. safe. Qed.

Lemma safe_idiv a b : safe (idiv a b).
Proof. unfold idiv. safe. Qed.

Lemma safe_subslice {A} c (t : tensor A) p n : safe (subslice c t p n).
Proof. unfold subslice. safe. apply safe_subslice_flat. safe. Qed.

Lemma c65_frame {A} c (x : tensor A) len step : frame c x len step = Panic.
Proof.
  unfold frame. apply bind_panic; [safe|]. intros d _. apply bind_panic; [apply safe_isub|]. intros a _.
  apply bind_panic; [apply safe_idiv|]. intros q _. apply bind_panic; [safe|]. intros n _.
  apply bind_panic; [|reflexivity]. apply safe_for. intros i vec.
  safe. apply safe_subslice.
Qed.

Lemma c65_slice_usize {A} c (t : tensor A) i : slice_usize c t i = Panic.
Proof. unfold slice_usize. apply bind_panic; [safe|]. intros [] _. apply bind_panic; [safe|]. intros d _. apply bind_panic; [safe|]. reflexivity. Qed.

Lemma c65_slice_pair {A} c (t : tensor A) i j : slice_pair c t i j = Panic.
Proof.
  unfold slice_pair. apply bind_panic; [safe|]. intros [] _. apply bind_panic; [safe|]. intros d0 _.
  apply bind_panic; [safe|]. intros [] _. apply bind_panic; [safe|]. intros d1 _. apply bind_panic; [safe|]. reflexivity.
Qed.

Lemma c65_map2 {V} : @map2_row V = Panic /\ @map2_expand V = Panic.
Proof. split; reflexivity. Qed.
