(** * Properties of the file functions (C59, C60): proofs *)
From Coq Require Import Reals Lra.
From Coq Require Import ZifyBool ZifyNat ZifyN.
From Flocq Require Import Core IEEE754.BinarySingleNaN.
From Verif Require Import Base ShapeModel TensorModel FloatModel RandomModel IoModel
  Spec BaseFacts ShapeFacts TensorFacts RealFacts MathFacts StatsFacts InitFacts.
From Verif Require Import IoSpec.

Ltac Zify.zify_post_hook ::= Z.div_mod_to_equations.

(** ** C59 *)

Lemma field_2 bs off : off + 2 <= length bs ->
  field bs off 2 = [nth off bs 0%Z; nth (off + 1) bs 0%Z].
Proof.
  intros H. unfold field. revert bs H. induction off as [|off IH]; intros bs H.
  - destruct bs as [|a [|b bs]]; cbn in *; try lia. reflexivity.
  - destruct bs as [|a bs]; cbn in *; [lia|]. apply IH. lia.
Qed.

Lemma field_4 bs off : off + 4 <= length bs ->
  field bs off 4 = [nth off bs 0%Z; nth (off + 1) bs 0%Z; nth (off + 2) bs 0%Z; nth (off + 3) bs 0%Z].
Proof.
  intros H. unfold field. revert bs H. induction off as [|off IH]; intros bs H.
  - destruct bs as [|a [|b [|d [|e bs]]]]; cbn in *; try lia. reflexivity.
  - destruct bs as [|a bs]; cbn in *; [lia|]. apply IH. lia.
Qed.

Lemma nth_byte bs k : Forall is_byte bs -> is_byte (nth k bs 0%Z).
Proof.
  intros H. destruct (nth_in_or_default k bs 0%Z) as [Hin| ->]; [|red; lia].
  rewrite Forall_forall in H. now apply H.
Qed.

Section Reads.

Variables (c : cfg) (bs : list Z).

Hypothesis Hb : Forall is_byte bs.

Hypothesis Hl : (Z.of_nat (length bs) < 4294967296)%Z.

Lemma read_eq i : IoModel.read c bs i = if i <? length bs then Ok (nth i bs 0%Z, i + 1) else Panic.
Proof.
    unfold IoModel.read. destruct (Nat.ltb_spec i (length bs)) as [H|H].
    - rewrite (aget_nth _ _ 0%Z) by auto. cbn [bind]. rewrite uadd_ok by (unfold two64; lia). reflexivity.
    - rewrite aget_none by auto. reflexivity.
  Qed.

Lemma zarith_ok m v : (0 <= v < m)%Z -> zarith c m v = Ok v.
Proof. intros H. unfold zarith. replace ((0 <=? v) && (v <? m))%Z with true by lia. reflexivity. Qed.

Ltac reads :=
    repeat first [rewrite read_eq; match goal with |- context [?a <? ?b] => destruct (Nat.ltb_spec a b) end; cbn [bind]
                 |rewrite zarith_ok by (unfold u16_mod, u32_mod; lia); cbn [bind]].

Lemma read_u16_eq i : read_u16_little c bs i = if i + 2 <=? length bs then Ok (le (field bs i 2), i + 2) else Panic.
Proof.
    pose proof (nth_byte bs i Hb) as H0. pose proof (nth_byte bs (i + 1) Hb) as H1. unfold is_byte in H0, H1.
    destruct (Nat.leb_spec (i + 2) (length bs)) as [H|H].
    - rewrite field_2 by auto. unfold read_u16_little. reads; try lia. cbn [le fold_right]. do 2 f_equal; lia.
    - unfold read_u16_little. reads; try lia; reflexivity.
  Qed.

Lemma read_u32_eq i : read_u32_little c bs i = if i + 4 <=? length bs then Ok (le (field bs i 4), i + 4) else Panic.
Proof.
    pose proof (nth_byte bs i Hb) as H0. pose proof (nth_byte bs (i + 1) Hb) as H1.
    pose proof (nth_byte bs (i + 2) Hb) as H2. pose proof (nth_byte bs (i + 3) Hb) as H3. unfold is_byte in H0, H1, H2, H3.
    replace (i + 2) with (i + 1 + 1) in * by lia. replace (i + 3) with (i + 1 + 1 + 1) in * by lia.
    destruct (Nat.leb_spec (i + 4) (length bs)) as [H|H].
    - rewrite field_4 by auto. replace (i + 2) with (i + 1 + 1) in * by lia. replace (i + 3) with (i + 1 + 1 + 1) in * by lia.
      unfold read_u32_little. reads; try lia. cbn [le fold_right]. do 2 f_equal; lia.
    - unfold read_u32_little. reads; try lia; reflexivity.
  Qed.

Lemma read_u32_big_eq i : read_u32_big c bs i =
    if i + 4 <=? length bs then Ok (le (rev (field bs i 4)), i + 4) else Panic.
Proof.
    pose proof (nth_byte bs i Hb) as H0. pose proof (nth_byte bs (i + 1) Hb) as H1.
    pose proof (nth_byte bs (i + 2) Hb) as H2. pose proof (nth_byte bs (i + 3) Hb) as H3. unfold is_byte in H0, H1, H2, H3.
    replace (i + 2) with (i + 1 + 1) in * by lia. replace (i + 3) with (i + 1 + 1 + 1) in * by lia.
    destruct (Nat.leb_spec (i + 4) (length bs)) as [H|H].
    - rewrite field_4 by auto. replace (i + 2) with (i + 1 + 1) in * by lia. replace (i + 3) with (i + 1 + 1 + 1) in * by lia.
      unfold read_u32_big. reads; try lia. cbn [le fold_right rev app]. do 2 f_equal; lia.
    - unfold read_u32_big. reads; try lia; reflexivity.
  Qed.

Lemma magic off a b d e : is_byte a -> is_byte b -> is_byte d -> is_byte e ->
    off + 4 <= length bs ->
    ((le (rev (field bs off 4)) =? le (rev [a; b; d; e]))%Z = true <-> field bs off 4 = [a; b; d; e]).
Proof.
    intros Ha Hb' Hd He H. split.
    - rewrite field_4 by auto.
      pose proof (nth_byte bs off Hb) as H0. pose proof (nth_byte bs (off + 1) Hb) as H1.
      pose proof (nth_byte bs (off + 2) Hb) as H2. pose proof (nth_byte bs (off + 3) Hb) as H3. unfold is_byte in *.
      cbn [le fold_right rev app]. intros E. apply Z.eqb_eq in E.
      assert (nth off bs 0 = a)%Z by lia. assert (nth (off + 1) bs 0 = b)%Z by lia.
      assert (nth (off + 2) bs 0 = d)%Z by lia. assert (nth (off + 3) bs 0 = e)%Z by lia. congruence.
    - intros ->. apply Z.eqb_refl.
  Qed.

Lemma le_range off n : n <= 4 -> (0 <= le (field bs off n) < 256 ^ Z.of_nat n)%Z.
Proof.
    intros Hn.
    assert (G : forall l, Forall is_byte l -> (0 <= le l < 256 ^ Z.of_nat (length l))%Z).
    { induction l as [|x l IH]; intros H; [cbn; lia|]. inversion H; subst. specialize (IH ltac:(auto)).
      cbn [length le fold_right]. fold (le l). rewrite Nat2Z.inj_succ, Z.pow_succ_r by lia. unfold is_byte in *. lia. }
    assert (Hf : Forall is_byte (field bs off n)).
    { unfold field. apply Forall_forall. intros x Hx. rewrite Forall_forall in Hb. apply Hb.
      rewrite <- (firstn_skipn off bs). apply in_or_app. right.
      rewrite <- (firstn_skipn n (skipn off bs)). apply in_or_app. now left. }
    specialize (G _ Hf). assert (length (field bs off n) <= n) by apply firstn_le_length.
    split; [lia|]. eapply Z.lt_le_trans; [apply G|]. apply Z.pow_le_mono_r; lia.
  Qed.

End Reads.

Lemma as_i16_signed v : (0 <= v < 65536)%Z -> as_i16 v = signed16 v.
Proof. intros H. unfold as_i16, signed16. destruct (Z.ltb_spec v 32768); lia. Qed.

Lemma wav_loop {F} (o : rops F) c bs n : Forall is_byte bs -> (Z.of_nat (length bs) < 4294967296)%Z ->
  44 <= length bs ->
  for_ n (fun _ '(data, i) =>
    let* '(item, i) := read_i16_little c bs i in
    Ok (data ++ [fdiv (rbase o) (rof o item) (rof o 32768)], i)) ([], 44) =
  if 44 + 2 * n <=? length bs
  then Ok (map (fun k => fdiv (rbase o) (rof o (wav_sample bs k)) (rof o 32768)) (seq 0 n), 44 + 2 * n)
  else Panic.
Proof.
  intros Hb Hl H44. unfold for_.
  set (body := fun (_ : nat) '(data, i) =>
    let* '(item, i) := read_i16_little c bs i in
    Ok (data ++ [fdiv (rbase o) (rof o item) (rof o 32768)], i)).
  set (g := fun k => fdiv (rbase o) (rof o (wav_sample bs k)) (rof o 32768)).
  assert (G : forall n m data, for_from m n body (data, 44 + 2 * m) =
    if 44 + 2 * (m + n) <=? length bs then Ok (data ++ map g (seq m n), 44 + 2 * (m + n))
    else if n =? 0 then Ok (data, 44 + 2 * m) else Panic).
  { clear n. induction n as [|n IH]; intros m data.
    - rewrite Nat.add_0_r. cbn [seq map for_from Nat.eqb]. rewrite app_nil_r. now destruct (_ <=? _).
    - rewrite for_from_S. unfold body at 1. unfold read_i16_little. rewrite read_u16_eq by auto.
      destruct (Nat.leb_spec (44 + 2 * m + 2) (length bs)) as [H|H]; cbn [bind].
      + rewrite as_i16_signed by (apply (le_range bs Hb (44 + 2 * m) 2); lia).
        fold (wav_sample bs m). fold (g m).
        replace (44 + 2 * m + 2) with (44 + 2 * S m) by lia. rewrite IH.
        replace (S m + n) with (m + S n) by lia. cbn [seq map]. rewrite <- app_assoc. cbn [app].
        destruct (Nat.leb_spec (44 + 2 * (m + S n)) (length bs)); [reflexivity|].
        destruct (Nat.eqb_spec n 0); [lia|]. replace (S n =? 0) with false by lia. reflexivity.
      + replace (44 + 2 * (m + S n) <=? length bs) with false by lia. reflexivity. }
  change 44 with (44 + 2 * 0) at 1. rewrite G. rewrite Nat.add_0_l. cbn [app].
  destruct (Nat.leb_spec (44 + 2 * n) (length bs)); [reflexivity|]. destruct (Nat.eqb_spec n 0); [lia|reflexivity].
Qed.

Lemma decode_cases {F} (o : rops F) c (t : tensor Z) ds bs :
  repr t ds bs -> Forall is_byte bs ->
  (wav_ok bs /\ decode_wav o c t =
    Ok (fresh [wav_samples bs / wav_channels bs; wav_channels bs]
          (map (fun k => fdiv (rbase o) (rof o (wav_sample bs k)) (rof o 32768)) (seq 0 (wav_samples bs))),
        fresh [] [wav_rate bs])) \/
  (~ wav_ok bs /\ decode_wav o c t = Panic).
Proof.
  intros H Hb.
  assert (Hl : (Z.of_nat (length bs) < 4294967296)%Z).
  { rewrite (repr_len _ _ _ H). apply supported_prod. exact (repr_supported _ _ _ H). }
  unfold decode_wav. rewrite (repr_as_slice _ _ _ H). cbn [bind].
  destruct (Nat.le_gt_cases 44 (length bs)) as [H44|H44].
  2:{ right. split; [intros G; destruct G as [G _]; lia|].
      repeat first
        [rewrite read_u32_big_eq by auto; match goal with |- context [?a <=? ?b] => destruct (Nat.leb_spec a b) end; cbn [bind]; [|reflexivity]
        |rewrite read_u32_eq by auto; match goal with |- context [?a <=? ?b] => destruct (Nat.leb_spec a b) end; cbn [bind]; [|reflexivity]
        |rewrite read_u16_eq by auto; match goal with |- context [?a <=? ?b] => destruct (Nat.leb_spec a b) end; cbn [bind]; [|reflexivity]
        |rewrite usub_ok by (unfold two64; lia); cbn [bind]
        |match goal with |- context [assert_ ?b] => destruct b; cbn [assert_ bind]; [|reflexivity] end].
      lia. }
  assert (Rb : forall i, i + 4 <= 44 -> read_u32_big c bs i = Ok (le (rev (field bs i 4)), i + 4)).
  { intros i Hi. rewrite read_u32_big_eq by auto. now replace (i + 4 <=? length bs) with true by lia. }
  assert (Rl : forall i, i + 4 <= 44 -> read_u32_little c bs i = Ok (le (field bs i 4), i + 4)).
  { intros i Hi. rewrite read_u32_eq by auto. now replace (i + 4 <=? length bs) with true by lia. }
  assert (Rs : forall i, i + 2 <= 44 -> read_u16_little c bs i = Ok (le (field bs i 2), i + 2)).
  { intros i Hi. rewrite read_u16_eq by auto. now replace (i + 2 <=? length bs) with true by lia. }
  rewrite Rb by lia. cbn [bind Nat.add].
  destruct (le (rev (field bs 0 4)) =? 0x52494646)%Z eqn:E1; cbn [assert_ bind].
  2:{ right. split; [|reflexivity]. intros (_ & G & _). rewrite G in E1. discriminate E1. }
  apply (magic bs Hb 0 82 73 70 70) in E1; try (unfold is_byte; lia).
  rewrite Rl by lia. cbn [bind Nat.add]. rewrite usub_ok by (unfold two64; lia). cbn [bind].
  replace (Z.of_nat (length bs - 8) mod u32_mod)%Z with (Z.of_nat (length bs) - 8)%Z
    by (rewrite Z.mod_small; unfold u32_mod; lia).
  destruct (Z.eqb_spec (le (field bs 4 4)) (Z.of_nat (length bs) - 8)) as [E2|E2]; cbn [assert_ bind].
  2:{ right. split; [|reflexivity]. intros (_ & _ & G & _). contradiction. }
  rewrite Rb by lia. cbn [bind Nat.add].
  destruct (le (rev (field bs 8 4)) =? 0x57415645)%Z eqn:E3; cbn [assert_ bind].
  2:{ right. split; [|reflexivity]. intros (_ & _ & _ & G & _). rewrite G in E3. discriminate E3. }
  apply (magic bs Hb 8 87 65 86 69) in E3; try (unfold is_byte; lia).
  rewrite Rb by lia. cbn [bind Nat.add].
  destruct (le (rev (field bs 12 4)) =? 0x666d7420)%Z eqn:E4; cbn [assert_ bind].
  2:{ right. split; [|reflexivity]. intros (_ & _ & _ & _ & G & _). rewrite G in E4. discriminate E4. }
  apply (magic bs Hb 12 102 109 116 32) in E4; try (unfold is_byte; lia).
  rewrite Rl by lia. cbn [bind Nat.add].
  destruct (Z.eqb_spec (le (field bs 16 4)) 16) as [E5|E5]; cbn [assert_ bind].
  2:{ right. split; [|reflexivity]. intros (_ & _ & _ & _ & _ & G & _). contradiction. }
  rewrite Rs by lia. cbn [bind Nat.add]. rewrite Rs by lia. cbn [bind Nat.add].
  rewrite Rl by lia. cbn [bind Nat.add]. rewrite Rl by lia. cbn [bind Nat.add].
  rewrite Rs by lia. cbn [bind Nat.add]. rewrite Rs by lia. cbn [bind Nat.add].
  destruct (Z.eqb_spec (le (field bs 20 2)) 1) as [E6|E6]; cbn [assert_ bind].
  2:{ right. split; [|reflexivity]. intros (_ & _ & _ & _ & _ & _ & G & _). contradiction. }
  destruct (Z.eqb_spec (le (field bs 34 2)) 16) as [E7|E7]; cbn [assert_ bind].
  2:{ right. split; [|reflexivity]. intros (_ & _ & _ & _ & _ & _ & _ & G & _). contradiction. }
  rewrite Rb by lia. cbn [bind Nat.add].
  destruct (le (rev (field bs 36 4)) =? 0x64617461)%Z eqn:E8; cbn [assert_ bind].
  2:{ right. split; [|reflexivity]. intros (_ & _ & _ & _ & _ & _ & _ & _ & G & _). rewrite G in E8. discriminate E8. }
  apply (magic bs Hb 36 100 97 116 97) in E8; try (unfold is_byte; lia).
  rewrite Rl by lia. cbn [bind Nat.add]. fold (wav_samples bs). fold (wav_channels bs). fold (wav_rate bs).
  rewrite wav_loop by auto.
  destruct (Nat.leb_spec (44 + 2 * wav_samples bs) (length bs)) as [E9|E9]; cbn [bind].
  2:{ right. split; [|reflexivity]. intros (_ & _ & _ & _ & _ & _ & _ & _ & _ & G & _). lia. }
  pose proof (le_range bs Hb 22 2 ltac:(lia)) as Hch. change (256 ^ Z.of_nat 2)%Z with 65536%Z in Hch.
  assert (Hch' : wav_channels bs < Z.to_nat 65536) by (unfold wav_channels; lia). clear Hch.
  set (n := wav_samples bs) in *. set (ch := wav_channels bs) in *.
  unfold udiv. destruct (Nat.eqb_spec ch 0) as [E10|E10]; cbn [bind].
  { right. split; [|reflexivity]. intros (_ & _ & _ & _ & _ & _ & _ & _ & _ & _ & G & _). lia. }
  assert (Hs : supported [n / ch; ch]).
  { split; [cbn; lia|]. cbn [map prod]. destruct (Nat.eq_dec (n / ch) 0) as [E|E].
    - rewrite E. lia.
    - assert (Hq : ch * (n / ch) <= n) by (apply Nat.mul_div_le; exact E10).
      revert Hq E. generalize (n / ch). intros q Hq E. rewrite !Nat.max_r by lia.
      rewrite Nat.mul_1_r, Nat.mul_comm. lia. }
  rewrite from_slice_dims_supported by auto. cbn [bind]. unfold from_vec. rewrite tensor_new_canon by auto.
  rewrite map_length, seq_length. cbn [prod]. rewrite Nat.mul_1_r.
  destruct (Nat.eqb_spec (n / ch * ch) n) as [E11|E11]; cbn [bind].
  2:{ right. split; [|reflexivity]. intros (_ & _ & _ & _ & _ & _ & _ & _ & _ & _ & _ & [q G]).
      fold n ch in G. apply E11. rewrite G. rewrite Nat.div_mul; lia. }
  rewrite of_value_fresh. cbn [bind]. left. split; [|reflexivity].
  split; [exact H44|]. repeat (split; [assumption|]). split; [lia|]. exists (n / ch). fold n ch. lia.
Qed.

Lemma c59_decode {F} (o : rops F) c (t : tensor Z) ds bs :
  repr t ds bs -> Forall is_byte bs -> wav_ok bs ->
  decode_wav o c t =
    Ok (fresh [wav_samples bs / wav_channels bs; wav_channels bs]
          (map (fun k => fdiv (rbase o) (rof o (wav_sample bs k)) (rof o 32768)) (seq 0 (wav_samples bs))),
        fresh [] [wav_rate bs]).
Proof. intros H Hb Hw. destruct (decode_cases o c t ds bs H Hb) as [[_ E]|[G _]]; [exact E|contradiction]. Qed.

Lemma c59_rejects {F} (o : rops F) c (t : tensor Z) ds bs :
  repr t ds bs -> Forall is_byte bs -> ~ wav_ok bs -> decode_wav o c t = Panic.
Proof. intros H Hb Hw. destruct (decode_cases o c t ds bs H Hb) as [[G _]|[_ E]]; [contradiction|exact E]. Qed.

Lemma word16_bytes v : Forall is_byte (word16 v).
Proof. unfold word16. repeat constructor; apply Z.mod_pos_bound; lia. Qed.

Lemma word32_bytes v : Forall is_byte (word32 v).
Proof. unfold word32. repeat constructor; apply Z.mod_pos_bound; lia. Qed.

Lemma le_word16 v : le (word16 v) = (v mod 65536)%Z.
Proof. cbn [le word16 fold_right]. lia. Qed.

Lemma le_word32 v : le (word32 v) = (v mod 4294967296)%Z.
Proof. cbn [le word32 fold_right]. lia. Qed.

Lemma flat_word16_length l : length (flat_map word16 l) = 2 * length l.
Proof. induction l; cbn [flat_map word16 app length] in *; lia. Qed.

Lemma wav_file_length rate ch l : length (wav_file rate ch l) = 44 + 2 * length l.
Proof. unfold wav_file. rewrite <- flat_word16_length. reflexivity. Qed.

Lemma wav_file_bytes rate ch l : Forall is_byte (wav_file rate ch l).
Proof.
  unfold wav_file. cbv zeta. repeat (apply Forall_app; split; [first [apply word16_bytes|apply word32_bytes|repeat (apply Forall_cons; [red; lia|]); apply Forall_nil]|]).
  induction l; [constructor|]. cbn [flat_map]. apply Forall_app. split; [apply word16_bytes|auto].
Qed.

Lemma field_samples pre l k v : nth_error l k = Some v ->
  field (pre ++ flat_map word16 l) (length pre + 2 * k) 2 = word16 v.
Proof.
  intros H. unfold field. rewrite skipn_app. rewrite skipn_all2 by lia. cbn [app].
  replace (length pre + 2 * k - length pre) with (2 * k) by lia.
  revert k H. induction l as [|x l IH]; intros [|k] H; try discriminate.
  - injection H as ->. reflexivity.
  - replace (2 * S k) with (S (S (2 * k))) by lia. cbn [flat_map word16 app skipn]. apply IH. exact H.
Qed.

Lemma c59_roundtrip {F} (o : rops F) c (t : tensor Z) ds rate ch samples :
  repr t ds (wav_file rate ch samples) ->
  Forall (fun v => -32768 <= v < 32768)%Z samples -> (0 <= rate < 4294967296)%Z ->
  (0 < ch < 65536)%Z -> (ch | Z.of_nat (length samples))%Z ->
  decode_wav o c t =
    Ok (fresh [length samples / Z.to_nat ch; Z.to_nat ch]
          (map (fun v => fdiv (rbase o) (rof o v) (rof o 32768)) samples),
        fresh [] [rate]).
Proof.
  intros H Hv Hr Hc Hd.
  pose proof (wav_file_length rate ch samples) as Hlen. pose proof (wav_file_bytes rate ch samples) as Hby.
  assert (Hl : (44 + 2 * Z.of_nat (length samples) < 4294967296)%Z).
  { pose proof (supported_prod _ (repr_supported _ _ _ H)) as G. rewrite <- (repr_len _ _ _ H), Hlen in G. unfold two32 in G. lia. }
  set (bs := wav_file rate ch samples) in *.
  assert (F4 : field bs 4 4 = word32 (36 + 2 * Z.of_nat (length samples))) by reflexivity.
  assert (F22 : field bs 22 2 = word16 ch) by reflexivity.
  assert (F24 : field bs 24 4 = word32 rate) by reflexivity.
  assert (F40 : field bs 40 4 = word32 (2 * Z.of_nat (length samples))) by reflexivity.
  assert (En : wav_samples bs = length samples).
  { unfold wav_samples. rewrite F40, le_word32, Z.mod_small by lia. lia. }
  assert (Ec : wav_channels bs = Z.to_nat ch).
  { unfold wav_channels. rewrite F22, le_word16, Z.mod_small by lia. reflexivity. }
  assert (Er : wav_rate bs = rate).
  { unfold wav_rate. now rewrite F24, le_word32, Z.mod_small by lia. }
  assert (Hw : wav_ok bs).
  { split; [lia|]. split; [reflexivity|]. split; [rewrite F4, le_word32, Z.mod_small, Hlen by lia; lia|].
    do 6 (split; [reflexivity|]). rewrite En, Ec. split; [lia|]. split; [lia|].
    destruct Hd as [q Hq]. exists (Z.to_nat q). apply Nat2Z.inj. rewrite Nat2Z.inj_mul, !Z2Nat.id; nia. }
  rewrite (c59_decode o c t ds bs H Hby Hw), En, Ec, Er. do 3 f_equal.
  apply nth_error_ext. intros k. destruct (Nat.lt_ge_cases k (length samples)) as [Hk|Hk].
  - rewrite nth_error_map_seq by auto. cbn [Nat.add]. destruct (nth_error samples k) as [v|] eqn:Ev.
    2:{ apply nth_error_None in Ev. lia. }
    rewrite (map_nth_error _ k samples Ev). do 2 f_equal. f_equal.
    assert (Hf : field bs (44 + 2 * k) 2 = word16 v) by exact (field_samples (firstn 44 bs) samples k v Ev).
    unfold wav_sample, signed16. rewrite Hf, le_word16.
    rewrite Forall_forall in Hv. specialize (Hv v (nth_error_In _ _ Ev)). lia.
  - transitivity (@None F); [apply nth_error_None; rewrite map_length, seq_length; lia|].
    symmetry. apply nth_error_None. rewrite map_length. lia.
Qed.

Lemma c59_truncated {F} (o : rops F) c (t : tensor Z) ds rate ch samples k :
  k < length (wav_file rate ch samples) ->
  (44 + 2 * Z.of_nat (length samples) < 4294967296)%Z ->
  repr t ds (firstn k (wav_file rate ch samples)) ->
  decode_wav o c t = Panic.
Proof.
  intros Hk Hl H. pose proof (wav_file_length rate ch samples) as Hlen. pose proof (wav_file_bytes rate ch samples) as Hby.
  assert (Hlk : length (firstn k (wav_file rate ch samples)) = k) by (rewrite firstn_length; lia).
  apply (c59_rejects o c t ds _ H).
  - apply Forall_forall. intros x Hx. rewrite Forall_forall in Hby. apply Hby.
    rewrite <- (firstn_skipn k). apply in_or_app. now left.
  - intros (G1 & _ & G2 & _). rewrite Hlk in G1, G2.
    assert (E : field (firstn k (wav_file rate ch samples)) 4 4 = word32 (36 + 2 * Z.of_nat (length samples))).
    { unfold field. rewrite skipn_firstn_comm, firstn_firstn. replace (Nat.min 4 (k - 4)) with 4 by lia. reflexivity. }
    rewrite E, le_word32, Z.mod_small in G2 by lia. lia.
Qed.

Lemma c59_sample_b32 ln_ exp_ pow_ cos_ v : (-32768 <= v < 32768)%Z ->
  let o := b32_rops ln_ exp_ pow_ cos_ in
  let x := fdiv (rbase o) (rof o v) (rof o 32768) in
  is_finite x = true /\ B2R x = (IZR v / 32768)%R.
Proof.
  intros Hv. cbn [b32_rops rbase rof fdiv b32_ops].
  assert (G : forall m, (Z.abs m <= 32768)%Z -> B2R (b32_of_Z m 0) = IZR m /\ is_finite (b32_of_Z m 0) = true).
  { intros m Hm. pose proof (binary_normalize_correct 24 128 b32_prec b32_emax mode_NE m 0 false) as H. cbv zeta in H.
    assert (E : F2R (Float radix2 m 0) = IZR m) by (unfold F2R; cbn [Fnum Fexp bpow]; lra). rewrite E in H.
    rewrite round_generic in H; [|apply valid_rnd_round_mode|].
    2:{ rewrite <- E. apply generic_format_F2R. intros Hm0. unfold cexp, SpecFloat.fexp. rewrite E.
        assert (mag radix2 (IZR m) <= 16)%Z; [|unfold SpecFloat.emin; lia].
        apply mag_le_bpow; [now apply IZR_neq|]. rewrite <- abs_IZR. change (bpow radix2 16) with (IZR 65536). apply IZR_lt. lia. }
    rewrite Rlt_bool_true in H.
    - destruct H as (H1 & H2 & _). auto.
    - rewrite <- abs_IZR. apply Rle_lt_trans with (bpow radix2 15); [|apply bpow_lt; lia].
      change (bpow radix2 15) with (IZR 32768). apply IZR_le. exact Hm. }
  destruct (G v ltac:(lia)) as [Rv Fv]. destruct (G 32768%Z ltac:(lia)) as [Rm Fm].
  set (a := b32_of_Z v 0) in *. set (b := b32_of_Z 32768 0) in *.
  pose proof (Bdiv_correct 24 128 b32_prec b32_emax mode_NE a b) as H. rewrite Rm, Rv in H. specialize (H ltac:(lra)).
  assert (E : (IZR v / 32768)%R = F2R (Float radix2 v (-15))).
  { unfold F2R. cbn [Fnum Fexp]. change (bpow radix2 (-15)) with (/ 32768)%R. reflexivity. }
  rewrite round_generic in H; [|apply valid_rnd_round_mode|].
  2:{ rewrite E. apply generic_format_F2R. intros Hv0. unfold cexp, SpecFloat.fexp. rewrite <- E.
      assert (mag radix2 (IZR v / 32768) <= 1)%Z; [|unfold SpecFloat.emin; lia].
      apply mag_le_bpow.
      - apply Rmult_integral_contrapositive. split; [now apply IZR_neq|lra].
      - unfold Rdiv. rewrite Rabs_mult, <- abs_IZR, (Rabs_pos_eq (/ 32768)) by lra.
        assert (IZR (Z.abs v) <= 32768)%R by (apply IZR_le; lia). change (bpow radix2 1) with 2%R. lra. }
  rewrite Rlt_bool_true in H.
  - destruct H as (H1 & H2 & _). rewrite H1, H2. auto.
  - apply Rle_lt_trans with 1%R.
    + unfold Rdiv. rewrite Rabs_mult, <- abs_IZR, (Rabs_pos_eq (/ 32768)) by lra.
      assert (IZR (Z.abs v) <= 32768)%R by (apply IZR_le; lia). lra.
    + change 1%R with (bpow radix2 0). apply bpow_lt. lia.
Qed.

(** ** C60 *)

Lemma c60_read_file_actual c content sys n :
  legal_os content sys -> os_read sys = Some n -> supported [length content] ->
  read_file c sys =
    Ok (Some (fresh [length content] (firstn n content ++ repeat 0%Z (length content - n)))).
Proof.
  intros (E1 & E2 & m & E3 & Hm) En Hs. unfold read_file. rewrite E1, E2, En.
  assert (m = n) by congruence. subst m.
  rewrite of_vec_canon; rewrite app_length, firstn_length, repeat_length, Nat.min_l, Nat.add_comm, Nat.sub_add by auto; [reflexivity|auto].
Qed.

Lemma c60_read_file_partial c content sys n :
  legal_os content sys -> os_read sys = Some n -> supported [length content] ->
  (read_file c sys = Ok (Some (fresh [length content] content)) <-> Forall (eq 0%Z) (skipn n content)).
Proof.
  intros HL En Hs. rewrite (c60_read_file_actual c content sys n HL En Hs).
  destruct HL as (_ & _ & m & E3 & Hm). assert (m = n) by congruence. subst m.
  assert (Hsk : length (skipn n content) = length content - n) by apply skipn_length.
  split.
  - intros E. assert (E' : firstn n content ++ repeat 0%Z (length content - n) = firstn n content ++ skipn n content).
    { rewrite (firstn_skipn n content). unfold fresh in E. congruence. }
    apply app_inv_head in E'. rewrite <- E'. apply Forall_forall. intros x Hx. symmetry. eapply repeat_spec. exact Hx.
  - intros Hz. do 3 f_equal. rewrite <- (firstn_skipn n content) at 3. f_equal.
    rewrite <- Hsk. clear -Hz. induction Hz as [|x l <- Hz IH]; [reflexivity|]. cbn [length repeat]. now rewrite IH.
Qed.

Lemma c60_refuted :
  exists content sys t, legal_os content sys /\ read_file dev sys = Ok (Some t) /\ as_slice t = Ok [1; 2; 0]%Z /\ content = [1; 2; 3]%Z.
Proof.
  exists [1; 2; 3]%Z, (mkOs (Some [1; 2; 3]%Z) (Some 3) (Some 2)), (fresh [3] [1; 2; 0]%Z).
  split; [|repeat split; vm_compute; reflexivity]. split; [reflexivity|]. split; [reflexivity|]. exists 2. split; [reflexivity|cbn; lia].
Qed.

Lemma c60_errors c sys :
  os_file sys = None \/ os_len sys = None \/ os_read sys = None -> read_file c sys = Ok None.
Proof.
  unfold read_file. intros [E|[E|E]]; rewrite E; [reflexivity|destruct (os_file sys); reflexivity|].
  destruct (os_file sys); [|reflexivity]. destruct (os_len sys); reflexivity.
Qed.
