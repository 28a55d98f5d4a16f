(** * Properties C01-C10: shapes: proofs *)
From Coq Require Import ZifyBool ZifyNat.
From Verif Require Import Base ShapeModel TensorModel Spec BaseFacts ShapeFacts ShapeFacts2.
From Verif Require Import ShapeSpec.

(** ** C01 *)

Lemma c01_from_slice c ds :
  length ds <= 6 -> dims32 ds ->
  exists s, from_slice_dims ds = Ok s /\
    rank s = length ds /\ as_vec c s = Ok ds /\
    (forall i, i < length ds ->
       dim c s i = Ok (nth i ds 0) /\ rdim s i = Ok (nth (length ds - 1 - i) ds 0)) /\
    (ds <> [] -> len c s = Ok (hd 0 ds)) /\
    cols s = Ok (last ds 0) /\ rows s = Ok (last (removelast ds) 0) /\
    (supported ds -> size c s = Ok (prod ds)).
Proof.
  intros Hl Hs. exists (canon ds).
  rewrite from_slice_dims_canon by auto. rewrite map_as_u32_small by exact Hs.
  repeat split; auto using as_vec_canon, dim_canon, rdim_canon, cols_canon, rows_canon, size_canon.
  intros Hne. destruct ds; [easy|]. now apply len_canon.
Qed.

Lemma c01_from_vec ds :
  length ds <= 6 -> dims32 ds -> positive ds -> from_vec_dims ds = from_slice_dims ds.
Proof.
  intros. rewrite from_vec_dims_canon, from_slice_dims_canon; auto.
Qed.

Lemma c01_from_vec_zero_panics ds : In 0 ds -> from_vec_dims ds = Panic.
Proof. exact (from_vec_dims_zero ds). Qed.

Lemma c01_too_long_panics ds :
  6 < length ds -> from_slice_dims ds = Panic /\ from_vec_dims ds = Panic.
Proof. split; auto using from_slice_dims_long, from_vec_dims_long. Qed.

Lemma c01_from_usize n :
  (Z.of_nat n < 4294967296)%Z -> from_usize n = from_slice_dims [n] /\
  (0 < n -> vector n = from_slice_dims [n]).
Proof.
  intros H. rewrite from_usize_canon, from_slice_dims_canon by (cbn; lia). cbn [map].
  split; [reflexivity|]. intros Hp. unfold vector. rewrite assert_true by lia. reflexivity.
Qed.

Lemma c01_unbounded_refuted :
  exists d s, from_slice_dims [d] = Ok s /\ as_vec dev s = Ok [7] /\ d <> 7.
Proof.
  exists (Z.to_nat 4294967303). eexists. split; [apply from_slice_dims_canon; cbn; lia|].
  cbn [map]. assert (as_u32 (Z.to_nat 4294967303) = 7) as ->.
  { unfold as_u32. rewrite Z2Nat.id by lia. reflexivity. }
  split; [reflexivity|]. lia.
Qed.

(** ** C02 *)

Lemma from_slice_dims_inv ds s : from_slice_dims ds = Ok s -> exists ds', length ds' <= 6 /\ s = canon ds'.
Proof.
  intros H. destruct (Nat.le_gt_cases (length ds) 6).
  - rewrite from_slice_dims_canon in H by auto. injection H as <-. eexists. split; [|reflexivity].
    now rewrite map_length.
  - now rewrite from_slice_dims_long in H.
Qed.

Lemma from_vec_dims_inv ds s : from_vec_dims ds = Ok s -> exists ds', length ds' <= 6 /\ s = canon ds'.
Proof.
  intros H. destruct (Nat.le_gt_cases (length ds) 6).
  - destruct (in_dec Nat.eq_dec 0 ds) as [Hi|Hi].
    + now rewrite from_vec_dims_zero in H.
    + rewrite from_vec_dims_canon in H; auto.
      * injection H as <-. eexists. split; [|reflexivity]. now rewrite map_length.
      * apply Forall_forall. intros x Hx. destruct x; [easy|lia].
  - now rewrite from_vec_dims_long in H.
Qed.

Lemma replace_at_length {A} i (x : A) l : length (replace_at i x l) = length l.
Proof. rewrite <- set_nth_replace_at. apply set_nth_length. Qed.

Lemma exists_last' {A} (l : list A) : 0 < length l -> exists l' a, l = l' ++ [a].
Proof. intros H. destruct (@exists_last _ l) as (l' & a & ->); eauto. now intros ->. Qed.

Lemma built_canon c s : built c s -> exists ds, length ds <= 6 /\ s = canon ds.
Proof.
  induction 1 as [ | n s H | n s H | ds s H | ds s H
    | s d s' _ IH H | s s' _ IH H | s i d s' _ IH Hi H | s i d s' _ IH Hi H | s i s' _ IH H
    | s i s' _ IH H | s i d s' _ IH H | s i d s' _ IH H | s d s' _ IH Hr H | s d s' _ IH H
    | s s' _ IH Hr H | s s' _ IH H | s a s' _ IH H | s s1 s' _ IH _ IH1 H ];
    try (destruct IH as (ds & Hl & ->)).
  - exists []. split; [cbn; lia|]. reflexivity.
  - unfold vector in H. destruct (0 <? n); [|discriminate]. cbn in H. injection H as <-.
    exists [as_u32 n]. split; [cbn; lia | reflexivity].
  - rewrite from_usize_canon in H. injection H as <-. eexists. split; [|reflexivity]. cbn; lia.
  - eapply from_slice_dims_inv; eauto.
  - eapply from_vec_dims_inv; eauto.
  - destruct (Nat.eq_dec (length ds) 6).
    + now rewrite push_canon_full in H.
    + rewrite push_canon in H by lia. injection H as <-. eexists. split; [|reflexivity]. cbn; lia.
  - destruct ds as [|d ds]; [now rewrite pop_scalar in H|].
    rewrite pop_canon in H by auto. injection H as <-. eexists. split; [|reflexivity]. cbn in Hl; lia.
  - cbn [rank canon] in Hi.
    destruct (Nat.le_gt_cases 5 (length ds - i)) as [H5|H5].
    { unfold insert in H. change (rank (canon ds)) with (length ds) in H.
      rewrite usub_ok in H by (unfold two64; lia). cbn [bind] in H.
      rewrite rinsert_panic5 in H; try lia; [discriminate|]. now apply canon_dims_length. }
    destruct (Nat.eq_dec (length ds) 6) as [E6|].
    2: { rewrite insert_canon in H by lia. injection H as <-. eexists. split; [|reflexivity].
         rewrite insert_at_length. lia. }
    exfalso. ds_cases ds Hl; cbn in E6; try lia.
    do 7 (destruct i as [|i]; [cbn in H; try discriminate; cbn in H5; lia|]). cbn in Hi. lia.
  - cbn [rank canon] in Hi.
    destruct (Nat.le_gt_cases 5 i) as [H5|H5].
    { rewrite rinsert_panic5 in H; auto; [discriminate|]. now apply canon_dims_length. }
    destruct (Nat.eq_dec (length ds) 6) as [E6|].
    2: { rewrite rinsert_canon in H by lia. injection H as <-. eexists. split; [|reflexivity].
         rewrite insert_at_length. lia. }
    exfalso. ds_cases ds Hl; cbn in E6; try lia.
    do 5 (destruct i as [|i]; [discriminate|]). lia.
  - destruct (Nat.lt_ge_cases i (length ds)).
    + rewrite remove_canon in H by auto. injection H as <-. eexists. split; [|reflexivity].
      rewrite remove_at_length; lia.
    + now rewrite remove_panic in H.
  - destruct (Nat.lt_ge_cases i (length ds)).
    + rewrite rremove_canon in H by auto. injection H as <-. eexists. split; [|reflexivity].
      rewrite remove_at_length; lia.
    + now rewrite rremove_panic in H.
  - destruct (Nat.lt_ge_cases i (length ds)).
    + rewrite replace_canon in H by auto. injection H as <-. eexists. split; [|reflexivity].
      now rewrite replace_at_length.
    + now rewrite replace_panic in H.
  - destruct (Nat.lt_ge_cases i (length ds)).
    + rewrite rreplace_canon in H by auto. injection H as <-. eexists. split; [|reflexivity].
      now rewrite replace_at_length.
    + now rewrite rreplace_panic in H.
  - destruct (exists_last' ds Hr) as (ds' & x & ->).
    rewrite with_cols_canon in H by auto. injection H as <-. eexists. split; [|reflexivity].
    rewrite app_length in *. cbn in *. lia.
  - destruct (Nat.lt_ge_cases 1 (length ds)) as [H1|H1].
    + destruct (exists_last' ds) as (ds' & x & ->); [lia|].
      rewrite app_length in H1. cbn in H1.
      destruct (exists_last' ds') as (ds'' & y & ->); [lia|].
      rewrite <- app_assoc in *. cbn [app] in *.
      rewrite with_rows_canon in H by auto. injection H as <-. eexists. split; [|reflexivity].
      rewrite app_length in *. cbn in *. lia.
    + unfold with_rows in H. rewrite assert_false in H; [discriminate|]. cbn. lia.
  - destruct (exists_last' ds Hr) as (ds' & x & ->).
    rewrite reduce_shape_canon in H by auto. injection H as <-. eexists. split; [|reflexivity].
    rewrite app_length in *. destruct ds'; cbn in *; lia.
  - rewrite squeeze_none_canon in H by auto. injection H as <-. eexists. split; [|reflexivity].
    unfold squeezed. assert (length (filter (fun d => negb (d =? 1)) ds) <= length ds).
    { clear. induction ds; cbn; [lia|]. destruct (negb _); cbn; lia. }
    destruct (filter _ ds); cbn in *; lia.
  - unfold expand_dims in H. rewrite as_vec_canon in H by auto. cbn [bind] in H.
    destruct (if (0 <=? a)%Z then _ else _) as [z| |]; cbn [bind] in H; try discriminate.
    unfold assert_ in H. destruct (as_usize z <=? length ds); [|discriminate]. cbn [bind] in H.
    unfold vec_insert in H. destruct (as_usize z <=? length ds); [|discriminate]. cbn [bind] in H.
    eapply from_vec_dims_inv; eauto.
  - destruct IH1 as (ds1 & Hl1 & ->). unfold broadcast_to in H.
    destruct (check_broadcast _ _); cbn in H; try discriminate. injection H as <-.
    destruct (length ds <? length ds1); eauto.
Qed.

Lemma c02_shape_eq_partial c a b :
  built c a -> built c b -> (shape_eqb a b = true <-> as_vec c a = as_vec c b).
Proof.
  intros Ha Hb. apply built_canon in Ha, Hb.
  destruct Ha as (da & Hla & ->), Hb as (db & Hlb & ->).
  rewrite shape_eqb_canon, !as_vec_canon by auto. split; congruence.
Qed.

(* Missing from the full claim: shapes produced by [with_cols] or [reduce] on a rank-0
   shape, by [rinsert] beyond the rank and by [append], for which it is false: *)

Lemma c02_with_cols_refuted :
  exists s, with_cols scalar 3 = Ok s /\ as_vec dev s = as_vec dev scalar /\
            shape_eqb s scalar = false.
Proof. eexists. repeat split. Qed.

Lemma c02_reduce_refuted :
  exists s, reduce_shape scalar = Ok s /\ as_vec dev s = as_vec dev scalar /\
            shape_eqb s scalar = false.
Proof. eexists. repeat split. Qed.

Lemma c02_rinsert_refuted :
  exists s t, rinsert dev scalar 2 9 = Ok s /\ from_slice_dims [0] = Ok t /\
              as_vec dev s = as_vec dev t /\ shape_eqb s t = false.
Proof. eexists. eexists. repeat split. Qed.

(** ** C03 *)

Lemma c03_insert c ds i v :
  length ds < 6 -> i <= length ds -> length ds - i < 5 -> (Z.of_nat v < 4294967296)%Z ->
  insert c (canon ds) i v = Ok (canon (insert_at i v ds)).
Proof. intros. rewrite insert_canon by auto. now rewrite as_u32_small. Qed.

Lemma c03_rinsert c ds r v :
  length ds < 6 -> r <= length ds -> r < 5 -> (Z.of_nat v < 4294967296)%Z ->
  rinsert c (canon ds) r v = Ok (canon (insert_at (length ds - r) v ds)).
Proof. intros. rewrite rinsert_canon by auto. now rewrite as_u32_small. Qed.

Lemma c03_remove ds i :
  length ds <= 6 -> i < length ds -> remove (canon ds) i = Ok (canon (remove_at i ds)).
Proof. exact (remove_canon ds i). Qed.

Lemma c03_rremove ds r :
  length ds <= 6 -> r < length ds ->
  rremove (canon ds) r = Ok (canon (remove_at (length ds - 1 - r) ds)).
Proof. exact (rremove_canon ds r). Qed.

Lemma c03_with_dim c ds i v :
  length ds <= 6 -> i < length ds -> (Z.of_nat v < 4294967296)%Z ->
  with_dim c (canon ds) i v = Ok (canon (replace_at i v ds)).
Proof. intros. unfold with_dim. rewrite replace_canon by auto. now rewrite as_u32_small. Qed.

Lemma c03_rreplace ds r v :
  length ds <= 6 -> r < length ds -> (Z.of_nat v < 4294967296)%Z ->
  rreplace (canon ds) r v = Ok (canon (replace_at (length ds - 1 - r) v ds)).
Proof. intros. rewrite rreplace_canon by auto. now rewrite as_u32_small. Qed.

Lemma c03_with_cols ds d v :
  length (ds ++ [d]) <= 6 -> (Z.of_nat v < 4294967296)%Z ->
  with_cols (canon (ds ++ [d])) v = Ok (canon (ds ++ [v])).
Proof. intros. rewrite with_cols_canon by auto. now rewrite as_u32_small. Qed.

Lemma c03_with_rows ds r d v :
  length (ds ++ [r; d]) <= 6 -> (Z.of_nat v < 4294967296)%Z ->
  with_rows (canon (ds ++ [r; d])) v = Ok (canon (ds ++ [v; d])).
Proof. intros. rewrite with_rows_canon by auto. now rewrite as_u32_small. Qed.

Lemma c03_push ds d :
  length ds < 6 -> (Z.of_nat d < 4294967296)%Z -> push (canon ds) d = Ok (canon (d :: ds)).
Proof. intros. rewrite push_canon by auto. now rewrite as_u32_small. Qed.

Lemma c03_pop c ds d :
  length (d :: ds) <= 6 -> pop c (canon (d :: ds)) = Ok (canon ds).
Proof. exact (pop_canon c ds d). Qed.

Lemma c03_remove_undoes_insert c ds i v :
  length ds < 6 -> i <= length ds -> length ds - i < 5 -> (Z.of_nat v < 4294967296)%Z ->
  (let* s := insert c (canon ds) i v in remove s i) = Ok (canon ds).
Proof.
  intros. rewrite c03_insert by auto. cbn [bind].
  rewrite remove_canon by (rewrite insert_at_length; lia). now rewrite remove_insert_at.
Qed.

Lemma c03_out_of_range c ds i v :
  length ds <= 6 -> (Z.of_nat i < 9223372036854775808)%Z ->
  (length ds <= i -> dim c (canon ds) i = Panic /\ remove (canon ds) i = Panic /\
     rremove (canon ds) i = Panic /\ with_dim c (canon ds) i v = Panic /\
     rreplace (canon ds) i v = Panic) /\
  (length ds < i -> insert c (canon ds) i v = Panic) /\
  (length ds = 6 -> push (canon ds) v = Panic) /\
  (ds = [] -> pop c (canon ds) = Panic).
Proof.
  intros Hl Hi. repeat split.
  - apply dim_canon_panic; auto.
  - now apply remove_panic.
  - now apply rremove_panic.
  - now apply replace_panic.
  - now apply rreplace_panic.
  - intros. now apply insert_panic.
  - now apply push_canon_full.
  - intros ->. apply pop_scalar.
Qed.

(** ** C04 *)

Lemma c04_insert_total_partial c ds i v :
  length ds < 6 -> i <= length ds -> ~ (length ds = 5 /\ i = 0) ->
  exists s, insert c (canon ds) i v = Ok s.
Proof. intros. eexists. apply insert_canon; lia. Qed.

(* Missing: the outermost insertion into a rank-5 shape, which panics: *)

Lemma c04_refuted :
  exists ds, length ds < 6 /\ forall c v, insert c (canon ds) 0 v = Panic.
Proof. exists [2; 3; 4; 5; 6]. split; [cbn; lia|]. intros. reflexivity. Qed.

Lemma c04_rank5_always_panics c ds v : length ds = 5 -> insert c (canon ds) 0 v = Panic.
Proof.
  intros H. unfold insert. change (rank (canon ds)) with (length ds). rewrite H.
  rewrite usub_ok by (unfold two64; lia). cbn [bind].
  apply rinsert_panic5; [|lia]. apply canon_dims_length. lia.
Qed.

(** ** C05 *)

Lemma c05_squeeze c ds :
  length ds <= 6 ->
  squeeze c (canon ds) None =
    Ok (canon (match filter (fun d => negb (d =? 1)) ds with [] => [1] | l => l end)).
Proof. exact (squeeze_none_canon c ds). Qed.

Lemma c05_squeeze_size c ds s :
  supported ds -> squeeze c (canon ds) None = Ok s -> size c s = size c (canon ds).
Proof.
  intros H. rewrite squeeze_none_canon by now apply supported_len. intros [= <-].
  rewrite !size_canon by auto using supported_squeezed. now rewrite prod_squeezed.
Qed.

Lemma c05_expand_dims c ds axis p :
  length ds < 6 -> positive ds -> dims32 ds -> p <= length ds ->
  (axis = Z.of_nat p \/ axis = Z.of_nat p - Z.of_nat (length ds) - 1)%Z ->
  expand_dims c (canon ds) axis = Ok (canon (insert_at p 1 ds)).
Proof. exact (expand_dims_canon c ds axis p). Qed.

Lemma c05_expand_dims_size c ds axis p s :
  supported ds -> length ds < 6 -> positive ds -> p <= length ds ->
  (axis = Z.of_nat p \/ axis = Z.of_nat p - Z.of_nat (length ds) - 1)%Z ->
  expand_dims c (canon ds) axis = Ok s -> size c s = size c (canon ds).
Proof.
  intros H Hl Hpos Hp Ha. rewrite (expand_dims_canon c ds axis p); auto using supported_small.
  intros [= <-]. rewrite !size_canon; auto.
  - rewrite prod_insert_at. f_equal. lia.
  - apply supported_insert_at; auto. pose proof (supported_prod1 _ H). unfold two32 in *. lia.
Qed.

Lemma c05_squeeze_expand c ds axis p :
  length ds < 6 -> positive ds -> dims32 ds -> p <= length ds ->
  (axis = Z.of_nat p \/ axis = Z.of_nat p - Z.of_nat (length ds) - 1)%Z ->
  (let* s := expand_dims c (canon ds) axis in squeeze c s None) = squeeze c (canon ds) None.
Proof.
  intros. rewrite (expand_dims_canon c ds axis p) by auto. cbn [bind].
  rewrite !squeeze_none_canon by (rewrite ?insert_at_length; lia).
  unfold squeezed, insert_at. rewrite filter_app. cbn [filter].
  change (negb (1 =? 1)) with false. cbn iota.
  rewrite <- filter_app, firstn_skipn. reflexivity.
Qed.

(** ** C06 *)

Lemma c06_squeeze_axis_actual c ds a :
  length ds <= 6 -> a < length ds ->
  squeeze c (canon ds) (Some (Z.of_nat a)) =
  Ok (canon (if (0 <? a) && (nth (a - 1) ds 0 =? 1)
             then match remove_at (a - 1) ds with [] => [1] | l => l end
             else ds)).
Proof. intros. apply squeeze_some_canon; auto; lia. Qed.

Lemma c06_refuted :
  (exists s, squeeze dev (canon [1; 3]) (Some 0%Z) = Ok s /\ as_vec dev s <> Ok [3]) /\
  (exists s, squeeze dev (canon [2; 1; 3]) (Some 1%Z) = Ok s /\ as_vec dev s <> Ok [2; 3]) /\
  (exists s, squeeze dev (canon [2; 1; 3]) (Some 2%Z) = Ok s /\ as_vec dev s = Ok [2; 3]).
Proof.
  repeat split; eexists; (split; [reflexivity|]); try discriminate. reflexivity.
Qed.

(** ** C07 *)

Lemma c07_rank_grows_by_six s tail s' :
  length (dims s) = 6 -> append_dims s tail = Ok s' -> rank s' = rank s + 6.
Proof.
  intros Hd. unfold append_dims.
  destruct (for_ _ _ _) as [ds| |] eqn:E; cbn; try discriminate. intros [= <-]. cbn.
  assert (G : forall n i d d', length d = 6 ->
     for_from i n (fun i ds => let* d := aget tail i in aset ds (i + rank s) (as_u32 d)) d = Ok d' ->
     length d' = 6).
  { induction n as [|n IH]; intros i d d' Hl H.
    - cbn in H. now injection H as <-.
    - rewrite for_from_S in H. destruct (aget tail i); cbn in H; try discriminate.
      unfold aset in H. destruct (i + rank s <? length d); cbn in H; try discriminate.
      eapply IH; [|eassumption]. now rewrite set_nth_length. }
  now rewrite (G _ _ _ _ Hd E).
Qed.

Lemma c07_refuted :
  exists s, append_dims (canon [2; 3]) [4] = Ok s /\ rank s <> 3 /\ as_vec dev s = Panic.
Proof. eexists. repeat split. discriminate. Qed.

(** ** C08 *)

Lemma c08_broadcast_accepts a b s :
  length a <= 6 -> length b <= 6 ->
  (broadcast_to (canon a) (canon b) = Ok s <->
     (suffix a b /\ s = canon b) \/ (suffix b a /\ s = canon a)).
Proof.
  intros Ha Hb. split.
  - intros H.
    assert (D : suffix a b \/ suffix b a).
    { apply check_broadcast_iff; auto. unfold broadcast_to in H.
      destruct (check_broadcast _ _) as [[]| |]; auto; discriminate. }
    destruct D as [D|D].
    + rewrite broadcast_to_r in H by auto. injection H as <-. auto.
    + rewrite broadcast_to_l in H by auto. injection H as <-. auto.
  - intros [[H ->]|[H ->]]; [now apply broadcast_to_r | now apply broadcast_to_l].
Qed.

Lemma c08_broadcast_rejects a b :
  length a <= 6 -> length b <= 6 -> ~ suffix a b -> ~ suffix b a ->
  broadcast_to (canon a) (canon b) = Panic /\ check_broadcast (canon a) (canon b) = Panic.
Proof.
  intros Ha Hb H1 H2. split; [now apply broadcast_to_panic|].
  destruct (check_broadcast_dec a b Ha Hb) as [H|H]; auto.
  apply check_broadcast_iff in H; tauto.
Qed.

Lemma c08_check_broadcast a b :
  length a <= 6 -> length b <= 6 ->
  (check_broadcast (canon a) (canon b) = Ok tt <-> suffix a b \/ suffix b a).
Proof. exact (check_broadcast_iff a b). Qed.

Lemma c08_broadcast_size c a b s :
  length a <= 6 -> length b <= 6 ->
  broadcast_to (canon a) (canon b) = Ok s -> broadcast c (canon a) (canon b) = size c s.
Proof.
  intros Ha Hb. unfold broadcast_to, broadcast.
  destruct (check_broadcast _ _); cbn [bind]; try discriminate. intros [= <-].
  now destruct (_ <? _).
Qed.

Lemma suffix_dec (a b : list nat) : {suffix a b} + {~ suffix a b}.
Proof.
  destruct (list_eq_dec Nat.eq_dec (skipn (length b - length a) b) a) as [E|E].
  - left. exists (firstn (length b - length a) b). rewrite <- E at 2. symmetry. apply firstn_skipn.
  - right. intros [p ->]. apply E. rewrite app_length.
    replace (length p + length a - length a) with (length p) by lia. apply skipn_app_exact.
Qed.

Lemma broadcast_to_val a b :
  length a <= 6 -> length b <= 6 ->
  broadcast_to (canon a) (canon b) =
  if suffix_dec a b then Ok (canon b) else if suffix_dec b a then Ok (canon a) else Panic.
Proof.
  intros. destruct (suffix_dec a b); [now apply broadcast_to_r|].
  destruct (suffix_dec b a); [now apply broadcast_to_l | now apply broadcast_to_panic].
Qed.

Lemma suffix_trans {A} (a b d : list A) : suffix a b -> suffix b d -> suffix a d.
Proof. intros [p ->] [q ->]. exists (q ++ p). now rewrite app_assoc. Qed.

Lemma suffix_refl {A} (a : list A) : suffix a a.
Proof. now exists []. Qed.

Lemma suffix_both (a b d : list nat) : suffix a d -> suffix b d -> suffix a b \/ suffix b a.
Proof.
  assert (G : forall a b d : list nat, suffix a d -> suffix b d -> length a <= length b -> suffix a b).
  { clear. intros a b d [p ->] [q E] Hl.
    assert (length q <= length p).
    { apply (f_equal (@length _)) in E. rewrite !app_length in E. lia. }
    assert (E1 : p = q ++ skipn (length q) p).
    { apply (f_equal (firstn (length q))) in E. rewrite firstn_app_exact in E.
      rewrite firstn_app in E. replace (length q - length p) with 0 in E by lia.
      rewrite firstn_O, app_nil_r in E. rewrite <- E at 1. symmetry. apply firstn_skipn. }
    rewrite E1, <- app_assoc in E. apply app_inv_head in E. eexists. symmetry; eassumption. }
  intros. destruct (Nat.le_ge_cases (length a) (length b)); eauto.
Qed.

Lemma suffix_antisym' (a b : list nat) : suffix a b -> suffix b a -> a = b.
Proof. intros H1 H2. apply suffix_antisym; auto. now apply suffix_length. Qed.

Lemma c08_commutative a b :
  length a <= 6 -> length b <= 6 ->
  broadcast_to (canon a) (canon b) = broadcast_to (canon b) (canon a).
Proof.
  intros. rewrite !broadcast_to_val by auto.
  destruct (suffix_dec a b), (suffix_dec b a); auto.
  rewrite (suffix_antisym' a b); auto.
Qed.

Lemma c08_associative a b d :
  length a <= 6 -> length b <= 6 -> length d <= 6 ->
  (let* s := broadcast_to (canon a) (canon b) in broadcast_to s (canon d)) =
  (let* s := broadcast_to (canon b) (canon d) in broadcast_to (canon a) s).
Proof.
  intros. rewrite !broadcast_to_val by auto.
  destruct (suffix_dec a b) as [Hab|Hab], (suffix_dec b d) as [Hbd|Hbd]; cbn [bind];
    try destruct (suffix_dec b a) as [Hba|Hba]; try destruct (suffix_dec d b) as [Hdb|Hdb];
    cbn [bind]; rewrite ?broadcast_to_val by auto;
    repeat match goal with |- context [suffix_dec ?x ?y] => destruct (suffix_dec x y) end;
    auto; exfalso; eauto using suffix_trans;
    try (match goal with
         | H1 : suffix ?x ?z, H2 : suffix ?y ?z |- _ =>
           destruct (suffix_both _ _ _ H1 H2); now eauto using suffix_trans
         end).
Qed.

Lemma c08_idempotent a :
  length a <= 6 -> broadcast_to (canon a) (canon a) = Ok (canon a).
Proof. intros. apply broadcast_to_r; auto. apply suffix_refl. Qed.

(** ** C09 *)

Lemma c09_sublen c ds i j :
  supported ds -> i <= j -> j <= length ds ->
  sublen c (canon ds) i j = Ok (prod (firstn (j - i) (skipn i ds))).
Proof. exact (sublen_canon c ds i j). Qed.

Lemma c09_rsublen c ds i j :
  supported ds -> i <= j -> j <= length ds ->
  rsublen c (canon ds) i j = Ok (prod (firstn (j - i) (skipn (length ds - j) ds))).
Proof. exact (rsublen_canon c ds i j). Qed.

Lemma c09_batch_len_actual c ds base :
  supported ds -> base <= length ds ->
  batch_len c (canon ds) base = Ok (prod (skipn base ds)).
Proof. exact (batch_len_canon c ds base). Qed.

Lemma c09_batch_len_refuted :
  exists ds base, supported ds /\ base <= length ds /\
    batch_len dev (canon ds) base <> Ok (prod (firstn (length ds - base) ds)).
Proof.
  exists [5; 2; 3], 2. split; [split; cbn; lia|]. split; [cbn; lia|]. discriminate.
Qed.

(** ** C10 *)

Lemma product32_checked c l acc n :
  overflow_checks c = true -> product32 c acc l = Ok n -> n = acc * prod l.
Proof.
  intros Hc. revert acc; induction l as [|d l IH]; intros acc H; cbn in *.
  - injection H as <-. lia.
  - unfold mul32, arith in H.
    destruct (_ && _); cbn in H.
    + apply IH in H. rewrite H. rewrite <- Nat2Z.inj_mul, Nat2Z.id. lia.
    + now rewrite Hc in H.
Qed.

Lemma product32_no_ub c l acc : product32 c acc l <> Ub.
Proof.
  revert acc; induction l as [|d l IH]; intros acc; cbn [product32]; [discriminate|].
  unfold mul32, arith. destruct (_ && _); [apply IH|].
  destruct (overflow_checks c); [discriminate | apply IH].
Qed.

Lemma c10_checked c ds :
  overflow_checks c = true -> length ds <= 6 ->
  size c (canon ds) = Ok (prod ds) \/ size c (canon ds) = Panic.
Proof.
  intros Hc Hl. unfold size.
  change (rank (canon ds)) with (length ds).
  rewrite aslice_ok by (rewrite ?canon_dims_length; lia). cbn [bind skipn].
  assert (E : firstn (length ds - 0) (dims (canon ds)) = rev ds).
  { unfold canon. cbn [dims]. rewrite Nat.sub_0_r. rewrite <- (rev_length ds) at 1.
    apply firstn_app_exact. }
  rewrite E. destruct (product32 c 1 (rev ds)) as [n| |] eqn:P.
  - left. apply product32_checked in P; auto. rewrite P, prod_rev. f_equal. lia.
  - now right.
  - exfalso. now apply product32_no_ub in P.
Qed.

Lemma c10_supported c ds : supported ds -> size c (canon ds) = Ok (prod ds).
Proof. exact (size_canon c ds). Qed.

Lemma c10_release_refuted :
  exists ds, length ds = 2 /\ dims32 ds /\ size release (canon ds) = Ok 0 /\ prod ds <> 0.
Proof.
  set (n := Z.to_nat 65536). assert (Hn : Z.of_nat n = 65536%Z) by (unfold n; lia).
  clearbody n. exists [n; n]. repeat split.
  - repeat constructor; lia.
  - assert (E : size release (canon [n; n])
                = (let* a := mul32 release 1 n in let* b := mul32 release a n in Ok b))
      by reflexivity.
    rewrite E, mul32_ok by (unfold two32; lia). cbn [bind]. rewrite Nat.mul_1_l.
    unfold mul32. rewrite arith_wrap; [|unfold two32; lia|reflexivity]. cbn [bind].
    f_equal. replace (Z.of_nat n * Z.of_nat n)%Z with two32 by (unfold two32; lia).
    rewrite Z_mod_same_full. reflexivity.
  - cbn. nia.
Qed.
