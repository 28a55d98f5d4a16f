(** * Lemmas about the shape model *)
From Coq Require Import ZifyBool ZifyNat ZifyN.
From Verif Require Import Base ShapeModel TensorModel Spec BaseFacts.

Ltac Zify.zify_post_hook ::= Z.div_mod_to_equations.

(** Case analysis on a dimension list of length at most six. *)
Ltac ds_cases ds H :=
  destruct ds as [|?d ds];
  [| destruct ds as [|?d ds];
  [| destruct ds as [|?d ds];
  [| destruct ds as [|?d ds];
  [| destruct ds as [|?d ds];
  [| destruct ds as [|?d ds];
  [| destruct ds as [|?d ds];
  [| exfalso; cbn in H; lia]]]]]]].

(** ** Products *)

Lemma prod_app a b : prod (a ++ b) = prod a * prod b.
Proof. induction a; cbn; [lia|]. rewrite IHa. lia. Qed.

Lemma prod_rev a : prod (rev a) = prod a.
Proof. induction a; cbn; auto. rewrite prod_app, IHa. cbn. lia. Qed.

Lemma prod_pos ds : Forall (fun d => 0 < d) ds -> 0 < prod ds.
Proof. induction 1; cbn; [lia|]. nia. Qed.

Lemma prod_pos_inv ds : 0 < prod ds -> Forall (fun d => 0 < d) ds.
Proof. induction ds; cbn; intros; constructor; [nia|]. apply IHds. nia. Qed.

Definition prod1 (ds : list nat) : nat := prod (map (Nat.max 1) ds).

Lemma prod1_cons d ds : prod1 (d :: ds) = Nat.max 1 d * prod1 ds.
Proof. reflexivity. Qed.

Lemma prod1_pos ds : 1 <= prod1 ds.
Proof. induction ds; [cbn; lia|]. rewrite prod1_cons. nia. Qed.

Lemma prod1_app a b : prod1 (a ++ b) = prod1 a * prod1 b.
Proof. unfold prod1. now rewrite map_app, prod_app. Qed.

Lemma prod_le_prod1 ds : prod ds <= prod1 ds.
Proof.
  induction ds as [|d ds IH]; auto. rewrite prod1_cons. cbn [prod]. nia.
Qed.

Lemma prod1_id ds : 0 < prod ds -> prod1 ds = prod ds.
Proof.
  induction ds as [|d ds IH]; cbn [prod]; intros H; auto.
  rewrite prod1_cons, IH by nia. f_equal. nia.
Qed.

Lemma prod1_in d ds : In d ds -> d <= prod1 ds.
Proof.
  induction ds as [|x ds IH]; cbn [In]; [easy|]. rewrite prod1_cons.
  pose proof (prod1_pos ds). intros [->|H']; [nia|]. specialize (IH H'). nia.
Qed.

Lemma supported_prod1 ds : supported ds -> (Z.of_nat (prod1 ds) < two32)%Z.
Proof. intros [_ H]. exact H. Qed.

Lemma supported_len ds : supported ds -> length ds <= 6.
Proof. now intros [H _]. Qed.

Lemma supported_prod ds : supported ds -> (Z.of_nat (prod ds) < two32)%Z.
Proof. intros H. apply supported_prod1 in H. pose proof (prod_le_prod1 ds). lia. Qed.

Lemma supported_in ds d : supported ds -> In d ds -> (Z.of_nat d < two32)%Z.
Proof. intros H Hd. apply supported_prod1 in H. apply prod1_in in Hd. lia. Qed.

Lemma supported_pos ds :
  length ds <= 6 -> 0 < prod ds -> (Z.of_nat (prod ds) < two32)%Z -> supported ds.
Proof. intros. split; auto. fold (prod1 ds). rewrite prod1_id; auto. Qed.

Lemma supported_app_l a b : supported (a ++ b) -> supported a.
Proof.
  intros [H1 H2]. rewrite app_length in H1. fold (prod1 (a ++ b)) in H2.
  rewrite prod1_app in H2. split; [lia|]. fold (prod1 a). pose proof (prod1_pos b). nia.
Qed.

Lemma supported_app_r a b : supported (a ++ b) -> supported b.
Proof.
  intros [H1 H2]. rewrite app_length in H1. fold (prod1 (a ++ b)) in H2.
  rewrite prod1_app in H2. split; [lia|]. fold (prod1 b). pose proof (prod1_pos a). nia.
Qed.

Lemma supported_nil : supported [].
Proof. split; cbn; lia. Qed.

Lemma supported_firstn n ds : supported ds -> supported (firstn n ds).
Proof. intros H. rewrite <- (firstn_skipn n ds) in H. now apply supported_app_l in H. Qed.

Lemma supported_skipn n ds : supported ds -> supported (skipn n ds).
Proof. intros H. rewrite <- (firstn_skipn n ds) in H. now apply supported_app_r in H. Qed.

Lemma supported_remove_at i ds : supported ds -> supported (remove_at i ds).
Proof.
  intros [H1 H2]. unfold remove_at. fold (prod1 ds) in H2.
  split.
  - rewrite app_length, firstn_length, skipn_length. lia.
  - fold (prod1 (firstn i ds ++ skipn (S i) ds)).
    rewrite prod1_app. rewrite <- (firstn_skipn i ds) in H2. rewrite prod1_app in H2.
    destruct (Nat.le_gt_cases (length ds) i) as [Hi|Hi].
    + rewrite (skipn_all2 (n := i) ds) in H2 by lia.
      rewrite (skipn_all2 (n := S i) ds) by lia. exact H2.
    + assert (E : skipn i ds = nth i ds 0 :: skipn (S i) ds).
      { clear -Hi. revert i Hi; induction ds; intros [|i] Hi; cbn in *; try lia; auto.
        apply IHds. lia. }
      rewrite E, prod1_cons in H2.
      pose proof (prod1_pos (firstn i ds)). pose proof (prod1_pos (skipn (S i) ds)). nia.
Qed.

Lemma product32_ok c acc l :
  (Z.of_nat acc * Z.of_nat (prod1 l) < two32)%Z -> product32 c acc l = Ok (acc * prod l).
Proof.
  revert acc; induction l as [|d l IH]; intros acc H; cbn [product32 prod].
  - f_equal; lia.
  - rewrite prod1_cons in H. pose proof (prod1_pos l).
    assert (Z.of_nat (acc * d) * Z.of_nat (prod1 l) <= Z.of_nat acc * Z.of_nat (Nat.max 1 d * prod1 l))%Z
      by nia.
    rewrite mul32_ok by nia. cbn [bind].
    rewrite IH by nia. f_equal. nia.
Qed.

Lemma product64_ok c acc l :
  (Z.of_nat acc * Z.of_nat (prod1 l) < two64)%Z -> product64 c acc l = Ok (acc * prod l).
Proof.
  revert acc; induction l as [|d l IH]; intros acc H; cbn [product64 prod].
  - f_equal; lia.
  - rewrite prod1_cons in H. pose proof (prod1_pos l).
    assert (Z.of_nat (acc * d) * Z.of_nat (prod1 l) <= Z.of_nat acc * Z.of_nat (Nat.max 1 d * prod1 l))%Z
      by nia.
    rewrite umul_ok by nia. cbn [bind].
    rewrite IH by nia. f_equal. nia.
Qed.

(** ** Reading a canonical shape *)

Lemma canon_dims_length ds : length ds <= 6 -> length (dims (canon ds)) = 6.
Proof. intros. cbn. rewrite app_length, rev_length, repeat_length. lia. Qed.

Lemma canon_inj a b : canon a = canon b -> a = b.
Proof.
  intros H. injection H as H1 H2.
  assert (rev a = rev b).
  { apply (f_equal (firstn (length (rev a)))) in H1.
    rewrite firstn_app_exact in H1. rewrite rev_length, H2, <- rev_length in H1.
    now rewrite firstn_app_exact in H1. }
  rewrite <- (rev_involutive a), <- (rev_involutive b). now f_equal.
Qed.

Lemma aget_canon ds i :
  i < length ds -> aget (dims (canon ds)) i = Ok (nth (length ds - 1 - i) ds 0).
Proof.
  intros H. apply aget_ok. cbn. rewrite nth_error_app1 by now rewrite rev_length.
  rewrite (nth_error_nth' _ 0) by now rewrite rev_length.
  rewrite rev_nth by auto. do 2 f_equal. lia.
Qed.

Lemma aget_canon_0 ds i :
  length ds <= i < 6 -> aget (dims (canon ds)) i = Ok 0.
Proof.
  intros H. apply aget_ok. cbn. rewrite nth_error_app2 by (rewrite rev_length; lia).
  rewrite nth_error_repeat', rev_length. destruct (Nat.ltb_spec (i - length ds) (6 - length ds)); auto; lia.
Qed.

Lemma size_canon c ds : supported ds -> size c (canon ds) = Ok (prod ds).
Proof.
  intros H. unfold size. pose proof (supported_len _ H) as Hl.
  rewrite aslice_ok by (try (rewrite canon_dims_length by auto); cbn; lia).
  cbn [bind dims canon rank skipn]. rewrite Nat.sub_0_r.
  rewrite <- (rev_length ds) at 1. rewrite firstn_app_exact.
  rewrite product32_ok.
  - f_equal. rewrite prod_rev. lia.
  - unfold prod1. rewrite map_rev, prod_rev. fold (prod1 ds).
    apply supported_prod1 in H. lia.
Qed.

Lemma dim_canon c ds i :
  length ds <= 6 -> i < length ds -> dim c (canon ds) i = Ok (nth i ds 0).
Proof.
  intros Hl Hi. unfold dim. cbn [rank canon].
  rewrite usub_ok by (unfold two64; lia). cbn [bind].
  rewrite usub_ok by (unfold two64; lia). cbn [bind].
  rewrite aget_canon by lia. do 2 f_equal. lia.
Qed.

Lemma dim_canon_panic c ds i :
  length ds <= 6 -> length ds <= i -> (Z.of_nat i < two63)%Z -> dim c (canon ds) i = Panic.
Proof.
  intros Hl Hi Hs. unfold dim. cbn [rank canon].
  destruct (Nat.eq_dec (length ds) 0) as [E|E].
  - rewrite E. destruct (overflow_checks c) eqn:Ec.
    + unfold usub at 1. rewrite arith_panic by (auto; lia). reflexivity.
    + unfold usub at 1. rewrite arith_wrap by (auto; lia). cbn [bind].
      unfold two63, two64 in *.
      rewrite usub_ok by (unfold two64; lia). cbn [bind]. apply aget_none.
      rewrite canon_dims_length by auto. lia.
  - rewrite usub_ok by (unfold two64; lia). cbn [bind].
    destruct (usub_under c (length ds - 1) i) as [->|(k & -> & Hk)]; [lia | auto | reflexivity |].
    cbn [bind]. apply aget_none. rewrite canon_dims_length by auto. unfold two63 in *. lia.
Qed.

Lemma rdim_canon ds i :
  length ds <= 6 -> i < length ds -> rdim (canon ds) i = Ok (nth (length ds - 1 - i) ds 0).
Proof. intros. unfold rdim. now apply aget_canon. Qed.

Lemma as_vec_canon c ds : length ds <= 6 -> as_vec c (canon ds) = Ok ds.
Proof.
  intros Hl. unfold as_vec.
  destruct (for_inv (fun k v => v = firstn k ds) (rank (canon ds))
    (fun i vec => let* d := dim c (canon ds) i in Ok (vec ++ [d])) [])
    as (s' & E & ->).
  - intros k s Hk ->. cbn in Hk. rewrite dim_canon by auto. cbn. eexists; split; eauto.
    clear -Hk. revert k Hk; induction ds; intros [|k] Hk; cbn in *; try lia; auto.
    f_equal. apply IHds. lia.
  - reflexivity.
  - rewrite E. cbn. now rewrite firstn_all.
Qed.

Lemma len_canon c d ds : length (d :: ds) <= 6 -> len c (canon (d :: ds)) = Ok d.
Proof. intros. unfold len. rewrite dim_canon; cbn; auto; lia. Qed.

Lemma cols_canon ds : length ds <= 6 -> cols (canon ds) = Ok (last ds 0).
Proof. intros H. ds_cases ds H; reflexivity. Qed.

Lemma rows_canon ds : length ds <= 6 -> rows (canon ds) = Ok (last (removelast ds) 0).
Proof. intros H. ds_cases ds H; reflexivity. Qed.

(** ** Building shapes *)

Lemma canon_scalar : scalar = canon [].
Proof. reflexivity. Qed.

Lemma from_usize_canon n : from_usize n = Ok (canon [as_u32 n]).
Proof. reflexivity. Qed.

Lemma from_slice_dims_canon ds :
  length ds <= 6 -> from_slice_dims ds = Ok (canon (map as_u32 ds)).
Proof. intros H. ds_cases ds H; reflexivity. Qed.

Lemma map_as_u32_small ds : Forall (fun d => Z.of_nat d < two32)%Z ds -> map as_u32 ds = ds.
Proof. induction 1; cbn; auto. now rewrite IHForall, as_u32_small. Qed.

Lemma supported_small ds : supported ds -> Forall (fun d => Z.of_nat d < two32)%Z ds.
Proof. intros. apply Forall_forall. intros. eapply supported_in; eauto. Qed.

Lemma from_slice_dims_supported ds : supported ds -> from_slice_dims ds = Ok (canon ds).
Proof.
  intros H. rewrite from_slice_dims_canon by now apply supported_len.
  now rewrite map_as_u32_small by now apply supported_small.
Qed.

(** Writing a seventh dimension is an index error. *)
Lemma from_loop_panic (ds : list nat) (step : nat -> list nat -> outcome (list nat)) :
  6 < length ds ->
  (forall i d s', i < length ds -> step i d = Ok s' -> length d = 6 -> length s' = 6 /\ i < 6) ->
  (forall i d, step i d <> Ub) ->
  forall d, length d = 6 -> for_ (length ds) step d = Panic.
Proof.
  intros Hl Hstep Hub d Hd.
  assert (G : forall k i d, length d = 6 -> i + k = length ds -> i <= 6 ->
              for_from i k step d = Panic).
  { induction k; intros i d' Hd' Hi Hi6; [lia|].
    rewrite for_from_S. destruct (step i d') as [s'| |] eqn:E.
    - destruct (Hstep i d' s') as [H1 H2]; auto; [lia|]. cbn. apply IHk; auto; lia.
    - reflexivity.
    - now apply Hub in E. }
  apply (G (length ds) 0); auto; lia.
Qed.

Lemma from_slice_dims_long ds : 6 < length ds -> from_slice_dims ds = Panic.
Proof.
  intros H. unfold from_slice_dims.
  rewrite from_loop_panic; auto.
  - intros i d s' Hi E Hd.
    rewrite (aget_nth _ _ 0) in E by now rewrite rev_length. cbn in E.
    unfold aset in E. destruct (Nat.ltb_spec i (length d)); [|discriminate].
    injection E as <-. rewrite set_nth_length. lia.
  - intros i d. unfold aget. destruct (nth_error _ _); cbn; [|discriminate].
    unfold aset. destruct (_ <? _); discriminate.
Qed.

Lemma from_vec_dims_canon ds :
  length ds <= 6 -> Forall (fun d => 0 < d) ds ->
  from_vec_dims ds = Ok (canon (map as_u32 ds)).
Proof.
  intros H Hp. ds_cases ds H; repeat match goal with H : Forall _ (_ :: _) |- _ => inversion H; subst; clear H end;
  repeat match goal with H : 0 < ?d |- _ => destruct d; [lia|]; clear H end; reflexivity.
Qed.

Lemma from_vec_dims_supported ds :
  supported ds -> Forall (fun d => 0 < d) ds -> from_vec_dims ds = Ok (canon ds).
Proof.
  intros H Hp. rewrite from_vec_dims_canon; auto using supported_len.
  now rewrite map_as_u32_small by now apply supported_small.
Qed.

Lemma from_vec_dims_long ds : 6 < length ds -> from_vec_dims ds = Panic.
Proof.
  intros H. unfold from_vec_dims.
  rewrite from_loop_panic; auto.
  - intros i d s' Hi E Hd.
    rewrite (aget_nth _ _ 0) in E by now rewrite rev_length. cbn in E.
    destruct (0 <? nth i (rev ds) 0); cbn in E; [|discriminate].
    unfold aset in E. destruct (Nat.ltb_spec i (length d)); [|discriminate].
    injection E as <-. rewrite set_nth_length. lia.
  - intros i d. unfold aget. destruct (nth_error _ _); cbn [bind]; [|discriminate].
    destruct (0 <? _); cbn; [|discriminate].
    unfold aset. destruct (_ <? _); discriminate.
Qed.

Lemma for_panic_at {S} (body : nat -> S -> outcome S) n i s :
  i < n -> (forall s, body i s = Panic) -> (forall k s, k < n -> body k s <> Ub) ->
  for_ n body s = Panic.
Proof.
  intros Hi Hp Hub. unfold for_.
  assert (G : forall k j s, j <= i < j + k -> j + k <= n -> for_from j k body s = Panic).
  { induction k; intros j s' Hj Hjn; [lia|]. rewrite for_from_S.
    destruct (Nat.eq_dec j i) as [->|Hne]; [now rewrite Hp|].
    destruct (body j s') eqn:E; cbn [bind]; auto.
    - apply IHk; lia.
    - exfalso. apply (Hub j s'); auto. lia. }
  apply G; lia.
Qed.

Lemma from_vec_dims_zero ds : In 0 ds -> from_vec_dims ds = Panic.
Proof.
  intros H. apply in_rev in H. apply In_nth_error in H. destruct H as [i Hi].
  unfold from_vec_dims. rewrite for_panic_at with (i := i); auto.
  - apply nth_error_Some_lt in Hi. now rewrite rev_length in Hi.
  - intros s. now rewrite (aget_ok _ _ _ Hi).
  - intros k s _. unfold aget. destruct (nth_error (rev ds) k) as [x|]; cbn [bind]; [|discriminate].
    unfold assert_. destruct (0 <? x); cbn; [|discriminate].
    unfold aset. destruct (k <? length s); discriminate.
Qed.

(** [canon] applied to edited lists. *)
Lemma push_canon ds d :
  length ds < 6 -> push (canon ds) d = Ok (canon (as_u32 d :: ds)).
Proof. intros H. ds_cases ds H; try reflexivity. cbn in H; lia. Qed.

Lemma push_canon_full ds d : length ds = 6 -> push (canon ds) d = Panic.
Proof.
  intros H. unfold push. cbn [rank canon]. rewrite aset_none; auto.
  rewrite canon_dims_length; lia.
Qed.

Lemma pop_canon c ds d : length (d :: ds) <= 6 -> pop c (canon (d :: ds)) = Ok (canon ds).
Proof. intros H. cbn in H. ds_cases ds H; try reflexivity. cbn in H. lia. Qed.

Lemma pop_scalar c : pop c (canon []) = Panic.
Proof. destruct c as [[|] z]; reflexivity. Qed.

Lemma rremove_canon ds r :
  length ds <= 6 -> r < length ds ->
  rremove (canon ds) r = Ok (canon (remove_at (length ds - 1 - r) ds)).
Proof.
  intros H Hr. ds_cases ds H; cbn in Hr;
  do 6 (try (destruct r as [|r]; [try reflexivity; lia|])); exfalso; lia.
Qed.

Lemma rremove_panic s r : rank s <= r -> rremove s r = Panic.
Proof. intros. unfold rremove. destruct (Nat.ltb_spec r (rank s)); [lia|reflexivity]. Qed.

Lemma remove_canon ds i :
  length ds <= 6 -> i < length ds -> remove (canon ds) i = Ok (canon (remove_at i ds)).
Proof.
  intros H Hi. unfold remove. cbn [rank canon].
  rewrite assert_true by lia. cbn [bind].
  rewrite rremove_canon by lia. do 3 f_equal. lia.
Qed.

Lemma remove_panic s i : rank s <= i -> remove s i = Panic.
Proof. intros. unfold remove. now rewrite assert_false by lia. Qed.

Lemma rreplace_canon ds r v :
  length ds <= 6 -> r < length ds ->
  rreplace (canon ds) r v = Ok (canon (replace_at (length ds - 1 - r) (as_u32 v) ds)).
Proof.
  intros H Hr. ds_cases ds H; cbn in Hr;
  do 6 (try (destruct r as [|r]; [try reflexivity; lia|])); exfalso; lia.
Qed.

Lemma rreplace_panic s r v : rank s <= r -> rreplace s r v = Panic.
Proof. intros. unfold rreplace. now rewrite assert_false by lia. Qed.

Lemma replace_canon c ds i v :
  length ds <= 6 -> i < length ds ->
  replace c (canon ds) i v = Ok (canon (replace_at i (as_u32 v) ds)).
Proof.
  intros H Hi. unfold replace. cbn [rank canon].
  rewrite assert_true by lia. cbn [bind].
  rewrite usub_ok by (unfold two64; lia). cbn [bind].
  rewrite usub_ok by (unfold two64; lia). cbn [bind].
  rewrite rreplace_canon by lia. do 3 f_equal. lia.
Qed.

Lemma replace_panic c s i v : rank s <= i -> replace c s i v = Panic.
Proof. intros. unfold replace. now rewrite assert_false by lia. Qed.

Lemma with_cols_canon ds d v :
  length (ds ++ [d]) <= 6 -> with_cols (canon (ds ++ [d])) v = Ok (canon (ds ++ [as_u32 v])).
Proof.
  intros H. rewrite app_length in H; cbn in H.
  ds_cases ds H; reflexivity.
Qed.

Lemma with_rows_canon ds r d v :
  length (ds ++ [r; d]) <= 6 ->
  with_rows (canon (ds ++ [r; d])) v = Ok (canon (ds ++ [as_u32 v; d])).
Proof.
  intros H. rewrite app_length in H; cbn in H.
  ds_cases ds H; try reflexivity; cbn in H; lia.
Qed.

Lemma rinsert_canon c ds r v :
  length ds < 6 -> r <= length ds -> r < 5 ->
  rinsert c (canon ds) r v = Ok (canon (insert_at (length ds - r) (as_u32 v) ds)).
Proof.
  intros H Hr H5. ds_cases ds H; cbn in Hr, H; try lia;
  do 6 (try (destruct r as [|r]; [try reflexivity; lia|])); exfalso; lia.
Qed.

Lemma rinsert_panic5 c s r v : length (dims s) = 6 -> 5 <= r -> rinsert c s r v = Panic.
Proof.
  intros Hd H. unfold rinsert.
  destruct (Z_lt_le_dec (Z.of_nat r + 1) two64) as [Hz|Hz].
  - rewrite uadd_ok by lia. cbn [bind]. now rewrite assert_false by (unfold MAX_RANK; lia).
  - destruct (overflow_checks c) eqn:E.
    + unfold uadd. rewrite arith_panic; auto; lia.
    + unfold uadd. rewrite arith_wrap by (try lia; auto). cbn [bind].
      destruct (_ <? MAX_RANK); [|reflexivity]. cbn [assert_ bind].
      destruct (Nat.le_gt_cases (rank s) r) as [Hr|Hr].
      * replace (rank s - r) with 0 by lia. cbn [for_ for_from bind].
        unfold two64 in Hz. now rewrite aset_none by lia.
      * (* rank beyond the array: the first read is out of bounds *)
        destruct (rank s - r) eqn:Er; [lia|]. cbn [for_]. unfold for_.
        rewrite for_from_S. unfold two64 in Hz. rewrite aget_none by lia. reflexivity.
Qed.

Lemma insert_canon c ds i v :
  length ds < 6 -> i <= length ds -> length ds - i < 5 ->
  insert c (canon ds) i v = Ok (canon (insert_at i (as_u32 v) ds)).
Proof.
  intros H Hi H5. unfold insert. cbn [rank canon].
  rewrite usub_ok by (unfold two64; lia). cbn [bind].
  rewrite rinsert_canon by lia. do 3 f_equal. lia.
Qed.

Lemma insert_panic c ds i v :
  length ds <= 6 -> length ds < i -> (Z.of_nat i < two63)%Z -> insert c (canon ds) i v = Panic.
Proof.
  intros H Hi Hz. unfold insert. cbn [rank canon].
  destruct (usub_under c (length ds) i) as [->|(k & -> & Hk)]; auto. cbn [bind].
  apply rinsert_panic5; [now apply canon_dims_length|]. unfold two63 in *; lia.
Qed.

(** ** Sub-products *)

Lemma prod1_firstn_le n ds : prod1 (firstn n ds) <= prod1 ds.
Proof.
  rewrite <- (firstn_skipn n ds) at 2. rewrite prod1_app. pose proof (prod1_pos (skipn n ds)). nia.
Qed.

Lemma range_product c (l : list nat) a n :
  a + n <= length l -> (Z.of_nat (prod1 (firstn n (skipn a l))) < two32)%Z ->
  for_from a n (fun i size => let* d := aget l i in mul32 c size d) 1
  = Ok (prod (firstn n (skipn a l))).
Proof.
  intros Hn Hb.
  destruct (for_from_inv (fun k s => s = prod (firstn (k - a) (skipn a l))) a n
     (fun i size => let* d := aget l i in mul32 c size d) 1) as (s' & E & ->).
  - intros k s Hk ->. rewrite (aget_nth _ _ 0) by lia. cbn [bind].
    assert (Es : firstn (S k - a) (skipn a l) = firstn (k - a) (skipn a l) ++ [nth k l 0]).
    { replace (S k - a) with (S (k - a)) by lia.
      assert (Hlt : k - a < length (skipn a l)) by (rewrite skipn_length; lia).
      assert (Hnth : nth k l 0 = nth (k - a) (skipn a l) 0).
      { rewrite <- (firstn_skipn a l) at 1. rewrite app_nth2; rewrite firstn_length; [f_equal|]; lia. }
      rewrite Hnth. clear -Hlt. revert Hlt. generalize (skipn a l) (k - a). clear.
      intros l n; revert l; induction n; intros [|x l] Hlt; cbn in *; try lia; auto.
      f_equal. apply IHn. lia. }
    exists (prod (firstn (S k - a) (skipn a l))). split; auto.
    rewrite Es, prod_app. cbn [prod]. rewrite Nat.mul_1_r. apply mul32_ok.
    assert (Hle : prod1 (firstn (S k - a) (skipn a l)) <= prod1 (firstn n (skipn a l))).
    { replace (firstn (S k - a) (skipn a l)) with (firstn (S k - a) (firstn n (skipn a l))).
      - apply prod1_firstn_le.
      - rewrite firstn_firstn. f_equal. lia. }
    pose proof (prod_le_prod1 (firstn (S k - a) (skipn a l))) as Hp.
    rewrite Es, prod_app in Hp. cbn [prod] in Hp. rewrite <- Es in Hp. nia.
  - now rewrite Nat.sub_diag.
  - rewrite E. do 3 f_equal. lia.
Qed.

Lemma sublen_canon c ds i j :
  supported ds -> i <= j -> j <= length ds ->
  sublen c (canon ds) i j = Ok (prod (firstn (j - i) (skipn i ds))).
Proof.
  intros Hs Hij Hj. pose proof (supported_len _ Hs) as Hl.
  unfold sublen. cbn [rank canon].
  rewrite usub_ok by (unfold two64; lia). cbn [bind].
  rewrite usub_ok by (unfold two64; lia). cbn [bind].
  unfold for_range.
  replace (length ds - i - (length ds - j)) with (j - i) by lia.
  assert (E : firstn (j - i) (skipn (length ds - j) (dims (canon ds)))
              = rev (firstn (j - i) (skipn i ds))).
  { cbn [dims canon]. rewrite skipn_app, rev_length.
    rewrite firstn_app, skipn_length, rev_length.
    replace (j - i - (length ds - (length ds - j))) with 0 by lia.
    rewrite firstn_O, app_nil_r.
    rewrite skipn_rev. replace (length ds - (length ds - j)) with j by lia.
    rewrite firstn_rev, firstn_length.
    replace (Nat.min j (length ds) - (j - i)) with i by lia. f_equal.
    apply skipn_firstn_comm. }
  rewrite range_product.
  - now rewrite E, prod_rev.
  - rewrite canon_dims_length by auto. lia.
  - rewrite E. unfold prod1. rewrite map_rev, prod_rev. fold (prod1 (firstn (j - i) (skipn i ds))).
    apply supported_prod1. now apply supported_firstn, supported_skipn.
Qed.

Lemma rsublen_canon c ds i j :
  supported ds -> i <= j -> j <= length ds ->
  rsublen c (canon ds) i j = Ok (prod (firstn (j - i) (skipn (length ds - j) ds))).
Proof.
  intros Hs Hij Hj. pose proof (supported_len _ Hs) as Hl.
  replace (j - i) with ((length ds - i) - (length ds - j)) by lia.
  rewrite <- sublen_canon with (c := c) by (auto; lia).
  unfold rsublen, sublen. cbn [rank canon].
  rewrite usub_ok by (unfold two64; lia). cbn [bind].
  rewrite usub_ok by (unfold two64; lia). cbn [bind].
  f_equal; lia.
Qed.

(** ** Equality *)

Lemma shape_eqb_canon a b : shape_eqb (canon a) (canon b) = true <-> a = b.
Proof.
  unfold shape_eqb. split.
  - destruct (list_eq_dec _ _ _) as [E|E]; cbn [andb]; [|discriminate].
    intros H. apply Nat.eqb_eq in H. apply canon_inj.
    destruct (canon a), (canon b); cbn in *; congruence.
  - intros ->. destruct (list_eq_dec _ _ _); [|easy]. now rewrite Nat.eqb_refl.
Qed.

(** ** Broadcasting *)

Lemma suffix_length {A} (a b : list A) : suffix a b -> length a <= length b.
Proof. intros [p ->]. rewrite app_length. lia. Qed.

Lemma nth_suffix a b i :
  suffix a b -> i < length a ->
  nth (length a - 1 - i) a 0 = nth (length b - 1 - i) b 0.
Proof.
  intros [p ->] Hi. rewrite app_length. rewrite app_nth2 by lia. f_equal. lia.
Qed.

Lemma check_broadcast_spec a b :
  length a <= 6 -> length b <= 6 ->
  check_broadcast (canon a) (canon b)
  = if (if list_eq_dec Nat.eq_dec
             (firstn (Nat.min (length a) (length b)) (rev a))
             (firstn (Nat.min (length a) (length b)) (rev b)) then true else false)
    then Ok tt else Panic.
Proof.
  intros Ha Hb. unfold check_broadcast. cbn [rank canon].
  set (m := Nat.min (length a) (length b)).
  assert (G : forall k i, i + k = m ->
    for_from i k (fun i _ =>
      let* x := rdim (canon a) i in let* y := rdim (canon b) i in assert_ (x =? y)) tt
    = if (if list_eq_dec Nat.eq_dec (firstn k (skipn i (rev a))) (firstn k (skipn i (rev b)))
          then true else false) then Ok tt else Panic).
  { induction k; intros i Hi; [reflexivity|].
    rewrite for_from_S.
    rewrite !rdim_canon by lia. cbn [bind].
    assert (Ea : skipn i (rev a) = nth (length a - 1 - i) a 0 :: skipn (S i) (rev a)).
    { replace (length a - 1 - i) with (length a - S i) by lia.
      rewrite <- rev_nth by lia.
      assert (Hlt : i < length (rev a)) by (rewrite rev_length; lia). revert Hlt.
      generalize (rev a). clear. induction i; intros [|x l] H; cbn in *; try lia; auto.
      apply IHi. lia. }
    assert (Eb : skipn i (rev b) = nth (length b - 1 - i) b 0 :: skipn (S i) (rev b)).
    { replace (length b - 1 - i) with (length b - S i) by lia.
      rewrite <- rev_nth by lia.
      assert (Hlt : i < length (rev b)) by (rewrite rev_length; lia). revert Hlt.
      generalize (rev b). clear. induction i; intros [|x l] H; cbn in *; try lia; auto.
      apply IHi. lia. }
    rewrite Ea, Eb. cbn [firstn].
    destruct (Nat.eqb_spec (nth (length a - 1 - i) a 0) (nth (length b - 1 - i) b 0)) as [E|E].
    - cbn [assert_ bind]. rewrite IHk by lia.
      rewrite E.
      destruct (list_eq_dec Nat.eq_dec (firstn k (skipn (S i) (rev a))) _) as [E'|E'];
      destruct (list_eq_dec Nat.eq_dec (_ :: _) (_ :: _)) as [E''|E'']; auto; congruence.
    - cbn [assert_ bind].
      destruct (list_eq_dec Nat.eq_dec (_ :: _) (_ :: _)) as [E''|E'']; auto; congruence. }
  apply (G m 0). lia.
Qed.

Lemma suffix_rev {A} (a b : list A) :
  length a <= length b -> (suffix a b <-> firstn (length a) (rev a) = firstn (length a) (rev b)).
Proof.
  intros Hl. split.
  - intros [p ->]. rewrite rev_app_distr.
    rewrite <- (rev_length a) at 2. rewrite firstn_app_exact.
    rewrite <- (rev_length a). now rewrite firstn_all.
  - intros H. rewrite <- (rev_length a) in H at 1. rewrite firstn_all in H.
    exists (rev (skipn (length a) (rev b))).
    apply (f_equal (@rev A)) in H. rewrite rev_involutive in H. rewrite H at 2.
    rewrite <- rev_app_distr. rewrite firstn_skipn. now rewrite rev_involutive.
Qed.

Lemma check_broadcast_iff a b :
  length a <= 6 -> length b <= 6 ->
  (check_broadcast (canon a) (canon b) = Ok tt <-> suffix a b \/ suffix b a).
Proof.
  intros Ha Hb. rewrite check_broadcast_spec by auto.
  destruct (Nat.le_gt_cases (length a) (length b)) as [H|H].
  - rewrite Nat.min_l by auto. pose proof (suffix_rev a b H) as Hr.
    destruct (list_eq_dec _ _ _) as [E|E]; split; auto.
    + intros _. left. now apply Hr.
    + discriminate.
    + intros [Hs|Hs]; [now apply Hr in Hs|].
      assert (a = b) as ->.
      { destruct Hs as [p ->]. rewrite app_length in H. destruct p; cbn in *; auto. lia. }
      exfalso. now apply E.
  - rewrite Nat.min_r by lia. pose proof (suffix_rev b a ltac:(lia)) as Hr.
    destruct (list_eq_dec _ _ _) as [E|E]; split; auto.
    + intros _. right. now apply Hr.
    + discriminate.
    + intros [Hs|Hs].
      * apply suffix_length in Hs. lia.
      * exfalso. apply E. symmetry. now apply Hr.
Qed.

Lemma check_broadcast_dec a b :
  length a <= 6 -> length b <= 6 ->
  check_broadcast (canon a) (canon b) = Ok tt \/ check_broadcast (canon a) (canon b) = Panic.
Proof.
  intros. rewrite check_broadcast_spec by auto. destruct (list_eq_dec _ _ _); auto.
Qed.

Lemma broadcast_to_l a b :
  length a <= 6 -> length b <= 6 -> suffix b a ->
  broadcast_to (canon a) (canon b) = Ok (canon a).
Proof.
  intros Ha Hb Hs. unfold broadcast_to.
  rewrite (proj2 (check_broadcast_iff a b Ha Hb)) by auto. cbn [bind rank canon].
  apply suffix_length in Hs. destruct (Nat.ltb_spec (length a) (length b)); [lia|reflexivity].
Qed.

Lemma suffix_antisym {A} (a b : list A) : suffix a b -> length b <= length a -> a = b.
Proof. intros [p ->] H. rewrite app_length in H. destruct p; cbn in *; auto. lia. Qed.

Lemma broadcast_to_r a b :
  length a <= 6 -> length b <= 6 -> suffix a b ->
  broadcast_to (canon a) (canon b) = Ok (canon b).
Proof.
  intros Ha Hb Hs. unfold broadcast_to.
  rewrite (proj2 (check_broadcast_iff a b Ha Hb)) by auto. cbn [bind rank canon].
  destruct (Nat.ltb_spec (length a) (length b)); auto.
  now rewrite (suffix_antisym a b).
Qed.

Lemma broadcast_to_panic a b :
  length a <= 6 -> length b <= 6 -> ~ suffix a b -> ~ suffix b a ->
  broadcast_to (canon a) (canon b) = Panic.
Proof.
  intros Ha Hb H1 H2. unfold broadcast_to.
  destruct (check_broadcast_dec a b Ha Hb) as [E|E].
  - apply check_broadcast_iff in E; auto. tauto.
  - now rewrite E.
Qed.
