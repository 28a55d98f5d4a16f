(** * Safety of the shape functions and of the mapping functions *)
From Coq Require Import ZifyBool ZifyNat ZifyN.
From Verif Require Import Base ShapeModel TensorModel AxisModel MapModel Spec BaseFacts SafeFacts ShapeFacts SplitFacts SafetyFacts.

(** ** Shape functions return values of type [Shape] *)

Definition six (l : list nat) : Prop := length l = 6 /\ Forall (fun d => Z.of_nat d < two32)%Z l.

Lemma aset_six l i v : six l -> (Z.of_nat v < two32)%Z -> post (aset l i v) six.
Proof.
  intros [Hl Hf] Hv. unfold aset. destruct (i <? length l) eqn:E; [|exact I]. cbn. split; [now rewrite set_nth_length|].
  rewrite Forall_forall in *. intros d Hd. apply In_nth_error in Hd. destruct Hd as [k Hk].
  destruct (Nat.eq_dec k i) as [->|N]; [rewrite nth_error_set_nth_eq in Hk by lia; injection Hk as <-; exact Hv|].
  rewrite nth_error_set_nth_neq in Hk by auto. apply Hf. eapply nth_error_In; eauto.
Qed.
Lemma aget_six l i d : six l -> aget l i = Ok d -> (Z.of_nat d < two32)%Z.
Proof.
  intros [_ Hf] H. unfold aget in H. destruct (nth_error l i) as [v|] eqn:E; [|discriminate]. apply Ok_inj in H. subst v.
  rewrite Forall_forall in Hf. apply Hf. eapply nth_error_In; eauto.
Qed.
Lemma zero_six : six zero_dims.
Proof. split; [reflexivity|]. cbn. repeat constructor. Qed.
Lemma canon_a_shape ds : length ds <= 6 -> Forall (fun d => Z.of_nat d < two32)%Z ds -> a_shape (canon ds).
Proof.
  intros Hl Hf. split; [now apply canon_dims_length|]. cbn. apply Forall_app. split; [now apply Forall_rev|].
  apply Forall_forall. intros d Hd. apply repeat_spec in Hd. subst. reflexivity.
Qed.
Lemma dlist_canon ds : dlist (canon ds) = ds.
Proof. unfold dlist. cbn [canon rank dims]. rewrite <- (rev_length ds), firstn_app_exact. apply rev_involutive. Qed.
Lemma map_u32_small ds : Forall (fun d => Z.of_nat d < two32)%Z (map as_u32 ds).
Proof. apply Forall_forall. intros d Hd. apply in_map_iff in Hd. destruct Hd as (x & <- & _). apply as_u32_lt. Qed.

Lemma from_vec_dims_post ds : post (from_vec_dims ds) (fun s => s = canon (map as_u32 ds) /\ a_shape s /\ Forall (fun d => 0 < d) ds).
Proof.
  destruct (le_gt_dec (length ds) 6) as [Hl|Hl]; [|now rewrite from_vec_dims_long].
  destruct (in_dec Nat.eq_dec 0 ds) as [H0|H0]; [now rewrite from_vec_dims_zero|].
  assert (Hp : Forall (fun d => 0 < d) ds) by (apply Forall_forall; intros [|d] Hd; [now destruct H0|lia]).
  rewrite from_vec_dims_canon by auto. cbn. repeat split; auto.
  - apply canon_a_shape; [now rewrite map_length|apply map_u32_small].
  - apply canon_a_shape; [now rewrite map_length|apply map_u32_small].
Qed.
Lemma from_slice_dims_post ds : post (from_slice_dims ds) (fun s => s = canon (map as_u32 ds) /\ a_shape s).
Proof.
  destruct (le_gt_dec (length ds) 6) as [Hl|Hl]; [|now rewrite from_slice_dims_long].
  rewrite from_slice_dims_canon by auto. cbn. split; [reflexivity|].
  apply canon_a_shape; [now rewrite map_length|apply map_u32_small].
Qed.
Lemma from_usize_post n : post (from_usize n) a_shape.
Proof. rewrite from_usize_canon. cbn. apply canon_a_shape; [cbn; lia|]. repeat constructor. apply as_u32_lt. Qed.
Lemma scalar_a_shape : a_shape scalar.
Proof. exact zero_six. Qed.

Lemma with_cols_post s n : a_shape s -> post (with_cols s n) a_shape.
Proof. intros H. unfold with_cols. eapply post_bind; [apply aset_six; [exact H|apply as_u32_lt]|]. intros d Hd. exact Hd. Qed.
Lemma with_rows_post s n : a_shape s -> post (with_rows s n) a_shape.
Proof.
  intros H. unfold with_rows. apply post_assert. intros _.
  eapply post_bind; [apply aset_six; [exact H|apply as_u32_lt]|]. intros d Hd. exact Hd.
Qed.
Lemma push_post s n : a_shape s -> post (push s n) a_shape.
Proof. intros H. unfold push. eapply post_bind; [apply aset_six; [exact H|apply as_u32_lt]|]. intros d Hd. exact Hd. Qed.
Lemma rinsert_post c s i n : a_shape s -> post (rinsert c s i n) a_shape.
Proof.
  intros H. unfold rinsert. apply post_bind_safe; [auto with safe|]. intros a _. apply post_assert. intros _.
  eapply post_bind with (Q := six).
  - apply post_for_keep; [exact H|]. intros k d _ Hd. apply post_bind_safe; [auto with safe|]. intros x Hx.
    apply aset_six; [exact Hd|]. eapply aget_six; eauto.
  - intros d Hd. eapply post_bind; [apply aset_six; [exact Hd|apply as_u32_lt]|]. intros d' Hd'. exact Hd'.
Qed.
Lemma insert_post c s i n : a_shape s -> post (insert c s i n) a_shape.
Proof. intros H. unfold insert. apply post_bind_safe; [auto with safe|]. intros k _. now apply rinsert_post. Qed.
Lemma rremove_post s i : a_shape s -> post (rremove s i) a_shape.
Proof.
  intros H. unfold rremove. apply post_assert. intros _. eapply post_bind with (Q := six).
  - apply post_for_range_keep; [exact H|]. intros k d _ Hd. apply post_bind_safe; [auto with safe|]. intros x Hx.
    apply aset_six; [exact Hd|]. eapply aget_six; eauto.
  - intros d Hd. eapply post_bind; [apply aset_six; [exact Hd|reflexivity]|]. intros d' Hd'. exact Hd'.
Qed.
Lemma remove_post s i : a_shape s -> post (remove s i) a_shape.
Proof. intros H. unfold remove. apply post_assert. intros _. now apply rremove_post. Qed.
Lemma squeeze_loop_post s keep : a_shape s -> post (squeeze_loop s keep) a_shape.
Proof.
  intros H. unfold squeeze_loop. eapply post_bind; [apply aset_six; [apply zero_six|reflexivity]|]. intros d0 H0.
  eapply post_bind with (Q := fun p => six (fst p)).
  - apply post_for_keep; [exact H0|]. intros k [d r] _ Hd. cbn [fst] in *. apply post_bind_safe; [auto with safe|]. intros x Hx.
    destruct (keep k x); [|exact Hd]. eapply post_bind; [apply aset_six; [exact Hd|exact (aget_six _ _ _ H Hx)]|].
    intros d' Hd'. exact Hd'.
  - intros [d r] Hd. exact Hd.
Qed.
Lemma squeeze_post c s ax : a_shape s -> post (squeeze c s ax) a_shape.
Proof.
  intros H. unfold squeeze. destruct ax as [z|]; [|now apply squeeze_loop_post].
  apply post_bind_safe; [auto with safe|]. intros a _. apply post_assert. intros _.
  apply post_bind_safe; [auto with safe|]. intros k _. now apply squeeze_loop_post.
Qed.
Lemma expand_dims_post c s z : post (expand_dims c s z) a_shape.
Proof.
  unfold expand_dims. apply post_bind_safe; [auto with safe|]. intros v _. apply post_bind_safe; [safe|]. intros x _.
  apply post_assert. intros _. apply post_bind_safe; [auto with safe|]. intros w _.
  eapply post_weaken; [apply from_vec_dims_post|]. intros s' H. apply H.
Qed.
Lemma broadcast_to_post a b : a_shape a -> a_shape b -> post (broadcast_to a b) a_shape.
Proof. intros Ha Hb. unfold broadcast_to. apply post_bind_safe; [auto with safe|]. intros _ _. now destruct (rank a <? rank b). Qed.

(** ** Tensors *)

Lemma idx2 p a b : p < a * b -> exists i j, i < a /\ j < b /\ p = i * b + j.
Proof.
  intros H. assert (b <> 0) by (intros ->; lia). exists (p / b), (p mod b).
  repeat split; [apply Nat.div_lt_upper_bound; lia|now apply Nat.mod_upper_bound|].
  rewrite Nat.mul_comm. now apply Nat.div_mod.
Qed.
Lemma idx2_lt a b i j : i < a -> j < b -> i * b + j < a * b.
Proof. nia. Qed.
Lemma idx3 p a b d : p < a * b * d -> exists i j k, i < a /\ j < b /\ k < d /\ p = (i * b + j) * d + k.
Proof.
  intros H. destruct (idx2 p (a * b) d H) as (q & k & Hq & Hk & ->). destruct (idx2 q a b Hq) as (i & j & Hi & Hj & ->).
  now exists i, j, k.
Qed.

Lemma prod_split (l : list nat) i d : nth_error l i = Some d -> prod l = prod (firstn i l) * d * prod (skipn (i + 1) l).
Proof.
  intros H. rewrite <- (firstn_skipn i l) at 1. rewrite prod_app. replace (skipn i l) with (d :: skipn (i + 1) l).
  - cbn [prod]. lia.
  - revert l H. induction i as [|i IH]; intros [|x l] H; cbn in *; try discriminate; [now injection H as ->|]. now apply IH.
Qed.
Lemma safe_raw_get {A} (d : list A) p : p < length d -> safe (raw_get d p).
Proof. intros H. unfold raw_get. destruct (nth_error d p) eqn:E; [discriminate|]. apply nth_error_None in E. lia. Qed.
Lemma wrap_pos_lt {A} (t : tensor A) k p : wrap_pos t k = Ok p -> p < tsize t.
Proof.
  unfold wrap_pos. destruct (k <? tsize t) eqn:E; [intros H; apply Ok_inj in H; lia|]. unfold urem.
  destruct (tsize t =? 0) eqn:E0; [discriminate|]. intros H. apply Ok_inj in H. subst p. apply Nat.mod_upper_bound. lia.
Qed.

Section Ops.
  Context (c : cfg) (Hc : overflow_checks c = true) (Hz : zero_alloc_ok c = true).

  Lemma tensor_new_post {A} (d : list A) s : a_shape s -> post (tensor_new c d s) (inside c).
  Proof.
    intros Hs. unfold tensor_new. apply post_bind_safe; [auto with safe|]. intros n Hn. apply post_assert. intros E.
    cbn. split; [exact Hs|]. cbn. split; [rewrite Hn; f_equal; lia|lia].
  Qed.
  Lemma unsafe_init_post {A S} len s (init : S * buf A -> outcome (S * buf A)) st :
    a_shape s -> adds len snd init (fun p => p < len) -> post (unsafe_init c len s init st) (fun r => inside c (snd r)).
  Proof.
    intros Hs Hi. unfold unsafe_init.
    eapply post_bind with (Q := has len (fun _ => False)).
    - unfold alloc. rewrite Hz, andb_false_r. destruct (_ <=? _)%Z; cbn; [exact I|apply has_alloc].
    - intros b Hb. eapply post_bind; [apply (Hi (fun _ => False) (st, b)); exact Hb|]. intros [st' b'] Hb'. cbn [snd] in Hb'.
      eapply post_bind; [apply (assume_init_post len); eapply has_weaken; [exact Hb'|cbn; auto]|]. intros d _.
      eapply post_bind; [apply tensor_new_post, Hs|]. intros t Ht. exact Ht.
  Qed.
  Lemma unsafe_init__post {A} len s (init : buf A -> outcome (buf A)) :
    a_shape s -> adds len (fun b => b) init (fun p => p < len) -> post (unsafe_init_ c len s init) (inside c).
  Proof.
    intros Hs Hi. unfold unsafe_init_. eapply post_bind; [apply unsafe_init_post; [exact Hs|]|intros [u t] Ht; exact Ht].
    intros W [u b] Hb. cbn [snd] in *. eapply post_bind; [apply (Hi W b Hb)|]. intros b' Hb'. exact Hb'.
  Qed.

  Lemma inside_as_slice {A} (t : tensor A) : inside c t -> exists xs, as_slice t = Ok xs /\ length xs = tsize t.
  Proof.
    intros (_ & _ & H). unfold as_slice, raw_slice. replace (toffset t + tsize t <=? length (tdata t)) with true by lia.
    eexists. split; [reflexivity|]. rewrite firstn_length, skipn_length. lia.
  Qed.
  Lemma safe_as_slice {A} (t : tensor A) : inside c t -> safe (as_slice t).
  Proof. intros H. destruct (inside_as_slice t H) as (xs & -> & _). discriminate. Qed.
  Lemma safe_raw_slice {A} (d : list A) p n : p + n <= length d -> safe (raw_slice d p n).
  Proof. intros H. unfold raw_slice. replace (p + n <=? length d) with true by lia. discriminate. Qed.
  Lemma safe_wrap_pos {A} (t : tensor A) k : safe (wrap_pos t k).
  Proof. unfold wrap_pos. safe. Qed.
  Lemma safe_as_wrap_slice {A} (t : tensor A) k : inside c t -> safe (as_wrap_slice t k).
  Proof.
    intros (_ & _ & H). unfold as_wrap_slice. apply safe_bind; [apply safe_wrap_pos|]. intros p Hp. apply wrap_pos_lt in Hp.
    apply safe_raw_slice. lia.
  Qed.
  Lemma safe_as_wrap_slice_n {A} (t : tensor A) k n : inside c t -> safe (as_wrap_slice_n c t k n).
  Proof.
    intros (_ & _ & H). unfold as_wrap_slice_n. apply safe_bind; [apply safe_wrap_pos|]. intros p Hp. apply wrap_pos_lt in Hp.
    apply safe_bind; [auto with safe|]. intros x Hx. apply (uadd_value c Hc) in Hx.
    apply safe_bind; [auto with safe|]. intros e He. apply (uadd_value c Hc) in He.
    apply safe_bind; [auto with safe|]. intros [] Ha. unfold assert_ in Ha. destruct (e <=? tsize t) eqn:E; [|discriminate].
    apply safe_raw_slice. lia.
  Qed.

  Hint Resolve safe_as_slice safe_as_wrap_slice safe_as_wrap_slice_n : safe.

  Lemma write_row_post {V} L W (o : buf V) p vs : has L W o -> p + length vs <= L ->
    post (write_row o p vs) (has L (fun q => W q \/ exists j, j < length vs /\ q = p + j)).
  Proof.
    intros Ho Hp. unfold write_row.
    apply (adds_for L (fun b => b) (length vs) (fun j o => let* v := aget vs j in write o (p + j) v) (fun j q => q = p + j)); [|exact Ho].
    intros j Hj W' s Hs. apply post_bind_safe; [auto with safe|]. intros v _. apply write_post; [exact Hs|lia].
  Qed.

  (** ** src/tensor/map.rs *)

  Lemma init_post {S V} s (f : S -> outcome (S * V)) st : a_shape s -> (forall st, safe (f st)) ->
    post (init c s f st) (fun r => inside c (snd r)).
  Proof.
    intros Hs Hf. unfold init. apply post_bind_safe; [auto with safe|]. intros n Hn. apply unsafe_init_post; [exact Hs|].
    eapply adds_weaken; [apply (adds_for n snd n _ (fun k p => p = k))|intros p Hp; exists p; auto].
    intros k Hk W [st' o] Ho. cbn [snd] in *. apply post_bind_safe; [apply Hf|]. intros [st2 v] _.
    eapply post_bind; [apply write_post; [exact Ho|exact Hk]|]. intros o' Ho'. exact Ho'.
  Qed.
  Lemma init_rindexed_post {S V} s (f : S -> list nat -> outcome (S * V)) st : a_shape s -> (forall st i, safe (f st i)) ->
    post (init_rindexed c s f st) (fun r => inside c (snd r)).
  Proof.
    intros Hs Hf. unfold init_rindexed. apply post_bind_safe; [auto with safe|]. intros n Hn. apply unsafe_init_post; [exact Hs|].
    intros W [st0 o0] H0. cbn [snd] in H0.
    eapply post_bind.
    - apply (adds_for n (fun x : S * buf V * list nat => snd (fst x)) n _ (fun k p => p = k)); [|exact H0].
      intros k Hk W' [[st' o] idx] Ho. cbn [fst snd] in *. apply post_bind_safe; [apply Hf|]. intros [st2 v] _.
      eapply post_bind; [apply write_post; [exact Ho|exact Hk]|]. intros o' Ho'. apply post_bind_safe; [auto with safe|].
      intros idx' _. exact Ho'.
    - intros [[st1 o1] idx1] H1. cbn [fst snd] in *. eapply has_weaken; [exact H1|]. intros p [Hp|Hp]; [auto|right; exists p; auto].
  Qed.
  Lemma map_post {S U V} (t : tensor U) (f : S -> U -> outcome (S * V)) st : inside c t -> (forall st x, safe (f st x)) ->
    post (map_ c t f st) (fun r => inside c (snd r)).
  Proof.
    intros Ht Hf. unfold map_. apply unsafe_init_post; [apply Ht|]. intros W sb Hs. apply post_bind_safe; [auto with safe|]. intros xs _.
    apply (adds_weaken _ _ _ (fun p => exists k, k < tsize t /\ p = k)); [|intros p Hp; exists p; auto|exact Hs].
    apply (adds_for (tsize t) snd). intros k Hk W' [st' o] Ho. cbn [snd] in *. apply post_bind_safe; [auto with safe|]. intros x _.
    apply post_bind_safe; [apply Hf|]. intros [st2 v] _.
    eapply post_bind; [apply write_post; [exact Ho|exact Hk]|]. intros o' Ho'. exact Ho'.
  Qed.

  (** A closure returning an array of [N] items. *)
  Definition returns {X S V} (N : nat) (f : S -> X -> outcome (S * list V)) : Prop :=
    forall st x, post (f st x) (fun r => length (snd r) = N).

  Lemma map_row_post {S U V} N (t : tensor U) (f : S -> list U -> outcome (S * list V)) st : inside c t -> returns N f ->
    post (map_row c N t f st) (fun r => inside c (snd r)).
  Proof.
    intros Ht Hf. unfold map_row. eapply post_bind with (Q := a_shape).
    { destruct (_ && _)%bool; [apply rremove_post, Ht|apply with_cols_post, Ht]. }
    intros s Hs. apply post_bind_safe; [auto with safe|]. intros k _. apply post_bind_safe; [auto with safe|]. intros len Hl.
    unfold udiv in Hl. destruct (k =? 0) eqn:Ek; [discriminate|]. apply Ok_inj in Hl.
    assert (Hd : len * k <= tsize t) by (subst len; rewrite Nat.mul_comm; apply Nat.mul_div_le; lia).
    apply unsafe_init_post; [exact Hs|].
    eapply adds_weaken; [apply (adds_for (N * len) snd len _ (fun i p => exists j, j < N /\ p = i * N + j))|].
    - intros i Hi W [st' o] Ho. cbn [snd] in *. apply post_bind_safe; [apply safe_raw_slice; destruct Ht as (_ & _ & Ht); nia|].
      intros row _. eapply post_bind; [apply Hf|]. intros [st2 vs] Hv. cbn [snd] in Hv.
      eapply post_bind; [apply write_row_post; [exact Ho|nia]|]. intros o' Ho'. cbn. rewrite Hv in Ho'. exact Ho'.
    - intros p Hp. destruct (idx2 p len N) as (i & j & Hi & Hj & ->); [nia|]. exists i. split; [exact Hi|]. now exists j.
  Qed.
  Lemma map_expand_post {S U V} N (t : tensor U) (f : S -> U -> outcome (S * list V)) st : inside c t -> returns N f ->
    post (map_expand c N t f st) (fun r => inside c (snd r)).
  Proof.
    intros Ht Hf. unfold map_expand. eapply post_bind; [apply rinsert_post, Ht|]. intros s Hs. cbn zeta.
    apply unsafe_init_post; [exact Hs|]. intros W sb Hsb. apply post_bind_safe; [auto with safe|]. intros xs _.
    apply (adds_weaken _ _ _ (fun p => exists i, i < tsize t /\ exists j, j < N /\ p = i * N + j)); [| |exact Hsb].
    - apply (adds_for (N * tsize t) snd). intros i Hi W' [st' o] Ho. cbn [snd] in *. apply post_bind_safe; [auto with safe|]. intros x _.
      eapply post_bind; [apply Hf|]. intros [st2 vs] Hv. cbn [snd] in Hv.
      eapply post_bind; [apply write_row_post; [exact Ho|nia]|]. intros o' Ho'. cbn. rewrite Hv in Ho'. exact Ho'.
    - intros p Hp. destruct (idx2 p (tsize t) N) as (i & j & Hi & Hj & ->); [nia|]. exists i. split; [exact Hi|]. now exists j.
  Qed.
  Lemma map2_post {S T U V} (a : tensor T) (b : tensor U) (f : S -> T -> U -> outcome (S * V)) st :
    inside c a -> inside c b -> (forall st x y, safe (f st x y)) -> post (map2 c a b f st) (fun r => inside c (snd r)).
  Proof.
    intros Ha Hb Hf. unfold map2. eapply post_bind; [apply broadcast_to_post; [apply Ha|apply Hb]|]. intros s Hs. cbn zeta.
    set (size := Nat.max _ _). set (inner := Nat.min _ _). apply post_bind_safe; [auto with safe|]. intros batch _.
    apply post_assert. intros E. apply unsafe_init_post; [exact Hs|].
    eapply adds_weaken; [apply (adds_for size snd batch _ (fun n p => exists k, k < inner /\ p = n * inner + k))|].
    - intros n Hn W sb Hsb. apply post_bind_safe; [auto with safe|]. intros xa _. apply post_bind_safe; [auto with safe|]. intros xb _.
      apply (adds_for size snd inner _ (fun k p => p = n * inner + k)); [|exact Hsb].
      intros k Hk W' [st' o] Ho. cbn [snd] in *. apply post_bind_safe; [auto with safe|]. intros x _. apply post_bind_safe; [auto with safe|]. intros y _.
      apply post_bind_safe; [apply Hf|]. intros [st2 v] _. eapply post_bind; [apply write_post; [exact Ho|nia]|]. intros o' Ho'. exact Ho'.
    - intros p Hp. destruct (idx2 p batch inner) as (i & j & Hi & Hj & ->); [lia|]. exists i. split; [exact Hi|]. now exists j.
  Qed.
  Lemma map3_post {S T U V W} (a : tensor T) (b : tensor U) (d : tensor V) (f : S -> T -> U -> V -> outcome (S * W)) st :
    inside c a -> inside c b -> inside c d -> (forall st x y z, safe (f st x y z)) -> post (map3 c a b d f st) (fun r => inside c (snd r)).
  Proof.
    intros Ha Hb Hd Hf. unfold map3. eapply post_bind; [apply broadcast_to_post; [apply Ha|apply Hb]|]. intros s0 Hs0.
    eapply post_bind; [apply broadcast_to_post; [apply Hs0|apply Hd]|]. intros s Hs. cbn zeta.
    set (size := Nat.max _ _). set (inner := Nat.min _ _). apply post_bind_safe; [auto with safe|]. intros batch _.
    apply post_assert. intros E. apply unsafe_init_post; [exact Hs|].
    eapply adds_weaken; [apply (adds_for size snd batch _ (fun n p => exists k, k < inner /\ p = n * inner + k))|].
    - intros n Hn W0 sb Hsb. apply post_bind_safe; [auto with safe|]. intros xa _. apply post_bind_safe; [auto with safe|]. intros xb _.
      apply post_bind_safe; [auto with safe|]. intros xd _.
      apply (adds_for size snd inner _ (fun k p => p = n * inner + k)); [|exact Hsb].
      intros k Hk W' [st' o] Ho. cbn [snd] in *. apply post_bind_safe; [auto with safe|]. intros x _. apply post_bind_safe; [auto with safe|]. intros y _.
      apply post_bind_safe; [auto with safe|]. intros z _.
      apply post_bind_safe; [apply Hf|]. intros [st2 v] _. eapply post_bind; [apply write_post; [exact Ho|nia]|]. intros o' Ho'. exact Ho'.
    - intros p Hp. destruct (idx2 p batch inner) as (i & j & Hi & Hj & ->); [lia|]. exists i. split; [exact Hi|]. now exists j.
  Qed.

  Lemma of_value_post {A} (v : A) : post (of_value c v) (inside c).
  Proof. apply tensor_new_post, scalar_a_shape. Qed.
  Lemma fold_post {S U R V} (t : tensor U) (ini : R) (into : R -> V) (f : S -> R -> U -> outcome (S * R)) st :
    inside c t -> (forall st r x, safe (f st r x)) -> post (fold_ c t ini into f st) (fun r => inside c (snd r)).
  Proof.
    intros Ht Hf. unfold fold_. apply post_bind_safe; [auto with safe|]. intros xs _.
    apply post_bind_safe. { apply safe_for. intros k [st' r] _. apply safe_bind; [auto with safe|]. intros x _. apply Hf. }
    intros [st' r] _. eapply post_bind; [apply of_value_post|]. intros t' Ht'. exact Ht'.
  Qed.
  Lemma reduce_post {S T} (t : tensor T) (f : S -> T -> T -> outcome (S * T)) st :
    inside c t -> (forall st r x, safe (f st r x)) -> post (reduce c t f st) (fun r => inside c (snd r)).
  Proof.
    intros Ht Hf. unfold reduce. apply post_bind_safe; [auto with safe|]. intros xs _. apply post_bind_safe; [auto with safe|]. intros v0 _.
    apply post_bind_safe. { apply safe_for_range. intros k [st' r] _. apply safe_bind; [auto with safe|]. intros x _. apply Hf. }
    intros [st' r] _. eapply post_bind; [apply of_value_post|]. intros t' Ht'. exact Ht'.
  Qed.

  (** ** Reduction of an axis *)

  Lemma size_scalar n : size c scalar = Ok n -> n = 1.
  Proof. intros H. apply (size_value c Hc _ _ scalar_a_shape) in H. apply H. Qed.

  Lemma axis_reduce_post s n ax : a_shape s -> size c s = Ok n ->
    post (axis_reduce c ax s) (fun '(o, batch, a_len, inner) =>
      a_shape o /\ (forall m, size c o = Ok m -> m = batch * inner) /\ batch * inner * a_len = n).
  Proof.
    intros Ha Hn. destruct (size_value c Hc s n Ha Hn) as [Hr Hp]. unfold axis_reduce.
    assert (Hsc : post (let* k := size c s in Ok (scalar, 1, k, 1)) (fun '(o, batch, a_len, inner) =>
      a_shape o /\ (forall m, size c o = Ok m -> m = batch * inner) /\ batch * inner * a_len = n)).
    { rewrite Hn. cbn [bind post]. split; [apply scalar_a_shape|]. split; [|lia]. intros m Hm. now apply size_scalar in Hm. }
    destruct ax as [z|]; [|exact Hsc]. apply post_bind_safe; [auto with safe|]. intros axis Hax.
    assert (Hlt : axis < rank s).
    { unfold norm_axis in Hax. destruct (iadd _ _ _); try discriminate. cbn [bind] in Hax. unfold assert_ in Hax.
      destruct (negb _); try discriminate. cbn [bind] in Hax. destruct (_ <? _) eqn:E in Hax; [|discriminate]. apply Ok_inj in Hax. lia. }
    destruct (rank s =? 1); [exact Hsc|].
    apply post_bind_safe; [auto with safe|]. intros [v outer] Ho. apply (collect_dims_value c Hc) in Ho; auto; [|lia]. destruct Ho as [-> Ho].
    apply post_bind_safe; [auto with safe|]. intros [v inner] Hi. apply (collect_dims_value c Hc) in Hi; auto; [|lia]. destruct Hi as [-> Hi].
    rewrite Nat.sub_0_r in Ho |- *. cbn [skipn app] in Ho |- *. pose proof (dlist_length s Ha Hr) as Hl.
    rewrite (firstn_all2 (skipn (axis + 1) (dlist s))) in Hi |- * by (rewrite skipn_length; lia).
    eapply post_bind; [apply from_vec_dims_post|]. intros o (-> & Hoa & _).
    apply post_bind_safe; [auto with safe|]. intros d Hd. apply (dim_value c Hc) in Hd; auto. destruct Hd as [_ Hd]. cbn.
    split; [exact Hoa|]. split.
    - intros m Hm. apply (size_value c Hc _ _ Hoa) in Hm. destruct Hm as [_ ->]. rewrite dlist_canon, map_as_u32_small.
      + now rewrite prod_app, Ho, Hi.
      + pose proof (dlist_small s Ha) as Hs. apply Forall_app. rewrite Forall_forall in Hs.
        split; apply Forall_forall; intros x Hx; apply Hs.
        * rewrite <- (firstn_skipn axis (dlist s)). apply in_or_app. auto.
        * rewrite <- (firstn_skipn (axis + 1) (dlist s)). apply in_or_app. auto.
    - rewrite Hp, (prod_split _ _ _ Hd), Ho, Hi. lia.
  Qed.
  Lemma axis_reduce_row_post s n ax N : a_shape s -> size c s = Ok n -> (Z.of_nat N < two32)%Z ->
    post (axis_reduce_row c ax s N) (fun '(o, batch, a_len, inner) =>
      a_shape o /\ (forall m, size c o = Ok m -> m = batch * inner * N)).
  Proof.
    intros Ha Hn HN. destruct (size_value c Hc s n Ha Hn) as [Hr Hp]. unfold axis_reduce_row.
    assert (Hv : forall k : nat -> nat, post (let* o := from_slice_dims [N] in let* n := size c s in Ok (o, 1, k n, 1)) (fun '(o, batch, a_len, inner) =>
      a_shape o /\ (forall m, size c o = Ok m -> m = batch * inner * N))).
    { intros k. eapply post_bind; [apply from_slice_dims_post|]. intros o (-> & Ho). rewrite Hn. cbn [bind post]. split; [exact Ho|].
      intros m Hm. apply (size_value c Hc _ _ Ho) in Hm. destruct Hm as [_ ->]. rewrite dlist_canon. cbn. rewrite as_u32_small by exact HN. lia. }
    destruct ax as [z|].
    - apply post_bind_safe; [auto with safe|]. intros axis Hax. destruct (rank s =? 1); [apply (Hv (fun n => n))|].
      apply post_assert. intros Hlt.
      apply post_bind_safe; [auto with safe|]. intros [v outer] Ho. apply (collect_dims_value c Hc) in Ho; auto; [|lia]. destruct Ho as [-> Ho].
      apply post_bind_safe; [auto with safe|]. intros [v inner] Hi. apply (collect_dims_value c Hc) in Hi; auto; [|lia]. destruct Hi as [-> Hi].
      rewrite Nat.sub_0_r in Ho |- *. cbn [skipn app] in Ho |- *.
      eapply post_bind; [apply from_vec_dims_post|]. intros o (-> & Hoa & _).
      apply post_bind_safe; [auto with safe|]. intros d _. cbn. split; [exact Hoa|].
      intros m Hm. apply (size_value c Hc _ _ Hoa) in Hm. destruct Hm as [_ ->]. rewrite dlist_canon, map_as_u32_small.
      + rewrite !prod_app, Ho, Hi. cbn [prod]. lia.
      + pose proof (dlist_small s Ha) as Hs. apply Forall_app. rewrite Forall_forall in Hs. split; [apply Forall_app; split|repeat constructor; exact HN].
        * apply Forall_forall; intros x Hx; apply Hs. rewrite <- (firstn_skipn axis (dlist s)). apply in_or_app. auto.
        * apply Forall_forall; intros x Hx; apply Hs. rewrite <- (firstn_skipn (axis + 1) (dlist s)). apply in_or_app. right.
          rewrite <- (firstn_skipn (rank s - 1 - (axis + 1)) (skipn (axis + 1) (dlist s))). apply in_or_app. auto.
    - eapply post_bind; [apply from_slice_dims_post|]. intros o (-> & Ho). rewrite Hn. cbn [bind].
      apply post_bind_safe; [auto with safe|]. intros k _. apply post_bind_safe; [auto with safe|]. intros q _. cbn. split; [exact Ho|].
      intros m Hm. apply (size_value c Hc _ _ Ho) in Hm. destruct Hm as [_ ->]. rewrite dlist_canon. cbn. rewrite as_u32_small by exact HN. lia.
  Qed.

  Lemma fold_axis_post {S T R V} (t : tensor T) ax (ini : R) (into : R -> V) (f : S -> R -> T -> outcome (S * R)) st :
    inside c t -> (forall st r x, safe (f st r x)) -> post (fold_axis c t ax ini into f st) (fun r => inside c (snd r)).
  Proof.
    intros Ht Hf. pose proof Ht as (Hs & Hn & _). unfold fold_axis. eapply post_bind; [apply (axis_reduce_post _ _ ax Hs Hn)|].
    intros [[[o batch] a_len] inner] (Ho & Hm & _). apply post_bind_safe; [auto with safe|]. intros n_out E. apply Hm in E. subst n_out.
    apply unsafe_init_post; [exact Ho|]. intros W sb Hsb. apply post_bind_safe; [auto with safe|]. intros xs _.
    apply (adds_weaken _ _ _ (fun p => exists n, n < batch /\ exists i, i < inner /\ p = n * inner + i)); [| |exact Hsb].
    - apply (adds_for (batch * inner) snd). intros n Hnb. apply (adds_for (batch * inner) snd). intros i Hi W' [st' b] Hb. cbn [snd] in *.
      apply post_bind_safe. { apply safe_for. intros k [st2 r] _. apply safe_bind; [auto with safe|]. intros x _. apply Hf. }
      intros [st2 r] _. eapply post_bind; [apply write_post; [exact Hb|nia]|]. intros o' Ho'. exact Ho'.
    - intros p Hp. destruct (idx2 p batch inner Hp) as (i & j & Hi & Hj & ->). exists i. split; [exact Hi|]. now exists j.
  Qed.
  Lemma fold_row_post {S T R V} N (t : tensor T) ax (ini : R) (into : R -> list V) (f : S -> R -> list T -> outcome (S * R)) st :
    (Z.of_nat N < two32)%Z -> inside c t -> (forall st r x, safe (f st r x)) -> (forall r, length (into r) = N) ->
    post (fold_row c N t ax ini into f st) (fun r => inside c (snd r)).
  Proof.
    intros HN Ht Hf Hi0. pose proof Ht as (Hs & Hn & _). unfold fold_row. eapply post_bind; [apply (axis_reduce_row_post _ _ ax N Hs Hn HN)|].
    intros [[[o batch] a_len] inner] (Ho & Hm). apply post_bind_safe; [auto with safe|]. intros ncols _.
    apply post_bind_safe; [auto with safe|]. intros n_out E. apply Hm in E. subst n_out.
    apply unsafe_init_post; [exact Ho|].
    apply (adds_weaken _ _ _ (fun p => exists n, n < batch /\ exists i, i < inner /\ exists j, j < N /\ p = (n * inner + i) * N + j)).
    - apply (adds_for (batch * inner * N) snd). intros n Hnb. apply (adds_for (batch * inner * N) snd). intros i Hi W' [st' b] Hb. cbn [snd] in *.
      apply post_bind_safe. { apply safe_for. intros k [st2 r] _. apply safe_bind; [auto with safe|]. intros x _. apply Hf. }
      intros [st2 r] _. eapply post_bind; [apply write_row_post; [exact Hb|rewrite Hi0; pose proof (idx2_lt batch inner n i Hnb Hi); nia]|]. intros o' Ho'. cbn. rewrite Hi0 in Ho'. exact Ho'.
    - intros p Hp. destruct (idx3 p batch inner N Hp) as (i & j & k & Hi & Hj & Hk & ->). exists i. split; [exact Hi|]. exists j. split; [exact Hj|]. now exists k.
  Qed.
  Lemma reduce_axis_post {S T} (t : tensor T) ax (f : S -> T -> T -> outcome (S * T)) st :
    inside c t -> (forall st r x, safe (f st r x)) -> post (reduce_axis c t ax f st) (fun r => inside c (snd r)).
  Proof.
    intros Ht Hf. pose proof Ht as (Hs & Hn & _). unfold reduce_axis. eapply post_bind; [apply (axis_reduce_post _ _ ax Hs Hn)|].
    intros [[[o batch] a_len] inner] (Ho & Hm & _). apply post_bind_safe; [auto with safe|]. intros n_out E. apply Hm in E. subst n_out.
    apply unsafe_init_post; [exact Ho|]. intros W sb Hsb. apply post_bind_safe; [auto with safe|]. intros xs _.
    apply (adds_weaken _ _ _ (fun p => exists n, n < batch /\ exists i, i < inner /\ p = n * inner + i)); [| |exact Hsb].
    - apply (adds_for (batch * inner) snd). intros n Hnb. apply (adds_for (batch * inner) snd). intros i Hi W' [st' b] Hb. cbn [snd] in *.
      apply post_bind_safe; [auto with safe|]. intros s0 _.
      apply post_bind_safe. { apply safe_for_range. intros k [st2 r] _. apply safe_bind; [auto with safe|]. intros x _. apply Hf. }
      intros [st2 r] _. eapply post_bind; [apply write_post; [exact Hb|nia]|]. intros o' Ho'. exact Ho'.
    - intros p Hp. destruct (idx2 p batch inner Hp) as (i & j & Hi & Hj & ->). exists i. split; [exact Hi|]. now exists j.
  Qed.
  Lemma normalize_post {S T R R1 V} (t : tensor T) ax (ini : R) (accum : S -> R -> T -> outcome (S * R))
      (complete : S -> R -> outcome (S * R1)) (norm : S -> R1 -> T -> outcome (S * V)) st :
    inside c t -> (forall st r x, safe (accum st r x)) -> (forall st r, safe (complete st r)) -> (forall st r x, safe (norm st r x)) ->
    post (normalize c t ax ini accum complete norm st) (fun r => inside c (snd r)).
  Proof.
    intros Ht Hf Hg Hh. pose proof Ht as (Hs & Hn & _). unfold normalize. eapply post_bind; [apply (axis_reduce_post _ _ ax Hs Hn)|].
    intros [[[o batch] a_len] inner] (_ & _ & Hm). apply post_bind_safe; [auto with safe|]. intros n_out E. rewrite Hn in E. apply Ok_inj in E.
    rewrite <- Hm in E. subst n_out. clear Hm.
    apply unsafe_init_post; [exact Hs|]. intros W sb Hsb. apply post_bind_safe; [auto with safe|]. intros xs _.
    apply (adds_weaken _ _ _ (fun p => exists n, n < batch /\ exists i, i < inner /\ exists k, k < a_len /\ p = (n * inner + i) * a_len + k)); [| |exact Hsb].
    - apply (adds_for (batch * inner * a_len) snd). intros n Hnb. apply (adds_for (batch * inner * a_len) snd). intros i Hi W' [st' b] Hb. cbn [snd] in *.
      apply post_bind_safe. { apply safe_for. intros k [st2 r] _. apply safe_bind; [auto with safe|]. intros x _. apply Hf. }
      intros [st2 r] _. apply post_bind_safe; [apply Hg|]. intros [st3 r1] _.
      apply (adds_for (batch * inner * a_len) snd a_len _ (fun k p => p = (n * inner + i) * a_len + k)); [|exact Hb].
      intros k Hk W2 [st4 b4] Hb4. cbn [snd] in *. apply post_bind_safe; [auto with safe|]. intros v _. apply post_bind_safe; [apply Hh|]. intros [st5 w] _.
      eapply post_bind; [apply write_post; [exact Hb4|now repeat apply idx2_lt]|]. intros o' Ho'. exact Ho'.
    - intros p Hp. destruct (idx3 p batch inner a_len Hp) as (i & j & k & Hi & Hj & Hk & ->). exists i. split; [exact Hi|]. exists j. split; [exact Hj|]. now exists k.
  Qed.
End Ops.
#[export] Hint Resolve safe_as_slice safe_as_wrap_slice safe_as_wrap_slice_n : safe.
