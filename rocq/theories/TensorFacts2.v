(** * Further lemmas about the tensor model: conversions, rows, joins *)
From Coq Require Import ZifyBool ZifyNat ZifyN.
From Verif Require Import Base ShapeModel TensorModel Spec BaseFacts ShapeFacts ShapeFacts2
  CoordFacts TensorFacts.

Ltac Zify.zify_post_hook ::= Z.div_mod_to_equations.

(** Collecting equally long rows. *)
Lemma collect_rows {A} n (v : list (list A)) d :
  for_each v (fun v1 data => assert! (n =? length v1) in Ok (data ++ v1)) d
  = if forallb (fun r => n =? length r) v then Ok (d ++ concat v) else Panic.
Proof.
  revert d; induction v as [|r v IH]; intros d; cbn [for_each forallb concat].
  - now rewrite app_nil_r.
  - unfold assert_. destruct (n =? length r); cbn [bind andb]; auto.
    rewrite IH. now rewrite app_assoc.
Qed.

Lemma collect_rows3 {A} m n (v : list (list (list A))) d :
  for_each v (fun v1 data =>
    assert! (m =? length v1) in
    for_each v1 (fun v2 data => assert! (n =? length v2) in Ok (data ++ v2)) data) d
  = if forallb (fun p => (m =? length p) && forallb (fun r => n =? length r) p) v
    then Ok (d ++ concat (concat v)) else Panic.
Proof.
  revert d; induction v as [|p v IH]; intros d; cbn [for_each forallb concat].
  - now rewrite app_nil_r.
  - unfold assert_ at 1. destruct (m =? length p); cbn [bind andb]; auto.
    rewrite collect_rows. destruct (forallb _ p); cbn [bind andb]; auto.
    rewrite IH, concat_app. now rewrite app_assoc.
Qed.

Lemma collect_rows4 {A} l m n (v : list (list (list (list A)))) d :
  for_each v (fun v1 data =>
    assert! (l =? length v1) in
    for_each v1 (fun v2 data =>
      assert! (m =? length v2) in
      for_each v2 (fun v3 data => assert! (n =? length v3) in Ok (data ++ v3)) data) data) d
  = if forallb (fun q => (l =? length q) &&
         forallb (fun p => (m =? length p) && forallb (fun r => n =? length r) p) q) v
    then Ok (d ++ concat (concat (concat v))) else Panic.
Proof.
  revert d; induction v as [|p v IH]; intros d; cbn [for_each forallb concat].
  - now rewrite app_nil_r.
  - unfold assert_ at 1. destruct (l =? length p); cbn [bind andb]; auto.
    rewrite collect_rows3. destruct (forallb _ p); cbn [bind andb]; auto.
    rewrite IH, !concat_app. now rewrite app_assoc.
Qed.

Lemma concat_length_const {A} n (v : list (list A)) :
  Forall (fun r => length r = n) v -> length (concat v) = length v * n.
Proof. induction 1; cbn; auto. rewrite app_length. lia. Qed.

(** ** Chunks *)

Lemma skipn_skipn {A} (x y : nat) (l : list A) : skipn x (skipn y l) = skipn (x + y) l.
Proof.
  apply nth_error_ext. intros i. rewrite !nth_error_skipn. f_equal. lia.
Qed.

Lemma chunks_fuel_exact {A} n q fuel (l : list A) :
  0 < n -> length l = q * n -> q <= fuel ->
  chunks_fuel fuel n l = map (fun i => firstn n (skipn (i * n) l)) (seq 0 q).
Proof.
  intros Hn. revert fuel l; induction q as [|q IH]; intros fuel l Hl Hf.
  - destruct fuel; cbn [chunks_fuel]; auto. destruct (Nat.leb_spec n (length l)); [lia|reflexivity].
  - destruct fuel as [|fuel]; [lia|]. cbn [chunks_fuel].
    destruct (Nat.leb_spec n (length l)); [|lia].
    cbn [seq map]. cbn [Nat.mul skipn]. f_equal.
    rewrite IH; [|rewrite skipn_length; lia|lia].
    rewrite <- seq_shift, map_map. apply map_ext. intros i. f_equal.
    rewrite skipn_skipn. f_equal. lia.
Qed.

Lemma concat_chunks {A} n q (l : list A) :
  length l = q * n -> concat (map (fun i => firstn n (skipn (i * n) l)) (seq 0 q)) = l.
Proof.
  revert l; induction q as [|q IH]; intros l Hl.
  - destruct l; [reflexivity|cbn in Hl; lia].
  - cbn [seq map concat]. cbn [Nat.mul skipn].
    rewrite <- seq_shift, map_map.
    erewrite map_ext.
    2: { intros i. replace (S i * n) with (i * n + n) by lia. rewrite <- skipn_skipn. reflexivity. }
    rewrite IH by (rewrite skipn_length; lia). apply firstn_skipn.
Qed.

(** ** Joining *)

Lemma sum64_ok c l acc :
  (Z.of_nat (acc + list_sum l) < two64)%Z -> sum64 c acc l = Ok (acc + list_sum l).
Proof.
  revert acc; induction l as [|x l IH]; intros acc H; cbn [sum64 list_sum fold_right].
  - f_equal. lia.
  - cbn [list_sum fold_right] in H. fold (list_sum l) in *.
    rewrite uadd_ok by lia. cbn [bind]. rewrite IH by (rewrite <- Nat.add_assoc; exact H).
    f_equal. lia.
Qed.

Lemma map_out_as_slice {A} (ts : list (tensor A)) (parts : list (list nat * list A)) :
  Forall2 (fun t p => repr t (fst p) (snd p)) ts parts ->
  map_out as_slice ts = Ok (map snd parts).
Proof.
  induction 1 as [|t p ts ps H _ IH]; cbn; auto.
  rewrite (repr_as_slice _ _ _ H), IH. reflexivity.
Qed.

Lemma map_tsize {A} (ts : list (tensor A)) (parts : list (list nat * list A)) :
  Forall2 (fun t p => repr t (fst p) (snd p)) ts parts ->
  map tsize ts = map (fun p => length (snd p)) parts.
Proof.
  induction 1 as [|t p ts ps H _ IH]; cbn; auto.
  now rewrite (repr_size _ _ _ H), IH.
Qed.

Lemma length_concat {A} (l : list (list A)) : length (concat l) = list_sum (map (@length A) l).
Proof. induction l; cbn; auto. rewrite app_length. now rewrite IHl. Qed.

Lemma from_merge_repr {A} c (ts : list (tensor A)) parts ds :
  Forall2 (fun t p => repr t (fst p) (snd p)) ts parts ->
  (Z.of_nat (length (concat (map snd parts))) < two64)%Z -> supported ds ->
  from_merge c ts (canon ds) =
    if length (concat (map snd parts)) =? prod ds
    then Ok (fresh ds (concat (map snd parts))) else Panic.
Proof.
  intros H Hm Hs. unfold from_merge.
  assert (E : list_sum (map tsize ts) = length (concat (map snd parts))).
  { rewrite (map_tsize _ _ H), length_concat, map_map. reflexivity. }
  rewrite sum64_ok by (rewrite E; exact Hm). cbn [bind]. rewrite E, Nat.add_0_l.
  rewrite size_canon by auto. cbn [bind].
  unfold assert_. destruct (Nat.eqb_spec (length (concat (map snd parts))) (prod ds)) as [Eq|];
    [|reflexivity]. cbn [bind].
  rewrite (map_out_as_slice _ _ H). cbn [bind]. unfold from_vec. now apply tensor_new_ok.
Qed.

Lemma list_eqb_spec {A} (eqb : A -> A -> bool) (Heq : forall x y, eqb x y = true <-> x = y) a b :
  list_eqb eqb a b = true <-> a = b.
Proof.
  revert b; induction a as [|x a IH]; intros [|y b]; cbn; try (split; [discriminate|congruence]).
  - tauto.
  - rewrite andb_true_iff, Heq, IH. split; [intros []; congruence|intros [=]; auto].
Qed.
