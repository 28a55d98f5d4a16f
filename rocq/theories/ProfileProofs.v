(** * Proofs of the property on build profiles (PropsProfile.v) *)
From Verif Require Import Base Spec ShapeModel TensorModel AxisModel MapModel ArrayModel NumModel
  FromModel ArgModel FloatModel InitModel MathModel LinalgModel RandomModel SignalModel IoModel
  FmtModel ProfileSpec ProfileFacts.

Lemma agree_arange {F} (o : fops F) fuel start end_ step (h : cfg -> outcome (tensor F)) z :
  (forall c, arange o c fuel start end_ step = Some (h c)) -> agree (h (checked z)) (h (unchecked z)).
Proof.
  intros H. pose proof (H (checked z)) as H1. pose proof (H (unchecked z)) as H2. clear H.
  unfold arange in H1, H2.
  destruct (feq o step (fzero o)); [left; congruence|].
  destruct (fle o start end_ && flt o (fzero o) step).
  - destruct (arange_up o fuel start end_ step []) as [v|]; [|discriminate].
    injection H1 as <-. injection H2 as <-. apply agree_of_vec.
  - destruct (fle o end_ start && flt o step (fzero o)); [|left; congruence].
    destruct (arange_down o fuel start end_ step []) as [v|]; [|discriminate].
    injection H1 as <-. injection H2 as <-. apply agree_of_vec.
Qed.

Lemma c71_agree R (h : cfg -> outcome R) z :
  program R h -> agree (h (checked z)) (h (unchecked z)).
Proof.
  intros P. induction P;
    lazymatch goal with
    | H : forall c, arange _ c _ _ _ _ = Some _ |- _ => now apply (agree_arange _ _ _ _ _ _ _ H)
    | |- agree ?x ?x => apply agree_refl
    | |- agree ?x _ => let h := head x in ag_api h; intros; auto
    end.
Qed.

Lemma c71_ok R (h : cfg -> outcome R) z r :
  program R h -> h (checked z) = Ok r -> h (unchecked z) = Ok r.
Proof. intros P E. destruct (c71_agree R h z P) as [E'|E']; congruence. Qed.

Lemma c71_release_panic R (h : cfg -> outcome R) z :
  program R h -> h (unchecked z) = Panic -> h (checked z) = Panic.
Proof. intros P E. destruct (c71_agree R h z P) as [E'|E']; congruence. Qed.

Lemma c71_defined R (h : cfg -> outcome R) z :
  program R h -> h (unchecked z) <> Ub -> h (checked z) <> Ub.
Proof. intros P E. destruct (c71_agree R h z P) as [E'|E']; congruence. Qed.

Lemma nat_of (z : Z) : (0 <= z)%Z -> exists k, Z.of_nat k = z.
Proof. intros H. exists (Z.to_nat z). lia. Qed.

Section Tile_wrap.
Variable k : nat.
Hypothesis Hk : Z.of_nat k = two32.
Let t : tensor nat := fresh [1] [7].
Let m : tensor nat := fresh [2] [k; k].

Lemma umul_small c a b : (Z.of_nat a * Z.of_nat b < two64)%Z -> umul c a b = Ok (a * b).
Proof.
  intros H. unfold umul, arith.
  destruct ((0 <=? Z.of_nat a * Z.of_nat b)%Z && (Z.of_nat a * Z.of_nat b <? two64)%Z) eqn:E; [|lia].
  f_equal. lia.
Qed.

Lemma product_kk_dev : product64 dev 1 [k; k] = Panic.
Proof.
  cbn [product64]. rewrite (umul_small dev 1 k) by (unfold two64, two32 in *; lia).
  rewrite Nat.mul_1_l. cbn [bind]. unfold umul, arith. rewrite Hk. reflexivity.
Qed.

Lemma product_kk_release : product64 release 1 [k; k] = Ok 0.
Proof.
  cbn [product64]. rewrite (umul_small release 1 k) by (unfold two64, two32 in *; lia).
  rewrite Nat.mul_1_l. cbn [bind]. unfold umul, arith. rewrite Hk. reflexivity.
Qed.

Lemma as_slice_m : as_slice m = Ok [k; k].
Proof. reflexivity. Qed.

Lemma tile_wrap_dev : tile dev t m = Panic.
Proof.
  unfold tile. replace (as_vec dev (tshape t)) with (Ok [1]) by reflexivity.
  rewrite as_slice_m. replace (size dev (tshape t)) with (Ok 1) by reflexivity.
  cbn [bind]. rewrite product_kk_dev. reflexivity.
Qed.

Lemma from_vec_dims_kk : from_vec_dims [k; k] = Ok (mkShape [0; 0; 0; 0; 0; 0] 2).
Proof.
  assert (Hu : as_u32 k = 0) by (unfold as_u32; rewrite Hk; reflexivity).
  assert (Hp : (0 <? k) = true) by (apply Nat.ltb_lt; unfold two32 in Hk; lia).
  unfold from_vec_dims. cbn [length for_ for_from rev app aget nth_error bind].
  rewrite Hp. cbn [assert_ bind]. rewrite Hu. reflexivity.
Qed.

Lemma tile_wrap_release : tile release t m = Ub.
Proof.
  assert (Hp : exists k', k = Datatypes.S k').
  { destruct k as [|k']; [discriminate|now exists k']. }
  unfold tile. replace (as_vec release (tshape t)) with (Ok [1]) by reflexivity.
  rewrite as_slice_m. replace (size release (tshape t)) with (Ok 1) by reflexivity.
  cbn [bind]. rewrite product_kk_release.
  replace (as_slice t) with (Ok [7]) by reflexivity.
  replace (len release (tshape m)) with (Ok 2) by reflexivity.
  cbn [bind]. replace (rank (tshape t)) with 1 by reflexivity.
  change (Nat.max 1 2) with 2. cbn [for_ for_from rev app].
  change (0 <? 1) with true. change (0 <? 2) with true. change (1 <? 1) with false. change (1 <? 2) with true.
  cbn [aget nth_error bind].
  rewrite (umul_small release 1 k) by (unfold two64, two32 in *; lia).
  rewrite Nat.mul_1_l. cbn [bind app].
  rewrite (umul_small release 0 1) by (unfold two64; lia). cbn [bind Nat.mul rev app].
  rewrite from_vec_dims_kk. cbn [bind].
  unfold unsafe_init_, unsafe_init. change (alloc release 0) with (Ok ([] : buf nat)). cbn [bind].
  change (usub release 2 1) with (Ok 1). cbn [bind].
  destruct Hp as [k' ->]. reflexivity.
Qed.
End Tile_wrap.

(** [tile] with the multiples 2^32 and 2^32: 2^64 elements, no memory for them. *)
Lemma c71_release_ub :
  exists (m : tensor nat), program _ (fun c => tile c (fresh [1] [7]) m) /\
    as_slice m = Ok (tdata m) /\ rank (tshape m) = 1 /\
    tile dev (fresh [1] [7]) m = Panic /\ tile release (fresh [1] [7]) m = Ub.
Proof.
  destruct (nat_of two32) as [k Hk]; [unfold two32; lia|].
  exists (fresh [2] [k; k]). split; [apply prog_tile|].
  split; [reflexivity|]. split; [reflexivity|].
  split; [now apply tile_wrap_dev|now apply tile_wrap_release].
Qed.
