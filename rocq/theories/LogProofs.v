(** * [logspace] over whole exponents in binary32 (C43), proofs *)
From Coq Require Import Reals Lra.
From Flocq Require Import Core.Zaux Core.Raux IEEE754.BinarySingleNaN.
From Coq Require Import ZifyBool ZifyNat ZifyN.
From Verif Require Import Base ShapeModel TensorModel FloatModel InitModel
  Spec FloatSpec BaseFacts ShapeFacts TensorFacts RealFacts InitSpec InitFacts InitProofs RoundSpec RoundFacts NormalSpec GridProofs.

Lemma c43_faithful_exact (v y : b32) : number v -> faithful (B2R v) y -> B2R y = B2R v.
Proof. intros Fv [_ H]. destruct (H v Fv) as [H1 H2]. apply Rle_antisym; [apply H1|apply H2]; lra. Qed.

Lemma c43_logspace_int_b32 ln_ exp_ pow_ c (s e : tensor b32) ds xs ys len base :
  (forall x y, number x -> number y -> (0 < B2R x)%R -> (Rpower (B2R x) (B2R y) <= 2 ^ 127)%R ->
     faithful (Rpower (B2R x) (B2R y)) (pow_ x y)) ->
  match base with Some b => number b /\ (0 < B2R b)%R | None => True end ->
  repr s ds xs -> repr e ds ys -> 0 < prod ds -> length ds < 5 -> supported (len :: ds) ->
  0 < len -> (Z.of_nat len <= 16777217)%Z ->
  (forall i x y, nth_error xs i = Some x -> nth_error ys i = Some y -> exists a d,
     number x /\ number y /\ B2R x = IZR a /\ B2R y = IZR (a + d * (Z.of_nat len - 1)) /\ (0 <= d)%Z /\
     (Z.abs a <= 16777216)%Z /\ (Z.abs (a + d * (Z.of_nat len - 1)) <= 16777216)%Z /\
     (d * (Z.of_nat len - 1) <= 16777216)%Z) ->
  exists zs, logspace (b32_ops ln_ exp_ pow_) c s e len base = Ok (fresh (len :: ds) zs) /\ length zs = prod (len :: ds) /\
    forall k idx x y, k < len -> elem ds xs idx = Some x -> elem ds ys idx = Some y ->
      exists z, elem (len :: ds) zs (k :: idx) = Some z /\
        forall a d, B2R x = IZR a -> B2R y = IZR (a + d * (Z.of_nat len - 1)) ->
          let r := Rpower (match base with Some b => B2R b | None => 10%R end) (IZR (a + d * Z.of_nat k)) in
          (r <= 2 ^ 127)%R -> faithful r z.
Proof.
  intros Hpow Hb Hs He Hp Hl Hsup Hlen Hbz Hi. set (o := b32_ops ln_ exp_ pow_).
  assert (Hi' : forall i x y, nth_error xs i = Some x -> nth_error ys i = Some y -> exists a d, int_ends len x y a d).
  { intros i x y Hx Hy. destruct (Hi i x y Hx Hy) as (a & d & A1 & A2 & A3 & A4 & A5). exists a, d.
    unfold int_ends, is_int. intuition. }
  clear Hi. destruct (logspace_repr o c s e ds xs ys len base) as (zs & E & El & Ev); auto.
  - left. nia.
  - intros i x y Hx Hy. destruct (Hi' i x y Hx Hy) as (a & d & I1 & I2 & I3 & _). apply (le_int _ _ _ _ _ _ _ I1 I2). nia.
  - exists zs. split; [exact E|]. split; [exact El|]. intros k idx x y Hk Hx Hy.
    destruct (Hi' _ x y Hx Hy) as (a & d & I). pose proof (sample_int ln_ exp_ pow_ len k x y a d Hbz Hk I) as [S1 S2].
    rewrite (Ev k idx x y Hk Hx Hy). eexists. split; [reflexivity|].
    intros a' d' Ea Ed. destruct I as ([_ I1] & [_ I2] & _).
    rewrite I1 in Ea. rewrite I2 in Ed. apply eq_IZR in Ea, Ed. subst a'.
    assert (Ek : (a + d' * Z.of_nat k = a + d * Z.of_nat k)%Z).
    { f_equal. destruct (Nat.eq_dec len 1) as [->|]; [replace k with 0 by lia; lia|]. assert (d = d') as -> by nia. reflexivity. }
    rewrite Ek, <- S2. cbv zeta. intros Hr. unfold space_value.
    destruct base as [b|].
    + apply Hpow; try exact S1; try apply Hb. exact Hr.
    + destruct (fof_int ln_ exp_ pow_ 10 ltac:(lia)) as [N10 E10]. change (IZR (Z.of_nat 10)) with 10%R in E10.
      assert (P10 : (0 < 10)%R) by lra. rewrite <- E10 in P10, Hr |- *.
      apply Hpow; [exact N10|exact S1|exact P10|exact Hr].
Qed.
