(** * Exact grids in binary32 (C42, C43), proofs *)
From Coq Require Import Reals Lra.
From Flocq Require Import Core.Zaux Core.Raux Core.Generic_fmt IEEE754.BinarySingleNaN.
From Coq Require Import ZifyBool ZifyNat ZifyN.
From Verif Require Import Base ShapeModel TensorModel FloatModel InitModel
  Spec FloatSpec BaseFacts ShapeFacts TensorFacts RealFacts InitSpec InitProofs RoundSpec RoundFacts.

Section B32.
  Context (ln_ exp_ : b32 -> b32) (pow_ : b32 -> b32 -> b32).
  Notation o := (b32_ops ln_ exp_ pow_).

  Definition is_int (x : b32) (z : Z) : Prop := number x /\ B2R x = IZR z.

  Lemma int_of_Z z : (Z.abs z <= 16777216)%Z -> is_int (b32_of_Z z 0) z.
  Proof. intros H. destruct (b32_of_Z_exact z H) as (H1 & H2 & _). split; [exact H2|exact H1]. Qed.

  Lemma add_int x y a b : is_int x a -> is_int y b -> (Z.abs (a + b) <= 16777216)%Z -> is_int (fadd o x y) (a + b).
  Proof.
    intros [Nx Ex] [Ny Ey] H. pose proof (Bplus_correct 24 128 b32_prec b32_emax mode_NE x y Nx Ny) as C.
    rewrite Ex, Ey, <- plus_IZR in C. rewrite round_generic in C by (try apply valid_rnd_round_mode; now apply b32_int_format).
    rewrite Rlt_bool_true in C by now apply b32_small. destruct C as (C1 & C2 & _). split; [exact C2|exact C1].
  Qed.

  Lemma sub_int x y a b : is_int x a -> is_int y b -> (Z.abs (a - b) <= 16777216)%Z -> is_int (fsub o x y) (a - b).
  Proof.
    intros [Nx Ex] [Ny Ey] H. pose proof (Bminus_correct 24 128 b32_prec b32_emax mode_NE x y Nx Ny) as C.
    rewrite Ex, Ey, <- minus_IZR in C. rewrite round_generic in C by (try apply valid_rnd_round_mode; now apply b32_int_format).
    rewrite Rlt_bool_true in C by now apply b32_small. destruct C as (C1 & C2 & _). split; [exact C2|exact C1].
  Qed.

  Lemma mul_int x y a b : is_int x a -> is_int y b -> (Z.abs (a * b) <= 16777216)%Z -> is_int (fmul o x y) (a * b).
  Proof.
    intros [Nx Ex] [Ny Ey] H. pose proof (Bmult_correct 24 128 b32_prec b32_emax mode_NE x y) as C.
    rewrite Ex, Ey, <- mult_IZR in C. rewrite round_generic in C by (try apply valid_rnd_round_mode; now apply b32_int_format).
    rewrite Rlt_bool_true in C by now apply b32_small. destruct C as (C1 & C2 & _).
    unfold is_int, number in *. cbn [fmul b32_ops]. rewrite C2, Nx, Ny. split; [reflexivity|exact C1].
  Qed.

  Lemma div_int x y a b : is_int x (a * b) -> is_int y b -> b <> 0%Z -> (Z.abs a <= 16777216)%Z -> is_int (fdiv o x y) a.
  Proof.
    intros [Nx Ex] [Ny Ey] Hb H.
    assert (Hy : B2R y <> 0%R) by (rewrite Ey; intros E; apply eq_IZR in E; auto).
    pose proof (Bdiv_correct 24 128 b32_prec b32_emax mode_NE x y Hy) as C.
    replace (B2R x / B2R y)%R with (IZR a) in C by (rewrite Ex, mult_IZR, <- Ey; field; exact Hy).
    rewrite round_generic in C by (try apply valid_rnd_round_mode; now apply b32_int_format).
    rewrite Rlt_bool_true in C by now apply b32_small. destruct C as (C1 & C2 & _).
    unfold is_int, number in *. cbn [fdiv b32_ops]. rewrite C2, Nx. split; [reflexivity|exact C1].
  Qed.

  Lemma le_int x y a b : is_int x a -> is_int y b -> (a <= b)%Z -> fle o x y = true.
  Proof.
    intros [Nx Ex] [Ny Ey] H. cbn [fle b32_ops]. rewrite Bleb_correct by auto. rewrite Ex, Ey.
    apply Rle_bool_true. now apply IZR_le.
  Qed.

  Lemma fof_int n : (Z.of_nat n <= 16777216)%Z -> is_int (fof o n) (Z.of_nat n).
  Proof. intros H. apply int_of_Z. lia. Qed.

  (** Endpoints [a] and [a + d * (len - 1)]. *)
  Definition int_ends (len : nat) (x y : b32) (a d : Z) : Prop :=
    is_int x a /\ is_int y (a + d * (Z.of_nat len - 1)) /\ (0 <= d)%Z /\
    (Z.abs a <= 16777216)%Z /\ (Z.abs (a + d * (Z.of_nat len - 1)) <= 16777216)%Z /\ (d * (Z.of_nat len - 1) <= 16777216)%Z.

  Lemma sample_int len k x y a d : (Z.of_nat len <= 16777217)%Z -> k < len -> int_ends len x y a d ->
    is_int (fadd o x (fmul o (if 1 <? len then fdiv o (fsub o y x) (fof o (len - 1)) else fzero o) (fof o k))) (a + d * Z.of_nat k).
  Proof.
    intros Hl Hk (Ix & Iy & Hd & H1 & H2 & H3). destruct (Nat.ltb_spec 1 len) as [L|L].
    - assert (Hk' : (0 <= d * Z.of_nat k <= d * (Z.of_nat len - 1))%Z) by nia.
      assert (Hd' : (Z.abs d <= 16777216)%Z) by nia.
      apply add_int; [exact Ix| |lia]. apply mul_int; [|apply fof_int; lia|lia].
      apply div_int with (Z.of_nat (len - 1)); [|apply fof_int; lia|lia|lia].
      replace (d * Z.of_nat (len - 1))%Z with (a + d * (Z.of_nat len - 1) - a)%Z by (rewrite Nat2Z.inj_sub by lia; lia).
      apply sub_int; [exact Iy|exact Ix|lia].
    - assert (k = 0) by lia. subst k. change (Z.of_nat 0) with 0%Z. rewrite Z.mul_0_r.
      apply add_int; [exact Ix| |lia]. change 0%Z with (0 * 0)%Z. apply mul_int; [|apply fof_int; lia|lia].
      split; reflexivity.
  Qed.

  Lemma c43_linspace_int_b32 c (s e : tensor b32) ds xs ys len :
    repr s ds xs -> repr e ds ys -> 0 < prod ds -> length ds < 5 -> supported (len :: ds) ->
    0 < len -> (Z.of_nat len <= 16777217)%Z ->
    (forall i x y, nth_error xs i = Some x -> nth_error ys i = Some y -> exists a d,
       number x /\ number y /\ B2R x = IZR a /\ B2R y = IZR (a + d * (Z.of_nat len - 1)) /\ (0 <= d)%Z /\
       (Z.abs a <= 16777216)%Z /\ (Z.abs (a + d * (Z.of_nat len - 1)) <= 16777216)%Z /\
       (d * (Z.of_nat len - 1) <= 16777216)%Z) ->
    exists zs, linspace o c s e len = Ok (fresh (len :: ds) zs) /\ length zs = prod (len :: ds) /\
      forall k idx x y, k < len -> elem ds xs idx = Some x -> elem ds ys idx = Some y ->
        exists z, elem (len :: ds) zs (k :: idx) = Some z /\ number z /\
          forall a d, B2R x = IZR a -> B2R y = IZR (a + d * (Z.of_nat len - 1)) -> B2R z = IZR (a + d * Z.of_nat k).
  Proof.
    intros Hs He Hp Hl Hsup Hlen Hbz Hi.
    assert (Hi' : forall i x y, nth_error xs i = Some x -> nth_error ys i = Some y -> exists a d, int_ends len x y a d).
    { intros i x y Hx Hy. destruct (Hi i x y Hx Hy) as (a & d & A1 & A2 & A3 & A4 & A5). exists a, d.
      unfold int_ends, is_int. intuition. }
    clear Hi. destruct (c43_linspace o c s e ds xs ys len) as (zs & E & El & Ev); auto.
    - left. nia.
    - intros i x y Hx Hy. destruct (Hi' i x y Hx Hy) as (a & d & I1 & I2 & I3 & _). apply (le_int _ _ _ _ I1 I2). nia.
    - exists zs. split; [exact E|]. split; [exact El|]. intros k idx x y Hk Hx Hy.
      destruct (Hi' _ x y Hx Hy) as (a & d & I). pose proof (sample_int len k x y a d Hbz Hk I) as [S1 S2].
      rewrite (Ev k idx x y Hk Hx Hy). eexists. split; [reflexivity|]. split; [exact S1|].
      intros a' d' Ea Ed. rewrite S2. destruct I as ([_ I1] & [_ I2] & _).
      rewrite I1 in Ea. rewrite I2 in Ed. apply eq_IZR in Ea, Ed. subst a'. f_equal.
      destruct (Nat.eq_dec len 1) as [->|]; [replace k with 0 by lia; lia|]. assert (d = d') as -> by nia. reflexivity.
  Qed.

  Lemma c42_mgrid_b32 c M N :
    0 < M -> 0 < N -> supported [M; N] -> (Z.of_nat M <= 16777216)%Z -> (Z.of_nat N <= 16777216)%Z ->
    exists xs ys, mgrid o c M N = Ok [fresh [N; M] xs; fresh [N; M] ys] /\
      length xs = N * M /\ length ys = N * M /\
      forall i j, i < N -> j < M -> exists x y,
        elem [N; M] xs [i; j] = Some x /\ elem [N; M] ys [i; j] = Some y /\
        number x /\ B2R x = INR j /\ number y /\ B2R y = INR i.
  Proof.
    intros HM HN Hs BM BN.
    assert (Hgrid : forall n, 0 < n -> supported [n] -> (Z.of_nat n <= 16777216)%Z ->
      exists zs, (let* s := of_value c (fzero o) in
       let* e := of_value c (fsub o (fof o n) (fone o)) in
       linspace o c s e n) = Ok (fresh [n] zs) /\ length zs = n /\
       forall k, k < n -> exists z, nth_error zs k = Some z /\ is_int z (Z.of_nat k)).
    { intros n Hn Hsn Hb. cbn [of_value bind].
      set (e := fsub o (fof o n) (fone o)).
      assert (Ie : is_int e (Z.of_nat n - 1)) by (apply sub_int; [now apply fof_int|apply (int_of_Z 1); lia|lia]).
      assert (I : int_ends n (fzero o) e 0 1).
      { unfold int_ends. rewrite Z.mul_1_l, Z.add_0_l. repeat split; try apply Ie; lia. }
      destruct (c43_linspace o c (fresh [] [fzero o]) (fresh [] [e]) [] [fzero o] [e] n) as (zs & E & El & Ev).
      - apply repr_fresh; [split; cbn; lia|reflexivity].
      - apply repr_fresh; [split; cbn; lia|reflexivity].
      - cbn; lia.
      - cbn; lia.
      - auto.
      - left. cbn. lia.
      - intros [|[|i]] x y Hx Hy; cbn in Hx, Hy; try discriminate.
        injection Hx as <-. injection Hy as <-. destruct I as (I1 & I2 & _). apply (le_int _ _ _ _ I1 I2). lia.
      - cbn [prod] in El. rewrite Nat.mul_1_r in El. exists zs. split; [exact E|]. split; [exact El|].
        intros k Hk. specialize (Ev k [] _ _ Hk eq_refl eq_refl). unfold elem in Ev. cbn [ravel prod] in Ev.
        replace (k * 1 + 0) with k in Ev by lia. eexists. split; [exact Ev|].
        pose proof (sample_int n k _ _ 0 1 ltac:(lia) Hk I) as J. rewrite Z.mul_1_l, Z.add_0_l in J. exact J. }
    assert (HsM : supported [M]) by (destruct Hs as [_ Hb]; split; [cbn; lia|cbn [map prod] in *; nia]).
    assert (HsN : supported [N]) by (destruct Hs as [_ Hb]; split; [cbn; lia|cbn [map prod] in *; nia]).
    destruct (Hgrid M HM HsM BM) as (vM & EM & LM & VM). destruct (Hgrid N HN HsN BN) as (vN & EN & LN & VN).
    unfold mgrid. rewrite EM. cbn [bind]. rewrite EN. cbn [bind].
    destruct (c42_meshgrid_xy c [fresh [M] vM; fresh [N] vN] [vM; vN]) as (ts & E & El & Ev).
    - constructor; [|constructor; [|constructor]]; rewrite ?LM, ?LN; apply repr_fresh; auto; cbn [prod]; lia.
    - cbn [map]. now rewrite LM, LN.
    - constructor; [|constructor; [|constructor]]; intros Ex; rewrite Ex in *; cbn in *; lia.
    - destruct (Ev 0 vM eq_refl) as (xs & Ex & Lx & Hx). destruct (Ev 1 vN eq_refl) as (ys & Ey & Ly & Hy).
      cbn [map rev app] in Ex, Ey, Lx, Ly, Hx, Hy. rewrite LM, LN in *.
      exists xs, ys. destruct ts as [|t0 [|t1 [|]]]; try discriminate. cbn [nth_error] in Ex, Ey.
      injection Ex as ->. injection Ey as ->. split; auto. cbn [prod] in Lx, Ly.
      split; [lia|]. split; [lia|].
      intros i j Hi Hj. assert (Hin : in_shape [M; N] [j; i]) by (repeat constructor; auto).
      specialize (Hx _ Hin). specialize (Hy _ Hin). cbn [rev app nth] in Hx, Hy. rewrite Hx, Hy.
      destruct (VM j Hj) as (x & -> & X1 & X2). destruct (VN i Hi) as (y & -> & Y1 & Y2).
      exists x, y. rewrite !INR_IZR_INZ. auto 8.
  Qed.
End B32.
