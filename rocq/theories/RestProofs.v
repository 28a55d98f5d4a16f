(** * [idim] (C75), [Rand64::next_normal] (C56) and the remaining options (C57), proofs *)
From Coq Require Import Reals Lra.
From Flocq Require Import Core.Zaux Core.Raux Core.Generic_fmt Core.FLT Core.Round_NE IEEE754.BinarySingleNaN.
From Coq Require Import ZifyBool ZifyNat ZifyN.
From Verif Require Import Base ShapeModel TensorModel FloatModel RandomModel Rand64Model FromModel Spec FloatSpec BaseFacts ShapeFacts TensorFacts
  RandomProofs.

Lemma idim_wrap c ds i : length ds <= 6 -> ds <> [] ->
  (- 2 ^ 63 <= i)%Z -> (i + Z.of_nat (length ds) < 2 ^ 63)%Z ->
  idim c (canon ds) i = Ok (nth (Z.to_nat ((i + Z.of_nat (length ds)) mod 2 ^ 64 mod Z.of_nat (length ds))) ds 0).
Proof.
  intros Hl Hn H1 H2. assert (Hp : 0 < length ds) by (destruct ds; [congruence|cbn; lia]).
  unfold idim. change (rank (canon ds)) with (length ds). unfold iadd.
  assert (Ho : isize_ok (i + Z.of_nat (length ds)) = true) by (unfold isize_ok, two63; lia). cbv zeta. rewrite Ho. cbn [bind].
  unfold urem. replace (length ds =? 0) with false by lia. cbn [bind].
  rewrite dim_canon; [|exact Hl|apply Nat.mod_upper_bound; lia].
  f_equal. f_equal. unfold as_usize, two64.
  set (z := ((i + Z.of_nat (length ds)) mod 2 ^ 64)%Z).
  assert (Hz : (0 <= z)%Z) by (apply Z.mod_pos_bound; lia).
  apply Nat2Z.inj. rewrite Nat2Z.inj_mod, !Z2Nat.id; [reflexivity| |exact Hz].
  apply Z.mod_pos_bound. lia.
Qed.

Lemma c75_idim c ds i : length ds <= 6 -> (- 2 ^ 63 <= i)%Z -> (i + Z.of_nat (length ds) < 2 ^ 63)%Z ->
  let r := Z.of_nat (length ds) in
  (ds = [] -> idim c (canon ds) i = Panic) /\
  ((0 <= i < r)%Z -> idim c (canon ds) i = Ok (nth (Z.to_nat i) ds 0)) /\
  ((- r <= i < 0)%Z -> idim c (canon ds) i = Ok (nth (Z.to_nat (r + i)) ds 0)) /\
  (ds <> [] -> (r <= i)%Z -> idim c (canon ds) i = Ok (nth (Z.to_nat (i mod r)) ds 0)) /\
  (ds <> [] -> (i < - r)%Z -> idim c (canon ds) i = Ok (nth (Z.to_nat ((2 ^ 64 + i) mod r)) ds 0)).
Proof.
  intros Hl H1 H2 r. split; [|split; [|split; [|split]]].
  - intros ->. unfold idim, iadd. cbn [length] in H2. change (rank (canon [])) with 0.
    assert (Ho : isize_ok (i + Z.of_nat 0) = true) by (unfold isize_ok, two63; lia). cbv zeta. now rewrite Ho.
  - intros Hi. assert (Hn : ds <> []) by (intros ->; cbn in r; lia). rewrite idim_wrap by auto. fold r. do 3 f_equal.
    rewrite (Z.mod_small (i + r)) by lia. rewrite <- (Z.mul_1_l r) at 1. rewrite Z.mod_add by lia. apply Z.mod_small. lia.
  - intros Hi. assert (Hn : ds <> []) by (intros ->; cbn in r; lia). rewrite idim_wrap by auto. fold r. do 3 f_equal.
    rewrite (Z.mod_small (i + r)) by lia. rewrite Z.mod_small by lia. lia.
  - intros Hn Hi. assert (0 < length ds) by (destruct ds; [congruence|cbn; lia]). rewrite idim_wrap by auto. fold r. do 3 f_equal.
    rewrite (Z.mod_small (i + r)) by lia. rewrite <- (Z.mul_1_l r) at 1. now rewrite Z.mod_add by lia.
  - intros Hn Hi. assert (0 < length ds) by (destruct ds; [congruence|cbn; lia]). rewrite idim_wrap by auto. fold r. do 3 f_equal.
    replace ((i + r) mod 2 ^ 64)%Z with (2 ^ 64 + i + 1 * r)%Z; [now rewrite Z.mod_add by lia|].
    rewrite <- (Z.mod_add (i + r) 1 (2 ^ 64)) by lia. rewrite Z.mod_small; lia.
Qed.

Lemma c75_idim_refuted : exists ds i, (i < - Z.of_nat (length ds))%Z /\
  (forall c, exists v, idim c (canon ds) i = Ok v) /\
  exists v, idim dev (canon ds) i = Ok v /\ v <> nth (Z.to_nat (i mod Z.of_nat (length ds))) ds 0.
Proof.
  exists [2; 3; 5], (-4)%Z. split; [cbn; lia|].
  assert (E : forall c, idim c (canon [2; 3; 5]) (-4) = Ok 2).
  { intros c. rewrite idim_wrap; [reflexivity|cbn; lia|discriminate|easy|easy]. }
  split; [intros c; rewrite E; eauto|]. exists 2. split; [apply E|]. vm_compute. discriminate.
Qed.

Lemma sqrt_negative (x : b64) : x = B754_infinity true \/ (is_finite x = true /\ (B2R x < 0)%R) ->
  @Bsqrt 53 1024 b64_prec b64_emax mode_NE x = B754_nan.
Proof.
  intros [->|[F L]]; [reflexivity|]. destruct x as [s|s| |s m e H]; try discriminate; [exfalso; revert L; apply Rlt_irrefl|].
  destruct s; [reflexivity|]. exfalso. apply (Rlt_not_le _ _ L).
  change (0 <= Defs.F2R (Defs.Float radix2 (Z.pos m) e))%R. apply Float_prop.F2R_ge_0. cbn. lia.
Qed.

Lemma c56_rand64_normal_nan (ln_ cos_ : b64 -> b64) s :
  (forall x, is_finite x = true -> (1 < B2R x)%R -> is_finite (ln_ x) = true /\ (0 < B2R (ln_ x))%R) ->
  (2 ^ 32 <= snd (rand64_next s))%Z -> snd (rand64_normal_b64 ln_ cos_ s) = B754_nan.
Proof.
  intros Hln Hs. pose proof (c56_rand64_uniform_b64 s) as (Fu & _ & Hu). cbv zeta in *.
  unfold rand64_normal_b64. destruct (rand64_uniform_b64 s) as [s1 a]. cbn [snd] in Fu, Hu.
  destruct (rand64_uniform_b64 s1) as [s2 b]. cbn [snd].
  assert (Ha : (1 < B2R a)%R) by (apply Rnot_le_lt; intros L; apply Hu in L; lia).
  destruct (Hln a Fu Ha) as [Fl Pl]. set (l := ln_ a) in *. clearbody l.
  rewrite sqrt_negative; [reflexivity|].
  assert (E2 : B2R (b64_of_Z (-2) 0) = (-2)%R /\ is_finite (b64_of_Z (-2) 0) = true /\ Bsign (b64_of_Z (-2) 0) = true).
  { split; [|split; reflexivity]. transitivity (Defs.F2R (Defs.Float radix2 (-4503599627370496) (-51))); [reflexivity|].
    unfold Defs.F2R. cbn [Defs.Fnum Defs.Fexp]. change (bpow radix2 (-51)) with (/ IZR 2251799813685248)%R. lra. }
  destruct E2 as (R2 & F2 & S2). set (t := b64_of_Z (-2) 0) in *. clearbody t.
  pose proof (Bmult_correct 53 1024 b64_prec b64_emax mode_NE t l) as C. cbn [round_mode] in C.
  assert (Sl : Bsign l = false).
  { destruct l as [sg|sg| |sg m e H]; try discriminate; [exfalso; revert Pl; apply Rlt_irrefl|]. destruct sg; [|reflexivity].
    exfalso. apply (Rlt_not_le _ _ Pl). change (Defs.F2R (Defs.Float radix2 (Z.neg m) e) <= 0)%R.
    apply Float_prop.F2R_le_0. cbn. lia. }
  destruct (Rlt_bool (Rabs (round radix2 (SpecFloat.fexp 53 1024) ZnearestE (B2R t * B2R l))) (bpow radix2 1024)) eqn:B.
  - right. destruct C as (C1 & C2 & _). rewrite C1, C2, F2, Fl. split; [reflexivity|].
    assert (Vr : Valid_rnd ZnearestE) by apply (valid_rnd_round_mode mode_NE).
    assert (Ve : Valid_exp (SpecFloat.fexp 53 1024)) by (apply (fexp_correct 53 1024 b64_prec)).
    apply Rle_lt_trans with (- B2R l)%R; [|lra]. apply round_le_generic; [exact Ve|exact Vr| |rewrite R2; lra].
    apply generic_format_opp, generic_format_B2R.
  - left. rewrite S2, Sl in C. cbn [xorb] in C. unfold binary_overflow in C. cbn [overflow_to_inf] in C.
    destruct (Bmult mode_NE t l) as [sg|sg| |sg m e H]; cbn in C; try discriminate. congruence.
Qed.

Lemma c56_rand64_normal_draws (ln_ cos_ : b64 -> b64) {F} (o : rops F) s :
  fst (rand64_normal_b64 ln_ cos_ s) = fst (rand64_next (fst (rand64_next s))) /\
  rand64_normal o s =
  (let a := snd (rand64_uniform o s) in let b := snd (rand64_uniform o (fst (rand64_next s))) in
   (fst (rand64_next (fst (rand64_next s))),
    fmul (rbase o) (fsqrt (rbase o) (fmul (rbase o) (rneg2 o) (fln (rbase o) a))) (rcos o (fmul (rbase o) (rtau o) b)))).
Proof. split; reflexivity. Qed.

Lemma c57_defaults {F} (f : fops F) (m d : F) s :
  normal_default f = mkNormal (fzero f) (fone f) None /\ normal_std f d = mkNormal (fzero f) d None /\
  normal_of_seed f s = mkNormal (fzero f) (fone f) s /\
  uniform_default f = mkUniform (fzero f) (fone f) None /\ uniform_of_seed f s = mkUniform (fzero f) (fone f) s /\
  with_std (normal_mean f m) d = with_mean (normal_std f d) m /\
  with_max (uniform_min f m) d = with_min (uniform_max f d) m.
Proof. repeat split. Qed.

Lemma c75_conversions {A} c (t : tensor A) (ts : list (tensor A)) (text : A) :
  of_tensor_ref t = t /\ of_str c text = Ok (fresh [] [text]) /\ of_tensor_vec c ts = of_tensors c ts.
Proof. repeat split. Qed.

Lemma tau64_near : (Rabs (7074237752028440 * / 2 ^ 50 - 2 * PI) <= / 2 ^ 51)%R.
Proof.
  destruct (PI_2_3_7_ineq 8) as [A B].
  cbn [Nat.mul Nat.add sum_f_R0] in A, B. unfold tg_alt, PI_2_3_7_tg, Ratan_seq in A, B.
  cbn [pow Nat.mul Nat.add INR] in A, B.
  apply Rabs_le. simpl. split; lra.
Qed.

Lemma c56_rand64_normal_value :
  exists m2 tau : b64, is_finite m2 = true /\ B2R m2 = (-2)%R /\ is_finite tau = true /\ (Rabs (B2R tau - 2 * PI) <= / 2 ^ 51)%R /\
  forall (ln_ cos_ : b64 -> b64) s,
    let mul := @Bmult 53 1024 b64_prec b64_emax mode_NE in
    let a := snd (rand64_uniform_b64 s) in
    let b := snd (rand64_uniform_b64 (fst (rand64_next s))) in
    snd (rand64_normal_b64 ln_ cos_ s) = mul (@Bsqrt 53 1024 b64_prec b64_emax mode_NE (mul m2 (ln_ a))) (cos_ (mul tau b)).
Proof.
  exists (b64_of_Z (-2) 0), (b64_of_Z 7074237752028440 (-50)).
  assert (E1 : B2SF (b64_of_Z (-2) 0) = SpecFloat.S754_finite true 4503599627370496 (-51)) by (vm_compute; reflexivity).
  assert (E2 : B2SF (b64_of_Z 7074237752028440 (-50)) = SpecFloat.S754_finite false 7074237752028440 (-50)) by (vm_compute; reflexivity).
  split; [rewrite <- is_finite_SF_B2SF, E1; reflexivity|].
  split; [rewrite <- SF2R_B2SF, E1; cbn; unfold Defs.F2R; cbn; lra|].
  split; [rewrite <- is_finite_SF_B2SF, E2; reflexivity|].
  split; [|intros; reflexivity].
  rewrite <- SF2R_B2SF, E2. pose proof tau64_near as T.
  replace (SF2R radix2 (SpecFloat.S754_finite false 7074237752028440 (-50))) with (7074237752028440 * / 2 ^ 50)%R; [exact T|].
  cbn. unfold Defs.F2R. cbn. lra.
Qed.
