(** * The error of [geomspace] in binary32 (C80), proofs *)
From Coq Require Import Reals Lra.
From Flocq Require Import Core.Zaux Core.Raux Core.Defs Core.Float_prop Core.Generic_fmt Core.FLT Core.Round_NE Relative IEEE754.BinarySingleNaN.
From Coq Require Import ZifyBool ZifyNat ZifyN.
From Verif Require Import Base ShapeModel TensorModel FloatModel InitModel
  Spec FloatSpec BaseFacts ShapeFacts TensorFacts RealFacts InitSpec InitFacts InitProofs RoundSpec RoundFacts WelfordProofs
  NormalSpec HistProofs RangeProofs NormalProofs.
Local Open Scope R_scope.

(** Every value of the format below 2^128 is a number. *)
Lemma format_number v : fmt v -> Rabs v < bpow radix2 128 -> exists z : b32, number z /\ B2R z = v.
Proof.
  intros Hf Hv. pose proof (binary_normalize_correct 24 128 b32_prec b32_emax mode_NE
    (Ztrunc (scaled_mantissa radix2 (SpecFloat.fexp 24 128) v)) (cexp radix2 (SpecFloat.fexp 24 128) v) false) as H.
  cbv zeta in H. change (F2R _) with (F2R (Float radix2 (Ztrunc (scaled_mantissa radix2 (SpecFloat.fexp 24 128) v)) (cexp radix2 (SpecFloat.fexp 24 128) v))) in H.
  assert (E : F2R (Float radix2 (Ztrunc (scaled_mantissa radix2 (SpecFloat.fexp 24 128) v)) (cexp radix2 (SpecFloat.fexp 24 128) v)) = v)
    by (symmetry; exact Hf).
  rewrite E, round_generic in H by (try apply valid_rnd_round_mode; exact Hf).
  rewrite Rlt_bool_true in H by exact Hv. destruct H as (H1 & H2 & _). eexists. split; [exact H2|exact H1].
Qed.

Lemma faithful_between r y lo hi : faithful r y -> fmt lo -> fmt hi -> Rabs lo < bpow radix2 128 -> Rabs hi < bpow radix2 128 ->
  lo <= r <= hi -> lo <= B2R y <= hi.
Proof.
  intros [_ H] Fl Fh Al Ah [H1 H2].
  destruct (format_number lo Fl Al) as (zl & Nl & El). destruct (format_number hi Fh Ah) as (zh & Nh & Eh).
  split; [rewrite <- El; apply (H zl Nl); now rewrite El|rewrite <- Eh; apply (H zh Nh); now rewrite Eh].
Qed.

(** Relative error in the normal range. *)
Lemma faithful_rel r y : faithful r y -> bpow radix2 (-126) <= r <= bpow radix2 126 -> Rabs (B2R y - r) <= / 2 ^ 23 * r.
Proof.
  intros H [H1 H2]. pose proof (bpow_gt_0 radix2 (-126)) as P.
  assert (Hr : bpow radix2 (-149 + 24 - 1) <= Rabs r) by (rewrite Rabs_pos_eq by lra; exact H1).
  pose proof (relative_error_FLT radix2 (-149) 24 ltac:(reflexivity) Zfloor r Hr) as Ed.
  pose proof (relative_error_FLT radix2 (-149) 24 ltac:(reflexivity) Zceil r Hr) as Eu.
  change (FLT_exp (-149) 24) with (SpecFloat.fexp 24 128) in Ed, Eu.
  set (d := round radix2 (SpecFloat.fexp 24 128) Zfloor r) in *. set (u := round radix2 (SpecFloat.fexp 24 128) Zceil r) in *.
  rewrite (Rabs_pos_eq r) in Ed, Eu by lra.
  assert (Kb : bpow radix2 (Z.opp 24 + 1) = / 2 ^ 23) by (cbn; lra). rewrite Kb in Ed, Eu. clear Kb.
  apply Rabs_def2 in Ed. apply Rabs_def2 in Eu.
  assert (B : 2 * bpow radix2 126 < bpow radix2 128).
  { change 2 with (bpow radix2 1). rewrite <- bpow_plus. apply bpow_lt. lia. }
  assert (Hdr : d <= r) by (apply round_DN_pt; apply fexp_correct; reflexivity).
  assert (Hur : r <= u) by (apply round_UP_pt; apply fexp_correct; reflexivity).
  assert (K : / 2 ^ 23 <= / 2) by (apply Rinv_le_contravar; [lra|simpl; lra]).
  assert (K0 : 0 < / 2 ^ 23) by (apply Rinv_0_lt_compat, pow_lt; lra).
  assert (Kr : / 2 ^ 23 * r <= / 2 * r) by (apply Rmult_le_compat_r; lra).
  pose proof (faithful_between r y d u H) as Q.
  assert (d <= B2R y <= u).
  { apply Q; [apply generic_format_round; [now apply fexp_correct|apply valid_rnd_DN]
             |apply generic_format_round; [now apply fexp_correct|apply valid_rnd_UP]
             |apply Rabs_def1; lra|apply Rabs_def1; lra|lra]. }
  apply Rabs_le. lra.
Qed.

(** Absolute error below 128. *)
Lemma faithful_abs r y : faithful r y -> Rabs r <= 100 -> Rabs (B2R y - r) <= / 2 ^ 17.
Proof.
  intros H Hr. apply Rabs_le_inv in Hr.
  assert (F : forall m, (Z.abs m <= 16777216)%Z -> fmt (IZR m * / 131072)).
  { intros m Hm. replace (IZR m * / 131072) with (F2R (Float radix2 m (-17))) by (unfold F2R; cbn; lra).
    apply (generic_format_FLT radix2 (-149) 24). destruct (Z.eq_dec (Z.abs m) 16777216) as [E|E].
    - exists (Float radix2 (Z.sgn m) 7); [|cbn [Fnum]; change (Zpower radix2 24) with 16777216%Z; lia|cbn; lia].
      assert (m = Z.sgn m * 16777216)%Z as -> by lia. rewrite Z.sgn_mul. change (Z.sgn 16777216) with 1%Z. rewrite Z.mul_1_r, Z.sgn_sgn.
      unfold F2R. cbn [Fnum Fexp]. rewrite mult_IZR. cbn. lra.
    - exists (Float radix2 m (-17)); [reflexivity|cbn [Fnum]; change (Zpower radix2 24) with 16777216%Z; lia|cbn; lia]. }
  set (q := r * 131072). pose proof (Zfloor_lb q) as L1. pose proof (Zfloor_ub q) as L2. pose proof (Zceil_ub q) as U1. pose proof (Zceil_lb q) as U2.
  assert (P : 2 ^ 17 = 131072) by (simpl; lra). unfold q in *.
  assert (Bf : (-16777216 <= Zfloor (r * 131072) <= 16777216)%Z).
  { split; apply le_IZR; lra. }
  assert (Bc : (-16777216 <= Zceil (r * 131072) <= 16777216)%Z).
  { split; apply le_IZR; lra. }
  assert (B : 200 < bpow radix2 128).
  { apply Rlt_trans with (bpow radix2 8); [change (bpow radix2 8) with 256; lra|apply bpow_lt; lia]. }
  destruct (faithful_between r y (IZR (Zfloor (r * 131072)) * / 131072) (IZR (Zceil (r * 131072)) * / 131072) H) as [Q1 Q2].
  - apply F. lia.
  - apply F. lia.
  - apply Rabs_def1; lra.
  - apply Rabs_def1; lra.
  - lra.
  - rewrite P. apply Rabs_le. lra.
Qed.

Section Sample.
  Context (ln_ exp_ : b32 -> b32) (pow_ : b32 -> b32 -> b32).
  Notation o := (b32_ops ln_ exp_ pow_).

  (** The sample of [linspace] between numbers of magnitude at most 73. *)
  Lemma sample_near (A B : b32) len k : number A -> number B -> Rabs (B2R A) <= 73 -> Rabs (B2R B) <= 73 -> B2R A <= B2R B ->
    (2 <= len)%nat -> (Z.of_nat len <= 16777217)%Z -> (k < len)%nat ->
    let S := fadd o A (fmul o (if (1 <? len)%nat then fdiv o (fsub o B A) (fof o (len - 1)) else fzero o) (fof o k)) in
    number S /\ Rabs (B2R S - (B2R A + (B2R B - B2R A) * INR k / INR (len - 1))) <= / 2 ^ 14.
  Proof.
    intros NA NB HA HB Hle Hlen Hbz Hk S. unfold S. clear S. apply Rabs_le_inv in HA, HB.
    destruct (Nat.ltb_spec 1 len) as [_|]; [|lia]. set (n := (len - 1)%nat) in *.
    assert (B126 : 1000 <= bpow radix2 126).
    { apply Rle_trans with (bpow radix2 10); [change (bpow radix2 10) with 1024; lra|apply bpow_le; lia]. }
    destruct (b32_of_Z_exact (Z.of_nat n) ltac:(lia)) as (Rn & Nn & _).
    destruct (b32_of_Z_exact (Z.of_nat k) ltac:(lia)) as (Rk & Nk & _).
    change (b32_of_Z (Z.of_nat n) 0) with (fof o n) in Rn, Nn. change (b32_of_Z (Z.of_nat k) 0) with (fof o k) in Rk, Nk.
    rewrite <- INR_IZR_INZ in Rn, Rk. assert (Pn : 0 < INR n) by (apply lt_0_INR; lia).
    assert (Pk : 0 <= INR k <= INR n) by (split; [apply pos_INR|apply le_INR; lia]).
    assert (In : 0 < / INR n) by now apply Rinv_0_lt_compat.
    pose proof u32_pos as U. assert (U24 : u32 = / 16777216) by (unfold u32; simpl; lra).
    pose proof tiny_pos as T. assert (Ts : tiny <= / 2 ^ 60).
    { unfold tiny. apply Rinv_le_contravar; [apply pow_lt; lra|apply Rle_pow; [lra|lia]]. }
    assert (Ts' : / 2 ^ 60 * 1000000000000000000 <= 1) by (simpl; lra).
    assert (ND : number (fsub o B A)).
    { pose proof (Bminus_correct 24 128 b32_prec b32_emax mode_NE B A NB NA) as C.
      rewrite Rlt_bool_true in C; [unfold number; cbn [fsub b32_ops]; tauto|].
      apply Rle_lt_trans with (bpow radix2 126); [|apply bpow_lt; lia].
      apply abs_round_le_generic; [now apply fexp_correct|apply valid_rnd_N|apply generic_format_bpow; cbn; lia|].
      apply Rabs_le. lra. }
    destruct (step_number ln_ exp_ pow_ A B n NA Hle ND ltac:(lia) ltac:(lia)) as [Ns _].
    destruct (div_number ln_ exp_ pow_ (fsub o B A) (fof o n) ltac:(lra) Ns) as [_ RS]. rewrite Rn in RS.
    destruct (sub_number ln_ exp_ pow_ B A ND) as (_ & _ & RD).
    destruct (sub_rel B A NB NA) as (e1 & H1 & E1). rewrite E1 in RD.
    destruct (rnd_error (B2R (fsub o B A) / INR n)) as (e2 & h2 & H2 & K2 & E2). rewrite E2, RD in RS.
    set (s := fdiv o (fsub o B A) (fof o n)) in *.
    set (q := INR k / INR n). assert (Hq : 0 <= q <= 1).
    { unfold q, Rdiv. split; [apply Rmult_le_pos; lra|]. apply Rmult_le_reg_r with (INR n); [lra|].
      rewrite Rmult_assoc, Rinv_l by lra. lra. }
    set (D := B2R B - B2R A) in *. assert (HD : 0 <= D <= 146) by (unfold D; lra).
    assert (Hw : 0 <= D * q <= 146).
    { split; [apply Rmult_le_pos; lra|]. apply Rle_trans with (D * 1); [apply Rmult_le_compat_l; lra|lra]. }
    assert (Hk24 : INR k <= 16777216).
    { rewrite INR_IZR_INZ. apply IZR_le. lia. }
    assert (Esk : B2R s * B2R (fof o k) = D * q * ((1 + e1) * (1 + e2)) + h2 * INR k).
    { rewrite RS, Rk. unfold q. field. lra. }
    assert (Hh2 : Rabs (h2 * INR k) <= 1).
    { rewrite Rabs_mult, (Rabs_pos_eq (INR k)) by lra.
      apply Rle_trans with (/ 2 ^ 60 * 16777216); [apply Rmult_le_compat; try lra; apply Rabs_pos|lra]. }
    assert (Hsk : Rabs (B2R s * B2R (fof o k)) <= 1000).
    { rewrite Esk. apply Rle_trans with (1 := Rabs_triang _ _).
      assert (Rabs (D * q * ((1 + e1) * (1 + e2))) <= 146 * (2 * 2)); [|lra].
      apply Rabs_le_inv in H1, H2.
      rewrite !Rabs_mult. rewrite <- Rabs_mult, (Rabs_pos_eq (D * q)) by lra.
      rewrite !Rabs_pos_eq by lra. apply Rmult_le_compat; try lra.
      - apply Rmult_le_pos; lra.
      - apply Rmult_le_compat; lra. }
    destruct (mul_ok ln_ exp_ pow_ s (fof o k) Ns Nk ltac:(lra)) as [NP RP].
    destruct (rnd_error (B2R s * B2R (fof o k))) as (e3 & h3 & H3 & K3 & E3). rewrite E3 in RP.
    set (P := fmul o s (fof o k)) in *.
    assert (HP : Rabs (B2R P) <= 2002).
    { rewrite RP. apply Rle_trans with (1 := Rabs_triang _ _). rewrite Rabs_mult.
      assert (Rabs (1 + e3) <= 2) by (apply Rabs_le_inv in H3; apply Rabs_le; lra).
      assert (Rabs (B2R s * B2R (fof o k)) * Rabs (1 + e3) <= 1000 * 2) by (apply Rmult_le_compat; auto using Rabs_pos).
      lra. }
    assert (NS : number (fadd o A P)).
    { apply add_ok; auto. apply Rle_trans with (1 := Rabs_triang _ _). assert (Rabs (B2R A) <= 73) by (apply Rabs_le; lra).
      apply Rle_trans with (bpow radix2 12); [change (bpow radix2 12) with 4096; lra|apply bpow_le; lia]. }
    split; [exact NS|].
    destruct (add_error ln_ exp_ pow_ _ _ NS) as (e4 & H4 & R4).
    replace (B2R A + D * INR k / INR n) with (B2R A + D * q) by (unfold q; field; lra).
    assert (EP : B2R P = D * q * ((1 + e1) * (1 + e2) * (1 + e3)) + h2 * INR k * (1 + e3) + h3) by (rewrite RP, Esk; ring).
    pose proof (sample_algebra (B2R A) (D * q) (INR k) e1 e2 e3 e4 h2 h3 (B2R P) _ (proj1 Pk) H1 H2 H3 H4 K2 K3 EP R4) as Hs.
    apply Rle_trans with (1 := Hs).
    assert (HAw : Rabs (B2R A + D * q) <= 73).
    { assert (D * q <= D) by (rewrite <- (Rmult_1_r D) at 2; apply Rmult_le_compat_l; lra). apply Rabs_le. unfold D in *. lra. }
    rewrite (Rabs_pos_eq (D * q)) by lra.
    assert (T1 : (INR k * (1 + u32) + 1) * tiny <= / 1000000000).
    { apply Rle_trans with (40000000 * / 2 ^ 60); [|lra]. apply Rmult_le_compat; try lra.
      - assert (0 <= INR k * (1 + u32)) by (apply Rmult_le_pos; lra). lra.
      - assert (INR k * (1 + u32) <= 16777216 * 2) by (apply Rmult_le_compat; lra). lra. }
    assert (T2 : ((1 + u32) ^ 3 - 1) * (D * q) <= (4 * u32) * 146).
    { apply Rmult_le_compat; try lra; rewrite U24; simpl; lra. }
    assert (T3 : u32 * Rabs (B2R A + D * q) <= u32 * 73) by (apply Rmult_le_compat_l; lra).
    apply Rle_trans with (u32 * 73 + (1 + u32) * (4 * u32 * 146 + / 1000000000)).
    { apply Rplus_le_compat; [exact T3|]. apply Rmult_le_compat_l; [lra|]. lra. }
    rewrite U24. simpl. lra.
  Qed.
End Sample.

Lemma ln_bound x : / 2 ^ 100 <= x <= 2 ^ 100 -> Rabs (ln x) <= 72.
Proof.
  intros [H1 H2]. assert (P : 0 < 2 ^ 100) by (apply pow_lt; lra). assert (P' : 0 < / 2 ^ 100) by now apply Rinv_0_lt_compat.
  assert (M : forall a b, 0 < a -> a <= b -> ln a <= ln b).
  { intros a b Ha [Hb|Hb]; [left; now apply ln_increasing|rewrite Hb; lra]. }
  pose proof (M _ _ P' H1) as L1. pose proof (M x (2 ^ 100) ltac:(lra) H2) as L2.
  rewrite ln_Rinv in L1 by exact P. rewrite ln_pow in L1, L2 by lra. rewrite INR_IZR_INZ in L1, L2.
  change (IZR (Z.of_nat 100)) with 100 in L1, L2. pose proof ln2_le. apply Rabs_le. lra.
Qed.

Lemma exp_near t d : Rabs t <= d -> d <= / 2 -> Rabs (exp t - 1) <= d * (1 + 2 * d).
Proof.
  intros Ht Hd. apply Rabs_le_inv in Ht. pose proof (exp_ineq1_le t) as H1. pose proof (exp_ineq1_le (- t)) as H2.
  rewrite exp_Ropp in H2. pose proof (exp_pos t) as P.
  assert (H3 : (1 + - t) * exp t <= 1).
  { apply Rmult_le_compat_r with (r := exp t) in H2; [|lra]. rewrite Rinv_l in H2 by lra. exact H2. }
  assert (H4 : exp t <= 1 + d * (1 + 2 * d)).
  { apply Rmult_le_reg_l with (1 - d); [lra|]. apply Rle_trans with ((1 + - t) * exp t).
    - apply Rmult_le_compat_r; lra.
    - apply Rle_trans with (1 := H3). nra. }
  assert (0 <= d * (2 * d)) by nra. apply Rabs_le. lra.
Qed.

Section Geom.
  Context (ln_ exp_ : b32 -> b32) (pow_ : b32 -> b32 -> b32).
  Notation o := (b32_ops ln_ exp_ pow_).
  Context (Hln : forall x, number x -> 0 < B2R x -> faithful (ln (B2R x)) (ln_ x))
          (Hexp : forall x, number x -> exp (B2R x) <= 2 ^ 126 -> faithful (exp (B2R x)) (exp_ x)).

  Lemma geom_sample (x y : b32) len k : number x -> number y -> / 2 ^ 100 <= B2R x <= B2R y -> B2R y <= 2 ^ 100 ->
    B2R (ln_ x) <= B2R (ln_ y) ->
    (2 <= len)%nat -> (Z.of_nat len <= 16777217)%Z -> (k < len)%nat ->
    let z := space_value o (fln o) (fexp o) len x y k in
    let r := B2R x * Rpower (B2R y / B2R x) (INR k / INR (len - 1)) in
    number z /\ Rabs (B2R z - r) <= / 2 ^ 13 * r.
  Proof.
    intros Nx Ny Hx Hy Hmon Hlen Hbz Hk. cbv zeta.
    assert (P' : 0 < / 2 ^ 100) by (apply Rinv_0_lt_compat, pow_lt; lra).
    set (a := ln (B2R x)). set (b := ln (B2R y)).
    assert (Ha : Rabs a <= 72) by (apply ln_bound; lra). assert (Hb : Rabs b <= 72) by (apply ln_bound; lra).
    assert (Hab : a <= b).
    { unfold a, b. destruct (proj2 Hx) as [L|E]; [left; apply ln_increasing; lra|rewrite E; lra]. }
    pose proof (Hln x Nx ltac:(lra)) as FA. pose proof (Hln y Ny ltac:(lra)) as FB.
    pose proof (faithful_abs _ _ FA ltac:(fold a; lra)) as EA. pose proof (faithful_abs _ _ FB ltac:(fold b; lra)) as EB.
    fold a in EA. fold b in EB.
    assert (P17 : / 2 ^ 17 = / 131072) by (simpl; lra). rewrite P17 in EA, EB.
    apply Rabs_le_inv in Ha, Hb, EA, EB.
    destruct (sample_near ln_ exp_ pow_ (ln_ x) (ln_ y) len k) as [NS ES]; auto; try apply FA; try apply FB; try (apply Rabs_le; lra).
    unfold space_value. cbn [fln fexp b32_ops]. change (@Bplus 24 128 b32_prec b32_emax mode_NE) with (fadd o) in *.
    set (S := fadd o (ln_ x) _) in NS, ES. 
    match goal with |- number (exp_ ?s) /\ _ => change s with S end.
    set (n := (len - 1)%nat) in *. assert (Pn : 0 < INR n) by (apply lt_0_INR; lia).
    set (q := INR k / INR n).
    assert (Hq : 0 <= q <= 1).
    { assert (Pk : 0 <= INR k <= INR n) by (split; [apply pos_INR|apply le_INR; lia]).
      assert (In : 0 < / INR n) by now apply Rinv_0_lt_compat.
      unfold q, Rdiv. split; [apply Rmult_le_pos; lra|]. apply Rmult_le_reg_r with (INR n); [lra|].
      rewrite Rmult_assoc, Rinv_l by lra. lra. }
    replace ((B2R (ln_ y) - B2R (ln_ x)) * INR k / INR n) with ((B2R (ln_ y) - B2R (ln_ x)) * q) in ES by (unfold q; field; lra).
    set (L := a + (b - a) * q).
    assert (Er : B2R x * Rpower (B2R y / B2R x) q = exp L).
    { unfold L, Rpower. rewrite ln_div by lra. rewrite exp_plus. unfold a at 1. rewrite exp_ln by lra.
      fold a. fold b. f_equal. f_equal. ring. }
    rewrite Er. set (r := exp L).
    assert (HL : a <= L <= b).
    { unfold L. assert (0 <= (b - a) * q) by (apply Rmult_le_pos; lra).
      assert ((b - a) * q <= (b - a) * 1) by (apply Rmult_le_compat_l; lra). lra. }
    assert (Me : forall u v, u <= v -> exp u <= exp v).
    { intros u v [H|H]; [left; now apply exp_increasing|rewrite H; lra]. }
    assert (Hr : B2R x <= r <= B2R y).
    { pose proof (Me _ _ (proj1 HL)) as G1. pose proof (Me _ _ (proj2 HL)) as G2. unfold a, b in G1, G2. rewrite exp_ln in G1, G2 by lra. split; assumption. }
    assert (HSL : Rabs (B2R S - L) <= / 10000).
    { replace (B2R S - L) with ((B2R S - (B2R (ln_ x) + (B2R (ln_ y) - B2R (ln_ x)) * q)) +
        ((B2R (ln_ x) - a) * (1 - q) + (B2R (ln_ y) - b) * q)) by (unfold L; ring).
      apply Rle_trans with (1 := Rabs_triang _ _).
      assert (Rabs ((B2R (ln_ x) - a) * (1 - q) + (B2R (ln_ y) - b) * q) <= / 131072).
      { apply Rabs_le. split; nra. }
      assert (P14 : / 2 ^ 14 = / 16384) by (simpl; lra). lra. }
    assert (ESr : exp (B2R S) = r * exp (B2R S - L)).
    { unfold r. rewrite <- exp_plus. f_equal. ring. }
    pose proof (exp_near _ _ HSL ltac:(lra)) as En. apply Rabs_le_inv in En.
    assert (Pr : 0 < r) by apply exp_pos.
    set (t := exp (B2R S - L)) in *.
    assert (Ht : 1 - / 9000 <= t <= 1 + / 9000) by lra. clear En.
    assert (Hrt : r * (1 - / 9000) <= r * t <= r * (1 + / 9000)) by (split; apply Rmult_le_compat_l; lra).
    assert (Rng : bpow radix2 (-126) <= exp (B2R S) <= bpow radix2 126).
    { rewrite ESr. assert (B1 : bpow radix2 (-126) <= / 2 * / 2 ^ 100).
      { replace (/ 2 * / 2 ^ 100) with (bpow radix2 (-101)) by (rewrite <- Rinv_mult; cbn; lra). apply bpow_le. lia. }
      assert (B2 : 2 * 2 ^ 100 <= bpow radix2 126).
      { replace (2 * 2 ^ 100) with (bpow radix2 101) by (cbn; lra). apply bpow_le. lia. }
      split; lra. }
    assert (F : faithful (exp (B2R S)) (exp_ S)).
    { apply Hexp; [exact NS|]. apply Rle_trans with (1 := proj2 Rng). right. cbn. lra. }
    split; [apply F|].
    pose proof (faithful_rel _ _ F Rng) as Ez. rewrite ESr in Ez.
    assert (K : / 2 ^ 23 <= / 8000000) by (simpl; lra). assert (K0 : 0 < / 2 ^ 23) by (apply Rinv_0_lt_compat, pow_lt; lra).
    assert (Ez2 : / 2 ^ 23 * (r * t) <= / 8000000 * (2 * r)) by (apply Rmult_le_compat; lra).
    apply Rabs_le_inv in Ez. assert (K13 : / 2 ^ 13 = / 8192) by (simpl; lra). rewrite K13.
    apply Rabs_le. lra.
  Qed.

  Lemma c80_geomspace_error c (s e : tensor b32) ds x y len :
    repr s ds [x] -> repr e ds [y] -> supported [len] -> (2 <= len)%nat -> (Z.of_nat len <= 16777217)%Z ->
    number x -> number y -> / 2 ^ 100 <= B2R x <= B2R y -> B2R y <= 2 ^ 100 -> B2R (ln_ x) <= B2R (ln_ y) ->
    exists zs, geomspace o c s e len = Ok (fresh [len] zs) /\ length zs = len /\
      forall k, (k < len)%nat -> exists z, nth_error zs k = Some z /\ number z /\
        let r := B2R x * Rpower (B2R y / B2R x) (INR k / INR (len - 1)) in Rabs (B2R z - r) <= / 2 ^ 13 * r.
  Proof.
    intros Hs He Hsup H2 Hbz Nx Ny Hx Hy Hmon. pose proof (repr_len _ _ _ Hs) as Lx. cbn [length] in Lx.
    assert (P' : 0 < / 2 ^ 100) by (apply Rinv_0_lt_compat, pow_lt; lra).
    destruct (geomspace_repr o c s e ds [x] [y] len) as (zs & E & El & Ev); auto.
    - lia.
    - left. nia.
    - intros [|[|i]] x' y' Hx' Hy'; cbn in Hx', Hy'; try discriminate.
      injection Hx' as <-. injection Hy' as <-. cbn [fle fln b32_ops].
      rewrite Bleb_correct; [now apply Rle_bool_true|apply (Hln x Nx); lra|apply (Hln y Ny); lra].
    - unfold geom_dims in E. rewrite <- Lx in E. change (1 =? 1)%nat with true in E. cbv iota in E.
      exists zs. split; [exact E|]. split; [lia|]. intros k Hk. specialize (Ev k 0%nat x y Hk eq_refl eq_refl).
      replace (k * prod ds + 0)%nat with k in Ev by (rewrite <- Lx; lia).
      destruct (geom_sample x y len k Nx Ny Hx Hy Hmon H2 Hbz Hk) as [G1 G2].
      eexists. split; [exact Ev|]. split; [exact G1|exact G2].
  Qed.

  Lemma c80_geomspace_batch c (s e : tensor b32) ds xs ys len :
    repr s ds xs -> repr e ds ys -> (1 < prod ds)%nat -> (length ds < 5)%nat -> supported (len :: ds) ->
    (2 <= len)%nat -> (Z.of_nat len <= 16777217)%Z ->
    (forall i x y, nth_error xs i = Some x -> nth_error ys i = Some y ->
       number x /\ number y /\ / 2 ^ 100 <= B2R x <= B2R y /\ B2R y <= 2 ^ 100 /\ B2R (ln_ x) <= B2R (ln_ y)) ->
    exists zs, geomspace o c s e len = Ok (fresh (len :: ds) zs) /\ length zs = prod (len :: ds) /\
      forall k idx x y, (k < len)%nat -> elem ds xs idx = Some x -> elem ds ys idx = Some y ->
        exists z, elem (len :: ds) zs (k :: idx) = Some z /\ number z /\
          let r := B2R x * Rpower (B2R y / B2R x) (INR k / INR (len - 1)) in Rabs (B2R z - r) <= / 2 ^ 13 * r.
  Proof.
    intros Hs He Hp Hl Hsup H2 Hbz Hi.
    assert (P' : 0 < / 2 ^ 100) by (apply Rinv_0_lt_compat, pow_lt; lra).
    destruct (geomspace_repr o c s e ds xs ys len) as (zs & E & El & Ev); auto.
    - lia.
    - left. nia.
    - intros i x y Hx Hy. destruct (Hi i x y Hx Hy) as (Nx & Ny & Rx & Ry & Hmon). cbn [fle fln b32_ops].
      rewrite Bleb_correct; [now apply Rle_bool_true|apply (Hln x Nx); lra|apply (Hln y Ny); lra].
    - unfold geom_dims in E. destruct (Nat.eqb_spec (prod ds) 1); [lia|].
      exists zs. split; [exact E|]. split; [cbn [prod]; lia|]. intros k idx x y Hk Hx Hy.
      destruct (Hi _ x y Hx Hy) as (Nx & Ny & Rx & Ry & Hmon).
      destruct (geom_sample x y len k Nx Ny Rx Ry Hmon H2 Hbz Hk) as [G1 G2].
      unfold elem. cbn [ravel]. rewrite (Ev k _ x y) by auto. eexists. split; [reflexivity|]. split; [exact G1|exact G2].
  Qed.
End Geom.

Section Log.
  Context (ln_ exp_ : b32 -> b32) (pow_ : b32 -> b32 -> b32).
  Notation o := (b32_ops ln_ exp_ pow_).
  Context (Hpow : forall x y, number x -> number y -> 0 < B2R x -> Rpower (B2R x) (B2R y) <= 2 ^ 127 ->
             faithful (Rpower (B2R x) (B2R y)) (pow_ x y)).

  Lemma ln16 v : / 16 <= v <= 16 -> Rabs (ln v) <= 23 / 8.
  Proof.
    intros [H1 H2].
    assert (M : forall a b, 0 < a -> a <= b -> ln a <= ln b).
    { intros a b Ha [Hb|Hb]; [left; now apply ln_increasing|rewrite Hb; lra]. }
    pose proof (M (/ 16) v ltac:(lra) H1) as L1. pose proof (M v 16 ltac:(lra) H2) as L2.
    rewrite ln_Rinv in L1 by lra. replace 16 with (2 ^ 4) in L1, L2 by (simpl; lra). rewrite ln_pow in L1, L2 by lra.
    rewrite INR_IZR_INZ in L1, L2. change (IZR (Z.of_nat 4)) with 4 in L1, L2. pose proof ln2_le. apply Rabs_le. lra.
  Qed.

  Lemma log_sample (x y b : b32) len k : number x -> number y -> number b -> / 16 <= B2R b <= 16 ->
    -25 <= B2R x <= B2R y -> B2R y <= 25 ->
    (2 <= len)%nat -> (Z.of_nat len <= 16777217)%Z -> (k < len)%nat ->
    let z := fpow o b (space_value o (fun x => x) (fun x => x) len x y k) in
    let r := Rpower (B2R b) (B2R x + INR k * (B2R y - B2R x) / INR (len - 1)) in
    number z /\ Rabs (B2R z - r) <= / 2 ^ 12 * r.
  Proof.
    intros Nx Ny Nb Hb Hx Hy Hlen Hbz Hk. cbv zeta.
    destruct (sample_near ln_ exp_ pow_ x y len k) as [NS ES]; auto; try (apply Rabs_le; lra); try lra.
    fold (space_value o (fun x => x) (fun x => x) len x y k) in NS, ES.
    set (S := space_value o (fun x => x) (fun x => x) len x y k) in *.
    pose proof (ln16 _ Hb) as Hl. set (l := ln (B2R b)) in *. apply Rabs_le_inv in Hl.
    set (n := (len - 1)%nat) in *. assert (Pn : 0 < INR n) by (apply lt_0_INR; lia).
    set (q := INR k / INR n).
    assert (Hq : 0 <= q <= 1).
    { assert (Pk : 0 <= INR k <= INR n) by (split; [apply pos_INR|apply le_INR; lia]).
      assert (In : 0 < / INR n) by now apply Rinv_0_lt_compat.
      unfold q, Rdiv. split; [apply Rmult_le_pos; lra|]. apply Rmult_le_reg_r with (INR n); [lra|].
      rewrite Rmult_assoc, Rinv_l by lra. lra. }
    replace ((B2R y - B2R x) * INR k / INR n) with ((B2R y - B2R x) * q) in ES by (unfold q; field; lra).
    replace (B2R x + INR k * (B2R y - B2R x) / INR n) with (B2R x + (B2R y - B2R x) * q) by (unfold q; field; lra).
    set (L := B2R x + (B2R y - B2R x) * q) in *.
    assert (HL : -25 <= L <= 25).
    { unfold L. assert (0 <= (B2R y - B2R x) * q) by (apply Rmult_le_pos; lra).
      assert ((B2R y - B2R x) * q <= (B2R y - B2R x) * 1) by (apply Rmult_le_compat_l; lra). lra. }
    assert (P14 : / 2 ^ 14 = / 16384) by (simpl; lra). rewrite P14 in ES.
    assert (HSL : Rabs (l * (B2R S - L)) <= / 5600).
    { rewrite Rabs_mult. apply Rle_trans with (23 / 8 * / 16384); [|lra].
      apply Rmult_le_compat; auto using Rabs_pos. apply Rabs_le. lra. }
    unfold Rpower. fold l. rewrite (Rmult_comm L).
    assert (Me : forall u v, u <= v -> exp u <= exp v).
    { intros u v [H|H]; [left; now apply exp_increasing|rewrite H; lra]. }
    set (r := exp (l * L)).
    assert (Hr : / 2 ^ 125 <= r <= 2 ^ 125).
    { assert (B : -72 <= l * L <= 72) by (split; nra).
      assert (E125 : 72 <= 125 * ln 2).
      { assert (58 / 100 <= ln 2).
        { assert (Q : exp (58 / 100) <= 2).
          { pose proof (exp_ineq1_le (- (29 / 100))) as H. rewrite exp_Ropp in H. pose proof (exp_pos (29 / 100)) as P.
            assert (Q : exp (29 / 100) <= 141 / 100).
            { apply Rmult_le_compat_r with (r := exp (29 / 100)) in H; [|lra]. rewrite Rinv_l in H by lra. lra. }
            replace (58 / 100) with (29 / 100 + 29 / 100) by lra. rewrite exp_plus.
            apply Rle_trans with (141 / 100 * (141 / 100)); [apply Rmult_le_compat; lra|lra]. }
          apply Rle_trans with (ln (exp (58 / 100))); [rewrite ln_exp; lra|]. pose proof (exp_pos (58 / 100)).
          destruct Q as [Q|Q]; [left; now apply ln_increasing|rewrite Q; lra]. }
        lra. }
      assert (E2 : exp (125 * ln 2) = 2 ^ 125).
      { rewrite <- Rpower_pow by lra. unfold Rpower. rewrite INR_IZR_INZ. reflexivity. }
      rewrite <- E2, <- exp_Ropp. unfold r. split; apply Me; lra. }
    assert (ESr : exp (B2R S * l) = r * exp (l * (B2R S - L))).
    { unfold r. rewrite <- exp_plus. f_equal. ring. }
    pose proof (exp_near _ _ HSL ltac:(lra)) as En. apply Rabs_le_inv in En.
    assert (Pr : 0 < r) by apply exp_pos.
    set (t := exp (l * (B2R S - L))) in *.
    assert (Ht : 1 - / 5000 <= t <= 1 + / 5000) by lra. clear En.
    assert (Hrt : r * (1 - / 5000) <= r * t <= r * (1 + / 5000)) by (split; apply Rmult_le_compat_l; lra).
    assert (Rng : bpow radix2 (-126) <= r * t <= bpow radix2 126).
    { assert (B1 : bpow radix2 (-126) = / 2 * / 2 ^ 125) by (rewrite <- Rinv_mult; cbn; lra).
      assert (B2 : bpow radix2 126 = 2 * 2 ^ 125) by (cbn; lra).
      rewrite B1, B2. assert (0 < / 2 ^ 125) by (apply Rinv_0_lt_compat, pow_lt; lra). split; lra. }
    assert (F : faithful (r * t) (pow_ b S)).
    { rewrite <- ESr. apply Hpow; auto; [lra|]. change (Rpower (B2R b) (B2R S)) with (exp (B2R S * l)). rewrite ESr.
      apply Rle_trans with (1 := proj2 Rng). apply Rle_trans with (bpow radix2 127); [apply bpow_le; lia|right; cbn; lra]. }
    cbn [fpow b32_ops]. split; [apply F|].
    pose proof (faithful_rel _ _ F Rng) as Ez.
    assert (K : / 2 ^ 23 <= / 8000000) by (simpl; lra). assert (K0 : 0 < / 2 ^ 23) by (apply Rinv_0_lt_compat, pow_lt; lra).
    assert (Ez2 : / 2 ^ 23 * (r * t) <= / 8000000 * (2 * r)) by (apply Rmult_le_compat; lra).
    apply Rabs_le_inv in Ez. assert (K12 : / 2 ^ 12 = / 4096) by (simpl; lra). rewrite K12.
    apply Rabs_le. lra.
  Qed.

  Lemma c80_logspace_error c (s e : tensor b32) ds xs ys len base :
    match base with Some b => number b /\ / 16 <= B2R b <= 16 | None => True end ->
    repr s ds xs -> repr e ds ys -> (0 < prod ds)%nat -> (length ds < 5)%nat -> supported (len :: ds) ->
    (2 <= len)%nat -> (Z.of_nat len <= 16777217)%Z ->
    (forall i x y, nth_error xs i = Some x -> nth_error ys i = Some y ->
       number x /\ number y /\ -25 <= B2R x <= B2R y /\ B2R y <= 25) ->
    exists zs, logspace o c s e len base = Ok (fresh (len :: ds) zs) /\ length zs = prod (len :: ds) /\
      forall k idx x y, (k < len)%nat -> elem ds xs idx = Some x -> elem ds ys idx = Some y ->
        exists z, elem (len :: ds) zs (k :: idx) = Some z /\ number z /\
          let r := Rpower (match base with Some b => B2R b | None => 10 end) (B2R x + INR k * (B2R y - B2R x) / INR (len - 1)) in
          Rabs (B2R z - r) <= / 2 ^ 12 * r.
  Proof.
    intros Hb Hs He Hp Hl Hsup H2 Hbz Hi.
    destruct (logspace_repr o c s e ds xs ys len base) as (zs & E & El & Ev); auto.
    - left. nia.
    - intros i x y Hx Hy. destruct (Hi i x y Hx Hy) as (Nx & Ny & Rx & Ry). cbn [fle b32_ops].
      rewrite Bleb_correct by assumption. apply Rle_bool_true. lra.
    - exists zs. split; [exact E|]. split; [exact El|]. intros k idx x y Hk Hx Hy.
      destruct (Hi _ x y Hx Hy) as (Nx & Ny & Rx & Ry).
      rewrite (Ev k idx x y Hk Hx Hy). eexists. split; [reflexivity|].
      destruct base as [b|].
      + apply log_sample; auto; apply Hb.
      + destruct (b32_of_Z_exact 10 ltac:(lia)) as (E10 & N10 & _).
        change (b32_of_Z 10 0) with (fof o 10) in E10, N10. set (b := fof o 10) in *.
        rewrite <- E10. apply log_sample; auto. rewrite E10. lra.
  Qed.
End Log.

(** ** Endpoints without a logarithm *)
Section NoLog.
  Context (ln_ exp_ : b32 -> b32) (pow_ : b32 -> b32 -> b32).
  Notation o := (b32_ops ln_ exp_ pow_).

  Lemma pos_finite (f : b32) : is_finite f = true -> 0 < B2R f -> exists m e H, f = B754_finite false m e H.
  Proof.
    destruct f as [s|s| |s m e H]; intros F P; try discriminate; [exfalso; cbn in P; lra|].
    destruct s; [exfalso|eauto].
    assert (G : F2R (Float radix2 (Z.neg m) e) < 0) by (apply F2R_lt_0; reflexivity). apply (Rlt_asym _ _ G). exact P.
  Qed.

  Lemma zero_sample (x y : b32) len k : ln_ x = B754_infinity true -> is_finite (ln_ y) = true -> (2 <= len)%nat ->
    (Z.of_nat len < 4294967296)%Z -> (k < len)%nat ->
    space_value o (fln o) (fexp o) len x y k = exp_ B754_nan.
  Proof.
    intros Hx Hy Hl Hb Hk. unfold space_value. cbn [fln fexp b32_ops]. rewrite Hx.
    destruct (Nat.ltb_spec 1 len) as [_|]; [|lia].
    destruct (b32_of_nat_pos ln_ exp_ pow_ (len - 1) ltac:(lia) ltac:(lia)) as [Fn Pn].
    destruct (pos_finite _ Fn ltac:(lra)) as (m & e & H & En).
    assert (Es : @Bdiv 24 128 b32_prec b32_emax mode_NE (@Bminus 24 128 b32_prec b32_emax mode_NE (ln_ y) (B754_infinity true)) (fof o (len - 1)) = B754_infinity false).
    { rewrite En. destruct (ln_ y) as [s|s| |s m' e' H']; try discriminate; reflexivity. }
    cbn [fadd fmul fdiv fsub b32_ops] in *. f_equal.
    change (fof (b32_ops ln_ exp_ pow_) (len - 1)) with (b32_of_Z (Z.of_nat (len - 1)) 0) in *.
    cbn [fof b32_ops]. cbn [fof b32_ops] in Es. rewrite Es.
    destruct (Nat.eq_dec k 0) as [->|Hk0]; [reflexivity|].
    destruct (b32_of_nat_pos ln_ exp_ pow_ k ltac:(lia) ltac:(lia)) as [Fk Pk].
    destruct (pos_finite _ Fk ltac:(lra)) as (m2 & e2 & H2 & Ek). cbn [fof b32_ops] in Ek. rewrite Ek. reflexivity.
  Qed.
End NoLog.

Lemma c43_geomspace_order {F} (o : fops F) c (s e : tensor F) ds xs ys len i x y :
  repr s ds xs -> repr e ds ys -> (prod ds = 1 \/ length ds < 5)%nat ->
  supported (len :: ds) \/ (prod ds = 1%nat /\ supported [len]) -> can_alloc c (len * prod ds) ->
  nth_error xs i = Some x -> nth_error ys i = Some y -> fle o (fln o x) (fln o y) = false ->
  geomspace o c s e len = Panic.
Proof.
  intros Hx Hy Hl Hs Ha Hxi Hyi Hle. unfold geomspace.
  assert (Hp : (0 < prod ds)%nat).
  { rewrite <- (repr_len _ _ _ Hx). pose proof (nth_error_Some_lt _ _ _ Hxi). lia. }
  assert (Hg : supported (geom_dims len ds) /\ (prod (geom_dims len ds) = len * prod ds)%nat).
  { unfold geom_dims. destruct (Nat.eqb_spec (prod ds) 1) as [E|E].
    - split; [|cbn; lia]. destruct Hs as [Hs|[_ Hs]]; [|exact Hs].
      apply (supported_app_l [len] ds) in Hs. exact Hs.
    - split; [|reflexivity]. destruct Hs as [Hs|[? _]]; [exact Hs|lia]. }
  destruct Hg as [Hsg Hpg].
  rewrite (repr_shape _ _ _ Hx), (repr_shape _ _ _ Hy), shape_eqb_refl. cbn [assert_ bind].
  rewrite (repr_size_prod _ _ _ Hx).
  replace (Nat.max 1 (prod ds)) with (prod ds) by lia.
  rewrite umul_ok.
  2:{ pose proof (supported_prod _ Hsg) as Hb. rewrite Hpg in Hb. unfold two32, two64 in *. nia. }
  cbn [bind].
  replace (if (prod ds =? 1)%nat then from_slice_dims [len] else insert c (canon ds) 0 len)
    with (Ok (canon (geom_dims len ds))).
  2:{ unfold geom_dims in *. destruct (Nat.eqb_spec (prod ds) 1) as [E|E].
      - now rewrite from_slice_dims_supported.
      - rewrite insert0_canon; auto. lia. }
  cbn [bind].
  exact (space_init_bad o c (fln o) (fexp o) s e ds (geom_dims len ds) xs ys len i x y Hx Hy Hsg Hpg Ha Hxi Hyi Hle).
Qed.

Lemma c80_geomspace_zero ln_ exp_ pow_ c (s e : tensor b32) ds x y len :
  repr s ds [x] -> repr e ds [y] -> supported [len] -> (2 <= len)%nat ->
  ln_ x = B754_infinity true -> is_finite (ln_ y) = true ->
  geomspace (b32_ops ln_ exp_ pow_) c s e len = Ok (fresh [len] (repeat (exp_ B754_nan) len)).
Proof.
  intros Hs He Hsup H2 Hx Hy. pose proof (repr_len _ _ _ Hs) as Lx. cbn [length] in Lx.
  assert (Hb : (Z.of_nat len < 4294967296)%Z).
  { pose proof (supported_prod _ Hsup) as Hb. cbn [prod fold_right] in Hb. unfold two32 in Hb. lia. }
  destruct (geomspace_repr (b32_ops ln_ exp_ pow_) c s e ds [x] [y] len) as (zs & E & El & Ev); auto.
  - lia.
  - left. nia.
  - intros [|[|i]] x' y' Hx' Hy'; cbn in Hx', Hy'; try discriminate.
    injection Hx' as <-. injection Hy' as <-. cbn [fle fln b32_ops]. rewrite Hx.
    destruct (ln_ y) as [b|b| |b m e0 H]; try discriminate; reflexivity.
  - unfold geom_dims in E. rewrite <- Lx in E. change (1 =? 1)%nat with true in E. cbv iota in E.
    rewrite E. do 2 f_equal. rewrite <- Lx in El. apply nth_error_ext. intros k.
    destruct (Nat.lt_ge_cases k len) as [Hk|Hk].
    + rewrite nth_error_repeat by exact Hk. specialize (Ev k 0%nat x y Hk eq_refl eq_refl).
      replace (k * prod ds + 0)%nat with k in Ev by (rewrite <- Lx; lia).
      rewrite Ev. f_equal. now apply zero_sample.
    + rewrite (proj2 (nth_error_None zs k)) by lia. symmetry. apply nth_error_None. rewrite repeat_length. lia.
Qed.

Lemma c80_geomspace_zero_batch ln_ exp_ pow_ c (s e : tensor b32) ds xs ys len :
  repr s ds xs -> repr e ds ys -> (1 < prod ds)%nat -> (length ds < 5)%nat -> supported (len :: ds) -> (2 <= len)%nat ->
  (forall i x y, nth_error xs i = Some x -> nth_error ys i = Some y -> Bleb (ln_ x) (ln_ y) = true) ->
  exists zs, geomspace (b32_ops ln_ exp_ pow_) c s e len = Ok (fresh (len :: ds) zs) /\ length zs = prod (len :: ds) /\
    forall k idx x y, (k < len)%nat -> elem ds xs idx = Some x -> elem ds ys idx = Some y ->
      ln_ x = B754_infinity true -> is_finite (ln_ y) = true -> elem (len :: ds) zs (k :: idx) = Some (exp_ B754_nan).
Proof.
  intros Hs He Hp Hl Hsup H2 Hle.
  assert (Hb : (Z.of_nat len < 4294967296)%Z).
  { pose proof (supported_prod _ Hsup) as Hb. change (prod (len :: ds)) with (len * prod ds)%nat in Hb. unfold two32 in Hb. nia. }
  destruct (geomspace_repr (b32_ops ln_ exp_ pow_) c s e ds xs ys len) as (zs & E & El & Ev); auto.
  - lia.
  - left. nia.
  - unfold geom_dims in E. destruct (Nat.eqb_spec (prod ds) 1); [lia|].
    exists zs. split; [exact E|]. split; [cbn [prod]; lia|]. intros k idx x y Hk Hx Hy Lx Ly.
    unfold elem. cbn [ravel]. rewrite (Ev k _ x y) by auto. f_equal. now apply zero_sample.
Qed.
