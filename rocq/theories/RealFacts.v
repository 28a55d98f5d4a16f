(** * Facts about the floating-point code over the reals and in binary32 *)
From Coq Require Import Reals Lra.
From Flocq Require Import Core.Zaux Core.Raux Core.Defs Core.Generic_fmt Core.FLT Core.Float_prop IEEE754.BinarySingleNaN.
From Verif Require Import Base Spec BaseFacts FloatModel InitModel.

Lemma R_fle x y : fle R_ops x y = true <-> (x <= y)%R.
Proof. cbn. destruct (Rle_dec x y); split; auto; try discriminate; contradiction. Qed.
Lemma R_flt x y : flt R_ops x y = true <-> (x < y)%R.
Proof. cbn. destruct (Rlt_dec x y); split; auto; try discriminate; contradiction. Qed.
Lemma R_feq x y : feq R_ops x y = true <-> x = y.
Proof. cbn. destruct (Req_EM_T x y); split; auto; try discriminate; contradiction. Qed.
Lemma R_fle_false x y : fle R_ops x y = false <-> (y < x)%R.
Proof. cbn. destruct (Rle_dec x y); split; auto; try discriminate; intros; lra. Qed.
Lemma R_flt_false x y : flt R_ops x y = false <-> (y <= x)%R.
Proof. cbn. destruct (Rlt_dec x y); split; auto; try discriminate; intros; lra. Qed.

(** ** arange over the reals *)

Lemma arange_up_spec N start end_ step vec fuel :
  (0 < step)%R ->
  (forall k, k < N -> (start + INR k * step < end_)%R) -> (end_ <= start + INR N * step)%R ->
  N <= fuel ->
  arange_up R_ops fuel start end_ step vec
  = Some (vec ++ map (fun k => (start + INR k * step)%R) (seq 0 N)).
Proof.
  intros Hs. revert start vec fuel.
  induction N as [|N IH]; intros start vec fuel Hlt Hge Hf.
  - cbn [INR] in Hge. destruct fuel; cbn [arange_up];
      (replace (flt R_ops start end_) with false; [cbn; now rewrite app_nil_r|
       symmetry; apply R_flt_false; lra]).
  - destruct fuel as [|fuel]; [lia|]. cbn [arange_up].
    assert (H0 : (start < end_)%R) by (specialize (Hlt 0 ltac:(lia)); cbn [INR] in Hlt; lra).
    replace (flt R_ops start end_) with true by (symmetry; now apply R_flt).
    rewrite IH.
    + rewrite <- app_assoc. f_equal. f_equal. cbn [seq map app]. f_equal.
      * cbn [INR]. lra.
      * rewrite <- seq_shift, map_map. apply map_ext. intros k. cbn [fadd R_ops]. rewrite S_INR. lra.
    + intros k Hk. specialize (Hlt (S k) ltac:(lia)). rewrite S_INR in Hlt. cbn [fadd R_ops]. lra.
    + rewrite S_INR in Hge. cbn [fadd R_ops]. lra.
    + lia.
Qed.

Lemma progression_length start end_ step :
  (0 < step)%R -> exists N, forall k, k < N <-> (start + INR k * step < end_)%R.
Proof.
  intros Hs.
  assert (HM : exists M, (end_ <= start + INR M * step)%R).
  { exists (Z.to_nat (up ((end_ - start) / step))).
    destruct (archimed ((end_ - start) / step)) as [Hu _].
    assert (Hle : ((end_ - start) / step <= INR (Z.to_nat (up ((end_ - start) / step))))%R).
    { rewrite INR_IZR_INZ. destruct (Z_le_gt_dec 0 (up ((end_ - start) / step))).
      - rewrite Z2Nat.id by auto. lra.
      - assert (IZR (up ((end_ - start) / step)) <= 0)%R by (apply IZR_le; lia).
        assert (0 <= IZR (Z.of_nat (Z.to_nat (up ((end_ - start) / step)))))%R by (apply IZR_le; lia). lra. }
    apply (Rmult_le_compat_r step) in Hle; [|lra].
    unfold Rdiv in Hle at 1. rewrite Rmult_assoc, Rinv_l, Rmult_1_r in Hle by lra. lra. }
  destruct HM as [M HM].
  assert (Hmin : exists N, (forall k, k < N -> (start + INR k * step < end_)%R)
                           /\ (end_ <= start + INR N * step)%R).
  { revert start HM. induction M as [|M IH]; intros start HM.
    - exists 0. split; [intros; lia|auto].
    - destruct (Rlt_dec start end_) as [Hlt|Hge].
      + rewrite S_INR in HM. destruct (IH (start + step)%R) as (N & H1 & H2); [lra|].
        exists (S N). split.
        * intros [|k] Hk; [cbn; lra|]. specialize (H1 k ltac:(lia)). rewrite S_INR. lra.
        * rewrite S_INR. lra.
      + exists 0. split; [intros; lia|cbn; lra]. }
  destruct Hmin as (N & H1 & H2). exists N. intros k. split; [apply H1|].
  intros Hk. destruct (Nat.lt_ge_cases k N) as [|Hge]; auto. exfalso.
  apply le_INR in Hge. apply (Rmult_le_compat_r step) in Hge; lra.
Qed.

Lemma arange_down_R start end_ step vec fuel :
  (step < 0)%R -> (end_ < start)%R -> arange_down R_ops fuel start end_ step vec = None.
Proof.
  intros Hs. revert start vec. induction fuel as [|fuel IH]; intros start vec Hlt; cbn [arange_down];
    replace (flt R_ops end_ start) with true by (symmetry; now apply R_flt).
  - reflexivity.
  - apply IH. cbn. lra.
Qed.

(** ** arange in binary32 *)

Section B32.
  Variables (ln_ exp_ : b32 -> b32) (pow_ : b32 -> b32 -> b32).
  Notation o := (b32_ops ln_ exp_ pow_).

  Lemma b32_lt_finite (x y : b32) :
    is_finite x = true -> is_finite y = true -> flt o x y = Rlt_bool (B2R x) (B2R y).
  Proof. intros Hx Hy. cbn. now apply Bltb_correct. Qed.

  (** A loop that subtracts a negative step never comes down to its end. *)
  Lemma b32_step_back (e s step : b32) :
    is_finite e = true -> is_finite step = true -> flt o step (fzero o) = true ->
    flt o e s = true -> flt o e (fsub o s step) = true.
  Proof.
    intros He Hst Hneg Hlt.
    assert (Hstep : (B2R step < 0)%R).
    { rewrite b32_lt_finite in Hneg by auto. destruct (Rlt_bool_spec (B2R step) (B2R (fzero o))) as [H|H]; [|discriminate].
      cbn in H. exact H. }
    assert (Hsign : Bsign step = true).
    { destruct step as [b|b| |b m x H]; cbn in Hst, Hstep |- *; try discriminate; try lra.
      destruct b; [reflexivity|]. exfalso. apply Rlt_not_le in Hstep. apply Hstep.
      apply Rlt_le. now apply Float_prop.F2R_gt_0. }
    assert (Hinf : flt o e (B754_infinity false) = true) by (destruct e as [[]|?| |[]]; cbn in *; congruence).
    destruct (is_finite s) eqn:Hs.
    - pose proof (Bminus_correct 24 128 b32_prec b32_emax mode_NE s step Hs Hst) as Hc.
      destruct (Rlt_bool_spec (Rabs (round radix2 (SpecFloat.fexp 24 128) (round_mode mode_NE) (B2R s - B2R step)))
                  (bpow radix2 128)) as [Hov|Hov].
      + destruct Hc as (E & Hfin & _). rewrite b32_lt_finite in Hlt |- * by (cbn; auto).
        destruct (Rlt_bool_spec (B2R e) (B2R s)) as [H1|H1]; [|discriminate].
        apply Rlt_bool_true. cbn [fsub b32_ops]. rewrite E.
        apply Rlt_le_trans with (1 := H1).
        apply round_ge_generic; [apply fexp_correct; reflexivity|apply valid_rnd_round_mode|apply generic_format_B2R|lra].
      + destruct Hc as [E Esign]. rewrite Hsign in Esign. cbn in Esign. rewrite Esign in E.
        cbn [fsub b32_ops]. destruct (Bminus _ _ _) as [b|b| |b m x H]; cbn in E; try discriminate.
        injection E as ->. exact Hinf.
    - destruct s as [b|b| |b m x H]; try discriminate.
      + destruct b; [destruct e as [[]|?| |[]]; cbn in *; discriminate|].
        destruct step as [b|b| |b m x H]; try discriminate; exact Hinf.
      + destruct e as [[]|?| |[]]; cbn in Hlt; discriminate.
  Qed.

  Lemma arange_down_b32 (s e step : b32) vec fuel :
    is_finite e = true -> is_finite step = true -> flt o step (fzero o) = true ->
    flt o e s = true -> arange_down o fuel s e step vec = None.
  Proof.
    intros He Hst Hneg. revert s vec. induction fuel as [|fuel IH]; intros s vec Hlt; cbn [arange_down]; rewrite Hlt.
    - reflexivity.
    - apply IH. now apply b32_step_back.
  Qed.

  Lemma arange_up_stuck (s e step : b32) vec fuel :
    flt o s e = true -> fadd o s step = s -> arange_up o fuel s e step vec = None.
  Proof.
    intros Hlt Hadd. revert vec. induction fuel as [|fuel IH]; intros vec; cbn [arange_up]; rewrite Hlt.
    - reflexivity.
    - now rewrite Hadd.
  Qed.

  (** Integers up to 2^24 are exact. *)
  Lemma b32_int_format z : (Z.abs z <= 16777216)%Z ->
    generic_format radix2 (SpecFloat.fexp 24 128) (IZR z).
  Proof.
    intros Hz. replace (SpecFloat.fexp 24 128) with (FLT_exp (-149) 24) by reflexivity.
    apply generic_format_FLT.
    destruct (Z.eq_dec (Z.abs z) 16777216) as [He|He].
    - exists (Float radix2 (Z.sgn z) 24); cbn [Fnum Fexp]; [|cbn; lia|lia].
      unfold F2R. cbn [Fnum Fexp]. change (bpow radix2 24) with (IZR 16777216). rewrite <- mult_IZR. f_equal. lia.
    - exists (Float radix2 z 0); cbn [Fnum Fexp]; [|cbn; lia|lia].
      unfold F2R. cbn [Fnum Fexp bpow]. lra.
  Qed.

  Lemma b32_small z : (Z.abs z <= 16777216)%Z -> (Rabs (IZR z) < bpow radix2 128)%R.
  Proof.
    intros Hz. rewrite <- abs_IZR. apply Rle_lt_trans with (IZR 16777216); [now apply IZR_le|].
    change (IZR 16777216) with (bpow radix2 24). apply bpow_lt. lia.
  Qed.

  Lemma b32_of_Z_exact z : (Z.abs z <= 16777216)%Z ->
    B2R (b32_of_Z z 0) = IZR z /\ is_finite (b32_of_Z z 0) = true /\ Bsign (b32_of_Z z 0) = (z <? 0)%Z.
  Proof.
    intros Hz. pose proof (binary_normalize_correct 24 128 b32_prec b32_emax mode_NE z 0 false) as H.
    cbv zeta in H.
    assert (E : F2R (Float radix2 z 0) = IZR z) by (unfold F2R; cbn [Fnum Fexp bpow]; lra).
    rewrite E, round_generic in H by (try apply valid_rnd_round_mode; now apply b32_int_format).
    rewrite Rlt_bool_true in H by now apply b32_small.
    destruct H as (H1 & H2 & H3). unfold b32_of_Z. split; auto. split; auto. rewrite H3.
    destruct (Rcompare_spec (IZR z) 0) as [H|H|H].
    - apply lt_IZR in H. symmetry. now apply Z.ltb_lt.
    - apply eq_IZR in H. subst z. reflexivity.
    - apply lt_IZR in H. symmetry. apply Z.ltb_ge. lia.
  Qed.

  Lemma b32_add_int a b :
    (Z.abs a <= 16777216)%Z -> (Z.abs b <= 16777216)%Z -> (Z.abs (a + b) <= 16777216)%Z ->
    fadd o (b32_of_Z a 0) (b32_of_Z b 0) = b32_of_Z (a + b) 0.
  Proof.
    intros Ha Hb Hab. cbn [fadd b32_ops].
    destruct (b32_of_Z_exact a Ha) as (Ra & Fa & Sa).
    destruct (b32_of_Z_exact b Hb) as (Rb & Fb & Sb).
    destruct (b32_of_Z_exact (a + b) Hab) as (Rc & Fc & Sc).
    pose proof (Bplus_correct 24 128 b32_prec b32_emax mode_NE _ _ Fa Fb) as H.
    rewrite Ra, Rb, <- plus_IZR in H.
    rewrite round_generic in H by (try apply valid_rnd_round_mode; now apply b32_int_format).
    rewrite Rlt_bool_true in H by now apply b32_small.
    destruct H as (H1 & H2 & H3).
    apply B2R_Bsign_inj; auto; [congruence|]. rewrite H3, Sc, Sa, Sb.
    destruct (Rcompare_spec (IZR (a + b)) 0) as [H|H|H].
    - apply lt_IZR in H. symmetry. now apply Z.ltb_lt.
    - apply eq_IZR in H. lia.
    - apply lt_IZR in H. symmetry. apply Z.ltb_ge. lia.
  Qed.

  Lemma b32_lt_int a b : (Z.abs a <= 16777216)%Z -> (Z.abs b <= 16777216)%Z ->
    flt o (b32_of_Z a 0) (b32_of_Z b 0) = (a <? b)%Z.
  Proof.
    intros Ha Hb. destruct (b32_of_Z_exact a Ha) as (Ra & Fa & _).
    destruct (b32_of_Z_exact b Hb) as (Rb & Fb & _).
    rewrite b32_lt_finite by auto. rewrite Ra, Rb.
    destruct (Z.ltb_spec a b).
    - apply Rlt_bool_true. now apply IZR_lt.
    - apply Rlt_bool_false. now apply IZR_le.
  Qed.

  Lemma b32_le_int a b : (Z.abs a <= 16777216)%Z -> (Z.abs b <= 16777216)%Z ->
    fle o (b32_of_Z a 0) (b32_of_Z b 0) = (a <=? b)%Z.
  Proof.
    intros Ha Hb. destruct (b32_of_Z_exact a Ha) as (Ra & Fa & _).
    destruct (b32_of_Z_exact b Hb) as (Rb & Fb & _).
    cbn [fle b32_ops]. rewrite Bleb_correct by auto. rewrite Ra, Rb.
    destruct (Z.leb_spec a b).
    - apply Rle_bool_true. now apply IZR_le.
    - apply Rle_bool_false. now apply IZR_lt.
  Qed.

  Lemma b32_eq_int a b : (Z.abs a <= 16777216)%Z -> (Z.abs b <= 16777216)%Z ->
    feq o (b32_of_Z a 0) (b32_of_Z b 0) = (a =? b)%Z.
  Proof.
    intros Ha Hb. destruct (b32_of_Z_exact a Ha) as (Ra & Fa & _).
    destruct (b32_of_Z_exact b Hb) as (Rb & Fb & _).
    cbn [feq b32_ops]. rewrite Beqb_correct by auto. rewrite Ra, Rb.
    destruct (Z.eqb_spec a b) as [->|Hn].
    - now apply Req_bool_true.
    - apply Req_bool_false. intros E. now apply eq_IZR in E.
  Qed.

  Lemma arange_up_int N a e s vec fuel :
    (0 < s <= 16777216)%Z -> (- 16777216 <= a)%Z -> (e + s <= 16777216)%Z -> (-16777216 <= e)%Z -> (a <= e + s)%Z ->
    (forall k, k < N <-> (a + Z.of_nat k * s < e)%Z) -> N <= fuel ->
    arange_up o fuel (b32_of_Z a 0) (b32_of_Z e 0) (b32_of_Z s 0) vec
    = Some (vec ++ map (fun k => b32_of_Z (a + Z.of_nat k * s) 0) (seq 0 N)).
  Proof.
    intros Hs. revert a vec fuel.
    induction N as [|N IH]; intros a vec fuel Ha He He' Hae HN Hf.
    - assert (H0 : ~ (a < e)%Z) by (intros H; specialize (HN 0); lia).
      destruct fuel; cbn [arange_up]; rewrite b32_lt_int by lia;
        (replace (a <? e)%Z with false by lia); cbn; now rewrite app_nil_r.
    - destruct fuel as [|fuel]; [lia|]. cbn [arange_up].
      assert (H0 : (a < e)%Z) by (specialize (HN 0); lia).
      rewrite b32_lt_int by lia. replace (a <? e)%Z with true by lia.
      rewrite b32_add_int by nia. rewrite IH.
      + rewrite <- app_assoc. f_equal. f_equal. cbn [seq map app]. f_equal.
        * f_equal. lia.
        * rewrite <- seq_shift, map_map. apply map_ext. intros k. f_equal. lia.
      + lia.
      + lia.
      + lia.
      + lia.
      + intros k. specialize (HN (S k)). lia.
      + lia.
  Qed.

  (** Dividing a finite number by a positive count stays finite. *)
  Lemma b32_of_nat_pos n : 0 < n -> (Z.of_nat n < 4294967296)%Z ->
    is_finite (fof o n) = true /\ (1 <= B2R (fof o n))%R.
  Proof.
    intros Hn Hb. cbn [fof b32_ops].
    pose proof (binary_normalize_correct 24 128 b32_prec b32_emax mode_NE (Z.of_nat n) 0 false) as H.
    cbv zeta in H.
    assert (E : F2R (Float radix2 (Z.of_nat n) 0) = IZR (Z.of_nat n)) by (unfold F2R; cbn [Fnum Fexp bpow]; lra).
    rewrite E in H.
    assert (H1 : (1 <= round radix2 (SpecFloat.fexp 24 128) (round_mode mode_NE) (IZR (Z.of_nat n)))%R).
    { apply round_ge_generic; [now apply fexp_correct|apply valid_rnd_round_mode| |apply IZR_le; lia].
      apply (b32_int_format 1). lia. }
    assert (H2 : (round radix2 (SpecFloat.fexp 24 128) (round_mode mode_NE) (IZR (Z.of_nat n)) <= bpow radix2 32)%R).
    { apply round_le_generic; [now apply fexp_correct|apply valid_rnd_round_mode| |].
      - apply generic_format_bpow. cbn. lia.
      - change (bpow radix2 32) with (IZR 4294967296). apply IZR_le. lia. }
    assert (H3 : (bpow radix2 32 < bpow radix2 128)%R) by (apply bpow_lt; lia).
    rewrite Rlt_bool_true in H by (rewrite Rabs_pos_eq; lra).
    destruct H as (R1 & F1 & _). split; auto. unfold b32_of_Z. now rewrite R1.
  Qed.

  Lemma b32_div_nat_finite x n : is_finite x = true -> 0 < n -> (Z.of_nat n < 4294967296)%Z ->
    is_finite (fdiv o x (fof o n)) = true.
  Proof.
    intros Hx Hn Hb. destruct (b32_of_nat_pos n Hn Hb) as [Hf H1].
    assert (Hnz : B2R (fof o n) <> 0%R) by lra.
    pose proof (Bdiv_correct 24 128 b32_prec b32_emax mode_NE x (fof o n) Hnz) as H.
    rewrite Rlt_bool_true in H.
    - destruct H as (_ & H & _). cbn [fdiv b32_ops]. now rewrite H.
    - apply Rle_lt_trans with (Rabs (B2R x)); [|apply abs_B2R_lt_emax].
      apply abs_round_le_generic; [now apply fexp_correct|apply valid_rnd_round_mode| |].
      + apply generic_format_abs, generic_format_B2R.
      + unfold Rdiv. rewrite Rabs_mult. rewrite <- (Rmult_1_r (Rabs (B2R x))) at 2.
        apply Rmult_le_compat_l; [apply Rabs_pos|].
        rewrite Rabs_pos_eq by (apply Rlt_le, Rinv_0_lt_compat; lra).
        rewrite <- Rinv_1. apply Rinv_le_contravar; lra.
  Qed.

  (** Adding a finite multiple of zero changes nothing. *)
  Lemma b32_add_zero x s : is_finite x = true -> is_finite s = true ->
    feq o (fadd o x (fmul o s (fof o 0))) x = true.
  Proof.
    intros Hx Hs. cbn [feq b32_ops].
    assert (E : exists b, fmul o s (fof o 0) = B754_zero b).
    { cbn [fmul fof b32_ops]. replace (b32_of_Z (Z.of_nat 0) 0) with (B754_zero false : b32) by reflexivity.
      destruct s as [b|b| |b m x' H]; try discriminate; cbn; eauto. }
    destruct E as [b ->]. cbn [fadd b32_ops].
    assert (Hr : forall y : b32, is_finite y = true -> Beqb y y = true).
    { intros y Hy. rewrite Beqb_correct by auto. now apply Req_bool_true. }
    destruct x as [b'|b'| |b' m x' H]; try discriminate.
    - destruct b, b'; reflexivity.
    - cbn [Bplus]. apply Hr. reflexivity.
  Qed.
End B32.

Lemma b32_one_mul ln_ exp_ pow_ (v : b32) :
  fmul (b32_ops ln_ exp_ pow_) (fone (b32_ops ln_ exp_ pow_)) v = v.
Proof.
  cbn [fmul fone b32_ops].
  assert (E1 : B2R (b32_of_Z 1 0) = 1%R /\ is_finite (b32_of_Z 1 0) = true /\ Bsign (b32_of_Z 1 0) = false).
  { exact (b32_of_Z_exact 1 ltac:(lia)). }
  destruct E1 as (E1 & F1 & S1).
  destruct v as [s|s| |s m e H]; try (destruct s; reflexivity).
  - reflexivity.
  - set (v := B754_finite s m e H).
    pose proof (@Bmult_correct 24 128 b32_prec b32_emax mode_NE (b32_of_Z 1 0) v) as C.
    rewrite E1, Rmult_1_l in C.
    rewrite round_generic in C; [|apply valid_rnd_N|apply generic_format_B2R].
    rewrite Rlt_bool_true in C by apply abs_B2R_lt_emax.
    destruct C as (C1 & C2 & C3). rewrite F1 in C2. cbn [andb] in C2.
    apply B2R_Bsign_inj; auto.
    rewrite C3. { rewrite S1. now destruct (Bsign v). }
    revert C2. now destruct (Bmult _ _ _).
Qed.
