(** * C53: the bins of histograms in binary32 *)
From Coq Require Import Reals Lra Psatz.
From Flocq Require Import Core.Zaux Core.Raux Core.Defs Core.Generic_fmt Core.FIX Core.FLT Core.Float_prop Core.Round_NE
  Relative Plus_error IEEE754.BinarySingleNaN.
From Verif Require Import Base ShapeModel TensorModel FloatModel MathModel Spec FloatSpec RoundSpec BaseFacts TensorFacts RealFacts RoundFacts
  StatsFacts StatsProofs.

(** ** The integer part *)

Lemma round_fix rn (v : Valid_rnd rn) x : round radix2 (FIX_exp 0) rn x = IZR (rn x).
Proof.
  unfold round, F2R, scaled_mantissa, cexp, FIX_exp. cbn [Fnum Fexp Z.opp bpow]. now rewrite !Rmult_1_r.
Qed.

Lemma floor_finite (x : b32) : is_finite x = true -> b32_floor x = Z.to_nat (Z.min (two64 - 1) (Zfloor (B2R x))).
Proof.
  intros F. destruct (Bnearbyint_correct 24 128 b32_emax mode_DN x) as (E & F' & _).
  rewrite round_fix in E by apply valid_rnd_round_mode. cbn [round_mode] in E. rewrite F in F'. unfold b32_floor.
  destruct (Bnearbyint mode_DN x) as [s|s| |s m e H] eqn:B; try discriminate.
  - cbn [B2R] in E. assert (Zfloor (B2R x) = 0%Z) as ->. { apply eq_IZR. lra. } reflexivity.
  - f_equal. f_equal. rewrite <- B in *. apply eq_IZR. rewrite (Btrunc_correct 24 128 b32_emax).
    rewrite round_fix by apply valid_rnd_ZR. rewrite E. now rewrite Ztrunc_IZR.
Qed.

Lemma c53_floor_b32 (x : b32) :
  (is_finite x = true -> b32_floor x = Z.to_nat (Z.min (2 ^ 64 - 1) (Zfloor (B2R x)))) /\
  (x = B754_infinity false -> b32_floor x = Z.to_nat (2 ^ 64 - 1)) /\
  (x = B754_infinity true \/ x = B754_nan -> b32_floor x = 0).
Proof.
  split; [apply floor_finite|]. split; [intros ->; reflexivity|]. intros [->| ->]; reflexivity.
Qed.

Lemma to_nat_le a b : (a <= b)%Z -> Z.to_nat a <= Z.to_nat b.
Proof. lia. Qed.
Lemma floor_le_top (x : b32) : b32_floor x <= Z.to_nat (two64 - 1).
Proof.
  destruct (is_finite x) eqn:F.
  - rewrite floor_finite by exact F. apply to_nat_le, Z.le_min_l.
  - destruct x as [s|[]| |s m e H]; try discriminate.
    + apply Nat.le_0_l.
    + apply Nat.le_refl.
    + apply Nat.le_0_l.
Qed.

Lemma floor_mono (x y : b32) : is_finite x = true -> is_finite y = true -> (B2R x <= B2R y)%R -> b32_floor x <= b32_floor y.
Proof.
  intros Fx Fy H. rewrite !floor_finite by assumption. apply to_nat_le. apply Zfloor_le in H. lia.
Qed.
Lemma floor_zero s : b32_floor (B754_zero s) = 0.
Proof. reflexivity. Qed.

(** ** The order of the bins *)

(** A distance: a number that is not negative, or infinity. *)
Definition dist (x : b32) : Prop := x = B754_infinity false \/ (is_finite x = true /\ (0 <= B2R x)%R).
Definition dist_le (x y : b32) : Prop :=
  y = B754_infinity false \/ (is_finite x = true /\ is_finite y = true /\ (B2R x <= B2R y)%R).

Section B32.
  Variables (ln_ exp_ : b32 -> b32) (pow_ : b32 -> b32 -> b32).
  Notation o := (b32_ops ln_ exp_ pow_).

  Lemma overflow_inf (x : b32) s : B2SF x = binary_overflow 24 128 mode_NE s -> x = B754_infinity s.
  Proof. destruct x; cbn; intros E; inversion E; subst; reflexivity. Qed.

  Lemma sub_dist (x y : b32) : is_finite x = true -> is_finite y = true -> (B2R y <= B2R x)%R ->
    (fsub o x y = B754_infinity false /\ (bpow radix2 128 <= rnd (B2R x - B2R y))%R) \/
    (is_finite (fsub o x y) = true /\ B2R (fsub o x y) = rnd (B2R x - B2R y) /\ (rnd (B2R x - B2R y) < bpow radix2 128)%R).
  Proof.
    intros Fx Fy H. cbn [fsub b32_ops].
    assert (N : (0 <= rnd (B2R x - B2R y))%R) by (apply rnd_ge_fmt; [apply fmt_0|lra]).
    pose proof (Bminus_correct 24 128 b32_prec b32_emax mode_NE x y Fx Fy) as C. cbn [round_mode] in C.
    destruct (Rlt_bool_spec (Rabs (rnd (B2R x - B2R y))) (bpow radix2 128)) as [L|L]; rewrite Rabs_pos_eq in L by exact N.
    - right. tauto.
    - left. destruct C as [C S]. apply overflow_inf in C. split; [|exact L].
      destruct (Bsign x) eqn:Sx; [|exact C]. exfalso. symmetry in S. apply Bool.negb_true_iff in S.
      assert (X : (B2R x <= 0)%R).
      { destruct x as [s|s| |s m e B]; try discriminate; [cbn; lra|]. cbn in Sx. subst s. apply F2R_le_0. cbn. lia. }
      assert (Y : (0 <= B2R y)%R).
      { destruct y as [s|s| |s m e B]; try discriminate; [cbn; lra|]. cbn in S. subst s. apply F2R_ge_0. cbn. lia. }
      assert (E : (B2R x - B2R y = 0)%R) by lra. rewrite E, round_0 in L by apply valid_rnd_N.
      pose proof (bpow_gt_0 radix2 128). lra.
  Qed.

  Lemma sub_dist_mono (x y m : b32) : is_finite x = true -> is_finite y = true -> is_finite m = true ->
    (B2R m <= B2R x <= B2R y)%R -> dist (fsub o x m) /\ dist (fsub o y m) /\ dist_le (fsub o x m) (fsub o y m).
  Proof.
    intros Fx Fy Fm [H1 H2].
    assert (M : (0 <= rnd (B2R x - B2R m) <= rnd (B2R y - B2R m))%R).
    { split; [apply rnd_ge_fmt; [apply fmt_0|lra]|apply rnd_le; lra]. }
    destruct (sub_dist x m Fx Fm H1) as [[E1 B1]|(F1 & R1 & B1)], (sub_dist y m Fy Fm ltac:(lra)) as [[E2 B2]|(F2 & R2 & B2)].
    - split; [now left|]. split; now left.
    - exfalso. lra.
    - split; [right; split; [assumption|lra]|]. split; [now left|]. now left.
    - split; [right; split; [assumption|lra]|]. split; [right; split; [assumption|lra]|]. right. split; [assumption|]. split; [assumption|lra].
  Qed.

  Lemma div_mono (X Y d : b32) : dist X -> dist Y -> dist_le X Y ->
    d = B754_infinity false \/ (is_finite d = true /\ Bsign d = false) ->
    b32_floor (fdiv o X d) <= b32_floor (fdiv o Y d).
  Proof.
    intros [->|[FX PX]] HY L Hd.
    { destruct L as [->|[L _]]; [apply Nat.le_refl|discriminate]. }
    destruct X as [s|s| |s m e B]; try discriminate.
    { cbn [fdiv b32_ops]. replace (b32_floor (Bdiv mode_NE (B754_zero s) d)) with 0; [apply Nat.le_0_l|].
      destruct d; reflexivity. }
    assert (s = false) as ->.
    { destruct s; [|reflexivity]. exfalso. pose proof (F2R_lt_0 radix2 (Float radix2 (Zneg m) e) eq_refl) as K. cbn in PX, K. lra. }
    destruct Hd as [->|[Fd Sd]].
    { replace (b32_floor (fdiv o (B754_finite false m e B) (B754_infinity false))) with 0; [apply Nat.le_0_l|reflexivity]. }
    destruct L as [->|(_ & FY & L)].
    { replace (fdiv o (B754_infinity false) d) with (B754_infinity false : b32); [apply floor_le_top|].
      destruct d as [s|s| |s m' e' B']; try discriminate; cbn in Sd; subst s; reflexivity. }
    assert (PXs : (0 < B2R (B754_finite false m e B : b32))%R) by (apply F2R_gt_0; cbn; lia).
    destruct d as [s|s| |s m' e' B'] eqn:Ed; try discriminate; cbn in Sd; subst s.
    { destruct Y as [s|s| |s m1 e1 B1]; try discriminate; [cbn in L; cbn in PXs; lra|].
      assert (s = false) as ->; [|apply Nat.le_refl].
      destruct s; [|reflexivity]. exfalso. pose proof (F2R_lt_0 radix2 (Float radix2 (Zneg m1) e1) eq_refl) as K. cbn in L, K, PXs. lra. }
    rewrite <- Ed. assert (Pd : (0 < B2R d)%R) by (rewrite Ed; apply F2R_gt_0; cbn; lia). clear Ed.
    set (X := B754_finite false m e B : b32) in *. assert (Nd : B2R d <> 0%R) by lra.
    assert (Q : (0 <= rnd (B2R X / B2R d) <= rnd (B2R Y / B2R d))%R).
    { split; [apply rnd_ge_fmt; [apply fmt_0|apply Rlt_le; now apply Rdiv_lt_0_compat]|]. apply rnd_le. unfold Rdiv.
      apply Rmult_le_compat_r; [apply Rlt_le, Rinv_0_lt_compat; exact Pd|exact L]. }
    pose proof (Bdiv_correct 24 128 b32_prec b32_emax mode_NE X d Nd) as CX.
    pose proof (Bdiv_correct 24 128 b32_prec b32_emax mode_NE Y d Nd) as CY. cbn [round_mode] in CX, CY.
    cbn [fdiv b32_ops].
    destruct (Rlt_bool_spec (Rabs (rnd (B2R Y / B2R d))) (bpow radix2 128)) as [LY|LY]; rewrite Rabs_pos_eq in LY by lra.
    - rewrite Rlt_bool_true in CX by (rewrite Rabs_pos_eq; lra). destruct CX as (RX & GX & _), CY as (RY & GY & _).
      rewrite FY in GY. apply floor_mono; [rewrite GX; reflexivity|exact GY|lra].
    - apply overflow_inf in CY. replace (xorb (Bsign Y) (Bsign d)) with false in CY; [rewrite CY; apply floor_le_top|].
      rewrite (nonneg_sign Y FY) by lra. rewrite (nonneg_sign d); [reflexivity| |exact Pd]. unfold number.
      destruct d; auto; cbn in Pd; lra.
  Qed.

  Lemma delta_dist (mn mx : b32) n : is_finite mn = true -> is_finite mx = true -> (B2R mn <= B2R mx)%R ->
    0 < n -> (Z.of_nat n < 4294967296)%Z ->
    let d := if feq o mn mx then fepsilon o else fdiv o (fsub o mx mn) (fof o n) in
    d = B754_infinity false \/ (is_finite d = true /\ Bsign d = false).
  Proof.
    intros Fn Fx H Hn Hb d. unfold d. clear d. destruct (feq o mn mx) eqn:E; [right; split; reflexivity|].
    assert (L : (B2R mn < B2R mx)%R).
    { cbn [feq b32_ops] in E. rewrite Beqb_correct in E by assumption. destruct (Req_bool_spec (B2R mn) (B2R mx)); [discriminate|lra]. }
    destruct (b32_of_nat_pos ln_ exp_ pow_ n Hn Hb) as [Ff Pf].
    assert (Sf : Bsign (fof o n) = false) by (apply nonneg_sign; [exact Ff|lra]).
    destruct (sub_dist mx mn Fx Fn H) as [[E1 _]|(F1 & R1 & B1)].
    - left. rewrite E1. destruct (fof o n) as [s|s| |s m e B]; try discriminate; cbn in Sf; subst s; reflexivity.
    - right. pose proof (b32_div_nat_finite ln_ exp_ pow_ (fsub o mx mn) n F1 Hn Hb) as Fd. split; [exact Fd|].
      assert (S1 : Bsign (fsub o mx mn) = false).
      { pose proof (Bminus_correct 24 128 b32_prec b32_emax mode_NE mx mn Fx Fn) as C. cbn [round_mode] in C.
        rewrite Rlt_bool_true in C.
        - destruct C as (_ & _ & C). cbn [fsub b32_ops]. rewrite C, Rcompare_Gt by lra. reflexivity.
        - rewrite Rabs_pos_eq; [exact B1|]. apply rnd_ge_fmt; [apply fmt_0|lra]. }
      pose proof (Bdiv_correct 24 128 b32_prec b32_emax mode_NE (fsub o mx mn) (fof o n) ltac:(lra)) as C. cbn [round_mode] in C.
      destruct (Rlt_bool _ _).
      + destruct C as (_ & _ & C). cbn [fdiv b32_ops] in *. rewrite C; [now rewrite S1, Sf|].
        match goal with |- is_nan ?z = false => destruct z; try discriminate; reflexivity end.
      + apply overflow_inf in C. cbn [fdiv b32_ops] in Fd. rewrite C in Fd. discriminate.
  Qed.

  (** ** Bins contain their samples up to rounding *)

  Lemma bpow_inv k : (0 <= k)%Z -> bpow radix2 (- k) = (/ 2 ^ Z.to_nat k)%R.
  Proof.
    intros Hk. rewrite bpow_opp. f_equal. rewrite bpow_powerRZ. change (IZR radix2) with 2%R.
    rewrite pow_powerRZ. f_equal. lia.
  Qed.

  Lemma rel_normal x : (bpow radix2 (-126) <= Rabs x)%R -> exists e, (Rabs e <= u32)%R /\ rnd x = (x * (1 + e))%R.
  Proof.
    intros H. destruct (relative_error_N_FLT_ex radix2 (-149) 24 eq_refl (fun z => negb (Z.even z)) x H) as (e & He & E).
    exists e. rewrite <- half_ulp_one. split; [exact He|exact E].
  Qed.

  Lemma floor_lower (z : R) (b : nat) : 1 <= b -> (Z.of_nat b <= 16777216)%Z -> (INR b <= rnd z)%R -> (INR b * (1 - u32) <= z)%R.
  Proof.
    intros H1 H2 H. destruct (Rle_or_lt (INR b) z) as [L|L].
    { pose proof u32_pos. pose proof (pos_INR b). nra. }
    destruct (Rle_or_lt (/ 2) z) as [M|M].
    - destruct (rel_normal z) as (e & He & E).
      { rewrite Rabs_pos_eq by lra. apply Rle_trans with (/ 2)%R; [|exact M]. change (/ 2)%R with (bpow radix2 (-1)). apply bpow_le. lia. }
      rewrite E in H. apply Rabs_le_inv in He. pose proof u32_pos. pose proof u32_lt.
      assert (z * (1 + e) <= z * (1 + u32))%R by (apply Rmult_le_compat_l; lra).
      assert (z <= INR b)%R by lra. assert (INR b * (1 - u32) <= z * (1 + u32) * (1 - u32))%R by (apply Rmult_le_compat_r; lra).
      assert (z * (1 + u32) * (1 - u32) <= z)%R; [|lra].
      replace (z * (1 + u32) * (1 - u32))%R with (z - z * u32 * u32)%R by ring. assert (0 <= z * u32 * u32)%R; [|lra].
      apply Rmult_le_pos; [apply Rmult_le_pos; lra|lra].
    - exfalso. assert (rnd z <= / 2)%R.
      { apply rnd_le_fmt; [|lra]. change (/ 2)%R with (bpow radix2 (-1)). apply generic_format_bpow. cbn. lia. }
      apply le_INR in H1. cbn [INR] in H1. lra.
  Qed.

  Lemma sub_rel (x y : b32) : is_finite x = true -> is_finite y = true -> exists e, (Rabs e <= u32)%R /\ rnd (B2R x - B2R y) = ((B2R x - B2R y) * (1 + e))%R.
  Proof.
    intros Fx Fy.
    destruct (@FLT_plus_error_N_ex radix2 (-149) 24 eq_refl (fun z => negb (Z.even z)) (B2R x) (- B2R y)) as (e & He & E).
    - apply fmt_B2R.
    - apply fmt_opp, fmt_B2R.
    - exists e. split; [|exact E].
      apply Rle_trans with (1 := He). change (u_ro radix2 24) with (/ 2 * bpow radix2 (- 24 + 1))%R. rewrite half_ulp_one.
      pose proof u32_pos. apply Rmult_le_reg_r with (1 + u32)%R; [lra|].
      unfold Rdiv. rewrite Rmult_assoc, Rinv_l by lra. nra.
  Qed.

  Lemma lower_algebra b w s e1 e2 e3 : (0 <= b)%R -> (0 < w)%R -> (0 <= s)%R ->
    (Rabs e1 <= u32)%R -> (Rabs e2 <= u32)%R -> (Rabs e3 <= u32)%R ->
    (b * (1 - u32) * (w * (1 + e2) * (1 + e3)) <= s * (1 + e1))%R -> (b * w * (1 - 4 * u32) <= s)%R.
  Proof.
    intros Hb Hw Hs E1 E2 E3 H. apply Rabs_le_inv in E1, E2, E3. pose proof u32_pos as U. pose proof u32_lt as V.
    set (u := u32) in *. assert (P : (0 <= b * w)%R) by (apply Rmult_le_pos; lra).
    assert (A : ((1 - u) * (1 - u) <= (1 + e2) * (1 + e3))%R) by (apply Rmult_le_compat; lra).
    assert (B : (b * w * ((1 - u) * ((1 - u) * (1 - u))) <= s * (1 + u))%R).
    { apply Rle_trans with (s * (1 + e1))%R; [|apply Rmult_le_compat_l; lra].
      replace (b * (1 - u) * (w * (1 + e2) * (1 + e3)))%R with (b * w * ((1 - u) * ((1 + e2) * (1 + e3))))%R in H by ring.
      apply Rle_trans with (2 := H). apply Rmult_le_compat_l; [exact P|]. apply Rmult_le_compat_l; lra. }
    apply Rmult_le_reg_r with (1 + u)%R; [lra|]. apply Rle_trans with (2 := B). rewrite Rmult_assoc.
    apply Rmult_le_compat_l; [exact P|].
    replace ((1 - u) * ((1 - u) * (1 - u)))%R with (1 - 3 * u + 3 * (u * u) - u * (u * u))%R by ring.
    replace ((1 - 4 * u) * (1 + u))%R with (1 - 3 * u - 4 * (u * u))%R by ring.
    assert (0 <= u * u)%R by (apply Rmult_le_pos; lra). assert (u * (u * u) <= 1 * (u * u))%R by (apply Rmult_le_compat_r; lra). lra.
  Qed.

  Lemma upper_algebra b w s e1 e2 e3 : (0 <= b)%R -> (0 < w)%R -> (0 <= s)%R ->
    (Rabs e1 <= u32)%R -> (Rabs e2 <= u32)%R -> (Rabs e3 <= u32)%R ->
    (s * (1 + e1) < (b + 1) * (w * (1 + e2) * (1 + e3)))%R -> (s < (b + 1) * w * (1 + 4 * u32))%R.
  Proof.
    intros Hb Hw Hs E1 E2 E3 H. apply Rabs_le_inv in E1, E2, E3. pose proof u32_pos as U.
    assert (V : (u32 <= / 16)%R).
    { unfold u32. apply Rinv_le_contravar; [lra|]. replace 16%R with (2 ^ 4)%R by ring. apply Rle_pow; [lra|lia]. }
    set (u := u32) in *. assert (P : (0 < (b + 1) * w)%R) by (apply Rmult_lt_0_compat; lra).
    assert (A : ((1 + e2) * (1 + e3) <= (1 + u) * (1 + u))%R) by (apply Rmult_le_compat; lra).
    apply Rmult_lt_reg_r with (1 - u)%R; [lra|].
    apply Rle_lt_trans with (s * (1 + e1))%R; [apply Rmult_le_compat_l; lra|]. apply Rlt_le_trans with (1 := H).
    replace ((b + 1) * (w * (1 + e2) * (1 + e3)))%R with ((b + 1) * w * ((1 + e2) * (1 + e3)))%R by ring.
    rewrite (Rmult_assoc ((b + 1) * w)). apply Rmult_le_compat_l; [lra|]. apply Rle_trans with (1 := A).
    replace ((1 + u) * (1 + u))%R with (1 + 2 * u + u * u)%R by ring. replace ((1 + 4 * u) * (1 - u))%R with (1 + 3 * u - 4 * (u * u))%R by ring.
    assert (u * u <= / 16 * u)%R by (apply Rmult_le_compat_r; lra). lra.
  Qed.

  Lemma max_lt : (IZR (16777215 * 2 ^ 104) < bpow radix2 128)%R.
  Proof. change (bpow radix2 128) with (IZR (2 ^ 128)). apply IZR_lt. reflexivity. Qed.
  Lemma fmt_max : fmt (IZR (16777215 * 2 ^ 104)).
  Proof.
    change (fmt (IZR (16777215 * 2 ^ 104))) with (generic_format radix2 (FLT_exp (-149) 24) (IZR (16777215 * 2 ^ 104))).
    apply generic_format_FLT. exists (Float radix2 16777215 104); [|cbn; lia|cbn; lia].
    unfold F2R. cbn [Fnum Fexp]. change (bpow radix2 104) with (IZR (2 ^ 104)). now rewrite <- mult_IZR.
  Qed.
  Lemma fmt_small n : (Z.of_nat n <= 16777216)%Z -> fmt (INR n * bpow radix2 (-126)).
  Proof.
    intros H. change (generic_format radix2 (FLT_exp (-149) 24) (INR n * bpow radix2 (-126))).
    apply generic_format_FLT. rewrite INR_IZR_INZ. destruct (Z.eq_dec (Z.of_nat n) 16777216) as [->|].
    - exists (Float radix2 1 (-102)); [|cbn; lia|cbn; lia]. unfold F2R. cbn [Fnum Fexp].
      change (IZR 16777216) with (bpow radix2 24). rewrite <- bpow_plus. cbn [Z.add]. rewrite Rmult_1_l. reflexivity.
    - exists (Float radix2 (Z.of_nat n) (-126)); [reflexivity|cbn [Fnum]|cbn; lia]. change (radix2 ^ 24)%Z with 16777216%Z. lia.
  Qed.

  Lemma bin_bounds (x mn mx : b32) n : is_finite x = true -> is_finite mn = true -> is_finite mx = true ->
    (B2R mn <= B2R x <= B2R mx)%R -> 0 < n -> (Z.of_nat n <= 16777216)%Z ->
    (B2R mx - B2R mn <= IZR (16777215 * 2 ^ 104))%R -> (INR n * / 2 ^ 126 <= B2R mx - B2R mn)%R ->
    let d := if feq o mn mx then fepsilon o else fdiv o (fsub o mx mn) (fof o n) in
    let b := Nat.min (b32_floor (fdiv o (fsub o x mn) d)) (n - 1) in
    let w := ((B2R mx - B2R mn) / INR n)%R in
    (INR b * w * (1 - 4 * u32) <= B2R x - B2R mn)%R /\
    (b + 1 < n -> (B2R x - B2R mn < (INR b + 1) * w * (1 + 4 * u32))%R).
  Proof.
    intros Fx Fn Fm [H1 H2] Hn Hb Htop Hlow. cbv zeta.
    replace (/ 2 ^ 126)%R with (bpow radix2 (-126)) in Hlow by (apply (bpow_inv 126); lia).
    pose proof (bpow_gt_0 radix2 (-126)) as Pb. assert (Pn : (1 <= INR n)%R) by (apply (le_INR 1); lia).
    assert (L : (B2R mn < B2R mx)%R) by nra.
    assert (E : feq o mn mx = false). { cbn [feq b32_ops]. rewrite Beqb_correct by assumption. apply Req_bool_false. lra. }
    rewrite E. clear E.
    assert (En : is_finite (fof o n) = true /\ B2R (fof o n) = INR n).
    { cbn [fof b32_ops]. destruct (b32_of_Z_exact (Z.of_nat n)) as (A & B & _); [lia|]. rewrite A, B, INR_IZR_INZ. auto. }
    destruct En as [Ff En].
    set (W := (B2R mx - B2R mn)%R) in *. set (w := (W / INR n)%R).
    assert (Wn : (0 < W)%R) by (unfold W; lra).
    (* the spread *)
    destruct (sub_rel mx mn Fm Fn) as (e2 & He2 & E2). fold W in E2.
    destruct (sub_dist mx mn Fm Fn ltac:(lra)) as [[_ B1]|(FD & RD & _)].
    { exfalso. fold W in B1. pose proof (rnd_le_fmt W _ fmt_max Htop). pose proof max_lt. lra. }
    fold W in RD. set (D := fsub o mx mn) in *.
    assert (D1 : (INR n * bpow radix2 (-126) <= B2R D)%R) by (rewrite RD; apply rnd_ge_fmt; [now apply fmt_small|exact Hlow]).
    assert (Dn : (bpow radix2 (-126) <= B2R D / INR n)%R).
    { apply Rmult_le_reg_r with (INR n); [lra|]. unfold Rdiv. rewrite Rmult_assoc, Rinv_l by lra. lra. }
    (* the width *)
    destruct (div_number ln_ exp_ pow_ D (fof o n)) as [_ Rd]; [lra|apply b32_div_nat_finite; [exact FD|exact Hn|lia]|].
    rewrite En in Rd. set (d := fdiv o D (fof o n)) in *.
    destruct (rel_normal (B2R D / INR n)) as (e3 & He3 & E3); [rewrite Rabs_pos_eq; lra|]. rewrite E3 in Rd.
    assert (Pw : (0 < w)%R) by (apply Rdiv_lt_0_compat; lra).
    assert (Ed : B2R d = (w * (1 + e2) * (1 + e3))%R).
    { rewrite Rd, RD, E2. unfold w. field. lra. }
    pose proof (Rabs_le_inv _ _ He2) as Ie2. pose proof (Rabs_le_inv _ _ He3) as Ie3. pose proof u32_pos as U. pose proof u32_lt as U2.
    assert (Pd : (0 < B2R d)%R). { rewrite Ed. apply Rmult_lt_0_compat; [apply Rmult_lt_0_compat|]; lra. }
    assert (Fd : is_finite d = true) by (destruct d; auto; cbn in Pd; lra).
    (* the sample *)
    destruct (sub_rel x mn Fx Fn) as (e1 & He1 & E1).
    destruct (sub_dist x mn Fx Fn H1) as [[_ B1]|(FX & RX & _)].
    { exfalso. assert (B2R x - B2R mn <= W)%R by (unfold W; lra).
      assert (B2R x - B2R mn <= IZR (16777215 * 2 ^ 104))%R as K by lra. apply (rnd_le_fmt _ _ fmt_max) in K. pose proof max_lt. lra. }
    set (X := fsub o x mn) in *. set (s := (B2R x - B2R mn)%R) in *.
    assert (Ps : (0 <= s)%R) by (unfold s; lra).
    assert (XD : (0 <= B2R X <= B2R D)%R). { rewrite RX, RD. split; [apply rnd_ge_fmt; [apply fmt_0|exact Ps]|apply rnd_le; unfold s, W; lra]. }
    (* the quotient *)
    set (z := (B2R X / B2R d)%R) in *.
    assert (Zx : (z * B2R d = B2R X)%R) by (unfold z; field; lra).
    assert (Z0 : (0 <= z)%R) by (unfold z; apply Rmult_le_pos; [lra|apply Rlt_le, Rinv_0_lt_compat; exact Pd]).
    assert (Zt : (z <= 2 * INR n)%R).
    { apply Rmult_le_reg_r with (B2R d); [exact Pd|]. rewrite Zx, Rd. apply Rle_trans with (B2R D); [lra|].
      replace (2 * INR n * (B2R D / INR n * (1 + e3)))%R with (B2R D * (2 * (1 + e3)))%R by (field; lra).
      rewrite <- (Rmult_1_r (B2R D)) at 1. apply Rmult_le_compat_l; lra. }
    assert (Zb : (2 * INR n <= bpow radix2 25)%R).
    { rewrite INR_IZR_INZ. change (bpow radix2 25) with (2 * IZR 16777216)%R. apply Rmult_le_compat_l; [lra|]. now apply IZR_le. }
    assert (Rz : (0 <= rnd z <= bpow radix2 25)%R).
    { split; [apply rnd_ge_fmt; [apply fmt_0|exact Z0]|]. apply rnd_le_fmt; [|lra]. apply generic_format_bpow. cbn. lia. }
    pose proof (Bdiv_correct 24 128 b32_prec b32_emax mode_NE X d ltac:(lra)) as C. cbn [round_mode] in C. fold z in C.
    rewrite Rlt_bool_true in C.
    2:{ rewrite Rabs_pos_eq by lra. apply Rle_lt_trans with (bpow radix2 25); [lra|]. apply bpow_lt. lia. }
    destruct C as (Rq & Fq & _). rewrite FX in Fq.
    assert (Fl : exists k, b32_floor (fdiv o X d) = k /\ (INR k <= rnd z < INR k + 1)%R).
    { eexists. split; [reflexivity|]. rewrite floor_finite by exact Fq. cbn [fdiv b32_ops]. rewrite Rq.
      pose proof (Zfloor_lb (rnd z)) as A. pose proof (Zfloor_ub (rnd z)) as B.
      assert (G : (0 <= Zfloor (rnd z) <= 33554432)%Z).
      { split; [apply Zfloor_lub; lra|]. apply le_IZR. apply Rle_trans with (1 := A). change (IZR 33554432) with (bpow radix2 25). lra. }
      rewrite Z.min_r by (unfold two64; lia). rewrite INR_IZR_INZ, Z2Nat.id by lia. lra. }
    destruct Fl as (k & Ek & Lk & Uk). rewrite Ek.
    split.
    - destruct (Nat.eq_dec (Nat.min k (n - 1)) 0) as [->|N0]; [cbn [INR]; lra|].
      apply (lower_algebra _ _ _ e1 e2 e3); try assumption; [apply pos_INR|].
      rewrite <- Ed, <- E1, <- RX, <- Zx. apply Rmult_le_compat_r; [lra|].
      apply floor_lower; [lia|lia|]. apply Rle_trans with (2 := Lk). apply le_INR. lia.
    - intros Hk. apply (upper_algebra _ _ _ e1 e2 e3); try assumption; [apply pos_INR|].
      rewrite <- Ed, <- E1, <- RX, <- Zx. apply Rmult_lt_compat_r; [exact Pd|].
      assert (Nat.min k (n - 1) = k) as -> by lia.
      destruct (Rlt_or_le z (INR k + 1)) as [|G]; [assumption|]. exfalso.
      assert (INR k + 1 <= rnd z)%R; [|lra]. apply rnd_ge_fmt; [|exact G].
      rewrite <- S_INR, INR_IZR_INZ. apply b32_int_format. lia.
  Qed.

  Lemma c53_bins_b32 c (t : tensor b32) xs n :
    repr t [length xs] xs -> xs <> [] -> Forall (fun y => is_finite y = true) xs -> 0 < n -> supported [n + 1] ->
    exists bs edges,
      histogram o c t (Some n) =
        Ok (fresh [n] (map (fun k => b32_of_Z (Z.min (Z.of_nat (count_occ Nat.eq_dec bs k)) (2 ^ 24)) 0) (seq 0 n)),
            fresh [n + 1] edges) /\
      length edges = n + 1 /\ length bs = length xs /\ Forall (fun b => b < n) bs /\
      (forall i j x y a b, nth_error xs i = Some x -> nth_error bs i = Some a ->
         nth_error xs j = Some y -> nth_error bs j = Some b -> (B2R x <= B2R y)%R -> a <= b) /\
      (forall mn mx, least mn (map B2R xs) -> greatest mx (map B2R xs) -> (Z.of_nat n <= 2 ^ 24)%Z ->
         (mx - mn <= IZR (16777215 * 2 ^ 104))%R -> (INR n * / 2 ^ 126 <= mx - mn)%R ->
         let w := ((mx - mn) / INR n)%R in
         Forall2 (fun x b => (INR b * w * (1 - / 2 ^ 22) <= B2R x - mn)%R /\
           (b + 1 < n -> (B2R x - mn < (INR b + 1) * w * (1 + / 2 ^ 22))%R)) xs bs).
  Proof.
    intros H Hx HF Hn Hs. destruct xs as [|x xs]; [congruence|].
    inversion HF as [|? ? Fx Fxs]; subst.
    destruct (b32_extremes ln_ exp_ pow_ x xs Fx Fxs) as (F1 & F2 & Hb & Hall).
    destruct (c53_histogram_any (b32_ops ln_ exp_ pow_) c t x xs n H Hn Hs) as (edges & E & Le & _).
    { cbn [fle b32_ops]. rewrite Bleb_correct by auto. apply Raux.Rle_bool_true. lra. }
    set (mn := fold_left (fmin o) xs x) in *. set (mx := fold_left (fmax o) xs x) in *.
    set (d := if feq o mn mx then fepsilon o else fdiv o (fsub o mx mn) (fof o n)) in *.
    set (bin := fun y : b32 => Nat.min (ffloor o (fdiv o (fsub o y mn) d)) (n - 1)) in *.
    assert (All : forall y, In y (x :: xs) -> is_finite y = true /\ (B2R mn <= B2R y <= B2R mx)%R).
    { intros y [<-|Hy]; [now split|]. rewrite Forall_forall in Fxs, Hall. split; [now apply Fxs|now apply Hall]. }
    assert (Hn32 : (Z.of_nat n < 4294967296)%Z).
    { destruct Hs as [_ Hs]. cbn in Hs. lia. }
    exists (map bin (x :: xs)), edges. split.
    - rewrite E. do 2 f_equal. unfold fresh. rewrite !map_length. f_equal.
      apply map_ext. intros k. rewrite (times_b32 ln_ exp_ pow_). reflexivity.
    - split; [exact Le|]. split; [now rewrite map_length|]. split.
      { apply Forall_forall. intros b Hb'. apply in_map_iff in Hb'. destruct Hb' as (y & <- & _). unfold bin. lia. }
      split.
      + intros i j y z a b Hy Ha Hz Hbj Hle. rewrite nth_error_map, Hy in Ha. rewrite nth_error_map, Hz in Hbj.
        injection Ha as <-. injection Hbj as <-. apply nth_error_In in Hy, Hz.
        destruct (All y Hy) as [Fy By], (All z Hz) as [Fz Bz].
        destruct (sub_dist_mono y z mn Fy Fz F1 ltac:(lra)) as (D1 & D2 & D3).
        pose proof (div_mono _ _ d D1 D2 D3 (delta_dist mn mx n F1 F2 ltac:(lra) Hn Hn32)) as M.
        unfold bin. cbn [ffloor b32_ops]. cbn [ffloor b32_ops] in M. lia.
      + intros m M [Lm Lm'] [GM GM'] Hn24 Htop Hlow w.
        assert (Em : m = B2R mn).
        { apply in_map_iff in Lm. destruct Lm as (y & <- & Hy). apply Rle_antisym; [|now apply All].
          apply Lm'. apply in_map. destruct (fold_min_b32 ln_ exp_ pow_ xs x) as [K _]. exact K. }
        assert (EM : M = B2R mx).
        { apply in_map_iff in GM. destruct GM as (y & <- & Hy). apply Rle_antisym; [now apply All|].
          apply GM'. apply in_map. destruct (fold_max_b32 ln_ exp_ pow_ xs x) as [K _]. exact K. }
        subst m M.
        assert (E4 : (/ 2 ^ 22 = 4 * u32)%R) by (unfold u32; field). rewrite E4.
        assert (G : forall l, (forall y, In y l -> In y (x :: xs)) -> Forall2 (fun x b => (INR b * w * (1 - 4 * u32) <= B2R x - B2R mn)%R /\
           (b + 1 < n -> (B2R x - B2R mn < (INR b + 1) * w * (1 + 4 * u32))%R)) l (map bin l)); [|apply G; auto].
        induction l as [|y l IH]; intros Hl; cbn [map]; constructor; [|apply IH; intros; apply Hl; now right].
        destruct (All y) as [Fy By]; [apply Hl; now left|].
        exact (bin_bounds y mn mx n Fy F1 F2 By Hn Hn24 Htop Hlow).
  Qed.
End B32.

Lemma c53_overflow_b32_refuted ln_ exp_ pow_ :
  let o := b32_ops ln_ exp_ pow_ in
  let big := b32_of_Z 16777215 104 in
  exists counts edges,
    histogram o dev (fresh [2] [Bopp big; big]) (Some 2) = Ok (fresh [2] counts, fresh [3] edges) /\
    map B2SF counts = map B2SF [b32_of_Z 2 0; b32_of_Z 0 0] /\
    map B2SF edges = [SpecFloat.S754_nan; SpecFloat.S754_infinity false; SpecFloat.S754_infinity false].
Proof.
  cbv zeta.
  destruct (c53_histogram_any (b32_ops ln_ exp_ pow_) dev (fresh [2] [Bopp (b32_of_Z 16777215 104); b32_of_Z 16777215 104])
    (Bopp (b32_of_Z 16777215 104)) [b32_of_Z 16777215 104] 2) as (edges & E & Le & He).
  - apply repr_fresh; [split; cbn; lia|reflexivity].
  - lia.
  - split; cbn; lia.
  - vm_compute. reflexivity.
  - eexists _, edges. split; [exact E|]. split; [vm_compute; reflexivity|].
    pose proof (He 0 ltac:(lia)) as H0. pose proof (He 1 ltac:(lia)) as H1. pose proof (He 2 ltac:(lia)) as H2. clear He E.
    destruct edges as [|e0 [|e1 [|e2 [|]]]]; try discriminate Le.
    cbn [nth_error] in H0, H1, H2. injection H0 as ->. injection H1 as ->. injection H2 as ->. vm_compute. reflexivity.
Qed.
