(** * C83: the error of variances and deviations in binary32, proofs *)
From Coq Require Import Reals Lra Psatz SpecFloat.
From Flocq Require Import Core.Zaux Core.Raux Core.Defs Core.Generic_fmt Core.Float_prop IEEE754.BinarySingleNaN.
From Coq Require Import ZifyBool ZifyNat ZifyN.
From Verif Require Import Base ShapeModel TensorModel AxisModel MapModel NumModel FloatModel InitModel MathModel
  Spec FloatSpec BaseFacts ShapeFacts TensorFacts MapFacts RealFacts MathFacts MapSpec MapProofs MathSpec MathProofs
  RoundSpec RoundFacts RoundProofs.
Local Open Scope R_scope.

Lemma bmul a b A B : Rabs a <= A -> Rabs b <= B -> Rabs (a * b) <= A * B.
Proof. intros. rewrite Rabs_mult. apply Rmult_le_compat; auto using Rabs_pos. Qed.

Lemma u32_small : u32 <= / 100.
Proof.
  unfold u32. apply Rinv_le_contravar; [lra|]. apply Rle_trans with (2 ^ 7); [cbn; lra|]. apply Rle_pow; [lra|lia].
Qed.

Lemma rnd_abs y : Rabs (rnd y - y) <= u32 * Rabs y + tiny.
Proof.
  destruct (rnd_error y) as (e & h & He & Hh & ->). replace (y * (1 + e) + h - y) with (e * y + h) by ring.
  apply Rle_trans with (1 := Rabs_triang _ _). pose proof (bmul e y _ _ He (Rle_refl (Rabs y))). lra.
Qed.

(** One step of the mean. *)
Lemma mean_step M X P m r D q P' E :
  Rabs X <= M -> Rabs P <= M -> Rabs m <= M -> 0 < r <= / 2 -> tiny <= u32 * M ->
  Rabs (D - (X - P)) <= u32 * Rabs (X - P) + tiny ->
  Rabs (q - D * r) <= u32 * Rabs (D * r) + tiny ->
  Rabs (P' - (P + q)) <= u32 * Rabs (P + q) ->
  Rabs (P - m) <= E ->
  Rabs (P' - (m + (X - m) * r)) <= E + 6 * u32 * M /\ Rabs (D - (X - m)) <= E + 3 * u32 * M /\ Rabs D <= 21 / 10 * M /\
  Rabs (m + (X - m) * r) <= M.
Proof.
  intros HX HP Hm Hr Ht HD Hq HP' HE. pose proof u32_pos as U. pose proof u32_small as U2.
  assert (M0 : 0 <= M) by (pose proof (Rabs_pos X); lra).
  assert (UM : u32 * M <= / 100 * M) by (apply Rmult_le_compat_r; lra).
  assert (UM0 : 0 <= u32 * M) by (apply Rmult_le_pos; lra).
  set (a := D - (X - P)) in *. set (b := q - D * r) in *. set (g := P' - (P + q)) in *.
  assert (XP : Rabs (X - P) <= 2 * M) by (apply Rabs_le_inv in HX, HP; apply Rabs_le; lra).
  assert (Ha : Rabs a <= 3 * (u32 * M)).
  { apply Rle_trans with (1 := HD). pose proof (Rmult_le_compat_l u32 _ _ (Rlt_le _ _ U) XP). lra. }
  assert (HDb : Rabs D <= 21 / 10 * M).
  { replace D with (X - P + a) by (unfold a; ring). apply Rle_trans with (1 := Rabs_triang _ _). lra. }
  assert (Rr : Rabs r <= / 2) by (rewrite Rabs_pos_eq; lra).
  pose proof (bmul D r _ _ HDb Rr) as HDr. pose proof (bmul a r _ _ Ha Rr) as Har.
  assert (Hb : Rabs b <= 205 / 100 * (u32 * M) + / 100 * (u32 * M)).
  { apply Rle_trans with (1 := Hq). pose proof (Rmult_le_compat_l u32 _ _ (Rlt_le _ _ U) HDr). lra. }
  assert (CV : forall z, Rabs z <= M -> Rabs (z + (X - z) * r) <= M).
  { intros z Hz. replace (z + (X - z) * r) with (z * (1 - r) + X * r) by ring.
    apply Rle_trans with (1 := Rabs_triang _ _). 
    assert (A1 : Rabs (1 - r) <= 1 - r) by (rewrite Rabs_pos_eq; lra).
    assert (A2 : Rabs r <= r) by (rewrite Rabs_pos_eq; lra).
    pose proof (bmul z (1 - r) _ _ Hz A1). pose proof (bmul X r _ _ HX A2). lra. }
  assert (Hpq : Rabs (P + q) <= 11 / 10 * M).
  { replace (P + q) with (P + (X - P) * r + (a * r + b)) by (unfold a, b; ring).
    apply Rle_trans with (1 := Rabs_triang _ _). pose proof (CV P HP). pose proof (Rabs_triang (a * r) b). lra. }
  assert (Hg : Rabs g <= 11 / 10 * (u32 * M)).
  { apply Rle_trans with (1 := HP'). pose proof (Rmult_le_compat_l u32 _ _ (Rlt_le _ _ U) Hpq). lra. }
  split; [|split; [|split; [exact HDb|now apply CV]]].
  - replace (P' - (m + (X - m) * r)) with ((P - m) * (1 - r) + (a * r + b + g)) by (unfold a, b, g; ring).
    apply Rle_trans with (1 := Rabs_triang _ _).
    assert (A1 : Rabs (1 - r) <= 1) by (rewrite Rabs_pos_eq; lra).
    pose proof (bmul (P - m) (1 - r) _ _ HE A1). pose proof (Rabs_triang (a * r + b) g). pose proof (Rabs_triang (a * r) b). lra.
  - replace (D - (X - m)) with (a - (P - m)) by (unfold a; ring).
    apply Rle_trans with (1 := Rabs_triang _ _). rewrite Rabs_Ropp. lra.
Qed.

(** One step of the sum of squares. *)
Lemma square_step M X m m' D G T k E :
  Rabs X <= M -> Rabs m <= M -> Rabs m' <= M -> tiny <= u32 * (M * M) -> 2 <= k ->
  Rabs (D - (X - m)) <= E -> Rabs (G - (X - m')) <= E -> Rabs D <= 21 / 10 * M -> Rabs G <= 21 / 10 * M ->
  E <= 6 * k * (u32 * M) ->
  Rabs (T - D * G) <= u32 * Rabs (D * G) + tiny ->
  Rabs (T - (X - m) * (X - m')) <= 28 * k * (u32 * (M * M)) /\ Rabs ((X - m) * (X - m')) <= 4 * (M * M) /\
  Rabs T <= 6 * (M * M) /\ Rabs (D * G) <= 5 * (M * M).
Proof.
  intros HX Hm Hm' Ht Hk HD HG DB GB HE HT. pose proof u32_pos as U. pose proof u32_small as U2.
  assert (M0 : 0 <= M) by (pose proof (Rabs_pos X); lra).
  assert (Q0 : 0 <= M * M) by (apply Rmult_le_pos; lra).
  assert (UQ : u32 * (M * M) <= / 100 * (M * M)) by (apply Rmult_le_compat_r; lra).
  assert (UQ0 : 0 <= u32 * (M * M)) by (apply Rmult_le_pos; lra).
  assert (d1 : Rabs (X - m) <= 2 * M) by (apply Rabs_le_inv in HX, Hm; apply Rabs_le; lra).
  assert (d2 : Rabs (X - m') <= 2 * M) by (apply Rabs_le_inv in HX, Hm'; apply Rabs_le; lra).
  pose proof (bmul _ _ _ _ DB GB) as DG. replace (21 / 10 * M * (21 / 10 * M)) with (441 / 100 * (M * M)) in DG by field.
  assert (HR : Rabs (T - D * G) <= 541 / 100 * (u32 * (M * M))).
  { apply Rle_trans with (1 := HT). pose proof (Rmult_le_compat_l u32 _ _ (Rlt_le _ _ U) DG). lra. }
  pose proof (bmul _ _ _ _ (Rle_trans _ _ _ HD HE) GB) as B1. pose proof (bmul _ _ _ _ d1 (Rle_trans _ _ _ HG HE)) as B2.
  pose proof (bmul _ _ _ _ d1 d2) as B3.
  assert (B4 : 2 * (u32 * (M * M)) <= k * (u32 * (M * M))) by (apply Rmult_le_compat_r; lra).
  split; [|split; [lra|split; [|lra]]].
  - replace (T - (X - m) * (X - m')) with (T - D * G + ((D - (X - m)) * G + (X - m) * (G - (X - m')))) by ring.
    apply Rle_trans with (1 := Rabs_triang _ _).
    pose proof (Rabs_triang ((D - (X - m)) * G) ((X - m) * (G - (X - m')))). lra.
  - replace T with (T - D * G + D * G) by ring. apply Rle_trans with (1 := Rabs_triang _ _). lra.
Qed.

(** One step of the accumulation; [p] is the power of 1 + u so far. *)
Lemma accumulate_step Q S s T t k e p :
  0 <= Q -> 1 <= p -> 2 <= k ->
  Rabs (S - s) <= 33 * p * ((k - 1) * (k - 1)) * (u32 * Q) -> Rabs s <= 4 * (k - 1) * Q ->
  Rabs (T - t) <= 28 * k * (u32 * Q) -> Rabs t <= 4 * Q -> Rabs e <= u32 ->
  Rabs ((S + T) * (1 + e) - (s + t)) <= 33 * ((1 + u32) * p) * (k * k) * (u32 * Q) /\ Rabs (s + t) <= 4 * k * Q.
Proof.
  intros HQ Hp Hk HS Hs HT Ht He. pose proof u32_pos as U. pose proof u32_small as U2.
  assert (UQ0 : 0 <= u32 * Q) by (apply Rmult_le_pos; lra).
  assert (Hst : Rabs (s + t) <= 4 * k * Q) by (apply Rle_trans with (1 := Rabs_triang _ _); lra).
  split; [|exact Hst].
  replace ((S + T) * (1 + e) - (s + t)) with ((S - s + (T - t)) * (1 + e) + e * (s + t)) by ring.
  apply Rle_trans with (1 := Rabs_triang _ _).
  assert (H1 : Rabs (1 + e) <= 1 + u32) by (apply Rabs_le_inv in He; apply Rabs_le; lra).
  assert (H2 : Rabs (S - s + (T - t)) <= 33 * p * ((k - 1) * (k - 1)) * (u32 * Q) + 28 * k * (u32 * Q))
    by (apply Rle_trans with (1 := Rabs_triang _ _); lra).
  pose proof (bmul _ _ _ _ H2 H1) as B1. pose proof (bmul _ _ _ _ He Hst) as B2.
  set (w := u32 * Q) in *. replace (u32 * (4 * k * Q)) with (4 * k * w) in B2 by (unfold w; ring).
  assert (K1 : (k - 1) * (k - 1) + k <= k * k) by (ring_simplify; nra).
  assert (P1 : 1 + u32 <= (1 + u32) * p) by (rewrite <- (Rmult_1_r (1 + u32)) at 1; apply Rmult_le_compat_l; lra).
  assert (KW : 0 <= k * w) by (apply Rmult_le_pos; lra).
  assert (C1 : 28 * (1 + u32) * (k * w) + 4 * (k * w) <= 33 * (k * w)).
  { apply Rle_trans with ((28 * (1 + u32) + 4) * (k * w)); [lra|]. apply Rmult_le_compat_r; lra. }
  assert (C2 : 33 * (k * w) <= 33 * ((1 + u32) * p) * (k * w)).
  { apply Rmult_le_compat_r; [exact KW|]. lra. }
  assert (C3 : 33 * ((1 + u32) * p) * (((k - 1) * (k - 1) + k) * w) <= 33 * ((1 + u32) * p) * (k * k * w)).
  { apply Rmult_le_compat_l; [|apply Rmult_le_compat_r; [exact UQ0|exact K1]]. lra. }
  replace ((33 * p * ((k - 1) * (k - 1)) * w + 28 * k * w) * (1 + u32))
    with (33 * ((1 + u32) * p) * ((k - 1) * (k - 1) * w) + 28 * (1 + u32) * (k * w)) in B1 by ring.
  replace (33 * ((1 + u32) * p) * (((k - 1) * (k - 1) + k) * w))
    with (33 * ((1 + u32) * p) * ((k - 1) * (k - 1) * w) + 33 * ((1 + u32) * p) * (k * w)) in C3 by ring.
  replace (33 * ((1 + u32) * p) * (k * k) * w) with (33 * ((1 + u32) * p) * (k * k * w)) by ring.
  replace (4 * k * w) with (4 * (k * w)) in B2 by ring. lra.
Qed.

Lemma pow_le_2 k : (Z.of_nat k <= 8388608)%Z -> (1 + u32) ^ k <= 2 /\ INR k * u32 <= / 2.
Proof.
  intros Hk. pose proof u32_pos as U.
  assert (H1 : INR k * u32 <= / 2).
  { apply Rle_trans with (IZR 8388608 * u32); [apply Rmult_le_compat_r; [lra|]; rewrite INR_IZR_INZ; now apply IZR_le|].
    unfold u32. cbn [pow]. lra. }
  split; [|exact H1].
  pose proof (c68_gamma k ltac:(lra)) as G. pose proof (pos_INR k) as P.
  assert (H0 : 0 <= INR k * u32) by (apply Rmult_le_pos; lra).
  assert (H2 : INR k * u32 / (1 - INR k * u32) <= 1).
  { apply Rmult_le_reg_r with (1 - INR k * u32); [lra|]. unfold Rdiv. rewrite Rmult_assoc, Rinv_l by lra. lra. }
  lra.
Qed.

Section B32.
  Context (ln_ exp_ : b32 -> b32) (pow_ : b32 -> b32 -> b32).
  Notation o := (b32_ops ln_ exp_ pow_).

  Lemma add_ok (x y : b32) : number x -> number y -> Rabs (B2R x + B2R y) <= bpow radix2 126 -> number (fadd o x y).
  Proof.
    intros Hx Hy HB. pose proof (Bplus_correct 24 128 b32_prec b32_emax mode_NE x y Hx Hy) as C.
    rewrite Rlt_bool_true in C; [unfold number; cbn [fadd b32_ops]; tauto|].
    apply Rle_lt_trans with (bpow radix2 126); [|apply bpow_lt; lia].
    apply abs_round_le_generic; [now apply fexp_correct|apply valid_rnd_N|apply generic_format_bpow; cbn; lia|exact HB].
  Qed.

  Lemma mul_ok (x y : b32) : number x -> number y -> Rabs (B2R x * B2R y) <= bpow radix2 126 ->
    number (fmul o x y) /\ B2R (fmul o x y) = rnd (B2R x * B2R y).
  Proof.
    intros Hx Hy HB. pose proof (Bmult_correct 24 128 b32_prec b32_emax mode_NE x y) as C.
    rewrite Rlt_bool_true in C.
    - destruct C as (C1 & C2 & _). unfold number in *. cbn [fmul b32_ops]. rewrite C2, Hx, Hy. split; [reflexivity|exact C1].
    - apply Rle_lt_trans with (bpow radix2 126); [|apply bpow_lt; lia].
      apply abs_round_le_generic; [now apply fexp_correct|apply valid_rnd_N|apply generic_format_bpow; cbn; lia|exact HB].
  Qed.

  Section Bound.
    Context (M : R) (Mlo : / 2 ^ 60 <= M) (Mhi : M <= 2 ^ 48).

    Lemma M_pos : 0 < M.
    Proof. apply Rlt_le_trans with (2 := Mlo). apply Rinv_0_lt_compat, pow_lt. lra. Qed.
    Lemma tiny_M : tiny <= u32 * M.
    Proof.
      apply Rle_trans with (u32 * / 2 ^ 60); [|apply Rmult_le_compat_l; [apply Rlt_le, u32_pos|exact Mlo]].
      unfold tiny, u32. rewrite <- Rinv_mult, <- pow_add.
      apply Rinv_le_contravar; [apply pow_lt; lra|]. apply Rle_pow; [lra|lia].
    Qed.
    Lemma tiny_MM : tiny <= u32 * (M * M).
    Proof.
      assert (P : 0 <= / 2 ^ 60) by (apply Rlt_le, Rinv_0_lt_compat, pow_lt; lra).
      apply Rle_trans with (u32 * (/ 2 ^ 60 * / 2 ^ 60)).
      - unfold tiny, u32. rewrite <- !Rinv_mult, <- !pow_add.
        apply Rinv_le_contravar; [apply pow_lt; lra|]. apply Rle_pow; [lra|lia].
      - apply Rmult_le_compat_l; [apply Rlt_le, u32_pos|]. now apply Rmult_le_compat.
    Qed.
    Lemma MM_hi : M * M <= 2 ^ 96.
    Proof. pose proof M_pos. replace (2 ^ 96) with (2 ^ 48 * 2 ^ 48) by (rewrite <- pow_add; reflexivity). apply Rmult_le_compat; lra. Qed.
    Lemma bpow126 : bpow radix2 126 = 2 ^ 126.
    Proof. rewrite (bpow_powerRZ radix2). change 126%Z with (Z.of_nat 126). now rewrite <- pow_powerRZ. Qed.
    Lemma M_126 : M <= bpow radix2 126.
    Proof. rewrite bpow126. apply Rle_trans with (1 := Mhi). apply Rle_pow; [lra|lia]. Qed.

    Definition close (l : list b32) : Prop :=
      let w := fold_left (wstep o) l (welford_default o) in
      let v := fold_left (wstep R_ops) (map B2R l) (welford_default R_ops) in
      let k := INR (length l) in
      (number (wm w) /\ Rabs (B2R (wm w)) <= M /\ Rabs (wm v) <= M /\ Rabs (B2R (wm w) - wm v) <= 6 * (k - 1) * (u32 * M)) /\
      (number (ws w) /\ Rabs (ws v) <= 4 * k * (M * M) /\
       Rabs (B2R (ws w) - ws v) <= 33 * (1 + u32) ^ length l * (k * k) * (u32 * (M * M))).

    Lemma welford_close l : l <> nil -> (Z.of_nat (length l) <= 8388608)%Z ->
      Forall (fun x => number x /\ Rabs (B2R x) <= M) l -> close l.
    Proof.
      pose proof M_pos as M0. pose proof u32_pos as U. pose proof tiny_M as T1. pose proof tiny_MM as T2. pose proof M_126 as M126.
      pose proof u32_small as U2.
      assert (UM0 : 0 <= u32 * M) by (apply Rmult_le_pos; lra).
      assert (Q0 : 0 <= M * M) by (apply Rmult_le_pos; lra).
      assert (UQ0 : 0 <= u32 * (M * M)) by (apply Rmult_le_pos; lra).
      induction l as [|x l IH] using rev_ind; [congruence|]. intros _ Hl HF.
      rewrite app_length in Hl. cbn [length] in Hl. apply Forall_app in HF. destruct HF as [HF Hx].
      inversion_clear Hx as [|? ? [Nx Bx] _].
      destruct (Nat.eq_dec (length l) 0) as [E|E].
      { destruct l; [|discriminate]. unfold close. cbn [app fold_left map length INR wstep wk welford_default Nat.eqb wm ws].
        change (B2R (fzero o)) with 0. change (fzero R_ops) with 0. rewrite !Rminus_diag_eq, Rabs_R0 by reflexivity.
        split; [split; [exact Nx|split; [exact Bx|split; [exact Bx|]]]|split; [reflexivity|split]].
        - apply Rmult_le_pos; [|lra]. lra.
        - change (Rabs 0 <= 4 * 1 * (M * M)). rewrite Rabs_R0. lra.
        - apply Rmult_le_pos; [|lra]. apply Rmult_le_pos; [|lra]. apply Rmult_le_pos; [lra|]. apply pow_le. lra. }
      assert (Hne : l <> nil) by (intros ->; now apply E).
      destruct (IH Hne ltac:(lia) HF) as [(Nm & Bm & Rm & Em) (Ns & Rs & Es)].
      unfold close. rewrite map_app, !fold_left_app, app_length. cbn [map fold_left length].
      pose proof (wstep_count o l) as Hk1. pose proof (wstep_count R_ops (map B2R l)) as Hk2. rewrite map_length in Hk2.
      change (@length (binary_float 24 128) l) with (@length b32 l) in Hk2.
      change (@map b32 R (@B2R 24 128) l) with (@map (binary_float 24 128) R (@B2R 24 128) l).
      set (w := fold_left (wstep o) l (welford_default o)) in *.
      set (v := fold_left (wstep R_ops) (map B2R l) (welford_default R_ops)) in *.
      unfold wstep. rewrite Hk1, Hk2. destruct (Nat.eqb_spec (length l) 0) as [E'|_]; [lia|].
      cbn [wm ws wk fadd fsub fmul fdiv fof R_ops].
      set (n := length l) in *. set (k := INR (n + 1)).
      assert (Ek : k = INR n + 1) by (unfold k; now rewrite plus_INR).
      assert (K2 : 2 <= k).
      { rewrite Ek. assert (1 <= INR n) by (change 1 with (INR 1); apply le_INR; lia). lra. }
      destruct (b32_of_Z_exact (Z.of_nat (n + 1)) ltac:(lia)) as (Ef & Ff & _).
      change (b32_of_Z (Z.of_nat (n + 1)) 0) with (fof o (n + 1)) in Ef, Ff. rewrite <- INR_IZR_INZ in Ef. fold k in Ef.
      assert (Bdx : bounded x) by (split; [exact Nx|lra]).
      assert (Bdm : bounded (wm w)) by (split; [exact Nm|lra]).
      destruct (welford_step ln_ exp_ pow_ x (wm w) (n + 1) Bdx Bdm ltac:(lia) ltac:(lia)) as ((Nm' & _) & Btw & _).
      destruct (sub_number_ok ln_ exp_ pow_ x (wm w) Nx Nm (proj2 Bdx) (proj2 Bdm)) as [ND ED].
      pose proof (b32_div_nat_finite ln_ exp_ pow_ (fsub o x (wm w)) (n + 1) ND ltac:(lia) ltac:(lia)) as Nq.
      destruct (div_number ln_ exp_ pow_ (fsub o x (wm w)) (fof o (n + 1)) ltac:(rewrite Ef; lra) Nq) as [_ Eq]. rewrite Ef in Eq.
      destruct (add_error ln_ exp_ pow_ _ _ Nm') as (e1 & He1 & EP').
      set (D := fsub o x (wm w)) in *. set (q := fdiv o D (fof o (n + 1))) in *. set (P' := fadd o (wm w) q) in *.
      assert (BP' : Rabs (B2R P') <= M).
      { apply Rabs_le_inv in Bx, Bm. apply Rabs_le. lra. }
      assert (Bd' : bounded P') by (split; [exact Nm'|lra]).
      destruct (sub_number_ok ln_ exp_ pow_ x P' Nx Nm' (proj2 Bdx) (proj2 Bd')) as [NG EG].
      set (G := fsub o x P') in *.
      pose proof (rnd_abs (B2R x - B2R (wm w))) as RD. rewrite <- ED in RD.
      pose proof (rnd_abs (B2R D / k)) as Rq. rewrite <- Eq in Rq. unfold Rdiv in Rq.
      pose proof (rnd_abs (B2R x - B2R P')) as RG. rewrite <- EG in RG.
      assert (RP : Rabs (B2R P' - (B2R (wm w) + B2R q)) <= u32 * Rabs (B2R (wm w) + B2R q)).
      { rewrite EP'. replace ((B2R (wm w) + B2R q) * (1 + e1) - (B2R (wm w) + B2R q)) with (e1 * (B2R (wm w) + B2R q)) by ring.
        apply bmul; [exact He1|apply Rle_refl]. }
      assert (Hr : 0 < / k <= / 2) by (split; [apply Rinv_0_lt_compat; lra|apply Rinv_le_contravar; lra]).
      destruct (mean_step M (B2R x) (B2R (wm w)) (wm v) (/ k) (B2R D) (B2R q) (B2R P') _ Bx Bm Rm Hr T1 RD Rq RP Em)
        as (S1 & S2 & S3 & S4).
      change ((B2R x - wm v) / k) with ((B2R x - wm v) * / k).
      set (m' := wm v + (B2R x - wm v) * / k) in *.
      assert (Ek1 : INR n - 1 = k - 2) by lra. rewrite Ek1 in *.
      assert (XP : Rabs (B2R x - B2R P') <= 2 * M) by (apply Rabs_le_inv in Bx, BP'; apply Rabs_le; lra).
      assert (RG' : Rabs (B2R G - (B2R x - B2R P')) <= 3 * (u32 * M)).
      { apply Rle_trans with (1 := RG). pose proof (Rmult_le_compat_l u32 _ _ (Rlt_le _ _ U) XP). lra. }
      assert (UM1 : u32 * M <= / 100 * M) by (apply Rmult_le_compat_r; lra).
      assert (GB : Rabs (B2R G) <= 21 / 10 * M).
      { replace (B2R G) with (B2R G - (B2R x - B2R P') + (B2R x - B2R P')) by ring. apply Rle_trans with (1 := Rabs_triang _ _). lra. }
      assert (GE : Rabs (B2R G - (B2R x - m')) <= 6 * k * (u32 * M)).
      { replace (B2R G - (B2R x - m')) with (B2R G - (B2R x - B2R P') - (B2R P' - m')) by ring.
        apply Rle_trans with (1 := Rabs_triang _ _). rewrite Rabs_Ropp. lra. }
      assert (DE : Rabs (B2R D - (B2R x - wm v)) <= 6 * k * (u32 * M)) by lra.
      pose proof MM_hi as MH.
      pose proof (bmul _ _ _ _ S3 GB) as DG.
      assert (P126 : 2 ^ 126 = 2 ^ 96 * 1073741824) by (replace 1073741824 with (2 ^ 30) by (cbn; lra); rewrite <- pow_add; reflexivity).
      destruct (mul_ok D G ND NG) as [NT ET]. { rewrite bpow126, P126. lra. }
      pose proof (rnd_abs (B2R D * B2R G)) as RT. rewrite <- ET in RT.
      destruct (square_step M (B2R x) (wm v) m' (B2R D) (B2R G) (B2R (fmul o D G)) k _ Bx Rm S4 T2 K2 DE GE S3 GB (Rle_refl _) RT)
        as (Q1 & Q2 & Q3 & _).
      assert (Ek2 : INR n = k - 1) by lra. rewrite Ek2 in *.
      set (T := fmul o D G) in *. 
      destruct (pow_le_2 n ltac:(lia)) as [PW KU]. rewrite Ek2 in KU.
      assert (PW1 : 1 <= (1 + u32) ^ n) by (pose proof (gamma_nonneg n); lra).
      assert (NS : number (fadd o (ws w) T)).
      { apply add_ok; [exact Ns|exact NT|].
        assert (KB : k <= 8388608).
        { unfold k. rewrite INR_IZR_INZ. apply IZR_le. lia. }
        assert (Z1 : 33 * (1 + u32) ^ n * ((k - 1) * (k - 1)) * (u32 * (M * M)) <= 33 * (k - 1) * (M * M)).
        { replace (33 * (1 + u32) ^ n * ((k - 1) * (k - 1)) * (u32 * (M * M)))
            with ((1 + u32) ^ n * ((k - 1) * u32) * (33 * (k - 1) * (M * M))) by ring.
          rewrite <- (Rmult_1_l (33 * (k - 1) * (M * M))) at 2. apply Rmult_le_compat_r.
          - apply Rmult_le_pos; [|exact Q0]. lra.
          - apply Rle_trans with (2 * / 2); [|lra]. apply Rmult_le_compat; [lra|apply Rmult_le_pos; lra|lra|lra]. }
        assert (Z2 : k * (M * M) <= 8388608 * 2 ^ 96) by (apply Rmult_le_compat; lra).
        replace (B2R (ws w) + B2R T) with (B2R (ws w) - ws v + (ws v + B2R T)) by ring.
        apply Rle_trans with (1 := Rabs_triang _ _). pose proof (Rabs_triang (ws v) (B2R T)) as Z3. rewrite bpow126, P126.
        assert (Z4 : 0 < 2 ^ 96) by (apply pow_lt; lra). lra. }
      destruct (add_error ln_ exp_ pow_ _ _ NS) as (e2 & He2 & ES).
      destruct (accumulate_step (M * M) (B2R (ws w)) (ws v) (B2R T) ((B2R x - wm v) * (B2R x - m')) k e2 ((1 + u32) ^ n)
        Q0 PW1 K2 Es Rs Q1 Q2 He2) as [A1 A2].
      fold k. split.
      - split; [exact Nm'|]. split; [exact BP'|]. split; [exact S4|].
        apply Rle_trans with (1 := S1). lra.
      - split; [exact NS|]. split; [exact A2|]. rewrite ES. rewrite Nat.add_1_r. cbn [pow]. exact A1.
    Qed.

    Lemma var_error l : l <> nil -> (Z.of_nat (length l) <= 8388608)%Z ->
      Forall (fun x => number x /\ Rabs (B2R x) <= M) l ->
      let r := var_result o (fold_left (wstep o) l (welford_default o)) in
      number r /\ Rabs (B2R r - variance (map B2R l)) <= 100 * INR (length l) * (u32 * (M * M)) /\
      Rabs (variance (map B2R l)) <= 4 * (M * M).
    Proof.
      intros Hne Hl HF. cbv zeta. destruct (welford_close l Hne Hl HF) as [_ (Ns & Rs & Es)].
      pose proof (welford_variance (map B2R l)) as V. rewrite map_length in V.
      change (@length (binary_float 24 128) l) with (@length b32 l) in V.
      pose proof M_pos as M0. pose proof u32_pos as U. pose proof tiny_MM as T2.
      assert (Q0 : 0 <= M * M) by (apply Rmult_le_pos; lra).
      assert (UQ0 : 0 <= u32 * (M * M)) by (apply Rmult_le_pos; lra).
      assert (E0 : (length l =? 0) = false) by (apply Nat.eqb_neq; destruct l; [congruence|discriminate]).
      rewrite E0 in V. rewrite <- V. unfold var_result. rewrite !wstep_count, map_length.
      change (@length (binary_float 24 128) l) with (@length b32 l).
      set (n := length l) in *. pose proof (pos_INR n) as Pn.
      destruct (Nat.ltb_spec 1 n) as [H1|H1].
      2:{ change (B2R (fzero o)) with 0. change (fzero R_ops) with 0. rewrite Rminus_diag_eq, Rabs_R0 by reflexivity.
          split; [reflexivity|]. split; [|lra]. apply Rmult_le_pos; [|exact UQ0]. lra. }
      set (S := ws (fold_left (wstep o) l (welford_default o))) in *.
      change (@map b32 R (@B2R 24 128) l) with (@map (binary_float 24 128) R (@B2R 24 128) l) in *.
      set (s := ws (fold_left (wstep R_ops) (map B2R l) (welford_default R_ops))) in *.
      assert (N2 : 2 <= INR n) by (change 2 with (INR 2); apply le_INR; lia).
      destruct (b32_of_Z_exact (Z.of_nat n) ltac:(lia)) as (Ef & Ff & _).
      change (b32_of_Z (Z.of_nat n) 0) with (fof o n) in Ef, Ff. rewrite <- INR_IZR_INZ in Ef.
      pose proof (b32_div_nat_finite ln_ exp_ pow_ S n Ns ltac:(lia) ltac:(lia)) as Nq. split; [exact Nq|].
      destruct (div_number ln_ exp_ pow_ S (fof o n) ltac:(rewrite Ef; lra) Nq) as [_ Eq]. rewrite Ef in Eq. rewrite Eq.
      cbn [fdiv fof R_ops]. unfold Rdiv. set (r := / INR n).
      assert (Hr : 0 < r) by (apply Rinv_0_lt_compat; lra).
      assert (Er : INR n * r = 1) by (apply Rinv_r; lra).
      destruct (pow_le_2 n ltac:(lia)) as [PW KU].
      assert (Es' : Rabs (B2R S - s) <= INR n * (66 * INR n * (u32 * (M * M)))).
      { apply Rle_trans with (1 := Es).
        replace (INR n * (66 * INR n * (u32 * (M * M)))) with (33 * 2 * (INR n * INR n) * (u32 * (M * M))) by ring.
        apply Rmult_le_compat_r; [exact UQ0|]. apply Rmult_le_compat_r; [apply Rmult_le_pos; lra|]. lra. }
      assert (Rr : Rabs r <= r) by (rewrite Rabs_pos_eq; lra).
      pose proof (bmul _ _ _ _ Es' Rr) as B1. pose proof (bmul _ _ _ _ Rs Rr) as B2.
      replace (INR n * (66 * INR n * (u32 * (M * M))) * r) with (INR n * r * (66 * INR n * (u32 * (M * M)))) in B1 by ring.
      replace (4 * INR n * (M * M) * r) with (INR n * r * (4 * (M * M))) in B2 by ring. rewrite Er, Rmult_1_l in B1, B2.
      split; [|exact B2].
      pose proof (rnd_abs (B2R S * r)) as R1.
      assert (B3 : Rabs (B2R S * r) <= 66 * INR n * (u32 * (M * M)) + 4 * (M * M)).
      { replace (B2R S * r) with ((B2R S - s) * r + s * r) by ring. apply Rle_trans with (1 := Rabs_triang _ _). lra. }
      assert (B4 : 66 * INR n * (u32 * (M * M)) <= 33 * (M * M)).
      { replace (66 * INR n * (u32 * (M * M))) with (INR n * u32 * (66 * (M * M))) by ring.
        apply Rle_trans with (/ 2 * (66 * (M * M))); [apply Rmult_le_compat_r; lra|lra]. }
      assert (B5 : Rabs (B2R S * r) <= 37 * (M * M)) by lra.
      pose proof (Rmult_le_compat_l u32 _ _ (Rlt_le _ _ U) B5) as B6.
      assert (B7 : 2 * (u32 * (M * M)) <= INR n * (u32 * (M * M))) by (apply Rmult_le_compat_r; lra).
      replace (rnd (B2R S * r) - s * r) with (rnd (B2R S * r) - B2R S * r + (B2R S - s) * r) by ring.
      apply Rle_trans with (1 := Rabs_triang _ _). lra.
    Qed.

    Lemma sqrt_diff a b : 0 <= a -> 0 <= b -> Rabs (sqrt a - sqrt b) <= sqrt (Rabs (a - b)).
    Proof.
      assert (G : forall a b, 0 <= b -> b <= a -> Rabs (sqrt a - sqrt b) <= sqrt (Rabs (a - b))).
      { intros x y Hy Hxy. pose proof (sqrt_le_1 y x Hy ltac:(lra) Hxy) as L. rewrite !Rabs_pos_eq by lra.
        pose proof (sqrt_positivity y Hy) as P1. pose proof (sqrt_positivity x ltac:(lra)) as P2.
        pose proof (sqrt_positivity (x - y) ltac:(lra)) as P3.
        apply Rsqr_incr_0; [|lra|exact P3]. unfold Rsqr.
        rewrite (sqrt_sqrt (x - y)) by lra. pose proof (sqrt_sqrt x ltac:(lra)) as Q1. pose proof (sqrt_sqrt y Hy) as Q2. nra. }
      intros Ha Hb. destruct (Rle_or_lt b a) as [L|L]; [now apply G|].
      rewrite Rabs_minus_sym, (Rabs_minus_sym a). apply G; lra.
    Qed.

    Lemma std_error l : l <> nil -> (Z.of_nat (length l) <= 8388608)%Z ->
      Forall (fun x => number x /\ Rabs (B2R x) <= M) l ->
      let r := std_result o (fold_left (wstep o) l (welford_default o)) in
      number r /\ Rabs (B2R r - sqrt (variance (map B2R l))) <= 11 * sqrt (INR (length l) * u32) * M.
    Proof.
      intros Hne Hl HF. cbv zeta. destruct (var_error l Hne Hl HF) as (Nv & Ev & Bv).
      assert (HB : Forall bounded l).
      { eapply Forall_impl; [|exact HF]. intros x [H1 H2]. split; [exact H1|]. pose proof M_126. lra. }
      destruct (var_nonneg ln_ exp_ pow_ l ltac:(lia) HB) as [Pv _].
      apply nonneg_cases in Pv. destruct Pv as [Pv|[_ Pv]]; [rewrite Pv in Nv; discriminate|].
      pose proof (variance_nonneg (map B2R l)) as PV. pose proof u32_small as U2.
      pose proof M_pos as M0. pose proof u32_pos as U. pose proof tiny_M as T1.
      assert (N1 : 1 <= INR (length l)) by (change 1 with (INR 1); apply le_INR; destruct l; [congruence|cbn; lia]).
      set (V := variance (map B2R l)) in *. set (g := sqrt (INR (length l) * u32)).
      assert (G0 : 0 <= g) by apply sqrt_pos.
      assert (GM0 : 0 <= g * M) by (apply Rmult_le_pos; lra).
      assert (Nu : u32 <= INR (length l) * u32) by (rewrite <- (Rmult_1_l u32) at 1; apply Rmult_le_compat_r; lra).
      unfold std_result. unfold var_result in Nv, Ev, Pv. destruct (1 <? wk (fold_left (wstep o) l (welford_default o)))%nat eqn:E1.
      2:{ assert (V0 : V = 0).
          { pose proof (welford_variance (map B2R l)) as W. unfold var_result in W. rewrite wstep_count, map_length in E1, W || rewrite wstep_count in E1.
            rewrite wstep_count in W. rewrite map_length in W. change (@length (binary_float 24 128) l) with (@length b32 l) in W.
            rewrite E1 in W. destruct (Nat.eqb_spec (length l) 0) as [E0|_]; [destruct l; [congruence|discriminate]|]. symmetry. exact W. }
          rewrite V0, sqrt_0. change (B2R (fzero o)) with 0. rewrite Rminus_diag_eq, Rabs_R0 by reflexivity.
          split; [reflexivity|]. lra. }
      set (v := fdiv o (ws (fold_left (wstep o) l (welford_default o))) (fof o (wk (fold_left (wstep o) l (welford_default o))))) in *.
      destruct (Bsqrt_correct 24 128 b32_prec b32_emax mode_NE v) as (C1 & C2 & _). cbn [round_mode] in C1.
      assert (Nr : number (fsqrt o v)).
      { unfold number. cbn [fsqrt b32_ops]. rewrite C2. unfold number in Nv.
        destruct v as [b|b| |b m e H]; try discriminate; try reflexivity. destruct b; [|reflexivity].
        exfalso. cbn [B2R] in Pv. apply (Rle_not_lt _ _ Pv). now apply F2R_lt_0. }
      split; [exact Nr|]. cbn [fsqrt b32_ops]. rewrite C1.
      pose proof (sqrt_diff (B2R v) V Pv PV) as D1.
      assert (D2 : sqrt (Rabs (B2R v - V)) <= 10 * (g * M)).
      { apply Rle_trans with (sqrt (100 * INR (length l) * (u32 * (M * M)))); [apply sqrt_le_1; [apply Rabs_pos| |exact Ev]|].
        - pose proof (Rabs_pos (B2R v - V)). lra.
        - replace (100 * INR (length l) * (u32 * (M * M))) with (10 * (g * M) * (10 * (g * M))).
          + rewrite sqrt_square; lra.
          + replace (10 * (g * M) * (10 * (g * M))) with (100 * (g * g) * (M * M)) by ring. unfold g. rewrite sqrt_sqrt by lra. ring. }
      assert (D3 : sqrt V <= 2 * M).
      { rewrite <- (sqrt_square (2 * M)) by lra. apply sqrt_le_1; [exact PV|apply Rmult_le_pos; lra|].
        apply Rabs_le_inv in Bv. lra. }
      assert (D4 : u32 * M <= / 10 * (g * M)).
      { rewrite <- Rmult_assoc. apply Rmult_le_compat_r; [lra|].
        assert (G1 : sqrt u32 <= g) by (apply sqrt_le_1; lra). pose proof (sqrt_sqrt u32 ltac:(lra)) as SS.
        assert (G2 : sqrt u32 <= / 10).
        { replace (/ 10) with (sqrt (/ 10 * / 10)) by (apply sqrt_square; lra). apply sqrt_le_1; lra. }
        pose proof (sqrt_pos u32) as G3. rewrite <- SS. apply Rmult_le_compat; lra. }
      pose proof (rnd_abs (sqrt (B2R v))) as R1. rewrite (Rabs_pos_eq (sqrt (B2R v))) in R1 by apply sqrt_pos.
      apply Rabs_le_inv in D1.
      assert (D5 : sqrt (B2R v) <= 2 * M + 10 * (g * M)) by lra.
      pose proof (Rmult_le_compat_l u32 _ _ (Rlt_le _ _ U) D5) as D6.
      assert (D7 : u32 * (g * M) <= / 100 * (g * M)) by (apply Rmult_le_compat_r; lra).
      apply Rabs_le. apply Rabs_le_inv in R1. lra.
    Qed.
  End Bound.

  Lemma c83_variance c (t : tensor b32) ds xs M :
    repr t ds xs -> xs <> nil -> (Z.of_nat (length xs) <= 8388608)%Z -> / 2 ^ 60 <= M <= 2 ^ 48 ->
    Forall (fun x => number x /\ Rabs (B2R x) <= M) xs ->
    exists v, reduce_variance o c t = Ok (fresh [] [v]) /\ number v /\
      Rabs (B2R v - variance (map B2R xs)) <= 100 * INR (length xs) * (u32 * (M * M)).
  Proof.
    intros H Hn Hl [M1 M2] HF. unfold reduce_variance. rewrite (c29_fold _ _ _ _ _ _ _ _ H).
    rewrite welford_fold by (pose proof (repr_length_small _ _ _ H); cbn; lia). cbn [bind].
    eexists. split; [reflexivity|]. destruct (var_error M M1 M2 xs Hn Hl HF) as (V1 & V2 & _). split; [exact V1|exact V2].
  Qed.

  Lemma c83_std c (t : tensor b32) ds xs M :
    repr t ds xs -> xs <> nil -> (Z.of_nat (length xs) <= 8388608)%Z -> / 2 ^ 60 <= M <= 2 ^ 48 ->
    Forall (fun x => number x /\ Rabs (B2R x) <= M) xs ->
    exists v, reduce_std o c t = Ok (fresh [] [v]) /\ number v /\
      Rabs (B2R v - sqrt (variance (map B2R xs))) <= 11 * sqrt (INR (length xs) * u32) * M.
  Proof.
    intros H Hn Hl [M1 M2] HF. unfold reduce_std. rewrite (c29_fold _ _ _ _ _ _ _ _ H).
    rewrite welford_fold by (pose proof (repr_length_small _ _ _ H); cbn; lia). cbn [bind].
    eexists. split; [reflexivity|]. destruct (std_error M M1 M2 xs Hn Hl HF) as (V1 & V2). split; [exact V1|exact V2].
  Qed.

  Lemma c83_axis c (t : tensor b32) a d1 d d2 xs M :
    repr t (d1 ++ d :: d2) xs -> names_axis a (length d1) (length (d1 ++ d :: d2)) ->
    Forall (fun d => (0 < d)%nat) (d1 ++ d2) -> (0 < d)%nat -> (Z.of_nat d <= 8388608)%Z -> / 2 ^ 60 <= M <= 2 ^ 48 ->
    Forall (fun x => number x /\ Rabs (B2R x) <= M) xs ->
    exists ls vs ss, axis_lines d1 d d2 xs ls /\
      reduce_variance_axis o c t (Some a) = Ok (fresh (d1 ++ d2) vs) /\
      reduce_std_axis o c t (Some a) = Ok (fresh (d1 ++ d2) ss) /\
      Forall2 (fun v l => number v /\ Rabs (B2R v - variance (map B2R l)) <= 100 * INR d * (u32 * (M * M))) vs ls /\
      Forall2 (fun s l => number s /\ Rabs (B2R s - sqrt (variance (map B2R l))) <= 11 * sqrt (INR d * u32) * M) ss ls.
  Proof.
    intros H Ha Hp Hd Hs [M1 M2] HF.
    assert (Hf : forall l : list b32, length l = d ->
      foldM (welford_update o c) tt (welford_default o) l
      = Ok (tt, fold_left (wstep o) l (welford_default o))).
    { intros l Hl. apply welford_fold. cbn. unfold two64. lia. }
    destruct (fold_axis_total c t a d1 d d2 xs (welford_default o) (var_result o) _ _ H Ha Hp Hf) as (ls & Hls & E1).
    destruct (fold_axis_total c t a d1 d d2 xs (welford_default o) (std_result o) _ _ H Ha Hp Hf) as (ls' & Hls' & E2).
    pose proof (c30_lines_unique _ _ _ _ _ _ Hls' Hls) as ->.
    eexists ls, _, _. split; [exact Hls|]. split; [unfold reduce_variance_axis; rewrite E1; reflexivity|].
    split; [unfold reduce_std_axis; rewrite E2; reflexivity|].
    assert (Hb : forall l, In l ls -> length l = d /\ l <> nil /\ Forall (fun x => number x /\ Rabs (B2R x) <= M) l).
    { intros l Hl. pose proof (axis_lines_length _ _ _ _ _ _ (repr_len _ _ _ H) Hls Hl) as El. split; [exact El|].
      split; [destruct l; [cbn in El; lia|discriminate]|].
      apply Forall_forall. intros x Hx. rewrite Forall_forall in HF. apply HF. eapply axis_lines_in; eauto. apply H. }
    split; apply Forall2_map_l; intros l Hl; destruct (Hb l Hl) as (El & Hn & HFl); rewrite <- El.
    - destruct (var_error M M1 M2 l Hn ltac:(lia) HFl) as (V1 & V2 & _). split; [exact V1|exact V2].
    - exact (std_error M M1 M2 l Hn ltac:(lia) HFl).
  Qed.

  Lemma var2 (x y : b32) : variance [B2R x; B2R y] = (B2R x - B2R y) * (B2R x - B2R y) / 4.
  Proof. unfold variance, mean. cbn [map rsum length INR]. unfold Rdiv. cbn. field. Qed.

  Lemma c83_relative_refuted c :
    let n k := b32_of_Z k 0 in
    (exists v, reduce_variance o c (fresh [2%nat] [n 16777218; n 16777220]%Z) = Ok (fresh [] [v]) /\
       B2R v = 0 /\ variance (map B2R [n 16777218; n 16777220]%Z) = 1) /\
    (exists v, reduce_variance o c (fresh [2%nat] [n 16777216; n 16777218]%Z) = Ok (fresh [] [v]) /\
       B2R v = 2 /\ variance (map B2R [n 16777216; n 16777218]%Z) = 1).
  Proof.
    cbv zeta.
    assert (A : forall x y : b32, reduce_variance o c (fresh [2%nat] [x; y])
      = Ok (fresh [] [var_result o (fold_left (wstep o) [x; y] (welford_default o))])).
    { intros x y. assert (H : repr (fresh [2%nat] [x; y]) [2%nat] [x; y]).
      { apply repr_fresh; [apply supported_pos; cbn; unfold two32; lia|reflexivity]. }
      unfold reduce_variance. rewrite (c29_fold _ _ _ _ _ _ _ _ H). rewrite welford_fold by (cbn; unfold two64; lia). reflexivity. }
    split; eexists; (split; [apply A|split]).
    - rewrite <- SF2R_B2SF.
      match goal with |- SF2R _ ?s = _ => replace s with (S754_zero false) by (symmetry; vm_compute; reflexivity) end. reflexivity.
    - cbn [map]. rewrite var2. rewrite <- (SF2R_B2SF _ _ (b32_of_Z 16777218 0)), <- (SF2R_B2SF _ _ (b32_of_Z 16777220 0)).
      replace (B2SF (b32_of_Z 16777218 0)) with (S754_finite false 8388609 1) by (symmetry; vm_compute; reflexivity).
      replace (B2SF (b32_of_Z 16777220 0)) with (S754_finite false 8388610 1) by (symmetry; vm_compute; reflexivity).
      unfold SF2R, F2R. cbn [Fnum Fexp cond_Zopp]. change (bpow radix2 1) with 2. lra.
    - rewrite <- SF2R_B2SF.
      match goal with |- SF2R _ ?s = _ => replace s with (S754_finite false 8388608 (-22)) by (symmetry; vm_compute; reflexivity) end.
      unfold SF2R, F2R. cbn [Fnum Fexp cond_Zopp]. change (bpow radix2 (-22)) with (/ IZR (2 ^ 22)).
      change (2 ^ 22)%Z with 4194304%Z. field.
    - cbn [map]. rewrite var2. rewrite <- (SF2R_B2SF _ _ (b32_of_Z 16777216 0)), <- (SF2R_B2SF _ _ (b32_of_Z 16777218 0)).
      replace (B2SF (b32_of_Z 16777216 0)) with (S754_finite false 8388608 1) by (symmetry; vm_compute; reflexivity).
      replace (B2SF (b32_of_Z 16777218 0)) with (S754_finite false 8388609 1) by (symmetry; vm_compute; reflexivity).
      unfold SF2R, F2R. cbn [Fnum Fexp cond_Zopp]. change (bpow radix2 1) with 2. lra.
  Qed.
End B32.
