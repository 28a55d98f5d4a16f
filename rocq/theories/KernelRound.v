(** * Rounding errors of products by any kernel (C82) *)
From Coq Require Import Reals Lra Psatz Permutation.
From Flocq Require Import Core.Zaux Core.Raux Core.Defs Core.Generic_fmt Core.FLT Core.Float_prop Core.Round_NE
  Relative Plus_error IEEE754.BinarySingleNaN.
From Verif Require Import Base Spec BaseFacts FloatModel TensorModel LinalgModel KernelModel KernelSpec FloatSpec RealFacts MathFacts
  RoundSpec RoundFacts KernelFacts KernelProofs.

Definition bprod (p : b32 * b32) : R := (B2R (fst p) * B2R (snd p))%R.

Notation o0 := (b32_ops (fun x => x) (fun x => x) (fun x _ => x)).

Lemma fma_number (x y z : b32) : number (@Bfma 24 128 b32_prec b32_emax mode_NE x y z) ->
  number x /\ number y /\ number z /\
  B2R (@Bfma 24 128 b32_prec b32_emax mode_NE x y z) = rnd (B2R x * B2R y + B2R z).
Proof.
  unfold number. intros H.
  assert (Hf : is_finite x = true /\ is_finite y = true /\ is_finite z = true).
  { destruct x as [a|a| |a m e Hx], y as [b|b| |b m' e' Hy], z as [d|d| |d m'' e'' Hz]; cbn in H |- *; auto; try discriminate;
      destruct (Bool.eqb _ _); discriminate. }
  destruct Hf as (Hx & Hy & Hz). repeat (split; [assumption|]).
  pose proof (Bfma_correct 24 128 b32_prec b32_emax mode_NE x y z Hx Hy Hz) as C. cbv zeta in C.
  destruct (Rlt_bool _ _); [now destruct C|].
  exfalso. destruct (Bfma mode_NE x y z) as [b|b| |b m e H0]; try discriminate.
Qed.

Lemma rsum_perm l l' : Permutation l l' -> rsum l = rsum l'.
Proof. induction 1; cbn in *; unfold rsum in *; cbn in *; lra. Qed.

Lemma sum_of_nil ps v : sum_of ps v -> ps = [] -> v = b32_of_Z 0 0.
Proof.
  induction 1 as [|x y|ps qs u v H1 IH1 H2 IH2|x y ps u H IH|ps u H IH|ps qs u P H IH]; intros E; try discriminate.
  - reflexivity.
  - apply app_eq_nil in E. destruct E as [-> ->]. rewrite IH1, IH2 by reflexivity. apply B2SF_inj. reflexivity.
  - rewrite IH by assumption. apply B2SF_inj. reflexivity.
  - subst qs. apply IH. apply Permutation_sym in P. now apply Permutation_nil in P.
Qed.

Lemma zero_value : B2R (b32_of_Z 0 0) = 0%R.
Proof. exact (proj1 (b32_of_Z_exact 0 ltac:(lia))). Qed.

Lemma rnd_id (v : b32) : rnd (B2R v) = B2R v.
Proof. apply round_generic; [typeclasses eauto|]. apply generic_format_B2R. Qed.

(** The bound for [n] products. *)
Definition bnd n (a : R) : R := (((1 + u32) ^ n - 1) * a + INR n * (1 + u32) ^ n * tiny)%R.

Lemma c82_error ps v : sum_of ps v -> number v ->
  (Rabs (B2R v - rsum (map (fun '(x, y) => B2R x * B2R y) ps))
   <= ((1 + u32) ^ length ps - 1) * rsum (map (fun '(x, y) => Rabs (B2R x * B2R y)) ps)
      + INR (length ps) * (1 + u32) ^ length ps * tiny)%R.
Proof.
  pose (f := fun q : b32 * b32 => let '(x, y) := q in (B2R x * B2R y)%R).
  pose (g := fun q : b32 * b32 => let '(x, y) := q in Rabs (B2R x * B2R y)).
  change (sum_of ps v -> number v -> (Rabs (B2R v - rsum (map f ps))
    <= ((1 + u32) ^ length ps - 1) * rsum (map g ps) + INR (length ps) * (1 + u32) ^ length ps * tiny)%R).
  assert (Eg : forall ps : list (b32 * b32), map g ps = map Rabs (map f ps)).
  { intros l. rewrite map_map. apply map_ext. intros [x y]. reflexivity. }
  assert (Hg : forall ps : list (b32 * b32), (0 <= rsum (map g ps))%R) by (intros l; rewrite Eg; apply rsum_abs_nonneg).
  assert (Hfg : forall ps : list (b32 * b32), (Rabs (rsum (map f ps)) <= rsum (map g ps))%R) by (intros l; rewrite Eg; apply rsum_abs).
  pose proof u32_pos as U. pose proof tiny_pos as T.
  induction 1 as [|x y|ps qs u v H1 IH1 H2 IH2|x y ps u H IH|ps u H IH|ps qs u P H IH]; intros Hn.
  - cbn. rewrite Rminus_0_r, Rabs_R0. lra.
  - destruct (mul_number (fun x => x) (fun x => x) (fun x _ => x) x y Hn) as (_ & _ & E). cbn [fmul b32_ops] in E. rewrite E.
    destruct (rnd_error (B2R x * B2R y)) as (e & h & He & Hh & Er). rewrite Er. cbn [map length rsum fold_right]. subst f g.
    cbn beta iota. unfold rsum. cbn [fold_right pow INR]. rewrite !Rplus_0_r.
    set (r := (B2R x * B2R y)%R). replace (r * (1 + e) + h - r)%R with (r * e + h)%R by ring.
    apply Rle_trans with (1 := Rabs_triang _ _). rewrite Rabs_mult. pose proof (Rabs_pos r).
    assert (Rabs r * Rabs e <= Rabs r * u32)%R by (apply Rmult_le_compat_l; auto). nra.
  - destruct (add_number (fun x => x) (fun x => x) (fun x _ => x) u v Hn) as (N1 & N2 & E). cbn [fadd b32_ops] in E.
    specialize (IH1 N1). specialize (IH2 N2). rewrite !map_app, !rsum_app, app_length.
    destruct ps as [|p ps]; [|destruct qs as [|q qs]].
    + rewrite (sum_of_nil _ _ H1 eq_refl) in E |- *. rewrite zero_value, Rplus_0_l, rnd_id in E. rewrite E. cbn [app map length Nat.add].
      replace (rsum [] ) with 0%R by reflexivity. rewrite !Rplus_0_l. exact IH2.
    + rewrite (sum_of_nil _ _ H2 eq_refl) in E |- *. rewrite zero_value, Rplus_0_r, rnd_id in E. rewrite E. cbn [app map length].
      replace (rsum [] ) with 0%R by reflexivity. rewrite !Rplus_0_r, Nat.add_0_r. exact IH1.
    + destruct (add_error (fun x => x) (fun x => x) (fun x _ => x) u v Hn) as (e & He & Er). cbn [fadd b32_ops] in Er. rewrite Er.
      remember (p :: ps) as l1. remember (q :: qs) as l2.
      assert (L1 : 1 <= length l1) by (subst l1; cbn; lia). assert (L2 : 1 <= length l2) by (subst l2; cbn; lia).
      clear Heql1 Heql2. pose proof (Hg l1) as G1. pose proof (Hg l2) as G2. pose proof (Hfg l1) as F1. pose proof (Hfg l2) as F2.
      assert (M1 : ((1 + u32) ^ length l1 * (1 + u32) <= (1 + u32) ^ (length l1 + length l2))%R).
      { rewrite pow_add. apply Rmult_le_compat_l; [apply pow_le; lra|]. rewrite <- (pow_1 (1 + u32)) at 1. apply gamma_mono. lia. }
      assert (M2 : ((1 + u32) ^ length l2 * (1 + u32) <= (1 + u32) ^ (length l1 + length l2))%R).
      { rewrite Nat.add_comm, pow_add. apply Rmult_le_compat_l; [apply pow_le; lra|]. rewrite <- (pow_1 (1 + u32)) at 1. apply gamma_mono. lia. }
      pose proof (pos_INR (length l1)) as I1. pose proof (pos_INR (length l2)) as I2. rewrite plus_INR.
      set (s1 := rsum (map f l1)) in *. set (s2 := rsum (map f l2)) in *. set (a1 := rsum (map g l1)) in *. set (a2 := rsum (map g l2)) in *.
      set (n1 := INR (length l1)) in *. set (n2 := INR (length l2)) in *.
      set (g1 := ((1 + u32) ^ length l1)%R) in *. set (g2 := ((1 + u32) ^ length l2)%R) in *.
      set (G := ((1 + u32) ^ (length l1 + length l2))%R) in *.
      set (x := B2R u) in *. set (y := B2R v) in *.
      replace ((x + y) * (1 + e) - (s1 + s2))%R with ((x - s1) * (1 + e) + (y - s2) * (1 + e) + (s1 + s2) * e)%R by ring.
      assert (H1e : (Rabs (1 + e) <= 1 + u32)%R) by (apply Rle_trans with (1 := Rabs_triang 1 e); rewrite Rabs_R1; lra).
      apply Rle_trans with (1 := Rabs_triang _ _). pose proof (Rabs_triang ((x - s1) * (1 + e)) ((y - s2) * (1 + e))) as TT.
      rewrite !Rabs_mult in *. pose proof (Rabs_triang s1 s2) as TS.
      assert (B1 : (Rabs (x - s1) * Rabs (1 + e) <= ((g1 - 1) * a1 + n1 * g1 * tiny) * (1 + u32))%R)
        by (apply Rmult_le_compat; auto using Rabs_pos).
      assert (B2 : (Rabs (y - s2) * Rabs (1 + e) <= ((g2 - 1) * a2 + n2 * g2 * tiny) * (1 + u32))%R)
        by (apply Rmult_le_compat; auto using Rabs_pos).
      assert (B3 : (Rabs (s1 + s2) * Rabs e <= (a1 + a2) * u32)%R)
        by (apply Rmult_le_compat; auto using Rabs_pos; lra).
      assert (C1 : (g1 * (1 + u32) * a1 <= G * a1)%R) by (apply Rmult_le_compat_r; auto).
      assert (C2 : (g2 * (1 + u32) * a2 <= G * a2)%R) by (apply Rmult_le_compat_r; auto).
      assert (D1 : (g1 * (1 + u32) * (n1 * tiny) <= G * (n1 * tiny))%R)
        by (apply Rmult_le_compat_r; auto; apply Rmult_le_pos; lra).
      assert (D2 : (g2 * (1 + u32) * (n2 * tiny) <= G * (n2 * tiny))%R)
        by (apply Rmult_le_compat_r; auto; apply Rmult_le_pos; lra).
      replace ((G - 1) * (a1 + a2) + (n1 + n2) * G * tiny)%R
        with (G * a1 + G * a2 - (a1 + a2) + G * (n1 * tiny) + G * (n2 * tiny))%R by ring.
      replace (((g1 - 1) * a1 + n1 * g1 * tiny) * (1 + u32))%R
        with (g1 * (1 + u32) * a1 - a1 * (1 + u32) + g1 * (1 + u32) * (n1 * tiny))%R in B1 by ring.
      replace (((g2 - 1) * a2 + n2 * g2 * tiny) * (1 + u32))%R
        with (g2 * (1 + u32) * a2 - a2 * (1 + u32) + g2 * (1 + u32) * (n2 * tiny))%R in B2 by ring.
      lra.
  - destruct (fma_number x y u Hn) as (_ & _ & N & E). specialize (IH N). rewrite E.
    destruct (rnd_error (B2R x * B2R y + B2R u)) as (e & h & He & Hh & Er). rewrite Er.
    cbn [map length]. change (rsum (f (x, y) :: map f ps)) with (B2R x * B2R y + rsum (map f ps))%R.
    change (rsum (g (x, y) :: map g ps)) with (Rabs (B2R x * B2R y) + rsum (map g ps))%R.
    rewrite S_INR. cbn [pow]. pose proof (Hg ps) as G1. pose proof (Hfg ps) as F1. pose proof (pos_INR (length ps)) as I1.
    pose proof (gamma_nonneg (length ps)) as P1.
    set (s := rsum (map f ps)) in *. set (a := rsum (map g ps)) in *. set (n := INR (length ps)) in *.
    set (q := ((1 + u32) ^ length ps)%R) in *. set (r := (B2R x * B2R y)%R) in *. set (z := B2R u) in *.
    replace ((r + z) * (1 + e) + h - (r + s))%R with ((z - s) * (1 + e) + (r + s) * e + h)%R by ring.
    assert (H1e : (Rabs (1 + e) <= 1 + u32)%R) by (apply Rle_trans with (1 := Rabs_triang 1 e); rewrite Rabs_R1; lra).
    apply Rle_trans with (1 := Rabs_triang _ _). pose proof (Rabs_triang ((z - s) * (1 + e)) ((r + s) * e)) as TT.
    rewrite !Rabs_mult in *. pose proof (Rabs_triang r s) as TS. pose proof (Rabs_pos r) as Pr.
    assert (B1 : (Rabs (z - s) * Rabs (1 + e) <= ((q - 1) * a + n * q * tiny) * (1 + u32))%R)
      by (apply Rmult_le_compat; auto using Rabs_pos).
    assert (B3 : (Rabs (r + s) * Rabs e <= (Rabs r + a) * u32)%R)
      by (apply Rmult_le_compat; auto using Rabs_pos; lra).
    assert (C1 : (0 <= (q - 1) * Rabs r)%R) by (apply Rmult_le_pos; lra).
    assert (C2 : (0 <= (q - 1) * Rabs r * u32)%R) by (apply Rmult_le_pos; lra).
    assert (C3 : (tiny <= (1 + u32) * q * tiny)%R).
    { rewrite <- (Rmult_1_l tiny) at 1. apply Rmult_le_compat_r; [lra|]. nra. }
    replace (((1 + u32) * q - 1) * (Rabs r + a) + (n + 1) * ((1 + u32) * q) * tiny)%R
      with (((q - 1) * a + n * q * tiny) * (1 + u32) + (Rabs r + a) * u32 + (q - 1) * Rabs r + (q - 1) * Rabs r * u32
            + (1 + u32) * q * tiny)%R by ring.
    lra.
  - pose proof (b32_one_mul (fun x => x) (fun x => x) (fun x _ => x) u) as E. cbn [fmul fone b32_ops] in E. rewrite E in *. auto.
  - rewrite <- (rsum_perm _ _ (Permutation_map f P)), <- (rsum_perm _ _ (Permutation_map g P)), <- (Permutation_length P). auto.
Qed.

Lemma pairs_error k (A B : nat -> b32) z :
  sum_of (map (fun p => (A p, B p)) (seq 0 k)) z -> number z ->
  (Rabs (B2R z - rsum (map (fun p => B2R (A p) * B2R (B p)) (seq 0 k)))
   <= ((1 + u32) ^ k - 1) * rsum (map (fun p => Rabs (B2R (A p) * B2R (B p))) (seq 0 k)) + INR k * (1 + u32) ^ k * tiny)%R.
Proof.
  intros H Hn. pose proof (c82_error _ _ H Hn) as E. rewrite !map_map, map_length, seq_length in E. exact E.
Qed.

Lemma c82_matmul_error ln_ exp_ pow_ K c (a b : tensor b32) ds m k n xs ys :
  computes (b32_ops ln_ exp_ pow_) sum_of K ->
  repr a (ds ++ [m; k]) xs -> repr b (ds ++ [k; n]) ys ->
  supported (ds ++ [n; m]) -> can_alloc c (prod (ds ++ [n; m])) ->
  exists zs, matmul_by (b32_ops ln_ exp_ pow_) K c a b TNone = Ok (fresh (ds ++ [n; m]) zs) /\
    forall (A B : list nat -> nat -> nat -> b32),
      (forall idx i p, in_shape ds idx -> i < m -> p < k -> elem (ds ++ [m; k]) xs (idx ++ [i; p]) = Some (A idx i p)) ->
      (forall idx p j, in_shape ds idx -> p < k -> j < n -> elem (ds ++ [k; n]) ys (idx ++ [p; j]) = Some (B idx p j)) ->
      forall idx i j z, in_shape ds idx -> i < m -> j < n ->
        elem (ds ++ [m; n]) zs (idx ++ [i; j]) = Some z -> number z ->
        (Rabs (B2R z - rsum (map (fun p => B2R (A idx i p) * B2R (B idx p j)) (seq 0 k)))
         <= ((1 + u32) ^ k - 1) * rsum (map (fun p => Rabs (B2R (A idx i p) * B2R (B idx p j))) (seq 0 k))
            + INR k * (1 + u32) ^ k * tiny)%R.
Proof.
  intros HK Ha Hb Hs Hc. destruct (c82_matmul _ _ K c a b ds m k n xs ys HK Ha Hb Hs Hc) as (zs & E & _ & H).
  exists zs. split; [exact E|]. intros A B HA HB idx i j z Hi Him Hjn Ez Hn.
  destruct (H A B HA HB idx i j Hi Him Hjn) as (z' & Ez' & Hz). assert (z' = z) by congruence. subst z'.
  exact (pairs_error k _ _ z Hz Hn).
Qed.

Lemma c82_matvec_error ln_ exp_ pow_ K c (a x : tensor b32) dp da m k r xs ys :
  computes (b32_ops ln_ exp_ pow_) sum_of K ->
  repr a (da ++ [m; k]) xs -> repr x (dp ++ da ++ [r; k]) ys ->
  0 < prod (da ++ [m; k]) -> 0 < prod (dp ++ da ++ [r; k]) -> supported (dp ++ da ++ [r; m]) ->
  exists zs, matvec_by (b32_ops ln_ exp_ pow_) K c a x TNone = Ok (fresh (dp ++ da ++ [r; m]) zs) /\
    forall (A : list nat -> nat -> nat -> b32) (X : list nat -> list nat -> nat -> nat -> b32),
      (forall ia j p, in_shape da ia -> j < m -> p < k -> elem (da ++ [m; k]) xs (ia ++ [j; p]) = Some (A ia j p)) ->
      (forall ip ia i p, in_shape dp ip -> in_shape da ia -> i < r -> p < k ->
         elem (dp ++ da ++ [r; k]) ys (ip ++ ia ++ [i; p]) = Some (X ip ia i p)) ->
      forall ip ia i j z, in_shape dp ip -> in_shape da ia -> i < r -> j < m ->
        elem (dp ++ da ++ [r; m]) zs (ip ++ ia ++ [i; j]) = Some z -> number z ->
        (Rabs (B2R z - rsum (map (fun p => B2R (X ip ia i p) * B2R (A ia j p)) (seq 0 k)))
         <= ((1 + u32) ^ k - 1) * rsum (map (fun p => Rabs (B2R (X ip ia i p) * B2R (A ia j p))) (seq 0 k))
            + INR k * (1 + u32) ^ k * tiny)%R.
Proof.
  intros HK Ha Hb P1 P2 Hs. destruct (c82_matvec _ _ K c a x dp da m k r xs ys HK Ha Hb P1 P2 Hs) as (zs & E & _ & H).
  exists zs. split; [exact E|]. intros A X HA HX ip ia i j z Hp Hi Hir Hjm Ez Hn.
  destruct (H A X HA HX ip ia i j Hp Hi Hir Hjm) as (z' & Ez' & Hz). assert (z' = z) by congruence. subst z'.
  exact (pairs_error k _ _ z Hz Hn).
Qed.

(** ** Integers *)

Definition isint (r : R) : Prop := exists z : Z, r = IZR z.

Lemma isint_rnd r : isint r -> (Rabs r <= 16777216)%R -> rnd r = r /\ (Rabs r < bpow radix2 128)%R.
Proof.
  intros [z ->] H. rewrite <- abs_IZR in H. apply le_IZR in H.
  split; [apply round_generic; [typeclasses eauto|]; now apply b32_int_format|now apply b32_small].
Qed.

Lemma isint_add a b : isint a -> isint b -> isint (a + b).
Proof. intros [x ->] [y ->]. exists (x + y)%Z. now rewrite plus_IZR. Qed.
Lemma isint_mul a b : isint a -> isint b -> isint (a * b).
Proof. intros [x ->] [y ->]. exists (x * y)%Z. now rewrite mult_IZR. Qed.

Lemma c82_exact ps v : sum_of ps v ->
  (forall x y, In (x, y) ps -> number x /\ number y /\ (exists i, B2R x = IZR i) /\ (exists j, B2R y = IZR j)) ->
  (rsum (map (fun '(x, y) => Rabs (B2R x * B2R y)) ps) <= 2 ^ 24)%R ->
  number v /\ B2R v = rsum (map (fun '(x, y) => B2R x * B2R y)%R ps).
Proof.
  replace (2 ^ 24)%R with 16777216%R by (cbn; lra).
  pose (f := fun q : b32 * b32 => let '(x, y) := q in (B2R x * B2R y)%R).
  pose (g := fun q : b32 * b32 => let '(x, y) := q in Rabs (B2R x * B2R y)).
  change (sum_of ps v ->
    (forall x y, In (x, y) ps -> number x /\ number y /\ (exists i, B2R x = IZR i) /\ (exists j, B2R y = IZR j)) ->
    (rsum (map g ps) <= 16777216)%R -> number v /\ B2R v = rsum (map f ps)).
  assert (Eg : forall ps : list (b32 * b32), map g ps = map Rabs (map f ps)).
  { intros l. rewrite map_map. apply map_ext. intros [x y]. reflexivity. }
  assert (Hg : forall ps : list (b32 * b32), (0 <= rsum (map g ps))%R) by (intros l; rewrite Eg; apply rsum_abs_nonneg).
  assert (Hfg : forall ps : list (b32 * b32), (Rabs (rsum (map f ps)) <= rsum (map g ps))%R) by (intros l; rewrite Eg; apply rsum_abs).
  assert (Hi : forall ps : list (b32 * b32),
    (forall x y, In (x, y) ps -> number x /\ number y /\ (exists i, B2R x = IZR i) /\ (exists j, B2R y = IZR j)) ->
    isint (rsum (map f ps))).
  { induction ps0 as [|[x y] l IH]; intros H; [exists 0%Z; reflexivity|].
    change (isint (B2R x * B2R y + rsum (map f l))). apply isint_add.
    - destruct (H x y (or_introl eq_refl)) as (_ & _ & X & Y). now apply isint_mul.
    - apply IH. intros. apply H. now right. }
  unfold number in *.
  induction 1 as [|x y|ps qs u v H1 IH1 H2 IH2|x y ps u H IH|ps u H IH|ps qs u P H IH]; intros Hps Hs.
  - split; [reflexivity|apply zero_value].
  - destruct (Hps x y (or_introl eq_refl)) as (Fx & Fy & X & Y).
    assert (Q : isint (B2R x * B2R y)) by now apply isint_mul.
    assert (B : (Rabs (B2R x * B2R y) <= 16777216)%R) by (unfold rsum in Hs; cbn in Hs; lra).
    destruct (isint_rnd _ Q B) as [Er Eb].
    pose proof (Bmult_correct 24 128 b32_prec b32_emax mode_NE x y) as C.
    change (round_mode mode_NE) with ZnearestE in C. rewrite Er, Rlt_bool_true in C by assumption. destruct C as (C1 & C2 & _).
    rewrite C2, Fx, Fy. split; [reflexivity|]. rewrite C1. unfold rsum. cbn. lra.
  - rewrite map_app, rsum_app in Hs. pose proof (Hg ps). pose proof (Hg qs).
    destruct IH1 as [N1 E1]; [intros; apply Hps; apply in_or_app; auto|lra|].
    destruct IH2 as [N2 E2]; [intros; apply Hps; apply in_or_app; auto|lra|].
    assert (Q : isint (B2R u + B2R v)). { rewrite E1, E2, <- rsum_app, <- map_app. apply Hi. exact Hps. }
    assert (B : (Rabs (B2R u + B2R v) <= 16777216)%R).
    { rewrite E1, E2, <- rsum_app, <- map_app. apply Rle_trans with (1 := Hfg _). rewrite map_app, rsum_app. exact Hs. }
    destruct (isint_rnd _ Q B) as [Er Eb].
    pose proof (Bplus_correct 24 128 b32_prec b32_emax mode_NE u v N1 N2) as C.
    change (round_mode mode_NE) with ZnearestE in C. rewrite Er, Rlt_bool_true in C by assumption. destruct C as (C1 & C2 & _).
    split; [exact C2|]. rewrite C1, E1, E2, map_app, rsum_app. reflexivity.
  - change (rsum (map g ((x, y) :: ps))) with (Rabs (B2R x * B2R y) + rsum (map g ps))%R in Hs.
    pose proof (Hg ps). pose proof (Rabs_pos (B2R x * B2R y)).
    destruct IH as [N1 E1]; [intros; apply Hps; now right|lra|].
    destruct (Hps x y (or_introl eq_refl)) as (Fx & Fy & X & Y).
    assert (ES : (B2R x * B2R y + B2R u = rsum (map f ((x, y) :: ps)))%R).
    { rewrite E1. reflexivity. }
    assert (Q : isint (B2R x * B2R y + B2R u)). { rewrite ES. apply Hi. exact Hps. }
    assert (B : (Rabs (B2R x * B2R y + B2R u) <= 16777216)%R).
    { rewrite ES. apply Rle_trans with (1 := Hfg _). exact Hs. }
    destruct (isint_rnd _ Q B) as [Er Eb].
    pose proof (Bfma_correct 24 128 b32_prec b32_emax mode_NE x y u Fx Fy N1) as C. cbv zeta in C.
    change (round_mode mode_NE) with ZnearestE in C. rewrite Er, Rlt_bool_true in C by assumption. destruct C as (C1 & C2 & _).
    split; [exact C2|]. rewrite C1. exact ES.
  - pose proof (b32_one_mul (fun x => x) (fun x => x) (fun x _ => x) u) as E. cbn [fmul fone b32_ops] in E. rewrite E. auto.
  - rewrite <- (rsum_perm _ _ (Permutation_map f P)). apply IH.
    + intros x y I. apply Hps. eapply Permutation_in; eauto.
    + rewrite (rsum_perm _ _ (Permutation_map g P)). exact Hs.
Qed.

Lemma c82_matmul_exact ln_ exp_ pow_ K c (a b : tensor b32) ds m k n xs ys (P Q : list nat -> nat -> nat -> Z) :
  computes (b32_ops ln_ exp_ pow_) sum_of K ->
  repr a (ds ++ [m; k]) xs -> repr b (ds ++ [k; n]) ys ->
  supported (ds ++ [n; m]) -> can_alloc c (prod (ds ++ [n; m])) ->
  (forall idx i p, in_shape ds idx -> i < m -> p < k ->
     exists x, elem (ds ++ [m; k]) xs (idx ++ [i; p]) = Some x /\ number x /\ B2R x = IZR (P idx i p)) ->
  (forall idx p j, in_shape ds idx -> p < k -> j < n ->
     exists y, elem (ds ++ [k; n]) ys (idx ++ [p; j]) = Some y /\ number y /\ B2R y = IZR (Q idx p j)) ->
  exists zs, matmul_by (b32_ops ln_ exp_ pow_) K c a b TNone = Ok (fresh (ds ++ [n; m]) zs) /\
    forall idx i j, in_shape ds idx -> i < m -> j < n ->
      (fold_right Z.add 0 (map (fun p => Z.abs (P idx i p * Q idx p j)) (seq 0 k)) <= 2 ^ 24)%Z ->
      exists z, elem (ds ++ [m; n]) zs (idx ++ [i; j]) = Some z /\ number z /\
        B2R z = IZR (fold_right Z.add 0%Z (map (fun p => P idx i p * Q idx p j)%Z (seq 0 k))).
Proof.
  intros HK Ha Hb Hs Hc HP HQ. destruct (c82_matmul _ _ K c a b ds m k n xs ys HK Ha Hb Hs Hc) as (zs & E & _ & H).
  exists zs. split; [exact E|]. intros idx i j Hi Him Hjn Hsum.
  set (d := b32_of_Z 0 0).
  set (A := fun idx i p => match elem (ds ++ [m; k]) xs (idx ++ [i; p]) with Some x => x | None => d end).
  set (B := fun idx p j => match elem (ds ++ [k; n]) ys (idx ++ [p; j]) with Some x => x | None => d end).
  destruct (H A B) with (idx := idx) (i := i) (j := j) as (z & Ez & Hz); auto.
  { intros. unfold A. destruct (HP idx0 i0 p) as (x & -> & _); auto. }
  { intros. unfold B. destruct (HQ idx0 p j0) as (x & -> & _); auto. }
  exists z. split; [exact Ez|].
  assert (VA : forall p, p < k -> number (A idx i p) /\ B2R (A idx i p) = IZR (P idx i p)).
  { intros p Hp. unfold A. destruct (HP idx i p) as (x & -> & N & V); auto. }
  assert (VB : forall p, p < k -> number (B idx p j) /\ B2R (B idx p j) = IZR (Q idx p j)).
  { intros p Hp. unfold B. destruct (HQ idx p j) as (x & -> & N & V); auto. }
  assert (ER : forall (h : nat -> Z) (r : nat -> R) l, (forall p, In p l -> r p = IZR (h p)) ->
    rsum (map r l) = IZR (fold_right Z.add 0%Z (map h l))).
  { intros h r l. induction l as [|p l IH]; intros He; [reflexivity|]. cbn [map fold_right]. rewrite plus_IZR, <- IH, <- He; [reflexivity|now left|].
    intros. apply He. now right. }
  destruct (c82_exact _ _ Hz) as [N V].
  - intros x y I. apply in_map_iff in I. destruct I as (p & Ep & Hp). apply in_seq in Hp. injection Ep as <- <-.
    destruct (VA p ltac:(lia)) as [N1 V1]. destruct (VB p ltac:(lia)) as [N2 V2].
    split; [exact N1|]. split; [exact N2|]. split; eauto.
  - rewrite map_map, (ER (fun p => Z.abs (P idx i p * Q idx p j))).
    + replace (2 ^ 24)%R with (IZR (2 ^ 24)) by (cbn; lra). now apply IZR_le.
    + intros p Hp. apply in_seq in Hp. destruct (VA p ltac:(lia)) as [_ ->]. destruct (VB p ltac:(lia)) as [_ ->].
      now rewrite abs_IZR, mult_IZR.
  - split; [exact N|]. rewrite V, map_map. apply ER. intros p Hp. apply in_seq in Hp.
    destruct (VA p ltac:(lia)) as [_ ->]. destruct (VB p ltac:(lia)) as [_ ->]. now rewrite mult_IZR.
Qed.
