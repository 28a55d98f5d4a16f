(** * Rounding in binary32 *)
From Coq Require Import Reals Lra Psatz.
From Flocq Require Import Core.Zaux Core.Raux Core.Defs Core.Generic_fmt Core.FLT Core.Float_prop Core.Round_NE
  Relative Plus_error IEEE754.BinarySingleNaN.
From Verif Require Import Base Spec BaseFacts FloatModel FloatSpec RealFacts RoundSpec.

Notation rnd := (round radix2 (SpecFloat.fexp 24 128) ZnearestE).

Lemma u32_pos : (0 < u32)%R.
Proof. unfold u32. apply Rinv_0_lt_compat. apply pow_lt. lra. Qed.
Lemma tiny_pos : (0 < tiny)%R.
Proof. unfold tiny. apply Rinv_0_lt_compat. apply pow_lt. lra. Qed.
Lemma u32_lt : (u32 < / 2)%R.
Proof.
  unfold u32. apply Rinv_lt_contravar; [|apply Rlt_le_trans with (2 ^ 4)%R; [cbn; lra|]].
  - apply Rmult_lt_0_compat; [lra|apply pow_lt; lra].
  - apply Rle_pow; [lra|lia].
Qed.

Lemma half_ulp_one : (/ 2 * bpow radix2 (- 24 + 1))%R = u32.
Proof. unfold u32. cbn [bpow]. cbn. lra. Qed.
Lemma half_least : (/ 2 * bpow radix2 (-149))%R = tiny.
Proof.
  unfold tiny. change (-149)%Z with (- (149))%Z. rewrite bpow_opp. rewrite <- Rinv_mult.
  f_equal. rewrite (bpow_powerRZ radix2). change (IZR radix2) with 2%R.
  change 149%Z with (Z.of_nat 149). rewrite <- pow_powerRZ. reflexivity.
Qed.

Section B32.
  Variables (ln_ exp_ : b32 -> b32) (pow_ : b32 -> b32 -> b32).
  Notation o := (b32_ops ln_ exp_ pow_).

  Lemma add_number x y : number (fadd o x y) ->
    number x /\ number y /\ B2R (fadd o x y) = rnd (B2R x + B2R y).
  Proof.
    unfold number. cbn [fadd b32_ops]. intros H.
    assert (Hf : is_finite x = true /\ is_finite y = true).
    { destruct x as [a|a| |a m e Hx], y as [b|b| |b m' e' Hy]; cbn in H |- *; auto; try discriminate.
      destruct (Bool.eqb a b); discriminate. }
    destruct Hf as [Hx Hy]. split; auto. split; auto.
    pose proof (Bplus_correct 24 128 b32_prec b32_emax mode_NE x y Hx Hy) as C.
    destruct (Rlt_bool _ _); [apply C|].
    destruct C as [C _]. exfalso. destruct (Bplus _ _ _) as [b|b| |b m e H0]; try discriminate.
  Qed.

  Lemma sub_number x y : number (fsub o x y) ->
    number x /\ number y /\ B2R (fsub o x y) = rnd (B2R x - B2R y).
  Proof.
    unfold number. cbn [fsub b32_ops]. intros H.
    assert (Hf : is_finite x = true /\ is_finite y = true).
    { destruct x as [a|a| |a m e Hx], y as [b|b| |b m' e' Hy]; cbn in H |- *; auto; try discriminate.
      destruct (Bool.eqb a (negb b)); discriminate. }
    destruct Hf as [Hx Hy]. split; auto. split; auto.
    pose proof (Bminus_correct 24 128 b32_prec b32_emax mode_NE x y Hx Hy) as C.
    destruct (Rlt_bool _ _); [apply C|].
    destruct C as [C _]. exfalso. destruct (Bminus _ _ _) as [b|b| |b m e H0]; try discriminate.
  Qed.

  Lemma mul_number x y : number (fmul o x y) ->
    number x /\ number y /\ B2R (fmul o x y) = rnd (B2R x * B2R y).
  Proof.
    unfold number. cbn [fmul b32_ops]. intros H.
    pose proof (Bmult_correct 24 128 b32_prec b32_emax mode_NE x y) as C.
    destruct (Rlt_bool _ _).
    - destruct C as (C1 & C2 & _). rewrite H in C2. symmetry in C2. apply andb_prop in C2. tauto.
    - exfalso. destruct (Bmult _ _ _) as [b|b| |b m e H0]; try discriminate.
  Qed.

  Lemma div_number x y : B2R y <> 0%R -> number (fdiv o x y) ->
    number x /\ B2R (fdiv o x y) = rnd (B2R x / B2R y).
  Proof.
    unfold number. cbn [fdiv b32_ops]. intros Hy H.
    pose proof (Bdiv_correct 24 128 b32_prec b32_emax mode_NE x y Hy) as C.
    destruct (Rlt_bool _ _).
    - destruct C as (C1 & C2 & _). rewrite H in C2. auto.
    - exfalso. destruct (Bdiv _ _ _) as [b|b| |b m e H0]; try discriminate.
  Qed.

  (** Adding numbers: the relative error is at most [u32]. *)
  Lemma add_error x y : number (fadd o x y) ->
    exists e, (Rabs e <= u32)%R /\ B2R (fadd o x y) = ((B2R x + B2R y) * (1 + e))%R.
  Proof.
    intros H. destruct (add_number x y H) as (_ & _ & E). rewrite E.
    destruct (@FLT_plus_error_N_ex radix2 (-149) 24 eq_refl (fun z => negb (Z.even z)) (B2R x) (B2R y))
      as (e & He & Hr); [apply generic_format_B2R|apply generic_format_B2R|].
    exists e. split; [|exact Hr].
    apply Rle_trans with (1 := He). change (u_ro radix2 24) with (/ 2 * bpow radix2 (- 24 + 1))%R. rewrite half_ulp_one.
    pose proof u32_pos. apply Rmult_le_reg_r with (1 + u32)%R; [lra|].
    unfold Rdiv. rewrite Rmult_assoc, Rinv_l by lra. nra.
  Qed.

  Lemma rnd_error x :
    exists e h, (Rabs e <= u32)%R /\ (Rabs h <= tiny)%R /\ rnd x = (x * (1 + e) + h)%R.
  Proof.
    destruct (error_N_FLT radix2 (-149) 24 eq_refl (fun z => negb (Z.even z)) x) as (e & h & He & Hh & _ & E).
    exists e, h. change (Rabs e <= / 2 * bpow radix2 (- 24 + 1))%R in He.
    rewrite half_ulp_one in He. rewrite half_least in Hh. auto.
  Qed.

  (** One step of a sum. *)
  Lemma sum_step v s a x g e :
    (Rabs (v - s) <= g * a)%R -> (Rabs s <= a)%R -> (0 <= g)%R -> (Rabs e <= u32)%R ->
    (Rabs ((v + x) * (1 + e) - (s + x)) <= ((1 + g) * (1 + u32) - 1) * (a + Rabs x))%R.
  Proof.
    intros Hv Hs Hg He.
    replace ((v + x) * (1 + e) - (s + x))%R with ((v - s) * (1 + e) + s * e + x * e)%R by ring.
    pose proof u32_pos as Hu. pose proof (Rabs_pos s) as P1. pose proof (Rabs_pos x) as P2. pose proof (Rabs_pos e) as P3.
    assert (H1 : (Rabs (1 + e) <= 1 + u32)%R).
    { apply Rle_trans with (1 := Rabs_triang 1 e). rewrite Rabs_R1. lra. }
    assert (H2 : (Rabs ((v - s) * (1 + e)) <= (g * a) * (1 + u32))%R)
      by (rewrite Rabs_mult; apply Rmult_le_compat; auto using Rabs_pos).
    assert (H3 : (Rabs (s * e) <= a * u32)%R) by (rewrite Rabs_mult; apply Rmult_le_compat; auto using Rabs_pos).
    assert (H4 : (Rabs (x * e) <= Rabs x * u32)%R)
      by (rewrite Rabs_mult; apply Rmult_le_compat_l; auto using Rabs_pos).
    pose proof (Rabs_triang ((v - s) * (1 + e) + s * e) (x * e)) as T1.
    pose proof (Rabs_triang ((v - s) * (1 + e)) (s * e)) as T2.
    assert (0 <= g * u32)%R by (apply Rmult_le_pos; lra).
    assert (0 <= (g + g * u32) * Rabs x)%R by (apply Rmult_le_pos; lra).
    assert (E : (((1 + g) * (1 + u32) - 1) * (a + Rabs x)
      = g * a * (1 + u32) + a * u32 + (Rabs x * u32 + (g + g * u32) * Rabs x))%R) by ring.
    lra.
  Qed.

  Lemma gamma_nonneg n : (0 <= (1 + u32) ^ n - 1)%R.
  Proof. pose proof u32_pos. assert (1 <= (1 + u32) ^ n)%R by (apply pow_R1_Rle; lra). lra. Qed.
  Lemma gamma_mono m n : m <= n -> ((1 + u32) ^ m <= (1 + u32) ^ n)%R.
  Proof. intros. pose proof u32_pos. apply Rle_pow; [lra|auto]. Qed.

  Lemma rsum_abs (l : list R) : (Rabs (rsum l) <= rsum (map Rabs l))%R.
  Proof.
    induction l as [|x l IH]; cbn; [rewrite Rabs_R0; lra|].
    apply Rle_trans with (1 := Rabs_triang _ _). unfold rsum in *. lra.
  Qed.
  Lemma rsum_abs_nonneg (l : list R) : (0 <= rsum (map Rabs l))%R.
  Proof. induction l as [|x l IH]; cbn; [lra|]. pose proof (Rabs_pos x). unfold rsum in *. lra. Qed.

  Lemma sum_error xs : forall (v : b32) s a j,
    (Rabs (B2R v - s) <= ((1 + u32) ^ j - 1) * a)%R -> (Rabs s <= a)%R ->
    number (fold_left (fadd o) xs v) ->
    Forall number xs /\
    (Rabs (B2R (fold_left (fadd o) xs v) - (s + rsum (map B2R xs)))
     <= ((1 + u32) ^ (j + length xs) - 1) * (a + rsum (map Rabs (map B2R xs))))%R.
  Proof.
    induction xs as [|x xs IH]; intros v s a j Hv Hs Hf; cbn [fold_left] in Hf |- *.
    - split; [constructor|]. cbn. rewrite !Rplus_0_r, Nat.add_0_r. auto.
    - assert (Hn : number (fadd o v x)).
      { clear -Hf. revert Hf. generalize (fadd o v x). induction xs as [|y xs IH]; intros w Hf; auto.
        cbn in Hf. apply IH in Hf. now apply add_number in Hf. }
      destruct (add_error v x Hn) as (e & He & E).
      destruct (IH (fadd o v x) (s + B2R x)%R (a + Rabs (B2R x))%R (S j)) as [HF HE].
      + rewrite E.
        replace ((1 + u32) ^ S j)%R with ((1 + ((1 + u32) ^ j - 1)) * (1 + u32))%R by (cbn; ring).
        apply sum_step; auto. apply gamma_nonneg.
      + apply Rle_trans with (1 := Rabs_triang _ _). lra.
      + auto.
      + split; [constructor; auto; now apply add_number in Hn|].
        cbn [map rsum fold_right length].
        replace (j + S (length xs)) with (S j + length xs) by lia.
        replace (s + (B2R x + fold_right Rplus 0 (map B2R xs)))%R
          with (s + B2R x + rsum (map B2R xs))%R by (unfold rsum; ring).
        replace (a + (Rabs (B2R x) + fold_right Rplus 0 (map Rabs (map B2R xs))))%R
          with (a + Rabs (B2R x) + rsum (map Rabs (map B2R xs)))%R by (unfold rsum; ring).
        exact HE.
  Qed.

  Lemma add_zero_l p : number p -> number (fadd o (fzero o) p) /\ B2R (fadd o (fzero o) p) = B2R p.
  Proof.
    unfold number. cbn [fadd fzero b32_ops]. intros Hp.
    pose proof (Bplus_correct 24 128 b32_prec b32_emax mode_NE (b32_of_Z 0 0) p eq_refl Hp) as C.
    change (B2R (b32_of_Z 0 0)) with 0%R in C. rewrite Rplus_0_l in C.
    rewrite round_generic in C; [|apply valid_rnd_N|apply generic_format_B2R].
    rewrite Rlt_bool_true in C by apply abs_B2R_lt_emax. tauto.
  Qed.

  (** One step of a sum of products. *)
  Lemma dot_step v s a ab g T e d h :
    (Rabs (v - s) <= g * a + T)%R -> (Rabs s <= a)%R -> (0 <= g)%R -> (0 <= T)%R ->
    (u32 <= g)%R -> (Rabs e <= u32)%R -> (Rabs d <= u32)%R -> (Rabs h <= tiny)%R ->
    (Rabs ((v + (ab * (1 + d) + h)) * (1 + e) - (s + ab))
     <= ((1 + g) * (1 + u32) - 1) * (a + Rabs ab) + (T + tiny) * (1 + u32))%R.
  Proof.
    intros Hv Hs Hg HT Hug He Hd Hh.
    replace ((v + (ab * (1 + d) + h)) * (1 + e) - (s + ab))%R
      with ((v - s + h) * (1 + e) + s * e + ab * ((1 + d) * (1 + e) - 1))%R by ring.
    pose proof u32_pos as Hu. pose proof tiny_pos as Ht.
    assert (H1 : (Rabs (1 + e) <= 1 + u32)%R).
    { apply Rle_trans with (1 := Rabs_triang 1 e). rewrite Rabs_R1. lra. }
    assert (H0 : (Rabs (v - s + h) <= g * a + T + tiny)%R).
    { apply Rle_trans with (1 := Rabs_triang _ _). lra. }
    assert (H2 : (Rabs ((v - s + h) * (1 + e)) <= (g * a + T + tiny) * (1 + u32))%R)
      by (rewrite Rabs_mult; apply Rmult_le_compat; auto using Rabs_pos).
    assert (H3 : (Rabs (s * e) <= a * u32)%R) by (rewrite Rabs_mult; apply Rmult_le_compat; auto using Rabs_pos).
    assert (H4 : (Rabs ((1 + d) * (1 + e) - 1) <= (1 + g) * (1 + u32) - 1)%R).
    { replace ((1 + d) * (1 + e) - 1)%R with (d + e + d * e)%R by ring.
      pose proof (Rabs_triang (d + e) (d * e)). pose proof (Rabs_triang d e).
      assert (Rabs (d * e) <= g * u32)%R by (rewrite Rabs_mult; apply Rmult_le_compat; auto using Rabs_pos; lra).
      lra. }
    assert (H5 : (Rabs (ab * ((1 + d) * (1 + e) - 1)) <= Rabs ab * ((1 + g) * (1 + u32) - 1))%R)
      by (rewrite Rabs_mult; apply Rmult_le_compat_l; auto using Rabs_pos).
    pose proof (Rabs_triang ((v - s + h) * (1 + e) + s * e) (ab * ((1 + d) * (1 + e) - 1))) as T1.
    pose proof (Rabs_triang ((v - s + h) * (1 + e)) (s * e)) as T2.
    assert (E : (((1 + g) * (1 + u32) - 1) * (a + Rabs ab) + (T + tiny) * (1 + u32)
      = (g * a + T + tiny) * (1 + u32) + a * u32 + Rabs ab * ((1 + g) * (1 + u32) - 1))%R) by ring.
    lra.
  Qed.

  Lemma rsum_seq_snoc (f : nat -> R) n : rsum (map f (seq 0 (S n))) = (rsum (map f (seq 0 n)) + f n)%R.
  Proof.
    rewrite seq_S, map_app. cbn [map Nat.add]. unfold rsum. rewrite fold_right_app. cbn [fold_right].
    rewrite Rplus_0_r. generalize (map f (seq 0 n)) (f n). induction l as [|x l IH]; intros y; cbn; [lra|].
    rewrite IH. lra.
  Qed.

  Lemma dot_error (A B : nat -> b32) (f g : nat -> option b32) k v :
    (forall p, p < k -> f p = Some (A p) /\ g p = Some (B p)) ->
    dot o k f g = Some v -> number v ->
    (Rabs (B2R v - rsum (map (fun p => B2R (A p) * B2R (B p)) (seq 0 k)))
     <= ((1 + u32) ^ k - 1) * rsum (map (fun p => Rabs (B2R (A p) * B2R (B p))) (seq 0 k))
        + INR k * (1 + u32) ^ k * tiny)%R.
  Proof.
    pose proof u32_pos as Hu. pose proof tiny_pos as Ht.
    revert v. induction k as [|k IH]; intros v Hfg Hd Hv.
    { cbn [dot] in Hd. apply (f_equal (fun x => match x with Some y => B2R y | None => 0%R end)) in Hd.
      rewrite <- Hd. cbn [fzero b32_ops]. change (B2R (b32_of_Z 0 0)) with 0%R. cbn.
      rewrite Rminus_0_r, Rabs_R0. lra. }
    cbn [dot] in Hd. destruct (Hfg k ltac:(lia)) as [Ef Eg]. rewrite Ef, Eg in Hd.
    destruct (dot o k f g) as [w|] eqn:Ew; [|discriminate].
    assert (Ev : v = fadd o w (fmul o (A k) (B k))) by congruence. subst v. clear Hd.
    destruct (add_number _ _ Hv) as (Hw & Hp & _).
    destruct (mul_number _ _ Hp) as (_ & _ & Ep).
    destruct (rnd_error (B2R (A k) * B2R (B k))) as (d & h & Hd & Hh & Er).
    rewrite Er in Ep. rewrite !rsum_seq_snoc.
    destruct k as [|k'].
    - (* the first addition is exact *)
      cbn [dot] in Ew. assert (w = fzero o) as -> by congruence.
      rewrite (proj2 (add_zero_l _ Hp)), Ep. cbn [seq map rsum fold_right]. rewrite !Rplus_0_l.
      set (ab := (B2R (A O) * B2R (B O))%R).
      replace (ab * (1 + d) + h - ab)%R with (ab * d + h)%R by ring.
      apply Rle_trans with (1 := Rabs_triang _ _). rewrite Rabs_mult, pow_1. change (INR 1) with 1%R.
      assert (Rabs ab * Rabs d <= Rabs ab * u32)%R by (apply Rmult_le_compat_l; auto using Rabs_pos).
      assert (0 <= u32 * tiny)%R by (apply Rmult_le_pos; lra). lra.
    - destruct (add_error _ _ Hv) as (e & He & Ea). rewrite Ea, Ep.
      set (k := S k') in *.
      assert (Hg : (u32 <= (1 + u32) ^ k - 1)%R).
      { assert ((1 + u32) ^ 1 <= (1 + u32) ^ k)%R by (apply gamma_mono; unfold k; lia).
        rewrite pow_1 in H. lra. }
      assert (Hpk : (1 <= (1 + u32) ^ k)%R) by (apply pow_R1_Rle; lra).
      assert (HT : (0 <= INR k * (1 + u32) ^ k * tiny)%R).
      { apply Rmult_le_pos; [apply Rmult_le_pos; [apply pos_INR|lra]|lra]. }
      assert (Hvs : (Rabs (B2R w - rsum (map (fun p => B2R (A p) * B2R (B p)) (seq 0 k)))
         <= ((1 + u32) ^ k - 1) * rsum (map (fun p => Rabs (B2R (A p) * B2R (B p))) (seq 0 k))
            + INR k * (1 + u32) ^ k * tiny)%R) by (apply IH; auto; intros p Hpk'; apply Hfg; lia).
      assert (Ha : (Rabs (rsum (map (fun p => B2R (A p) * B2R (B p)) (seq 0 k)))
         <= rsum (map (fun p => Rabs (B2R (A p) * B2R (B p))) (seq 0 k)))%R).
      { rewrite <- (map_map (fun p => B2R (A p) * B2R (B p))%R Rabs). apply rsum_abs. }
      pose proof (dot_step _ _ _ (B2R (A k) * B2R (B k))%R _ _ e d h Hvs Ha ltac:(lra) HT Hg He Hd Hh) as Hs.
      replace ((1 + u32) ^ S k)%R with ((1 + ((1 + u32) ^ k - 1)) * (1 + u32))%R by (cbn; ring).
      apply Rle_trans with (1 := Hs). apply Rplus_le_compat_l.
      rewrite S_INR.
      replace ((INR k + 1) * ((1 + ((1 + u32) ^ k - 1)) * (1 + u32)) * tiny)%R
        with ((INR k * (1 + u32) ^ k * tiny + (1 + u32) ^ k * tiny) * (1 + u32))%R by ring.
      apply Rmult_le_compat_r; [lra|]. apply Rplus_le_compat_l.
      rewrite <- (Rmult_1_l tiny) at 1. apply Rmult_le_compat_r; lra.
  Qed.

  (** ** Welford's recurrence *)

  Definition fmt := generic_format radix2 (SpecFloat.fexp 24 128).
  Lemma fmt_B2R (x : b32) : fmt (B2R x).
  Proof. apply generic_format_B2R. Qed.

  Lemma rnd_le x y : (x <= y)%R -> (rnd x <= rnd y)%R.
  Proof. apply round_le; [now apply fexp_correct|apply valid_rnd_N]. Qed.
  Lemma rnd_le_fmt x y : fmt y -> (x <= y)%R -> (rnd x <= y)%R.
  Proof. intros. apply round_le_generic; auto; [now apply fexp_correct|apply valid_rnd_N]. Qed.
  Lemma rnd_ge_fmt x y : fmt y -> (y <= x)%R -> (y <= rnd x)%R.
  Proof. intros. apply round_ge_generic; auto; [now apply fexp_correct|apply valid_rnd_N]. Qed.
  Lemma rnd_fmt x : fmt x -> rnd x = x.
  Proof. intros. apply round_generic; auto. apply valid_rnd_N. Qed.
  Lemma fmt_rnd x : fmt (rnd x).
  Proof. apply generic_format_round; [now apply fexp_correct|apply valid_rnd_N]. Qed.
  Lemma fmt_0 : fmt 0.
  Proof. apply generic_format_0. Qed.
  Lemma fmt_opp x : fmt x -> fmt (- x).
  Proof. apply generic_format_opp. Qed.
  Lemma rnd_opp x : rnd (- x) = (- rnd x)%R.
  Proof. apply round_NE_opp. Qed.

  (** The step towards the new value does not go beyond it. *)
  Lemma step_inside x m k : fmt x -> fmt m -> (2 <= k)%R -> (m <= x)%R ->
    (0 <= rnd (rnd (x - m) / k) <= x - m)%R.
  Proof.
    intros Hx Hm Hk Hle. set (y := (x - m)%R). set (d := rnd y).
    assert (Hy : (0 <= y)%R) by (unfold y; lra).
    assert (Hd : (0 <= d)%R) by (apply rnd_ge_fmt; auto using fmt_0).
    assert (Hik : (0 < / k)%R) by (apply Rinv_0_lt_compat; lra).
    assert (Hik2 : (/ k <= / 2)%R) by (apply Rinv_le_contravar; lra).
    assert (Hq : (0 <= d / k <= d / 2)%R).
    { unfold Rdiv. split; [apply Rmult_le_pos; lra|apply Rmult_le_compat_l; lra]. }
    split; [apply rnd_ge_fmt; auto using fmt_0; lra|].
    apply Rle_trans with (rnd (d / 2)); [apply rnd_le; lra|].
    destruct (Rle_or_lt y (bpow radix2 (24 + -149))) as [Hs|Hs].
    - assert (Fy : fmt y).
      { unfold y, Rminus. apply (@FLT_format_plus_small radix2 (-149) 24 eq_refl); auto.
        - apply fmt_opp. auto.
        - change (x + - m)%R with y. rewrite Rabs_pos_eq; auto. }
      assert (Ed : d = y) by (apply rnd_fmt; auto). rewrite Ed. apply rnd_le_fmt; auto. lra.
    - assert (Hy4 : (4 * tiny <= y)%R).
      { apply Rle_trans with (bpow radix2 (24 + -149)); [|lra].
        rewrite <- half_least. replace (4 * (/ 2 * bpow radix2 (-149)))%R with (bpow radix2 1 * bpow radix2 (-149))%R
          by (change (bpow radix2 1) with 2%R; lra).
        rewrite <- bpow_plus. apply bpow_le. lia. }
      destruct (@FLT_plus_error_N_ex radix2 (-149) 24 eq_refl (fun z => negb (Z.even z)) x (- m)) as (e & He & Er);
        [auto|now apply fmt_opp|].
      change (u_ro radix2 24) with (/ 2 * bpow radix2 (- 24 + 1))%R in He. rewrite half_ulp_one in He.
      pose proof u32_pos as Hu. pose proof u32_lt as Hu2.
      assert (He' : (Rabs e <= u32)%R).
      { apply Rle_trans with (1 := He). apply Rmult_le_reg_r with (1 + u32)%R; [lra|].
        unfold Rdiv. rewrite Rmult_assoc, Rinv_l by lra. nra. }
      change (d = y * (1 + e))%R in Er.
      destruct (rnd_error (d / 2)) as (e2 & h & He2 & Hh & ->).
      apply Rabs_le_inv in He'. apply Rabs_le_inv in He2. apply Rabs_le_inv in Hh.
      assert (Hu24 : (u32 <= / 16)%R).
      { unfold u32. apply Rinv_le_contravar; [lra|]. apply Rle_trans with (2 ^ 4)%R; [cbn; lra|].
        apply Rle_pow; [lra|lia]. }
      assert (Hd2 : (d <= y * (17 / 16))%R) by (rewrite Er; apply Rmult_le_compat_l; lra).
      assert (d / 2 * (1 + e2) <= y * (17 / 16) / 2 * (17 / 16))%R.
      { apply Rmult_le_compat; lra. }
      lra.
  Qed.

  Lemma step_inside_neg x m k : fmt x -> fmt m -> (2 <= k)%R -> (x <= m)%R ->
    (x - m <= rnd (rnd (x - m) / k) <= 0)%R.
  Proof.
    intros Hx Hm Hk Hle.
    destruct (step_inside (- x) (- m) k (fmt_opp _ Hx) (fmt_opp _ Hm) Hk ltac:(lra)) as [H1 H2].
    replace (- x - - m)%R with (- (x - m))%R in * by ring. rewrite rnd_opp in H1, H2.
    replace (- rnd (x - m) / k)%R with (- (rnd (x - m) / k))%R in * by (unfold Rdiv; ring).
    rewrite rnd_opp in H1, H2. lra.
  Qed.

  (** Not NaN and not below zero. *)
  Definition nonneg (z : b32) : Prop := fle o (fzero o) z = true.
  Lemma nonneg_cases z : nonneg z <-> z = B754_infinity false \/ (number z /\ (0 <= B2R z)%R).
  Proof.
    unfold nonneg, number. cbn [fle fzero b32_ops]. destruct (is_finite z) eqn:Hz.
    - rewrite Bleb_correct by auto. change (B2R (b32_of_Z 0 0)) with 0%R. split.
      + intros H. right. split; auto. destruct (Rle_bool_spec 0 (B2R z)); [auto|discriminate].
      + intros [->|[_ H]]; [discriminate|]. now apply Rle_bool_true.
    - destruct z as [s|s| |s m e H]; try discriminate; cbn.
      + destruct s; split; try discriminate; auto. intros [H|[H _]]; discriminate.
      + split; [discriminate|]. intros [H|[H _]]; discriminate.
  Qed.

  Lemma nonneg_sign (z : b32) : number z -> (0 < B2R z)%R -> Bsign z = false.
  Proof.
    unfold number. destruct z as [s|s| |s m e H]; try discriminate; cbn; try lra. intros _ Hp.
    destruct s; auto. exfalso. pose proof (F2R_lt_0 radix2 (Float radix2 (Zneg m) e) eq_refl). cbn in Hp. lra.
  Qed.

  Lemma add_nonneg x y : nonneg x -> nonneg y -> nonneg (fadd o x y).
  Proof.
    rewrite !nonneg_cases. intros [->|[Hx Px]] [->|[Hy Py]].
    - left. reflexivity.
    - left. unfold number in Hy. destruct y; try discriminate; reflexivity.
    - left. unfold number in Hx. destruct x; try discriminate; reflexivity.
    - pose proof (Bplus_correct 24 128 b32_prec b32_emax mode_NE x y Hx Hy) as C.
      cbn [fadd b32_ops].
      destruct (Rlt_bool_spec (Rabs (round radix2 (SpecFloat.fexp 24 128) (round_mode mode_NE) (B2R x + B2R y)))
                 (bpow radix2 128)) as [Hb|Hb].
      + destruct C as (C1 & C2 & _). right. split; [exact C2|]. rewrite C1.
        apply rnd_ge_fmt; [apply fmt_0|lra].
      + left. destruct C as [C Cs].
        assert (Sx : Bsign x = false).
        { destruct (Rle_lt_or_eq_dec _ _ Px) as [P|P]; [now apply nonneg_sign|].
          destruct (Rle_lt_or_eq_dec _ _ Py) as [P'|P']; [rewrite Cs; now apply nonneg_sign|].
          exfalso. rewrite <- P, <- P', Rplus_0_r, round_0, Rabs_R0 in Hb by apply valid_rnd_N.
          pose proof (bpow_gt_0 radix2 128). lra. }
        rewrite Sx in C. destruct (Bplus _ _ _) as [s|s| |s m e H]; try discriminate. cbn in C. congruence.
  Qed.

  Lemma mul_nonneg x y : number x -> number y -> (0 <= B2R x * B2R y)%R -> nonneg (fmul o x y).
  Proof.
    intros Hx Hy Hp. rewrite nonneg_cases.
    pose proof (Bmult_correct 24 128 b32_prec b32_emax mode_NE x y) as C. cbn [fmul b32_ops].
    destruct (Rlt_bool_spec (Rabs (round radix2 (SpecFloat.fexp 24 128) (round_mode mode_NE) (B2R x * B2R y)))
               (bpow radix2 128)) as [Hb|Hb].
    - destruct C as (C1 & C2 & _). right. split; [unfold number in *; now rewrite C2, Hx, Hy|]. rewrite C1.
      apply rnd_ge_fmt; [apply fmt_0|auto].
    - left. assert (Hnz : (B2R x * B2R y <> 0)%R).
      { intros E. rewrite E, round_0, Rabs_R0 in Hb by apply valid_rnd_N.
        pose proof (bpow_gt_0 radix2 128). lra. }
      assert (Sx : xorb (Bsign x) (Bsign y) = false).
      { unfold number in *. destruct x as [s|s| |s m e H]; try discriminate; [exfalso; apply Hnz; cbn; ring|].
        destruct y as [s'|s'| |s' m' e' H']; try discriminate.
        cbn [Bsign]. destruct (Bool.bool_dec s s') as [->|Hss]; [apply xorb_nilpotent|].
        exfalso.
        assert (Hpos : forall (q : positive) z, (0 < F2R (Float radix2 (Zpos q) z))%R) by (intros; now apply F2R_gt_0).
        assert (Hneg : forall (q : positive) z, (F2R (Float radix2 (Zneg q) z) < 0)%R) by (intros; now apply F2R_lt_0).
        cbn [B2R] in Hp, Hnz. destruct s, s'; try congruence; cbn [SpecFloat.cond_Zopp Z.opp] in Hp, Hnz.
        - pose proof (Hneg m e). pose proof (Hpos m' e'). nra.
        - pose proof (Hpos m e). pose proof (Hneg m' e'). nra. }
      rewrite Sx in C. destruct (Bmult _ _ _) as [s|s| |s m e H]; try discriminate. cbn in C. congruence.
  Qed.

  Lemma sub_number_ok x y : number x -> number y ->
    (Rabs (B2R x) <= bpow radix2 126)%R -> (Rabs (B2R y) <= bpow radix2 126)%R ->
    number (fsub o x y) /\ B2R (fsub o x y) = rnd (B2R x - B2R y).
  Proof.
    intros Hx Hy Bx By.
    pose proof (Bminus_correct 24 128 b32_prec b32_emax mode_NE x y Hx Hy) as C.
    rewrite Rlt_bool_true in C; [unfold number; cbn [fsub b32_ops]; tauto|].
    apply Rle_lt_trans with (bpow radix2 127); [|apply bpow_lt; lia].
    apply abs_round_le_generic; [now apply fexp_correct|apply valid_rnd_N|apply generic_format_bpow; cbn; lia|].
    replace (bpow radix2 127) with (bpow radix2 126 + bpow radix2 126)%R.
    - apply Rle_trans with (1 := Rabs_triang _ _). rewrite Rabs_Ropp. lra.
    - change 127%Z with (1 + 126)%Z. rewrite bpow_plus. change (bpow radix2 1) with 2%R. ring.
  Qed.

  Lemma fof_ge_2 k : 2 <= k -> (Z.of_nat k < 4294967296)%Z -> (2 <= B2R (fof o k))%R.
  Proof.
    intros Hk Hb. cbn [fof b32_ops].
    pose proof (binary_normalize_correct 24 128 b32_prec b32_emax mode_NE (Z.of_nat k) 0 false) as H.
    cbv zeta in H.
    assert (E : F2R (Float radix2 (Z.of_nat k) 0) = IZR (Z.of_nat k)) by (unfold F2R; cbn [Fnum Fexp bpow]; lra).
    rewrite E in H.
    assert (H1 : (2 <= rnd (IZR (Z.of_nat k)))%R).
    { apply rnd_ge_fmt; [|apply IZR_le; lia]. apply (b32_int_format 2). lia. }
    assert (H2 : (rnd (IZR (Z.of_nat k)) <= bpow radix2 32)%R).
    { apply rnd_le_fmt; [apply generic_format_bpow; cbn; lia|].
      change (bpow radix2 32) with (IZR 4294967296). apply IZR_le. lia. }
    assert (H3 : (bpow radix2 32 < bpow radix2 128)%R) by (apply bpow_lt; lia).
    change (round_mode mode_NE) with ZnearestE in H.
    rewrite Rlt_bool_true in H by (rewrite Rabs_pos_eq; lra).
    destruct H as (R1 & _). unfold b32_of_Z. now rewrite R1.
  Qed.

  Definition bounded (x : b32) : Prop := number x /\ (Rabs (B2R x) <= bpow radix2 126)%R.

  (** One step keeps the running mean inside the bounds and adds a non-negative term. *)
  Lemma welford_step x m k : bounded x -> bounded m -> 2 <= k -> (Z.of_nat k < 4294967296)%Z ->
    let m' := fadd o m (fdiv o (fsub o x m) (fof o k)) in
    bounded m' /\ (B2R m <= B2R m' <= B2R x \/ B2R x <= B2R m' <= B2R m)%R /\
    nonneg (fmul o (fsub o x m) (fsub o x m')).
  Proof.
    intros [Hx Bx] [Hm Bm] Hk Hb m'.
    destruct (sub_number_ok x m Hx Hm Bx Bm) as [Hd Ed].
    pose proof (fof_ge_2 k Hk Hb) as H2.
    pose proof (b32_div_nat_finite ln_ exp_ pow_ _ _ Hd (ltac:(lia) : 0 < k) Hb) as Hq.
    destruct (div_number (fsub o x m) (fof o k) ltac:(lra) Hq) as [_ Eq]. rewrite Ed in Eq.
    set (q := fdiv o (fsub o x m) (fof o k)) in *.
    assert (Hs : (B2R m <= B2R m + B2R q <= B2R x /\ 0 <= B2R x - B2R m)%R \/
                 (B2R x <= B2R m + B2R q <= B2R m /\ B2R x - B2R m <= 0)%R).
    { rewrite Eq. destruct (Rle_or_lt (B2R m) (B2R x)) as [Hle|Hle].
      - left. pose proof (step_inside _ _ _ (fmt_B2R x) (fmt_B2R m) H2 Hle). lra.
      - right. pose proof (step_inside_neg _ _ _ (fmt_B2R x) (fmt_B2R m) H2 (Rlt_le _ _ Hle)). lra. }
    pose proof (Bplus_correct 24 128 b32_prec b32_emax mode_NE m q Hm Hq) as C.
    change (round_mode mode_NE) with ZnearestE in C.
    assert (Hr : (B2R m <= rnd (B2R m + B2R q) <= B2R x \/ B2R x <= rnd (B2R m + B2R q) <= B2R m)%R).
    { destruct Hs as [[[? ?] _]|[[? ?] _]]; [left|right]; split;
        (apply rnd_ge_fmt + apply rnd_le_fmt); auto using fmt_B2R. }
    assert (Hrb : (Rabs (rnd (B2R m + B2R q)) <= bpow radix2 126)%R).
    { apply Rabs_le. apply Rabs_le_inv in Bx. apply Rabs_le_inv in Bm. lra. }
    rewrite Rlt_bool_true in C.
    2:{ apply Rle_lt_trans with (1 := Hrb). apply bpow_lt. lia. }
    destruct C as (C1 & C2 & _). change (Bplus mode_NE m q) with m' in C1, C2.
    assert (Bm' : bounded m') by (split; [exact C2|rewrite C1; exact Hrb]).
    split; auto. split; [rewrite C1; auto|].
    destruct Bm' as [Hm' Bm'].
    destruct (sub_number_ok x m' Hx Hm' Bx Bm') as [He Ee].
    apply mul_nonneg; auto. rewrite Ed, Ee, C1.
    destruct Hs as [[[? ?] ?]|[[? ?] ?]].
    - assert (B2R m <= rnd (B2R m + B2R q) <= B2R x)%R
        by (split; (apply rnd_ge_fmt + apply rnd_le_fmt); auto using fmt_B2R).
      apply Rmult_le_pos; apply rnd_ge_fmt; auto using fmt_0; lra.
    - assert (B2R x <= rnd (B2R m + B2R q) <= B2R m)%R
        by (split; (apply rnd_ge_fmt + apply rnd_le_fmt); auto using fmt_B2R).
      assert (rnd (B2R x - B2R m) <= 0)%R by (apply rnd_le_fmt; auto using fmt_0; lra).
      assert (rnd (B2R x - rnd (B2R m + B2R q)) <= 0)%R by (apply rnd_le_fmt; auto using fmt_0; lra).
      nra.
  Qed.

  Lemma div_nat_nonneg s k : nonneg s -> 0 < k -> (Z.of_nat k < 4294967296)%Z -> nonneg (fdiv o s (fof o k)).
  Proof.
    intros Hs Hk Hb. destruct (b32_of_nat_pos ln_ exp_ pow_ k Hk Hb) as [Hf H1].
    apply nonneg_cases. apply nonneg_cases in Hs. destruct Hs as [->|[Hs Ps]].
    - left. pose proof (nonneg_sign (fof o k) Hf ltac:(lra)) as Sg.
      destruct (fof o k) as [s|s| |s m e H]; try discriminate; cbn in H1; [lra|].
      cbn in Sg. subst s. reflexivity.
    - right. pose proof (b32_div_nat_finite ln_ exp_ pow_ _ _ Hs Hk Hb) as Hq. split; [exact Hq|].
      destruct (div_number s (fof o k) ltac:(lra) Hq) as [_ ->].
      apply rnd_ge_fmt; [apply fmt_0|]. unfold Rdiv. apply Rmult_le_pos; auto.
      apply Rlt_le, Rinv_0_lt_compat. lra.
  Qed.

  Lemma sqrt_nonneg s : nonneg s -> nonneg (fsqrt o s).
  Proof.
    rewrite !nonneg_cases. intros [->|[Hs Ps]]; [now left|]. right.
    destruct (Bsqrt_correct 24 128 b32_prec b32_emax mode_NE s) as (C1 & C2 & _). cbn [fsqrt b32_ops].
    split.
    - unfold number. rewrite C2. unfold number in Hs. destruct s as [b|b| |b m e H]; try discriminate; auto.
      destruct b; auto. exfalso. cbn in Ps. pose proof (F2R_lt_0 radix2 (Float radix2 (Zneg m) e) eq_refl). lra.
    - rewrite C1. apply rnd_ge_fmt; [apply fmt_0|apply sqrt_pos].
  Qed.

  (** ** Comparison, with infinities *)

  Definition ext (x : b32) : R :=
    match x with
    | B754_infinity s => if s then (- bpow radix2 128)%R else bpow radix2 128
    | _ => B2R x
    end.

  Lemma ext_lt_finite x : is_finite x = true -> (- bpow radix2 128 < ext x < bpow radix2 128)%R.
  Proof.
    intros H. assert (E : ext x = B2R x) by (destruct x; auto; discriminate). rewrite E.
    pose proof (abs_B2R_lt_emax 24 128 x) as B. apply Rabs_lt_inv in B. auto.
  Qed.

  Lemma fle_ext x y : is_nan x = false -> is_nan y = false -> (fle o x y = true <-> (ext x <= ext y)%R).
  Proof.
    intros Nx Ny. pose proof (bpow_gt_0 radix2 128) as Hb.
    destruct (is_finite x) eqn:Fx, (is_finite y) eqn:Fy.
    - cbn [fle b32_ops]. rewrite Bleb_correct by auto.
      assert (Ex : ext x = B2R x) by (destruct x; auto; discriminate).
      assert (Ey : ext y = B2R y) by (destruct y; auto; discriminate). rewrite Ex, Ey.
      destruct (Rle_bool_spec (B2R x) (B2R y)); split; auto; try discriminate. lra.
    - pose proof (ext_lt_finite x Fx). destruct y as [s|s| |s m e H0]; try discriminate.
      destruct x as [s'|s'| |s' m' e' H']; try discriminate; destruct s; cbn [ext] in *;
        try destruct s'; cbn; split; try discriminate; auto; intros; cbn in H; lra.
    - pose proof (ext_lt_finite y Fy). destruct x as [s|s| |s m e H0]; try discriminate.
      destruct y as [s'|s'| |s' m' e' H']; try discriminate; destruct s; cbn [ext] in *;
        try destruct s'; cbn; split; try discriminate; auto; intros; cbn in H; lra.
    - destruct x as [s|s| |s m e H0]; try discriminate. destruct y as [s'|s'| |s' m' e' H']; try discriminate.
      destruct s, s'; cbn; split; try discriminate; auto; intros; lra.
  Qed.

  Lemma flt_fle x y : is_nan x = false -> is_nan y = false -> flt o x y = negb (fle o y x).
  Proof.
    intros Nx Ny. cbn [flt fle b32_ops]. unfold Bltb, Bleb, SpecFloat.SFltb, SpecFloat.SFleb.
    change (SpecFloat.SFcompare (B2SF x) (B2SF y)) with (Bcompare x y).
    change (SpecFloat.SFcompare (B2SF y) (B2SF x)) with (Bcompare y x).
    rewrite (Bcompare_swap 24 128 x y). destruct (Bcompare x y) as [[]|] eqn:E; auto.
    exfalso. destruct (is_finite x) eqn:Fx, (is_finite y) eqn:Fy.
    - pose proof (Bcompare_correct 24 128 x y Fx Fy) as C. rewrite E in C. discriminate C.
    - destruct y as [b|b| |b m' e' H']; try discriminate. destruct x as [a|a| |a m e H], b; discriminate.
    - destruct x as [b|b| |b m' e' H']; try discriminate. destruct y as [a|a| |a m e H], b; discriminate.
    - destruct y as [b|b| |b m' e' H']; try discriminate. destruct x as [a|a| |a m e H], b; try discriminate; destruct a; discriminate.
  Qed.

  Lemma feq_self x : feq o x x = negb (is_nan x).
  Proof.
    cbn [feq b32_ops]. destruct (is_finite x) eqn:F.
    - rewrite Beqb_correct by auto. rewrite Req_bool_true by auto. destruct x; auto; discriminate.
    - destruct x as [s|s| |s m e H]; try discriminate; [destruct s|]; reflexivity.
  Qed.

  (** [f32::min] and [f32::max]: the lesser (greater) of the operands that are not NaN. *)
  Lemma fold_min_b32 xs : forall x,
    let m := fold_left (fmin o) xs x in
    In m (x :: xs) /\ forall y, In y (x :: xs) -> is_nan y = false -> fle o m y = true.
  Proof.
    assert (Hstep : forall a b, (fmin o a b = a \/ fmin o a b = b) /\
      (forall y, is_nan y = false -> (y = b \/ fle o a y = true) -> fle o (fmin o a b) y = true)).
    { intros a b. unfold fmin. rewrite feq_self. destruct (is_nan a) eqn:Na; cbn [negb].
      - split; auto. intros y Ny [->|H].
        + apply fle_ext; auto. lra.
        + exfalso. destruct a; try discriminate.
      - destruct (is_nan b) eqn:Nb.
        + assert (El : flt o b a = false) by (destruct b; try discriminate; reflexivity). rewrite El.
          split; auto. intros y Ny [->|H]; [congruence|auto].
        + rewrite flt_fle by auto. destruct (fle o a b) eqn:El; cbn [negb].
          * split; auto. intros y Ny [->|H]; auto.
          * split; auto. intros y Ny [->|H]; [apply fle_ext; auto; lra|].
            assert (Hab : ~ (ext a <= ext b)%R) by (rewrite <- fle_ext by auto; congruence).
            apply fle_ext in H; auto. apply fle_ext; auto. lra. }
    induction xs as [|b xs IH]; intros x m; subst m; cbn [fold_left].
    - split; [now left|]. intros y [->|[]] Ny. apply fle_ext; auto. lra.
    - destruct (IH (fmin o x b)) as [H1 H2]. cbv zeta in H1, H2. destruct (Hstep x b) as [S1 S2].
      split.
      + destruct H1 as [<-|H1]; [|now do 2 right]. destruct S1 as [->| ->]; [now left|now right; left].
      + intros y Hy Ny.
        set (r := fold_left (fmin o) xs (fmin o x b)) in *.
        assert (Hm : fle o (fmin o x b) y = true -> fle o r y = true).
        { intros Hle. assert (Nm : is_nan (fmin o x b) = false) by (destruct (fmin o x b); auto; discriminate).
          pose proof (H2 (fmin o x b) ltac:(now left) Nm) as Hr.
          assert (Nr : is_nan r = false) by (destruct r; auto; discriminate).
          apply fle_ext in Hr; auto. apply fle_ext in Hle; auto. apply fle_ext; auto. lra. }
        destruct Hy as [->|[->|Hy]].
        * apply Hm. apply S2; auto. right. apply fle_ext; auto. lra.
        * apply Hm. apply S2; auto.
        * apply H2; auto. now right.
  Qed.

  Lemma fold_max_b32 xs : forall x,
    let m := fold_left (fmax o) xs x in
    In m (x :: xs) /\ forall y, In y (x :: xs) -> is_nan y = false -> fle o y m = true.
  Proof.
    assert (Hstep : forall a b, (fmax o a b = a \/ fmax o a b = b) /\
      (forall y, is_nan y = false -> (y = b \/ fle o y a = true) -> fle o y (fmax o a b) = true)).
    { intros a b. unfold fmax. rewrite feq_self. destruct (is_nan a) eqn:Na; cbn [negb].
      - split; auto. intros y Ny [->|H].
        + apply fle_ext; auto. lra.
        + exfalso. destruct a; try discriminate. destruct y as [s|s| |s m e E]; try discriminate; destruct s; discriminate.
      - destruct (is_nan b) eqn:Nb.
        + assert (El : flt o a b = false)
            by (destruct b; try discriminate; destruct a as [s|s| |s m e E]; try discriminate; destruct s; reflexivity).
          rewrite El. split; auto. intros y Ny [->|H]; [congruence|auto].
        + rewrite flt_fle by auto. destruct (fle o b a) eqn:El; cbn [negb].
          * split; auto. intros y Ny [->|H]; auto.
          * split; auto. intros y Ny [->|H]; [apply fle_ext; auto; lra|].
            assert (Hab : ~ (ext b <= ext a)%R) by (rewrite <- fle_ext by auto; congruence).
            apply fle_ext in H; auto. apply fle_ext; auto. lra. }
    assert (Hnan : forall a b, fle o a b = true -> is_nan b = false).
    { intros a b H. destruct b as [s|s| |s m e E]; auto. destruct a as [s|s| |s m e E]; try destruct s; discriminate. }
    induction xs as [|b xs IH]; intros x m; subst m; cbn [fold_left].
    - split; [now left|]. intros y [->|[]] Ny. apply fle_ext; auto. lra.
    - destruct (IH (fmax o x b)) as [H1 H2]. cbv zeta in H1, H2. destruct (Hstep x b) as [S1 S2].
      split.
      + destruct H1 as [<-|H1]; [|now do 2 right]. destruct S1 as [->| ->]; [now left|now right; left].
      + intros y Hy Ny.
        set (r := fold_left (fmax o) xs (fmax o x b)) in *.
        assert (Hm : fle o y (fmax o x b) = true -> fle o y r = true).
        { intros Hle. assert (Nm : is_nan (fmax o x b) = false) by eauto.
          pose proof (H2 (fmax o x b) ltac:(now left) Nm) as Hr.
          assert (Nr : is_nan r = false) by eauto.
          apply fle_ext in Hr; auto. apply fle_ext in Hle; auto. apply fle_ext; auto. lra. }
        destruct Hy as [->|[->|Hy]].
        * apply Hm. apply S2; auto. right. apply fle_ext; auto. lra.
        * apply Hm. apply S2; auto.
        * apply H2; auto. now right.
  Qed.
End B32.
