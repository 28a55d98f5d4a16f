(** * Properties of the random number generators (C55-C58): proofs *)
From Coq Require Import Reals Lra NArith Znumtheory Machin.
From Flocq Require Import Core IEEE754.BinarySingleNaN Mult_error.
From Verif Require Import Base ShapeModel TensorModel MapModel FloatModel RandomModel
  Spec BaseFacts ShapeFacts CoordFacts MapFacts RealFacts MathFacts RandomFacts.
From Verif Require Import RandomSpec.
Local Open Scope Z_scope.

(** ** C55 *)

Lemma c55_rand32_full_period s y :
  0 <= s < 2 ^ 64 -> 0 <= y < 2 ^ 64 ->
  exists! n, (n < 2 ^ 64)%N /\ N.iter n rand32_step s = y.
Proof. exact (lcg_full rand32_A rand32_C eq_refl eq_refl 64 s y). Qed.

Lemma c55_rand32_return s n :
  0 <= s < 2 ^ 64 -> (N.iter n rand32_step s = s <-> (2 ^ 64 | Z.of_N n)).
Proof. exact (lcg_return rand32_A rand32_C eq_refl eq_refl 64 s n). Qed.

Lemma c55_rand64_full_period s y :
  0 <= s < 2 ^ 128 -> 0 <= y < 2 ^ 128 ->
  exists! n, (n < 2 ^ 128)%N /\ N.iter n rand64_step s = y.
Proof. exact (lcg_full rand64_A rand64_C eq_refl eq_refl 128 s y). Qed.

Lemma c55_rand64_return s n :
  0 <= s < 2 ^ 128 -> (N.iter n rand64_step s = s <-> (2 ^ 128 | Z.of_N n)).
Proof. exact (lcg_return rand64_A rand64_C eq_refl eq_refl 128 s n). Qed.

Lemma rand32_nth_out s n : rand32_nth s n = rand32_out (N.iter n rand32_step (rand32_step s)).
Proof. unfold rand32_nth, rand32_next. cbn [fst snd]. rewrite <- N.iter_succ_r, N.iter_succ. reflexivity. Qed.

Lemma rand64_nth_out s n : rand64_nth s n = rand64_out (N.iter n rand64_step (rand64_step s)).
Proof. unfold rand64_nth, rand64_next. cbn [fst snd]. rewrite <- N.iter_succ_r, N.iter_succ. reflexivity. Qed.

Lemma rand32_out_iff y v : 0 <= v < 2 ^ 32 ->
  rand32_out y = v <-> Z.shiftr y 32 mod 2 ^ 32 = rand32_undo v.
Proof.
  intros Hv. unfold rand32_out, rand32_undo. change u32_mod with (2 ^ 32).
  set (r := Z.shiftr y 32 mod 2 ^ 32). assert (Hr : 0 <= r < 2 ^ 32) by (apply Z.mod_pos_bound; lia).
  change (Z.lxor r (Z.shiftr r 16)) with (xorshift 16 r).
  pose proof (xorshift_range 16 r ltac:(lia) Hr) as Hx. change (2 ^ (2 * 16)) with (2 ^ 32) in Hx.
  rewrite (mul_inv_mod (2 ^ 32) rand32_M 3458158501) by (auto; reflexivity). split.
  - intros <-. symmetry. apply xorshift_inv; [lia|exact Hr].
  - intros ->. apply xorshift_inv; [lia|]. apply Z.mod_pos_bound. lia.
Qed.

Lemma rand64_out_iff y v : 0 <= v < 2 ^ 64 ->
  rand64_out y = v <-> Z.shiftr y 32 mod 2 ^ 64 = rand64_undo v.
Proof.
  intros Hv. unfold rand64_out, rand64_undo. change u64_mod with (2 ^ 64).
  set (r := Z.shiftr y 32 mod 2 ^ 64). assert (Hr : 0 <= r < 2 ^ 64) by (apply Z.mod_pos_bound; lia).
  change (Z.lxor r (Z.shiftr r 32)) with (xorshift 32 r).
  pose proof (xorshift_range 32 r ltac:(lia) Hr) as Hx. change (2 ^ (2 * 32)) with (2 ^ 64) in Hx.
  rewrite (mul_inv_mod (2 ^ 64) rand64_M 5546147812785705381) by (auto; reflexivity). split.
  - intros <-. symmetry. apply xorshift_inv; [lia|exact Hr].
  - intros ->. apply xorshift_inv; [lia|]. apply Z.mod_pos_bound. lia.
Qed.

Lemma rand32_step_range s : 0 <= rand32_step s < 2 ^ 64.
Proof. apply Z.mod_pos_bound. reflexivity. Qed.

Lemma rand64_step_range s : 0 <= rand64_step s < 2 ^ 128.
Proof. apply Z.mod_pos_bound. reflexivity. Qed.

Lemma NoDup_map_seq {A} (f : nat -> A) n :
  (forall i j, (i < n)%nat -> (j < n)%nat -> f i = f j -> i = j) -> NoDup (map f (seq 0 n)).
Proof.
  intros H. assert (G : forall l, NoDup l -> (forall i, In i l -> (i < n)%nat) -> NoDup (map f l)).
  { induction 1 as [|i l Hi Hl IH]; intros Hb; [constructor|]. cbn [map]. constructor.
    - intros Hin. apply in_map_iff in Hin. destruct Hin as (j & E & Hj).
      apply H in E; [congruence| |]; apply Hb; cbn; auto.
    - apply IH. intros. apply Hb. now right. }
  apply G; [apply seq_NoDup|]. intros i Hi. apply in_seq in Hi. lia.
Qed.

Lemma nat_of_Z z : 0 <= z -> exists n, Z.of_nat n = z.
Proof. intros H. exists (Z.to_nat z). now apply Z2Nat.id. Qed.

Lemma c55_rand32_equidistributed s v :
  0 <= s < 2 ^ 64 -> 0 <= v < 2 ^ 32 ->
  exists ns, NoDup ns /\ Z.of_nat (length ns) = 2 ^ 32 /\
    forall n, In n ns <-> (n < 2 ^ 64)%N /\ rand32_nth s n = v.
Proof.
  intros Hs Hv. destruct (nat_of_Z (2 ^ 32) ltac:(lia)) as [K HK]. set (r := rand32_undo v).
  assert (Hr : 0 <= r < 2 ^ 32).
  { apply (xorshift_range 16); [lia|]. apply Z.mod_pos_bound. reflexivity. }
  set (ys := map (fun i => r * 2 ^ 32 + Z.of_nat i) (seq 0 K)).
  destruct (lcg_hits rand32_A rand32_C 64 (rand32_step s) (fun y => rand32_out y = v) ys) as (ns & N1 & N2 & N3).
  - reflexivity.
  - reflexivity.
  - apply rand32_step_range.
  - apply NoDup_map_seq. intros; lia.
  - intros y. unfold ys. rewrite in_map_iff. rewrite rand32_out_iff by auto. fold r.
    change (2 ^ Z.of_nat 64) with (2 ^ 64). rewrite Z.shiftr_div_pow2 by lia. split.
    + intros (i & <- & Hi). apply in_seq in Hi. split; [nia|].
      rewrite Z.div_add_l, (Z.div_small (Z.of_nat i)), Z.add_0_r by lia. apply Z.mod_small. lia.
    + intros [Hy E]. rewrite Z.mod_small in E by (split; [apply Z.div_pos; lia|apply Z.div_lt_upper_bound; lia]).
      exists (Z.to_nat (y mod 2 ^ 32)). pose proof (Z.mod_pos_bound y (2 ^ 32) ltac:(lia)).
      pose proof (Z.div_mod y (2 ^ 32) ltac:(lia)). rewrite Z2Nat.id by lia. split; [lia|]. apply in_seq. lia.
  - exists ns. split; auto. split.
    + rewrite N2. unfold ys. rewrite map_length, seq_length. exact HK.
    + intros n. rewrite N3, rand32_nth_out. reflexivity.
Qed.

Lemma c55_rand64_equidistributed s v :
  0 <= s < 2 ^ 128 -> 0 <= v < 2 ^ 64 ->
  exists ns, NoDup ns /\ Z.of_nat (length ns) = 2 ^ 64 /\
    forall n, In n ns <-> (n < 2 ^ 128)%N /\ rand64_nth s n = v.
Proof.
  intros Hs Hv. destruct (nat_of_Z (2 ^ 64) ltac:(lia)) as [K HK]. set (r := rand64_undo v).
  assert (Hr : 0 <= r < 2 ^ 64).
  { apply (xorshift_range 32); [lia|]. apply Z.mod_pos_bound. reflexivity. }
  set (ys := map (fun i => Z.of_nat i / 2 ^ 32 * 2 ^ 96 + r * 2 ^ 32 + Z.of_nat i mod 2 ^ 32) (seq 0 K)).
  destruct (lcg_hits rand64_A rand64_C 128 (rand64_step s) (fun y => rand64_out y = v) ys) as (ns & N1 & N2 & N3).
  - reflexivity.
  - reflexivity.
  - apply rand64_step_range.
  - apply NoDup_map_seq. intros i j Hi Hj E.
    pose proof (Z.div_mod (Z.of_nat i) (2 ^ 32) ltac:(lia)). pose proof (Z.div_mod (Z.of_nat j) (2 ^ 32) ltac:(lia)).
    pose proof (Z.mod_pos_bound (Z.of_nat i) (2 ^ 32) ltac:(lia)). pose proof (Z.mod_pos_bound (Z.of_nat j) (2 ^ 32) ltac:(lia)).
    lia.
  - intros y. unfold ys. rewrite in_map_iff. rewrite rand64_out_iff by auto. fold r.
    change (2 ^ Z.of_nat 128) with (2 ^ 128). rewrite Z.shiftr_div_pow2 by lia. split.
    + intros (i & <- & Hi). apply in_seq in Hi.
      pose proof (Z.div_mod (Z.of_nat i) (2 ^ 32) ltac:(lia)).
      pose proof (Z.mod_pos_bound (Z.of_nat i) (2 ^ 32) ltac:(lia)).
      set (h := Z.of_nat i / 2 ^ 32) in *. set (l := Z.of_nat i mod 2 ^ 32) in *. split; [lia|].
      replace (h * 2 ^ 96 + r * 2 ^ 32 + l) with ((h * 2 ^ 64 + r) * 2 ^ 32 + l) by ring.
      rewrite Z.div_add_l, (Z.div_small l), Z.add_0_r, Z.add_comm, Z_mod_plus_full by lia. apply Z.mod_small. lia.
    + intros [Hy E].
      pose proof (Z.div_mod y (2 ^ 32) ltac:(lia)) as D1. pose proof (Z.mod_pos_bound y (2 ^ 32) ltac:(lia)) as D2.
      pose proof (Z.div_mod (y / 2 ^ 32) (2 ^ 64) ltac:(lia)) as D3. rewrite E in D3.
      set (l := y mod 2 ^ 32) in *. set (q := y / 2 ^ 32) in *. set (h := q / 2 ^ 64) in *.
      assert (Hh : 0 <= h < 2 ^ 32) by lia.
      exists (Z.to_nat (h * 2 ^ 32 + l)). rewrite Z2Nat.id by lia. split; [|apply in_seq; lia].
      rewrite Z.div_add_l, (Z.div_small l), Z.add_0_r by lia.
      rewrite (Z.add_comm (h * 2 ^ 32) l), Z_mod_plus_full, Z.mod_small by lia. lia.
  - exists ns. split; auto. split.
    + rewrite N2. unfold ys. rewrite map_length, seq_length. exact HK.
    + intros n. rewrite N3, rand64_nth_out. reflexivity.
Qed.

(** But the results of Rand64 use only the lower 96 bits of the state, so that they repeat
    after 2^96 calls, long before the state does. *)
Lemma iter_mod96 n x y : x mod 2 ^ 96 = y mod 2 ^ 96 ->
  N.iter n rand64_step x mod 2 ^ 96 = N.iter n rand64_step y mod 2 ^ 96.
Proof.
  intros H. induction n as [|n IH] using N.peano_ind; [exact H|]. rewrite !N.iter_succ.
  assert (G : forall z, rand64_step z mod 2 ^ 96 = (z mod 2 ^ 96 * rand64_A + rand64_C) mod 2 ^ 96).
  { intros z. unfold rand64_step, u128_mod. change (2 ^ 128) with (2 ^ 96 * 2 ^ 32).
    rewrite Zplus_mod_idemp_l. rewrite <- Znumtheory.Zmod_div_mod; [|lia|lia|exists (2 ^ 32); lia].
    rewrite Zplus_mod, <- Zmult_mod_idemp_l, <- Zplus_mod. reflexivity. }
  rewrite !G, IH. reflexivity.
Qed.

Lemma rand64_out_mod96 x y : x mod 2 ^ 96 = y mod 2 ^ 96 -> rand64_out x = rand64_out y.
Proof.
  intros H. unfold rand64_out, u64_mod. rewrite !Z.shiftr_div_pow2 by lia.
  assert (G : forall z, (z / 2 ^ 32) mod 2 ^ 64 = (z mod 2 ^ 96) / 2 ^ 32).
  { intros z. change (2 ^ 96) with (2 ^ 32 * 2 ^ 64). rewrite Z.rem_mul_r by lia.
    rewrite Z.add_comm, Z.mul_comm, Z.div_add_l, (Z.div_small (z mod 2 ^ 32)) by (try apply Z.mod_pos_bound; lia). lia. }
  rewrite !G, H. reflexivity.
Qed.

Lemma c55_rand64_results_repeat s n : 0 <= s < 2 ^ 128 -> rand64_nth s (n + 2 ^ 96) = rand64_nth s n.
Proof.
  intros Hs. rewrite !rand64_nth_out. rewrite N.iter_add. apply rand64_out_mod96, iter_mod96.
  pose proof (rand64_step_range s) as Hr. set (x := rand64_step s) in *.
  change rand64_step with (lcg_step rand64_A rand64_C 128).
  rewrite lcg_iter by exact Hr. change (2 ^ Z.of_nat 128) with (2 ^ 96 * 2 ^ 32).
  rewrite <- Znumtheory.Zmod_div_mod; [|lia|lia|exists (2 ^ 32); lia].
  apply mod_eq_divide; [lia|]. apply (lcg_period rand64_A rand64_C eq_refl eq_refl 96). exists 1. reflexivity.
Qed.

(** ** C56 *)

Lemma rand32_out_range s : 0 <= rand32_out s < 2 ^ 32.
Proof. apply Z.mod_pos_bound. reflexivity. Qed.

(** Conversion of a [u32] to binary32. *)
Lemma b32_of_u32 v : 0 <= v < 2 ^ 32 ->
  is_finite (b32_of_Z v 0) = true /\ (0 <= B2R (b32_of_Z v 0) <= IZR (2 ^ 32))%R.
Proof.
  intros Hv.
  pose proof (binary_normalize_correct 24 128 b32_prec b32_emax mode_NE v 0 false) as H. cbv zeta in H.
  assert (E : F2R (Float radix2 v 0) = IZR v) by (unfold F2R; cbn [Fnum Fexp bpow]; lra).
  rewrite E in H.
  assert (H1 : (0 <= round radix2 (SpecFloat.fexp 24 128) (round_mode mode_NE) (IZR v))%R).
  { apply round_ge_generic; [now apply fexp_correct|apply valid_rnd_round_mode|apply generic_format_0|apply IZR_le; lia]. }
  assert (H2 : (round radix2 (SpecFloat.fexp 24 128) (round_mode mode_NE) (IZR v) <= bpow radix2 32)%R).
  { apply round_le_generic; [now apply fexp_correct|apply valid_rnd_round_mode| |].
    - apply generic_format_bpow. cbn. lia.
    - change (bpow radix2 32) with (IZR 4294967296). apply IZR_le. lia. }
  assert (H3 : (bpow radix2 32 < bpow radix2 128)%R) by (apply bpow_lt; lia).
  rewrite Rlt_bool_true in H by (rewrite Rabs_pos_eq; lra).
  destruct H as (R1 & F1 & _). split; auto. unfold b32_of_Z. rewrite R1. split; auto.
Qed.

Lemma b32_u32_max : B2R (b32_of_Z (u32_mod - 1) 0) = IZR (2 ^ 32).
Proof.
  assert (E : b32_of_Z (u32_mod - 1) 0 = b32_of_Z 1 32) by (apply B2SF_inj; vm_compute; reflexivity).
  rewrite E.
  pose proof (binary_normalize_correct 24 128 b32_prec b32_emax mode_NE 1 32 false) as H. cbv zeta in H.
  assert (E1 : F2R (Float radix2 1 32) = bpow radix2 32) by (unfold F2R; cbn [Fnum Fexp]; lra).
  rewrite E1 in H.
  rewrite round_generic in H; [|apply valid_rnd_round_mode|apply generic_format_bpow; cbn; lia].
  assert (H3 : (bpow radix2 32 < bpow radix2 128)%R) by (apply bpow_lt; lia).
  assert (H4 : (0 < bpow radix2 32)%R) by apply bpow_gt_0.
  rewrite Rlt_bool_true in H by (rewrite Rabs_pos_eq; lra). destruct H as (H & _). exact H.
Qed.

Lemma c56_rand32_uniform ln_ exp_ pow_ cos_ s :
  let u := snd (rand32_uniform (b32_rops ln_ exp_ pow_ cos_) s) in
  is_finite u = true /\ (0 <= B2R u <= 1)%R.
Proof.
  unfold rand32_uniform, rand32_next. cbn [snd rbase rof b32_rops fdiv b32_ops].
  pose proof (rand32_out_range (rand32_step s)) as Hv. set (v := rand32_out (rand32_step s)) in *.
  destruct (b32_of_u32 v Hv) as [Fv Rv]. pose proof b32_u32_max as Rm.
  assert (Hp : (0 < IZR (2 ^ 32))%R) by (apply IZR_lt; lia).
  set (m := b32_of_Z (u32_mod - 1) 0) in *. set (x := b32_of_Z v 0) in *.
  assert (Hnz : B2R m <> 0%R) by (rewrite Rm; lra).
  pose proof (Bdiv_correct 24 128 b32_prec b32_emax mode_NE x m Hnz) as H. rewrite Rm in H.
  assert (Hq : (0 <= B2R x / IZR (2 ^ 32) <= 1)%R).
  { pose proof (Rinv_0_lt_compat _ Hp). pose proof (Rinv_r (IZR (2 ^ 32)) ltac:(lra)). unfold Rdiv. split; nra. }
  assert (H1 : (0 <= round radix2 (SpecFloat.fexp 24 128) (round_mode mode_NE) (B2R x / IZR (2 ^ 32)))%R).
  { apply round_ge_generic; [now apply fexp_correct|apply valid_rnd_round_mode|apply generic_format_0|lra]. }
  assert (H2 : (round radix2 (SpecFloat.fexp 24 128) (round_mode mode_NE) (B2R x / IZR (2 ^ 32)) <= 1)%R).
  { apply round_le_generic; [now apply fexp_correct|apply valid_rnd_round_mode| |lra].
    change 1%R with (bpow radix2 0). apply generic_format_bpow. cbn. lia. }
  assert (H3 : (1 < bpow radix2 128)%R) by (change 1%R with (bpow radix2 0); apply bpow_lt; lia).
  rewrite Rlt_bool_true in H by (rewrite Rabs_pos_eq; lra).
  destruct H as (R1 & F1 & _). rewrite R1, F1. split; auto.
Qed.

Lemma c56_rand32_uniform_ends ln_ exp_ pow_ cos_ :
  let o := b32_rops ln_ exp_ pow_ cos_ in
  B2SF (snd (rand32_uniform o 14557819648473306927)) = B2SF (b32_of_Z 0 0) /\
  B2SF (snd (rand32_uniform o 3127309200044332847)) = B2SF (b32_of_Z 1 0).
Proof. split; vm_compute; reflexivity. Qed.

Lemma c56_rand64_uniform_refuted :
  Bltb (b64_of_Z 1 0) (snd (rand64_uniform_b64 0)) = true.
Proof. vm_compute. reflexivity. Qed.

Lemma c56_rand64_uniform_actual s :
  let v := snd (rand64_next s) in
  let u := snd (rand64_uniform R_rops s) in
  (0 <= u <= IZR (2 ^ 32 + 1))%R /\ ((u <= 1)%R <-> v < 2 ^ 32).
Proof.
  unfold rand64_uniform, rand64_next. cbn [snd rbase rof R_rops fdiv R_ops].
  assert (Hv : 0 <= rand64_out (rand64_step s) < 2 ^ 64) by (apply Z.mod_pos_bound; reflexivity).
  set (v := rand64_out (rand64_step s)) in *. change (u32_mod - 1) with 4294967295.
  assert (H0 : (0 <= IZR v)%R) by (apply IZR_le; lia).
  assert (H1 : (IZR v <= IZR (4294967295 * (2 ^ 32 + 1)))%R) by (apply IZR_le; lia).
  rewrite mult_IZR in H1.
  assert (E : (IZR v / 4294967295 * 4294967295 = IZR v)%R) by (field; lra).
  split; [split; lra|]. split; intros H.
  - assert (H2 : (IZR v <= 4294967295)%R) by lra. apply le_IZR in H2. lia.
  - assert (H2 : (IZR v <= 4294967295)%R) by (apply IZR_le; lia). lra.
Qed.

Lemma c56_random_uniform_refuted c :
  exists x, random_uniform R_rops c (canon [1%nat]) (uniform_seed R_ops 2) 0 = Ok (fresh [1%nat] [x]) /\ (x < 0)%R.
Proof.
  eexists. split.
  - unfold random_uniform. rewrite init_canon by (first [split; cbn; lia|left; cbn; lia]). reflexivity.
  - cbn [rand32_normal]. unfold rand32_normal, rand32_uniform, rand32_next.
    assert (E1 : rand32_out (rand32_step (opt_init (u_seed (uniform_seed R_ops 2)) 0)) = 3750639004) by (vm_compute; reflexivity).
    assert (E2 : rand32_out (rand32_step (rand32_step (opt_init (u_seed (uniform_seed R_ops 2)) 0))) = 2144409193) by (vm_compute; reflexivity).
    rewrite E1, E2. cbn [rbase rof rcos rneg2 rtau R_rops fdiv fmul fsqrt fln fadd fsub fzero fone R_ops u_min u_max uniform_seed].
    change (u32_mod - 1) with 4294967295. rewrite R_fmax.
    replace (Rmax (1 - 0) 0) with 1%R by (rewrite Rmax_left; lra).
    set (a := (3750639004 / 4294967295)%R). set (b := (2144409193 / 4294967295)%R).
    assert (Ha : (0 < a < 1)%R) by (unfold a; lra).
    assert (Hb : (1 / 4 < b < 3 / 4)%R) by (unfold b; lra).
    assert (Hln : (ln a < 0)%R) by (rewrite <- ln_1; apply ln_increasing; lra).
    assert (Hs : (0 < sqrt (-2 * ln a))%R) by (apply sqrt_lt_R0; lra).
    assert (Hcos : (cos (2 * PI * b) < 0)%R).
    { pose proof PI_RGT_0. apply cos_lt_0; nra. }
    nra.
Qed.

Lemma c56_normal_infinite ln_ exp_ pow_ cos_ :
  ln_ (b32_of_Z 0 0) = B754_infinity true ->
  exists s, 0 <= s < 2 ^ 64 /\ is_finite (snd (rand32_normal (b32_rops ln_ exp_ pow_ cos_) s)) = false.
Proof.
  intros Hln. exists 14557819648473306927. split; [lia|].
  unfold rand32_normal, rand32_uniform. destruct (rand32_next 14557819648473306927) as [s1 v1] eqn:E1.
  destruct (rand32_next s1) as [s2 v2] eqn:E2. cbn [snd rbase rof rcos rneg2 rtau b32_rops fdiv fmul fsqrt fln b32_ops].
  assert (Ev : v1 = 0) by (change v1 with (snd (s1, v1)); rewrite <- E1; vm_compute; reflexivity). subst v1.
  match goal with |- context [ln_ ?x] => replace x with (b32_of_Z 0 0) by (vm_compute; reflexivity) end.
  rewrite Hln.
  match goal with |- context [Bsqrt mode_NE ?x] => replace x with (B754_infinity false : b32) by (vm_compute; reflexivity) end.
  set (w := cos_ _). cbn [Bsqrt]. destruct w as [b|b| |b m e Hw]; reflexivity.
Qed.

(** ** C57 *)

Lemma iter_swap {S} (g : S -> S) n st : Nat.iter n g (g st) = g (Nat.iter n g st).
Proof. induction n as [|n IH]; [reflexivity|]. change (g (Nat.iter n g (g st)) = g (g (Nat.iter n g st))). now rewrite IH. Qed.

Lemma traverse_steps {S X Y} (g : S -> S) (h : S -> Y) (l : list X) : forall st,
  traverse (fun st _ => Ok (g st, h st)) st l =
  Ok (Nat.iter (length l) g st, map (fun k => h (Nat.iter k g st)) (seq 0 (length l))).
Proof.
  induction l as [|x l IH]; intros st; [reflexivity|].
  cbn [traverse bind length]. rewrite IH. cbn [bind seq map].
  rewrite <- seq_shift, map_map. f_equal. f_equal.
  - apply iter_swap.
  - f_equal. apply map_ext. intros k. f_equal. apply iter_swap.
Qed.

Lemma rand32_normal_at {F} (o : rops F) s k :
  rand32_normal o (Nat.iter k (fun s => rand32_step (rand32_step s)) s) =
  (Nat.iter (S k) (fun s => rand32_step (rand32_step s)) s, normal_nth o s k).
Proof.
  unfold normal_nth, uniform_nth, rand32_nth.
  assert (E : Nat.iter k (fun s => rand32_step (rand32_step s)) s = N.iter (2 * N.of_nat k) (fun s => fst (rand32_next s)) s).
  { induction k as [|k IH]; [reflexivity|]. change (Nat.iter (S k) ?f s) with (f (Nat.iter k f s)) in |- *. rewrite IH.
    replace (2 * N.of_nat (S k))%N with (N.succ (N.succ (2 * N.of_nat k))) by lia. rewrite !N.iter_succ. reflexivity. }
  change (Nat.iter (S k) (fun s => rand32_step (rand32_step s)) s)
    with (rand32_step (rand32_step (Nat.iter k (fun s => rand32_step (rand32_step s)) s))). rewrite E.
  replace (2 * N.of_nat k + 1)%N with (N.succ (2 * N.of_nat k)) by lia. rewrite N.iter_succ.
  reflexivity.
Qed.

Lemma random_init {F} (o : rops F) c ds s (post : F -> F) :
  supported ds -> can_alloc c (prod ds) ->
  (let* '(_, t) := init c (canon ds) (fun st => let '(st, p) := rand32_normal o st in Ok (st, post p)) s in Ok t)
  = Ok (fresh ds (map (fun k => post (normal_nth o s k)) (seq 0 (prod ds)))).
Proof.
  intros Hs Hc. rewrite init_canon by auto.
  set (g := fun s => rand32_step (rand32_step s)).
  rewrite (traverse_ext _ (fun st _ => Ok (g st, post (snd (rand32_normal o st))))) by reflexivity.
  rewrite (traverse_steps g (fun st => post (snd (rand32_normal o st)))). cbn [bind].
  rewrite coords_length. do 2 f_equal. apply map_ext. intros k. unfold g. rewrite rand32_normal_at. reflexivity.
Qed.

Lemma c57_random_normal {F} (o : rops F) c ds opt s entropy :
  supported ds -> can_alloc c (prod ds) -> n_seed opt = Some s ->
  random_normal o c (canon ds) opt entropy =
  Ok (fresh ds (map (fun k => fadd (rbase o) (n_mean opt) (fmul (rbase o) (normal_nth o s k) (n_std opt)))
                    (seq 0 (prod ds)))).
Proof.
  intros Hs Hc Eo. unfold random_normal. rewrite Eo. cbn [opt_init].
  exact (random_init o c ds s (fun p => fadd (rbase o) (n_mean opt) (fmul (rbase o) p (n_std opt))) Hs Hc).
Qed.

Lemma c57_random_uniform {F} (o : rops F) c ds opt s entropy :
  supported ds -> can_alloc c (prod ds) -> u_seed opt = Some s ->
  random_uniform o c (canon ds) opt entropy =
  Ok (fresh ds (map (fun k => fadd (rbase o) (u_min opt)
        (fmul (rbase o) (normal_nth o s k) (fmax (rbase o) (fsub (rbase o) (u_max opt) (u_min opt)) (fzero (rbase o)))))
                    (seq 0 (prod ds)))).
Proof.
  intros Hs Hc Eo. unfold random_uniform. rewrite Eo. cbn [opt_init].
  exact (random_init o c ds s (fun p => fadd (rbase o) (u_min opt)
    (fmul (rbase o) p (fmax (rbase o) (fsub (rbase o) (u_max opt) (u_min opt)) (fzero (rbase o))))) Hs Hc).
Qed.

Lemma c57_unseeded {F} (o : rops F) c sh entropy entropy' :
  (forall m d, random_normal o c sh (mkNormal m d None) entropy = random_normal o c sh (mkNormal m d (Some entropy)) entropy') /\
  (forall a b, random_uniform o c sh (mkUniform a b None) entropy = random_uniform o c sh (mkUniform a b (Some entropy)) entropy').
Proof. split; reflexivity. Qed.

Lemma c57_prefix {F} (o : rops F) c c' ds ds' e e' :
  supported ds -> can_alloc c (prod ds) -> supported ds' -> can_alloc c' (prod ds') ->
  (prod ds <= prod ds')%nat ->
  (forall opt s, n_seed opt = Some s -> exists xs ys,
     random_normal o c (canon ds) opt e = Ok (fresh ds xs) /\
     random_normal o c' (canon ds') opt e' = Ok (fresh ds' ys) /\ xs = firstn (prod ds) ys) /\
  (forall opt s, u_seed opt = Some s -> exists xs ys,
     random_uniform o c (canon ds) opt e = Ok (fresh ds xs) /\
     random_uniform o c' (canon ds') opt e' = Ok (fresh ds' ys) /\ xs = firstn (prod ds) ys).
Proof.
  intros Hs Hc Hs' Hc' Hle.
  assert (Hp : forall n m (f : nat -> F), (n <= m)%nat -> map f (seq 0 n) = firstn n (map f (seq 0 m))).
  { intros n m f Hnm. rewrite firstn_map. f_equal. replace m with (n + (m - n))%nat by lia.
    rewrite seq_app, firstn_app, seq_length, Nat.sub_diag, firstn_O, app_nil_r.
    symmetry. apply firstn_all2. rewrite seq_length. apply Nat.le_refl. }
  split; intros opt s Eo.
  - rewrite !(c57_random_normal o _ _ _ s) by auto. do 2 eexists. repeat split. now apply Hp.
  - rewrite !(c57_random_uniform o _ _ _ s) by auto. do 2 eexists. repeat split. now apply Hp.
Qed.

Lemma c57_string_seed b bs :
  rand32_from (bs ++ [b]) = (rand32_step (rand32_from bs) + b) mod 2 ^ 64 /\ rand32_from [] = 0 /\
  rand64_from (bs ++ [b]) = (rand64_step (rand64_from bs) + b) mod 2 ^ 128 /\ rand64_from [] = 0.
Proof.
  unfold rand32_from, rand64_from. rewrite !fold_left_app. repeat split; reflexivity.
Qed.

Lemma c57_options {F} (f : fops F) m d s (a b : F) :
  normal_seed f s = mkNormal (fzero f) (fone f) (Some s) /\
  with_seed (with_std (normal_mean f m) d) s = mkNormal m d (Some s) /\
  with_mean (with_std (normal_seed f s) d) m = mkNormal m d (Some s) /\
  normal_of_pair f (m, d) = mkNormal m d None /\
  uniform_with_seed (with_max (uniform_min f a) b) s = mkUniform a b (Some s) /\
  with_min (uniform_with_seed (uniform_max f b) s) a = mkUniform a b (Some s) /\
  uniform_of_pair f (a, b) = mkUniform a b None.
Proof. repeat split. Qed.

(** ** C58 *)

Lemma seed_after_range s : 0 <= seed_after s < 2 ^ 64.
Proof. apply Z.mod_pos_bound. reflexivity. Qed.

(** The 64-bit states whose output is 0 solve [x A + C = t + 2^96 k] with [t < 2^32]; a
    reduced basis of that lattice shows that there is none below 2^64. *)
Lemma no_zero_seed x k t : 0 <= x < 2^64 -> 0 <= t < 2^32 ->
  x * rand64_A + rand64_C = t + 2^96 * k -> False.
Proof.
  intros Hx Ht E. unfold rand64_A, rand64_C in E.
  set (u := 77451571979997718590812942115 * x - 26733903230133052093 * k).
  set (v := - 7957027408842821772451458848 * x + 2746521410856025451 * k).
  assert (Ex : x = 2746521410856025451 * u + 26733903230133052093 * v) by (unfold u, v; ring).
  assert (Ek : k = 7957027408842821772451458848 * u + 77451571979997718590812942115 * v) by (unfold u, v; ring).
  clearbody u v. subst x k.
  assert (Et : t = 0x351402A3544A25016AEE39FBBADBB38D + (2746521410856025451 * 0xACAEAEFB4BF4A6A78B6E278B66409E7D - 2^96 * 7957027408842821772451458848) * u + (26733903230133052093 * 0xACAEAEFB4BF4A6A78B6E278B66409E7D - 2^96*77451571979997718590812942115) * v) by lia.
  clear E.
  match type of Et with t = _ + ?a * u + ?b * v => let a' := eval vm_compute in a in let b' := eval vm_compute in b in
    change a with a' in Et; change b with b' in Et end.
  subst t. lia.
Qed.

Lemma mul_mod_zero z w m n : 0 <= z < n -> (m * w) mod n = 1 -> (z * m) mod n = 0 -> z = 0.
Proof.
  intros Hz Hi E. assert (Hn : 0 < n) by lia.
  assert (H : (z * m * w) mod n = 0) by (rewrite Z.mul_mod, E by lia; apply Z.mod_0_l; lia).
  rewrite <- Z.mul_assoc, Z.mul_mod, Hi, Z.mul_1_r, Z.mod_mod, Z.mod_small in H by lia. exact H.
Qed.

Lemma c58_seed_nonzero s : 0 <= s < 2 ^ 64 -> 0 < seed_after s < 2 ^ 64.
Proof.
  intros Hs. pose proof (seed_after_range s) as Hr. enough (seed_after s <> 0) by lia.
  unfold seed_after, rand64_next, rand64_out. cbn [snd]. intros E.
  set (y := rand64_step s) in *. set (r := Z.shiftr y 32 mod u64_mod) in *.
  assert (Hr0 : 0 <= r < 2 ^ (2 * 32)) by (apply Z.mod_pos_bound; reflexivity).
  change (Z.lxor r (Z.shiftr r 32)) with (xorshift 32 r) in E.
  apply (mul_mod_zero _ (5546147812785705381) rand64_M) in E; [|exact (xorshift_range 32 r ltac:(lia) Hr0)|vm_compute; reflexivity].
  assert (Er : r = 0).
  { rewrite <- (xorshift_inv 32 r) by (first [exact Hr0|lia]). rewrite E. reflexivity. }
  unfold r, u64_mod in Er. rewrite Z.shiftr_div_pow2 in Er by lia.
  unfold y, rand64_step, u128_mod in Er. rewrite Z.add_mod_idemp_l in Er by lia.
  set (w := s * rand64_A + rand64_C) in *.
  assert (E1 : w = 2 ^ 128 * (w / 2 ^ 128) + w mod 2 ^ 128) by (apply Z.div_mod; lia).
  set (m := w mod 2 ^ 128) in *.
  assert (E2 : m = 2 ^ 32 * (m / 2 ^ 32) + m mod 2 ^ 32) by (apply Z.div_mod; lia).
  assert (E3 : m / 2 ^ 32 = 2 ^ 64 * (m / 2 ^ 32 / 2 ^ 64) + (m / 2 ^ 32) mod 2 ^ 64) by (apply Z.div_mod; lia).
  assert (E4 : 0 <= m mod 2 ^ 32 < 2 ^ 32) by (apply Z.mod_pos_bound; lia).
  apply (no_zero_seed s (2 ^ 32 * (w / 2 ^ 128) + m / 2 ^ 32 / 2 ^ 64) (m mod 2 ^ 32) Hs E4).
  fold w. rewrite Er in E3. lia.
Qed.

Lemma seed_nth_range s k : 0 < s < 2 ^ 64 -> 0 < seed_nth s k < 2 ^ 64.
Proof.
  intros Hs. induction k as [|k IH]; [exact Hs|].
  change (seed_nth s (S k)) with (seed_after (seed_nth s k)). apply c58_seed_nonzero. lia.
Qed.

Lemma run_app es es' s : run (es ++ es') s = match run es s with Some s' => run es' s' | None => None end.
Proof.
  revert s. induction es as [|e es IH]; intros s; cbn [run app]; [reflexivity|].
  destruct (sys_step e s); auto.
Qed.

(** Steps, seen from one thread. *)
Lemma nth_set_thread (ts : list thread) i t j t0 : nth_error ts i = Some t0 ->
  nth_error (set_nth ts i t) j = if Nat.eqb i j then Some t else nth_error ts j.
Proof.
  intros H. destruct (Nat.eqb_spec i j) as [->|Hne].
  - apply nth_error_set_nth_eq. apply nth_error_Some. congruence.
  - apply nth_error_set_nth_neq. auto.
Qed.

Lemma NoDup_snoc {A} (l : list A) x : NoDup l -> ~ In x l -> NoDup (l ++ [x]).
Proof.
  induction l as [|y l IH]; intros H Hx; cbn [app].
  - constructor; [intros []|constructor].
  - inversion H; subst. constructor.
    + rewrite in_app_iff. cbn [In] in *. intros [G|[G|[]]]; [contradiction|]. apply Hx. now left.
    + apply IH; auto. intros G. apply Hx. now right.
Qed.

Lemma c58_schedule st0 es st :
  0 < sys_seed st0 < 2 ^ 64 -> forallb (fun e => negb (is_store e)) es = true -> run es st0 = Some st ->
  exists ord : list nat,
    NoDup ord /\
    (forall i, In i ord <-> is_seeded st i /\ ~ is_seeded st0 i) /\
    (forall k i, nth_error ord k = Some i ->
       nth_error (sys_threads st) i = Some (Seeded (seed_nth (sys_seed st0) (S k)))) /\
    sys_seed st = seed_nth (sys_seed st0) (length ord).
Proof.
  intros Hs. revert st. induction es as [|e es IH] using rev_ind; intros st Hn Hr.
  - cbn in Hr. injection Hr as <-. exists [].
    split; [constructor|split; [|split; [|reflexivity]]].
    + intros i. split; [intros []|intros [H1 H2]; contradiction].
    + intros [|k] i H; discriminate H.
  - rewrite forallb_app in Hn. apply andb_prop in Hn. destruct Hn as [Hn He].
    rewrite run_app in Hr. destruct (run es st0) as [st1|] eqn:E1; [|discriminate].
    destruct (IH st1 Hn eq_refl) as (ord & ND & Hin & Hk & Hsd). clear IH.
    cbn [run] in Hr. destruct (sys_step e st1) as [st2|] eqn:E2; [|discriminate]. injection Hr as <-.
    pose proof (seed_nth_range (sys_seed st0) (length ord) Hs) as Hpos.
    destruct e as [i|i en|sd]; [| |discriminate He].
    + cbn [sys_step] in E2. destruct (nth_error (sys_threads st1) i) as [[|old|sd]|] eqn:Ei; try discriminate.
      injection E2 as <-. exists ord. cbn [sys_seed sys_threads]. split; [auto|].
      assert (Hnot : forall j, nth_error (set_nth (sys_threads st1) i (Loaded (sys_seed st1))) j =
                        if Nat.eqb i j then Some (Loaded (sys_seed st1)) else nth_error (sys_threads st1) j)
        by (intros j; eapply nth_set_thread; eauto).
      split; [|split]; [| |auto].
      * intros j. rewrite Hin. unfold is_seeded. cbn [sys_threads]. rewrite Hnot.
        destruct (Nat.eqb_spec i j) as [->|Hne]; [|reflexivity].
        split; intros [[v Hv] _]; congruence.
      * intros k j Hj. rewrite Hnot. destruct (Nat.eqb_spec i j) as [->|Hne]; [|now apply Hk].
        apply Hk in Hj. congruence.
    + cbn [sys_step] in E2. destruct (nth_error (sys_threads st1) i) as [[|old|sd]|] eqn:Ei; try discriminate.
      destruct (Z.eqb_spec (sys_seed st1) old) as [Eo|Eo].
      * injection E2 as <-. cbn [sys_seed sys_threads].
        assert (Hns : next_seed old en = seed_nth (sys_seed st0) (S (length ord))).
        { unfold next_seed. rewrite <- Eo, Hsd. destruct (Z.eqb_spec (seed_nth (sys_seed st0) (length ord)) 0); [lia|reflexivity]. }
        assert (Hnot : forall j, nth_error (set_nth (sys_threads st1) i (Seeded (next_seed old en))) j =
                        if Nat.eqb i j then Some (Seeded (next_seed old en)) else nth_error (sys_threads st1) j)
          by (intros j; eapply nth_set_thread; eauto).
        assert (Hi : ~ In i ord) by (rewrite Hin; intros [[v Hv] _]; congruence).
        assert (Hi0 : ~ is_seeded st0 i).
        { intros H. assert (G : forall es s s', run es s = Some s' -> is_seeded s i -> is_seeded s' i).
          { clear. induction es as [|e es IH]; intros s s' Hr [v Hv]; cbn [run] in Hr; [injection Hr as <-; now exists v|].
            destruct (sys_step e s) as [s1|] eqn:E; [|discriminate]. apply (IH _ _ Hr). exists v.
            destruct e as [j|j en|sd]; cbn [sys_step] in E.
            - destruct (nth_error (sys_threads s) j) as [[|old|sd]|] eqn:Ej; try discriminate. injection E as <-.
              cbn [sys_threads]. rewrite (nth_set_thread _ _ _ _ _ Ej). destruct (Nat.eqb_spec j i); [congruence|auto].
            - destruct (nth_error (sys_threads s) j) as [[|old|sd]|] eqn:Ej; try discriminate.
              destruct (sys_seed s =? old); injection E as <-; cbn [sys_threads];
                rewrite (nth_set_thread _ _ _ _ _ Ej); (destruct (Nat.eqb_spec j i); [congruence|auto]).
            - injection E as <-. auto. }
          destruct (G _ _ _ E1 H) as [v Hv]. congruence. }
        exists (ord ++ [i]). split; [|split; [|split]].
        -- apply NoDup_snoc; auto.
        -- intros j. rewrite in_app_iff, Hin. unfold is_seeded at 3. cbn [sys_threads]. rewrite Hnot.
           destruct (Nat.eqb_spec i j) as [->|Hne].
           ++ split; [|intros _; right; now left]. intros _. split; [now eexists|auto].
           ++ split; [intros [H|[H|[]]]; [exact H|contradiction]|intros H; now left].
        -- intros k j Hj. rewrite Hnot. destruct (Nat.lt_ge_cases k (length ord)) as [Hlt|Hge].
           ++ rewrite nth_error_app1 in Hj by auto. destruct (Nat.eqb_spec i j) as [->|Hne].
              ** apply nth_error_In in Hj. contradiction.
              ** now apply Hk.
           ++ rewrite nth_error_app2 in Hj by auto. destruct (k - length ord)%nat as [|d] eqn:Ed; [|destruct d; discriminate Hj].
              cbn in Hj. injection Hj as <-. rewrite Nat.eqb_refl, Hns. do 3 f_equal. lia.
        -- rewrite app_length, Nat.add_1_r. exact Hns.
      * injection E2 as <-. exists ord. cbn [sys_seed sys_threads]. split; [auto|].
        assert (Hnot : forall j, nth_error (set_nth (sys_threads st1) i Ready) j =
                        if Nat.eqb i j then Some Ready else nth_error (sys_threads st1) j)
          by (intros j; eapply nth_set_thread; eauto).
        split; [|split]; [| |auto].
        -- intros j. rewrite Hin. unfold is_seeded. cbn [sys_threads]. rewrite Hnot.
           destruct (Nat.eqb_spec i j) as [->|Hne]; [|reflexivity].
           split; intros [[v Hv] _]; congruence.
        -- intros k j Hj. rewrite Hnot. destruct (Nat.eqb_spec i j) as [->|Hne]; [|now apply Hk].
           apply Hk in Hj. congruence.
Qed.

Lemma c58_keep es st st' i v :
  run es st = Some st' -> nth_error (sys_threads st) i = Some (Seeded v) ->
  nth_error (sys_threads st') i = Some (Seeded v).
Proof.
  revert st. induction es as [|e es IH]; intros st Hr Hv; cbn [run] in Hr; [injection Hr as <-; exact Hv|].
  destruct (sys_step e st) as [s1|] eqn:E; [|discriminate]. apply (IH _ Hr).
  destruct e as [j|j en|sd]; cbn [sys_step] in E.
  - destruct (nth_error (sys_threads st) j) as [[|old|sd]|] eqn:Ej; try discriminate. injection E as <-.
    cbn [sys_threads]. rewrite (nth_set_thread _ _ _ _ _ Ej). destruct (Nat.eqb_spec j i); [congruence|auto].
  - destruct (nth_error (sys_threads st) j) as [[|old|sd]|] eqn:Ej; try discriminate.
    destruct (sys_seed st =? old); injection E as <-; cbn [sys_threads];
      rewrite (nth_set_thread _ _ _ _ _ Ej); (destruct (Nat.eqb_spec j i); [congruence|auto]).
  - injection E as <-. auto.
Qed.

Lemma c58_unseeded st0 es st :
  sys_seed st0 = 0 -> forallb (fun e => negb (is_store e)) es = true ->
  (forall i en, In (Exchange i en) es -> 0 < en < 2 ^ 64) ->
  run es st0 = Some st ->
  (sys_seed st = 0 /\ forall i, is_seeded st i <-> is_seeded st0 i) \/
  exists en ord,
    (exists i, In (Exchange i en) es) /\ NoDup ord /\
    (forall i, In i ord <-> is_seeded st i /\ ~ is_seeded st0 i) /\
    (forall k i, nth_error ord k = Some i -> nth_error (sys_threads st) i = Some (Seeded (seed_nth en k))) /\
    sys_seed st = seed_nth en (length ord - 1).
Proof.
  revert st0. induction es as [|e es IH]; intros st0 H0 Hn Hen Hr.
  - cbn in Hr. injection Hr as <-. left. split; [auto|reflexivity].
  - cbn [forallb] in Hn. apply andb_prop in Hn. destruct Hn as [He Hn].
    cbn [run] in Hr. destruct (sys_step e st0) as [st1|] eqn:E; [|discriminate].
    assert (Hen' : forall i en, In (Exchange i en) es -> 0 < en < 2 ^ 64) by (intros; eapply Hen; right; eauto).
    assert (Hsame : sys_seed st1 = 0 -> (forall i, is_seeded st1 i <-> is_seeded st0 i) ->
      (sys_seed st = 0 /\ forall i, is_seeded st i <-> is_seeded st0 i) \/
      exists en ord,
        (exists i, In (Exchange i en) (e :: es)) /\ NoDup ord /\
        (forall i, In i ord <-> is_seeded st i /\ ~ is_seeded st0 i) /\
        (forall k i, nth_error ord k = Some i -> nth_error (sys_threads st) i = Some (Seeded (seed_nth en k))) /\
        sys_seed st = seed_nth en (length ord - 1)).
    { intros H1 Hse. destruct (IH st1 H1 Hn Hen' Hr) as [[G1 G2]|(en & ord & [i Hi] & ND & Hin & Hk & Hsd)].
      - left. split; auto. intros i. now rewrite G2.
      - right. exists en, ord. split; [exists i; now right|]. split; [auto|]. split; [|auto].
        intros j. now rewrite Hin, Hse. }
    destruct e as [i|i en|sd]; [| |discriminate He]; cbn [sys_step] in E.
    + destruct (nth_error (sys_threads st0) i) as [[|old|sd]|] eqn:Ei; try discriminate. injection E as <-.
      apply Hsame; [exact H0|]. intros j. unfold is_seeded. cbn [sys_threads].
      rewrite (nth_set_thread _ _ _ _ _ Ei). destruct (Nat.eqb_spec i j) as [->|Hne]; [|reflexivity].
      split; intros [v Hv]; congruence.
    + destruct (nth_error (sys_threads st0) i) as [[|old|sd]|] eqn:Ei; try discriminate.
      destruct (Z.eqb_spec (sys_seed st0) old) as [Eo|Eo]; injection E as <-.
      * clear Hsame IH. right. rewrite H0 in Eo. subst old. change (next_seed 0 en) with en in *.
        set (st1 := mkSys en (set_nth (sys_threads st0) i (Seeded en))) in *.
        assert (Hnth : forall j, nth_error (sys_threads st1) j = if Nat.eqb i j then Some (Seeded en) else nth_error (sys_threads st0) j)
          by (intros j; exact (nth_set_thread _ _ _ _ _ Ei)).
        destruct (c58_schedule st1 es st (Hen i en (or_introl eq_refl)) Hn Hr) as (ord & ND & Hin & Hk & Hsd).
        assert (Hi1 : nth_error (sys_threads st1) i = Some (Seeded en)) by (rewrite Hnth, Nat.eqb_refl; reflexivity).
        pose proof (c58_keep _ _ _ _ _ Hr Hi1) as Hi2.
        exists en, (i :: ord). split; [exists i; now left|]. split; [|split; [|split]].
        -- constructor; auto. rewrite Hin. intros [_ G]. apply G. now exists en.
        -- intros j. cbn [In]. rewrite Hin. destruct (Nat.eqb_spec i j) as [<-|Hne].
           ++ split; [|intros _; now left]. intros _. split; [now exists en|]. intros [v Hv]. congruence.
           ++ unfold is_seeded. rewrite Hnth. destruct (Nat.eqb_spec i j); [contradiction|]. tauto.
        -- intros [|k] j Hj; cbn [nth_error] in Hj; [injection Hj as <-; exact Hi2|]. now apply Hk.
        -- rewrite Hsd. f_equal. cbn [length]. lia.
      * apply Hsame; [exact H0|]. intros j. unfold is_seeded. cbn [sys_threads].
        rewrite (nth_set_thread _ _ _ _ _ Ei). destruct (Nat.eqb_spec i j) as [->|Hne]; [|reflexivity].
        split; intros [v Hv]; congruence.
Qed.

Lemma c58_progress st i t en :
  nth_error (sys_threads st) i = Some t ->
  exists es st' v, (length es <= 3)%nat /\
    (forall e, In e es -> e = Load i \/ e = Exchange i en) /\
    run es st = Some st' /\ nth_error (sys_threads st') i = Some (Seeded v).
Proof.
  intros Ht.
  assert (Hready : forall st, nth_error (sys_threads st) i = Some Ready ->
    exists st' v, run [Load i; Exchange i en] st = Some st' /\ nth_error (sys_threads st') i = Some (Seeded v)).
  { clear. intros st H. cbn [run sys_step]. rewrite H. cbn [sys_threads].
    rewrite (nth_set_thread _ _ _ _ _ H), Nat.eqb_refl. cbn [sys_seed]. rewrite Z.eqb_refl. do 2 eexists. split; [reflexivity|].
    cbn [sys_threads]. rewrite (nth_set_thread _ _ _ _ (Loaded (sys_seed st))), Nat.eqb_refl; [reflexivity|].
    rewrite (nth_set_thread _ _ _ _ _ H), Nat.eqb_refl. reflexivity. }
  destruct t as [|old|v].
  - destruct (Hready st Ht) as (st' & v & H1 & H2). exists [Load i; Exchange i en], st', v.
    split; [cbn; lia|]. split; [|auto]. intros e [<-|[<-|[]]]; auto.
  - destruct (Z.eqb_spec (sys_seed st) old) as [Eo|Eo].
    + exists [Exchange i en]. cbn [run sys_step]. rewrite Ht. destruct (Z.eqb_spec (sys_seed st) old); [|contradiction].
      do 2 eexists. split; [cbn; lia|]. split; [intros e' [<-|[]]; auto|]. split; [reflexivity|].
      cbn [sys_threads]. rewrite (nth_set_thread _ _ _ _ _ Ht), Nat.eqb_refl. reflexivity.
    + destruct (Hready (mkSys (sys_seed st) (set_nth (sys_threads st) i Ready))) as (st' & v & H1 & H2).
      { cbn [sys_threads]. rewrite (nth_set_thread _ _ _ _ _ Ht), Nat.eqb_refl. reflexivity. }
      exists [Exchange i en; Load i; Exchange i en], st', v. split; [cbn; lia|].
      split; [intros e [<-|[<-|[<-|[]]]]; auto|]. split; [|auto].
      change (run ([Exchange i en] ++ [Load i; Exchange i en]) st = Some st'). rewrite run_app.
      cbn [run sys_step]. rewrite Ht. destruct (Z.eqb_spec (sys_seed st) old); [contradiction|]. exact H1.
  - exists [], st, v. split; [cbn; lia|]. split; [intros e []|]. auto.
Qed.

Lemma c58_lock_free st i en old :
  nth_error (sys_threads st) i = Some (Loaded old) ->
  exists st', sys_step (Exchange i en) st = Some st' /\
    (if sys_seed st =? old then is_seeded st' i
     else nth_error (sys_threads st') i = Some Ready /\ sys_seed st' = sys_seed st).
Proof.
  intros Ht. cbn [sys_step]. rewrite Ht. destruct (Z.eqb_spec (sys_seed st) old); eexists; (split; [reflexivity|]).
  - eexists. cbn [sys_threads]. rewrite (nth_set_thread _ _ _ _ _ Ht), Nat.eqb_refl. reflexivity.
  - cbn [sys_threads sys_seed]. rewrite (nth_set_thread _ _ _ _ _ Ht), Nat.eqb_refl. auto.
Qed.

Lemma c58_seed_collision k : seed_nth 1 (S k) = seed_nth 2746521410856025452 (S k).
Proof.
  unfold seed_nth. induction k as [|k IH]; [vm_compute; reflexivity|].
  change (seed_after (Nat.iter (S k) seed_after 1) = seed_after (Nat.iter (S k) seed_after 2746521410856025452)).
  now rewrite IH.
Qed.

Lemma c58_distinct st0 es st i j v :
  0 < sys_seed st0 < 2 ^ 64 -> forallb (fun e => negb (is_store e)) es = true -> run es st0 = Some st ->
  (forall a b, (0 < a <= length (sys_threads st))%nat -> (0 < b <= length (sys_threads st))%nat ->
     seed_nth (sys_seed st0) a = seed_nth (sys_seed st0) b -> a = b) ->
  ~ is_seeded st0 i -> ~ is_seeded st0 j ->
  nth_error (sys_threads st) i = Some (Seeded v) -> nth_error (sys_threads st) j = Some (Seeded v) -> i = j.
Proof.
  intros Hs Hn Hr Hd Hi Hj Ei Ej.
  destruct (c58_schedule st0 es st Hs Hn Hr) as (ord & ND & Hin & Hk & Hsd).
  assert (Hlen : (length ord <= length (sys_threads st))%nat).
  { rewrite <- (seq_length (length (sys_threads st)) 0). apply NoDup_incl_length; auto. intros x Hx.
    apply Hin in Hx. destruct Hx as [[w Hw] _]. apply in_seq. cbn. split; [lia|]. apply nth_error_Some. congruence. }
  assert (Gi : In i ord) by (apply Hin; split; [now exists v|auto]).
  assert (Gj : In j ord) by (apply Hin; split; [now exists v|auto]).
  apply In_nth_error in Gi. destruct Gi as [a Ha]. apply In_nth_error in Gj. destruct Gj as [b Hb].
  assert (La : (a < length ord)%nat) by (apply nth_error_Some; congruence).
  assert (Lb : (b < length ord)%nat) by (apply nth_error_Some; congruence).
  pose proof (Hk _ _ Ha) as Ka. pose proof (Hk _ _ Hb) as Kb.
  assert (E : S a = S b) by (apply Hd; [lia|lia|congruence]).
  injection E as ->. congruence.
Qed.

(** But there are only 2^64 seeds: with enough threads a seed is handed out twice,
    whatever the argument of [random_seed]. *)
Lemma not_NoDup (l : list Z) : ~ NoDup l -> exists z l1 l2 l3, l = l1 ++ z :: l2 ++ z :: l3.
Proof.
  induction l as [|x l IH]; intros H; [destruct H; constructor|].
  destruct (in_dec Z.eq_dec x l) as [Hx|Hx].
  - apply in_split in Hx. destruct Hx as (l2 & l3 & ->). now exists x, [], l2, l3.
  - destruct IH as (z & l1 & l2 & l3 & ->); [intros G; apply H; now constructor|]. now exists z, (x :: l1), l2, l3.
Qed.

Lemma seeds_repeat s : exists a b, (a < b)%nat /\ seed_nth s (S a) = seed_nth s (S b).
Proof.
  destruct (nat_of_Z (2 ^ 64)) as [K HK]; [lia|].
  set (l := map (fun k => seed_nth s (S k)) (seq 0 (S K))).
  assert (Hn : ~ NoDup l).
  { intros ND. assert (Hl : (length l <= length (map Z.of_nat (seq 0 K)))%nat).
    { apply NoDup_incl_length; auto. intros z Hz. apply in_map_iff in Hz. destruct Hz as (k & <- & _).
      pose proof (seed_after_range (seed_nth s k)) as Hr.
      change (seed_nth s (S k)) with (seed_after (seed_nth s k)).
      apply in_map_iff. exists (Z.to_nat (seed_after (seed_nth s k))).
      split; [apply Z2Nat.id; lia|]. apply in_seq. split; [lia|]. apply Nat2Z.inj_lt. rewrite Z2Nat.id by lia. cbn [Nat.add]. lia. }
    unfold l in Hl. rewrite !map_length, !seq_length in Hl. lia. }
  apply not_NoDup in Hn. destruct Hn as (z & l1 & l2 & l3 & E).
  exists (length l1), (length l1 + S (length l2))%nat. split; [lia|].
  assert (G : forall k y, nth_error l k = Some y -> seed_nth s (S k) = y).
  { intros k y Hk. assert (Hlt : (k < S K)%nat).
    { rewrite <- (seq_length (S K) 0), <- (map_length (fun k => seed_nth s (S k))). apply nth_error_Some. fold l. congruence. }
    unfold l in Hk. rewrite (map_nth_error _ k (seq 0 (S K)) (d := k)) in Hk; [congruence|].
    rewrite (nth_error_nth' _ 0%nat) by (rewrite seq_length; exact Hlt). now rewrite seq_nth by exact Hlt. }
  rewrite (G _ z), (G _ z); [reflexivity| |].
  - rewrite E, nth_error_app2 by lia. replace (length l1 + S (length l2) - length l1)%nat with (S (length l2)) by lia.
    cbn [nth_error]. rewrite nth_error_app2, Nat.sub_diag by lia. reflexivity.
  - rewrite E, nth_error_app2, Nat.sub_diag by lia. reflexivity.
Qed.

Lemma run_all n : forall st, length (sys_threads st) = n ->
  (forall i, (i < n)%nat -> nth_error (sys_threads st) i = Some Ready) ->
  forall m, (m <= n)%nat -> exists es st', forallb (fun e => negb (is_store e)) es = true /\ run es st = Some st' /\
    length (sys_threads st') = n /\
    (forall i, (i < n)%nat -> if (i <? m)%nat then is_seeded st' i else nth_error (sys_threads st') i = Some Ready).
Proof.
  intros st Hl Hr. induction m as [|m IH]; intros Hm.
  - exists [], st. repeat split; auto.
  - destruct IH as (es & st' & H1 & H2 & H3 & H4); [lia|].
    assert (Hmr : nth_error (sys_threads st') m = Some Ready).
    { specialize (H4 m ltac:(lia)). now rewrite Nat.ltb_irrefl in H4. }
    pose (st'' := mkSys (next_seed (sys_seed st') 0)
      (set_nth (set_nth (sys_threads st') m (Loaded (sys_seed st'))) m (Seeded (next_seed (sys_seed st') 0)))).
    assert (Hml : nth_error (set_nth (sys_threads st') m (Loaded (sys_seed st'))) m = Some (Loaded (sys_seed st')))
      by (rewrite (nth_set_thread _ _ _ _ _ Hmr), Nat.eqb_refl; reflexivity).
    exists (es ++ [Load m; Exchange m 0]), st''. rewrite forallb_app, H1, run_app, H2. split; [reflexivity|]. split.
    { cbn [run sys_step]. rewrite Hmr. cbn [sys_threads sys_seed]. rewrite Hml, Z.eqb_refl. reflexivity. }
    split; [unfold st''; cbn [sys_threads]; now rewrite !set_nth_length|].
    intros i Hi. specialize (H4 i Hi). unfold is_seeded, st''. cbn [sys_threads].
    rewrite (nth_set_thread _ _ _ _ _ Hml), (nth_set_thread _ _ _ _ _ Hmr).
    destruct (Nat.eqb_spec m i) as [<-|Hne].
    + replace (m <? S m)%nat with true by (symmetry; apply Nat.ltb_lt; lia). now eexists.
    + replace (i <? S m)%nat with (i <? m)%nat; [exact H4|].
      destruct (Nat.ltb_spec i m), (Nat.ltb_spec i (S m)); auto; lia.
Qed.

Lemma c58_distinct_refuted s : 0 < s < 2 ^ 64 ->
  exists n es st i j v,
    forallb (fun e => negb (is_store e)) es = true /\ run es (mkSys s (repeat Ready n)) = Some st /\ i <> j /\
    nth_error (sys_threads st) i = Some (Seeded v) /\ nth_error (sys_threads st) j = Some (Seeded v).
Proof.
  intros Hs. destruct (seeds_repeat s) as (a & b & Hab & E).
  set (n := S b). set (st0 := mkSys s (repeat Ready n)).
  destruct (run_all n st0) with (m := n) as (es & st & H1 & H2 & H3 & H4); [apply repeat_length| |lia|].
  { intros i Hi. cbn [st0 sys_threads]. rewrite (nth_error_nth' _ Ready) by (rewrite repeat_length; exact Hi).
    now rewrite nth_repeat. }
  destruct (c58_schedule st0 es st Hs H1 H2) as (ord & ND & Hin & Hk & _).
  assert (Hlen : (n <= length ord)%nat).
  { rewrite <- (seq_length n 0). apply NoDup_incl_length; [apply seq_NoDup|]. intros i Hi. apply in_seq in Hi.
    apply Hin. split.
    - specialize (H4 i ltac:(lia)). replace (i <? n)%nat with true in H4 by (symmetry; apply Nat.ltb_lt; lia). exact H4.
    - intros [v Hv]. cbn [st0 sys_threads] in Hv. apply nth_error_In, repeat_spec in Hv. discriminate. }
  destruct (nth_error ord a) as [i|] eqn:Ea; [|apply nth_error_None in Ea; unfold n in Hlen; lia].
  destruct (nth_error ord b) as [j|] eqn:Eb; [|apply nth_error_None in Eb; unfold n in Hlen; lia].
  exists n, es, st, i, j, (seed_nth s (S a)). split; [auto|]. split; [auto|]. split.
  - intros ->. enough (a = b) by lia. eapply (proj1 (NoDup_nth_error ord)); eauto; [|congruence].
    apply nth_error_Some. congruence.
  - split; [exact (Hk _ _ Ea)|]. rewrite E. exact (Hk _ _ Eb).
Qed.

(** The constants of the normal variates. *)
Lemma tau_near : (Rabs (13176795 * / 2097152 - 2 * PI) <= / 4194304)%R.
Proof.
  destruct (PI_2_3_7_ineq 4) as [A B].
  cbn [Nat.mul Nat.add sum_f_R0] in A, B. unfold tg_alt, PI_2_3_7_tg, Ratan_seq in A, B.
  cbn [pow Nat.mul Nat.add INR] in A, B.
  apply Rabs_le. split; lra.
Qed.

Lemma c56_constants ln_ exp_ pow_ cos_ :
  let o := b32_rops ln_ exp_ pow_ cos_ in
  is_finite (rneg2 o) = true /\ B2R (rneg2 o) = (-2)%R /\
  is_finite (rtau o) = true /\ (Rabs (B2R (rtau o) - 2 * PI) <= / 2 ^ 22)%R.
Proof.
  cbn [rneg2 rtau b32_rops].
  assert (E1 : B2SF (b32_of_Z (-2) 0) = SpecFloat.S754_finite true 8388608 (-22)) by (vm_compute; reflexivity).
  assert (E2 : B2SF (b32_of_Z 13176795 (-21)) = SpecFloat.S754_finite false 13176795 (-21)) by (vm_compute; reflexivity).
  rewrite <- !is_finite_SF_B2SF, <- !SF2R_B2SF. rewrite E1, E2. split; [reflexivity|]. split.
  - cbn. unfold F2R. cbn. lra.
  - split; [reflexivity|]. pose proof tau_near as T. cbn. unfold F2R. cbn.
    match goal with |- (_ <= / ?x)%R => replace x with 4194304%R by lra end. exact T.
Qed.

(** ** C56: values *)

(** Rounding of non-negative integers below a power of two. *)
Lemma round_int_range prec emax (Hp : FLX.Prec_gt_0 prec) (He : Prec_lt_emax prec emax) v k :
  0 <= v <= 2 ^ k -> 0 <= k < emax ->
  (0 <= round radix2 (SpecFloat.fexp prec emax) (round_mode mode_NE) (IZR v) <= bpow radix2 k)%R.
Proof.
  intros Hv Hk. unfold FLX.Prec_gt_0, Prec_lt_emax in *. split.
  - apply round_ge_generic; [now apply fexp_correct|apply valid_rnd_round_mode|apply generic_format_0|apply IZR_le; lia].
  - apply round_le_generic; [now apply fexp_correct|apply valid_rnd_round_mode| |].
    + apply generic_format_bpow. unfold SpecFloat.fexp, SpecFloat.emin. lia.
    + rewrite <- IZR_Zpower by lia. apply IZR_le. change (Z.pow_pos radix2) with (Z.pow_pos 2). cbn [radix_val radix2]. lia.
Qed.

Lemma of_Z_int prec emax (Hp : FLX.Prec_gt_0 prec) (He : Prec_lt_emax prec emax) v k :
  0 <= v <= 2 ^ k -> 0 <= k < emax ->
  is_finite (binary_normalize prec emax Hp He mode_NE v 0 false) = true /\
  B2R (binary_normalize prec emax Hp He mode_NE v 0 false)
    = round radix2 (SpecFloat.fexp prec emax) (round_mode mode_NE) (IZR v).
Proof.
  intros Hv Hk. pose proof (round_int_range prec emax Hp He v k Hv Hk) as R.
  pose proof (binary_normalize_correct prec emax Hp He mode_NE v 0 false) as H. cbv zeta in H.
  assert (E : F2R (Float radix2 v 0) = IZR v) by (unfold F2R; cbn [Fnum Fexp bpow]; lra).
  rewrite E in H.
  assert (H3 : (bpow radix2 k < bpow radix2 emax)%R) by (apply bpow_lt; lia).
  rewrite Rlt_bool_true in H by (rewrite Rabs_pos_eq; lra).
  destruct H as (R1 & F1 & _). split; auto.
Qed.

Lemma round_int_pos prec emax (Hp : FLX.Prec_gt_0 prec) (He : Prec_lt_emax prec emax) v :
  1 <= v -> 0 < emax -> (1 <= round radix2 (SpecFloat.fexp prec emax) (round_mode mode_NE) (IZR v))%R.
Proof.
  intros Hv Hm. unfold FLX.Prec_gt_0, Prec_lt_emax in *.
  apply round_ge_generic; [now apply fexp_correct|apply valid_rnd_round_mode| |apply IZR_le; lia].
  change 1%R with (bpow radix2 0). apply generic_format_bpow. unfold SpecFloat.fexp, SpecFloat.emin. lia.
Qed.

Lemma c56_rand32_uniform_value ln_ exp_ pow_ cos_ s :
  let v := snd (rand32_next s) in
  B2R (snd (rand32_uniform (b32_rops ln_ exp_ pow_ cos_) s))
    = (round radix2 (FLT_exp (-149) 24) ZnearestE (IZR v) / IZR (2 ^ 32))%R.
Proof.
  unfold rand32_uniform, rand32_next. cbn [snd rbase rof b32_rops fdiv b32_ops].
  pose proof (rand32_out_range (rand32_step s)) as Hv. set (v := rand32_out (rand32_step s)) in *.
  destruct (of_Z_int 24 128 b32_prec b32_emax v 32 ltac:(lia) ltac:(lia)) as [Fv Rv]. fold (b32_of_Z v 0) in Fv, Rv.
  pose proof b32_u32_max as Rm.
  assert (Hp : (0 < IZR (2 ^ 32))%R) by (apply IZR_lt; lia).
  set (m := b32_of_Z (u32_mod - 1) 0) in *. set (x := b32_of_Z v 0) in *.
  assert (Hnz : B2R m <> 0%R) by (rewrite Rm; lra).
  pose proof (Bdiv_correct 24 128 b32_prec b32_emax mode_NE x m Hnz) as H. rewrite Rm in H.
  change (SpecFloat.fexp 24 128) with (FLT_exp (-149) 24) in *. cbn [round_mode] in *.
  assert (Hx : (0 <= B2R x <= bpow radix2 32)%R).
  { rewrite Rv. apply (round_int_range 24 128 b32_prec b32_emax v 32); lia. }
  assert (Eb : bpow radix2 32 = IZR (2 ^ 32)) by reflexivity.
  assert (G : generic_format radix2 (FLT_exp (-149) 24) (B2R x / IZR (2 ^ 32))).
  { destruct (Z.eq_dec v 0) as [->|Hn].
    - rewrite Rv. rewrite round_0 by apply (valid_rnd_round_mode mode_NE). unfold Rdiv. rewrite Rmult_0_l. apply generic_format_0.
    - assert (1 <= B2R x)%R by (rewrite Rv; apply (round_int_pos 24 128 b32_prec b32_emax v); lia).
      replace (B2R x / IZR (2 ^ 32))%R with (B2R x * bpow radix2 (-32))%R by (rewrite <- Eb; unfold Rdiv; rewrite <- bpow_opp; reflexivity).
      assert (Px : Prec_gt_0 24) by reflexivity.
      apply (@mult_bpow_exact_FLT radix2 (-149) 24).
      + apply (generic_format_B2R 24 128).
      + assert (1 <= mag radix2 (B2R x)).
        { apply mag_ge_bpow. cbn [bpow]. rewrite Rabs_pos_eq by lra. change (bpow radix2 (1 - 1)) with 1%R. lra. }
        lia. }
  rewrite round_generic in H; [|apply (valid_rnd_round_mode mode_NE)|exact G].
  assert (H3 : (1 < bpow radix2 128)%R) by (change 1%R with (bpow radix2 0); apply bpow_lt; lia).
  assert (Hq : (0 <= B2R x / IZR (2 ^ 32) <= 1)%R).
  { pose proof (Rinv_0_lt_compat _ Hp). pose proof (Rinv_r (IZR (2 ^ 32)) ltac:(lra)). rewrite Eb in Hx. unfold Rdiv. split; nra. }
  rewrite Rlt_bool_true in H by (rewrite Rabs_pos_eq; lra).
  destruct H as (R1 & _ & _). rewrite R1, Rv. reflexivity.
Qed.

Lemma c56_rand64_uniform_b64 s :
  let v := snd (rand64_next s) in
  let u := snd (rand64_uniform_b64 s) in
  let rnd := round radix2 (FLT_exp (-1074) 53) ZnearestE in
  is_finite u = true /\ B2R u = rnd (rnd (IZR v) / IZR (2 ^ 32 - 1))%R /\ ((B2R u <= 1)%R <-> v < 2 ^ 32).
Proof.
  unfold rand64_uniform_b64, rand64_next. cbn [snd].
  assert (Hv : 0 <= rand64_out (rand64_step s) < 2 ^ 64) by (apply Z.mod_pos_bound; reflexivity).
  set (v := rand64_out (rand64_step s)) in *.
  destruct (of_Z_int 53 1024 b64_prec b64_emax v 64 ltac:(lia) ltac:(lia)) as [Fv Rv]. fold (b64_of_Z v 0) in Fv, Rv.
  destruct (of_Z_int 53 1024 b64_prec b64_emax (u32_mod - 1) 32 ltac:(unfold u32_mod; lia) ltac:(lia)) as [Fm Rm].
  fold (b64_of_Z (u32_mod - 1) 0) in Fm, Rm.
  assert (FI : forall n, 0 <= n <= 2 ^ 32 -> generic_format radix2 (FLT_exp (-1074) 53) (IZR n)).
  { intros n Hn. apply generic_format_FLT. exists (Float radix2 n 0); cbn; [unfold F2R; cbn; lra|lia|lia]. }
  rewrite round_generic in Rm; [|apply (valid_rnd_round_mode mode_NE)|apply FI; unfold u32_mod; lia].
  change (u32_mod - 1) with (2 ^ 32 - 1) in Rm at 2.
  assert (Hp : (1 < IZR (2 ^ 32 - 1))%R) by (apply IZR_lt; lia).
  set (m := b64_of_Z (u32_mod - 1) 0) in *. set (x := b64_of_Z v 0) in *.
  assert (Hnz : B2R m <> 0%R) by (rewrite Rm; lra).
  pose proof (Bdiv_correct 53 1024 b64_prec b64_emax mode_NE x m Hnz) as H. rewrite Rm in H.
  change (SpecFloat.fexp 53 1024) with (FLT_exp (-1074) 53) in *. cbn [round_mode] in *.
  assert (Hx : (0 <= B2R x <= bpow radix2 64)%R).
  { rewrite Rv. apply (round_int_range 53 1024 b64_prec b64_emax v 64); lia. }
  assert (Px : Prec_gt_0 53) by reflexivity.
  assert (Ve : Valid_exp (FLT_exp (-1074) 53)) by (apply (@FLT_exp_valid (-1074) 53 Px)).
  assert (Hi : (0 < / IZR (2 ^ 32 - 1) < 1)%R).
  { split; [apply Rinv_0_lt_compat; lra|]. rewrite <- Rinv_1. apply Rinv_lt_contravar; lra. }
  assert (Hq : (0 <= B2R x / IZR (2 ^ 32 - 1) <= bpow radix2 64)%R) by (unfold Rdiv; split; nra).
  assert (Hr : (0 <= round radix2 (FLT_exp (-1074) 53) ZnearestE (B2R x / IZR (2 ^ 32 - 1)) <= bpow radix2 64)%R).
  { split.
    - apply round_ge_generic; [exact Ve|apply (valid_rnd_round_mode mode_NE)|apply generic_format_0|lra].
    - apply round_le_generic; [exact Ve|apply (valid_rnd_round_mode mode_NE)| |lra]. apply generic_format_bpow. unfold FLT_exp. lia. }
  assert (H3 : (bpow radix2 64 < bpow radix2 1024)%R) by (apply bpow_lt; lia).
  rewrite Rlt_bool_true in H by (rewrite Rabs_pos_eq; lra).
  destruct H as (R1 & F1 & _). rewrite R1, F1. split; [exact Fv|]. rewrite Rv. split; [reflexivity|].
  rewrite <- Rv. split.
  - intros Hle. destruct (Z.lt_ge_cases v (2 ^ 32)) as [|Hge]; [assumption|exfalso].
    assert (Hx2 : (IZR (2 ^ 32) <= B2R x)%R).
    { rewrite Rv. apply round_ge_generic; [exact Ve|apply (valid_rnd_round_mode mode_NE)|apply FI; lia|apply IZR_le; lia]. }
    assert (Hbig : (1 + bpow radix2 (-32) <= B2R x / IZR (2 ^ 32 - 1))%R).
    { apply (Rmult_le_reg_r (IZR (2 ^ 32 - 1))); [lra|]. unfold Rdiv. rewrite Rmult_assoc, Rinv_l, Rmult_1_r by lra.
      eapply Rle_trans; [|exact Hx2]. replace (bpow radix2 (-32)) with (/ IZR (2 ^ 32))%R by reflexivity.
      change (2 ^ 32 - 1) with 4294967295. change (2 ^ 32) with 4294967296. lra. }
    assert (G : generic_format radix2 (FLT_exp (-1074) 53) (1 + bpow radix2 (-32))).
    { apply generic_format_FLT. exists (Float radix2 (2 ^ 32 + 1) (-32)); cbn; [|lia|lia]. unfold F2R; cbn. lra. }
    assert (Hl : (1 + bpow radix2 (-32) <= round radix2 (FLT_exp (-1074) 53) ZnearestE (B2R x / IZR (2 ^ 32 - 1)))%R).
    { apply round_ge_generic; [exact Ve|apply (valid_rnd_round_mode mode_NE)|exact G|exact Hbig]. }
    pose proof (bpow_gt_0 radix2 (-32)). lra.
  - intros Hlt. apply round_le_generic; [exact Ve|apply (valid_rnd_round_mode mode_NE)|apply (FI 1); lia|].
    assert (Hx2 : (B2R x <= IZR (2 ^ 32 - 1))%R).
    { rewrite Rv. apply round_le_generic; [exact Ve|apply (valid_rnd_round_mode mode_NE)|apply FI; lia|apply IZR_le; lia]. }
    apply (Rmult_le_reg_r (IZR (2 ^ 32 - 1))); [lra|]. unfold Rdiv. rewrite Rmult_assoc, Rinv_l, Rmult_1_r by lra. lra.
Qed.
