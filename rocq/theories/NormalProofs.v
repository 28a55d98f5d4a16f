(** * The range of [Rand32::next_normal] in binary32 (C56), proofs *)
From Coq Require Import Reals Lra.
From Flocq Require Import Core.Zaux Core.Raux Core.Generic_fmt Core.FLT Core.Round_NE IEEE754.BinarySingleNaN.
From Verif Require Import Base ShapeModel TensorModel FloatModel RandomModel Spec FloatSpec RandomSpec RealFacts RoundSpec NormalSpec RoundFacts WelfordProofs RandomProofs RangeProofs.
Local Open Scope R_scope.

Lemma fmt_int z : (Z.abs z <= 16777216)%Z -> fmt (IZR z).
Proof. intros H. now apply b32_int_format. Qed.
Lemma small_126 : 46 <= bpow radix2 126.
Proof. apply Rle_trans with (bpow radix2 6); [change (bpow radix2 6) with 64; lra|apply bpow_le; lia]. Qed.

Lemma c56_rand32_normal_range ln_ exp_ pow_ cos_ s :
  (forall x, is_finite x = true -> / 2 ^ 32 <= B2R x <= 1 -> is_finite (ln_ x) = true /\ -23 <= B2R (ln_ x) <= 0) ->
  (forall x, is_finite x = true -> Rabs (B2R x) <= 7 -> is_finite (cos_ x) = true /\ Rabs (B2R (cos_ x)) <= 1) ->
  snd (rand32_next s) <> 0%Z ->
  let z := snd (rand32_normal (b32_rops ln_ exp_ pow_ cos_) s) in
  is_finite z = true /\ Rabs (B2R z) <= 7.
Proof.
  intros Hln Hcos Hv. cbv zeta.
  pose proof (c56_rand32_uniform ln_ exp_ pow_ cos_ s) as [Fa Ra]. pose proof (c56_rand32_uniform_value ln_ exp_ pow_ cos_ s) as Va.
  cbv zeta in *. set (ro := b32_rops ln_ exp_ pow_ cos_) in *.
  unfold rand32_normal. pose proof (c56_rand32_uniform ln_ exp_ pow_ cos_ (fst (rand32_uniform ro s))) as [Fb Rb]. fold ro in Fb, Rb.
  destruct (rand32_uniform ro s) as [s1 a]. cbn [snd fst] in *.
  destruct (rand32_uniform ro s1) as [s2 b]. cbn [snd fst] in *.
  change (rbase ro) with (b32_ops ln_ exp_ pow_). change (rcos ro) with cos_. change (fln (b32_ops ln_ exp_ pow_)) with ln_.
  destruct (c56_constants ln_ exp_ pow_ cos_) as (Fn & Rn & Ft & Rt). cbv zeta in *. fold ro in Fn, Rn, Ft, Rt.
  set (n2 := rneg2 ro) in *. set (tau := rtau ro) in *. clearbody n2 tau.
  pose proof small_126 as B126.
  (* the uniform variate is at least 2^-32 *)
  assert (La : / 2 ^ 32 <= B2R a).
  { rewrite Va. replace (/ 2 ^ 32)%R with (1 / IZR (2 ^ 32))%R.
    - unfold Rdiv. apply Rmult_le_compat_r; [apply Rlt_le, Rinv_0_lt_compat, IZR_lt; lia|].
      change (FLT_exp (-149) 24) with (SpecFloat.fexp 24 128). apply rnd_ge_fmt; [apply (fmt_int 1); cbn; lia|].
      apply IZR_le. assert (0 <= snd (rand32_next s))%Z; [|lia].
      unfold rand32_next. cbn [snd]. apply rand32_out_range.
    - unfold Rdiv. rewrite Rmult_1_l. f_equal. rewrite pow_IZR. reflexivity. }
  destruct (Hln a Fa ltac:(lra)) as [Fl Rl]. set (l := ln_ a) in *. clearbody l.
  destruct (mul_ok ln_ exp_ pow_ n2 l Fn Fl) as [Fm Rm].
  { rewrite Rn, Rabs_pos_eq; lra. }
  assert (Bm : 0 <= B2R (fmul (b32_ops ln_ exp_ pow_) n2 l) <= 46).
  { rewrite Rm, Rn. split; [apply rnd_ge_fmt; [apply fmt_0|lra]|apply rnd_le_fmt; [apply (fmt_int 46); cbn; lia|lra]]. }
  set (m := fmul (b32_ops ln_ exp_ pow_) n2 l) in *. clearbody m.
  pose proof (sqrt_nonneg ln_ exp_ pow_ m) as Sn. rewrite !nonneg_cases in Sn.
  destruct (Bsqrt_correct 24 128 b32_prec b32_emax mode_NE m) as (C1 & C2 & _).
  assert (Bs : number (fsqrt (b32_ops ln_ exp_ pow_) m) /\ 0 <= B2R (fsqrt (b32_ops ln_ exp_ pow_) m) <= 7).
  { assert (B7 : B2R (fsqrt (b32_ops ln_ exp_ pow_) m) <= 7).
    { cbn [fsqrt b32_ops]. rewrite C1. apply rnd_le_fmt; [apply (fmt_int 7); cbn; lia|].
      replace 7 with (sqrt (7 * 7)) by (apply sqrt_square; lra). apply sqrt_le_1_alt. lra. }
    destruct Sn as [E|[N P]]; [right; split; [exact Fm|lra]| |split; [exact N|lra]].
    exfalso. clear - E Fm Bm C2. unfold number in Fm. cbn [fsqrt b32_ops] in E. rewrite E in C2.
    destruct m as [sg|sg| |sg mm e H]; try discriminate.
    - destruct sg; [|discriminate].
      assert (G : (Defs.F2R (Defs.Float radix2 (Z.neg mm) e) < 0)%R) by (apply Float_prop.F2R_lt_0; reflexivity).
      apply (Rlt_not_le _ _ G). exact (proj1 Bm). }
  destruct Bs as [Fs Rs]. set (q := fsqrt (b32_ops ln_ exp_ pow_) m) in *. clearbody q.
  assert (Tt : 0 <= B2R tau * B2R b <= 7).
  { apply Rabs_le_inv in Rt. pose proof tau_near as T. apply Rabs_le_inv in T.
    assert (Bt : 0 <= B2R tau <= 7) by lra. split; [apply Rmult_le_pos; lra|].
    apply Rle_trans with (7 * 1); [apply Rmult_le_compat; lra|lra]. }
  destruct (mul_ok ln_ exp_ pow_ tau b Ft Fb) as [Fc Rc]; [rewrite Rabs_pos_eq; lra|].
  assert (Bt : Rabs (B2R (fmul (b32_ops ln_ exp_ pow_) tau b)) <= 7).
  { rewrite Rc. apply Rabs_le. split; [apply Rle_trans with 0; [lra|apply rnd_ge_fmt; [apply fmt_0|lra]]|].
    apply rnd_le_fmt; [apply (fmt_int 7); cbn; lia|lra]. }
  destruct (Hcos _ Fc Bt) as [Fk Rk]. set (k := cos_ _) in *. clearbody k.
  assert (Bq : Rabs (B2R q * B2R k) <= 7).
  { rewrite Rabs_mult, (Rabs_pos_eq (B2R q)) by lra. apply Rle_trans with (7 * 1); [|lra].
    apply Rmult_le_compat; [lra|apply Rabs_pos|lra|exact Rk]. }
  destruct (mul_ok ln_ exp_ pow_ q k Fs Fk ltac:(lra)) as [Fz Rz]. split; [exact Fz|]. rewrite Rz.
  apply Rabs_le_inv in Bq. apply Rabs_le. split.
  - apply rnd_ge_fmt; [apply (fmt_int (-7)); cbn; lia|lra].
  - apply rnd_le_fmt; [apply (fmt_int 7); cbn; lia|lra].
Qed.

Lemma c57_random_normal_finite ln_ exp_ pow_ cos_ c ds opt s entropy :
  (forall x, is_finite x = true -> / 2 ^ 32 <= B2R x <= 1 -> is_finite (ln_ x) = true /\ -23 <= B2R (ln_ x) <= 0) ->
  (forall x, is_finite x = true -> Rabs (B2R x) <= 7 -> is_finite (cos_ x) = true /\ Rabs (B2R (cos_ x)) <= 1) ->
  supported ds -> can_alloc c (prod ds) -> n_seed opt = Some s ->
  number (n_mean opt) -> number (n_std opt) -> Rabs (B2R (n_mean opt)) <= 2 ^ 100 -> Rabs (B2R (n_std opt)) <= 2 ^ 100 ->
  (forall k, (k < prod ds)%nat -> rand32_nth s (2 * N.of_nat k) <> 0%Z) ->
  exists xs, random_normal (b32_rops ln_ exp_ pow_ cos_) c (canon ds) opt entropy = Ok (fresh ds xs) /\
    length xs = prod ds /\ Forall number xs.
Proof.
  intros Hln Hcos Hs Hc Hseed Nm Nd Bm Bd Hv. set (ro := b32_rops ln_ exp_ pow_ cos_).
  eexists. split; [exact (c57_random_normal ro c ds opt s entropy Hs Hc Hseed)|].
  split; [now rewrite map_length, seq_length|].
  apply Forall_forall. intros x Hx. apply in_map_iff in Hx. destruct Hx as (k & <- & Hk). apply in_seq in Hk.
  assert (Z : number (normal_nth ro s k) /\ Rabs (B2R (normal_nth ro s k)) <= 7).
  { pose proof (f_equal snd (rand32_normal_at ro s k)) as E. cbn [snd] in E. rewrite <- E.
    apply c56_rand32_normal_range; auto. specialize (Hv k ltac:(lia)). unfold rand32_nth in Hv.
    intros E0. apply Hv. rewrite <- E0. do 2 f_equal. clear.
    induction k as [|k IH]; [reflexivity|]. replace (2 * N.of_nat (S k))%N with (N.succ (N.succ (2 * N.of_nat k))) by lia.
    rewrite !N.iter_succ, IH. reflexivity. }
  destruct Z as [Nz Bz]. change (rbase ro) with (b32_ops ln_ exp_ pow_).
  assert (Bp : Rabs (B2R (normal_nth ro s k) * B2R (n_std opt)) <= bpow radix2 103).
  { rewrite Rabs_mult. change (bpow radix2 103) with (IZR (2 ^ 103)).
    replace (IZR (2 ^ 103)) with (8 * 2 ^ 100) by (rewrite pow_IZR, <- mult_IZR; reflexivity).
    apply Rmult_le_compat; try apply Rabs_pos; [lra|exact Bd]. }
  assert (B1 : bpow radix2 103 <= bpow radix2 126) by (apply bpow_le; lia).
  destruct (mul_ok ln_ exp_ pow_ _ _ Nz Nd ltac:(lra)) as [Np Rp].
  apply add_ok; [exact Nm|exact Np|]. apply Rle_trans with (1 := Rabs_triang _ _).
  assert (B2 : Rabs (B2R (fmul (b32_ops ln_ exp_ pow_) (normal_nth ro s k) (n_std opt))) <= bpow radix2 103).
  { rewrite Rp. apply Rabs_le_inv in Bp. assert (F : fmt (bpow radix2 103)) by (apply generic_format_bpow; cbn; lia).
    apply Rabs_le. split; [apply rnd_ge_fmt; [now apply fmt_opp|lra]|apply rnd_le_fmt; [exact F|lra]]. }
  assert (B3 : 2 ^ 100 + bpow radix2 103 <= bpow radix2 126).
  { change (bpow radix2 103) with (IZR (2 ^ 103)). change (bpow radix2 126) with (IZR (2 ^ 126)).
    rewrite pow_IZR, <- plus_IZR. apply IZR_le. cbn. lia. }
  lra.
Qed.

(** ** A faithful logarithm and cosine *)
Lemma ln2_le : ln 2 <= 23 / 32.
Proof.
  assert (D : forall h a, 0 <= a -> a <= exp (h / 2) -> a * a <= exp h).
  { intros h a Ha H. replace h with (h / 2 + h / 2) by lra. rewrite exp_plus. apply Rmult_le_compat; auto. }
  assert (H : 2 <= exp (23 / 32)).
  { apply Rle_trans with ((((1 + 23 / 512) * (1 + 23 / 512)) * ((1 + 23 / 512) * (1 + 23 / 512))) *
      (((1 + 23 / 512) * (1 + 23 / 512)) * ((1 + 23 / 512) * (1 + 23 / 512))) *
      ((((1 + 23 / 512) * (1 + 23 / 512)) * ((1 + 23 / 512) * (1 + 23 / 512))) *
      (((1 + 23 / 512) * (1 + 23 / 512)) * ((1 + 23 / 512) * (1 + 23 / 512))))); [lra|].
    do 4 (apply D; [lra|]). replace (23 / 32 / 2 / 2 / 2 / 2) with (23 / 512) by lra. apply exp_ineq1_le. }
  apply Rle_trans with (ln (exp (23 / 32))); [|rewrite ln_exp; lra].
  destruct H as [H|H]; [left; apply ln_increasing; lra|rewrite <- H; lra].
Qed.

Lemma faithful_int r y z : (Z.abs z <= 16777216)%Z -> faithful r y -> (r <= IZR z -> B2R y <= IZR z) /\ (IZR z <= r -> IZR z <= B2R y).
Proof. intros Hz [_ H]. destruct (b32_of_Z_exact z Hz) as [E F]. rewrite <- E. apply H. apply F. Qed.

Lemma faithful_ln ln_ :
  (forall x, number x -> 0 < B2R x -> faithful (ln (B2R x)) (ln_ x)) ->
  forall x, is_finite x = true -> / 2 ^ 32 <= B2R x <= 1 -> is_finite (ln_ x) = true /\ -23 <= B2R (ln_ x) <= 0.
Proof.
  intros H x Fx [H1 H2].
  assert (P : 0 < / 2 ^ 32) by (apply Rinv_0_lt_compat, pow_lt; lra).
  specialize (H x Fx ltac:(lra)). split; [apply H|].
  split.
  - apply (faithful_int _ _ (-23) ltac:(lia) H).
    apply Rle_trans with (ln (/ 2 ^ 32)).
    + rewrite ln_Rinv by (apply pow_lt; lra). rewrite ln_pow by lra. pose proof ln2_le. rewrite INR_IZR_INZ.
      change (IZR (Z.of_nat 32)) with 32. lra.
    + destruct H1 as [H1|H1]; [left; apply ln_increasing; lra|rewrite <- H1; lra].
  - apply (faithful_int _ _ 0 ltac:(lia) H). rewrite <- ln_1.
    destruct H2 as [H2|H2]; [left; apply ln_increasing; lra|rewrite H2; lra].
Qed.

Lemma faithful_cos cos_ :
  (forall x, number x -> faithful (cos (B2R x)) (cos_ x)) ->
  forall x, is_finite x = true -> Rabs (B2R x) <= 7 -> is_finite (cos_ x) = true /\ Rabs (B2R (cos_ x)) <= 1.
Proof.
  intros H x Fx _. specialize (H x Fx). split; [apply H|]. pose proof (COS_bound (B2R x)) as [B1 B2].
  apply Rabs_le. split.
  - apply (faithful_int _ _ (-1) ltac:(lia) H). exact B1.
  - apply (faithful_int _ _ 1 ltac:(lia) H). exact B2.
Qed.

Lemma c56_normal_faithful ln_ exp_ pow_ cos_ s :
  (forall x, number x -> 0 < B2R x -> faithful (ln (B2R x)) (ln_ x)) ->
  (forall x, number x -> faithful (cos (B2R x)) (cos_ x)) ->
  snd (rand32_next s) <> 0%Z ->
  let z := snd (rand32_normal (b32_rops ln_ exp_ pow_ cos_) s) in
  number z /\ Rabs (B2R z) <= 7.
Proof. intros Hl Hc. apply c56_rand32_normal_range; [now apply faithful_ln|now apply faithful_cos]. Qed.

Lemma c57_normal_faithful ln_ exp_ pow_ cos_ c ds opt s entropy :
  (forall x, number x -> 0 < B2R x -> faithful (ln (B2R x)) (ln_ x)) ->
  (forall x, number x -> faithful (cos (B2R x)) (cos_ x)) ->
  supported ds -> can_alloc c (prod ds) -> n_seed opt = Some s ->
  number (n_mean opt) -> number (n_std opt) ->
  Rabs (B2R (n_mean opt)) <= 2 ^ 100 -> Rabs (B2R (n_std opt)) <= 2 ^ 100 ->
  (forall k, (k < prod ds)%nat -> rand32_nth s (2 * N.of_nat k) <> 0%Z) ->
  exists xs, random_normal (b32_rops ln_ exp_ pow_ cos_) c (canon ds) opt entropy = Ok (fresh ds xs) /\
    length xs = prod ds /\ Forall number xs.
Proof. intros Hl Hc. apply c57_random_normal_finite; [now apply faithful_ln|now apply faithful_cos]. Qed.

Lemma c56_faithful_nearest r (y : b32) :
  number y -> (forall z : b32, number z -> Rabs (B2R y - r) <= Rabs (B2R z - r)) -> faithful r y.
Proof.
  intros Fy H. split; [exact Fy|]. intros z Fz. specialize (H z Fz).
  split; intros Hz; destruct (Rle_or_lt (B2R y) (B2R z)) as [Hy|Hy]; try lra.
  - rewrite !Rabs_pos_eq in H by lra. lra.
  - rewrite !Rabs_left1 in H by lra. lra.
Qed.

Lemma c56_normal_number_iff ln_ exp_ pow_ cos_ s :
  (forall x, number x -> 0 < B2R x -> faithful (ln (B2R x)) (ln_ x)) ->
  (forall x, number x -> faithful (cos (B2R x)) (cos_ x)) ->
  ln_ (b32_of_Z 0 0) = B754_infinity true ->
  number (snd (rand32_normal (b32_rops ln_ exp_ pow_ cos_) s)) <-> snd (rand32_next s) <> 0%Z.
Proof.
  intros Hl Hc H0. split; [|intros H; now apply c56_normal_faithful].
  unfold rand32_normal, rand32_uniform. destruct (rand32_next s) as [s1 v1].
  destruct (rand32_next s1) as [s2 v2]. cbn [snd rbase rof rcos rneg2 rtau b32_rops fdiv fmul fsqrt fln b32_ops].
  intros Hn ->. unfold number in Hn.
  match type of Hn with context [ln_ ?x] => replace x with (b32_of_Z 0 0) in Hn by (vm_compute; reflexivity) end.
  rewrite H0 in Hn.
  match type of Hn with context [Bsqrt mode_NE ?x] => replace x with (B754_infinity false : b32) in Hn by (vm_compute; reflexivity) end.
  set (w := cos_ _) in Hn. cbn [Bsqrt] in Hn. destruct w as [b|b| |b m e Hw]; discriminate Hn.
Qed.

Lemma c57_random_uniform_finite ln_ exp_ pow_ cos_ c ds opt s entropy :
  (forall x, number x -> 0 < B2R x -> faithful (ln (B2R x)) (ln_ x)) ->
  (forall x, number x -> faithful (cos (B2R x)) (cos_ x)) ->
  supported ds -> can_alloc c (prod ds) -> u_seed opt = Some s ->
  number (u_min opt) -> number (u_max opt) -> Rabs (B2R (u_min opt)) <= 2 ^ 99 -> Rabs (B2R (u_max opt)) <= 2 ^ 99 ->
  (forall k, (k < prod ds)%nat -> rand32_nth s (2 * N.of_nat k) <> 0%Z) ->
  exists xs, random_uniform (b32_rops ln_ exp_ pow_ cos_) c (canon ds) opt entropy = Ok (fresh ds xs) /\
    length xs = prod ds /\ Forall number xs.
Proof.
  intros Hln Hcos Hs Hc Hseed Nm Nx Bm Bx Hv. set (ro := b32_rops ln_ exp_ pow_ cos_).
  set (f := b32_ops ln_ exp_ pow_). set (d := fmax f (fsub f (u_max opt) (u_min opt)) (fzero f)).
  assert (B99 : 2 ^ 99 = bpow radix2 99) by (change (bpow radix2 99) with (IZR (2 ^ 99)); now rewrite pow_IZR).
  assert (B100 : 2 ^ 100 = bpow radix2 100) by (change (bpow radix2 100) with (IZR (2 ^ 100)); now rewrite pow_IZR).
  assert (D : number (fsub f (u_max opt) (u_min opt)) /\ Rabs (B2R (fsub f (u_max opt) (u_min opt))) <= 2 ^ 100).
  { pose proof (Bminus_correct 24 128 b32_prec b32_emax mode_NE (u_max opt) (u_min opt) Nx Nm) as C.
    assert (R : Rabs (rnd (B2R (u_max opt) - B2R (u_min opt))) <= bpow radix2 100).
    { apply abs_round_le_generic; [now apply fexp_correct|apply valid_rnd_N|apply generic_format_bpow; cbn; lia|].
      rewrite <- B100. replace (2 ^ 100) with (2 ^ 99 + 2 ^ 99) by (simpl; lra).
      apply Rabs_le_inv in Bm, Bx. apply Rabs_le. lra. }
    rewrite Rlt_bool_true in C.
    - destruct C as (C1 & C2 & _). split; [exact C2|]. rewrite B100. cbn [fsub f b32_ops]. rewrite C1. exact R.
    - apply Rle_lt_trans with (bpow radix2 100); [exact R|apply bpow_lt; lia]. }
  destruct D as [ND BD].
  assert (Dm : number d /\ Rabs (B2R d) <= 2 ^ 100).
  { assert (N0 : number (fzero f)) by reflexivity.
    destruct (fmax_number ln_ exp_ pow_ _ _ ND N0) as [N E]. fold f d in N, E. split; [exact N|]. rewrite E.
    change (B2R (fzero f)) with 0. assert (0 < 2 ^ 100) by (apply pow_lt; lra).
    unfold Rmax. destruct (Rle_dec _ _); [rewrite Rabs_R0; lra|exact BD]. }
  destruct Dm as [Nd Bd].
  destruct (c57_normal_faithful ln_ exp_ pow_ cos_ c ds (mkNormal (u_min opt) d (Some s)) s entropy) as (xs & E & L & F); auto.
  - cbn [n_mean]. apply Rle_trans with (1 := Bm). apply Rle_pow; [lra|lia].
  - exists xs. split; [|auto]. rewrite <- E. fold ro.
    rewrite (c57_random_uniform ro c ds opt s entropy Hs Hc Hseed), (c57_random_normal ro c ds (mkNormal (u_min opt) d (Some s)) s entropy Hs Hc eq_refl). reflexivity.
Qed.
