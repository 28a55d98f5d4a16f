(** * Rounding errors of products and means along an axis, and of normalised elements (C68, C80) *)
From Coq Require Import Reals Lra.
From Flocq Require Import Core.Zaux Core.Raux IEEE754.BinarySingleNaN.
From Coq Require Import ZifyBool ZifyNat ZifyN.
From Verif Require Import Base ShapeModel TensorModel AxisModel MapModel NumModel FloatModel InitModel MathModel
  Spec FloatSpec RoundSpec BaseFacts ShapeFacts TensorFacts MapFacts RealFacts RoundFacts MathFacts MapSpec MapProofs
  MathSpec MathProofs RoundProofs HistProofs RangeProofs.

Section B32.
  Context (ln_ exp_ : b32 -> b32) (pow_ : b32 -> b32 -> b32).
  Notation o := (b32_ops ln_ exp_ pow_).

  Lemma c80_product_axis c (t : tensor b32) a d1 d d2 xs :
    repr t (d1 ++ d :: d2) xs -> names_axis a (length d1) (length (d1 ++ d :: d2)) ->
    Forall (fun d => 0 < d) (d1 ++ d2) -> 0 < d ->
    exists ls rs, axis_lines d1 d d2 xs ls /\
      reduce_product_axis c (total2 (fmul o)) t (Some a) = Ok (fresh (d1 ++ d2) rs) /\
      Forall2 (fun r l => number r ->
        (forall n x l', l = x :: l' -> 0 < n <= length l' -> (/ 2 ^ 126 < Rabs (B2R (fold_left (fmul o) (firstn n l') x)))%R) ->
        (Rabs (B2R r - rprod (map B2R l)) <= ((1 + u32) ^ (d - 1) - 1) * Rabs (rprod (map B2R l)))%R) rs ls.
  Proof.
    intros H Ha Hp Hd.
    destruct (reduce_axis_total c t a d1 d d2 xs (fmul o)
      (fun l => match l with [] => fone o | x :: l => fold_left (fmul o) l x end) H Ha Hp Hd) as (ls & Hls & E); auto.
    eexists ls, _. split; [auto|].
    split; [unfold reduce_product_axis; rewrite lift_total2, E; reflexivity|].
    apply Forall2_map_l. intros l Hl Hn Hb.
    pose proof (axis_lines_length _ _ _ _ _ _ (repr_len _ _ _ H) Hls Hl) as El.
    destruct l as [|x l]; [cbn in El; lia|]. rewrite <- El. cbn [length]. rewrite Nat.sub_succ, Nat.sub_0_r.
    change (rprod (map B2R (x :: l))) with (B2R x * rprod (map B2R l))%R.
    apply product_error; [|exact Hn]. intros n H1. apply (Hb n x l eq_refl H1).
  Qed.

  Lemma c68_mean_axis c (t : tensor b32) a d1 d d2 xs :
    repr t (d1 ++ d :: d2) xs -> names_axis a (length d1) (length (d1 ++ d :: d2)) ->
    Forall (fun d => 0 < d) (d1 ++ d2) -> 0 < d -> (Z.of_nat d <= 16777216)%Z ->
    exists ls rs, axis_lines d1 d d2 xs ls /\
      reduce_mean_axis o c t (Some a) = Ok (fresh (d1 ++ d2) rs) /\
      Forall2 (fun r l => number r ->
        (Rabs (B2R r - mean (map B2R l))
         <= ((1 + u32) ^ d - 1) * mean (map (fun x => Rabs (B2R x)) l) + tiny)%R) rs ls.
  Proof.
    intros H Ha Hp Hd Hs. pose proof (axis_len_small _ _ _ _ _ H) as Hsm.
    destruct (fold_axis_total c t a d1 d d2 xs (0, fzero o) (mean_result o) (mean_update o c)
      (fun l => (0 + length l, fold_left (fadd o) l (fzero o))) H Ha Hp) as (ls & Hls & E).
    { intros l Hl. apply mean_fold. lia. }
    eexists ls, _. split; [auto|]. split; [unfold reduce_mean_axis; rewrite E; reflexivity|].
    apply Forall2_map_l. intros l Hl Hn.
    pose proof (axis_lines_length _ _ _ _ _ _ (repr_len _ _ _ H) Hls Hl) as El.
    assert (Rl : repr (fresh [d] l) [d] l).
    { apply repr_fresh; [|transitivity d; [exact El|cbn [prod]; lia]].
      pose proof (supported_in _ d (repr_supported _ _ _ H) (in_elt _ _ _)) as Hd32. apply supported_pos; cbn [length prod]; lia. }
    rewrite <- El. apply (c68_mean ln_ exp_ pow_ c _ _ _ _ Rl); [destruct l; [cbn in El; lia|discriminate]|lia| |exact Hn].
    rewrite (c50_mean_any o c _ _ _ Rl). reflexivity.
  Qed.

  Lemma quotient_error A D e1 e2 y :
    (0 <= A)%R -> (0 < D)%R -> (Rabs e1 <= u32)%R -> (Rabs e2 <= u32)%R ->
    y = rnd (A * (1 + e1) / (D * (1 + e2))) ->
    (Rabs (y - A / D) <= 4 * u32 * (A / D) + tiny)%R.
  Proof.
    intros HA HD H1 H2 ->. pose proof u32_pos as U.
    assert (U2 : (u32 <= / 100)%R).
    { unfold u32. apply Rinv_le_contravar; [lra|]. apply Rle_trans with (2 ^ 7)%R; [cbn; lra|]. apply Rle_pow; [lra|lia]. }
    apply Rabs_le_inv in H1, H2. set (w := (/ (1 + e2))%R).
    assert (W0 : (0 < w)%R) by (apply Rinv_0_lt_compat; lra).
    assert (W1 : (w * (1 + e2) = 1)%R) by (apply Rinv_l; lra).
    assert (W2 : (w <= 102 / 100)%R).
    { apply Rmult_le_reg_r with (1 + e2)%R; [lra|]. rewrite W1. lra. }
    set (q := (A / D)%R).
    assert (Q0 : (0 <= q)%R) by (apply Rmult_le_pos; [lra|apply Rlt_le, Rinv_0_lt_compat, HD]).
    replace (A * (1 + e1) / (D * (1 + e2)))%R with (q * ((1 + e1) * w))%R by (unfold q, w; field; lra).
    assert (E : (Rabs ((1 + e1) * w - 1) <= 204 / 100 * u32)%R).
    { replace ((1 + e1) * w - 1)%R with ((e1 - e2) * w + (w * (1 + e2) - 1))%R by ring. rewrite W1.
      replace ((e1 - e2) * w + (1 - 1))%R with ((e1 - e2) * w)%R by ring.
      rewrite Rabs_mult, (Rabs_pos_eq w) by lra. replace (204 / 100 * u32)%R with (2 * u32 * (102 / 100))%R by lra.
      apply Rmult_le_compat; [apply Rabs_pos|lra|apply Rabs_le; lra|lra]. }
    set (t := ((1 + e1) * w)%R) in *. apply Rabs_le_inv in E.
    destruct (rnd_error (q * t)) as (e & h & He & Hh & ->). apply Rabs_le_inv in He, Hh.
    replace (q * t * (1 + e) + h - q)%R with (q * (t - 1 + t * e) + h)%R by ring.
    apply Rle_trans with (1 := Rabs_triang _ _). apply Rplus_le_compat; [|apply Rabs_le; lra].
    rewrite Rabs_mult, (Rabs_pos_eq q), (Rmult_comm _ q) by lra. apply Rmult_le_compat_l; [exact Q0|].
    apply Rle_trans with (1 := Rabs_triang _ _).
    assert (Te : (Rabs (t * e) <= 103 / 100 * u32)%R).
    { rewrite Rabs_mult. apply Rmult_le_compat; try apply Rabs_pos; apply Rabs_le; lra. }
    assert (T1 : (Rabs (t - 1) <= 204 / 100 * u32)%R) by (apply Rabs_le; lra). lra.
  Qed.

  Lemma c80_unit_error c (t : tensor b32) ds xs mn mx :
    repr t ds xs -> Forall number xs ->
    (forall a b, In a xs -> In b xs -> is_finite (@Bminus 24 128 b32_prec b32_emax mode_NE a b) = true) ->
    least mn (map B2R xs) -> greatest mx (map B2R xs) -> (mn < mx)%R ->
    exists ys, normalize_unit o c t = Ok (fresh ds ys) /\
      Forall2 (fun y x => number y /\
        (Rabs (B2R y - (B2R x - mn) / (mx - mn)) <= 4 * u32 * ((B2R x - mn) / (mx - mn)) + tiny)%R) ys xs.
  Proof.
    intros H HF Hd Ln' Gx' Hlt'.
    assert (Hne : xs <> []) by (intros ->; destruct Ln' as [[] _]).
    rewrite (normalize_unit_any ln_ exp_ pow_ c t ds xs H Hne). eexists. split; [reflexivity|].
    destruct (extremes ln_ exp_ pow_ xs Hne HF) as (Nn & Nx & Ln & Gx). cbv zeta in *.
    set (n := fold_left (fmin o) xs (fmax_value o)) in *. set (x := fold_left (fmax o) xs (fmin_value o)) in *.
    assert (En : mn = B2R n).
    { destruct Ln as [I1 L1], Ln' as [I2 L2]. apply Rle_antisym; [now apply L2|now apply L1]. }
    assert (Ex : mx = B2R x).
    { destruct Gx as [I1 L1], Gx' as [I2 L2]. apply Rle_antisym; [now apply L1|now apply L2]. }
    subst mn mx. clear Ln' Gx'. destruct Ln as [In_n Ln], Gx as [In_x Gx].
    assert (In_of : forall x, In x xs -> In (B2R x) (map B2R xs)) by (intros; now apply in_map).
    assert (Hfin : forall x y, number x -> number y -> In (B2R x) (map B2R xs) -> In (B2R y) (map B2R xs) ->
      (B2R y <= B2R x)%R -> number (fsub o x y) /\ B2R (fsub o x y) = rnd (B2R x - B2R y)).
    { intros x1 y Fx Fy Ix Iy L. apply in_map_iff in Ix, Iy. destruct Ix as (x' & Ex & Ix), Iy as (y' & Ey & Iy).
      pose proof (Hd x' y' Ix Iy) as D. destruct (sub_number ln_ exp_ pow_ x' y' D) as (Fx' & Fy' & R).
      assert (B : (Rabs (rnd (B2R x1 - B2R y)) < bpow radix2 128)%R).
      { rewrite <- Ex, <- Ey, <- R. apply abs_B2R_lt_emax. }
      destruct (sub_dist ln_ exp_ pow_ x1 y Fx Fy L) as [[_ C]|(C1 & C2 & _)]; [|now split].
      exfalso. pose proof (Rle_abs (rnd (B2R x1 - B2R y))). lra. }
    destruct (Hfin x n Nx Nn In_x In_n ltac:(lra)) as [Fd Rd].
    set (d := fsub o x n) in *. destruct (sub_rel x n Nx Nn) as (e2 & He2 & Rd2).
    assert (Pd : (0 < B2R d)%R).
    { rewrite Rd, Rd2. pose proof (Rabs_le_inv _ _ He2). pose proof u32_lt. apply Rmult_lt_0_compat; lra. }
    apply Forall2_map_l. intros a Ia.
    assert (Na : number a) by (rewrite Forall_forall in HF; now apply HF).
    pose proof (Ln _ (In_of _ Ia)) as L1. pose proof (Gx _ (In_of _ Ia)) as L2.
    destruct (Hfin a n Na Nn (In_of _ Ia) In_n L1) as [Fs Rs]. destruct (sub_rel a n Na Nn) as (e1 & He1 & Rs2).
    unfold unit_norm. cbn [fst snd]. fold d.
    destruct (quotient_unit ln_ exp_ pow_ (fsub o a n) d Fs Fd) as (Q1 & Q2 & _); [|exact Pd|].
    { rewrite Rs, Rd. split; [apply rnd_ge_fmt; [apply fmt_0|lra]|apply rnd_le; lra]. }
    split; [exact Q1|]. apply quotient_error with (e1 := e1) (e2 := e2); [lra|lra|exact He1|exact He2|].
    rewrite Q2, Rs, Rs2, Rd, Rd2. reflexivity.
  Qed.
End B32.
