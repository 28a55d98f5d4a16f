(** * Rounding errors (C68-C70): proofs *)
From Coq Require Import Reals Lra Psatz.
From Flocq Require Import Core.Zaux Core.Raux Core.Defs Core.Generic_fmt Core.Float_prop IEEE754.BinarySingleNaN.
From Coq Require Import ZifyBool ZifyNat ZifyN.
From Verif Require Import Base ShapeModel TensorModel AxisModel MapModel NumModel FloatModel InitModel MathModel LinalgModel
  Spec FloatSpec BaseFacts ShapeFacts ShapeFacts2 CoordFacts TensorFacts TensorFacts2 MapFacts SafeFacts RealFacts
  MathFacts MapSpec MapProofs MathSpec MathProofs LinalgFacts LinalgSpec LinalgProofs.
From Verif Require Import RoundSpec RoundFacts.

Section B32.
  Variables (ln_ exp_ : b32 -> b32) (pow_ : b32 -> b32 -> b32).
  Notation o := (b32_ops ln_ exp_ pow_).

  Lemma c68_sum c (t : tensor b32) ds xs r :
    repr t ds xs -> reduce_sum c (total2 (fadd o)) t = Ok (fresh [] [r]) -> number r ->
    (Rabs (B2R r - rsum (map B2R xs))
     <= ((1 + u32) ^ (length xs - 1) - 1) * rsum (map (fun x => Rabs (B2R x)) xs))%R.
  Proof.
    intros H Hs Hr. destruct xs as [|x xs].
    { exfalso. destruct (c51_empty o c (total2 (fadd o)) t ds H) as (E & _). congruence. }
    rewrite (c51_sum_any c _ t ds x xs H), lift_total2, foldM_pure2 in Hs. cbn [bind] in Hs.
    assert (Er : r = fold_left (fadd o) xs x).
    { assert (Hs1 : fresh [] [fold_left (fadd o) xs x] = fresh [] [r]) by congruence.
      apply (f_equal (@tdata b32)) in Hs1. cbn [tdata fresh] in Hs1. congruence. }
    subst r. rewrite <- (map_map B2R Rabs). cbn [map length]. rewrite Nat.sub_succ, Nat.sub_0_r.
    pose proof (sum_error ln_ exp_ pow_ xs x (B2R x) (Rabs (B2R x)) 0) as E.
    cbn [pow Nat.add] in E. apply E; auto.
    - rewrite Rminus_diag_eq, Rabs_R0 by reflexivity. lra.
    - apply Rle_refl.
  Qed.

  Lemma c68_sum_exact c (t : tensor b32) ds zs z0 :
    repr t ds (map (fun z => b32_of_Z z 0) (z0 :: zs)) ->
    (forall n, (Z.abs (fold_left Z.add (firstn n zs) z0) <= 16777216)%Z) ->
    Forall (fun z => (Z.abs z <= 16777216)%Z) zs ->
    reduce_sum c (total2 (fadd o)) t = Ok (fresh [] [b32_of_Z (fold_left Z.add zs z0) 0]).
  Proof.
    intros H Hp Hz. cbn [map] in H.
    rewrite (c51_sum_any c _ t ds _ _ H), lift_total2, foldM_pure2. cbn [bind]. do 3 f_equal.
    clear H t ds. revert z0 Hp. induction zs as [|z zs IH]; intros z0 Hp; [reflexivity|].
    cbn [map fold_left]. inversion_clear Hz.
    rewrite b32_add_int; auto.
    - apply IH; auto. intros n. exact (Hp (S n)).
    - exact (Hp 0).
    - exact (Hp 1).
  Qed.

  Lemma c68_gamma n : (INR n * u32 < 1)%R -> ((1 + u32) ^ n - 1 <= INR n * u32 / (1 - INR n * u32))%R.
  Proof.
    intros Hn. pose proof u32_pos as Hu.
    assert (Hb : forall m, (INR m * u32 < 1)%R -> ((1 + u32) ^ m * (1 - INR m * u32) <= 1)%R).
    { induction m as [|m IH]; intros Hm; [cbn; lra|]. rewrite S_INR in *.
      assert (Hm' : (INR m * u32 < 1)%R) by lra. specialize (IH Hm').
      apply Rle_trans with (2 := IH). cbn [pow].
      replace ((1 + u32) * (1 + u32) ^ m * (1 - (INR m + 1) * u32))%R
        with ((1 + u32) ^ m * ((1 + u32) * (1 - (INR m + 1) * u32)))%R by ring.
      apply Rmult_le_compat_l; [apply pow_le; lra|].
      pose proof (pos_INR m). assert (0 <= INR m * (u32 * u32))%R by (apply Rmult_le_pos; nra). nra. }
    specialize (Hb n Hn). apply Rmult_le_reg_r with (1 - INR n * u32)%R; [lra|].
    unfold Rdiv. rewrite Rmult_assoc, Rinv_l by lra. lra.
  Qed.

  Lemma c68_mean c (t : tensor b32) ds xs r :
    repr t ds xs -> xs <> [] -> (Z.of_nat (length xs) <= 16777216)%Z ->
    reduce_mean o c t = Ok (fresh [] [r]) -> number r ->
    (Rabs (B2R r - mean (map B2R xs))
     <= ((1 + u32) ^ length xs - 1) * mean (map (fun x => Rabs (B2R x)) xs) + tiny)%R.
  Proof.
    intros H Hne Hlen Hs Hr. rewrite (c50_mean_any o c t ds xs H) in Hs.
    set (n := length xs) in *. assert (Hn : 0 < n) by (unfold n; destruct xs; [congruence|cbn; lia]).
    replace (Nat.max n 1) with n in Hs by lia.
    assert (Er : r = fdiv o (fold_left (fadd o) xs (fzero o)) (fof o n)).
    { assert (Hs1 : fresh [] [fdiv o (fold_left (fadd o) xs (fzero o)) (fof o n)] = fresh [] [r]) by congruence.
      apply (f_equal (@tdata b32)) in Hs1. cbn [tdata fresh] in Hs1. congruence. }
    destruct (b32_of_Z_exact (Z.of_nat n) ltac:(lia)) as (En & _).
    change (b32_of_Z (Z.of_nat n) 0) with (fof o n) in En. rewrite <- INR_IZR_INZ in En.
    assert (HnR : (0 < INR n)%R) by now apply lt_0_INR.
    subst r. destruct (div_number ln_ exp_ pow_ _ (fof o n) ltac:(lra) Hr) as [HS ES]. rewrite ES, En.
    destruct xs as [|x xs]; [congruence|]. cbn [fold_left] in *.
    set (S := fold_left (fadd o) xs (fadd o (fzero o) x)) in *.
    assert (Hx0 : number (fadd o (fzero o) x)).
    { clear -HS. unfold S in HS. clear S. revert HS. generalize (fadd o (fzero o) x).
      induction xs as [|y xs IH]; intros w Hf; auto. cbn [fold_left] in Hf. apply IH in Hf.
      now apply add_number in Hf. }
    destruct (add_number _ _ _ _ _ Hx0) as (_ & Hx & _).
    destruct (add_zero_l ln_ exp_ pow_ x Hx) as [_ Ex].
    destruct (sum_error ln_ exp_ pow_ xs (fadd o (fzero o) x) (B2R x) (Rabs (B2R x)) 0) as [_ HE].
    { rewrite Ex. cbn [pow]. rewrite Rminus_diag_eq, Rabs_R0 by reflexivity. lra. }
    { apply Rle_refl. }
    { exact HS. }
    change (fold_left (fadd o) xs (fadd o (fzero o) x)) with S in HE. cbn [Nat.add] in HE.
    set (s := (B2R x + rsum (map B2R xs))%R) in HE.
    set (a := (Rabs (B2R x) + rsum (map Rabs (map B2R xs)))%R) in HE.
    assert (E1 : mean (map B2R (x :: xs)) = (s / INR n)%R)
      by (unfold mean, s, n; rewrite map_length; reflexivity).
    assert (E2 : mean (map (fun x => Rabs (B2R x)) (x :: xs)) = (a / INR n)%R).
    { unfold mean, a, n. rewrite map_length, <- (map_map B2R Rabs). reflexivity. }
    rewrite E1, E2.
    assert (Hsa : (Rabs s <= a)%R).
    { unfold s, a. apply Rle_trans with (1 := Rabs_triang _ _). pose proof (rsum_abs (map B2R xs)). lra. }
    destruct (rnd_error (B2R S / INR n)) as (e & h & He & Hh & ->).
    pose proof u32_pos as Hu.
    set (g := ((1 + u32) ^ length xs - 1)%R) in *.
    assert (Hg : (0 <= g)%R) by apply gamma_nonneg.
    replace ((1 + u32) ^ n)%R with ((1 + g) * (1 + u32))%R
      by (unfold g, n; cbn [length pow]; ring).
    pose proof (sum_step (B2R S / INR n)%R (s / INR n)%R (a / INR n)%R 0 g e) as St.
    rewrite !Rplus_0_r, Rabs_R0, Rplus_0_r in St.
    assert (Hin : (0 < / INR n)%R) by now apply Rinv_0_lt_compat.
    assert (St' : (Rabs (B2R S / INR n * (1 + e) - s / INR n) <= ((1 + g) * (1 + u32) - 1) * (a / INR n))%R).
    { apply St; auto.
      - replace (B2R S / INR n - s / INR n)%R with ((B2R S - s) * / INR n)%R by (unfold Rdiv; ring).
        rewrite Rabs_mult, (Rabs_pos_eq (/ INR n)) by lra. unfold Rdiv. rewrite <- Rmult_assoc.
        apply Rmult_le_compat_r; [lra|]. exact HE.
      - unfold Rdiv. rewrite Rabs_mult, (Rabs_pos_eq (/ INR n)) by lra. apply Rmult_le_compat_r; lra. }
    replace (B2R S / INR n * (1 + e) + h - s / INR n)%R with (B2R S / INR n * (1 + e) - s / INR n + h)%R by ring.
    apply Rle_trans with (1 := Rabs_triang _ _). lra.
  Qed.

  Lemma c68_matmul c (a b : tensor b32) ds m k n xs ys :
    repr a (ds ++ [m; k]) xs -> repr b (ds ++ [k; n]) ys ->
    supported (ds ++ [n; m]) -> can_alloc c (prod (ds ++ [n; m])) ->
    exists zs, matmul o c a b = Ok (fresh (ds ++ [n; m]) zs) /\
      forall (A B : list nat -> nat -> nat -> b32),
        (forall idx i p, in_shape ds idx -> i < m -> p < k -> elem (ds ++ [m; k]) xs (idx ++ [i; p]) = Some (A idx i p)) ->
        (forall idx p j, in_shape ds idx -> p < k -> j < n -> elem (ds ++ [k; n]) ys (idx ++ [p; j]) = Some (B idx p j)) ->
        forall idx i j z, in_shape ds idx -> i < m -> j < n ->
          elem (ds ++ [m; n]) zs (idx ++ [i; j]) = Some z -> number z ->
          (Rabs (B2R z - rsum (map (fun p => B2R (A idx i p) * B2R (B idx p j)) (seq 0 k)))
           <= ((1 + u32) ^ k - 1) * rsum (map (fun p => Rabs (B2R (A idx i p) * B2R (B idx p j))) (seq 0 k))
              + INR k * (1 + u32) ^ k * tiny)%R.
  Proof.
    intros Ha Hb Hsup Hal.
    destruct (c46_matmul_b32 ln_ exp_ pow_ c a b ds m k n xs ys Ha Hb Hsup Hal) as (zs & E & Hz).
    exists zs. split; auto. intros A B HA HB idx i j z Hi Hm Hn Ez Hf.
    rewrite Hz in Ez by auto.
    refine (dot_error ln_ exp_ pow_ (fun p => A idx i p) (fun p => B idx p j) _ _ k z _ Ez Hf).
    intros p Hp. split; [now apply HA|now apply HB].
  Qed.

  Lemma c68_matvec c (a x : tensor b32) dp da m k r xs ys :
    repr a (da ++ [m; k]) xs -> repr x (dp ++ da ++ [r; k]) ys ->
    0 < prod (da ++ [m; k]) -> 0 < prod (dp ++ da ++ [r; k]) -> supported (dp ++ da ++ [r; m]) ->
    exists zs, matvec o c a x = Ok (fresh (dp ++ da ++ [r; m]) zs) /\
      forall (A : list nat -> nat -> nat -> b32) (X : list nat -> list nat -> nat -> nat -> b32),
        (forall ia j p, in_shape da ia -> j < m -> p < k -> elem (da ++ [m; k]) xs (ia ++ [j; p]) = Some (A ia j p)) ->
        (forall ip ia i p, in_shape dp ip -> in_shape da ia -> i < r -> p < k ->
           elem (dp ++ da ++ [r; k]) ys (ip ++ ia ++ [i; p]) = Some (X ip ia i p)) ->
        forall ip ia i j z, in_shape dp ip -> in_shape da ia -> i < r -> j < m ->
          elem (dp ++ da ++ [r; m]) zs (ip ++ ia ++ [i; j]) = Some z -> number z ->
          (Rabs (B2R z - rsum (map (fun p => B2R (X ip ia i p) * B2R (A ia j p)) (seq 0 k)))
           <= ((1 + u32) ^ k - 1) * rsum (map (fun p => Rabs (B2R (X ip ia i p) * B2R (A ia j p))) (seq 0 k))
              + INR k * (1 + u32) ^ k * tiny)%R.
  Proof.
    intros Ha Hx Pa Px Hsup.
    destruct (c49_matvec o c a x dp da m k r xs ys eq_refl Ha Hx Pa Px Hsup) as (zs & E & _ & Hz).
    exists zs. split; auto. intros A X HA HX ip ia i j z Hip Hia Hi Hj Ez Hf.
    rewrite Hz in Ez by auto.
    destruct (dot o k _ _) as [v|] eqn:Ed; [|discriminate]. cbn [option_map] in Ez.
    rewrite b32_one_mul in Ez. assert (v = z) as -> by congruence.
    refine (dot_error ln_ exp_ pow_ (fun p => X ip ia i p) (fun p => A ia j p) _ _ k z _ Ed Hf).
    intros p Hp. split; [now apply HX|now apply HA].
  Qed.

  (** ** C69 *)

  Lemma welford_nonneg xs : (Z.of_nat (length xs) < 4294967296)%Z -> Forall (bounded) xs ->
    let w := fold_left (wstep o) xs (welford_default o) in
    (xs <> [] -> bounded (wm w)) /\ nonneg ln_ exp_ pow_ (ws w).
  Proof.
    induction xs as [|x xs IH] using rev_ind; intros Hl HF; cbv zeta.
    - split; [congruence|reflexivity].
    - rewrite app_length in Hl. cbn [length] in Hl. apply Forall_app in HF. destruct HF as [HF Hx].
      inversion_clear Hx. destruct (IH ltac:(lia) HF) as [Hm Hs]. cbv zeta in Hm, Hs.
      rewrite fold_left_app. cbn [fold_left].
      pose proof (wstep_count o xs) as Hk. unfold wstep at 1 3. rewrite Hk.
      destruct (Nat.eqb_spec (length xs) 0) as [E|E].
      + cbn [wm ws]. split; [auto|reflexivity].
      + assert (Hne : xs <> []) by (intros ->; now apply E).
        set (w := fold_left (wstep o) xs (welford_default o)) in *. cbn [wm ws].
        destruct (welford_step ln_ exp_ pow_ x (wm w) (length xs + 1) H (Hm Hne) ltac:(lia) ltac:(lia)) as (H1 & _ & H2).
        split; [auto|]. now apply add_nonneg.
  Qed.

  Lemma var_nonneg xs : (Z.of_nat (length xs) < 4294967296)%Z -> Forall bounded xs ->
    nonneg ln_ exp_ pow_ (var_result o (fold_left (wstep o) xs (welford_default o))) /\
    nonneg ln_ exp_ pow_ (std_result o (fold_left (wstep o) xs (welford_default o))).
  Proof.
    intros Hl HF. destruct (welford_nonneg xs Hl HF) as [_ Hs]. cbv zeta in Hs.
    unfold var_result, std_result. rewrite wstep_count.
    destruct (Nat.ltb_spec 1 (length xs)) as [H|H]; [|split; reflexivity].
    assert (Hd : nonneg ln_ exp_ pow_ (fdiv o (ws (fold_left (wstep o) xs (welford_default o))) (fof o (length xs))))
      by (apply div_nat_nonneg; auto; lia).
    split; auto. now apply sqrt_nonneg.
  Qed.

  Lemma bounded_forall xs :
    Forall (fun x => number x /\ (Rabs (B2R x) <= 2 ^ 126)%R) xs -> Forall bounded xs.
  Proof.
    apply Forall_impl. intros x [H1 H2]. split; auto.
    rewrite (bpow_powerRZ radix2). change (IZR radix2) with 2%R.
    change 126%Z with (Z.of_nat 126). now rewrite <- pow_powerRZ.
  Qed.

  Lemma repr_length_32 {T} (t : tensor T) ds xs : repr t ds xs -> (Z.of_nat (length xs) < 4294967296)%Z.
  Proof.
    intros H. pose proof (repr_len _ _ _ H) as E. pose proof (supported_prod _ (repr_supported _ _ _ H)) as Hs.
    unfold two32 in *. lia.
  Qed.

  Lemma c69_variance c (t : tensor b32) ds xs :
    repr t ds xs -> Forall (fun x => number x /\ (Rabs (B2R x) <= 2 ^ 126)%R) xs ->
    exists v, reduce_variance o c t = Ok (fresh [] [v]) /\ fle o (fzero o) v = true.
  Proof.
    intros H HF. unfold reduce_variance. rewrite (c29_fold _ _ _ _ _ _ _ _ H).
    rewrite welford_fold by (pose proof (repr_length_small _ _ _ H); cbn; lia). cbn [bind].
    eexists. split; [reflexivity|].
    apply var_nonneg; [eapply repr_length_32; eauto|now apply bounded_forall].
  Qed.

  Lemma c69_std c (t : tensor b32) ds xs :
    repr t ds xs -> Forall (fun x => number x /\ (Rabs (B2R x) <= 2 ^ 126)%R) xs ->
    exists v, reduce_std o c t = Ok (fresh [] [v]) /\ fle o (fzero o) v = true.
  Proof.
    intros H HF. unfold reduce_std. rewrite (c29_fold _ _ _ _ _ _ _ _ H).
    rewrite welford_fold by (pose proof (repr_length_small _ _ _ H); cbn; lia). cbn [bind].
    eexists. split; [reflexivity|].
    apply var_nonneg; [eapply repr_length_32; eauto|now apply bounded_forall].
  Qed.

  Lemma axis_lines_in {T} d1 d d2 (xs : list T) ls l x :
    length xs = prod (d1 ++ d :: d2) -> axis_lines d1 d d2 xs ls -> In l ls -> In x l -> In x xs.
  Proof.
    intros Hl H Hin Hx. pose proof (c30_lines_unique _ _ _ _ _ _ H (axis_lines_lines _ _ _ _ Hl)) as ->.
    assert (Hl' : length xs = prod d1 * (d * prod d2)) by (rewrite Hl, prod_app; reflexivity).
    unfold lines in Hin. apply in_map_iff in Hin. destruct Hin as (q & <- & Hq). apply in_seq in Hq.
    apply In_nth_error in Hx. destruct Hx as [k Hk].
    assert (Hkd : k < d).
    { rewrite <- (line_length (prod d1) d (prod d2) xs q Hl' ltac:(lia)). apply nth_error_Some. congruence. }
    rewrite (line_nth (prod d1)) in Hk by (auto; lia). eapply nth_error_In; eauto.
  Qed.

  Lemma c68_sum_axis c (t : tensor b32) a d1 d d2 xs :
    repr t (d1 ++ d :: d2) xs -> names_axis a (length d1) (length (d1 ++ d :: d2)) ->
    Forall (fun d => 0 < d) (d1 ++ d2) -> 0 < d ->
    exists ls rs, axis_lines d1 d d2 xs ls /\
      reduce_sum_axis c (total2 (fadd o)) t (Some a) = Ok (fresh (d1 ++ d2) rs) /\
      Forall2 (fun r l => number r ->
        (Rabs (B2R r - rsum (map B2R l))
         <= ((1 + u32) ^ (d - 1) - 1) * rsum (map (fun x => Rabs (B2R x)) l))%R) rs ls.
  Proof.
    intros H Ha Hp Hd.
    destruct (reduce_axis_total c t a d1 d d2 xs (fadd o)
      (fun l => match l with [] => fzero o | x :: l => fold_left (fadd o) l x end) H Ha Hp Hd) as (ls & Hls & E); auto.
    eexists ls, _. split; [auto|].
    split; [unfold reduce_sum_axis; rewrite lift_total2, E; reflexivity|].
    apply Forall2_map_l. intros l Hl Hn.
    pose proof (axis_lines_length _ _ _ _ _ _ (repr_len _ _ _ H) Hls Hl) as El.
    destruct l as [|x l]; [cbn in El; lia|]. rewrite <- El. rewrite <- (map_map B2R Rabs).
    cbn [map length]. rewrite Nat.sub_succ, Nat.sub_0_r.
    pose proof (sum_error ln_ exp_ pow_ l x (B2R x) (Rabs (B2R x)) 0) as G.
    cbn [pow Nat.add] in G. apply G; auto.
    - rewrite Rminus_diag_eq, Rabs_R0 by reflexivity. lra.
    - apply Rle_refl.
  Qed.

  Lemma axis_len_32 {T} (t : tensor T) d1 d d2 xs : repr t (d1 ++ d :: d2) xs -> (Z.of_nat d < 4294967296)%Z.
  Proof.
    intros H. pose proof (supported_in _ d (repr_supported _ _ _ H) (in_elt _ _ _)) as Hs. unfold two32 in *. lia.
  Qed.

  Lemma c69_axis c (t : tensor b32) a d1 d d2 xs :
    repr t (d1 ++ d :: d2) xs -> names_axis a (length d1) (length (d1 ++ d :: d2)) ->
    Forall (fun d => 0 < d) (d1 ++ d2) ->
    Forall (fun x => number x /\ (Rabs (B2R x) <= 2 ^ 126)%R) xs ->
    exists vs ss, reduce_variance_axis o c t (Some a) = Ok (fresh (d1 ++ d2) vs) /\
      reduce_std_axis o c t (Some a) = Ok (fresh (d1 ++ d2) ss) /\
      Forall (fun v => fle o (fzero o) v = true) vs /\ Forall (fun v => fle o (fzero o) v = true) ss.
  Proof.
    intros H Ha Hp HF. pose proof (axis_len_32 _ _ _ _ _ H) as Hd.
    assert (Hf : forall l : list b32, length l = d ->
      foldM (welford_update o c) tt (welford_default o) l
      = Ok (tt, fold_left (wstep o) l (welford_default o))).
    { intros l Hl. apply welford_fold. cbn. unfold two64. lia. }
    destruct (fold_axis_total c t a d1 d d2 xs (welford_default o) (var_result o) _ _ H Ha Hp Hf) as (ls & Hls & E1).
    destruct (fold_axis_total c t a d1 d d2 xs (welford_default o) (std_result o) _ _ H Ha Hp Hf) as (ls' & Hls' & E2).
    pose proof (c30_lines_unique _ _ _ _ _ _ Hls' Hls) as ->.
    eexists _, _. split; [unfold reduce_variance_axis; rewrite E1; reflexivity|].
    split; [unfold reduce_std_axis; rewrite E2; reflexivity|].
    assert (Hb : forall l, In l ls -> Forall bounded l /\ (Z.of_nat (length l) < 4294967296)%Z).
    { intros l Hl. split.
      - apply bounded_forall. apply Forall_forall. intros x Hx. rewrite Forall_forall in HF. apply HF.
        eapply axis_lines_in; eauto. apply H.
      - rewrite (axis_lines_length _ _ _ _ _ _ (repr_len _ _ _ H) Hls Hl). auto. }
    split; apply Forall_map; apply Forall_forall; intros l Hl; destruct (Hb l Hl) as [B1 B2];
      destruct (var_nonneg l B2 B1) as [V1 V2]; [exact V1|exact V2].
  Qed.

  (** ** C70 *)

  Lemma c70_min c (t : tensor b32) ds xs :
    repr t ds xs -> xs <> [] ->
    exists m, reduce_min o c t = Ok (fresh [] [m]) /\ In m xs /\
      forall x, In x xs -> is_nan x = false -> fle o m x = true.
  Proof.
    intros H Hx. destruct xs as [|x xs]; [congruence|].
    unfold reduce_min. rewrite (c29_reduce c t ds x xs (pure2 (fmin o)) tt H). rewrite foldM_pure2. cbn [bind].
    eexists. split; [reflexivity|]. apply fold_min_b32.
  Qed.

  Lemma c70_max c (t : tensor b32) ds xs :
    repr t ds xs -> xs <> [] ->
    exists m, reduce_max o c t = Ok (fresh [] [m]) /\ In m xs /\
      forall x, In x xs -> is_nan x = false -> fle o x m = true.
  Proof.
    intros H Hx. destruct xs as [|x xs]; [congruence|].
    unfold reduce_max. rewrite (c29_reduce c t ds x xs (pure2 (fmax o)) tt H). rewrite foldM_pure2. cbn [bind].
    eexists. split; [reflexivity|]. apply fold_max_b32.
  Qed.

  Lemma c70_min_axis c (t : tensor b32) a d1 d d2 xs :
    repr t (d1 ++ d :: d2) xs -> names_axis a (length d1) (length (d1 ++ d :: d2)) ->
    Forall (fun d => 0 < d) (d1 ++ d2) -> 0 < d ->
    exists ls ms, axis_lines d1 d d2 xs ls /\
      reduce_min_axis o c t (Some a) = Ok (fresh (d1 ++ d2) ms) /\
      Forall2 (fun m l => In m l /\ forall x, In x l -> is_nan x = false -> fle o m x = true) ms ls.
  Proof.
    intros H Ha Hp Hd.
    destruct (reduce_axis_total c t a d1 d d2 xs (fmin o)
      (fun l => match l with [] => fzero o | x :: l => fold_left (fmin o) l x end) H Ha Hp Hd) as (ls & Hls & E); auto.
    eexists ls, _. split; [auto|]. split; [unfold reduce_min_axis; rewrite E; reflexivity|].
    apply Forall2_map_l. intros l Hl.
    pose proof (axis_lines_length _ _ _ _ _ _ (repr_len _ _ _ H) Hls Hl) as El.
    destruct l as [|x l]; [cbn in El; lia|]. apply fold_min_b32.
  Qed.

  Lemma c70_max_axis c (t : tensor b32) a d1 d d2 xs :
    repr t (d1 ++ d :: d2) xs -> names_axis a (length d1) (length (d1 ++ d :: d2)) ->
    Forall (fun d => 0 < d) (d1 ++ d2) -> 0 < d ->
    exists ls ms, axis_lines d1 d d2 xs ls /\
      reduce_max_axis o c t (Some a) = Ok (fresh (d1 ++ d2) ms) /\
      Forall2 (fun m l => In m l /\ forall x, In x l -> is_nan x = false -> fle o x m = true) ms ls.
  Proof.
    intros H Ha Hp Hd.
    destruct (reduce_axis_total c t a d1 d d2 xs (fmax o)
      (fun l => match l with [] => fzero o | x :: l => fold_left (fmax o) l x end) H Ha Hp Hd) as (ls & Hls & E); auto.
    eexists ls, _. split; [auto|]. split; [unfold reduce_max_axis; rewrite E; reflexivity|].
    apply Forall2_map_l. intros l Hl.
    pose proof (axis_lines_length _ _ _ _ _ _ (repr_len _ _ _ H) Hls Hl) as El.
    destruct l as [|x l]; [cbn in El; lia|]. apply fold_max_b32.
  Qed.
End B32.

(** Three times 15866414 has mean 15866413. *)
Lemma c68_mean_range_refuted ln_ exp_ pow_ :
  let o := b32_ops ln_ exp_ pow_ in
  exists (x m : b32), number x /\ reduce_mean o dev (fresh [3] [x; x; x]) = Ok (fresh [] [m]) /\
    number m /\ flt o m x = true.
Proof.
  cbv zeta. set (o := b32_ops ln_ exp_ pow_). set (x := b32_of_Z 15866414 0).
  exists x, (fdiv o (fold_left (fadd o) [x; x; x] (fzero o)) (fof o 3)).
  split; [reflexivity|]. split; [|split; vm_compute; reflexivity].
  assert (H : repr (fresh [3] [x; x; x]) [3] [x; x; x]) by (apply repr_fresh; [split; cbn; lia|reflexivity]).
  exact (c50_mean_any o dev _ _ _ H).
Qed.

(** -3 * 2^126 and 3 * 2^126 have variance minus infinity and deviation NaN. *)
Lemma c69_refuted ln_ exp_ pow_ :
  let o := b32_ops ln_ exp_ pow_ in
  exists x y : b32, number x /\ number y /\
    reduce_variance o dev (fresh [2] [x; y]) = Ok (fresh [] [B754_infinity true]) /\
    reduce_std o dev (fresh [2] [x; y]) = Ok (fresh [] [B754_nan]).
Proof.
  cbv zeta. exists (b32_of_Z (-3) 126), (b32_of_Z 3 126).
  split; [reflexivity|]. split; [reflexivity|]. split; vm_compute; reflexivity.
Qed.
