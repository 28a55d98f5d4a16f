(** * C80: normalised values, samples, products and norms in binary32, proofs *)
From Coq Require Import Reals Lra Psatz.
From Flocq Require Import Core.Zaux Core.Raux Core.Defs Core.Generic_fmt Core.FIX Core.FLT Core.Float_prop Core.Round_NE
  Relative Plus_error IEEE754.BinarySingleNaN.
From Verif Require Import Base ShapeModel TensorModel AxisModel MapModel NumModel FloatModel InitModel MathModel
  Spec FloatSpec RoundSpec BaseFacts ShapeFacts TensorFacts MapFacts RealFacts RoundFacts MathFacts MapSpec MapProofs
  MathSpec MathProofs LinalgFacts InitSpec InitProofs HistProofs.

Section B32.
  Variables (ln_ exp_ : b32 -> b32) (pow_ : b32 -> b32 -> b32).
  Notation o := (b32_ops ln_ exp_ pow_).

  Lemma ltb_number (x y : b32) : number x -> number y -> flt o x y = Rlt_bool (B2R x) (B2R y).
  Proof. intros Hx Hy. cbn [flt b32_ops]. now apply Bltb_correct. Qed.
  Lemma leb_number (x y : b32) : number x -> number y -> fle o x y = Rle_bool (B2R x) (B2R y).
  Proof. intros Hx Hy. cbn [fle b32_ops]. now apply Bleb_correct. Qed.
  Lemma eqb_self (x : b32) : number x -> feq o x x = true.
  Proof. intros Hx. cbn [feq b32_ops]. rewrite Beqb_correct by exact Hx. now apply Req_bool_true. Qed.

  Lemma fmin_number x y : number x -> number y -> number (fmin o x y) /\ B2R (fmin o x y) = Rmin (B2R x) (B2R y).
  Proof.
    intros Hx Hy. unfold fmin. rewrite eqb_self, ltb_number by assumption.
    destruct (Rlt_bool_spec (B2R y) (B2R x)); split; try assumption; symmetry; [apply Rmin_right|apply Rmin_left]; lra.
  Qed.
  Lemma fmax_number x y : number x -> number y -> number (fmax o x y) /\ B2R (fmax o x y) = Rmax (B2R x) (B2R y).
  Proof.
    intros Hx Hy. unfold fmax. rewrite eqb_self, ltb_number by assumption.
    destruct (Rlt_bool_spec (B2R x) (B2R y)); split; try assumption; symmetry; [apply Rmax_right|apply Rmax_left]; lra.
  Qed.

  Lemma fold_min_number xs : forall m, number m -> Forall number xs ->
    number (fold_left (fmin o) xs m) /\
    B2R (fold_left (fmin o) xs m) = fold_left (fmin R_ops) (map B2R xs) (B2R m).
  Proof.
    induction xs as [|x xs IH]; intros m Hm HF; [split; [exact Hm|reflexivity]|]. inversion_clear HF.
    cbn [map fold_left]. destruct (fmin_number m x Hm) as [N E]; [assumption|]. rewrite R_fmin, <- E. now apply IH.
  Qed.
  Lemma fold_max_number xs : forall m, number m -> Forall number xs ->
    number (fold_left (fmax o) xs m) /\
    B2R (fold_left (fmax o) xs m) = fold_left (fmax R_ops) (map B2R xs) (B2R m).
  Proof.
    induction xs as [|x xs IH]; intros m Hm HF; [split; [exact Hm|reflexivity]|]. inversion_clear HF.
    cbn [map fold_left]. destruct (fmax_number m x Hm) as [N E]; [assumption|]. rewrite R_fmax, <- E. now apply IH.
  Qed.

  Lemma max_value_number : number (fmax_value o) /\ B2R (fmax_value o) = IZR (16777215 * 2 ^ 104) /\
    number (fmin_value o) /\ B2R (fmin_value o) = (- IZR (16777215 * 2 ^ 104))%R.
  Proof.
    split; [reflexivity|]. split; [|split; [reflexivity|]]; cbn [fmax_value fmin_value b32_ops].
    - transitivity (F2R (Float radix2 16777215 104)); [reflexivity|]. unfold F2R. cbn [Fnum Fexp].
      change (bpow radix2 104) with (IZR (2 ^ 104)). now rewrite <- mult_IZR.
    - transitivity (F2R (Float radix2 (-16777215) 104)); [reflexivity|]. unfold F2R. cbn [Fnum Fexp].
      change (bpow radix2 104) with (IZR (2 ^ 104)). rewrite <- mult_IZR, <- opp_IZR. reflexivity.
  Qed.
  Lemma number_range (x : b32) : (- IZR (16777215 * 2 ^ 104) <= B2R x <= IZR (16777215 * 2 ^ 104))%R.
  Proof.
    pose proof (abs_B2R_le_emax_minus_prec 24 128 b32_prec x) as H.
    replace (bpow radix2 128 - bpow radix2 (128 - 24))%R with (IZR (16777215 * 2 ^ 104)) in H.
    - apply Rabs_le_inv in H. exact H.
    - change (bpow radix2 128) with (IZR (2 ^ 128)). change (bpow radix2 (128 - 24)) with (IZR (2 ^ 104)).
      rewrite <- minus_IZR. reflexivity.
  Qed.

  Lemma extremes xs : xs <> [] -> Forall number xs ->
    let mn := fold_left (fmin o) xs (fmax_value o) in
    let mx := fold_left (fmax o) xs (fmin_value o) in
    number mn /\ number mx /\ least (B2R mn) (map B2R xs) /\ greatest (B2R mx) (map B2R xs).
  Proof.
    intros Hx HF. cbv zeta. destruct max_value_number as (N1 & E1 & N2 & E2).
    destruct (fold_min_number xs _ N1 HF) as [M1 F1]. destruct (fold_max_number xs _ N2 HF) as [M2 F2].
    split; [exact M1|]. split; [exact M2|]. rewrite F1, F2, E1, E2.
    destruct xs as [|x xs]; [congruence|]. cbn [map]. pose proof (number_range x) as [B1 B2].
    rewrite fold_min_ini by exact B2. rewrite fold_max_ini by exact B1.
    split; [apply fold_min_least|apply fold_max_greatest].
  Qed.

  Lemma normalize_unit_any c (t : tensor b32) ds xs : repr t ds xs -> xs <> [] ->
    normalize_unit o c t
    = Ok (fresh ds (map (unit_norm o (fold_left (fmin o) xs (fmax_value o), fold_left (fmax o) xs (fmin_value o))) xs)).
  Proof.
    intros H Hx. unfold normalize_unit.
    assert (Hc : can_alloc c (length xs)) by (destruct xs; [congruence|left; cbn; lia]).
    rewrite (c33_no_axis_partial c t ds xs) by auto.
    unfold normM. rewrite foldM_pure2. cbn [bind]. unfold pure1 at 1. cbn [bind].
    assert (E : forall l s, fold_left (unit_update o) l s = (fold_left (fmin o) l (fst s), fold_left (fmax o) l (snd s))).
    { induction l as [|y l IH]; intros [a b]; [reflexivity|]. cbn [fold_left]. now rewrite IH. }
    rewrite E. cbn [fst snd].
    rewrite (traverse_total _ (unit_norm o (fold_left (fmin o) xs (fmax_value o), fold_left (fmax o) xs (fmin_value o))))
      by reflexivity. reflexivity.
  Qed.

  (** The quotient of two distances. *)
  Lemma quotient_unit (X d : b32) : number X -> number d -> (0 <= B2R X <= B2R d)%R -> (0 < B2R d)%R ->
    number (fdiv o X d) /\ B2R (fdiv o X d) = rnd (B2R X / B2R d) /\ (0 <= B2R (fdiv o X d) <= 1)%R.
  Proof.
    intros HX Hd [H0 H1] Pd.
    assert (Q : (0 <= B2R X / B2R d <= 1)%R).
    { unfold Rdiv. assert (I : (0 < / B2R d)%R) by now apply Rinv_0_lt_compat. split; [apply Rmult_le_pos; lra|].
      rewrite <- (Rinv_r (B2R d)) by lra. apply Rmult_le_compat_r; lra. }
    assert (F1 : fmt 1) by (apply (generic_format_bpow radix2 _ 0); cbn; lia).
    assert (N : (0 <= rnd (B2R X / B2R d) <= 1)%R).
    { split; [apply rnd_ge_fmt; [apply fmt_0|lra]|apply rnd_le_fmt; [exact F1|lra]]. }
    pose proof (Bdiv_correct 24 128 b32_prec b32_emax mode_NE X d ltac:(lra)) as C. cbn [round_mode] in C.
    rewrite Rlt_bool_true in C.
    - destruct C as (C1 & C2 & _). cbn [fdiv b32_ops]. unfold number. rewrite C1, C2. auto.
    - rewrite Rabs_pos_eq by lra. apply Rle_lt_trans with 1%R; [lra|]. change 1%R with (bpow radix2 0). apply bpow_lt. lia.
  Qed.

  Lemma c80_unit_interval c (t : tensor b32) ds xs :
    repr t ds xs -> Forall number xs ->
    (forall a b, In a xs -> In b xs -> is_finite (@Bminus 24 128 b32_prec b32_emax mode_NE a b) = true) ->
    (exists a b, In a xs /\ In b xs /\ (B2R a < B2R b)%R) ->
    exists ys, normalize_unit o c t = Ok (fresh ds ys) /\ length ys = length xs /\
      Forall (fun y => number y /\ (0 <= B2R y <= 1)%R) ys /\
      (forall i j a b u v, nth_error xs i = Some a -> nth_error xs j = Some b ->
         nth_error ys i = Some u -> nth_error ys j = Some v -> (B2R a <= B2R b)%R -> (B2R u <= B2R v)%R) /\
      (forall i a u, nth_error xs i = Some a -> nth_error ys i = Some u ->
         (least (B2R a) (map B2R xs) -> B2R u = 0%R) /\ (greatest (B2R a) (map B2R xs) -> B2R u = 1%R)).
  Proof.
    intros H HF Hd (a0 & b0 & Ia0 & Ib0 & Hab).
    assert (Hne : xs <> []) by (intros ->; destruct Ia0).
    rewrite (normalize_unit_any c t ds xs H Hne). eexists. split; [reflexivity|]. split; [apply map_length|].
    destruct (extremes xs Hne HF) as (Nn & Nx & Ln & Gx). cbv zeta in *.
    set (mn := fold_left (fmin o) xs (fmax_value o)) in *. set (mx := fold_left (fmax o) xs (fmin_value o)) in *.
    destruct Ln as [In_n Ln], Gx as [In_x Gx].
    assert (In_of : forall x, In x xs -> In (B2R x) (map B2R xs)) by (intros; now apply in_map).
    (* the difference of the extremes *)
    assert (Hlt : (B2R mn < B2R mx)%R).
    { pose proof (Ln _ (In_of _ Ia0)). pose proof (Gx _ (In_of _ Ib0)). lra. }
    assert (Hfin : forall x y, number x -> number y -> In (B2R x) (map B2R xs) -> In (B2R y) (map B2R xs) ->
      (B2R y <= B2R x)%R -> number (fsub o x y) /\ B2R (fsub o x y) = rnd (B2R x - B2R y)).
    { intros x y Fx Fy Ix Iy L. apply in_map_iff in Ix, Iy. destruct Ix as (x' & Ex & Ix), Iy as (y' & Ey & Iy).
      pose proof (Hd x' y' Ix Iy) as D. destruct (sub_number ln_ exp_ pow_ x' y' D) as (Fx' & Fy' & R).
      assert (B : (Rabs (rnd (B2R x - B2R y)) < bpow radix2 128)%R).
      { rewrite <- Ex, <- Ey, <- R. apply abs_B2R_lt_emax. }
      destruct (sub_dist ln_ exp_ pow_ x y Fx Fy L) as [[_ C]|(C1 & C2 & _)]; [|now split].
      exfalso. pose proof (Rle_abs (rnd (B2R x - B2R y))). lra. }
    destruct (Hfin mx mn Nx Nn In_x In_n ltac:(lra)) as [Fd Rd].
    set (d := fsub o mx mn) in *.
    assert (Pd : (0 < B2R d)%R).
    { rewrite Rd. destruct (sub_rel mx mn Nx Nn) as (e & He & ->). apply Rabs_le_inv in He. pose proof u32_lt.
      apply Rmult_lt_0_compat; lra. }
    assert (Hq : forall x, In x xs ->
      number (unit_norm o (mn, mx) x) /\ B2R (unit_norm o (mn, mx) x) = rnd (rnd (B2R x - B2R mn) / B2R d) /\
      (0 <= B2R (unit_norm o (mn, mx) x) <= 1)%R).
    { intros x Ix. assert (Nx' : number x) by (rewrite Forall_forall in HF; now apply HF).
      pose proof (Ln _ (In_of _ Ix)) as L1. pose proof (Gx _ (In_of _ Ix)) as L2.
      destruct (Hfin x mn Nx' Nn (In_of _ Ix) In_n L1) as [Fs Rs].
      unfold unit_norm. cbn [fst snd]. fold d. rewrite <- Rs. apply quotient_unit; auto.
      rewrite Rs, Rd. split; [apply rnd_ge_fmt; [apply fmt_0|lra]|apply rnd_le; lra]. }
    split; [|split].
    - apply Forall_forall. intros y Iy. apply in_map_iff in Iy. destruct Iy as (x & <- & Ix).
      destruct (Hq x Ix) as (Q1 & _ & Q2). now split.
    - intros i j a b u v Ea Eb Eu Ev L. rewrite nth_error_map, Ea in Eu. rewrite nth_error_map, Eb in Ev. cbn [option_map] in Eu, Ev.
      apply nth_error_In in Ea, Eb. apply Some_inj in Eu, Ev. subst u v.
      destruct (Hq a Ea) as (_ & -> & _), (Hq b Eb) as (_ & -> & _). apply rnd_le. unfold Rdiv.
      apply Rmult_le_compat_r; [apply Rlt_le, Rinv_0_lt_compat, Pd|]. apply rnd_le. lra.
    - intros i a u Ea Eu. rewrite nth_error_map, Ea in Eu. cbn [option_map] in Eu. apply nth_error_In in Ea. apply Some_inj in Eu. subst u.
      destruct (Hq a Ea) as (_ & -> & _). split.
      + intros [_ La]. assert (B2R a = B2R mn) as -> by (apply Rle_antisym; [now apply La|apply Ln, In_of, Ea]).
        rewrite Rminus_diag_eq by reflexivity. rewrite (rnd_fmt 0 fmt_0). unfold Rdiv. rewrite Rmult_0_l. apply rnd_fmt, fmt_0.
      + intros [_ Ga]. assert (B2R a = B2R mx) as -> by (apply Rle_antisym; [apply Gx, In_of, Ea|now apply Ga]).
        rewrite <- Rd. unfold Rdiv. rewrite Rinv_r by lra. apply rnd_fmt. apply (generic_format_bpow radix2 _ 0). cbn. lia.
  Qed.

  (** Distinct elements may become equal. *)
  Lemma c80_unit_order_refuted :
    exists xs ys, normalize_unit o dev (fresh [3] xs) = Ok (fresh [3] ys) /\
      map B2SF xs = map B2SF [b32_of_Z 0 0; b32_of_Z 1 (-149); b32_of_Z 4 0] /\
      map B2SF ys = map B2SF [b32_of_Z 0 0; b32_of_Z 0 0; b32_of_Z 1 0].
  Proof.
    exists [b32_of_Z 0 0; b32_of_Z 1 (-149); b32_of_Z 4 0]. eexists. split; [|split; [reflexivity|]].
    - rewrite (normalize_unit_any dev _ [3] [b32_of_Z 0 0; b32_of_Z 1 (-149); b32_of_Z 4 0]); [reflexivity| |discriminate].
      apply repr_fresh; [split; cbn; lia|reflexivity].
    - vm_compute. reflexivity.
  Qed.

  (** ** Samples *)

  Lemma of_nat_rnd k : (Z.of_nat k < 4294967296)%Z ->
    number (fof o k) /\ B2R (fof o k) = rnd (INR k) /\ (0 <= B2R (fof o k))%R.
  Proof.
    intros Hk. destruct k as [|k].
    - split; [reflexivity|]. cbn [INR]. rewrite (rnd_fmt 0 fmt_0). split; [reflexivity|]. change (B2R (fof o 0)) with 0%R. lra.
    - destruct (b32_of_nat_pos ln_ exp_ pow_ (S k) ltac:(lia) Hk) as [F P]. split; [exact F|]. split; [|lra].
      pose proof (binary_normalize_correct 24 128 b32_prec b32_emax mode_NE (Z.of_nat (S k)) 0 false) as C. cbv zeta in C.
      assert (E : F2R (Float radix2 (Z.of_nat (S k)) 0) = INR (S k)).
      { unfold F2R. cbn [Fnum Fexp]. change (bpow radix2 0) with 1%R. rewrite Rmult_1_r. symmetry. apply INR_IZR_INZ. }
      rewrite E in C. cbn [round_mode] in C. cbn [fof b32_ops]. unfold b32_of_Z. cbn [fof b32_ops] in F. unfold b32_of_Z in F.
      destruct (Rlt_bool _ _); [apply C|]. exfalso. destruct (binary_normalize _ _ _ _ _ _ _ _) as [s|s| |s m e B]; discriminate.
  Qed.

  Lemma dist_number (x : b32) : number x -> (0 <= B2R x)%R -> dist x.
  Proof. intros. right. now split. Qed.

  Lemma mul_dist (s f : b32) : number s -> number f -> (0 <= B2R s)%R -> (0 <= B2R f)%R ->
    (fmul o s f = B754_infinity false /\ (bpow radix2 128 <= rnd (B2R s * B2R f))%R) \/
    (number (fmul o s f) /\ B2R (fmul o s f) = rnd (B2R s * B2R f) /\ (0 <= rnd (B2R s * B2R f) < bpow radix2 128)%R).
  Proof.
    intros Hs Hf Ps Pf. assert (P : (0 <= B2R s * B2R f)%R) by now apply Rmult_le_pos.
    assert (N : (0 <= rnd (B2R s * B2R f))%R) by (apply rnd_ge_fmt; [apply fmt_0|exact P]).
    pose proof (Bmult_correct 24 128 b32_prec b32_emax mode_NE s f) as C. cbn [round_mode] in C.
    destruct (Rlt_bool_spec (Rabs (rnd (B2R s * B2R f))) (bpow radix2 128)) as [L|L]; rewrite Rabs_pos_eq in L by exact N.
    - right. destruct C as (C1 & C2 & _). unfold number in *. cbn [fmul b32_ops]. rewrite C1, C2, Hs, Hf. auto.
    - left. split; [|exact L]. apply overflow_inf in C. cbn [fmul b32_ops]. rewrite C.
      assert (Z : (0 < B2R s * B2R f)%R).
      { destruct (Rle_lt_or_eq_dec _ _ P) as [Z|Z]; [exact Z|]. exfalso. rewrite <- Z, (rnd_fmt 0 fmt_0) in L.
        pose proof (bpow_gt_0 radix2 128). lra. }
      rewrite (nonneg_sign s Hs), (nonneg_sign f Hf); [reflexivity| |]; nra.
  Qed.

  Lemma add_dist (x P : b32) : number x -> dist P ->
    (fadd o x P = B754_infinity false /\ (P = B754_infinity false \/ (bpow radix2 128 <= rnd (B2R x + B2R P))%R)) \/
    (number P /\ number (fadd o x P) /\ B2R (fadd o x P) = rnd (B2R x + B2R P) /\ (rnd (B2R x + B2R P) < bpow radix2 128)%R).
  Proof.
    intros Hx [->|[HP PP]].
    { left. split; [|now left]. unfold number in Hx. destruct x; try discriminate; reflexivity. }
    assert (N : (B2R x <= rnd (B2R x + B2R P))%R) by (apply rnd_ge_fmt; [apply fmt_B2R|lra]).
    assert (B : (- bpow radix2 128 < B2R x)%R).
    { pose proof (abs_B2R_lt_emax 24 128 x) as A. apply Rabs_lt_inv in A. lra. }
    pose proof (Bplus_correct 24 128 b32_prec b32_emax mode_NE x P Hx HP) as C. cbn [round_mode] in C. cbn [fadd b32_ops].
    destruct (Rlt_bool_spec (Rabs (rnd (B2R x + B2R P))) (bpow radix2 128)) as [L|L].
    - right. split; [exact HP|]. destruct C as (C1 & C2 & _). unfold number. rewrite C1, C2. split; [reflexivity|]. split; [reflexivity|].
      pose proof (Rle_abs (rnd (B2R x + B2R P))). lra.
    - left. destruct C as [C S]. apply overflow_inf in C.
      assert (L' : (bpow radix2 128 <= rnd (B2R x + B2R P))%R).
      { destruct (Rle_or_lt 0 (rnd (B2R x + B2R P))) as [Q|Q]; [now rewrite Rabs_pos_eq in L|]. rewrite Rabs_left in L by exact Q. lra. }
      split; [|now right]. rewrite C. f_equal. destruct (Bsign x) eqn:Sx; [|reflexivity]. exfalso.
      assert (X : (B2R x <= 0)%R).
      { unfold number in Hx. destruct x as [s|s| |s m e Bx]; try discriminate; [cbn; lra|]. cbn in Sx. subst s. apply F2R_le_0. cbn. lia. }
      assert (B2R P <= 0)%R.
      { unfold number in HP. symmetry in S. destruct P as [s|s| |s m e Bx]; try discriminate; [cbn; lra|]. cbn in S. subst s. apply F2R_le_0. cbn. lia. }
      assert (rnd (B2R x + B2R P) <= 0)%R by (apply rnd_le_fmt; [apply fmt_0|lra]). pose proof (bpow_gt_0 radix2 128). lra.
  Qed.

  Lemma leb_inf (z : b32) : z <> B754_nan -> fle o z (B754_infinity false) = true.
  Proof. destruct z as [s|[]| |[] m e B]; intros H; try reflexivity. congruence. Qed.

  Lemma add_dist_mono (x P Q : b32) : number x -> dist P -> dist Q -> dist_le P Q ->
    fle o (fadd o x P) (fadd o x Q) = true /\ fle o x (fadd o x P) = true.
  Proof.
    intros Hx HP HQ HL.
    assert (NN : forall z, number z -> z <> B754_nan) by (unfold number; intros z Hz ->; discriminate).
    destruct (add_dist x P Hx HP) as [[EP CP]|(NP & FP & RP & BP)].
    - rewrite EP. split; [|now apply leb_inf, NN].
      destruct (add_dist x Q Hx HQ) as [[EQ CQ]|(NQ & FQ & RQ & BQ)]; [now rewrite EQ|exfalso].
      destruct HL as [->|(FP & FQ' & L)]; [discriminate|]. destruct CP as [->|CP]; [discriminate|].
      assert (rnd (B2R x + B2R P) <= rnd (B2R x + B2R Q))%R by (apply rnd_le; lra). lra.
    - split.
      + destruct (add_dist x Q Hx HQ) as [[EQ CQ]|(NQ & FQ & RQ & BQ)]; [rewrite EQ; now apply leb_inf, NN|].
        destruct HL as [->|(_ & _ & L)]; [discriminate|].
        rewrite leb_number by assumption. apply Rle_bool_true. rewrite RP, RQ. apply rnd_le. lra.
      + rewrite leb_number by assumption. apply Rle_bool_true. rewrite RP. apply rnd_ge_fmt; [apply fmt_B2R|].
        destruct HP as [->|[_ HP]]; [discriminate|lra].
  Qed.

  Lemma step_number x y n : number x -> (B2R x <= B2R y)%R -> number (fsub o y x) -> 0 < n -> (Z.of_nat n < 4294967296)%Z ->
    number (fdiv o (fsub o y x) (fof o n)) /\ (0 <= B2R (fdiv o (fsub o y x) (fof o n)))%R.
  Proof.
    intros Hx L Hd Hn Hb. destruct (sub_number ln_ exp_ pow_ y x Hd) as (Hy & _ & E).
    pose proof (b32_div_nat_finite ln_ exp_ pow_ (fsub o y x) n Hd Hn Hb) as F. split; [exact F|].
    destruct (b32_of_nat_pos ln_ exp_ pow_ n Hn Hb) as [Ff Pf].
    destruct (div_number ln_ exp_ pow_ (fsub o y x) (fof o n) ltac:(lra) F) as [_ ->].
    assert (P : (0 <= B2R (fsub o y x))%R) by (rewrite E; apply rnd_ge_fmt; [apply fmt_0|lra]).
    apply rnd_ge_fmt; [apply fmt_0|]. unfold Rdiv. apply Rmult_le_pos; [exact P|]. apply Rlt_le, Rinv_0_lt_compat. lra.
  Qed.

  Lemma sample_order (x s : b32) k k' : number x -> number s -> (0 <= B2R s)%R -> k <= k' -> (Z.of_nat k' < 4294967296)%Z ->
    fle o (fadd o x (fmul o s (fof o k))) (fadd o x (fmul o s (fof o k'))) = true /\
    fle o x (fadd o x (fmul o s (fof o k))) = true.
  Proof.
    intros Hx Hs Ps Hk Hb.
    destruct (of_nat_rnd k ltac:(lia)) as (F1 & R1 & P1). destruct (of_nat_rnd k' Hb) as (F2 & R2 & P2).
    assert (M : (B2R s * B2R (fof o k) <= B2R s * B2R (fof o k'))%R).
    { apply Rmult_le_compat_l; [exact Ps|]. rewrite R1, R2. apply rnd_le, le_INR, Hk. }
    pose proof (rnd_le _ _ M) as M'.
    apply add_dist_mono; [exact Hx| | |];
    destruct (mul_dist s (fof o k) Hs F1 Ps P1) as [[E1 B1]|(E1 & G1 & B1)];
    destruct (mul_dist s (fof o k') Hs F2 Ps P2) as [[E2 B2]|(E2 & G2 & B2)].
    all: try (left; assumption). all: try (right; split; [assumption|lra]).
    - exfalso. lra.
    - right. split; [exact E1|]. split; [exact E2|]. lra.
  Qed.

  Lemma c80_linspace_order c (s e : tensor b32) ds xs ys len :
    repr s ds xs -> repr e ds ys -> 0 < prod ds -> length ds < 5 -> supported (len :: ds) -> 0 < len ->
    (forall i x y, nth_error xs i = Some x -> nth_error ys i = Some y ->
       Bleb x y = true /\ is_finite x = true /\
       is_finite (@Bminus 24 128 b32_prec b32_emax mode_NE y x) = true) ->
    exists zs, linspace o c s e len = Ok (fresh (len :: ds) zs) /\
      forall idx x k k' z z', elem ds xs idx = Some x -> k <= k' -> k' < len ->
        elem (len :: ds) zs (k :: idx) = Some z -> elem (len :: ds) zs (k' :: idx) = Some z' ->
        Bleb z z' = true /\ Bleb x z = true.
  Proof.
    intros Hs He Hp Hl Hsup Hlen Hle.
    destruct (c43_linspace o c s e ds xs ys len) as (zs & E & El & Ev); auto.
    - left. nia.
    - intros i x y Hx Hy. destruct (Hle i x y Hx Hy) as [H _]. exact H.
    - exists zs. split; auto. intros idx x k k' z z' Hx Hkk Hk' Ez Ez'.
      assert (Hy : exists y, elem ds ys idx = Some y).
      { destruct (elem ds ys idx) as [y|] eqn:Ey; [now exists y|exfalso]. unfold elem in Hx, Ey.
        apply nth_error_None in Ey. assert (nth_error xs (ravel ds idx) <> None) as N by congruence. apply nth_error_Some in N.
        assert (length xs = prod ds) by apply Hs. assert (length ys = prod ds) by apply He. lia. }
      destruct Hy as [y Hy].
      assert (Hbz : (Z.of_nat len < 4294967296)%Z).
      { destruct Hsup as [_ Hb]. cbn [map prod] in Hb. assert (1 <= prod (map (Nat.max 1) ds)) by apply prod1_pos. nia. }
      rewrite (Ev k idx x y) in Ez by (auto; lia). rewrite (Ev k' idx x y) in Ez' by auto.
      apply Some_inj in Ez, Ez'. subst z z'.
      destruct (Hle _ x y Hx Hy) as (Hxy & Hf & Hd).
      assert (St : let s := if 1 <? len then fdiv o (fsub o y x) (fof o (len - 1)) else fzero o in number s /\ (0 <= B2R s)%R).
      { cbv zeta. destruct (Nat.ltb_spec 1 len).
        - apply step_number; [exact Hf| |exact Hd|lia|lia].
          destruct (sub_number ln_ exp_ pow_ y x Hd) as (Fy & _ & _).
          rewrite Bleb_correct in Hxy by assumption. destruct (Rle_bool_spec (B2R x) (B2R y)); [assumption|discriminate].
        - split; [reflexivity|]. change (B2R (fzero o)) with 0%R. lra. }
      cbv zeta in St. destruct St as [S1 S2].
      apply sample_order; auto. lia.
  Qed.

  Lemma sample_algebra x w k e1 e2 e3 e4 h2 h3 P z : (0 <= k)%R ->
    (Rabs e1 <= u32)%R -> (Rabs e2 <= u32)%R -> (Rabs e3 <= u32)%R -> (Rabs e4 <= u32)%R ->
    (Rabs h2 <= tiny)%R -> (Rabs h3 <= tiny)%R ->
    P = (w * ((1 + e1) * (1 + e2) * (1 + e3)) + h2 * k * (1 + e3) + h3)%R -> z = ((x + P) * (1 + e4))%R ->
    (Rabs (z - (x + w)) <= u32 * Rabs (x + w)
       + (1 + u32) * (((1 + u32) ^ 3 - 1) * Rabs w + (k * (1 + u32) + 1) * tiny))%R.
  Proof.
    intros Hk E1 E2 E3 E4 H2 H3 -> ->. pose proof u32_pos as U. pose proof u32_lt as V. pose proof tiny_pos as T.
    assert (M : forall e, (Rabs e <= u32)%R -> (0 <= 1 + e <= 1 + u32)%R).
    { intros e He. apply Rabs_le_inv in He. lra. }
    assert (M' : forall e, (Rabs e <= u32)%R -> (1 - u32 <= 1 + e)%R).
    { intros e He. apply Rabs_le_inv in He. lra. }
    set (q := ((1 + e1) * (1 + e2) * (1 + e3))%R).
    assert (Q1 : (q <= (1 + u32) ^ 3)%R).
    { unfold q. replace ((1 + u32) ^ 3)%R with ((1 + u32) * (1 + u32) * (1 + u32))%R by ring.
      pose proof (M _ E1). pose proof (M _ E2). pose proof (M _ E3).
      apply Rmult_le_compat; [apply Rmult_le_pos; lra|lra| |lra]. apply Rmult_le_compat; lra. }
    assert (Q2 : (2 - (1 + u32) ^ 3 <= q)%R).
    { assert (B : ((1 - u32) * (1 - u32) * (1 - u32) <= q)%R).
      { unfold q. pose proof (M' _ E1). pose proof (M' _ E2). pose proof (M' _ E3).
        apply Rmult_le_compat; [apply Rmult_le_pos; lra|lra| |lra]. apply Rmult_le_compat; lra. }
      apply Rle_trans with (2 := B).
      replace ((1 - u32) * (1 - u32) * (1 - u32))%R with (2 - (1 + u32) ^ 3 + 6 * (u32 * u32))%R by ring.
      assert (0 <= u32 * u32)%R by (apply Rmult_le_pos; lra). lra. }
    assert (Q : (Rabs (q - 1) <= (1 + u32) ^ 3 - 1)%R) by (apply Rabs_le; lra).
    replace ((x + (w * q + h2 * k * (1 + e3) + h3)) * (1 + e4) - (x + w))%R
      with ((x + w) * e4 + (1 + e4) * (w * (q - 1) + (h2 * k * (1 + e3) + h3)))%R by ring.
    apply Rle_trans with (1 := Rabs_triang _ _). apply Rplus_le_compat.
    - rewrite Rabs_mult, Rmult_comm. apply Rmult_le_compat_r; [apply Rabs_pos|exact E4].
    - rewrite Rabs_mult. apply Rmult_le_compat; [apply Rabs_pos|apply Rabs_pos| |].
      + rewrite Rabs_pos_eq by apply (M _ E4). apply (M _ E4).
      + apply Rle_trans with (1 := Rabs_triang _ _). apply Rplus_le_compat.
        * rewrite Rabs_mult, Rmult_comm. apply Rmult_le_compat_r; [apply Rabs_pos|exact Q].
        * apply Rle_trans with (1 := Rabs_triang _ _). rewrite !Rabs_mult, (Rabs_pos_eq k), (Rabs_pos_eq (1 + e3)) by (auto; apply (M _ E3)).
          assert (A : (Rabs h2 * k * (1 + e3) <= tiny * k * (1 + u32))%R).
          { pose proof (M _ E3). apply Rmult_le_compat; [apply Rmult_le_pos; [apply Rabs_pos|exact Hk]|lra| |lra].
            apply Rmult_le_compat_r; [exact Hk|exact H2]. }
          lra.
  Qed.

  Lemma c80_linspace_error c (s e : tensor b32) ds xs ys len :
    repr s ds xs -> repr e ds ys -> 0 < prod ds -> length ds < 5 -> supported (len :: ds) ->
    2 <= len -> (Z.of_nat len <= 16777217)%Z ->
    (forall i x y, nth_error xs i = Some x -> nth_error ys i = Some y -> Bleb x y = true) ->
    exists zs, linspace o c s e len = Ok (fresh (len :: ds) zs) /\
      forall idx x y k z, elem ds xs idx = Some x -> elem ds ys idx = Some y -> k < len ->
        elem (len :: ds) zs (k :: idx) = Some z -> number z ->
        let w := ((B2R y - B2R x) * INR k / INR (len - 1))%R in
        (Rabs (B2R z - (B2R x + w)) <= u32 * Rabs (B2R x + w)
           + (1 + u32) * (((1 + u32) ^ 3 - 1) * Rabs w + (INR k * (1 + u32) + 1) * tiny))%R.
  Proof.
    intros Hs He Hp Hl Hsup Hlen Hbz Hle.
    destruct (c43_linspace o c s e ds xs ys len) as (zs & E & El & Ev); auto.
    - left. nia.
    - exists zs. split; auto. intros idx x y k z Hx Hy Hk Ez Hz w.
      rewrite (Ev k idx x y Hk Hx Hy) in Ez. apply Some_inj in Ez.
      destruct (Nat.ltb_spec 1 len) as [_|]; [|lia]. subst z. set (n := len - 1) in *.
      destruct (add_error ln_ exp_ pow_ _ _ Hz) as (e4 & H4 & R4). destruct (add_number ln_ exp_ pow_ _ _ Hz) as (Fx & FP & _).
      destruct (mul_number ln_ exp_ pow_ _ _ FP) as (Fs & _ & RP).
      destruct (b32_of_Z_exact (Z.of_nat n) ltac:(lia)) as (Rn & _ & _).
      destruct (b32_of_Z_exact (Z.of_nat k) ltac:(lia)) as (Rk & _ & _).
      change (b32_of_Z (Z.of_nat n) 0) with (fof o n) in Rn. change (b32_of_Z (Z.of_nat k) 0) with (fof o k) in Rk.
      rewrite <- INR_IZR_INZ in Rn, Rk. assert (Pn : (0 < INR n)%R) by (apply lt_0_INR; lia).
      destruct (div_number ln_ exp_ pow_ (fsub o y x) (fof o n) ltac:(lra) Fs) as [FD RS]. rewrite Rn in RS.
      destruct (sub_number ln_ exp_ pow_ y x FD) as (Fy & _ & RD).
      destruct (sub_rel y x Fy Fx) as (e1 & H1 & E1). rewrite E1 in RD.
      destruct (rnd_error (B2R (fsub o y x) / INR n)) as (e2 & h2 & H2 & K2 & E2). rewrite E2, RD in RS.
      rewrite RS, Rk in RP. destruct (rnd_error (((B2R y - B2R x) * (1 + e1) / INR n * (1 + e2) + h2) * INR k)) as (e3 & h3 & H3 & K3 & E3).
      rewrite E3 in RP. rewrite R4.
      eapply (sample_algebra (B2R x) w (INR k) e1 e2 e3 e4 h2 h3); auto using pos_INR.
      rewrite RP. unfold w. field. lra.
  Qed.

  (** ** Products *)

  Lemma product_error x xs : (forall n, 0 < n <= length xs -> (/ 2 ^ 126 < Rabs (B2R (fold_left (fmul o) (firstn n xs) x)))%R) ->
    number (fold_left (fmul o) xs x) ->
    (Rabs (B2R (fold_left (fmul o) xs x) - B2R x * rprod (map B2R xs))
     <= ((1 + u32) ^ length xs - 1) * Rabs (B2R x * rprod (map B2R xs)))%R.
  Proof.
    induction xs as [|a xs IH] using rev_ind; intros Hn Hf.
    { cbn. rewrite Rmult_1_r, Rminus_diag_eq, Rabs_R0 by reflexivity. lra. }
    rewrite fold_left_app in *. cbn [fold_left] in *.
    destruct (mul_number ln_ exp_ pow_ _ _ Hf) as (Fv & Fa & R).
    assert (Hb : (/ 2 ^ 126 < Rabs (B2R (fmul o (fold_left (fmul o) xs x) a)))%R).
    { specialize (Hn (length (xs ++ [a]))). rewrite firstn_all, fold_left_app in Hn. apply Hn. rewrite app_length. cbn. lia. }
    specialize (IH ltac:(intros n Hl; specialize (Hn n); rewrite firstn_app in Hn; replace (n - length xs) with 0 in Hn by lia;
      cbn [firstn] in Hn; rewrite app_nil_r, app_length in Hn; apply Hn; lia) Fv).
    set (v := fold_left (fmul o) xs x) in *. rewrite map_app, rprod_app, app_length, Nat.add_1_r. cbn [map length].
    replace (rprod [B2R a]) with (B2R a) by (cbn; lra).
    set (p := (B2R x * rprod (map B2R xs))%R) in *.
    rewrite <- (Rmult_assoc (B2R x)). match goal with |- context [(B2R x * ?q)%R] => change (B2R x * q)%R with p end.
    assert (B126 : bpow radix2 (-126) = (/ 2 ^ 126)%R) by (change (-126)%Z with (- (126))%Z; rewrite bpow_inv by lia; reflexivity).
    destruct (rel_normal (B2R v * B2R a)) as (e & He & Ee).
    { apply Rnot_lt_le. intros L. rewrite R in Hb. apply (Rlt_irrefl (/ 2 ^ 126)). apply Rlt_le_trans with (1 := Hb).
      rewrite <- B126. apply abs_round_le_generic; [now apply fexp_correct|apply valid_rnd_N| |lra].
      apply generic_format_bpow. cbn. lia. }
    rewrite R, Ee. pose proof u32_pos as U. pose proof (gamma_nonneg (length xs)) as G. cbn [pow].
    set (g := ((1 + u32) ^ length xs - 1)%R) in *. replace ((1 + u32) ^ length xs)%R with (1 + g)%R by (unfold g; ring).
    clearbody p. replace (B2R v * B2R a * (1 + e) - p * B2R a)%R with (B2R a * ((B2R v - p) * (1 + e) + p * e))%R by ring.
    rewrite (Rabs_mult p), (Rabs_mult (B2R a)).
    replace (((1 + u32) * (1 + g) - 1) * (Rabs p * Rabs (B2R a)))%R with (Rabs (B2R a) * (((1 + u32) * (1 + g) - 1) * Rabs p))%R by ring.
    apply Rmult_le_compat_l; [apply Rabs_pos|].
    apply Rle_trans with (1 := Rabs_triang _ _). rewrite !Rabs_mult.
    assert (H1 : (Rabs (1 + e) <= 1 + u32)%R) by (apply Rle_trans with (1 := Rabs_triang 1 e); rewrite Rabs_R1; lra).
    assert (H2 : (Rabs (B2R v - p) * Rabs (1 + e) <= g * Rabs p * (1 + u32))%R)
      by (apply Rmult_le_compat; auto using Rabs_pos).
    assert (H3 : (Rabs p * Rabs e <= Rabs p * u32)%R) by (apply Rmult_le_compat_l; [apply Rabs_pos|exact He]).
    lra.
  Qed.

  Lemma c80_product c (t : tensor b32) ds x xs r :
    repr t ds (x :: xs) -> reduce_product c (total2 (fmul o)) t = Ok (fresh [] [r]) -> number r ->
    (forall n, 0 < n <= length xs -> (/ 2 ^ 126 < Rabs (B2R (fold_left (fmul o) (firstn n xs) x)))%R) ->
    (Rabs (B2R r - rprod (map B2R (x :: xs)))
     <= ((1 + u32) ^ length xs - 1) * Rabs (rprod (map B2R (x :: xs))))%R.
  Proof.
    intros H Hs Hr Hn. unfold reduce_product in Hs.
    rewrite lift_total2, (c29_reduce _ _ _ _ _ _ _ H), foldM_pure2 in Hs. cbn [bind] in Hs.
    assert (Er : r = fold_left (fmul o) xs x).
    { assert (Hs1 : fresh [] [fold_left (fmul o) xs x] = fresh [] [r]) by congruence.
      apply (f_equal (@tdata b32)) in Hs1. cbn [tdata fresh] in Hs1. congruence. }
    subst r. change (rprod (map B2R (x :: xs))) with (B2R x * rprod (map B2R xs))%R. now apply product_error.
  Qed.

  (** ** Norms *)

  Lemma squares_dot xs : dot o (length xs) (nth_error xs) (nth_error xs) = Some (fold_left (hypot_update o) xs (fzero o)).
  Proof.
    induction xs as [|a xs IH] using rev_ind; [reflexivity|].
    rewrite app_length, Nat.add_1_r, fold_left_app. cbn [length fold_left dot].
    rewrite (dot_ext o (length xs) (nth_error (xs ++ [a])) (nth_error (xs ++ [a])) (nth_error xs) (nth_error xs)), IH
      by (intros p Hp; now apply nth_error_app1).
    rewrite nth_error_app2, Nat.sub_diag by lia. reflexivity.
  Qed.

  Lemma map_nth_seq {A B} (f : A -> B) (d : A) (l : list A) : map (fun p => f (nth p l d)) (seq 0 (length l)) = map f l.
  Proof.
    induction l as [|a l IH]; [reflexivity|]. cbn [length seq map nth]. f_equal. rewrite <- seq_shift, map_map. exact IH.
  Qed.

  Lemma sqrt_diff a b g h : (0 <= a)%R -> (0 <= b)%R -> (0 <= g)%R -> (0 <= h)%R ->
    (Rabs (a - b) <= g * b + h)%R -> (Rabs (sqrt a - sqrt b) <= g * sqrt b + sqrt h)%R.
  Proof.
    intros Ha Hb Hg Hh H. apply Rabs_le_inv in H.
    pose proof (sqrt_pos a) as Sa. pose proof (sqrt_pos b) as Sb. pose proof (sqrt_pos h) as Sh.
    pose proof (sqrt_sqrt a Ha) as Qa. pose proof (sqrt_sqrt b Hb) as Qb. pose proof (sqrt_sqrt h Hh) as Qh.
    set (A := sqrt a) in *. set (B := sqrt b) in *. set (K := sqrt h) in *.
    assert (GB : (0 <= g * B)%R) by now apply Rmult_le_pos.
    apply Rabs_le. split.
    - destruct (Rle_or_lt 1 g) as [G|G].
      { assert (1 * B <= g * B)%R by (apply Rmult_le_compat_r; lra). lra. }
      assert (N : (B * (1 - g) <= A + K)%R); [|lra].
      apply Rsqr_incr_0_var; [|lra]. unfold Rsqr.
      assert (P1 : (0 <= A * K)%R) by now apply Rmult_le_pos.
      assert (P2 : (B * (1 - g) * (B * (1 - g)) <= b * (1 - g))%R).
      { replace (B * (1 - g) * (B * (1 - g)))%R with (b * (1 - g) * (1 - g))%R by (rewrite <- Qb; ring).
        rewrite <- (Rmult_1_r (b * (1 - g))) at 2. apply Rmult_le_compat_l; [apply Rmult_le_pos; lra|lra]. }
      lra.
    - assert (N : (A <= B * (1 + g) + K)%R); [|lra].
      apply Rsqr_incr_0_var; [|assert (0 <= B * (1 + g))%R by (apply Rmult_le_pos; lra); lra]. unfold Rsqr.
      assert (P1 : (0 <= B * (1 + g) * K)%R) by (apply Rmult_le_pos; [apply Rmult_le_pos; lra|lra]).
      assert (P2 : (b * (1 + g) <= B * (1 + g) * (B * (1 + g)))%R).
      { replace (B * (1 + g) * (B * (1 + g)))%R with (b * (1 + g) * (1 + g))%R by (rewrite <- Qb; ring).
        rewrite <- (Rmult_1_r (b * (1 + g))) at 1. apply Rmult_le_compat_l; [apply Rmult_le_pos; lra|lra]. }
      lra.
  Qed.

  Lemma sqrt_number (s : b32) : number (fsqrt o s) ->
    number s /\ (0 <= B2R s)%R /\ exists e, (Rabs e <= u32)%R /\ B2R (fsqrt o s) = (sqrt (B2R s) * (1 + e))%R.
  Proof.
    unfold number. cbn [fsqrt b32_ops]. intros H.
    destruct (Bsqrt_correct 24 128 b32_prec b32_emax mode_NE s) as (R & F & _). rewrite H in F. cbn [round_mode] in R.
    destruct s as [sg|sg| |[] m e B]; try discriminate.
    - split; [reflexivity|]. split; [cbn; lra|]. exists 0%R. split; [rewrite Rabs_R0; apply Rlt_le, u32_pos|].
      rewrite R. cbn [B2R]. rewrite sqrt_0, Rmult_0_l. apply rnd_fmt, fmt_0.
    - set (s := B754_finite false m e B : b32) in *. assert (P : (0 < B2R s)%R) by (apply F2R_gt_0; cbn; lia).
      split; [reflexivity|]. split; [lra|]. rewrite R. apply rel_normal.
      rewrite Rabs_pos_eq by apply sqrt_pos.
      pose proof (abs_B2R_ge_emin 24 128 s eq_refl) as L. rewrite Rabs_pos_eq in L by lra.
      change (SpecFloat.emin 24 128) with (-149)%Z in L.
      apply Rle_trans with (sqrt (bpow radix2 (-252))).
      + change (-252)%Z with (-126 + -126)%Z. rewrite bpow_plus, sqrt_square by apply bpow_ge_0. apply Rle_refl.
      + apply sqrt_le_1_alt. apply Rle_trans with (2 := L). apply bpow_le. lia.
  Qed.

  Lemma c80_hypot c (t : tensor b32) ds xs r :
    repr t ds xs -> reduce_hypot o c t = Ok (fresh [] [r]) -> number r ->
    (Rabs (B2R r - sqrt (rsum (map (fun x => B2R x * B2R x)%R xs)))
     <= ((1 + u32) ^ S (length xs) - 1) * sqrt (rsum (map (fun x => B2R x * B2R x)%R xs))
        + (1 + u32) * sqrt (INR (length xs) * (1 + u32) ^ length xs * tiny))%R.
  Proof.
    intros H Hs Hr. unfold reduce_hypot in Hs. rewrite (c29_fold_pure _ _ _ _ _ _ _ H) in Hs. cbn [bind] in Hs.
    set (s := fold_left (hypot_update o) xs (fzero o)) in *.
    assert (Er : r = fsqrt o s).
    { assert (Hs1 : fresh [] [fsqrt o s] = fresh [] [r]) by congruence.
      apply (f_equal (@tdata b32)) in Hs1. cbn [tdata fresh] in Hs1. congruence. }
    subst r. destruct (sqrt_number s Hr) as (Fs & Ps & e & He & ->).
    pose proof (dot_error ln_ exp_ pow_ (fun p => nth p xs (fzero o)) (fun p => nth p xs (fzero o)) (nth_error xs) (nth_error xs)
      (length xs) s) as D.
    specialize (D ltac:(intros p Hp; split; now apply nth_error_nth') (squares_dot xs) Fs).
    set (b := rsum (map (fun x : b32 => B2R x * B2R x)%R xs)) in *.
    cbv beta in D. match type of D with (Rabs (_ - ?S) <= _ * ?T + _)%R => assert (E1 : S = b); [|assert (E2 : T = b)] end.
    { unfold b. f_equal. exact (map_nth_seq (fun x : b32 => B2R x * B2R x)%R (fzero o) xs). }
    { unfold b. f_equal. etransitivity; [exact (map_nth_seq (fun x : b32 => Rabs (B2R x * B2R x))%R (fzero o) xs)|].
      apply map_ext. intros x. apply Rabs_pos_eq, Rle_0_sqr. }
    rewrite E1, E2 in D. clear E1 E2.
    assert (Pb : (0 <= b)%R).
    { unfold b. clear. induction xs as [|x xs IH]; cbn; [lra|]. pose proof (Rle_0_sqr (B2R x)) as Q. unfold Rsqr in Q. unfold rsum in IH. lra. }
    pose proof u32_pos as U. pose proof tiny_pos as T. pose proof (gamma_nonneg (length xs)) as G.
    cbn [pow]. set (g := ((1 + u32) ^ length xs - 1)%R) in *.
    assert (Eg : ((1 + u32) ^ length xs = 1 + g)%R) by (unfold g; ring). rewrite Eg in *.
    set (h := (INR (length xs) * (1 + g) * tiny)%R) in *.
    assert (Ph : (0 <= h)%R).
    { unfold h. apply Rmult_le_pos; [apply Rmult_le_pos; [apply pos_INR|lra]|lra]. }
    pose proof (sqrt_diff (B2R s) b g h Ps Pb G Ph D) as Q.
    set (A := sqrt (B2R s)) in *. set (B := sqrt b) in *. set (K := sqrt h) in *.
    assert (PB : (0 <= B)%R) by apply sqrt_pos.
    change (Rabs (A * (1 + e) - B) <= ((1 + u32) * (1 + g) - 1) * B + (1 + u32) * K)%R.
    clearbody A B K. replace (A * (1 + e) - B)%R with ((A - B) * (1 + e) + B * e)%R by ring.
    apply Rle_trans with (1 := Rabs_triang _ _). rewrite !Rabs_mult, (Rabs_pos_eq B) by exact PB.
    assert (H1 : (Rabs (1 + e) <= 1 + u32)%R) by (apply Rle_trans with (1 := Rabs_triang 1 e); rewrite Rabs_R1; lra).
    assert (H2 : (Rabs (A - B) * Rabs (1 + e) <= (g * B + K) * (1 + u32))%R) by (apply Rmult_le_compat; auto using Rabs_pos).
    assert (H3 : (B * Rabs e <= B * u32)%R) by (apply Rmult_le_compat_l; auto).
    lra.
  Qed.

  Lemma c80_linspace_end_refuted :
    (exists zs z, linspace o dev (fresh [] [fzero o]) (fresh [] [b32_of_Z 16777215 0]) 26 = Ok (fresh [26] zs) /\
       nth_error zs 25 = Some z /\ B2SF z = B2SF (b32_of_Z 16777216 0)) /\
    (exists zs, linspace o dev (fresh [] [fzero o]) (fresh [] [fmax_value o]) 26 = Ok (fresh [26] zs) /\
       nth_error zs 25 = Some (B754_infinity false)).
  Proof.
    assert (G : forall b, Bleb (b32_of_Z 0 0) b = true ->
      exists zs, linspace o dev (fresh [] [fzero o]) (fresh [] [b]) 26 = Ok (fresh [26] zs) /\
        nth_error zs 25 = Some (fadd o (fzero o) (fmul o (fdiv o (fsub o b (fzero o)) (fof o 25)) (fof o 25)))).
    { intros b Hb. destruct (c43_linspace o dev (fresh [] [fzero o]) (fresh [] [b]) [] [fzero o] [b] 26) as (zs & E & _ & Ev).
      - apply repr_fresh; [split; cbn; lia|reflexivity].
      - apply repr_fresh; [split; cbn; lia|reflexivity].
      - cbn; lia.
      - cbn; lia.
      - split; cbn; lia.
      - left. cbn. lia.
      - intros [|[|i]] x y Hx Hy; cbn [nth_error] in Hx, Hy; try discriminate. apply Some_inj in Hx, Hy. subst. exact Hb.
      - exists zs. split; [exact E|]. apply (Ev 25 [] (fzero o) b); [lia|reflexivity|reflexivity]. }
    split.
    - destruct (G (b32_of_Z 16777215 0) eq_refl) as (zs & E & N). exists zs. eexists. split; [exact E|]. split; [exact N|].
      vm_compute. reflexivity.
    - destruct (G (b32_of_Z 16777215 104) eq_refl) as (zs & E & N). exists zs. split; [exact E|]. rewrite N. vm_compute. reflexivity.
  Qed.
End B32.
