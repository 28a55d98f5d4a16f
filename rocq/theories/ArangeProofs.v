(** * arange in binary32 (C44) *)
From Coq Require Import Reals Lra Psatz.
From Flocq Require Import Core.Zaux Core.Raux Core.Defs Core.Generic_fmt Core.FLT Core.Float_prop Core.Round_NE
  Relative Plus_error IEEE754.BinarySingleNaN.
From Verif Require Import Base ShapeModel TensorModel FromModel FloatModel InitModel Spec FloatSpec InitSpec BaseFacts RealFacts RoundSpec RoundFacts
  InitFacts InitProofs.

Section B32.
  Context (ln_ exp_ : b32 -> b32) (pow_ : b32 -> b32 -> b32).
  Notation o := (b32_ops ln_ exp_ pow_).

  Lemma iterate_S {A} (f : A -> A) k x : iterate f (S k) x = f (iterate f k x).
  Proof. revert x. induction k as [|k IH]; intros x; [reflexivity|]. cbn [iterate] in *. apply IH. Qed.

  (** Numbers are multiples of 2^-149. *)
  Lemma b32_grid (x : b32) : exists z, B2R x = (IZR z * bpow radix2 (-149))%R.
  Proof.
    pose proof (generic_format_B2R 24 128 x) as H.
    change (SpecFloat.fexp 24 128) with (FLT_exp (-149) 24) in H. apply FLT_format_generic in H; [|easy].
    destruct H as [f Hf _ He]. exists (Fnum f * 2 ^ (Fexp f + 149))%Z. rewrite Hf. unfold F2R.
    rewrite mult_IZR. change (2 ^ (Fexp f + 149))%Z with (radix_val radix2 ^ (Fexp f + 149))%Z. rewrite IZR_Zpower by (cbn in He; lia). rewrite Rmult_assoc, <- bpow_plus. f_equal. f_equal. lia.
  Qed.

  Lemma up (s e step : b32) : number s -> number e -> number step -> (0 < B2R step)%R -> flt o s e = true ->
    (number (fadd o s step) /\ B2R (fadd o s step) = rnd (B2R s + B2R step)%R /\ (B2R s <= B2R (fadd o s step))%R) \/
    flt o (fadd o s step) e = false.
  Proof.
    intros Fs Fe Fp Hp Hlt. unfold number in *.
    pose proof (Bplus_correct 24 128 b32_prec b32_emax mode_NE s step Fs Fp) as C. change (round_mode mode_NE) with ZnearestE in C.
    destruct (Rlt_bool_spec (Rabs (rnd (B2R s + B2R step))) (bpow radix2 128)) as [L|L].
    - destruct C as (C1 & C2 & _). left. cbn [fadd b32_ops]. rewrite C1, C2.
      split; [reflexivity|]. split; [reflexivity|].
      apply round_ge_generic; [apply (fexp_correct 24 128); reflexivity|typeclasses eauto|apply generic_format_B2R|lra].
    - right. destruct C as (C1 & C2). cbn [fadd flt b32_ops].
      assert (Sp : Bsign step = false).
      { destruct step as [b|b| |b m q H]; cbn in Fp, Hp |- *; try discriminate; try lra. destruct b; [|reflexivity].
        exfalso. apply Rlt_not_le in Hp. apply Hp. apply Rlt_le. now apply Float_prop.F2R_lt_0. }
      rewrite C2, Sp in C1. cbn in C1.
      destruct (@Bplus 24 128 b32_prec b32_emax mode_NE s step) as [b|b| |b m q H]; cbn in C1; try discriminate.
      injection C1 as ->. destruct e; cbn in *; try discriminate; reflexivity.
  Qed.

  Lemma stuck (s step : b32) : number s -> number step -> (0 < B2R step)%R -> number (fadd o s step) ->
    B2R (fadd o s step) = B2R s -> fadd o s step = s.
  Proof.
    intros Fs Fp Hp Fn E. destruct (add_number ln_ exp_ pow_ s step Fn) as (_ & _ & V).
    assert (N0 : B2R s <> 0%R).
    { intros Z. rewrite E, Z, Rplus_0_l in V. rewrite round_generic in V; [lra|typeclasses eauto|apply generic_format_B2R]. }
    apply B2R_inj; [| |exact E].
    - destruct (fadd o s step) as [b|b| |b m q H]; cbn in *; try discriminate; try (exfalso; apply N0; congruence); reflexivity.
    - destruct s as [b|b| |b m q H]; cbn in *; try discriminate; try (exfalso; apply N0; congruence); reflexivity.
  Qed.

  Lemma up_cases (e step : b32) : number e -> number step -> (0 < B2R step)%R ->
    forall s, number s ->
    ((exists k, flt o (iterate (fun x => fadd o x step) k s) e = true /\
        iterate (fun x => fadd o x step) (S k) s = iterate (fun x => fadd o x step) k s /\
        number (iterate (fun x => fadd o x step) k s) /\ (B2R s <= B2R (iterate (fun x => fadd o x step) k s))%R) /\
     (forall fuel vec, arange_up o fuel s e step vec = None)) \/
    (exists N, (forall fuel vec, N <= fuel ->
        arange_up o fuel s e step vec = Some (vec ++ map (fun k => iterate (fun x => fadd o x step) k s) (seq 0 N))) /\
      (forall k, k < N -> number (iterate (fun x => fadd o x step) k s) /\ flt o (iterate (fun x => fadd o x step) k s) e = true) /\
      (forall k, S k < N -> (B2R (iterate (fun x => fadd o x step) k s) < B2R (iterate (fun x => fadd o x step) (S k) s))%R) /\
        flt o (iterate (fun x => fadd o x step) N s) e = false).
  Proof.
    intros Fe Fp Hp. destruct (b32_grid e) as (ze & Ee).
    assert (G : forall n s zs, number s -> B2R s = (IZR zs * bpow radix2 (-149))%R -> (ze - zs <= Z.of_nat n)%Z ->
      ((exists k, flt o (iterate (fun x => fadd o x step) k s) e = true /\
          iterate (fun x => fadd o x step) (S k) s = iterate (fun x => fadd o x step) k s /\
        number (iterate (fun x => fadd o x step) k s) /\ (B2R s <= B2R (iterate (fun x => fadd o x step) k s))%R) /\
       (forall fuel vec, arange_up o fuel s e step vec = None)) \/
      (exists N, (forall fuel vec, N <= fuel ->
          arange_up o fuel s e step vec = Some (vec ++ map (fun k => iterate (fun x => fadd o x step) k s) (seq 0 N))) /\
        (forall k, k < N -> number (iterate (fun x => fadd o x step) k s) /\ flt o (iterate (fun x => fadd o x step) k s) e = true) /\
        (forall k, S k < N -> (B2R (iterate (fun x => fadd o x step) k s) < B2R (iterate (fun x => fadd o x step) (S k) s))%R) /\
        flt o (iterate (fun x => fadd o x step) N s) e = false)).
    2:{ intros s Fs. destruct (b32_grid s) as (zs & Es). apply (G (Z.to_nat (ze - zs)) s zs); [exact Fs|exact Es|lia]. }
    pose proof (bpow_gt_0 radix2 (-149)) as Bp.
    induction n as [|n IH]; intros s zs Fs Es Hz; (destruct (flt o s e) eqn:Hlt;
      [|right; exists 0; split; [intros fuel vec _; destruct fuel; cbn [arange_up]; rewrite Hlt; cbn; now rewrite app_nil_r|split; [intros; lia|split; [intros; lia|exact Hlt]]]]).
    - exfalso. rewrite b32_lt_finite in Hlt by assumption. destruct (Rlt_bool_spec (B2R s) (B2R e)) as [L|L]; [|discriminate].
      rewrite Es, Ee in L. apply Rmult_lt_reg_r in L; [|exact Bp]. apply lt_IZR in L. lia.
    - destruct (up s e step Fs Fe Fp Hp Hlt) as [(Fn & V & Hle)|Hend].
      + destruct (Req_dec (B2R (fadd o s step)) (B2R s)) as [Eq|Ne].
        * left. pose proof (stuck s step Fs Fp Hp Fn Eq) as St. split.
          -- exists 0. repeat split; [exact Hlt|exact St|exact Fs|apply Rle_refl].
          -- intros fuel vec. apply (arange_up_stuck ln_ exp_ pow_ s e step vec fuel Hlt St).
        * destruct (b32_grid (fadd o s step)) as (zn & En).
          assert (Hzn : (zs < zn)%Z).
          { assert (L : (B2R s < B2R (fadd o s step))%R) by lra. rewrite Es, En in L. apply Rmult_lt_reg_r in L; [|exact Bp].
            now apply lt_IZR in L. }
          destruct (IH (fadd o s step) zn Fn En ltac:(lia)) as [[(k & K1 & K2 & K3 & K4) St]|(N & A1 & A2 & A3 & A4)].
          -- left. split.
             ++ exists (S k). repeat split; [exact K1|exact K2|exact K3|cbn [iterate]; lra].
             ++ intros fuel vec. destruct fuel as [|fuel]; cbn [arange_up]; rewrite Hlt; [reflexivity|apply St].
          -- right. exists (S N). split; [|split; [|split; [|exact A4]]].
             ++ intros fuel vec Hf. destruct fuel as [|fuel]; [lia|]. cbn [arange_up]. rewrite Hlt, A1 by lia.
                f_equal. rewrite <- app_assoc. f_equal. cbn [seq map app iterate]. f_equal. rewrite <- seq_shift, map_map. reflexivity.
             ++ intros [|k] Hk; [split; assumption|]. apply (A2 k). lia.
             ++ intros [|k] Hk; [cbn [iterate]; lra|]. apply (A3 k). lia.
      + right. exists 1. split; [|split; [|split; [|exact Hend]]].
        * intros fuel vec Hf. destruct fuel as [|fuel]; [lia|]. cbn [arange_up]. rewrite Hlt.
          destruct fuel; cbn [arange_up]; rewrite Hend; reflexivity.
        * intros [|k] Hk; [split; assumption|lia].
        * intros k Hk. lia.
  Qed.

  Lemma step_error (s step : b32) k :
    (forall j, j <= k -> number (iterate (fun x => fadd o x step) j s)) -> (0 < B2R step)%R ->
    (Rabs (B2R (iterate (fun x => fadd o x step) k s) - (B2R s + INR k * B2R step))
     <= ((1 + u32) ^ k - 1) * (Rabs (B2R s) + INR k * B2R step))%R.
  Proof.
    intros Hn Hp. induction k as [|k IH].
    - cbn [iterate INR pow]. rewrite Rmult_0_l, !Rplus_0_r, Rminus_diag_eq, Rabs_R0 by reflexivity. lra.
    - specialize (IH ltac:(intros; apply Hn; lia)). pose proof (Hn (S k) ltac:(lia)) as N. rewrite iterate_S in N |- *.
      destruct (add_error ln_ exp_ pow_ _ _ N) as (e & He & E). rewrite E.
      pose proof (sum_step _ _ _ (B2R step) _ e IH) as ST.
      rewrite S_INR. replace (Rabs (B2R step)) with (B2R step) in ST by (rewrite Rabs_pos_eq; lra).
      assert (P1 : (Rabs (B2R s + INR k * B2R step) <= Rabs (B2R s) + INR k * B2R step)%R).
      { apply Rle_trans with (1 := Rabs_triang _ _). rewrite (Rabs_pos_eq (INR k * B2R step)); [lra|].
        apply Rmult_le_pos; [apply pos_INR|lra]. }
      specialize (ST P1 (gamma_nonneg k) He).
      replace (B2R s + (INR k + 1) * B2R step)%R with (B2R s + INR k * B2R step + B2R step)%R by ring.
      replace (Rabs (B2R s) + (INR k + 1) * B2R step)%R with (Rabs (B2R s) + INR k * B2R step + B2R step)%R by ring.
      eapply Rle_trans; [exact ST|]. apply Req_le. cbn [pow]. ring.
  Qed.

  Lemma c44_arange_b32 c (start end_ step : b32) :
    number start -> number end_ -> number step -> (0 < B2R step)%R -> (B2R start <= B2R end_)%R ->
    let x k := iterate (fun v => fadd o v step) k start in
    ((exists k, number (x k) /\ (B2R start <= B2R (x k) < B2R end_)%R /\ x (S k) = x k) /\
     forall fuel, arange o c fuel start end_ step = None) \/
    (exists N,
      (supported [N] -> forall fuel, N <= fuel -> arange o c fuel start end_ step = Some (Ok (fresh [N] (map x (seq 0 N))))) /\
      (forall k, S k < N -> (B2R (x k) < B2R (x (S k)))%R) /\
      (forall k, k < N -> number (x k) /\ (B2R (x k) < B2R end_)%R /\
        (Rabs (B2R (x k) - (B2R start + INR k * B2R step))
         <= ((1 + u32) ^ k - 1) * (Rabs (B2R start) + INR k * B2R step))%R) /\
      (number (x N) -> (B2R end_ <= B2R (x N))%R)).
  Proof.
    intros Fs Fe Fp Hp Hle. cbv zeta.
    assert (H0 : feq o step (fzero o) = false).
    { cbn [feq fzero b32_ops]. rewrite Beqb_correct by (try exact Fp; reflexivity). apply Req_bool_false. cbn. intros Z. rewrite Z in Hp. lra. }
    assert (H1 : fle o start end_ = true).
    { cbn [fle b32_ops]. rewrite Bleb_correct by assumption. now apply Rle_bool_true. }
    assert (H2 : flt o (fzero o) step = true).
    { rewrite b32_lt_finite by (try exact Fp; reflexivity). apply Rlt_bool_true. exact Hp. }
    destruct (up_cases end_ step Fe Fp Hp start Fs) as [[(k & K1 & K2 & K3 & K4) Hnone]|(N & A1 & A2 & A3 & A4)].
    - left. split.
      + exists k. split; [exact K3|]. split; [|exact K2]. split; [exact K4|]. rewrite b32_lt_finite in K1 by assumption.
        destruct (Rlt_bool_spec (B2R (iterate (fun v => fadd o v step) k start)) (B2R end_)); [assumption|discriminate].
      + intros fuel. unfold arange. rewrite H0, H1, H2. cbn [andb]. now rewrite Hnone.
    - right. exists N. split; [|split; [exact A3|split]].
      + intros Hs fuel Hf. unfold arange. rewrite H0, H1, H2. cbn [andb]. rewrite A1 by assumption. cbn [option_map app].
        f_equal. rewrite of_vec_canon; rewrite map_length, seq_length; auto.
      + intros k Hk. destruct (A2 k Hk) as [Fk Lk]. split; [exact Fk|]. split.
        * rewrite b32_lt_finite in Lk by assumption. destruct (Rlt_bool_spec (B2R (iterate (fun v => fadd o v step) k start)) (B2R end_)); [assumption|discriminate].
        * apply step_error; [|exact Hp]. intros j Hj. apply (A2 j). lia.
      + intros FN. rewrite b32_lt_finite in A4 by assumption.
        destruct (Rlt_bool_spec (B2R (iterate (fun v => fadd o v step) N start)) (B2R end_)); [discriminate|assumption].
  Qed.

  Lemma c44_arange_b32_terminates c (start end_ step : b32) :
    number start -> number end_ -> number step -> (0 < B2R step)%R -> (B2R start <= B2R end_)%R ->
    (u32 * Rmax (Rabs (B2R start)) (Rabs (B2R end_)) < (1 - u32) * B2R step)%R ->
    exists N, supported [N] -> forall fuel, N <= fuel ->
      arange o c fuel start end_ step
      = Some (Ok (fresh [N] (map (fun k => iterate (fun v => fadd o v step) k start) (seq 0 N)))).
  Proof.
    intros Fs Fe Fp Hp Hle Hu. pose proof u32_pos as Up.
    destruct (c44_arange_b32 c start end_ step Fs Fe Fp Hp Hle) as [[(k & K1 & K2 & K3) _]|(N & A & _)]; [exfalso|exists N; exact A].
    rewrite iterate_S in K3. set (v := iterate (fun v => fadd o v step) k start) in *.
    assert (Nn : number (fadd o v step)) by (rewrite K3; exact K1).
    destruct (add_error ln_ exp_ pow_ v step Nn) as (e & He & E). rewrite K3 in E.
    assert (M : (Rabs (B2R v) <= Rmax (Rabs (B2R start)) (Rabs (B2R end_)))%R).
    { pose proof (Rmax_l (Rabs (B2R start)) (Rabs (B2R end_))) as M1. pose proof (Rmax_r (Rabs (B2R start)) (Rabs (B2R end_))) as M2.
      apply Rabs_le_inv in M1, M2. apply Rabs_le. lra. }
    apply (Rmult_le_compat_l u32) in M; [|lra].
    assert (S1 : (B2R step = - e * (B2R v + B2R step))%R) by lra.
    assert (S2 : (B2R step <= u32 * (Rabs (B2R v) + B2R step))%R).
    { rewrite <- (Rabs_pos_eq (B2R step)) at 1 by lra. rewrite S1 at 1. rewrite Rabs_mult, Rabs_Ropp.
      apply Rmult_le_compat; [apply Rabs_pos|apply Rabs_pos|exact He|]. apply Rle_trans with (1 := Rabs_triang _ _).
      rewrite (Rabs_pos_eq (B2R step)) by lra. lra. }
    lra.
  Qed.
End B32.

Lemma b32_of_Z_shift z e : (Z.abs z <= 2 ^ 24)%Z -> (-125 <= e <= 0)%Z -> B2R (b32_of_Z z e) = (IZR z * bpow radix2 e)%R.
Proof.
  intros Hz He. unfold b32_of_Z.
  pose proof (binary_normalize_correct 24 128 b32_prec b32_emax mode_NE z e false) as H. change (round_mode mode_NE) with ZnearestE in H.
  assert (G : generic_format radix2 (SpecFloat.fexp 24 128) (F2R (Float radix2 z e))).
  { destruct (Z.eq_dec z (2 ^ 24)) as [->|N1]; [|destruct (Z.eq_dec z (- 2 ^ 24)) as [->|N2]].
    - replace (F2R (Float radix2 (2 ^ 24) e)) with (bpow radix2 (24 + e)) by (unfold F2R; cbn [Fnum Fexp]; rewrite bpow_plus; reflexivity).
      apply generic_format_bpow. unfold SpecFloat.fexp, SpecFloat.emin. lia.
    - replace (F2R (Float radix2 (- 2 ^ 24) e)) with (- bpow radix2 (24 + e))%R
        by (unfold F2R; cbn [Fnum Fexp]; rewrite bpow_plus, opp_IZR; change (IZR (2 ^ 24)) with (bpow radix2 24); ring).
      apply generic_format_opp, generic_format_bpow. unfold SpecFloat.fexp, SpecFloat.emin. lia.
    - change (SpecFloat.fexp 24 128) with (FLT_exp (-149) 24). apply generic_format_FLT.
      exists (Float radix2 z e); [reflexivity|cbn; lia|cbn; lia]. }
  cbv zeta in H. rewrite round_generic in H by (try typeclasses eauto; exact G). rewrite Rlt_bool_true in H; [exact (proj1 H)|].
  unfold F2R. cbn [Fnum Fexp]. rewrite Rabs_mult, (Rabs_pos_eq (bpow radix2 e)) by apply bpow_ge_0.
  apply Rle_lt_trans with (bpow radix2 24 * bpow radix2 0)%R.
  - apply Rmult_le_compat; [apply Rabs_pos|apply bpow_ge_0| |apply bpow_le; lia]. rewrite <- abs_IZR. change (bpow radix2 24) with (IZR (2 ^ 24)). now apply IZR_le.
  - rewrite <- bpow_plus. apply bpow_lt. lia.
Qed.

Lemma c44_arange_count_refuted ln_ exp_ pow_ :
  let o := b32_ops ln_ exp_ pow_ in
  exists (end_ step : b32) t,
    arange o dev 20 (b32_of_Z 0 0) end_ step = Some (Ok t) /\ tsize t = 10 /\ (B2R end_ < 9 * B2R step)%R /\
    forall x, In x (tdata t) -> Bltb x end_ = true.
Proof.
  cbv zeta. exists (b32_of_Z 3 0), (b32_of_Z 11184811 (-25)).
  assert (V : match arange (b32_ops ln_ exp_ pow_) dev 20 (b32_of_Z 0 0) (b32_of_Z 3 0) (b32_of_Z 11184811 (-25)) with
      | Some (Ok t) => (tsize t =? 10) && forallb (fun x => Bltb x (b32_of_Z 3 0)) (tdata t) | _ => false end = true)
    by (vm_compute; reflexivity).
  destruct (arange (b32_ops ln_ exp_ pow_) dev 20 (b32_of_Z 0 0) (b32_of_Z 3 0) (b32_of_Z 11184811 (-25))) as [[t| |]|];
    try discriminate.
  exists t. split; [reflexivity|]. apply andb_prop in V. destruct V as [V1 V2]. rewrite forallb_forall in V2.
  split; [now apply Nat.eqb_eq in V1|]. split; [|exact V2]. rewrite !b32_of_Z_shift by lia. cbn. lra.
Qed.
