(** * Properties of histogram and histogram2d (C53, C54): proofs *)
From Coq Require Import Reals Lra.
From Coq Require Import ZifyBool ZifyNat ZifyN.
From Flocq Require Import IEEE754.BinarySingleNaN.
From Verif Require Import Base ShapeModel TensorModel AxisModel MapModel NumModel FloatModel InitModel MathModel
  Spec FloatSpec BaseFacts ShapeFacts ShapeFacts2 CoordFacts TensorFacts TensorFacts2 MapFacts SafeFacts RealFacts
  ArrayFacts InitFacts MathFacts StatsFacts TensorSpec TensorProofs MapSpec MapProofs InitSpec InitProofs MathSpec MathProofs.

Ltac Zify.zify_post_hook ::= Z.div_mod_to_equations.

(** ** C53 *)

Lemma supported_1_inv n : supported [n] -> (Z.of_nat n < two32)%Z.
Proof. intros H. apply (supported_in [n]); [auto|now left]. Qed.

Lemma Forall2_map_r {A B} (P : A -> B -> Prop) (f : A -> B) l : (forall x, In x l -> P x (f x)) -> Forall2 P l (map f l).
Proof.
  induction l; intros H; cbn; constructor; [apply H; now left|]. apply IHl. intros. apply H. now right.
Qed.

Lemma Forall2_weaken {A B} (P Q : A -> B -> Prop) l l' :
  (forall x y, P x y -> Q x y) -> Forall2 P l l' -> Forall2 Q l l'.
Proof. induction 2; constructor; auto. Qed.

Lemma c53_histogram_any {F} (o : fops F) c (t : tensor F) x xs n :
  repr t [length (x :: xs)] (x :: xs) -> 0 < n -> supported [n + 1] ->
  let mn := fold_left (fmin o) xs x in
  let mx := fold_left (fmax o) xs x in
  fle o mn mx = true ->
  let delta := if feq o mn mx then fepsilon o else fdiv o (fsub o mx mn) (fof o n) in
  let bs := map (fun x => Nat.min (ffloor o (fdiv o (fsub o x mn) delta)) (n - 1)) (x :: xs) in
  exists edges,
    histogram o c t (Some n) =
      Ok (fresh [n] (map (fun k => times (occurrences k bs) (fun v => fadd o v (fone o)) (fzero o)) (seq 0 n)),
          fresh [n + 1] edges) /\
    length edges = n + 1 /\
    forall k, k < n + 1 ->
      nth_error edges k = Some (fadd o mn (fmul o (fdiv o (fsub o mx mn) (fof o n)) (fof o k))).
Proof.
  intros H Hn Hs mn mx Hle delta bs. pose proof (supported_1_inv _ Hs) as Hn32.
  assert (Hmn : reduce_min o c t = Ok (fresh [] [mn])).
  { unfold reduce_min. now rewrite (c29_reduce _ _ _ _ _ _ _ H), foldM_pure2. }
  assert (Hmx : reduce_max o c t = Ok (fresh [] [mx])).
  { unfold reduce_max. now rewrite (c29_reduce _ _ _ _ _ _ _ H), foldM_pure2. }
  assert (Rn : repr (fresh [] [mn]) [] [mn]) by (apply repr_fresh; [apply supported_nil|reflexivity]).
  assert (Rx : repr (fresh [] [mx]) [] [mx]) by (apply repr_fresh; [apply supported_nil|reflexivity]).
  destruct (c43_linspace o c (fresh [] [mn]) (fresh [] [mx]) [] [mn] [mx] (n + 1) Rn Rx) as (zs & El & Hl & Hz).
  { cbn. lia. }
  { cbn. lia. }
  { exact Hs. }
  { left. cbn [prod]. lia. }
  { intros [|[|i]] a b Ha Hb; cbn in Ha, Hb; try discriminate. injection Ha as <-. injection Hb as <-. exact Hle. }
  exists zs. cbn [prod] in Hl. split; [|split; [lia|]].
  - unfold histogram. rewrite (repr_shape _ _ _ H). change (rank (canon [length (x :: xs)]) =? 1) with true.
    cbn [bind]. unfold assert_. cbn [hist_bins]. replace (0 <? n) with true by lia. cbn [bind assert_].
    rewrite Hmn. cbn [bind]. rewrite (c16_index1 _ _ _ 0 Rn). cbn [nth_error bind].
    rewrite Hmx. cbn [bind]. rewrite (c16_index1 _ _ _ 0 Rx). cbn [nth_error bind].
    rewrite uadd_ok by (unfold two32, two64 in *; lia). cbn [bind]. rewrite !of_value_fresh. cbn [bind].
    rewrite El. cbn [bind]. rewrite (repr_as_slice _ _ _ H). cbn [bind].
    rewrite hist_loop_ok by (unfold two32, two64 in *; lia). cbn [bind].
    rewrite of_vec_canon by (rewrite map_length, seq_length; apply supported1; unfold two32 in *; lia).
    cbn [bind]. rewrite map_length, seq_length. unfold hist_delta. fold delta.
    assert (Eb : map (hist_bin o mn delta n) (x :: xs) = bs); [|now rewrite Eb].
    apply map_ext. intros y. unfold hist_bin.
    destruct (Nat.ltb_spec (ffloor o (fdiv o (fsub o y mn) delta)) n); lia.
  - intros k Hk. specialize (Hz k [] mn mx Hk eq_refl eq_refl). unfold elem in Hz. cbn [ravel prod] in Hz.
    rewrite Nat.mul_1_r, Nat.add_0_r in Hz. rewrite Hz. replace (1 <? n + 1) with true by lia.
    now replace (n + 1 - 1) with n by lia.
Qed.

Lemma c53_default_bins {F} (o : fops F) c (t : tensor F) : histogram o c t None = histogram o c t (Some 10).
Proof. reflexivity. Qed.

Lemma c53_histogram c (t : tensor R) xs n :
  repr t [length xs] xs -> xs <> [] -> 0 < n -> supported [n + 1] ->
  exists counts edges bs,
    histogram R_ops c t (Some n) = Ok (fresh [n] (map INR counts), fresh [n + 1] edges) /\
    length counts = n /\ length edges = n + 1 /\ list_sum counts = length xs /\
    (forall k m, nth_error counts k = Some m -> m = count_occ Nat.eq_dec bs k) /\
    Forall2 (fun x b => b < n /\ exists lo hi,
      nth_error edges b = Some lo /\ nth_error edges (b + 1) = Some hi /\
      (lo <= x <= hi)%R /\ (b + 1 < n -> (lo < hi)%R -> (x < hi)%R)) xs bs /\
    (forall m, least m xs -> nth_error edges 0 = Some m) /\
    (forall m, greatest m xs -> nth_error edges n = Some m) /\
    (forall k lo hi, nth_error edges k = Some lo -> nth_error edges (k + 1) = Some hi ->
       ((exists x y, In x xs /\ In y xs /\ x <> y) -> lo < hi)%R /\ (lo <= hi)%R).
Proof.
  intros H Hx Hn Hs. destruct xs as [|x xs]; [congruence|]. clear Hx.
  pose proof (supported_1_inv _ Hs) as Hn32.
  destruct (fold_min_least x xs) as [Min1 Min2]. destruct (fold_max_greatest x xs) as [Max1 Max2].
  set (mn := fold_left (fmin R_ops) xs x) in *. set (mx := fold_left (fmax R_ops) xs x) in *.
  assert (Hle : (mn <= mx)%R) by now apply Min2.
  destruct (c53_histogram_any R_ops c t x xs n H Hn Hs) as (edges & E & Le & He); [now apply R_fle|].
  fold mn mx in E, He.
  set (delta := if feq R_ops mn mx then _ else _) in E.
  set (bs := map (fun x => Nat.min _ (n - 1)) (x :: xs)) in E.
  assert (Hi : (0 < INR n)%R) by now apply lt_0_INR.
  set (d := ((mx - mn) / INR n)%R).
  assert (Hd : (0 <= d)%R).
  { unfold d, Rdiv. apply Rmult_le_pos; [lra|]. left. now apply Rinv_0_lt_compat. }
  assert (Hnd : (INR n * d = mx - mn)%R) by (unfold d; field; lra).
  assert (He' : forall k, k < n + 1 -> nth_error edges k = Some (mn + INR k * d)%R).
  { intros k Hk. rewrite (He k Hk). cbn [fadd fmul fdiv fsub fof R_ops]. fold d. f_equal. ring. }
  assert (Hbs : Forall2 (fun x b => b < n /\ (mn + INR b * d <= x)%R /\ (x <= mn + INR (b + 1) * d)%R /\
      (b + 1 < n -> (0 < d)%R -> (x < mn + INR (b + 1) * d)%R)) (x :: xs) bs).
  { unfold bs. apply Forall2_map_r. intros y Hy. split; [lia|].
    pose proof (Min2 y Hy) as Hy1. pose proof (Max2 y Hy) as Hy2.
    destruct (Req_dec mn mx) as [Em|Em].
    - assert (Hd0 : d = 0%R) by (unfold d; rewrite Em; unfold Rdiv; rewrite Rminus_diag_eq by auto; ring).
      rewrite Hd0, !Rmult_0_r. split; [lra|]. split; [lra|]. intros; lra.
    - assert (Ed : delta = d).
      { unfold delta. destruct (feq R_ops mn mx) eqn:Eq; [apply R_feq in Eq; congruence|reflexivity]. }
      destruct (hist_bin_real mn mx n y Hn) as (A1 & A2 & A3); [unfold two32, two64 in *; lia|lra|lra|].
      rewrite Ed. fold d in A1, A2, A3.
      replace (Nat.min (ffloor R_ops (fdiv R_ops (fsub R_ops y mn) d)) (n - 1)) with (hist_bin R_ops mn d n y)
        by (unfold hist_bin; destruct (Nat.ltb_spec (ffloor R_ops (fdiv R_ops (fsub R_ops y mn) d)) n); lia).
      split; [exact A1|]. split; [exact A2|]. intros; auto. }
  exists (map (fun k => occurrences k bs) (seq 0 n)), edges, bs.
  split; [|split; [|split; [|split; [|split; [|split; [|split; [|split]]]]]]].
  - rewrite E. rewrite map_map. do 2 f_equal. unfold fresh. rewrite !map_length. f_equal.
    apply map_ext. intros k. apply times_real.
  - now rewrite map_length, seq_length.
  - exact Le.
  - rewrite occurrences_sum; [unfold bs; now rewrite map_length|].
    apply Forall_forall. intros b Hb. unfold bs in Hb. apply in_map_iff in Hb. destruct Hb as (y & <- & _). lia.
  - intros k m Hk. assert (Hk' : k < n).
    { assert (A : nth_error (map (fun k => occurrences k bs) (seq 0 n)) k <> None) by congruence.
      apply nth_error_Some in A. now rewrite map_length, seq_length in A. }
    rewrite nth_error_map_seq in Hk by auto. now injection Hk as <-.
  - eapply Forall2_weaken; [|exact Hbs]. cbv beta. intros y b (B1 & B2 & B3 & B4). split; auto.
    exists (mn + INR b * d)%R, (mn + INR (b + 1) * d)%R.
    rewrite !He' by lia. repeat split; auto. intros Hb Hlt. apply B4; auto.
    rewrite plus_INR in Hlt. change (INR 1) with 1%R in Hlt. nra.
  - intros m [M1 M2]. rewrite He' by lia. f_equal. cbn [INR]. rewrite Rmult_0_l, Rplus_0_r.
    apply Rle_antisym; auto.
  - intros m [M1 M2]. rewrite He' by lia. f_equal. rewrite Hnd.
    replace (mn + (mx - mn))%R with mx by ring. apply Rle_antisym; auto.
  - intros k lo hi Hlo Hhi. assert (Hk : k + 1 < n + 1).
    { assert (A : nth_error edges (k + 1) <> None) by congruence. apply nth_error_Some in A. lia. }
    rewrite He' in Hlo, Hhi by lia. injection Hlo as <-. injection Hhi as <-.
    rewrite plus_INR. change (INR 1) with 1%R. split; [|nra].
    intros (y & z & Hy & Hz & Hne). assert (mn < mx)%R.
    { pose proof (Min2 y Hy). pose proof (Min2 z Hz). pose proof (Max2 y Hy). pose proof (Max2 z Hz).
      destruct (Rtotal_order y z) as [?|[?|?]]; lra. }
    assert (0 < d)%R by (apply Rdiv_lt_0_compat; lra). nra.
Qed.

(** In binary32 arithmetic, for finite samples: every sample is counted once, and the
    counts are exact up to 2^24, where they stop. *)
Lemma b32_extremes ln_ exp_ pow_ (x : b32) xs :
  let o := b32_ops ln_ exp_ pow_ in
  is_finite x = true -> Forall (fun y => is_finite y = true) xs ->
  let mn := fold_left (fmin o) xs x in let mx := fold_left (fmax o) xs x in
  is_finite mn = true /\ is_finite mx = true /\ (B2R mn <= B2R x <= B2R mx)%R /\
  Forall (fun y => (B2R mn <= B2R y <= B2R mx)%R) xs.
Proof.
  cbv zeta. set (o := b32_ops ln_ exp_ pow_).
  assert (Heq : forall y : b32, is_finite y = true -> feq o y y = true).
  { intros y Hy. unfold o. cbn [feq b32_ops]. rewrite Beqb_correct by auto. now apply Raux.Req_bool_true. }
  assert (Hmin : forall a b, is_finite a = true -> is_finite b = true ->
    is_finite (fmin o a b) = true /\ B2R (fmin o a b) = Rmin (B2R a) (B2R b)).
  { intros a b Ha Hb. unfold fmin. rewrite Heq by auto.
    unfold o. rewrite b32_lt_finite by auto. unfold Rmin.
    destruct (Raux.Rlt_bool_spec (B2R b) (B2R a)); destruct (Rle_dec (B2R a) (B2R b)); split; auto; lra. }
  assert (Hmax : forall a b, is_finite a = true -> is_finite b = true ->
    is_finite (fmax o a b) = true /\ B2R (fmax o a b) = Rmax (B2R a) (B2R b)).
  { intros a b Ha Hb. unfold fmax. rewrite Heq by auto.
    unfold o. rewrite b32_lt_finite by auto. unfold Rmax.
    destruct (Raux.Rlt_bool_spec (B2R a) (B2R b)); destruct (Rle_dec (B2R a) (B2R b)); split; auto; lra. }
  intros Hx HF.
  assert (G : forall a b, is_finite a = true -> is_finite b = true ->
    is_finite (fold_left (fmin o) xs a) = true /\ is_finite (fold_left (fmax o) xs b) = true /\
    (B2R (fold_left (fmin o) xs a) <= B2R a)%R /\ (B2R b <= B2R (fold_left (fmax o) xs b))%R /\
    Forall (fun y => (B2R (fold_left (fmin o) xs a) <= B2R y <= B2R (fold_left (fmax o) xs b))%R) xs).
  { induction HF as [|y xs Hy HF IH]; intros a b Ha Hb.
    - cbn [fold_left]. repeat split; auto; apply Rle_refl.
    - cbn [fold_left]. destruct (Hmin a y Ha Hy) as [F1 E1]. destruct (Hmax b y Hb Hy) as [F2 E2].
      destruct (IH _ _ F1 F2) as (G1 & G2 & G3 & G4 & G5). rewrite E1 in G3. rewrite E2 in G4.
      pose proof (Rmin_l (B2R a) (B2R y)). pose proof (Rmin_r (B2R a) (B2R y)).
      pose proof (Rmax_l (B2R b) (B2R y)). pose proof (Rmax_r (B2R b) (B2R y)).
      repeat split; auto; try lra. constructor; auto. lra. }
  destruct (G x x Hx Hx) as (G1 & G2 & G3 & G4 & G5). auto.
Qed.

Lemma c53_histogram_b32 ln_ exp_ pow_ c (t : tensor b32) xs n :
  repr t [length xs] xs -> xs <> [] -> Forall (fun y => is_finite y = true) xs -> 0 < n -> supported [n + 1] ->
  exists bs edges,
    histogram (b32_ops ln_ exp_ pow_) c t (Some n) =
      Ok (fresh [n] (map (fun k => b32_of_Z (Z.min (Z.of_nat (count_occ Nat.eq_dec bs k)) (2 ^ 24)) 0) (seq 0 n)),
          fresh [n + 1] edges) /\
    length edges = n + 1 /\ length bs = length xs /\ Forall (fun b => b < n) bs.
Proof.
  intros H Hx HF Hn Hs. destruct xs as [|x xs]; [congruence|].
  inversion HF as [|? ? Fx Fxs]; subst.
  destruct (b32_extremes ln_ exp_ pow_ x xs Fx Fxs) as (F1 & F2 & Hb & _).
  destruct (c53_histogram_any (b32_ops ln_ exp_ pow_) c t x xs n H Hn Hs) as (edges & E & Le & _).
  { cbn [fle b32_ops]. rewrite Bleb_correct by auto. apply Raux.Rle_bool_true. lra. }
  eexists _, edges. split.
  - rewrite E. do 2 f_equal. unfold fresh. rewrite !map_length. f_equal.
    apply map_ext. intros k. rewrite (times_b32 ln_ exp_ pow_). reflexivity.
  - split; [exact Le|]. split; [now rewrite map_length|]. apply Forall_forall. intros b Hb'.
    apply in_map_iff in Hb'. destruct Hb' as (y & <- & _). lia.
Qed.

Lemma c53_edges_b32_refuted ln_ exp_ pow_ :
  let o := b32_ops ln_ exp_ pow_ in
  let x := b32_of_Z 15099494 (-24) in
  exists counts edges n9 e9,
    histogram o dev (fresh [3] [b32_of_Z 0 0; x; b32_of_Z 1 0]) (Some 10) = Ok (fresh [10] counts, fresh [11] edges) /\
    nth_error counts 9 = Some n9 /\ Beqb n9 (b32_of_Z 2 0) = true /\
    nth_error edges 9 = Some e9 /\ Bltb x e9 = true.
Proof.
  cbv zeta.
  destruct (c53_histogram_any (b32_ops ln_ exp_ pow_) dev
    (fresh [3] [b32_of_Z 0 0; b32_of_Z 15099494 (-24); b32_of_Z 1 0]) (b32_of_Z 0 0)
    [b32_of_Z 15099494 (-24); b32_of_Z 1 0] 10) as (edges & E & _ & He).
  - apply repr_fresh; [split; cbn; lia|reflexivity].
  - lia.
  - split; cbn; lia.
  - vm_compute. reflexivity.
  - eexists _, edges, _, _. split; [exact E|]. split; [reflexivity|]. split; [vm_compute; reflexivity|].
    split; [apply He; lia|]. vm_compute. reflexivity.
Qed.

Lemma c53_empty {F} (o : fops F) c (t : tensor F) n : repr t [0] [] -> histogram o c t n = Panic.
Proof.
  intros H. unfold histogram. rewrite (repr_shape _ _ _ H). cbn [bind].
  change (rank (canon [0]) =? 1) with true. cbn [assert_ bind]. unfold reduce_min.
  rewrite (c29_reduce_empty _ _ _ _ _ H). destruct (hist_bins n) eqn:E; try reflexivity.
  destruct n as [n|]; [|discriminate]. unfold hist_bins, assert_ in E. destruct (0 <? n); discriminate.
Qed.

Lemma c53_rank {F} (o : fops F) c (t : tensor F) ds xs n :
  repr t ds xs -> length ds <> 1 -> histogram o c t n = Panic.
Proof.
  intros H Hd. unfold histogram. rewrite (repr_shape _ _ _ H). change (rank (canon ds)) with (length ds).
  replace (length ds =? 1) with false by lia. reflexivity.
Qed.

Lemma c53_no_bins {F} (o : fops F) c (t : tensor F) : histogram o c t (Some 0) = Panic.
Proof. unfold histogram. unfold assert_. destruct (rank (tshape t) =? 1); reflexivity. Qed.

(** ** C54 *)

Lemma c54_refuted {F} (o : fops F) c (t : tensor F) ds xs n :
  repr t ds xs -> histogram2d o c t n = Panic.
Proof.
  intros H. unfold histogram2d. rewrite (repr_shape _ _ _ H).
  unfold assert_. destruct (rank (canon ds) =? 2) eqn:Er; [|reflexivity]. cbn [bind].
  apply Nat.eqb_eq in Er. change (rank (canon ds)) with (length ds) in Er.
  destruct ds as [|d1 [|d2 [|]]]; try discriminate.
  rewrite cols_canon by (auto; apply H). cbn [bind].
  match goal with |- context [if ?b then _ else _] => destruct b end; [|reflexivity]. cbn [bind].
  destruct n as [[|n]|]; [reflexivity| |]; cbn [hist_bins assert_ Nat.ltb Nat.leb bind].
  all: destruct xs as [|x xs];
    [unfold reduce_min; now rewrite (c29_reduce_empty _ _ _ _ _ H)|].
  all: unfold reduce_min, reduce_max; rewrite !(c29_reduce _ _ _ _ _ _ _ H), !foldM_pure2; cbn [bind].
  all: rewrite !(c16_index1 _ [] [_]) by (apply repr_fresh; [apply supported_nil|reflexivity]); reflexivity.
Qed.
