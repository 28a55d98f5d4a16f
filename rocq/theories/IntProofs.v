(** * C84: integers in binary32, proofs *)
From Coq Require Import Reals Lra.
From Flocq Require Import Core.Zaux Core.Raux Core.Generic_fmt IEEE754.BinarySingleNaN.
From Coq Require Import ZifyBool ZifyNat ZifyN.
From Verif Require Import Base ShapeModel TensorModel AxisModel MapModel NumModel FloatModel InitModel MathModel LinalgModel
  LinalgSpec KernelModel KernelSpec
  Spec FloatSpec RoundSpec BaseFacts ShapeFacts TensorFacts MapFacts RealFacts RoundFacts MathFacts MapSpec MapProofs
  MathSpec MathProofs RoundProofs HistProofs RangeProofs AxisRoundProofs KernelProofs KernelRound GridProofs.

Section B32.
  Context (ln_ exp_ : b32 -> b32) (pow_ : b32 -> b32 -> b32).
  Notation o := (b32_ops ln_ exp_ pow_).
  Notation ints := (Forall2 (fun (x : b32) z => number x /\ B2R x = IZR z)).

  Lemma fold_add_int l zs : ints l zs -> forall v a, is_int v a ->
    (forall n, (Z.abs (a + fold_right Z.add 0%Z (firstn n zs)) <= 16777216)%Z) ->
    is_int (fold_left (fadd o) l v) (a + fold_right Z.add 0%Z zs).
  Proof.
    induction 1 as [|x z l zs Hx H IH]; intros v a Hv Hb; [cbn; now rewrite Z.add_0_r|].
    cbn [fold_left fold_right]. rewrite Z.add_assoc. apply IH.
    - apply add_int; [exact Hv|exact Hx|]. specialize (Hb 1). cbn [firstn fold_right] in Hb. now rewrite Z.add_0_r in Hb.
    - intros n. specialize (Hb (S n)). cbn [firstn fold_right] in Hb. now rewrite Z.add_assoc in Hb.
  Qed.
  Lemma fold_mul_int l zs : ints l zs -> forall v a, is_int v a ->
    (forall n, (Z.abs (a * fold_right Z.mul 1%Z (firstn n zs)) <= 16777216)%Z) ->
    is_int (fold_left (fmul o) l v) (a * fold_right Z.mul 1%Z zs).
  Proof.
    induction 1 as [|x z l zs Hx H IH]; intros v a Hv Hb; [cbn; now rewrite Z.mul_1_r|].
    cbn [fold_left fold_right]. rewrite Z.mul_assoc. apply IH.
    - apply mul_int; [exact Hv|exact Hx|]. specialize (Hb 1). cbn [firstn fold_right] in Hb. now rewrite Z.mul_1_r in Hb.
    - intros n. specialize (Hb (S n)). cbn [firstn fold_right] in Hb. now rewrite Z.mul_assoc in Hb.
  Qed.

  Lemma sum_int x l zs : ints (x :: l) zs ->
    (forall n, (Z.abs (fold_right Z.add 0%Z (firstn n zs)) <= 16777216)%Z) ->
    is_int (fold_left (fadd o) l x) (fold_right Z.add 0%Z zs).
  Proof.
    intros H Hb. inversion H as [|x' z l' zs' Hx Hl]; subst. cbn [fold_right]. apply fold_add_int; [exact Hl|exact Hx|].
    intros n. exact (Hb (S n)).
  Qed.
  Lemma product_int x l zs : ints (x :: l) zs ->
    (forall n, (Z.abs (fold_right Z.mul 1%Z (firstn n zs)) <= 16777216)%Z) ->
    is_int (fold_left (fmul o) l x) (fold_right Z.mul 1%Z zs).
  Proof.
    intros H Hb. inversion H as [|x' z l' zs' Hx Hl]; subst. cbn [fold_right]. apply fold_mul_int; [exact Hl|exact Hx|].
    intros n. exact (Hb (S n)).
  Qed.

  Lemma ints_rsum l zs : ints l zs -> rsum (map B2R l) = IZR (fold_right Z.add 0%Z zs).
  Proof.
    induction 1 as [|x z l zs [_ Hx] H IH]; [reflexivity|]. cbn [map fold_right]. rewrite plus_IZR, <- IH, <- Hx. reflexivity.
  Qed.

  Lemma mean_int l zs : ints l zs -> l <> [] -> (Z.of_nat (length l) <= 16777216)%Z ->
    (forall n, (Z.abs (fold_right Z.add 0%Z (firstn n zs)) <= 16777216)%Z) ->
    let v := fdiv o (fold_left (fadd o) l (fzero o)) (fof o (Nat.max (length l) 1)) in
    number v /\ B2R v = rnd (mean (map B2R l)).
  Proof.
    intros H Hne Hlen Hb. cbv zeta.
    assert (Hpos : 0 < length l) by (destruct l; [congruence|cbn; lia]).
    replace (Nat.max (length l) 1) with (length l) by lia.
    destruct (fold_add_int l zs H (fzero o) 0%Z) as [S1 S2]; [split; reflexivity|exact Hb|]. rewrite Z.add_0_l in S2.
    destruct (fof_int ln_ exp_ pow_ (length l) Hlen) as [N1 N2].
    set (s := fold_left (fadd o) l (fzero o)) in *. set (d := fof o (length l)) in *.
    assert (Ln : (1 <= IZR (Z.of_nat (length l)))%R) by (apply IZR_le; lia).
    assert (E : (B2R s / B2R d)%R = mean (map B2R l)).
    { unfold mean. rewrite map_length, (ints_rsum _ _ H), S2, N2, <- INR_IZR_INZ. reflexivity. }
    pose proof (Bdiv_correct 24 128 b32_prec b32_emax mode_NE s d ltac:(rewrite N2; lra)) as C. cbn [round_mode] in C.
    rewrite E in C. rewrite Rlt_bool_true in C.
    - destruct C as (C1 & C2 & _). cbn [fdiv b32_ops]. unfold number in *. rewrite C2, S1. split; [reflexivity|exact C1].
    - apply Rle_lt_trans with (IZR 16777216).
      + assert (F : fmt (IZR 16777216)) by (apply b32_int_format; lia).
        assert (M : (Rabs (mean (map B2R l)) <= IZR 16777216)%R).
        { rewrite <- E, S2, N2. unfold Rdiv. rewrite Rabs_mult, Rabs_inv, (Rabs_pos_eq (IZR (Z.of_nat _))) by lra.
          specialize (Hb (length zs)). rewrite firstn_all in Hb. apply IZR_le in Hb. rewrite abs_IZR in Hb.
          rewrite <- (Rmult_1_r (IZR 16777216)). apply Rmult_le_compat; [apply Rabs_pos|apply Rlt_le, Rinv_0_lt_compat; lra|exact Hb|].
          rewrite <- Rinv_1. apply Rinv_le_contravar; lra. }
        apply Rabs_le_inv in M. apply Rabs_le. split; [|apply rnd_le_fmt; [exact F|lra]].
        apply rnd_ge_fmt; [apply fmt_opp; exact F|lra].
      + change (IZR 16777216) with (bpow radix2 24). apply bpow_lt. lia.
  Qed.

  Lemma c84_sum c (t : tensor b32) ds xs zs :
    repr t ds xs -> xs <> [] -> ints xs zs ->
    (forall n, (Z.abs (fold_right Z.add 0%Z (firstn n zs)) <= 16777216)%Z) ->
    exists r, reduce_sum c (total2 (fadd o)) t = Ok (fresh [] [r]) /\ number r /\ B2R r = IZR (fold_right Z.add 0%Z zs).
  Proof.
    intros H Hne Hz Hb. destruct xs as [|x xs]; [congruence|].
    rewrite (c51_sum_any c _ t ds x xs H), lift_total2, foldM_pure2. cbn [bind].
    eexists. split; [reflexivity|]. exact (sum_int x xs zs Hz Hb).
  Qed.

  Lemma c84_product c (t : tensor b32) ds xs zs :
    repr t ds xs -> xs <> [] -> ints xs zs ->
    (forall n, (Z.abs (fold_right Z.mul 1%Z (firstn n zs)) <= 16777216)%Z) ->
    exists r, reduce_product c (total2 (fmul o)) t = Ok (fresh [] [r]) /\ number r /\ B2R r = IZR (fold_right Z.mul 1%Z zs).
  Proof.
    intros H Hne Hz Hb. destruct xs as [|x xs]; [congruence|].
    change (@reduce_product b32) with (@reduce_sum b32).
    rewrite (c51_sum_any c _ t ds x xs H), lift_total2, foldM_pure2. cbn [bind].
    eexists. split; [reflexivity|]. exact (product_int x xs zs Hz Hb).
  Qed.

  Lemma c84_mean c (t : tensor b32) ds xs zs :
    repr t ds xs -> xs <> [] -> ints xs zs -> (Z.of_nat (length xs) <= 16777216)%Z ->
    (forall n, (Z.abs (fold_right Z.add 0%Z (firstn n zs)) <= 16777216)%Z) ->
    exists r, reduce_mean o c t = Ok (fresh [] [r]) /\ number r /\ B2R r = rnd (mean (map B2R xs)).
  Proof.
    intros H Hne Hz Hl Hb. rewrite (c50_mean_any o c t ds xs H). eexists. split; [reflexivity|].
    exact (mean_int xs zs Hz Hne Hl Hb).
  Qed.

  Lemma c84_sum_axis c (t : tensor b32) a d1 d d2 xs :
    repr t (d1 ++ d :: d2) xs -> names_axis a (length d1) (length (d1 ++ d :: d2)) ->
    Forall (fun d => 0 < d) (d1 ++ d2) -> 0 < d ->
    exists ls rs, axis_lines d1 d d2 xs ls /\
      reduce_sum_axis c (total2 (fadd o)) t (Some a) = Ok (fresh (d1 ++ d2) rs) /\
      Forall2 (fun r l => forall zs, ints l zs ->
        (forall n, (Z.abs (fold_right Z.add 0%Z (firstn n zs)) <= 16777216)%Z) ->
        number r /\ B2R r = IZR (fold_right Z.add 0%Z zs)) rs ls.
  Proof.
    intros H Ha Hp Hd.
    destruct (reduce_axis_total c t a d1 d d2 xs (fadd o)
      (fun l => match l with [] => fone o | x :: l => fold_left (fadd o) l x end) H Ha Hp Hd) as (ls & Hls & E); auto.
    eexists ls, _. split; [auto|].
    split; [unfold reduce_sum_axis; rewrite lift_total2, E; reflexivity|].
    apply Forall2_map_l. intros l Hl zs Hz Hb.
    pose proof (axis_lines_length _ _ _ _ _ _ (repr_len _ _ _ H) Hls Hl) as El.
    destruct l as [|x l]; [cbn in El; lia|]. exact (sum_int x l zs Hz Hb).
  Qed.

  Lemma c84_product_axis c (t : tensor b32) a d1 d d2 xs :
    repr t (d1 ++ d :: d2) xs -> names_axis a (length d1) (length (d1 ++ d :: d2)) ->
    Forall (fun d => 0 < d) (d1 ++ d2) -> 0 < d ->
    exists ls rs, axis_lines d1 d d2 xs ls /\
      reduce_product_axis c (total2 (fmul o)) t (Some a) = Ok (fresh (d1 ++ d2) rs) /\
      Forall2 (fun r l => forall zs, ints l zs ->
        (forall n, (Z.abs (fold_right Z.mul 1%Z (firstn n zs)) <= 16777216)%Z) ->
        number r /\ B2R r = IZR (fold_right Z.mul 1%Z zs)) rs ls.
  Proof.
    intros H Ha Hp Hd.
    destruct (reduce_axis_total c t a d1 d d2 xs (fmul o)
      (fun l => match l with [] => fone o | x :: l => fold_left (fmul o) l x end) H Ha Hp Hd) as (ls & Hls & E); auto.
    eexists ls, _. split; [auto|].
    split; [unfold reduce_product_axis; rewrite lift_total2, E; reflexivity|].
    apply Forall2_map_l. intros l Hl zs Hz Hb.
    pose proof (axis_lines_length _ _ _ _ _ _ (repr_len _ _ _ H) Hls Hl) as El.
    destruct l as [|x l]; [cbn in El; lia|]. exact (product_int x l zs Hz Hb).
  Qed.

  Lemma c84_mean_axis c (t : tensor b32) a d1 d d2 xs :
    repr t (d1 ++ d :: d2) xs -> names_axis a (length d1) (length (d1 ++ d :: d2)) ->
    Forall (fun d => 0 < d) (d1 ++ d2) -> 0 < d -> (Z.of_nat d <= 16777216)%Z ->
    exists ls rs, axis_lines d1 d d2 xs ls /\
      reduce_mean_axis o c t (Some a) = Ok (fresh (d1 ++ d2) rs) /\
      Forall2 (fun r l => forall zs, ints l zs ->
        (forall n, (Z.abs (fold_right Z.add 0%Z (firstn n zs)) <= 16777216)%Z) ->
        number r /\ B2R r = rnd (mean (map B2R l))) rs ls.
  Proof.
    intros H Ha Hp Hd Hs. pose proof (axis_len_small _ _ _ _ _ H) as Hsm.
    destruct (fold_axis_total c t a d1 d d2 xs (0, fzero o) (mean_result o) (mean_update o c)
      (fun l => (0 + length l, fold_left (fadd o) l (fzero o))) H Ha Hp) as (ls & Hls & E).
    { intros l Hl. apply mean_fold. lia. }
    eexists ls, _. split; [auto|]. split; [unfold reduce_mean_axis; rewrite E; reflexivity|].
    apply Forall2_map_l. intros l Hl zs Hz Hb.
    pose proof (axis_lines_length _ _ _ _ _ _ (repr_len _ _ _ H) Hls Hl) as El.
    apply (mean_int l zs Hz); [destruct l; [cbn in El; lia|discriminate]|lia|exact Hb].
  Qed.
  Lemma ints_elem ds l zs idx x : ints l zs -> elem ds l idx = Some x -> exists z, elem ds zs idx = Some z /\ In z zs /\ is_int x z.
  Proof.
    intros H E. unfold elem in *. generalize dependent (ravel ds idx). intros k E.
    revert k E. induction H as [|x' z l zs Hx H IH]; intros [|k] E; try discriminate.
    - injection E as <-. exists z. split; [reflexivity|]. split; [now left|exact Hx].
    - destruct (IH k E) as (z' & E' & I & V). exists z'. split; [exact E'|]. split; [now right|exact V].
  Qed.

  Lemma c84_elementwise c (ta tb : tensor b32) da db dl xs ys zs ws op f :
    repr ta da xs -> repr tb db ys -> xs <> [] -> ys <> [] ->
    (suffix db da /\ dl = da) \/ (suffix da db /\ dl = db) ->
    (op = fadd o /\ f = Z.add) \/ (op = fsub o /\ f = Z.sub) \/ (op = fmul o /\ f = Z.mul) ->
    ints xs zs -> ints ys ws -> (forall a b, In a zs -> In b ws -> (Z.abs (f a b) <= 16777216)%Z) ->
    exists vs, binop_tt c ta tb (total2 op) = Ok (fresh dl vs) /\ length vs = prod dl /\
      forall idx, in_shape dl idx -> exists a b v,
        elem da zs (skipn (length dl - length da) idx) = Some a /\ elem db ws (skipn (length dl - length db) idx) = Some b /\
        elem dl vs idx = Some v /\ number v /\ B2R v = IZR (f a b).
  Proof.
    intros Ha Hb Hx Hy Hd Hop Hz Hw Hf.
    destruct (c28_tensor_tensor_total c ta tb da db dl xs ys (total2 op) Ha Hb Hx Hy Hd) as [r E]; [unfold total2; eauto|].
    destruct (c28_tensor_tensor c ta tb da db dl xs ys (total2 op) r Ha Hb Hx Hy Hd E) as (vs & -> & L & H).
    exists vs. split; [exact E|]. split; [exact L|]. intros idx Hi. destruct (H idx Hi) as (x & y & v & Ex & Ey & Eo & Ev).
    destruct (ints_elem _ _ _ _ _ Hz Ex) as (a & Ea & Ia & Va). destruct (ints_elem _ _ _ _ _ Hw Ey) as (b & Eb & Ib & Vb).
    exists a, b, v. split; [exact Ea|]. split; [exact Eb|]. split; [exact Ev|]. specialize (Hf a b Ia Ib).
    unfold total2 in Eo. injection Eo as <-.
    destruct Hop as [[-> ->]|[[-> ->]|[-> ->]]]; [now apply add_int|now apply sub_int|now apply mul_int].
  Qed.
End B32.

(** ** Products by any kernel *)

Lemma dot_int (A B : nat -> b32) (P Q : nat -> Z) k z :
  sum_of (map (fun p => (A p, B p)) (seq 0 k)) z ->
  (forall p, p < k -> is_int (A p) (P p)) -> (forall p, p < k -> is_int (B p) (Q p)) ->
  (fold_right Z.add 0 (map (fun p => Z.abs (P p * Q p)) (seq 0 k)) <= 2 ^ 24)%Z ->
  number z /\ B2R z = IZR (fold_right Z.add 0%Z (map (fun p => P p * Q p)%Z (seq 0 k))).
Proof.
  intros Hz VA VB Hsum.
  assert (ER : forall (h : nat -> Z) (r : nat -> R) l, (forall p, In p l -> r p = IZR (h p)) ->
    rsum (map r l) = IZR (fold_right Z.add 0%Z (map h l))).
  { intros h r l. induction l as [|p l IH]; intros He; [reflexivity|]. cbn [map fold_right]. rewrite plus_IZR, <- IH, <- He; [reflexivity|now left|].
    intros. apply He. now right. }
  destruct (c82_exact _ _ Hz) as [N V].
  - intros x y I. apply in_map_iff in I. destruct I as (p & Ep & Hp). apply in_seq in Hp. injection Ep as <- <-.
    destruct (VA p ltac:(lia)) as [N1 V1]. destruct (VB p ltac:(lia)) as [N2 V2].
    split; [exact N1|]. split; [exact N2|]. split; eauto.
  - rewrite map_map, (ER (fun p => Z.abs (P p * Q p))).
    + replace (2 ^ 24)%R with (IZR (2 ^ 24)) by (cbn; lra). now apply IZR_le.
    + intros p Hp. apply in_seq in Hp. destruct (VA p ltac:(lia)) as [_ ->]. destruct (VB p ltac:(lia)) as [_ ->].
      now rewrite abs_IZR, mult_IZR.
  - split; [exact N|]. rewrite V, map_map. apply ER. intros p Hp. apply in_seq in Hp.
    destruct (VA p ltac:(lia)) as [_ ->]. destruct (VB p ltac:(lia)) as [_ ->]. now rewrite mult_IZR.
Qed.

Definition pick (ds : list nat) (xs : list b32) (idx : list nat) : b32 :=
  match elem ds xs idx with Some x => x | None => b32_of_Z 0 0 end.
Lemma pick_elem ds xs idx z : (exists x, elem ds xs idx = Some x /\ number x /\ B2R x = IZR z) ->
  elem ds xs idx = Some (pick ds xs idx) /\ is_int (pick ds xs idx) z.
Proof. intros (x & E & N & V). unfold pick. rewrite E. split; [reflexivity|]. now split. Qed.

Section Kernel.
  Context (ln_ exp_ : b32 -> b32) (pow_ : b32 -> b32 -> b32).
  Notation o := (b32_ops ln_ exp_ pow_).

  Lemma c84_transpose_a K c (a b : tensor b32) ds m k n xs ys (P Q : list nat -> nat -> nat -> Z) :
    computes o sum_of K ->
    repr a (ds ++ [k; m]) xs -> repr b (ds ++ [k; n]) ys ->
    supported (ds ++ [n; m]) -> can_alloc c (prod (ds ++ [n; m])) ->
    (forall idx p i, in_shape ds idx -> p < k -> i < m ->
       exists x, elem (ds ++ [k; m]) xs (idx ++ [p; i]) = Some x /\ number x /\ B2R x = IZR (P idx p i)) ->
    (forall idx p j, in_shape ds idx -> p < k -> j < n ->
       exists y, elem (ds ++ [k; n]) ys (idx ++ [p; j]) = Some y /\ number y /\ B2R y = IZR (Q idx p j)) ->
    exists zs, matmul_by o K c a b TransposeA = Ok (fresh (ds ++ [n; m]) zs) /\
      forall idx i j, in_shape ds idx -> i < m -> j < n ->
        (fold_right Z.add 0 (map (fun p => Z.abs (P idx p i * Q idx p j)) (seq 0 k)) <= 2 ^ 24)%Z ->
        exists z, elem (ds ++ [m; n]) zs (idx ++ [i; j]) = Some z /\ number z /\
          B2R z = IZR (fold_right Z.add 0%Z (map (fun p => P idx p i * Q idx p j)%Z (seq 0 k))).
  Proof.
    intros HK Ha Hb Hs Hc HP HQ. destruct (c82_matmul_transpose_a _ _ K c a b ds m k n xs ys HK Ha Hb Hs Hc) as (zs & E & _ & H).
    exists zs. split; [exact E|]. intros idx i j Hi Him Hjn Hsum.
    destruct (H (fun idx p i => pick (ds ++ [k; m]) xs (idx ++ [p; i])) (fun idx p j => pick (ds ++ [k; n]) ys (idx ++ [p; j])))
      with (idx := idx) (i := i) (j := j) as (z & Ez & Hz); auto.
    { intros. now apply (pick_elem _ _ _ _ (HP idx0 p i0 ltac:(auto) ltac:(auto) ltac:(auto))). }
    { intros. now apply (pick_elem _ _ _ _ (HQ idx0 p j0 ltac:(auto) ltac:(auto) ltac:(auto))). }
    exists z. split; [exact Ez|]. apply (dot_int _ _ (fun p => P idx p i) (fun p => Q idx p j) k z Hz); auto.
    - intros p Hp. now apply pick_elem, HP.
    - intros p Hp. now apply pick_elem, HQ.
  Qed.

  Lemma c84_transpose_b K c (a b : tensor b32) ds m k n xs ys (P Q : list nat -> nat -> nat -> Z) :
    computes o sum_of K ->
    repr a (ds ++ [m; k]) xs -> repr b (ds ++ [n; k]) ys ->
    supported (ds ++ [n; m]) -> can_alloc c (prod (ds ++ [n; m])) ->
    (forall idx i p, in_shape ds idx -> i < m -> p < k ->
       exists x, elem (ds ++ [m; k]) xs (idx ++ [i; p]) = Some x /\ number x /\ B2R x = IZR (P idx i p)) ->
    (forall idx j p, in_shape ds idx -> j < n -> p < k ->
       exists y, elem (ds ++ [n; k]) ys (idx ++ [j; p]) = Some y /\ number y /\ B2R y = IZR (Q idx j p)) ->
    exists zs, matmul_by o K c a b TransposeB = Ok (fresh (ds ++ [n; m]) zs) /\
      forall idx i j, in_shape ds idx -> i < m -> j < n ->
        (fold_right Z.add 0 (map (fun p => Z.abs (P idx i p * Q idx j p)) (seq 0 k)) <= 2 ^ 24)%Z ->
        exists z, elem (ds ++ [m; n]) zs (idx ++ [i; j]) = Some z /\ number z /\
          B2R z = IZR (fold_right Z.add 0%Z (map (fun p => P idx i p * Q idx j p)%Z (seq 0 k))).
  Proof.
    intros HK Ha Hb Hs Hc HP HQ. destruct (c82_matmul_transpose_b _ _ K c a b ds m k n xs ys HK Ha Hb Hs Hc) as (zs & E & _ & H).
    exists zs. split; [exact E|]. intros idx i j Hi Him Hjn Hsum.
    destruct (H (fun idx i p => pick (ds ++ [m; k]) xs (idx ++ [i; p])) (fun idx j p => pick (ds ++ [n; k]) ys (idx ++ [j; p])))
      with (idx := idx) (i := i) (j := j) as (z & Ez & Hz); auto.
    { intros. now apply (pick_elem _ _ _ _ (HP idx0 i0 p ltac:(auto) ltac:(auto) ltac:(auto))). }
    { intros. now apply (pick_elem _ _ _ _ (HQ idx0 j0 p ltac:(auto) ltac:(auto) ltac:(auto))). }
    exists z. split; [exact Ez|]. apply (dot_int _ _ (fun p => P idx i p) (fun p => Q idx j p) k z Hz); auto.
    - intros p Hp. now apply pick_elem, HP.
    - intros p Hp. now apply pick_elem, HQ.
  Qed.

  Lemma c84_transpose_ab K c (a b : tensor b32) ds m k n xs ys (P Q : list nat -> nat -> nat -> Z) :
    computes o sum_of K ->
    repr a (ds ++ [k; m]) xs -> repr b (ds ++ [n; k]) ys ->
    supported (ds ++ [n; m]) -> can_alloc c (prod (ds ++ [n; m])) ->
    (forall idx p i, in_shape ds idx -> p < k -> i < m ->
       exists x, elem (ds ++ [k; m]) xs (idx ++ [p; i]) = Some x /\ number x /\ B2R x = IZR (P idx p i)) ->
    (forall idx j p, in_shape ds idx -> j < n -> p < k ->
       exists y, elem (ds ++ [n; k]) ys (idx ++ [j; p]) = Some y /\ number y /\ B2R y = IZR (Q idx j p)) ->
    exists zs, matmul_by o K c a b TransposeAB = Ok (fresh (ds ++ [n; m]) zs) /\
      forall idx i j, in_shape ds idx -> i < m -> j < n ->
        (fold_right Z.add 0 (map (fun p => Z.abs (P idx p i * Q idx j p)) (seq 0 k)) <= 2 ^ 24)%Z ->
        exists z, elem (ds ++ [m; n]) zs (idx ++ [i; j]) = Some z /\ number z /\
          B2R z = IZR (fold_right Z.add 0%Z (map (fun p => P idx p i * Q idx j p)%Z (seq 0 k))).
  Proof.
    intros HK Ha Hb Hs Hc HP HQ. destruct (c82_matmul_transpose_ab _ _ K c a b ds m k n xs ys HK Ha Hb Hs Hc) as (zs & E & _ & H).
    exists zs. split; [exact E|]. intros idx i j Hi Him Hjn Hsum.
    destruct (H (fun idx p i => pick (ds ++ [k; m]) xs (idx ++ [p; i])) (fun idx j p => pick (ds ++ [n; k]) ys (idx ++ [j; p])))
      with (idx := idx) (i := i) (j := j) as (z & Ez & Hz); auto.
    { intros. now apply (pick_elem _ _ _ _ (HP idx0 p i0 ltac:(auto) ltac:(auto) ltac:(auto))). }
    { intros. now apply (pick_elem _ _ _ _ (HQ idx0 j0 p ltac:(auto) ltac:(auto) ltac:(auto))). }
    exists z. split; [exact Ez|]. apply (dot_int _ _ (fun p => P idx p i) (fun p => Q idx j p) k z Hz); auto.
    - intros p Hp. now apply pick_elem, HP.
    - intros p Hp. now apply pick_elem, HQ.
  Qed.

  Lemma c84_matvec K c (a x : tensor b32) dp da m k r xs ys
      (P : list nat -> nat -> nat -> Z) (Q : list nat -> list nat -> nat -> nat -> Z) :
    computes o sum_of K -> repr a (da ++ [m; k]) xs -> repr x (dp ++ da ++ [r; k]) ys ->
    0 < prod (da ++ [m; k]) -> 0 < prod (dp ++ da ++ [r; k]) -> supported (dp ++ da ++ [r; m]) ->
    (forall ia j p, in_shape da ia -> j < m -> p < k ->
       exists v, elem (da ++ [m; k]) xs (ia ++ [j; p]) = Some v /\ number v /\ B2R v = IZR (P ia j p)) ->
    (forall ip ia i p, in_shape dp ip -> in_shape da ia -> i < r -> p < k ->
       exists v, elem (dp ++ da ++ [r; k]) ys (ip ++ ia ++ [i; p]) = Some v /\ number v /\ B2R v = IZR (Q ip ia i p)) ->
    exists zs, matvec_by o K c a x TNone = Ok (fresh (dp ++ da ++ [r; m]) zs) /\
      forall ip ia i j, in_shape dp ip -> in_shape da ia -> i < r -> j < m ->
        (fold_right Z.add 0 (map (fun p => Z.abs (Q ip ia i p * P ia j p)) (seq 0 k)) <= 2 ^ 24)%Z ->
        exists z, elem (dp ++ da ++ [r; m]) zs (ip ++ ia ++ [i; j]) = Some z /\ number z /\
          B2R z = IZR (fold_right Z.add 0%Z (map (fun p => Q ip ia i p * P ia j p)%Z (seq 0 k))).
  Proof.
    intros HK Ha Hx H1 H2 Hs HP HQ. destruct (c82_matvec _ _ K c a x dp da m k r xs ys HK Ha Hx H1 H2 Hs) as (zs & E & _ & H).
    exists zs. split; [exact E|]. intros ip ia i j Hp Hi Hir Hjm Hsum.
    destruct (H (fun ia j p => pick (da ++ [m; k]) xs (ia ++ [j; p])) (fun ip ia i p => pick (dp ++ da ++ [r; k]) ys (ip ++ ia ++ [i; p])))
      with (ip := ip) (ia := ia) (i := i) (j := j) as (z & Ez & Hz); auto.
    { intros. now apply (pick_elem _ _ _ _ (HP ia0 j0 p ltac:(auto) ltac:(auto) ltac:(auto))). }
    { intros. now apply (pick_elem _ _ _ _ (HQ ip0 ia0 i0 p ltac:(auto) ltac:(auto) ltac:(auto) ltac:(auto))). }
    exists z. split; [exact Ez|]. apply (dot_int _ _ (fun p => Q ip ia i p) (fun p => P ia j p) k z Hz); auto.
    - intros p Hpk. now apply pick_elem, HQ.
    - intros p Hpk. now apply pick_elem, HP.
  Qed.

  Lemma c84_matvec_transpose K c (a x : tensor b32) dp da m k r xs ys
      (P : list nat -> nat -> nat -> Z) (Q : list nat -> list nat -> nat -> nat -> Z) :
    computes o sum_of K -> repr a (da ++ [k; m]) xs -> repr x (dp ++ da ++ [r; k]) ys ->
    0 < prod (da ++ [k; m]) -> 0 < prod (dp ++ da ++ [r; k]) -> supported (dp ++ da ++ [r; m]) ->
    (forall ia p j, in_shape da ia -> p < k -> j < m ->
       exists v, elem (da ++ [k; m]) xs (ia ++ [p; j]) = Some v /\ number v /\ B2R v = IZR (P ia p j)) ->
    (forall ip ia i p, in_shape dp ip -> in_shape da ia -> i < r -> p < k ->
       exists v, elem (dp ++ da ++ [r; k]) ys (ip ++ ia ++ [i; p]) = Some v /\ number v /\ B2R v = IZR (Q ip ia i p)) ->
    exists zs, matvec_by o K c a x TransposeA = Ok (fresh (dp ++ da ++ [r; m]) zs) /\
      forall ip ia i j, in_shape dp ip -> in_shape da ia -> i < r -> j < m ->
        (fold_right Z.add 0 (map (fun p => Z.abs (Q ip ia i p * P ia p j)) (seq 0 k)) <= 2 ^ 24)%Z ->
        exists z, elem (dp ++ da ++ [r; m]) zs (ip ++ ia ++ [i; j]) = Some z /\ number z /\
          B2R z = IZR (fold_right Z.add 0%Z (map (fun p => Q ip ia i p * P ia p j)%Z (seq 0 k))).
  Proof.
    intros HK Ha Hx H1 H2 Hs HP HQ. destruct (c82_matvec_transpose _ _ K c a x dp da m k r xs ys HK Ha Hx H1 H2 Hs) as (zs & E & _ & H).
    exists zs. split; [exact E|]. intros ip ia i j Hp Hi Hir Hjm Hsum.
    destruct (H (fun ia p j => pick (da ++ [k; m]) xs (ia ++ [p; j])) (fun ip ia i p => pick (dp ++ da ++ [r; k]) ys (ip ++ ia ++ [i; p])))
      with (ip := ip) (ia := ia) (i := i) (j := j) as (z & Ez & Hz); auto.
    { intros. now apply (pick_elem _ _ _ _ (HP ia0 p j0 ltac:(auto) ltac:(auto) ltac:(auto))). }
    { intros. now apply (pick_elem _ _ _ _ (HQ ip0 ia0 i0 p ltac:(auto) ltac:(auto) ltac:(auto) ltac:(auto))). }
    exists z. split; [exact Ez|]. apply (dot_int _ _ (fun p => Q ip ia i p) (fun p => P ia p j) k z Hz); auto.
    - intros p Hpk. now apply pick_elem, HQ.
    - intros p Hpk. now apply pick_elem, HP.
  Qed.
End Kernel.
