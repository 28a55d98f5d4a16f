(** * Facts about histograms *)
From Coq Require Import Reals Lra.
From Coq Require Import ZifyBool ZifyNat ZifyN.
From Flocq Require Import IEEE754.BinarySingleNaN.
From Verif Require Import Base ShapeModel TensorModel AxisModel MapModel NumModel FloatModel InitModel MathModel
  Spec FloatSpec BaseFacts ShapeFacts ShapeFacts2 CoordFacts TensorFacts TensorFacts2 MapFacts SafeFacts RealFacts
  ArrayFacts InitFacts MathFacts.

Ltac Zify.zify_post_hook ::= Z.div_mod_to_equations.

(** The bin of a sample. *)
Definition hist_bin {F} (o : fops F) (mn delta : F) (n : nat) (x : F) : nat :=
  let b := ffloor o (fdiv o (fsub o x mn) delta) in if b <? n then b else n - 1.

Lemma hist_bin_lt {F} (o : fops F) mn delta n x : 0 < n -> hist_bin o mn delta n x < n.
Proof. intros H. unfold hist_bin. destruct (Nat.ltb_spec (ffloor o (fdiv o (fsub o x mn) delta)) n); lia. Qed.

(** Applying a function [k] times. *)
Fixpoint times {A} (k : nat) (f : A -> A) (x : A) : A :=
  match k with O => x | S k => times k f (f x) end.

Lemma times_S_r {A} k (f : A -> A) x : times (S k) f x = f (times k f x).
Proof. revert x. induction k; intros x; [reflexivity|]. cbn [times] in *. apply IHk. Qed.

Definition incr {F} (o : fops F) (v : F) : F := fadd o v (fone o).

Definition occurrences (k : nat) (l : list nat) : nat := count_occ Nat.eq_dec l k.

Lemma hist_loop_spec {F} (o : fops F) c mn delta n data values :
  0 < n -> (Z.of_nat n < two64)%Z -> length values = n ->
  exists out, hist_loop o c mn delta n data values = Ok out /\ length out = n /\
    forall k, nth_error out k =
      option_map (times (occurrences k (map (hist_bin o mn delta n) data)) (incr o)) (nth_error values k).
Proof.
  intros Hn Hn2. revert values. induction data as [|x data IH]; intros values Hv.
  - exists values. split; [reflexivity|]. split; auto. intros k. cbn. now destruct (nth_error values k).
  - pose proof (hist_bin_lt o mn delta n x Hn) as Hb.
    destruct (nth_error_lt_ex values (hist_bin o mn delta n x)) as [v Ev]; [lia|].
    destruct (IH (set_nth values (hist_bin o mn delta n x) (incr o v))) as (out & E & Lo & Ho).
    { now rewrite set_nth_length. }
    exists out. split; [|split; auto].
    + unfold hist_loop in *. cbn [for_each].
      assert (E1 : (let bin := ffloor o (fdiv o (fsub o x mn) delta) in
        if bin <? n then let* v := aget values bin in aset values bin (fadd o v (fone o))
        else let* k := usub c n 1 in let* v := aget values k in aset values k (fadd o v (fone o)))
        = Ok (set_nth values (hist_bin o mn delta n x) (incr o v))).
      { clear IH E Ho. unfold hist_bin in *. cbv zeta in *.
        destruct (Nat.ltb_spec (ffloor o (fdiv o (fsub o x mn) delta)) n).
        - rewrite (aget_ok _ _ _ Ev). cbn [bind]. now rewrite aset_ok by lia.
        - rewrite usub_ok by lia. cbn [bind]. rewrite (aget_ok _ _ _ Ev). cbn [bind]. now rewrite aset_ok by lia. }
      cbv zeta in E1. rewrite E1. cbn [bind]. exact E.
    + intros k. rewrite Ho. cbn [map]. unfold occurrences. cbn [count_occ].
      destruct (Nat.eq_dec (hist_bin o mn delta n x) k) as [<-|Hne].
      * rewrite nth_error_set_nth_eq by lia. rewrite Ev. reflexivity.
      * rewrite nth_error_set_nth_neq by auto. reflexivity.
Qed.

Lemma hist_loop_ok {F} (o : fops F) c mn delta n data :
  0 < n -> (Z.of_nat n < two64)%Z ->
  hist_loop o c mn delta n data (repeat (fzero o) n) =
  Ok (map (fun k => times (occurrences k (map (hist_bin o mn delta n) data)) (incr o) (fzero o)) (seq 0 n)).
Proof.
  intros Hn Hn2. destruct (hist_loop_spec o c mn delta n data (repeat (fzero o) n) Hn Hn2 (repeat_length _ _))
    as (out & -> & Lo & Ho). f_equal. apply nth_error_ext. intros k. rewrite Ho.
  destruct (Nat.lt_ge_cases k n) as [H|H].
  - rewrite nth_error_repeat by auto. rewrite nth_error_map_seq by auto. reflexivity.
  - rewrite !(proj2 (nth_error_None _ _)); [reflexivity| |]; rewrite ?map_length, ?seq_length, ?repeat_length; lia.
Qed.

Lemma list_sum_seq_S (f : nat -> nat) n : list_sum (map f (seq 0 (S n))) = list_sum (map f (seq 0 n)) + f n.
Proof. replace (S n) with (n + 1) by lia. rewrite seq_app, map_app, list_sum_app. cbn. lia. Qed.

Lemma occurrences_sum n l : Forall (fun b => b < n) l ->
  list_sum (map (fun k => occurrences k l) (seq 0 n)) = length l.
Proof.
  induction 1 as [|b l Hb HF IH].
  - clear. unfold occurrences. cbn [count_occ]. induction n; [reflexivity|]. rewrite list_sum_seq_S, IHn. reflexivity.
  - cbn [length]. rewrite <- IH. clear IH HF.
    assert (G : forall m, list_sum (map (fun k => occurrences k (b :: l)) (seq 0 m))
      = (if b <? m then 1 else 0) + list_sum (map (fun k => occurrences k l) (seq 0 m))).
    { induction m as [|m IHm]; [reflexivity|]. rewrite !list_sum_seq_S, IHm. unfold occurrences at 2 4. cbn [count_occ].
      destruct (Nat.eq_dec b m), (Nat.ltb_spec b m), (Nat.ltb_spec b (S m)); lia. }
    rewrite G. replace (b <? n) with true by lia. reflexivity.
Qed.

(** The first conversions. *)
Lemma of_value_fresh {A} c (x : A) : of_value c x = Ok (fresh [] [x]).
Proof. reflexivity. Qed.

(** Counting in binary32 stops at 2^24. *)
Lemma times_b32 ln_ exp_ pow_ k :
  times k (incr (b32_ops ln_ exp_ pow_)) (fzero (b32_ops ln_ exp_ pow_))
  = b32_of_Z (Z.min (Z.of_nat k) 16777216) 0.
Proof.
  induction k as [|k IH]; [reflexivity|]. rewrite times_S_r, IH. unfold incr.
  destruct (Z.lt_ge_cases (Z.of_nat k) 16777216) as [H|H].
  - rewrite !Z.min_l by lia. change (fone (b32_ops ln_ exp_ pow_)) with (b32_of_Z 1 0).
    rewrite b32_add_int by lia. f_equal. lia.
  - rewrite !Z.min_r by lia. apply BinarySingleNaN.B2SF_inj. vm_compute. reflexivity.
Qed.

Lemma times_real k : times k (incr R_ops) 0%R = INR k.
Proof. induction k as [|k IH]; [reflexivity|]. rewrite times_S_r, IH, S_INR. reflexivity. Qed.

(** The bin over the reals. *)
Lemma floor_real y : (0 <= y)%R -> (y < IZR two64)%R ->
  (INR (ffloor R_ops y) <= y < INR (ffloor R_ops y) + 1)%R.
Proof.
  intros H0 H1. cbn [ffloor R_ops].
  destruct (base_Int_part y) as [A B].
  assert (Hz : (0 <= Int_part y)%Z).
  { apply Z.lt_succ_r, lt_IZR. rewrite succ_IZR. lra. }
  assert (Hz2 : (Int_part y < two64)%Z) by (apply lt_IZR; lra).
  rewrite Z.min_r by lia. rewrite INR_IZR_INZ, Z2Nat.id by lia. lra.
Qed.

Lemma hist_bin_real mn mx n x :
  0 < n -> (Z.of_nat n < two64)%Z -> (mn < mx)%R -> (mn <= x <= mx)%R ->
  let b := hist_bin R_ops mn ((mx - mn) / INR n)%R n x in
  (mn + INR b * ((mx - mn) / INR n) <= x)%R /\
  (x <= mn + INR (b + 1) * ((mx - mn) / INR n))%R /\
  (b + 1 < n -> (x < mn + INR (b + 1) * ((mx - mn) / INR n))%R).
Proof.
  intros Hn Hn2 Hlt Hx. cbv zeta.
  assert (Hi : (0 < INR n)%R) by now apply lt_0_INR.
  set (d := ((mx - mn) / INR n)%R). assert (Hd : (0 < d)%R) by (apply Rdiv_lt_0_compat; lra).
  assert (Hnd : (INR n * d = mx - mn)%R) by (unfold d; field; lra).
  set (y := ((x - mn) / d)%R). assert (Hy : (y * d = x - mn)%R) by (unfold y; field; lra).
  assert (Hy0 : (0 <= y)%R) by (apply Rmult_le_pos; [lra|left; now apply Rinv_0_lt_compat]).
  assert (Hyn : (y <= INR n)%R) by (apply Rmult_le_reg_r with d; [auto|lra]).
  assert (Hyb : (y < IZR two64)%R).
  { rewrite INR_IZR_INZ in Hyn. apply IZR_lt in Hn2. lra. }
  pose proof (floor_real y Hy0 Hyb) as Hf.
  unfold hist_bin. cbn [fdiv fsub R_ops]. fold y. set (f := ffloor R_ops y) in *. change (ffloor R_ops y) with f.
  rewrite plus_INR. change (INR 1) with 1%R.
  destruct (Nat.ltb_spec f n) as [H|H].
  - split; [nra|]. split; [nra|]. intros _. nra.
  - assert (Hfn : (INR n <= INR f)%R) by now apply le_INR.
    assert (E : y = INR n) by lra. rewrite minus_INR by lia. change (INR 1) with 1%R.
    split; [nra|]. split; [nra|]. lia.
Qed.
