(** * Facts about reductions, normalisation and histograms *)
From Coq Require Import Reals Lra.
From Coq Require Import ZifyBool ZifyNat ZifyN.
From Verif Require Import Base ShapeModel TensorModel AxisModel MapModel NumModel FloatModel InitModel MathModel
  Spec FloatSpec BaseFacts ShapeFacts ShapeFacts2 CoordFacts TensorFacts TensorFacts2 MapFacts SafeFacts RealFacts.

Ltac Zify.zify_post_hook ::= Z.div_mod_to_equations.

Lemma foldM_total {R X} (f : unit -> R -> X -> outcome (unit * R)) (g : R -> X -> R) (P : R -> nat -> Prop) l r :
  P r (length l) ->
  (forall r x n, P r (S n) -> f tt r x = Ok (tt, g r x) /\ P (g r x) n) ->
  foldM f tt r l = Ok (tt, fold_left g l r).
Proof.
  intros H Hf. revert r H. induction l as [|x l IH]; intros r H; [reflexivity|].
  cbn [foldM fold_left]. destruct (Hf r x (length l)) as [-> H2]; [exact H|]. cbn [bind]. now apply IH.
Qed.

Lemma foldM_pure2 {R X} (g : R -> X -> R) r l : foldM (pure2 g) tt r l = Ok (tt, fold_left g l r).
Proof. apply (foldM_total _ g (fun _ _ => True)); auto. Qed.

Lemma traverse_total {X Y} (f : unit -> X -> outcome (unit * Y)) (h : X -> Y) l :
  (forall x, In x l -> f tt x = Ok (tt, h x)) -> traverse f tt l = Ok (tt, map h l).
Proof.
  induction l as [|x l IH]; intros H; [reflexivity|]. cbn [traverse map].
  rewrite (H x) by now left. cbn [bind]. rewrite IH by (intros; apply H; now right). reflexivity.
Qed.

(** ** Sums of reals *)

Lemma rsum_app a b : rsum (a ++ b) = (rsum a + rsum b)%R.
Proof. unfold rsum. induction a as [|x a IH]; cbn; [lra|rewrite IH; lra]. Qed.

Lemma rsum_snoc l x : rsum (l ++ [x]) = (rsum l + x)%R.
Proof. rewrite rsum_app. cbn. lra. Qed.

Lemma fold_left_Rplus l r : fold_left Rplus l r = (r + rsum l)%R.
Proof.
  revert r. induction l as [|x l IH]; intros r; [cbn; lra|]. cbn [fold_left]. rewrite IH.
  change (rsum (x :: l)) with (x + rsum l)%R. lra.
Qed.

Lemma rprod_app a b : rprod (a ++ b) = (rprod a * rprod b)%R.
Proof. unfold rprod. induction a as [|x a IH]; cbn; [lra|rewrite IH; lra]. Qed.

Lemma fold_left_Rmult l r : fold_left Rmult l r = (r * rprod l)%R.
Proof.
  revert r. induction l as [|x l IH]; intros r; [cbn; lra|]. cbn [fold_left]. rewrite IH.
  change (rprod (x :: l)) with (x * rprod l)%R. lra.
Qed.

Lemma rsum_map_ext {A} (f g : A -> R) l : (forall x, In x l -> f x = g x) -> rsum (map f l) = rsum (map g l).
Proof. intros H. f_equal. now apply map_ext_in. Qed.

Lemma rsum_sq_mean l : l <> [] ->
  rsum (map (fun x => (x - mean l) * (x - mean l))%R l)
  = (rsum (map (fun x => x * x)%R l) - rsum l * rsum l / INR (length l))%R.
Proof.
  intros Hl. assert (Hn : INR (length l) <> 0%R).
  { apply not_0_INR. destruct l; [congruence|discriminate]. }
  assert (G : forall m l, rsum (map (fun x => (x - m) * (x - m))%R l)
    = (rsum (map (fun x => x * x) l) - 2 * m * rsum l + INR (length l) * m * m)%R).
  { clear. intros m l. induction l as [|x l IH].
    - cbn. lra.
    - change (rsum (map (fun x => (x - m) * (x - m)) (x :: l)))%R
        with ((x - m) * (x - m) + rsum (map (fun x => (x - m) * (x - m)) l))%R.
      change (rsum (map (fun x => x * x) (x :: l)))%R with (x * x + rsum (map (fun x => x * x) l))%R.
      change (rsum (x :: l)) with (x + rsum l)%R.
      rewrite IH. change (length (x :: l)) with (S (length l)). rewrite S_INR. ring. }
  rewrite G. unfold mean. field. exact Hn.
Qed.

(** ** Mean *)

Lemma mean_fold {F} (o : fops F) c l n s : (Z.of_nat (n + length l) < two64)%Z ->
  foldM (mean_update o c) tt (n, s) l = Ok (tt, (n + length l, fold_left (fadd o) l s)).
Proof.
  revert n s. induction l as [|x l IH]; intros n s H.
  - cbn. now rewrite Nat.add_0_r.
  - cbn [foldM fold_left length] in *. unfold mean_update. cbn [fst snd].
    rewrite uadd_ok by lia. cbn [bind]. rewrite IH by lia. do 3 f_equal. lia.
Qed.

(** ** Welford's recurrence *)

Definition wstep {F} (o : fops F) (w : welford F) (x : F) : welford F :=
  if wk w =? 0 then mkWelford 1 x (fzero o)
  else
    let m := fadd o (wm w) (fdiv o (fsub o x (wm w)) (fof o (wk w + 1))) in
    mkWelford (wk w + 1) m (fadd o (ws w) (fmul o (fsub o x (wm w)) (fsub o x m))).

Lemma welford_fold {F} (o : fops F) c l w : (Z.of_nat (wk w + length l) < two64)%Z ->
  foldM (welford_update o c) tt w l = Ok (tt, fold_left (wstep o) l w).
Proof.
  intros H. apply (foldM_total _ _ (fun w n => (Z.of_nat (wk w + n) < two64)%Z)); auto.
  intros r x n Hn. unfold welford_update, wstep. destruct (Nat.eqb_spec (wk r) 0) as [E|E].
  - split; auto. cbn [wk]. lia.
  - rewrite uadd_ok by lia. cbn [bind]. split; auto. cbn [wk]. lia.
Qed.

Lemma wstep_count {F} (o : fops F) l : wk (fold_left (wstep o) l (welford_default o)) = length l.
Proof.
  induction l as [|x l IH] using rev_ind; [reflexivity|].
  rewrite fold_left_app, app_length. cbn [fold_left length]. unfold wstep at 1. rewrite IH.
  destruct (Nat.eqb_spec (length l) 0) as [E|E]; cbn [wk]; lia.
Qed.

Lemma welford_real l : l <> [] ->
  let w := fold_left (wstep R_ops) l (welford_default R_ops) in
  wm w = mean l /\ ws w = (rsum (map (fun x => x * x) l) - rsum l * rsum l / INR (length l))%R.
Proof.
  induction l as [|x l IH] using rev_ind; [congruence|]. intros _. cbv zeta.
  rewrite fold_left_app. cbn [fold_left].
  pose proof (wstep_count R_ops l) as Hk. unfold wstep at 1 3. rewrite Hk.
  destruct (Nat.eqb_spec (length l) 0) as [E|E].
  - destruct l; [|discriminate]. cbn. unfold mean. cbn. split; field.
  - assert (Hl : l <> []) by (intros ->; now apply E).
    destruct (IH Hl) as [Hm Hs]. cbv zeta in Hm, Hs.
    set (w := fold_left (wstep R_ops) l (welford_default R_ops)) in *.
    assert (Hn : INR (length l) <> 0%R) by now apply not_0_INR.
    assert (Hn1 : (INR (length l) + 1)%R <> 0%R) by (rewrite <- S_INR; now apply not_0_INR).
    cbn [wm ws fadd fdiv fsub fmul fof R_ops].
    rewrite Hm, Hs. unfold mean. rewrite map_app. cbn [map]. rewrite !rsum_snoc, app_length. cbn [length].
    rewrite !plus_INR. change (INR 1) with 1%R. split; field; split; auto.
Qed.

Lemma welford_variance l : var_result R_ops (fold_left (wstep R_ops) l (welford_default R_ops))
  = if length l =? 0 then 0%R else variance l.
Proof.
  unfold var_result. rewrite wstep_count.
  destruct l as [|x l]; [reflexivity|]. change (length (x :: l) =? 0) with false. cbv iota.
  set (l0 := x :: l). assert (Hl : l0 <> []) by discriminate.
  destruct (welford_real l0 Hl) as [_ Hs]. cbv zeta in Hs.
  unfold variance. rewrite rsum_sq_mean by auto. rewrite Hs.
  destruct (Nat.ltb_spec 1 (length l0)) as [H|H]; [reflexivity|].
  destruct l; [|cbn in H; lia]. unfold l0. cbn. field.
Qed.

Lemma welford_std l : std_result R_ops (fold_left (wstep R_ops) l (welford_default R_ops))
  = if length l =? 0 then 0%R else sqrt (variance l).
Proof.
  pose proof (welford_variance l) as H. unfold var_result in H. unfold std_result. rewrite wstep_count in *.
  destruct (Nat.ltb_spec 1 (length l)) as [H1|H1].
  - destruct (Nat.eqb_spec (length l) 0); [lia|]. rewrite <- H. reflexivity.
  - destruct (Nat.eqb_spec (length l) 0); [reflexivity|]. rewrite <- H. symmetry. apply sqrt_0.
Qed.

Lemma variance_nonneg l : (0 <= variance l)%R.
Proof.
  unfold variance. destruct l as [|x l].
  { change (rsum _) with 0%R. unfold Rdiv. rewrite Rmult_0_l. apply Rle_refl. }
  apply Rmult_le_pos.
  - generalize (mean (x :: l)). intros m. generalize (x :: l). intros l'.
    induction l' as [|y l' IH]; [apply Rle_refl|].
    change (0 <= (y - m) * (y - m) + rsum (map (fun x => (x - m) * (x - m)) l'))%R.
    apply Rplus_le_le_0_compat; [apply Rle_0_sqr|exact IH].
  - apply Rlt_le, Rinv_0_lt_compat, lt_0_INR. cbn. lia.
Qed.

(** ** Minimum and maximum *)

Lemma R_fmin a b : fmin R_ops a b = Rmin a b.
Proof.
  unfold fmin. cbn [feq flt R_ops]. destruct (Req_EM_T a a); [|congruence].
  unfold Rmin. destruct (Rlt_dec b a), (Rle_dec a b); lra.
Qed.
Lemma R_fmax a b : fmax R_ops a b = Rmax a b.
Proof.
  unfold fmax. cbn [feq flt R_ops]. destruct (Req_EM_T a a); [|congruence].
  unfold Rmax. destruct (Rlt_dec a b), (Rle_dec a b); lra.
Qed.

Lemma fold_min_least x l : least (fold_left (fmin R_ops) l x) (x :: l).
Proof.
  revert x. induction l as [|y l IH]; intros x.
  - split; [now left|]. intros z [->|[]]. cbn. lra.
  - cbn [fold_left]. destruct (IH (fmin R_ops x y)) as [H1 H2]. rewrite R_fmin in *. split.
    + destruct H1 as [H1|H1]; [|right; now right].
      unfold Rmin in *. destruct (Rle_dec x y); [left|right; left]; congruence.
    + pose proof (H2 _ (or_introl eq_refl)) as H. pose proof (Rmin_l x y). pose proof (Rmin_r x y).
      intros z [<-|[<-|Hz]]; [lra|lra|]. apply H2. now right.
Qed.
Lemma fold_max_greatest x l : greatest (fold_left (fmax R_ops) l x) (x :: l).
Proof.
  revert x. induction l as [|y l IH]; intros x.
  - split; [now left|]. intros z [->|[]]. cbn. lra.
  - cbn [fold_left]. destruct (IH (fmax R_ops x y)) as [H1 H2]. rewrite R_fmax in *. split.
    + destruct H1 as [H1|H1]; [|right; now right].
      unfold Rmax in *. destruct (Rle_dec x y); [right; left|left]; congruence.
    + pose proof (H2 _ (or_introl eq_refl)) as H. pose proof (Rmax_l x y). pose proof (Rmax_r x y).
      intros z [<-|[<-|Hz]]; [lra|lra|]. apply H2. now right.
Qed.

(** ** Sums over the lines of an axis *)

Lemma rsum_seq_S (f : nat -> R) n : rsum (map f (seq 0 (S n))) = (rsum (map f (seq 0 n)) + f n)%R.
Proof. replace (S n) with (n + 1) by lia. rewrite seq_app, map_app, rsum_app. cbn. lra. Qed.

Lemma rsum_zero n : rsum (map (fun _ : nat => 0%R) (seq 0 n)) = 0%R.
Proof. induction n; [reflexivity|]. rewrite rsum_seq_S, IHn. lra. Qed.

Lemma rsum_plus (f g : nat -> R) n :
  rsum (map (fun i => f i + g i)%R (seq 0 n)) = (rsum (map f (seq 0 n)) + rsum (map g (seq 0 n)))%R.
Proof. induction n; [cbn; lra|]. rewrite !rsum_seq_S, IHn. lra. Qed.

Lemma rsum_swap (f : nat -> nat -> R) m n :
  rsum (map (fun i => rsum (map (f i) (seq 0 n))) (seq 0 m))
  = rsum (map (fun j => rsum (map (fun i => f i j) (seq 0 m))) (seq 0 n)).
Proof.
  induction m as [|m IH].
  - cbn [seq map]. change (rsum []) with 0%R.
    now rewrite rsum_zero.
  - rewrite rsum_seq_S, IH, <- rsum_plus. apply rsum_map_ext. intros j _. now rewrite rsum_seq_S.
Qed.

Lemma rsum_shift (f : nat -> R) a n : rsum (map f (seq a n)) = rsum (map (fun j => f (a + j)) (seq 0 n)).
Proof.
  induction n as [|n IH]; [reflexivity|]. rewrite rsum_seq_S. replace (S n) with (n + 1) by lia.
  rewrite seq_app, map_app, rsum_app, IH. cbn. lra.
Qed.

Lemma rsum_prod (f : nat -> R) m n :
  rsum (map f (seq 0 (m * n))) = rsum (map (fun i => rsum (map (fun j => f (i * n + j)) (seq 0 n))) (seq 0 m)).
Proof.
  induction m as [|m IH]; [reflexivity|].
  rewrite rsum_seq_S. replace (S m * n) with (m * n + n) by lia. rewrite seq_app, map_app, rsum_app, IH.
  f_equal. apply rsum_shift.
Qed.

Lemma rsum_nth l : rsum l = rsum (map (fun i => nth i l 0%R) (seq 0 (length l))).
Proof.
  induction l as [|x l IH] using rev_ind; [reflexivity|].
  rewrite app_length. cbn [length]. replace (length l + 1) with (S (length l)) by lia.
  rewrite rsum_seq_S, rsum_snoc, IH. f_equal.
  - apply rsum_map_ext. intros i Hi. apply in_seq in Hi. now rewrite app_nth1 by lia.
  - rewrite app_nth2 by lia. now rewrite Nat.sub_diag.
Qed.

Lemma nth_error_eq_nth {A} (l l' : list A) i j d : nth_error l i = nth_error l' j -> nth i l d = nth j l' d.
Proof.
  intros H. destruct (nth_error l i) eqn:E.
  - rewrite (nth_error_nth _ _ _ E). symmetry. apply nth_error_nth. congruence.
  - apply nth_error_None in E. rewrite nth_overflow by auto. symmetry in H. apply nth_error_None in H.
    now rewrite nth_overflow.
Qed.

Lemma rsum_lines B L I xs : length xs = B * (L * I) -> rsum (map rsum (lines B L I xs)) = rsum xs.
Proof.
  intros Hl. unfold lines. rewrite map_map.
  rewrite (rsum_map_ext _ (fun q => rsum (map (fun k => nth ((q / I * L + k) * I + q mod I) xs 0%R) (seq 0 L)))).
  2: { intros q Hq. apply in_seq in Hq. rewrite rsum_nth, (line_length B) by (auto; lia).
       apply rsum_map_ext. intros k Hk. apply in_seq in Hk.
       apply nth_error_eq_nth. rewrite (line_nth B) by (auto; lia). reflexivity. }
  rewrite rsum_prod, (rsum_nth xs), Hl, rsum_prod. apply rsum_map_ext. intros b Hb. apply in_seq in Hb.
  rewrite (rsum_prod (fun j => nth (b * (L * I) + j) xs 0%R)), rsum_swap.
  rewrite <- rsum_swap.
  rewrite rsum_swap. apply rsum_map_ext. intros k Hk. apply in_seq in Hk. apply rsum_map_ext. intros i Hi. apply in_seq in Hi.
  f_equal. rewrite Nat.div_add_l, Nat.div_small, Nat.add_0_r by lia.
  replace ((b * I + i) mod I) with i by (rewrite Nat.add_comm, Nat.mod_add, Nat.mod_small by lia; lia). nia.
Qed.
