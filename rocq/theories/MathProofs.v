(** * Properties of the reductions and of normalize_unit (C50-C52): proofs *)
From Coq Require Import Reals Lra.
From Coq Require Import ZifyBool ZifyNat ZifyN.
From Verif Require Import Base ShapeModel TensorModel AxisModel MapModel NumModel FloatModel InitModel MathModel
  Spec FloatSpec BaseFacts ShapeFacts ShapeFacts2 CoordFacts TensorFacts TensorFacts2 MapFacts SafeFacts RealFacts
  MathFacts MapSpec MapProofs.
From Verif Require Import MathSpec.

Ltac Zify.zify_post_hook ::= Z.div_mod_to_equations.

Lemma repr_length_small {T} (t : tensor T) ds xs : repr t ds xs -> (Z.of_nat (length xs) < two64)%Z.
Proof.
  intros H. pose proof (repr_len _ _ _ H) as E. pose proof (supported_prod _ (repr_supported _ _ _ H)) as Hs.
  unfold two32, two64 in *. lia.
Qed.

Lemma axis_lines_length {T} d1 d d2 (xs : list T) ls l :
  length xs = prod (d1 ++ d :: d2) -> axis_lines d1 d d2 xs ls -> In l ls -> length l = d.
Proof.
  intros Hl H Hin. pose proof (c30_lines_unique _ _ _ _ _ _ H (axis_lines_lines _ _ _ _ Hl)) as ->.
  assert (Hl' : length xs = prod d1 * (d * prod d2)) by (rewrite Hl, prod_app; reflexivity).
  pose proof (lines_Forall (prod d1) d (prod d2) xs Hl') as HF. rewrite Forall_forall in HF. now apply HF.
Qed.

Lemma axis_len_small {T} (t : tensor T) d1 d d2 xs : repr t (d1 ++ d :: d2) xs -> (Z.of_nat d < two64)%Z.
Proof.
  intros H. pose proof (supported_in _ d (repr_supported _ _ _ H) (in_elt _ _ _)) as Hs. unfold two32, two64 in *. lia.
Qed.

(** A fold over the lines of an axis, with an accumulator function that neither panics
    nor has effects on lines of the given length. *)
Lemma fold_axis_total {T R V} c (t : tensor T) a d1 d d2 xs (ini : R) (into : R -> V)
    (f : unit -> R -> T -> outcome (unit * R)) (g : list T -> R) :
  repr t (d1 ++ d :: d2) xs -> names_axis a (length d1) (length (d1 ++ d :: d2)) ->
  Forall (fun d => 0 < d) (d1 ++ d2) ->
  (forall l, length l = d -> foldM f tt ini l = Ok (tt, g l)) ->
  exists ls, axis_lines d1 d d2 xs ls /\
    fold_axis c t (Some a) ini into f tt = Ok (tt, fresh (d1 ++ d2) (map (fun l => into (g l)) ls)).
Proof.
  intros H Ha Hp Hf. destruct (c30_fold_axis c t a d1 d d2 xs ini into f tt H Ha Hp) as (ls & Hls & E).
  exists ls. split; auto. rewrite E.
  rewrite (traverse_total _ g) by (intros l Hl; apply Hf; eapply axis_lines_length; eauto; apply H).
  cbn [bind]. now rewrite map_map.
Qed.

Lemma reduce_axis_total {T} c (t : tensor T) a d1 d d2 xs (f : T -> T -> T) (g : list T -> T) :
  repr t (d1 ++ d :: d2) xs -> names_axis a (length d1) (length (d1 ++ d :: d2)) ->
  Forall (fun d => 0 < d) (d1 ++ d2) -> 0 < d ->
  (forall x l, fold_left f l x = g (x :: l)) ->
  exists ls, axis_lines d1 d d2 xs ls /\
    reduce_axis c t (Some a) (pure2 f) tt = Ok (tt, fresh (d1 ++ d2) (map g ls)).
Proof.
  intros H Ha Hp Hd Hf. destruct (c30_reduce_axis c t a d1 d d2 xs (pure2 f) tt H Ha Hp) as (ls & Hls & E).
  exists ls. split; auto. rewrite E. rewrite (traverse_total _ g); [reflexivity|].
  intros l Hl. pose proof (axis_lines_length _ _ _ _ _ _ (repr_len _ _ _ H) Hls Hl) as El.
  destruct l as [|x l]; [cbn in El; lia|]. cbn [reduceM]. now rewrite foldM_pure2, Hf.
Qed.

(** ** C50 *)

Lemma c50_mean_any {F} (o : fops F) c (t : tensor F) ds xs :
  repr t ds xs ->
  reduce_mean o c t =
  Ok (fresh [] [fdiv o (fold_left (fadd o) xs (fzero o)) (fof o (Nat.max (length xs) 1))]).
Proof.
  intros H. unfold reduce_mean. rewrite (c29_fold _ _ _ _ _ _ _ _ H).
  rewrite mean_fold by (pose proof (repr_length_small _ _ _ H); lia). reflexivity.
Qed.

Lemma c50_mean c (t : tensor R) ds xs :
  repr t ds xs -> xs <> [] -> reduce_mean R_ops c t = Ok (fresh [] [mean xs]).
Proof.
  intros H Hx. rewrite (c50_mean_any _ _ _ _ _ H). cbn [fadd fzero fdiv fof R_ops].
  rewrite fold_left_Rplus. replace (Nat.max (length xs) 1) with (length xs) by (destruct xs; [congruence|cbn; lia]).
  unfold mean. now rewrite Rplus_0_l.
Qed.

Lemma c50_variance c (t : tensor R) ds xs :
  repr t ds xs -> xs <> [] -> reduce_variance R_ops c t = Ok (fresh [] [variance xs]).
Proof.
  intros H Hx. unfold reduce_variance. rewrite (c29_fold _ _ _ _ _ _ _ _ H).
  rewrite welford_fold by (pose proof (repr_length_small _ _ _ H); cbn; lia). cbn [bind].
  rewrite welford_variance. destruct xs; [congruence|reflexivity].
Qed.

Lemma c50_std c (t : tensor R) ds xs :
  repr t ds xs -> xs <> [] -> reduce_std R_ops c t = Ok (fresh [] [sqrt (variance xs)]).
Proof.
  intros H Hx. unfold reduce_std. rewrite (c29_fold _ _ _ _ _ _ _ _ H).
  rewrite welford_fold by (pose proof (repr_length_small _ _ _ H); cbn; lia). cbn [bind].
  rewrite welford_std. destruct xs; [congruence|reflexivity].
Qed.

Lemma c50_empty c (t : tensor R) ds :
  repr t ds [] ->
  reduce_mean R_ops c t = Ok (fresh [] [0%R]) /\ reduce_variance R_ops c t = Ok (fresh [] [0%R]) /\
  reduce_std R_ops c t = Ok (fresh [] [0%R]).
Proof.
  intros H. split; [|split].
  - rewrite (c50_mean_any _ _ _ _ _ H). cbn [fold_left fdiv fzero fof R_ops length].
    change (Nat.max 0 1) with 1. change (INR 1) with 1%R. unfold Rdiv. now rewrite Rmult_0_l.
  - unfold reduce_variance. rewrite (c29_fold _ _ _ _ _ _ _ _ H). reflexivity.
  - unfold reduce_std. rewrite (c29_fold _ _ _ _ _ _ _ _ H). reflexivity.
Qed.

Lemma c50_single {F} (o : fops F) c (t : tensor F) ds x :
  repr t ds [x] ->
  reduce_variance o c t = Ok (fresh [] [fzero o]) /\ reduce_std o c t = Ok (fresh [] [fzero o]).
Proof.
  intros H. unfold reduce_variance, reduce_std. rewrite !(c29_fold _ _ _ _ _ _ _ _ H). split; reflexivity.
Qed.

Lemma c50_variance_nonneg l : (0 <= variance l)%R.
Proof. exact (variance_nonneg l). Qed.

Lemma c50_mean_axis c (t : tensor R) a d1 d d2 xs :
  repr t (d1 ++ d :: d2) xs -> names_axis a (length d1) (length (d1 ++ d :: d2)) ->
  Forall (fun d => 0 < d) (d1 ++ d2) -> 0 < d ->
  exists ls, axis_lines d1 d d2 xs ls /\
    reduce_mean_axis R_ops c t (Some a) = Ok (fresh (d1 ++ d2) (map mean ls)).
Proof.
  intros H Ha Hp Hd. pose proof (axis_len_small _ _ _ _ _ H) as Hs.
  destruct (fold_axis_total c t a d1 d d2 xs (0, fzero R_ops) (mean_result R_ops) (mean_update R_ops c)
    (fun l => (0 + length l, fold_left (fadd R_ops) l (fzero R_ops))) H Ha Hp) as (ls & Hls & E).
  { intros l Hl. apply mean_fold. lia. }
  exists ls. split; auto. unfold reduce_mean_axis. rewrite E. cbn [bind]. do 2 f_equal. apply map_ext_in.
  intros l Hl. pose proof (axis_lines_length _ _ _ _ _ _ (repr_len _ _ _ H) Hls Hl) as El.
  unfold mean_result, mean. cbn [fst snd fadd fzero fdiv fof R_ops]. rewrite fold_left_Rplus, Rplus_0_l.
  now replace (Nat.max (0 + length l) 1) with (length l) by lia.
Qed.

Lemma c50_variance_axis c (t : tensor R) a d1 d d2 xs :
  repr t (d1 ++ d :: d2) xs -> names_axis a (length d1) (length (d1 ++ d :: d2)) ->
  Forall (fun d => 0 < d) (d1 ++ d2) -> 0 < d ->
  exists ls, axis_lines d1 d d2 xs ls /\
    reduce_variance_axis R_ops c t (Some a) = Ok (fresh (d1 ++ d2) (map variance ls)).
Proof.
  intros H Ha Hp Hd. pose proof (axis_len_small _ _ _ _ _ H) as Hs.
  destruct (fold_axis_total c t a d1 d d2 xs (welford_default R_ops) (var_result R_ops) (welford_update R_ops c)
    (fun l => fold_left (wstep R_ops) l (welford_default R_ops)) H Ha Hp) as (ls & Hls & E).
  { intros l Hl. apply welford_fold. cbn. lia. }
  exists ls. split; auto. unfold reduce_variance_axis. rewrite E. cbn [bind]. do 2 f_equal. apply map_ext_in.
  intros l Hl. pose proof (axis_lines_length _ _ _ _ _ _ (repr_len _ _ _ H) Hls Hl) as El.
  rewrite welford_variance. destruct l; [cbn in El; lia|reflexivity].
Qed.

Lemma c50_std_axis c (t : tensor R) a d1 d d2 xs :
  repr t (d1 ++ d :: d2) xs -> names_axis a (length d1) (length (d1 ++ d :: d2)) ->
  Forall (fun d => 0 < d) (d1 ++ d2) -> 0 < d ->
  exists ls, axis_lines d1 d d2 xs ls /\
    reduce_std_axis R_ops c t (Some a) = Ok (fresh (d1 ++ d2) (map (fun l => sqrt (variance l)) ls)).
Proof.
  intros H Ha Hp Hd. pose proof (axis_len_small _ _ _ _ _ H) as Hs.
  destruct (fold_axis_total c t a d1 d d2 xs (welford_default R_ops) (std_result R_ops) (welford_update R_ops c)
    (fun l => fold_left (wstep R_ops) l (welford_default R_ops)) H Ha Hp) as (ls & Hls & E).
  { intros l Hl. apply welford_fold. cbn. lia. }
  exists ls. split; auto. unfold reduce_std_axis. rewrite E. cbn [bind]. do 2 f_equal. apply map_ext_in.
  intros l Hl. pose proof (axis_lines_length _ _ _ _ _ _ (repr_len _ _ _ H) Hls Hl) as El.
  rewrite welford_std. destruct l; [cbn in El; lia|reflexivity].
Qed.

Lemma c50_axis_none c (t : tensor R) ds xs :
  repr t ds xs ->
  reduce_mean_axis R_ops c t None = reduce_mean R_ops c t /\
  reduce_variance_axis R_ops c t None = reduce_variance R_ops c t /\
  reduce_std_axis R_ops c t None = reduce_std R_ops c t.
Proof.
  intros H. unfold reduce_mean_axis, reduce_variance_axis, reduce_std_axis.
  rewrite !(c30_fold_axis_none _ _ _ _ _ _ _ _ H). split; [|split]; reflexivity.
Qed.

(** ** C51 *)

Lemma c51_sum_any {T} c (add : T -> T -> outcome T) (t : tensor T) ds x xs :
  repr t ds (x :: xs) ->
  reduce_sum c add t = let* '(_, r) := foldM (lift2 add) tt x xs in Ok (fresh [] [r]).
Proof.
  intros H. unfold reduce_sum. rewrite (c29_reduce _ _ _ _ _ _ _ H).
  destruct (foldM (lift2 add) tt x xs) as [[]| |]; reflexivity.
Qed.

Lemma lift_total2 {T} (f : T -> T -> T) : lift2 (total2 f) = pure2 f :> (unit -> T -> T -> outcome (unit * T)).
Proof. reflexivity. Qed.

Lemma c51_sum c (t : tensor R) ds xs :
  repr t ds xs -> xs <> [] -> reduce_sum c (total2 Rplus) t = Ok (fresh [] [rsum xs]).
Proof.
  intros H Hx. destruct xs as [|x xs]; [congruence|]. unfold reduce_sum.
  rewrite lift_total2, (c29_reduce _ _ _ _ _ _ _ H), foldM_pure2. cbn [bind]. now rewrite fold_left_Rplus.
Qed.

Lemma c51_product c (t : tensor R) ds xs :
  repr t ds xs -> xs <> [] -> reduce_product c (total2 Rmult) t = Ok (fresh [] [rprod xs]).
Proof.
  intros H Hx. destruct xs as [|x xs]; [congruence|]. unfold reduce_product.
  rewrite lift_total2, (c29_reduce _ _ _ _ _ _ _ H), foldM_pure2. cbn [bind]. now rewrite fold_left_Rmult.
Qed.

Lemma c51_min c (t : tensor R) ds xs :
  repr t ds xs -> xs <> [] -> exists m, least m xs /\ reduce_min R_ops c t = Ok (fresh [] [m]).
Proof.
  intros H Hx. destruct xs as [|x xs]; [congruence|]. exists (fold_left (fmin R_ops) xs x).
  split; [apply fold_min_least|]. unfold reduce_min. now rewrite (c29_reduce _ _ _ _ _ _ _ H), foldM_pure2.
Qed.

Lemma c51_max c (t : tensor R) ds xs :
  repr t ds xs -> xs <> [] -> exists m, greatest m xs /\ reduce_max R_ops c t = Ok (fresh [] [m]).
Proof.
  intros H Hx. destruct xs as [|x xs]; [congruence|]. exists (fold_left (fmax R_ops) xs x).
  split; [apply fold_max_greatest|]. unfold reduce_max. now rewrite (c29_reduce _ _ _ _ _ _ _ H), foldM_pure2.
Qed.

Lemma c51_hypot c (t : tensor R) ds xs :
  repr t ds xs -> reduce_hypot R_ops c t = Ok (fresh [] [sqrt (rsum (map (fun x => x * x)%R xs))]).
Proof.
  intros H. unfold reduce_hypot. rewrite (c29_fold_pure _ _ _ _ _ _ _ H). cbn [bind].
  do 3 f_equal. cbn [fsqrt fzero R_ops]. f_equal.
  assert (G : forall l r, fold_left (hypot_update R_ops) l r = (r + rsum (map (fun x => x * x)%R l))%R).
  { induction l as [|x l IH]; intros r; [cbn; lra|]. cbn [fold_left map]. rewrite IH.
    unfold hypot_update. cbn [fadd fmul R_ops]. change (rsum (x * x :: map (fun x => x * x) l))%R
      with (x * x + rsum (map (fun x => x * x) l))%R. lra. }
  now rewrite G, Rplus_0_l.
Qed.

Lemma c51_empty {F} (o : fops F) c (add : F -> F -> outcome F) (t : tensor F) ds :
  repr t ds [] ->
  reduce_sum c add t = Panic /\ reduce_product c add t = Panic /\
  reduce_min o c t = Panic /\ reduce_max o c t = Panic.
Proof.
  intros H. unfold reduce_sum, reduce_product, reduce_min, reduce_max.
  rewrite !(c29_reduce_empty _ _ _ _ _ H). split; [|split; [|split]]; reflexivity.
Qed.

Lemma c51_sum_axis c (t : tensor R) a d1 d d2 xs :
  repr t (d1 ++ d :: d2) xs -> names_axis a (length d1) (length (d1 ++ d :: d2)) ->
  Forall (fun d => 0 < d) (d1 ++ d2) -> 0 < d ->
  exists ls, axis_lines d1 d d2 xs ls /\
    reduce_sum_axis c (total2 Rplus) t (Some a) = Ok (fresh (d1 ++ d2) (map rsum ls)).
Proof.
  intros H Ha Hp Hd. destruct (reduce_axis_total c t a d1 d d2 xs Rplus rsum H Ha Hp Hd) as (ls & Hls & E).
  { intros x l. now rewrite fold_left_Rplus. }
  exists ls. split; auto. unfold reduce_sum_axis. now rewrite lift_total2, E.
Qed.

Lemma c51_product_axis c (t : tensor R) a d1 d d2 xs :
  repr t (d1 ++ d :: d2) xs -> names_axis a (length d1) (length (d1 ++ d :: d2)) ->
  Forall (fun d => 0 < d) (d1 ++ d2) -> 0 < d ->
  exists ls, axis_lines d1 d d2 xs ls /\
    reduce_product_axis c (total2 Rmult) t (Some a) = Ok (fresh (d1 ++ d2) (map rprod ls)).
Proof.
  intros H Ha Hp Hd. destruct (reduce_axis_total c t a d1 d d2 xs Rmult rprod H Ha Hp Hd) as (ls & Hls & E).
  { intros x l. now rewrite fold_left_Rmult. }
  exists ls. split; auto. unfold reduce_product_axis. now rewrite lift_total2, E.
Qed.

Lemma Forall2_map_l {A B} (P : B -> A -> Prop) (f : A -> B) l : (forall x, In x l -> P (f x) x) -> Forall2 P (map f l) l.
Proof.
  induction l; intros H; cbn; constructor; [apply H; now left|]. apply IHl. intros. apply H. now right.
Qed.

Lemma c51_min_axis c (t : tensor R) a d1 d d2 xs :
  repr t (d1 ++ d :: d2) xs -> names_axis a (length d1) (length (d1 ++ d :: d2)) ->
  Forall (fun d => 0 < d) (d1 ++ d2) -> 0 < d ->
  exists ls ms, axis_lines d1 d d2 xs ls /\ Forall2 least ms ls /\
    reduce_min_axis R_ops c t (Some a) = Ok (fresh (d1 ++ d2) ms).
Proof.
  intros H Ha Hp Hd.
  destruct (reduce_axis_total c t a d1 d d2 xs (fmin R_ops)
    (fun l => match l with [] => 0%R | x :: l => fold_left (fmin R_ops) l x end) H Ha Hp Hd) as (ls & Hls & E); auto.
  eexists ls, _. split; [auto|]. split; [|unfold reduce_min_axis; rewrite E; reflexivity].
  apply Forall2_map_l. intros l Hl.
  pose proof (axis_lines_length _ _ _ _ _ _ (repr_len _ _ _ H) Hls Hl) as El.
  destruct l as [|x l]; [cbn in El; lia|]. apply fold_min_least.
Qed.

Lemma c51_max_axis c (t : tensor R) a d1 d d2 xs :
  repr t (d1 ++ d :: d2) xs -> names_axis a (length d1) (length (d1 ++ d :: d2)) ->
  Forall (fun d => 0 < d) (d1 ++ d2) -> 0 < d ->
  exists ls ms, axis_lines d1 d d2 xs ls /\ Forall2 greatest ms ls /\
    reduce_max_axis R_ops c t (Some a) = Ok (fresh (d1 ++ d2) ms).
Proof.
  intros H Ha Hp Hd.
  destruct (reduce_axis_total c t a d1 d d2 xs (fmax R_ops)
    (fun l => match l with [] => 0%R | x :: l => fold_left (fmax R_ops) l x end) H Ha Hp Hd) as (ls & Hls & E); auto.
  eexists ls, _. split; [auto|]. split; [|unfold reduce_max_axis; rewrite E; reflexivity].
  apply Forall2_map_l. intros l Hl.
  pose proof (axis_lines_length _ _ _ _ _ _ (repr_len _ _ _ H) Hls Hl) as El.
  destruct l as [|x l]; [cbn in El; lia|]. apply fold_max_greatest.
Qed.

Lemma c51_axis_total c (t : tensor R) a d1 d d2 xs :
  repr t (d1 ++ d :: d2) xs -> names_axis a (length d1) (length (d1 ++ d :: d2)) ->
  Forall (fun d => 0 < d) (d1 ++ d2) -> 0 < d ->
  exists u s,
    reduce_sum_axis c (total2 Rplus) t (Some a) = Ok u /\
    reduce_sum c (total2 Rplus) u = Ok s /\ reduce_sum c (total2 Rplus) t = Ok s.
Proof.
  intros H Ha Hp Hd. destruct (c51_sum_axis c t a d1 d d2 xs H Ha Hp Hd) as (ls & Hls & E).
  pose proof (repr_len _ _ _ H) as Hl.
  assert (Hpos : 0 < prod (d1 ++ d2)).
  { clear -Hp. induction Hp; cbn; [lia|nia]. }
  assert (Hlp : length xs = d * prod (d1 ++ d2)) by (rewrite Hl, !prod_app; cbn; nia).
  pose proof (c30_lines_unique _ _ _ _ _ _ Hls (axis_lines_lines _ _ _ _ Hl)) as ->.
  set (ls := lines (prod d1) d (prod d2) xs) in *.
  assert (Hls' : length (map rsum ls) = prod (d1 ++ d2)) by (rewrite map_length; apply Hls).
  assert (Hu : repr (fresh (d1 ++ d2) (map rsum ls)) (d1 ++ d2) (map rsum ls)).
  { apply repr_fresh; auto. eapply supported_drop. apply H. }
  eexists _, _. split; [exact E|]. split; [apply (c51_sum _ _ _ _ Hu)|].
  - intros E0. rewrite E0 in Hls'. cbn in Hls'. lia.
  - rewrite (c51_sum _ _ _ _ H) by (intros ->; cbn in Hlp; nia). unfold ls. rewrite rsum_lines; auto.
    rewrite Hl, prod_app. reflexivity.
Qed.

Lemma c51_hypot_b32_overflow ln_ exp_ pow_ :
  reduce_hypot (b32_ops ln_ exp_ pow_) dev (fresh [1] [b32_of_Z 1 100])
  = Ok (fresh [] [b32_of_Z 1 128]) /\ Flocq.IEEE754.BinarySingleNaN.is_finite (b32_of_Z 1 128) = false.
Proof. split; vm_compute; reflexivity. Qed.

(** ** C52 *)

Lemma unit_fold l : forall s,
  fold_left (unit_update R_ops) l s = (fold_left (fmin R_ops) l (fst s), fold_left (fmax R_ops) l (snd s)).
Proof. induction l as [|x l IH]; intros [a b]; [reflexivity|]. cbn [fold_left]. now rewrite IH. Qed.

Lemma fold_min_ini x l m : (x <= m)%R -> fold_left (fmin R_ops) (x :: l) m = fold_left (fmin R_ops) l x.
Proof. intros H. cbn [fold_left]. f_equal. rewrite R_fmin. now apply Rmin_right. Qed.

Lemma fold_max_ini x l m : (m <= x)%R -> fold_left (fmax R_ops) (x :: l) m = fold_left (fmax R_ops) l x.
Proof. intros H. cbn [fold_left]. f_equal. rewrite R_fmax. now apply Rmax_right. Qed.

Lemma c52_normalize_unit c (t : tensor R) ds xs mn mx :
  repr t ds xs -> xs <> [] -> Forall f32_range xs -> least mn xs -> greatest mx xs ->
  normalize_unit R_ops c t = Ok (fresh ds (map (fun x => (x - mn) / (mx - mn))%R xs)).
Proof.
  intros H Hx Hr Hmn Hmx. unfold normalize_unit.
  assert (Hc : can_alloc c (length xs)) by (destruct xs; [congruence|left; cbn; lia]).
  rewrite (c33_no_axis_partial c t ds xs) by auto.
  unfold normM. rewrite foldM_pure2. cbn [bind]. unfold pure1 at 1. cbn [bind]. rewrite unit_fold. cbn [fst snd].
  assert (Em : fold_left (fmin R_ops) xs (fmax_value R_ops) = mn).
  { destruct xs as [|x xs]; [congruence|]. inversion Hr as [|? ? Hb _]; subst. destruct Hb as [_ Hb].
    rewrite (fold_min_ini x xs) by exact Hb.
    destruct (fold_min_least x xs) as [A1 A2]. destruct Hmn as [B1 B2].
    apply Rle_antisym; [now apply A2|now apply B2]. }
  assert (EM : fold_left (fmax R_ops) xs (fmin_value R_ops) = mx).
  { destruct xs as [|x xs]; [congruence|]. inversion Hr as [|? ? Hb _]; subst. destruct Hb as [Hb _].
    rewrite (fold_max_ini x xs) by exact Hb.
    destruct (fold_max_greatest x xs) as [A1 A2]. destruct Hmx as [B1 B2].
    apply Rle_antisym; [now apply B2|now apply A2]. }
  rewrite Em, EM.
  rewrite (traverse_total _ (fun x => (x - mn) / (mx - mn))%R) by reflexivity. reflexivity.
Qed.

Lemma c52_unit_interval c (t : tensor R) ds xs :
  repr t ds xs -> Forall f32_range xs -> (exists x y, In x xs /\ In y xs /\ x <> y) ->
  exists ys, normalize_unit R_ops c t = Ok (fresh ds ys) /\ length ys = length xs /\
    (forall i y, nth_error ys i = Some y -> (0 <= y <= 1)%R) /\
    (forall i j a b u v, nth_error xs i = Some a -> nth_error xs j = Some b ->
       nth_error ys i = Some u -> nth_error ys j = Some v -> (a < b <-> u < v)%R) /\
    (forall i a u, nth_error xs i = Some a -> nth_error ys i = Some u ->
       (least a xs <-> u = 0%R) /\ (greatest a xs <-> u = 1%R)).
Proof.
  intros H Hr (x0 & y0 & Hx0 & Hy0 & Hne).
  assert (Hx : xs <> []) by (intros ->; destruct Hx0).
  assert (Hex : exists mn mx, least mn xs /\ greatest mx xs).
  { destruct xs as [|x xs]; [congruence|]. eauto using fold_min_least, fold_max_greatest. }
  destruct Hex as (mn & mx & Hmn & Hmx).
  assert (Hlt : (mn < mx)%R).
  { pose proof (proj2 Hmn x0 Hx0). pose proof (proj2 Hmn y0 Hy0).
    pose proof (proj2 Hmx x0 Hx0). pose proof (proj2 Hmx y0 Hy0). destruct (Rtotal_order x0 y0) as [?|[?|?]]; lra. }
  exists (map (fun x => (x - mn) / (mx - mn))%R xs). split; [now apply c52_normalize_unit|].
  split; [now rewrite map_length|].
  assert (Hd : (0 < mx - mn)%R) by lra. pose proof (Rinv_0_lt_compat _ Hd) as Hi.
  assert (Hid : ((mx - mn) * / (mx - mn))%R = 1%R) by (apply Rinv_r; lra).
  assert (Hmap : forall i u, nth_error (map (fun x => (x - mn) / (mx - mn))%R xs) i = Some u ->
    exists x, nth_error xs i = Some x /\ u = ((x - mn) / (mx - mn))%R).
  { intros i u Hu. rewrite nth_error_map in Hu. destruct (nth_error xs i); [|discriminate].
    injection Hu as <-. eauto. }
  split; [|split].
  - intros i y Hy. destruct (Hmap _ _ Hy) as (x & Ex & ->). apply nth_error_In in Ex.
    pose proof (proj2 Hmn x Ex). pose proof (proj2 Hmx x Ex). unfold Rdiv. split; nra.
  - intros i j a b u v Ea Eb Eu Ev. destruct (Hmap _ _ Eu) as (x & Ex & ->). destruct (Hmap _ _ Ev) as (y & Ey & ->).
    rewrite Ea in Ex. rewrite Eb in Ey. injection Ex as <-. injection Ey as <-. unfold Rdiv. split; intros; nra.
  - intros i a u Ea Eu. destruct (Hmap _ _ Eu) as (x & Ex & ->). rewrite Ea in Ex. injection Ex as <-.
    apply nth_error_In in Ea.
    pose proof (proj2 Hmn a Ea). pose proof (proj2 Hmx a Ea). unfold Rdiv. split; split.
    + intros [_ La]. pose proof (La mn (proj1 Hmn)). replace a with mn by lra. lra.
    + intros E. assert (a = mn) by nra. now subst.
    + intros [_ La]. pose proof (La mx (proj1 Hmx)). replace a with mx by lra. exact Hid.
    + intros E. assert (a = mx) by nra. now subst.
Qed.

Lemma c52_constant_b32 ln_ exp_ pow_ :
  let o := b32_ops ln_ exp_ pow_ in
  normalize_unit o dev (fresh [2] [fone o; fone o])
  = Ok (fresh [2] [Flocq.IEEE754.BinarySingleNaN.B754_nan; Flocq.IEEE754.BinarySingleNaN.B754_nan]).
Proof. vm_compute. reflexivity. Qed.

Lemma c52_overflow_b32 ln_ exp_ pow_ :
  let o := b32_ops ln_ exp_ pow_ in
  normalize_unit o dev (fresh [2] [fmin_value o; fmax_value o])
  = Ok (fresh [2] [b32_of_Z 0 0; Flocq.IEEE754.BinarySingleNaN.B754_nan]).
Proof. vm_compute. reflexivity. Qed.
