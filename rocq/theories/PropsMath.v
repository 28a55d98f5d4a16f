(** * Properties of the reductions and of normalize_unit (C50-C52) *)
From Coq Require Import Reals Lra.
From Coq Require Import ZifyBool ZifyNat ZifyN.
From Verif Require Import Base ShapeModel TensorModel AxisModel MapModel NumModel FloatModel InitModel MathModel
  Spec FloatSpec BaseFacts ShapeFacts ShapeFacts2 CoordFacts TensorFacts TensorFacts2 MapFacts SafeFacts RealFacts
  MathFacts MapSpec MapProofs.
From Verif Require Import MathSpec MathProofs.

(** ** C50 *)

(** For any arithmetic the mean is the sum, added up from the left, divided by the
    number of elements (by one for an empty tensor). *)
Theorem C50_mean_any {F} (o : fops F) c (t : tensor F) ds xs :
  repr t ds xs ->
  reduce_mean o c t =
  Ok (fresh [] [fdiv o (fold_left (fadd o) xs (fzero o)) (fof o (Nat.max (length xs) 1))]).
Proof. exact (@c50_mean_any F o c t ds xs). Qed.
Print Assumptions C50_mean_any.

Theorem C50_mean c (t : tensor R) ds xs :
  repr t ds xs -> xs <> [] -> reduce_mean R_ops c t = Ok (fresh [] [mean xs]).
Proof. exact (@c50_mean c t ds xs). Qed.
Print Assumptions C50_mean.

Theorem C50_variance c (t : tensor R) ds xs :
  repr t ds xs -> xs <> [] -> reduce_variance R_ops c t = Ok (fresh [] [variance xs]).
Proof. exact (@c50_variance c t ds xs). Qed.
Print Assumptions C50_variance.

Theorem C50_std c (t : tensor R) ds xs :
  repr t ds xs -> xs <> [] -> reduce_std R_ops c t = Ok (fresh [] [sqrt (variance xs)]).
Proof. exact (@c50_std c t ds xs). Qed.
Print Assumptions C50_std.

(** All three are zero for an empty tensor. *)
Theorem C50_empty c (t : tensor R) ds :
  repr t ds [] ->
  reduce_mean R_ops c t = Ok (fresh [] [0%R]) /\ reduce_variance R_ops c t = Ok (fresh [] [0%R]) /\
  reduce_std R_ops c t = Ok (fresh [] [0%R]).
Proof. exact (@c50_empty c t ds). Qed.
Print Assumptions C50_empty.

(** A single element has variance and deviation zero, for any arithmetic (also for
    infinities and NaN). *)
Theorem C50_single {F} (o : fops F) c (t : tensor F) ds x :
  repr t ds [x] ->
  reduce_variance o c t = Ok (fresh [] [fzero o]) /\ reduce_std o c t = Ok (fresh [] [fzero o]).
Proof. exact (@c50_single F o c t ds x). Qed.
Print Assumptions C50_single.

Theorem C50_variance_nonneg l : (0 <= variance l)%R.
Proof. exact (@c50_variance_nonneg l). Qed.
Print Assumptions C50_variance_nonneg.

(** Along an axis: one result per kept coordinate. *)
Theorem C50_mean_axis c (t : tensor R) a d1 d d2 xs :
  repr t (d1 ++ d :: d2) xs -> names_axis a (length d1) (length (d1 ++ d :: d2)) ->
  Forall (fun d => 0 < d) (d1 ++ d2) -> 0 < d ->
  exists ls, axis_lines d1 d d2 xs ls /\
    reduce_mean_axis R_ops c t (Some a) = Ok (fresh (d1 ++ d2) (map mean ls)).
Proof. exact (@c50_mean_axis c t a d1 d d2 xs). Qed.
Print Assumptions C50_mean_axis.

Theorem C50_variance_axis c (t : tensor R) a d1 d d2 xs :
  repr t (d1 ++ d :: d2) xs -> names_axis a (length d1) (length (d1 ++ d :: d2)) ->
  Forall (fun d => 0 < d) (d1 ++ d2) -> 0 < d ->
  exists ls, axis_lines d1 d d2 xs ls /\
    reduce_variance_axis R_ops c t (Some a) = Ok (fresh (d1 ++ d2) (map variance ls)).
Proof. exact (@c50_variance_axis c t a d1 d d2 xs). Qed.
Print Assumptions C50_variance_axis.

Theorem C50_std_axis c (t : tensor R) a d1 d d2 xs :
  repr t (d1 ++ d :: d2) xs -> names_axis a (length d1) (length (d1 ++ d :: d2)) ->
  Forall (fun d => 0 < d) (d1 ++ d2) -> 0 < d ->
  exists ls, axis_lines d1 d d2 xs ls /\
    reduce_std_axis R_ops c t (Some a) = Ok (fresh (d1 ++ d2) (map (fun l => sqrt (variance l)) ls)).
Proof. exact (@c50_std_axis c t a d1 d d2 xs). Qed.
Print Assumptions C50_std_axis.

(** Without an axis: as for the whole tensor. *)
Theorem C50_axis_none c (t : tensor R) ds xs :
  repr t ds xs ->
  reduce_mean_axis R_ops c t None = reduce_mean R_ops c t /\
  reduce_variance_axis R_ops c t None = reduce_variance R_ops c t /\
  reduce_std_axis R_ops c t None = reduce_std R_ops c t.
Proof. exact (@c50_axis_none c t ds xs). Qed.
Print Assumptions C50_axis_none.

Example C50_example :
  reduce_variance R_ops dev (fresh [2; 2] [2; 4; 4; 10]%R) = Ok (fresh [] [9]%R) /\
  reduce_mean R_ops dev (fresh [2; 2] [2; 4; 4; 10]%R) = Ok (fresh [] [5]%R) /\
  reduce_std R_ops dev (fresh [2; 2] [2; 4; 4; 10]%R) = Ok (fresh [] [3]%R).
Proof.
  assert (H : repr (fresh [2; 2] [2; 4; 4; 10]%R) [2; 2] [2; 4; 4; 10]%R)
    by (apply repr_fresh; [split; cbn; lia|reflexivity]).
  assert (Hm : mean [2; 4; 4; 10]%R = 5%R) by (unfold mean; cbn; field).
  assert (Hv : variance [2; 4; 4; 10]%R = (3 * 3)%R) by (unfold variance; rewrite Hm; cbn; field).
  rewrite (c50_variance _ _ _ _ H), (c50_mean _ _ _ _ H), (c50_std _ _ _ _ H) by discriminate.
  rewrite Hm, Hv. rewrite sqrt_square by lra. split; [|split]; auto. do 3 f_equal. lra.
Qed.

(** ** C51 *)

(** For any element operation the reductions combine the elements from the left. *)
Theorem C51_sum_any {T} c (add : T -> T -> outcome T) (t : tensor T) ds x xs :
  repr t ds (x :: xs) ->
  reduce_sum c add t = let* '(_, r) := foldM (lift2 add) tt x xs in Ok (fresh [] [r]).
Proof. exact (@c51_sum_any T c add t ds x xs). Qed.
Print Assumptions C51_sum_any.

Theorem C51_sum c (t : tensor R) ds xs :
  repr t ds xs -> xs <> [] -> reduce_sum c (total2 Rplus) t = Ok (fresh [] [rsum xs]).
Proof. exact (@c51_sum c t ds xs). Qed.
Print Assumptions C51_sum.

Theorem C51_product c (t : tensor R) ds xs :
  repr t ds xs -> xs <> [] -> reduce_product c (total2 Rmult) t = Ok (fresh [] [rprod xs]).
Proof. exact (@c51_product c t ds xs). Qed.
Print Assumptions C51_product.

Theorem C51_min c (t : tensor R) ds xs :
  repr t ds xs -> xs <> [] -> exists m, least m xs /\ reduce_min R_ops c t = Ok (fresh [] [m]).
Proof. exact (@c51_min c t ds xs). Qed.
Print Assumptions C51_min.

Theorem C51_max c (t : tensor R) ds xs :
  repr t ds xs -> xs <> [] -> exists m, greatest m xs /\ reduce_max R_ops c t = Ok (fresh [] [m]).
Proof. exact (@c51_max c t ds xs). Qed.
Print Assumptions C51_max.

Theorem C51_hypot c (t : tensor R) ds xs :
  repr t ds xs -> reduce_hypot R_ops c t = Ok (fresh [] [sqrt (rsum (map (fun x => x * x)%R xs))]).
Proof. exact (@c51_hypot c t ds xs). Qed.
Print Assumptions C51_hypot.

(** An empty tensor has no sum, product, least or greatest element: panic. *)
Theorem C51_empty {F} (o : fops F) c (add : F -> F -> outcome F) (t : tensor F) ds :
  repr t ds [] ->
  reduce_sum c add t = Panic /\ reduce_product c add t = Panic /\
  reduce_min o c t = Panic /\ reduce_max o c t = Panic.
Proof. exact (@c51_empty F o c add t ds). Qed.
Print Assumptions C51_empty.

(** Along an axis. *)
Theorem C51_sum_axis c (t : tensor R) a d1 d d2 xs :
  repr t (d1 ++ d :: d2) xs -> names_axis a (length d1) (length (d1 ++ d :: d2)) ->
  Forall (fun d => 0 < d) (d1 ++ d2) -> 0 < d ->
  exists ls, axis_lines d1 d d2 xs ls /\
    reduce_sum_axis c (total2 Rplus) t (Some a) = Ok (fresh (d1 ++ d2) (map rsum ls)).
Proof. exact (@c51_sum_axis c t a d1 d d2 xs). Qed.
Print Assumptions C51_sum_axis.

Theorem C51_product_axis c (t : tensor R) a d1 d d2 xs :
  repr t (d1 ++ d :: d2) xs -> names_axis a (length d1) (length (d1 ++ d :: d2)) ->
  Forall (fun d => 0 < d) (d1 ++ d2) -> 0 < d ->
  exists ls, axis_lines d1 d d2 xs ls /\
    reduce_product_axis c (total2 Rmult) t (Some a) = Ok (fresh (d1 ++ d2) (map rprod ls)).
Proof. exact (@c51_product_axis c t a d1 d d2 xs). Qed.
Print Assumptions C51_product_axis.

Theorem C51_min_axis c (t : tensor R) a d1 d d2 xs :
  repr t (d1 ++ d :: d2) xs -> names_axis a (length d1) (length (d1 ++ d :: d2)) ->
  Forall (fun d => 0 < d) (d1 ++ d2) -> 0 < d ->
  exists ls ms, axis_lines d1 d d2 xs ls /\ Forall2 least ms ls /\
    reduce_min_axis R_ops c t (Some a) = Ok (fresh (d1 ++ d2) ms).
Proof. exact (@c51_min_axis c t a d1 d d2 xs). Qed.
Print Assumptions C51_min_axis.

Theorem C51_max_axis c (t : tensor R) a d1 d d2 xs :
  repr t (d1 ++ d :: d2) xs -> names_axis a (length d1) (length (d1 ++ d :: d2)) ->
  Forall (fun d => 0 < d) (d1 ++ d2) -> 0 < d ->
  exists ls ms, axis_lines d1 d d2 xs ls /\ Forall2 greatest ms ls /\
    reduce_max_axis R_ops c t (Some a) = Ok (fresh (d1 ++ d2) ms).
Proof. exact (@c51_max_axis c t a d1 d d2 xs). Qed.
Print Assumptions C51_max_axis.

(** The sums along an axis add up to the sum of the whole tensor. *)
Theorem C51_axis_total c (t : tensor R) a d1 d d2 xs :
  repr t (d1 ++ d :: d2) xs -> names_axis a (length d1) (length (d1 ++ d :: d2)) ->
  Forall (fun d => 0 < d) (d1 ++ d2) -> 0 < d ->
  exists u s,
    reduce_sum_axis c (total2 Rplus) t (Some a) = Ok u /\
    reduce_sum c (total2 Rplus) u = Ok s /\ reduce_sum c (total2 Rplus) t = Ok s.
Proof. exact (@c51_axis_total c t a d1 d d2 xs). Qed.
Print Assumptions C51_axis_total.

Example C51_example :
  (let t := fresh [2; 3] [1; 2; 3; 4; 5; 6] in
   reduce_sum dev (total2 Nat.add) t = Ok (fresh [] [21]) /\
   reduce_sum_axis dev (total2 Nat.add) t (Some 1%Z) = Ok (fresh [2] [6; 15]) /\
   reduce_sum_axis dev (total2 Nat.add) t (Some (-2)%Z) = Ok (fresh [3] [5; 7; 9]) /\
   reduce_product dev (total2 Nat.mul) t = Ok (fresh [] [720])) /\
  reduce_hypot R_ops dev (fresh [2] [3; 4]%R) = Ok (fresh [] [5]%R).
Proof.
  split; [split; [|split; [|split]]; reflexivity|].
  rewrite (c51_hypot dev (fresh [2] [3; 4]%R) [2] [3; 4]%R) by (apply repr_fresh; [split; cbn; lia|reflexivity]).
  do 3 f_equal. cbn. replace (3 * 3 + (4 * 4 + 0))%R with (5 * 5)%R by ring. apply sqrt_square. lra.
Qed.

(** In binary32 the squares overflow although the norm is representable: the norm of
    [2^100] is computed as infinity. *)
Theorem C51_hypot_b32_overflow ln_ exp_ pow_ :
  reduce_hypot (b32_ops ln_ exp_ pow_) dev (fresh [1] [b32_of_Z 1 100])
  = Ok (fresh [] [b32_of_Z 1 128]) /\ Flocq.IEEE754.BinarySingleNaN.is_finite (b32_of_Z 1 128) = false.
Proof. exact (@c51_hypot_b32_overflow ln_ exp_ pow_). Qed.
Print Assumptions C51_hypot_b32_overflow.

(** ** C52 *)

(** With [mn] the least and [mx] the greatest element, each element [x] becomes
    [(x - mn) / (mx - mn)]. *)
Theorem C52_normalize_unit c (t : tensor R) ds xs mn mx :
  repr t ds xs -> xs <> [] -> Forall f32_range xs -> least mn xs -> greatest mx xs ->
  normalize_unit R_ops c t = Ok (fresh ds (map (fun x => (x - mn) / (mx - mn))%R xs)).
Proof. exact (@c52_normalize_unit c t ds xs mn mx). Qed.
Print Assumptions C52_normalize_unit.

(** With at least two distinct values the results lie in [0, 1], keep the order, and
    the least element becomes 0 and the greatest 1. *)
Theorem C52_unit_interval c (t : tensor R) ds xs :
  repr t ds xs -> Forall f32_range xs -> (exists x y, In x xs /\ In y xs /\ x <> y) ->
  exists ys, normalize_unit R_ops c t = Ok (fresh ds ys) /\ length ys = length xs /\
    (forall i y, nth_error ys i = Some y -> (0 <= y <= 1)%R) /\
    (forall i j a b u v, nth_error xs i = Some a -> nth_error xs j = Some b ->
       nth_error ys i = Some u -> nth_error ys j = Some v -> (a < b <-> u < v)%R) /\
    (forall i a u, nth_error xs i = Some a -> nth_error ys i = Some u ->
       (least a xs <-> u = 0%R) /\ (greatest a xs <-> u = 1%R)).
Proof. exact (@c52_unit_interval c t ds xs). Qed.
Print Assumptions C52_unit_interval.

(** The exclusion is needed: in binary32 a constant tensor becomes NaN. *)
Theorem C52_constant_b32 ln_ exp_ pow_ :
  let o := b32_ops ln_ exp_ pow_ in
  normalize_unit o dev (fresh [2] [fone o; fone o])
  = Ok (fresh [2] [Flocq.IEEE754.BinarySingleNaN.B754_nan; Flocq.IEEE754.BinarySingleNaN.B754_nan]).
Proof. exact (@c52_constant_b32 ln_ exp_ pow_). Qed.
Print Assumptions C52_constant_b32.

(** In binary32 the difference of the extreme values can overflow; the greatest value
    then becomes NaN instead of 1. *)
Theorem C52_overflow_b32 ln_ exp_ pow_ :
  let o := b32_ops ln_ exp_ pow_ in
  normalize_unit o dev (fresh [2] [fmin_value o; fmax_value o])
  = Ok (fresh [2] [b32_of_Z 0 0; Flocq.IEEE754.BinarySingleNaN.B754_nan]).
Proof. exact (@c52_overflow_b32 ln_ exp_ pow_). Qed.
Print Assumptions C52_overflow_b32.

Example C52_example :
  normalize_unit R_ops dev (fresh [2; 2] [3; 1; 5; 2]%R) = Ok (fresh [2; 2] [1/2; 0; 1; 1/4]%R).
Proof.
  rewrite (c52_normalize_unit dev _ [2; 2] [3; 1; 5; 2]%R 1%R 5%R).
  - cbn [map]. do 2 f_equal. repeat (apply f_equal2; [field|]). reflexivity.
  - apply repr_fresh; [split; cbn; lia|reflexivity].
  - discriminate.
  - assert (B : (5 <= IZR (16777215 * 2 ^ 104))%R) by (apply IZR_le; vm_compute; discriminate).
    unfold f32_range. repeat (apply Forall_cons; [lra|]). constructor.
  - split; [cbn; auto|]. intros x. cbn. intuition lra.
  - split; [cbn; auto|]. intros x. cbn. intuition lra.
Qed.
