(** * What the code does where a property as stated fails: exact characterisations *)
From Coq Require Import ZifyBool ZifyNat ZifyN.
From Verif Require Import Base ShapeModel TensorModel AxisModel MapModel ArrayModel NumModel Spec BaseFacts
  ShapeFacts ShapeFacts2 CoordFacts TensorFacts TensorFacts2 MapFacts ArrayFacts SplitFacts StackFacts SafeFacts SafetyFacts ShapeSpec ShapeProofs TensorSpec TensorProofs MapSpec MapProofs.
From Verif Require Import ExactProofs ExactProofs2.

(** ** C02 *)

(** Two shape values compare equal exactly when they have the same dimensions and also agree
    in the array slots their rank does not use. *)
Theorem C02_exact c a b :
  length (dims a) = 6 -> length (dims b) = 6 -> rank a <= 6 -> rank b <= 6 ->
  (shape_eqb a b = true <->
   as_vec c a = as_vec c b /\ forall i, rank a <= i < 6 -> nth i (dims a) 0 = nth i (dims b) 0).
Proof. exact (@c02_exact c a b). Qed.
Print Assumptions C02_exact.

Example C02_exact_example :
  exists s t, with_cols scalar 3 = Ok s /\ with_cols scalar 3 = Ok t /\ as_vec dev s = Ok [] /\
    shape_eqb s t = true /\ shape_eqb s scalar = false /\ nth 0 (dims s) 0 = 3.
Proof. do 2 eexists. repeat split; reflexivity. Qed.

(** ** C04 *)

(** [insert] succeeds exactly when the result fits and the code is not asked to put a new
    outermost dimension on a shape of rank 5. *)
Theorem C04_exact c ds i v :
  length ds <= 6 -> i <= length ds ->
  ((exists s, insert c (canon ds) i v = Ok s) <-> length ds < 6 /\ ~ (length ds = 5 /\ i = 0)).
Proof. exact (@c04_exact c ds i v). Qed.
Print Assumptions C04_exact.

Example C04_exact_example :
  (exists s, insert dev (canon [2; 3; 4; 5; 6]) 1 7 = Ok s /\ as_vec dev s = Ok [2; 7; 3; 4; 5; 6]) /\
  insert dev (canon [2; 3; 4; 5; 6]) 0 7 = Panic /\ insert dev (canon [1; 2; 3; 4; 5; 6]) 3 7 = Panic.
Proof. split; [eexists; split; reflexivity|]. split; reflexivity. Qed.

(** ** C06 *)

(** [squeeze] with an axis, for every axis value that does not overflow: the axis is reduced
    modulo the rank, and dimension [axis - 1] is the one removed if it is 1.  Below [-rank] an
    axis that is not a multiple of the rank is rejected when overflow is checked, and is
    ignored when it is not. *)
Theorem C06_exact c ds a :
  0 < length ds <= 6 -> (- two63 <= a)%Z -> (a + 6 < two63)%Z ->
  let r := Z.of_nat (length ds) in
  let p := Z.to_nat (a mod r) in
  squeeze c (canon ds) (Some a) =
  if ((- r <=? a) || (a mod r =? 0))%Z
  then Ok (canon (if (0 <? p) && (nth (p - 1) ds 0 =? 1)
                  then match remove_at (p - 1) ds with [] => [1] | l => l end
                  else ds))
  else if overflow_checks c then Panic else Ok (canon ds).
Proof. exact (@c06_exact c ds a). Qed.
Print Assumptions C06_exact.

Example C06_exact_example :
  squeeze dev (canon [2; 1; 3]) (Some (-1)%Z) = Ok (canon [2; 3]) /\
  squeeze dev (canon [2; 1; 3]) (Some 5%Z) = Ok (canon [2; 3]) /\
  squeeze dev (canon [2; 1; 3]) (Some (-4)%Z) = Panic /\
  squeeze release (canon [2; 1; 3]) (Some (-4)%Z) = Ok (canon [2; 1; 3]).
Proof.
  pose proof (fun c a => c06_exact c [2; 1; 3] a ltac:(cbn; lia)) as H. cbn zeta in H. cbn [length] in H.
  refine (conj _ (conj _ (conj _ _))); rewrite H by (unfold two63; lia); reflexivity.
Qed.

(** ** C07 *)

(** What [append_dims] computes: it panics unless the new dimensions fit into the array; if
    they do they are stored in reversed order (innermost first), in front of the old ones,
    and the rank becomes the old rank plus six.  Reading the result back therefore panics,
    except when the old rank was zero, where the result has six dimensions: zeros, then the
    appended ones reversed. *)
Theorem C07_exact c ds tail :
  length ds <= 6 ->
  (6 < length ds + length tail -> append_dims (canon ds) tail = Panic) /\
  (length ds + length tail <= 6 ->
   exists s, append_dims (canon ds) tail = Ok s /\ rank s = length ds + 6 /\
     dims s = rev ds ++ map as_u32 tail ++ repeat 0 (6 - length ds - length tail) /\
     (ds <> [] -> as_vec c s = Panic) /\
     (ds = [] -> as_vec c s = Ok (repeat 0 (6 - length tail) ++ rev (map as_u32 tail)))).
Proof. exact (@c07_exact c ds tail). Qed.
Print Assumptions C07_exact.

Example C07_exact_example :
  append_dims (canon [2; 3]) [4; 5] = Ok (mkShape [3; 2; 4; 5; 0; 0] 8) /\
  as_vec dev (mkShape [3; 2; 4; 5; 0; 0] 8) = Panic /\
  append_dims (canon [1; 2; 3; 4; 5]) [6; 7] = Panic /\
  append_dims scalar [4; 5] = Ok (mkShape [4; 5; 0; 0; 0; 0] 6) /\
  as_vec dev (mkShape [4; 5; 0; 0; 0; 0] 6) = Ok [0; 0; 0; 0; 5; 4].
Proof. repeat split; reflexivity. Qed.

(** ** C10 *)

(** Without overflow checks [size] is the product of the dimensions modulo 2^32. *)
Theorem C10_release_exact c ds :
  overflow_checks c = false -> length ds <= 6 ->
  exists n, size c (canon ds) = Ok n /\ (Z.of_nat n = Z.of_nat (prod ds) mod 4294967296)%Z.
Proof. exact (@c10_release_exact c ds). Qed.
Print Assumptions C10_release_exact.

Example C10_release_exact_example :
  size release (canon [3; 5; 7]) = Ok 105 /\
  exists a b n, Z.of_nat a = 65537%Z /\ Z.of_nat b = 65536%Z /\ size release (canon [a; b]) = Ok n /\ Z.of_nat n = 65536%Z.
Proof.
  split; [reflexivity|]. set (a := Z.to_nat 65537). set (b := Z.to_nat 65536).
  assert (Ha : Z.of_nat a = 65537%Z) by (unfold a; lia). assert (Hb : Z.of_nat b = 65536%Z) by (unfold b; lia).
  clearbody a b. exists a, b.
  destruct (c10_release_exact release [a; b]) as (n & E & En); [reflexivity|cbn; lia|].
  exists n. repeat split; auto. rewrite En. cbn [prod]. rewrite Nat.mul_1_r, Nat2Z.inj_mul, Ha, Hb. reflexivity.
Qed.

(** ** C14 *)

(** In every profile a range that ends beyond the first dimension is rejected, as long as
    computing its end does not wrap around. *)
Theorem C14_no_wrap {A} c (t : tensor A) d ds xs o n :
  repr t (d :: ds) xs -> d < o + n -> (Z.of_nat o + Z.of_nat n < 18446744073709551616)%Z ->
  subslice c t o n = Panic.
Proof. exact (@c14_no_wrap A c t d ds xs o n). Qed.
Print Assumptions C14_no_wrap.

Example C14_no_wrap_example :
  repr (fresh [3; 2] [1; 2; 3; 4; 5; 6]) [3; 2] [1; 2; 3; 4; 5; 6] /\
  subslice release (fresh [3; 2] [1; 2; 3; 4; 5; 6]) 2 2 = Panic.
Proof.
  assert (R : repr (fresh [3; 2] [1; 2; 3; 4; 5; 6]) [3; 2] [1; 2; 3; 4; 5; 6]).
  { apply repr_fresh; [split; cbn; lia|reflexivity]. }
  split; [exact R|]. apply (c14_no_wrap _ _ _ _ _ _ _ R); cbn; lia.
Qed.

(** Where it does wrap, in builds without overflow checks, the request is accepted exactly
    if the wrapped end, start and number of elements are all small, and then the view's
    first dimension is [n] modulo 2^32. *)
Theorem C14_release_exact {A} c (t : tensor A) d ds xs o n w O L :
  repr t (d :: ds) xs -> Forall (fun d => 0 < d) ds -> overflow_checks c = false ->
  (Z.of_nat o < 18446744073709551616)%Z -> (Z.of_nat n < 18446744073709551616)%Z ->
  (18446744073709551616 <= Z.of_nat o + Z.of_nat n)%Z ->
  (Z.of_nat w = Z.of_nat n mod 4294967296)%Z ->
  (Z.of_nat O = (Z.of_nat o * Z.of_nat (prod ds)) mod 18446744073709551616)%Z ->
  (Z.of_nat L = (Z.of_nat n * Z.of_nat (prod ds)) mod 18446744073709551616)%Z ->
  subslice c t o n =
  (if (Z.of_nat o + Z.of_nat n <=? 18446744073709551616 + Z.of_nat d)%Z && (O <=? length xs) && (Z.of_nat L <? 4294967296)%Z
   then Ok (mkTensor (canon (w :: ds)) (toffset t + O) L (tdata t)) else Panic).
Proof. exact (@c14_release_exact A c t d ds xs o n w O L). Qed.
Print Assumptions C14_release_exact.

(** In every profile, an accepted view shows only elements of its parent. *)
Theorem C14_inside {A} c (t t' : tensor A) d ds xs o n :
  repr t (d :: ds) xs -> (Z.of_nat o < 18446744073709551616)%Z -> (Z.of_nat n < 18446744073709551616)%Z ->
  subslice c t o n = Ok t' ->
  exists O, O + tsize t' <= length xs /\ as_slice t' = Ok (firstn (tsize t') (skipn O xs)).
Proof. exact (@c14_inside A c t t' d ds xs o n). Qed.
Print Assumptions C14_inside.

(** Four columns: 2^63 + 1 rows from row 2^63 on are four elements at offset zero. *)
Example C14_release_example : exists o n,
  Z.of_nat o = 9223372036854775808%Z /\ Z.of_nat n = 9223372036854775809%Z /\
  subslice release (fresh [2; 4] [1; 2; 3; 4; 5; 6; 7; 8]) o n = Ok (mkTensor (canon [1; 4]) 0 4 [1; 2; 3; 4; 5; 6; 7; 8]).
Proof.
  assert (Hex : forall z, (0 <= z)%Z -> exists k, Z.of_nat k = z) by (intros z Hz; exists (Z.to_nat z); apply Z2Nat.id, Hz).
  destruct (Hex 9223372036854775808%Z) as (o & Ho); [discriminate|].
  destruct (Hex 9223372036854775809%Z) as (n & Hn); [discriminate|].
  exists o, n. split; [exact Ho|]. split; [exact Hn|].
  rewrite (c14_release_exact release _ 2 [4] [1; 2; 3; 4; 5; 6; 7; 8] o n 1 0 4);
    rewrite ?Ho, ?Hn; try reflexivity; try discriminate.
  - apply repr_fresh; [split; cbn; lia|reflexivity].
  - repeat constructor.
Qed.

(** ** C15 *)

(** Beyond the end [get] returns [None], on every tensor, view or not.  With
    [C15_get_actual] this says what [get] does for every index. *)
Theorem C15_get_beyond {A} c (t : tensor A) ds xs i :
  repr t ds xs -> length xs <= i -> get c t i = Ok None.
Proof. exact (@c15_get_beyond A c t ds xs i). Qed.
Print Assumptions C15_get_beyond.

Example C15_get_beyond_example :
  exists t : tensor nat, subslice dev (fresh [4; 1] [10; 20; 30; 40]) 1 2 = Ok t /\
    repr t [2; 1] [20; 30] /\ get dev t 2 = Ok None /\ get dev t 0 = Ok (Some 30).
Proof.
  eexists. split; [vm_compute; reflexivity|]. split; [|split; reflexivity].
  split; cbn; try reflexivity; [split; cbn; lia|]. exists [10], [40]. split; reflexivity.
Qed.

(** ** C16 *)

(** On a tensor with at most two (three) elements every three- (four-) coordinate lookup
    panics, also the valid ones.  With the [_partial] theorems this covers every input. *)
Theorem C16_index3_small {A} c (t : tensor A) d0 d1 d2 xs i j k :
  repr t [d0; d1; d2] xs -> length xs <= 2 -> index3 c t i j k = Panic.
Proof. exact (@c16_index3_small A c t d0 d1 d2 xs i j k). Qed.
Print Assumptions C16_index3_small.

Theorem C16_index4_small {A} c (t : tensor A) d0 d1 d2 d3 xs h i j k :
  repr t [d0; d1; d2; d3] xs -> length xs <= 3 -> index4 c t h i j k = Panic.
Proof. exact (@c16_index4_small A c t d0 d1 d2 d3 xs h i j k). Qed.
Print Assumptions C16_index4_small.

Example C16_small_example :
  index3 dev (fresh [1; 2; 1] [5; 6]) 0 1 0 = Panic /\
  index4 release (fresh [1; 1; 1; 3] [5; 6; 7]) 0 0 0 2 = Panic.
Proof. split; reflexivity. Qed.

(** Without overflow checks the size of a shape wraps around, and so does the offset of an
    index: of a tensor of three elements whose shape promises 3 * (2^32 - 1)^2, the element
    at (1, 2, 1), which does not exist, is the first one.  With overflow checks there is no
    such tensor. *)
Theorem C16_wrap_refuted :
  exists (d : nat) (s : shape) (t : tensor nat), (Z.of_nat d = 4294967295)%Z /\
    from_slice_dims [3; d; d] = Ok s /\
    from_vec dev [10; 20; 30] s = Panic /\ from_vec release [10; 20; 30] s = Ok t /\
    index3 release t 1 2 1 = Ok 10.
Proof. exact c16_wrap_refuted. Qed.
Print Assumptions C16_wrap_refuted.

(** ** C18 *)

(** What [as_wrap_slice_n] does on any tensor: a view's offset is counted twice, once in the
    bound that is checked and once more in the position that is read. *)
Theorem C18_wrap_slice_n_actual {A} c (t : tensor A) ds xs k n :
  repr t ds xs -> xs <> [] -> (Z.of_nat n < 9223372036854775808)%Z ->
  as_wrap_slice_n c t k n =
  if toffset t + k mod length xs + n <=? length xs
  then Ok (firstn n (skipn (2 * toffset t + k mod length xs) (tdata t)))
  else Panic.
Proof. exact (@c18_wrap_slice_n_actual A c t ds xs k n). Qed.
Print Assumptions C18_wrap_slice_n_actual.

Example C18_wrap_slice_n_actual_example :
  exists t : tensor nat, subslice dev (fresh [5; 1] [10; 20; 30; 40; 50]) 1 4 = Ok t /\
    repr t [4; 1] [20; 30; 40; 50] /\ as_wrap_slice_n dev t 5 2 = Ok [40; 50] /\ as_wrap_slice_n dev t 6 2 = Panic.
Proof.
  eexists. split; [vm_compute; reflexivity|]. split; [|split; reflexivity].
  split; cbn; try reflexivity; [split; cbn; lia|]. exists [10], []. split; reflexivity.
Qed.

(** ** C20 *)

(** When a dimension of the result is zero [append] panics. *)
Theorem C20_append_zero {A} c (t u : tensor A) d d' ds ds' xs ys :
  repr t (d :: ds) xs -> repr u (d' :: ds') ys -> In 0 ds \/ d + d' = 0 -> append c t u = Panic.
Proof. exact (@c20_append_zero A c t u d d' ds ds' xs ys). Qed.
Print Assumptions C20_append_zero.

Example C20_append_zero_example : append dev (@fresh nat [2; 0] []) (fresh [1; 0] []) = Panic.
Proof. reflexivity. Qed.

(** ** C21 *)

(** [partial_cmp] says Equal exactly when the element lists are equal; shapes play no part. *)
Theorem C21_cmp_eq_exact {A} (cmp : A -> A -> option comparison) (t u : tensor A) ds ds' xs ys :
  (forall x y, cmp x y = Some Eq <-> x = y) -> repr t ds xs -> repr u ds' ys ->
  (tensor_partial_cmp cmp t u = Ok (Some Eq) <-> xs = ys).
Proof. exact (@c21_cmp_eq_exact A cmp t u ds ds' xs ys). Qed.
Print Assumptions C21_cmp_eq_exact.

Example C21_cmp_eq_exact_example :
  tensor_partial_cmp (fun a b => Some (a ?= b)) (fresh [2; 2] [1; 2; 3; 4]) (fresh [4; 1] [1; 2; 3; 4]) = Ok (Some Eq) /\
  tensor_partial_cmp (fun a b => Some (a ?= b)) (fresh [2; 2] [1; 2; 3; 4]) (fresh [2; 2] [1; 2; 4; 3]) = Ok (Some Lt).
Proof. split; reflexivity. Qed.

(** ** C31 *)

(** What [axis_from_rank] (used by concatenate, stack, split and unstack) makes of an axis:
    it never rejects one.  From [-rank] on the axis is taken modulo the rank; below, modulo
    2^64 first. *)
Theorem C31_axis_from_rank_actual c a r :
  0 < r <= 7 -> (- two63 <= a)%Z -> (a + Z.of_nat r < two63)%Z ->
  axis_from_rank c (Some a) r =
  Ok (Z.to_nat (if (- Z.of_nat r <=? a)%Z then a mod Z.of_nat r
                else (18446744073709551616 + Z.of_nat r + a) mod Z.of_nat r)).
Proof. exact (@c31_axis_from_rank_actual c a r). Qed.
Print Assumptions C31_axis_from_rank_actual.

Example C31_axis_from_rank_actual_example :
  axis_from_rank dev (Some (-5)%Z) 3 = Ok 2 /\ axis_from_rank dev (Some (-2)%Z) 3 = Ok 1.
Proof.
  refine (conj _ _); rewrite c31_axis_from_rank_actual by (unfold two63; lia); reflexivity.
Qed.

(** ** C32 *)

(** Folding the rows of a vector along its only axis (any axis value): the vector is one
    row, and the code folds that row as many times as it has elements. *)
Theorem C32_rank1_actual {S T R V} c N (t : tensor T) a k xs (ini : R) (into : R -> list V)
    (f : S -> R -> list T -> outcome (S * R)) st :
  repr t [k] xs -> toffset t = 0 -> 0 < k -> (- two63 <= a)%Z -> (a + 1 < two63)%Z ->
  supported [N] -> can_alloc c N -> (forall r, length (into r) = N) ->
  fold_row c N t (Some a) ini into f st =
  let* '(st', r) := foldM f st ini (repeat xs k) in Ok (st', fresh [N] (into r)).
Proof. exact (@c32_rank1_actual S T R V c N t a k xs ini into f st). Qed.
Print Assumptions C32_rank1_actual.

Example C32_rank1_actual_example :
  fold_row dev 1 (fresh [3] [1; 2; 4]) (Some 0%Z) 0 (fun r => [r]) (pure2 (fun r row => r + list_sum row)) tt
  = Ok (tt, fresh [1] [21]).
Proof. reflexivity. Qed.

(** [fold_row] never returns on a non-empty view that does not start at the beginning of its
    buffer, whatever the axis, because the offset is counted twice for its last row. *)
Theorem C32_view_never_returns {S T R V} c N (t : tensor T) ax ds xs (ini : R) (into : R -> list V)
    (f : S -> R -> list T -> outcome (S * R)) st st' r :
  repr t ds xs -> 0 < toffset t -> ds <> [] -> 0 < prod ds ->
  fold_row c N t ax ini into f st <> Ok (st', r).
Proof. exact (@c32_view_never_returns S T R V c N t ax ds xs ini into f st st' r). Qed.
Print Assumptions C32_view_never_returns.

Example C32_view_never_returns_example :
  exists t : tensor nat, subslice dev (fresh [3; 2] [1; 2; 3; 4; 5; 6]) 1 2 = Ok t /\
    repr t [2; 2] [3; 4; 5; 6] /\
    fold_row dev 1 t None 0 (fun r => [r]) (pure2 (fun r row => r + list_sum row)) tt = Panic.
Proof.
  eexists. split; [vm_compute; reflexivity|]. split; [|reflexivity].
  split; cbn; try reflexivity; [split; cbn; lia|]. exists [1; 2], []. split; reflexivity.
Qed.

(** ** C35, C38 *)

(** Joining tensors of rank 6 along the first axis always panics. *)
Theorem C35_rank6_always_panics {A} c (t : tensor A) ts ds xs :
  repr t ds xs -> length ds = 6 ->
  concatenate c (t :: ts) = Panic /\ concatenate_axis c (Some 0%Z) (t :: ts) = Panic /\
  concatenate_axis c None (t :: ts) = Panic.
Proof. exact (@c35_rank6_always_panics A c t ts ds xs). Qed.
Print Assumptions C35_rank6_always_panics.

(** Stacking tensors of rank 5 in front always panics. *)
Theorem C38_rank5_always_panics {A} c (t : tensor A) ts ds xs :
  repr t ds xs -> length ds = 5 ->
  stack c (t :: ts) = Panic /\ stack_axis c (Some 0%Z) (t :: ts) = Panic /\ stack_axis c None (t :: ts) = Panic.
Proof. exact (@c38_rank5_always_panics A c t ts ds xs). Qed.
Print Assumptions C38_rank5_always_panics.

Example C35_C38_always_panics_example :
  concatenate dev [fresh [1; 1; 1; 1; 1; 2] [3; 4]; fresh [1; 1; 1; 1; 1; 2] [5; 6]] = Panic /\
  stack release [fresh [1; 1; 1; 1; 2] [3; 4]; fresh [1; 1; 1; 1; 2] [5; 6]] = Panic.
Proof. split; reflexivity. Qed.
