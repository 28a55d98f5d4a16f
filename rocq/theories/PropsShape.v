(** * Properties C01-C10: shapes *)
From Coq Require Import ZifyBool ZifyNat.
From Verif Require Import Base ShapeModel TensorModel Spec BaseFacts ShapeFacts ShapeFacts2.
From Verif Require Import ShapeSpec ShapeProofs.

(** ** C01 *)

(** Building a shape from an array or slice of at most six 32-bit dimensions reads back. *)
Theorem C01_from_slice c ds :
  length ds <= 6 -> dims32 ds ->
  exists s, from_slice_dims ds = Ok s /\
    rank s = length ds /\ as_vec c s = Ok ds /\
    (forall i, i < length ds ->
       dim c s i = Ok (nth i ds 0) /\ rdim s i = Ok (nth (length ds - 1 - i) ds 0)) /\
    (ds <> [] -> len c s = Ok (hd 0 ds)) /\
    cols s = Ok (last ds 0) /\ rows s = Ok (last (removelast ds) 0) /\
    (supported ds -> size c s = Ok (prod ds)).
Proof. exact (@c01_from_slice c ds). Qed.
Print Assumptions C01_from_slice.

(** The same from a vector, which also insists on non-zero dimensions. *)
Theorem C01_from_vec ds :
  length ds <= 6 -> dims32 ds -> positive ds -> from_vec_dims ds = from_slice_dims ds.
Proof. exact (@c01_from_vec ds). Qed.
Print Assumptions C01_from_vec.

Theorem C01_from_vec_zero_panics ds : In 0 ds -> from_vec_dims ds = Panic.
Proof. exact (@c01_from_vec_zero_panics ds). Qed.
Print Assumptions C01_from_vec_zero_panics.

Theorem C01_too_long_panics ds :
  6 < length ds -> from_slice_dims ds = Panic /\ from_vec_dims ds = Panic.
Proof. exact (@c01_too_long_panics ds). Qed.
Print Assumptions C01_too_long_panics.

Theorem C01_from_usize n :
  (Z.of_nat n < 4294967296)%Z -> from_usize n = from_slice_dims [n] /\
  (0 < n -> vector n = from_slice_dims [n]).
Proof. exact (@c01_from_usize n). Qed.
Print Assumptions C01_from_usize.

(** Without the 32-bit bound the claim is false: dimensions are truncated silently. *)
Theorem C01_unbounded_refuted :
  exists d s, from_slice_dims [d] = Ok s /\ as_vec dev s = Ok [7] /\ d <> 7.
Proof. exact c01_unbounded_refuted. Qed.
Print Assumptions C01_unbounded_refuted.

Example C01_example :
  from_slice_dims [2; 3; 4] = Ok (mkShape [4; 3; 2; 0; 0; 0] 3) /\
  as_vec release (mkShape [4; 3; 2; 0; 0; 0] 3) = Ok [2; 3; 4].
Proof. split; reflexivity. Qed.

(** ** C02 *)

(** For such shapes, [==] is agreement of the dimension lists. *)
Theorem C02_shape_eq_partial c a b :
  built c a -> built c b -> (shape_eqb a b = true <-> as_vec c a = as_vec c b).
Proof. exact (@c02_shape_eq_partial c a b). Qed.
Print Assumptions C02_shape_eq_partial.

(* Missing from the full claim: shapes produced by [with_cols] or [reduce] on a rank-0
   shape, by [rinsert] beyond the rank and by [append], for which it is false: *)

Theorem C02_with_cols_refuted :
  exists s, with_cols scalar 3 = Ok s /\ as_vec dev s = as_vec dev scalar /\
            shape_eqb s scalar = false.
Proof. exact c02_with_cols_refuted. Qed.
Print Assumptions C02_with_cols_refuted.

Theorem C02_reduce_refuted :
  exists s, reduce_shape scalar = Ok s /\ as_vec dev s = as_vec dev scalar /\
            shape_eqb s scalar = false.
Proof. exact c02_reduce_refuted. Qed.
Print Assumptions C02_reduce_refuted.

Theorem C02_rinsert_refuted :
  exists s t, rinsert dev scalar 2 9 = Ok s /\ from_slice_dims [0] = Ok t /\
              as_vec dev s = as_vec dev t /\ shape_eqb s t = false.
Proof. exact c02_rinsert_refuted. Qed.
Print Assumptions C02_rinsert_refuted.

Example C02_example :
  exists s, (let* a := from_slice_dims [2; 3] in insert dev a 1 5) = Ok s /\ built dev s /\
    as_vec dev s = Ok [2; 5; 3] /\ shape_eqb s (canon [2; 5; 3]) = true.
Proof.
  eexists. split; [reflexivity|]. split; [|split; reflexivity].
  eapply (b_insert dev (canon [2; 3]) 1 5).
  - eapply (b_slice dev [2; 3]). reflexivity.
  - cbn. lia.
  - reflexivity.
Qed.

(** ** C03 *)

Theorem C03_insert c ds i v :
  length ds < 6 -> i <= length ds -> length ds - i < 5 -> (Z.of_nat v < 4294967296)%Z ->
  insert c (canon ds) i v = Ok (canon (insert_at i v ds)).
Proof. exact (@c03_insert c ds i v). Qed.
Print Assumptions C03_insert.

Theorem C03_rinsert c ds r v :
  length ds < 6 -> r <= length ds -> r < 5 -> (Z.of_nat v < 4294967296)%Z ->
  rinsert c (canon ds) r v = Ok (canon (insert_at (length ds - r) v ds)).
Proof. exact (@c03_rinsert c ds r v). Qed.
Print Assumptions C03_rinsert.

Theorem C03_remove ds i :
  length ds <= 6 -> i < length ds -> remove (canon ds) i = Ok (canon (remove_at i ds)).
Proof. exact (@c03_remove ds i). Qed.
Print Assumptions C03_remove.

Theorem C03_rremove ds r :
  length ds <= 6 -> r < length ds ->
  rremove (canon ds) r = Ok (canon (remove_at (length ds - 1 - r) ds)).
Proof. exact (@c03_rremove ds r). Qed.
Print Assumptions C03_rremove.

Theorem C03_with_dim c ds i v :
  length ds <= 6 -> i < length ds -> (Z.of_nat v < 4294967296)%Z ->
  with_dim c (canon ds) i v = Ok (canon (replace_at i v ds)).
Proof. exact (@c03_with_dim c ds i v). Qed.
Print Assumptions C03_with_dim.

Theorem C03_rreplace ds r v :
  length ds <= 6 -> r < length ds -> (Z.of_nat v < 4294967296)%Z ->
  rreplace (canon ds) r v = Ok (canon (replace_at (length ds - 1 - r) v ds)).
Proof. exact (@c03_rreplace ds r v). Qed.
Print Assumptions C03_rreplace.

Theorem C03_with_cols ds d v :
  length (ds ++ [d]) <= 6 -> (Z.of_nat v < 4294967296)%Z ->
  with_cols (canon (ds ++ [d])) v = Ok (canon (ds ++ [v])).
Proof. exact (@c03_with_cols ds d v). Qed.
Print Assumptions C03_with_cols.

Theorem C03_with_rows ds r d v :
  length (ds ++ [r; d]) <= 6 -> (Z.of_nat v < 4294967296)%Z ->
  with_rows (canon (ds ++ [r; d])) v = Ok (canon (ds ++ [v; d])).
Proof. exact (@c03_with_rows ds r d v). Qed.
Print Assumptions C03_with_rows.

Theorem C03_push ds d :
  length ds < 6 -> (Z.of_nat d < 4294967296)%Z -> push (canon ds) d = Ok (canon (d :: ds)).
Proof. exact (@c03_push ds d). Qed.
Print Assumptions C03_push.

Theorem C03_pop c ds d :
  length (d :: ds) <= 6 -> pop c (canon (d :: ds)) = Ok (canon ds).
Proof. exact (@c03_pop c ds d). Qed.
Print Assumptions C03_pop.

Theorem C03_remove_undoes_insert c ds i v :
  length ds < 6 -> i <= length ds -> length ds - i < 5 -> (Z.of_nat v < 4294967296)%Z ->
  (let* s := insert c (canon ds) i v in remove s i) = Ok (canon ds).
Proof. exact (@c03_remove_undoes_insert c ds i v). Qed.
Print Assumptions C03_remove_undoes_insert.

(** Out-of-range axes panic (for axis values below 2^63). *)
Theorem C03_out_of_range c ds i v :
  length ds <= 6 -> (Z.of_nat i < 9223372036854775808)%Z ->
  (length ds <= i -> dim c (canon ds) i = Panic /\ remove (canon ds) i = Panic /\
     rremove (canon ds) i = Panic /\ with_dim c (canon ds) i v = Panic /\
     rreplace (canon ds) i v = Panic) /\
  (length ds < i -> insert c (canon ds) i v = Panic) /\
  (length ds = 6 -> push (canon ds) v = Panic) /\
  (ds = [] -> pop c (canon ds) = Panic).
Proof. exact (@c03_out_of_range c ds i v). Qed.
Print Assumptions C03_out_of_range.

Example C03_example :
  (let* s := insert dev (canon [2; 3]) 1 7 in as_vec dev s) = Ok [2; 7; 3] /\
  (let* s := remove (canon [2; 7; 3]) 1 in as_vec dev s) = Ok [2; 3] /\
  (let* s := with_dim dev (canon [2; 7; 3]) 0 9 in as_vec dev s) = Ok [9; 7; 3].
Proof. repeat split. Qed.

(** ** C04 *)

(** Insertion succeeds in all legal cases but one. *)
Theorem C04_insert_total_partial c ds i v :
  length ds < 6 -> i <= length ds -> ~ (length ds = 5 /\ i = 0) ->
  exists s, insert c (canon ds) i v = Ok s.
Proof. exact (@c04_insert_total_partial c ds i v). Qed.
Print Assumptions C04_insert_total_partial.

(* Missing: the outermost insertion into a rank-5 shape, which panics: *)

Theorem C04_refuted :
  exists ds, length ds < 6 /\ forall c v, insert c (canon ds) 0 v = Panic.
Proof. exact c04_refuted. Qed.
Print Assumptions C04_refuted.

(** In fact for every rank-5 shape. *)
Theorem C04_rank5_always_panics c ds v : length ds = 5 -> insert c (canon ds) 0 v = Panic.
Proof. exact (@c04_rank5_always_panics c ds v). Qed.
Print Assumptions C04_rank5_always_panics.

(** ** C05 *)

Theorem C05_squeeze c ds :
  length ds <= 6 ->
  squeeze c (canon ds) None =
    Ok (canon (match filter (fun d => negb (d =? 1)) ds with [] => [1] | l => l end)).
Proof. exact (@c05_squeeze c ds). Qed.
Print Assumptions C05_squeeze.

Theorem C05_squeeze_size c ds s :
  supported ds -> squeeze c (canon ds) None = Ok s -> size c s = size c (canon ds).
Proof. exact (@c05_squeeze_size c ds s). Qed.
Print Assumptions C05_squeeze_size.

(** [axis] is the position [p], or counts from the end. *)
Theorem C05_expand_dims c ds axis p :
  length ds < 6 -> positive ds -> dims32 ds -> p <= length ds ->
  (axis = Z.of_nat p \/ axis = Z.of_nat p - Z.of_nat (length ds) - 1)%Z ->
  expand_dims c (canon ds) axis = Ok (canon (insert_at p 1 ds)).
Proof. exact (@c05_expand_dims c ds axis p). Qed.
Print Assumptions C05_expand_dims.

Theorem C05_expand_dims_size c ds axis p s :
  supported ds -> length ds < 6 -> positive ds -> p <= length ds ->
  (axis = Z.of_nat p \/ axis = Z.of_nat p - Z.of_nat (length ds) - 1)%Z ->
  expand_dims c (canon ds) axis = Ok s -> size c s = size c (canon ds).
Proof. exact (@c05_expand_dims_size c ds axis p s). Qed.
Print Assumptions C05_expand_dims_size.

Theorem C05_squeeze_expand c ds axis p :
  length ds < 6 -> positive ds -> dims32 ds -> p <= length ds ->
  (axis = Z.of_nat p \/ axis = Z.of_nat p - Z.of_nat (length ds) - 1)%Z ->
  (let* s := expand_dims c (canon ds) axis in squeeze c s None) = squeeze c (canon ds) None.
Proof. exact (@c05_squeeze_expand c ds axis p). Qed.
Print Assumptions C05_squeeze_expand.

Example C05_example :
  (let* s := squeeze dev (canon [1; 2; 1; 3]) None in as_vec dev s) = Ok [2; 3] /\
  (let* s := expand_dims dev (canon [2; 3]) (-1) in as_vec dev s) = Ok [2; 3; 1] /\
  (let* s := expand_dims dev (canon [2; 3]) 1 in as_vec dev s) = Ok [2; 1; 3].
Proof. repeat split. Qed.

(** ** C06 *)

(** The claim: a named unit axis disappears.  What happens instead: the dimension before
    it is dropped if it is 1, and axis 0 never disappears. *)
Theorem C06_squeeze_axis_actual c ds a :
  length ds <= 6 -> a < length ds ->
  squeeze c (canon ds) (Some (Z.of_nat a)) =
  Ok (canon (if (0 <? a) && (nth (a - 1) ds 0 =? 1)
             then match remove_at (a - 1) ds with [] => [1] | l => l end
             else ds)).
Proof. exact (@c06_squeeze_axis_actual c ds a). Qed.
Print Assumptions C06_squeeze_axis_actual.

Theorem C06_refuted :
  (exists s, squeeze dev (canon [1; 3]) (Some 0%Z) = Ok s /\ as_vec dev s <> Ok [3]) /\
  (exists s, squeeze dev (canon [2; 1; 3]) (Some 1%Z) = Ok s /\ as_vec dev s <> Ok [2; 3]) /\
  (exists s, squeeze dev (canon [2; 1; 3]) (Some 2%Z) = Ok s /\ as_vec dev s = Ok [2; 3]).
Proof. exact c06_refuted. Qed.
Print Assumptions C06_refuted.

(** ** C07 *)

Theorem C07_rank_grows_by_six s tail s' :
  length (dims s) = 6 -> append_dims s tail = Ok s' -> rank s' = rank s + 6.
Proof. exact (@c07_rank_grows_by_six s tail s'). Qed.
Print Assumptions C07_rank_grows_by_six.

Theorem C07_refuted :
  exists s, append_dims (canon [2; 3]) [4] = Ok s /\ rank s <> 3 /\ as_vec dev s = Panic.
Proof. exact c07_refuted. Qed.
Print Assumptions C07_refuted.

(** ** C08 *)

Theorem C08_broadcast_accepts a b s :
  length a <= 6 -> length b <= 6 ->
  (broadcast_to (canon a) (canon b) = Ok s <->
     (suffix a b /\ s = canon b) \/ (suffix b a /\ s = canon a)).
Proof. exact (@c08_broadcast_accepts a b s). Qed.
Print Assumptions C08_broadcast_accepts.

Theorem C08_broadcast_rejects a b :
  length a <= 6 -> length b <= 6 -> ~ suffix a b -> ~ suffix b a ->
  broadcast_to (canon a) (canon b) = Panic /\ check_broadcast (canon a) (canon b) = Panic.
Proof. exact (@c08_broadcast_rejects a b). Qed.
Print Assumptions C08_broadcast_rejects.

Theorem C08_check_broadcast a b :
  length a <= 6 -> length b <= 6 ->
  (check_broadcast (canon a) (canon b) = Ok tt <-> suffix a b \/ suffix b a).
Proof. exact (@c08_check_broadcast a b). Qed.
Print Assumptions C08_check_broadcast.

(** The element count reported by [broadcast] is that of the broadcast shape. *)
Theorem C08_broadcast_size c a b s :
  length a <= 6 -> length b <= 6 ->
  broadcast_to (canon a) (canon b) = Ok s -> broadcast c (canon a) (canon b) = size c s.
Proof. exact (@c08_broadcast_size c a b s). Qed.
Print Assumptions C08_broadcast_size.

Theorem C08_commutative a b :
  length a <= 6 -> length b <= 6 ->
  broadcast_to (canon a) (canon b) = broadcast_to (canon b) (canon a).
Proof. exact (@c08_commutative a b). Qed.
Print Assumptions C08_commutative.

Theorem C08_associative a b d :
  length a <= 6 -> length b <= 6 -> length d <= 6 ->
  (let* s := broadcast_to (canon a) (canon b) in broadcast_to s (canon d)) =
  (let* s := broadcast_to (canon b) (canon d) in broadcast_to (canon a) s).
Proof. exact (@c08_associative a b d). Qed.
Print Assumptions C08_associative.

Theorem C08_idempotent a :
  length a <= 6 -> broadcast_to (canon a) (canon a) = Ok (canon a).
Proof. exact (@c08_idempotent a). Qed.
Print Assumptions C08_idempotent.

Example C08_example :
  broadcast_to (canon [3; 4]) (canon [2; 3; 4]) = Ok (canon [2; 3; 4]) /\
  broadcast_to (canon [2; 4]) (canon [2; 3; 4]) = Panic /\
  broadcast_to (canon [1; 4]) (canon [3; 4]) = Panic.
Proof. repeat split. Qed.

(** ** C09 *)

Theorem C09_sublen c ds i j :
  supported ds -> i <= j -> j <= length ds ->
  sublen c (canon ds) i j = Ok (prod (firstn (j - i) (skipn i ds))).
Proof. exact (@c09_sublen c ds i j). Qed.
Print Assumptions C09_sublen.

Theorem C09_rsublen c ds i j :
  supported ds -> i <= j -> j <= length ds ->
  rsublen c (canon ds) i j = Ok (prod (firstn (j - i) (skipn (length ds - j) ds))).
Proof. exact (@c09_rsublen c ds i j). Qed.
Print Assumptions C09_rsublen.

(** [batch_len] multiplies the dimensions from [base] on, not the leading ones. *)
Theorem C09_batch_len_actual c ds base :
  supported ds -> base <= length ds ->
  batch_len c (canon ds) base = Ok (prod (skipn base ds)).
Proof. exact (@c09_batch_len_actual c ds base). Qed.
Print Assumptions C09_batch_len_actual.

Theorem C09_batch_len_refuted :
  exists ds base, supported ds /\ base <= length ds /\
    batch_len dev (canon ds) base <> Ok (prod (firstn (length ds - base) ds)).
Proof. exact c09_batch_len_refuted. Qed.
Print Assumptions C09_batch_len_refuted.

Example C09_example :
  sublen dev (canon [2; 3; 4]) 1 3 = Ok 12 /\ rsublen dev (canon [2; 3; 4]) 1 3 = Ok 6.
Proof. repeat split. Qed.

(** ** C10 *)

(** With overflow checks the size is the true product, or the call panics. *)
Theorem C10_checked c ds :
  overflow_checks c = true -> length ds <= 6 ->
  size c (canon ds) = Ok (prod ds) \/ size c (canon ds) = Panic.
Proof. exact (@c10_checked c ds). Qed.
Print Assumptions C10_checked.

(** In the supported range both profiles agree on the true product. *)
Theorem C10_supported c ds : supported ds -> size c (canon ds) = Ok (prod ds).
Proof. exact (@c10_supported c ds). Qed.
Print Assumptions C10_supported.

(** Release builds: the product wraps. *)
Theorem C10_release_refuted :
  exists ds, length ds = 2 /\ dims32 ds /\ size release (canon ds) = Ok 0 /\ prod ds <> 0.
Proof. exact c10_release_refuted. Qed.
Print Assumptions C10_release_refuted.

Example C10_example : size dev (canon [2; 3; 4]) = Ok 24.
Proof. reflexivity. Qed.
