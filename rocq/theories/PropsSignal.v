(** * Properties of rfft_norm and of the unimplemented functions (C61, C65) *)
From Coq Require Import Reals Lra ZifyBool ZifyNat ZifyN.
From Verif Require Import Base ShapeModel TensorModel MapModel FloatModel SignalModel
  Spec BaseFacts ShapeFacts CoordFacts TensorFacts MapFacts SafeFacts SplitFacts TensorSpec TensorProofs MapSpec MapProofs.
From Verif Require Import SignalSpec SignalProofs.

(** ** C61 *)

(** A vector is transformed as one row, for any transform that keeps the length. *)
Theorem C61_vector {F C} (o : sigops F C) c (t : tensor F) n xs fft_length :
  (forall l, length (cfft o l) = length l) ->
  repr t [n] xs -> 0 < n -> supported [out_len n fft_length] -> can_alloc c (out_len n fft_length) ->
  rfft_norm o c t fft_length =
  Ok (fresh [out_len n fft_length] (magnitudes o (out_len n fft_length) xs)).
Proof. exact (@c61_vector F C o c t n xs fft_length). Qed.
Print Assumptions C61_vector.

(** Any other tensor with elements: the rows are transformed if each has one column and
    all dimensions but the first are 1, and the call panics otherwise. *)
Theorem C61_rows {F C} (o : sigops F C) c (t : tensor F) d ds n xs fft_length :
  (forall l, length (cfft o l) = length l) ->
  let m := out_len n fft_length in
  repr t (d :: ds ++ [n]) xs -> 0 < prod (d :: ds ++ [n]) -> supported (d :: ds ++ [m]) ->
  0 < m -> can_alloc c (d / n * m) ->
  rfft_norm o c t fft_length =
  if (n =? 1) && (prod ds =? 1)
  then Ok (fresh (d :: ds ++ [m]) (flat_map (fun k => magnitudes o m (row_of n xs k)) (seq 0 d)))
  else Panic.
Proof. exact (@c61_rows F C o c t d ds n xs fft_length). Qed.
Print Assumptions C61_rows.

(** The claim as stated fails for every matrix with at least two columns. *)
Theorem C61_refuted {F C} (o : sigops F C) c (t : tensor F) d n xs :
  (forall l, length (cfft o l) = length l) ->
  repr t [d; n] xs -> 0 < d -> 1 < n -> supported [d; n / 2 + 1] -> can_alloc c (d / n) ->
  rfft_norm o c t None = Panic.
Proof. exact (@c61_refuted F C o c t d n xs). Qed.
Print Assumptions C61_refuted.

(** Tensors without elements: no columns, or no rows. *)
Theorem C61_no_columns {F C} (o : sigops F C) c (t : tensor F) ds xs fft_length :
  repr t (ds ++ [0]) xs -> rfft_norm o c t fft_length = Panic.
Proof. exact (@c61_no_columns F C o c t ds xs fft_length). Qed.
Print Assumptions C61_no_columns.

Theorem C61_scalar {F C} (o : sigops F C) c (t : tensor F) xs fft_length :
  repr t [] xs -> rfft_norm o c t fft_length = Panic.
Proof. exact (@c61_scalar F C o c t xs fft_length). Qed.
Print Assumptions C61_scalar.

Theorem C61_no_rows {F C} (o : sigops F C) c (t : tensor F) d ds n xs fft_length :
  let m := out_len n fft_length in
  repr t (d :: ds ++ [n]) xs -> prod (d :: ds) = 0 -> 0 < n -> supported (d :: ds ++ [m]) -> can_alloc c (d / n * m) ->
  rfft_norm o c t fft_length = if d <? n then Ok (fresh (d :: ds ++ [m]) []) else Panic.
Proof. exact (@c61_no_rows F C o c t d ds n xs fft_length). Qed.
Print Assumptions C61_no_rows.

(** Over the reals entry [k] of the result is the magnitude of the [k]-th Fourier
    coefficient of the windowed vector. *)
Theorem C61_dft c (t : tensor R) n xs :
  repr t [n] xs -> 0 < n ->
  rfft_norm R_sig c t None = Ok (fresh [n / 2 + 1] (map (fun k =>
    let '(a, b) := coefficient xs k in sqrt (a * a + b * b)) (seq 0 (n / 2 + 1)))).
Proof. exact (@c61_dft c t n xs). Qed.
Print Assumptions C61_dft.

Example C61_example :
  rfft_norm R_sig dev (fresh [2] [1; 1]%R) None = Ok (fresh [2] [1; 1]%R) /\
  rfft_norm R_sig dev (fresh [2; 2] [1; 1; 1; 1]%R) None = Panic.
Proof.
  split.
  - rewrite (c61_dft dev _ 2 [1; 1]%R); [|apply repr_fresh; [apply supported1; reflexivity|reflexivity]|lia].
    change (2 / 2 + 1) with 2. cbn. do 2 f_equal. replace (1 + 1)%R with 2%R by lra.
    replace (PI / 2 * 0)%R with 0%R by lra. replace (PI / 2 * 1)%R with (PI / 2)%R by lra.
    rewrite sin_0, sin_PI2.
    replace (- (2 * PI * 0 * 0 / 2))%R with 0%R by lra. replace (- (2 * PI * 1 * 0 / 2))%R with 0%R by lra.
    replace (- (2 * PI * 0 * 1 / 2))%R with 0%R by lra. replace (- (2 * PI * 1 * 1 / 2))%R with (- PI)%R by lra.
    rewrite cos_0, sin_0, cos_neg, sin_neg, cos_PI, sin_PI.
    f_equal; [|f_equal].
    + match goal with |- sqrt ?x = _ => replace x with (1 * 1)%R by lra end. apply sqrt_square. lra.
    + match goal with |- sqrt ?x = _ => replace x with (1 * 1)%R by lra end. apply sqrt_square. lra.
  - apply (c61_refuted R_sig dev _ 2 2 [1; 1; 1; 1]%R); try lia.
    + intros l. cbn [cfft R_sig]. unfold dft. now rewrite map_length, seq_length.
    + apply repr_fresh; [|reflexivity]. split; [cbn; lia|reflexivity].
    + split; [cbn; lia|reflexivity].
    + left. cbn. lia.
Qed.

(** ** C65 *)

(** [frame] panics for every tensor, length and step, in every build mode. *)
Theorem C65_frame {A} c (x : tensor A) len step : frame c x len step = Panic.
Proof. exact (@c65_frame A c x len step). Qed.
Print Assumptions C65_frame.

Theorem C65_slice_usize {A} c (t : tensor A) i : slice_usize c t i = Panic.
Proof. exact (@c65_slice_usize A c t i). Qed.
Print Assumptions C65_slice_usize.

Theorem C65_slice_pair {A} c (t : tensor A) i j : slice_pair c t i j = Panic.
Proof. exact (@c65_slice_pair A c t i j). Qed.
Print Assumptions C65_slice_pair.

Theorem C65_map2 {V} : @map2_row V = Panic /\ @map2_expand V = Panic.
Proof. exact (@c65_map2 V). Qed.
Print Assumptions C65_map2.

Example C65_example :
  frame dev (fresh [6] [1; 2; 3; 4; 5; 6]) 2 2 = Panic /\ frame release (fresh [3] [1; 2; 3]) 5 1 = Panic /\
  slice_usize dev (fresh [3] [1; 2; 3]) 1 = Panic /\ slice_pair dev (fresh [2; 2] [1; 2; 3; 4]) 1 0 = Panic.
Proof. split; [|split; [|split]]; [apply c65_frame| apply c65_frame | reflexivity | reflexivity]. Qed.
