(** * Properties of histogram and histogram2d (C53, C54) *)
From Coq Require Import Reals Lra.
From Coq Require Import ZifyBool ZifyNat ZifyN.
From Flocq Require Import IEEE754.BinarySingleNaN.
From Verif Require Import Base ShapeModel TensorModel AxisModel MapModel NumModel FloatModel InitModel MathModel
  Spec FloatSpec BaseFacts ShapeFacts ShapeFacts2 CoordFacts TensorFacts TensorFacts2 MapFacts SafeFacts RealFacts
  ArrayFacts InitFacts MathFacts StatsFacts TensorSpec TensorProofs MapSpec MapProofs InitSpec InitProofs MathSpec MathProofs.
From Verif Require Import StatsProofs.

(** ** C53 *)

(** For any arithmetic: sample [x] is counted in bin [min (floor ((x - mn) / delta))
    (n - 1)], each count is reached by adding one from zero, and edge [k] is
    [mn + k * (mx - mn) / n]. *)
Theorem C53_histogram_any {F} (o : fops F) c (t : tensor F) x xs n :
  repr t [length (x :: xs)] (x :: xs) -> 0 < n -> supported [n + 1] ->
  let mn := fold_left (fmin o) xs x in
  let mx := fold_left (fmax o) xs x in
  fle o mn mx = true ->
  let delta := if feq o mn mx then fepsilon o else fdiv o (fsub o mx mn) (fof o n) in
  let bs := map (fun x => Nat.min (ffloor o (fdiv o (fsub o x mn) delta)) (n - 1)) (x :: xs) in
  exists edges,
    histogram o c t (Some n) =
      Ok (fresh [n] (map (fun k => times (occurrences k bs) (fun v => fadd o v (fone o)) (fzero o)) (seq 0 n)),
          fresh [n + 1] edges) /\
    length edges = n + 1 /\
    forall k, k < n + 1 ->
      nth_error edges k = Some (fadd o mn (fmul o (fdiv o (fsub o mx mn) (fof o n)) (fof o k))).
Proof. exact (@c53_histogram_any F o c t x xs n). Qed.
Print Assumptions C53_histogram_any.

(** Without an explicit number of bins there are ten. *)
Theorem C53_default_bins {F} (o : fops F) c (t : tensor F) : histogram o c t None = histogram o c t (Some 10).
Proof. exact (@c53_default_bins F o c t). Qed.
Print Assumptions C53_default_bins.

(** Over the reals: the counts add up to the number of samples; every sample is counted
    once, in a bin [b] with [edge b <= x < edge (b + 1)] (the last bin includes its upper
    edge); the edges run from the least to the greatest sample in equal steps. *)
Theorem C53_histogram c (t : tensor R) xs n :
  repr t [length xs] xs -> xs <> [] -> 0 < n -> supported [n + 1] ->
  exists counts edges bs,
    histogram R_ops c t (Some n) = Ok (fresh [n] (map INR counts), fresh [n + 1] edges) /\
    length counts = n /\ length edges = n + 1 /\ list_sum counts = length xs /\
    (forall k m, nth_error counts k = Some m -> m = count_occ Nat.eq_dec bs k) /\
    Forall2 (fun x b => b < n /\ exists lo hi,
      nth_error edges b = Some lo /\ nth_error edges (b + 1) = Some hi /\
      (lo <= x <= hi)%R /\ (b + 1 < n -> (lo < hi)%R -> (x < hi)%R)) xs bs /\
    (forall m, least m xs -> nth_error edges 0 = Some m) /\
    (forall m, greatest m xs -> nth_error edges n = Some m) /\
    (forall k lo hi, nth_error edges k = Some lo -> nth_error edges (k + 1) = Some hi ->
       ((exists x y, In x xs /\ In y xs /\ x <> y) -> lo < hi)%R /\ (lo <= hi)%R).
Proof. exact (@c53_histogram c t xs n). Qed.
Print Assumptions C53_histogram.

Theorem C53_histogram_b32 ln_ exp_ pow_ c (t : tensor b32) xs n :
  repr t [length xs] xs -> xs <> [] -> Forall (fun y => is_finite y = true) xs -> 0 < n -> supported [n + 1] ->
  exists bs edges,
    histogram (b32_ops ln_ exp_ pow_) c t (Some n) =
      Ok (fresh [n] (map (fun k => b32_of_Z (Z.min (Z.of_nat (count_occ Nat.eq_dec bs k)) (2 ^ 24)) 0) (seq 0 n)),
          fresh [n + 1] edges) /\
    length edges = n + 1 /\ length bs = length xs /\ Forall (fun b => b < n) bs.
Proof. exact (@c53_histogram_b32 ln_ exp_ pow_ c t xs n). Qed.
Print Assumptions C53_histogram_b32.

(** In binary32 the bin of a sample and the returned edges are computed with different
    roundings: 0.9 is counted in the last of ten bins of [0, 1], whose lower edge is
    returned as 0.90000004. *)
Theorem C53_edges_b32_refuted ln_ exp_ pow_ :
  let o := b32_ops ln_ exp_ pow_ in
  let x := b32_of_Z 15099494 (-24) in
  exists counts edges n9 e9,
    histogram o dev (fresh [3] [b32_of_Z 0 0; x; b32_of_Z 1 0]) (Some 10) = Ok (fresh [10] counts, fresh [11] edges) /\
    nth_error counts 9 = Some n9 /\ Beqb n9 (b32_of_Z 2 0) = true /\
    nth_error edges 9 = Some e9 /\ Bltb x e9 = true.
Proof. exact (@c53_edges_b32_refuted ln_ exp_ pow_). Qed.
Print Assumptions C53_edges_b32_refuted.

Theorem C53_empty {F} (o : fops F) c (t : tensor F) n : repr t [0] [] -> histogram o c t n = Panic.
Proof. exact (@c53_empty F o c t n). Qed.
Print Assumptions C53_empty.

Theorem C53_rank {F} (o : fops F) c (t : tensor F) ds xs n :
  repr t ds xs -> length ds <> 1 -> histogram o c t n = Panic.
Proof. exact (@c53_rank F o c t ds xs n). Qed.
Print Assumptions C53_rank.

Theorem C53_no_bins {F} (o : fops F) c (t : tensor F) : histogram o c t (Some 0) = Panic.
Proof. exact (@c53_no_bins F o c t). Qed.
Print Assumptions C53_no_bins.

Example C53_example :
  let o := b32_ops (fun x => x) (fun x => x) (fun x _ => x) in
  let f k := b32_of_Z k (-2) in
  match histogram o dev (fresh [6] (map f [0; 1; 3; 4; 8; 8]%Z)) (Some 4) with
  | Ok (counts, edges) =>
    map B2SF (tdata counts) = map (fun k => B2SF (b32_of_Z k 0)) [2; 1; 1; 2]%Z /\
    map B2SF (tdata edges) = map (fun k => B2SF (f k)) [0; 2; 4; 6; 8]%Z
  | _ => False
  end.
Proof. vm_compute. split; reflexivity. Qed.

(** ** C54 *)

(** The claim is false: the minimum and maximum are taken over the whole tensor, so that
    they have one element, and the second one is read.  Every call panics. *)
Theorem C54_refuted {F} (o : fops F) c (t : tensor F) ds xs n :
  repr t ds xs -> histogram2d o c t n = Panic.
Proof. exact (@c54_refuted F o c t ds xs n). Qed.
Print Assumptions C54_refuted.

(** In particular on two points. *)
Example C54_example :
  let o := b32_ops (fun x => x) (fun x => x) (fun x _ => x) in
  let f k := b32_of_Z k 0 in
  histogram2d o dev (fresh [2; 2] (map f [1; 2; 3; 4]%Z)) (Some 3) = Panic.
Proof. reflexivity. Qed.
