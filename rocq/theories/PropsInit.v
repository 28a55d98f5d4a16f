(** * Properties of eye, tri, tril, triu, diagflat, meshgrid, linspace, arange, one_hot (C41-C45) *)
From Coq Require Import Reals Lra.
From Flocq Require Import IEEE754.BinarySingleNaN.
From Coq Require Import ZifyBool ZifyNat ZifyN.
From Verif Require Import Base ShapeModel TensorModel AxisModel MapModel FloatModel InitModel Spec BaseFacts
  ShapeFacts ShapeFacts2 CoordFacts TensorFacts TensorFacts2 MapFacts SafeFacts InitFacts RealFacts.
From Verif Require Import InitSpec InitProofs.

(** ** C41 *)

Theorem C41_eye {T} c (zero one : T) n :
  0 < n -> supported [n; n] ->
  exists ys, eye c zero one n = Ok (fresh [n; n] ys) /\ length ys = n * n /\
    forall i j, i < n -> j < n -> elem [n; n] ys [i; j] = Some (if i =? j then one else zero).
Proof. exact (@c41_eye T c zero one n). Qed.
Print Assumptions C41_eye.

(** The identity of size zero is the scalar zero. *)
Theorem C41_eye_zero {T} c (zero one : T) : eye c zero one 0 = Ok (fresh [] [zero]).
Proof. exact (@c41_eye_zero T c zero one). Qed.
Print Assumptions C41_eye_zero.

Theorem C41_tri {T} c (zero one : T) n :
  supported [n; n] -> can_alloc c (n * n) ->
  exists ys, tri c zero one n = Ok (fresh [n; n] ys) /\ length ys = n * n /\
    forall i j, i < n -> j < n -> elem [n; n] ys [i; j] = Some (if j <=? i then one else zero).
Proof. exact (@c41_tri T c zero one n). Qed.
Print Assumptions C41_tri.

Theorem C41_diagflat {T} c (zero : T) (t : tensor T) n xs :
  repr t [n] xs -> supported [n; n] -> can_alloc c (n * n) ->
  exists ys, diagflat c zero t = Ok (fresh [n; n] ys) /\ length ys = n * n /\
    forall i j, i < n -> j < n ->
      elem [n; n] ys [i; j] = if i =? j then nth_error xs i else Some zero.
Proof. exact (@c41_diagflat T c zero t n xs). Qed.
Print Assumptions C41_diagflat.

Theorem C41_diagflat_rank {T} c (zero : T) (t : tensor T) ds xs :
  repr t ds xs -> length ds <> 1 -> diagflat c zero t = Panic.
Proof. exact (@c41_diagflat_rank T c zero t ds xs). Qed.
Print Assumptions C41_diagflat_rank.

(** In every matrix of the batch, [tril] keeps row [i], column [j] when [j <= i]. *)
Theorem C41_tril {T} c (zero : T) (t : tensor T) ds r k xs :
  repr t (ds ++ [r; k]) xs -> 0 < r -> 0 < k -> can_alloc c (length xs) ->
  exists ys, tril c zero t = Ok (fresh (ds ++ [r; k]) ys) /\ length ys = prod (ds ++ [r; k]) /\
    forall b i j, in_shape ds b -> i < r -> j < k ->
      elem (ds ++ [r; k]) ys (b ++ [i; j])
      = if j <=? i then elem (ds ++ [r; k]) xs (b ++ [i; j]) else Some zero.
Proof. exact (@c41_tril T c zero t ds r k xs). Qed.
Print Assumptions C41_tril.

Theorem C41_triu {T} c (zero : T) (t : tensor T) ds r k xs :
  repr t (ds ++ [r; k]) xs -> 0 < r -> 0 < k -> can_alloc c (length xs) ->
  exists ys, triu c zero t = Ok (fresh (ds ++ [r; k]) ys) /\ length ys = prod (ds ++ [r; k]) /\
    forall b i j, in_shape ds b -> i < r -> j < k ->
      elem (ds ++ [r; k]) ys (b ++ [i; j])
      = if i <=? j then elem (ds ++ [r; k]) xs (b ++ [i; j]) else Some zero.
Proof. exact (@c41_triu T c zero t ds r k xs). Qed.
Print Assumptions C41_triu.

Theorem C41_tril_triu_rank {T} c (zero : T) (t : tensor T) ds xs :
  repr t ds xs -> length ds < 2 -> tril c zero t = Panic /\ triu c zero t = Panic.
Proof. exact (@c41_tril_triu_rank T c zero t ds xs). Qed.
Print Assumptions C41_tril_triu_rank.

(** Matrices without rows or without columns make them divide by zero. *)
Theorem C41_tril_triu_empty {T} c (zero : T) (t : tensor T) ds r k xs :
  repr t (ds ++ [r; k]) xs -> r * k = 0 -> zero_alloc_ok c = true ->
  tril c zero t = Panic /\ triu c zero t = Panic.
Proof. exact (@c41_tril_triu_empty T c zero t ds r k xs). Qed.
Print Assumptions C41_tril_triu_empty.

Example C41_example :
  eye dev 0 1 3 = Ok (fresh [3; 3] [1; 0; 0; 0; 1; 0; 0; 0; 1]) /\
  tri dev 0 1 3 = Ok (fresh [3; 3] [1; 0; 0; 1; 1; 0; 1; 1; 1]) /\
  diagflat dev 0 (fresh [2] [7; 8]) = Ok (fresh [2; 2] [7; 0; 0; 8]) /\
  tril dev 0 (fresh [2; 2; 3] [1; 2; 3; 4; 5; 6; 7; 8; 9; 10; 11; 12])
    = Ok (fresh [2; 2; 3] [1; 0; 0; 4; 5; 0; 7; 0; 0; 10; 11; 0]) /\
  triu dev 0 (fresh [2; 2; 3] [1; 2; 3; 4; 5; 6; 7; 8; 9; 10; 11; 12])
    = Ok (fresh [2; 2; 3] [1; 2; 3; 0; 5; 6; 7; 8; 9; 0; 11; 12]).
Proof. repeat split; reflexivity. Qed.

(** ** C42 *)

Theorem C42_meshgrid_xy {T} c (axes : list (tensor T)) (xss : list (list T)) :
  Forall2 (fun t xs => repr t [length xs] xs) axes xss ->
  supported (map (@length T) xss) -> Forall (fun xs => xs <> []) xss ->
  exists ts, meshgrid c axes = Ok ts /\ length ts = length xss /\
    forall i xs, nth_error xss i = Some xs ->
      exists ys, nth_error ts i = Some (fresh (rev (map (@length T) xss)) ys) /\
        length ys = prod (map (@length T) xss) /\
        forall idx, in_shape (map (@length T) xss) idx ->
          elem (rev (map (@length T) xss)) ys (rev idx) = nth_error xs (nth i idx 0).
Proof. exact (@c42_meshgrid_xy T c axes xss). Qed.
Print Assumptions C42_meshgrid_xy.

Theorem C42_meshgrid_ij {T} c (axes : list (tensor T)) (xss : list (list T)) :
  Forall2 (fun t xs => repr t [length xs] xs) axes xss ->
  supported (map (@length T) xss) -> Forall (fun xs => xs <> []) xss ->
  exists ts, meshgrid_ij c axes = Ok ts /\ length ts = length xss /\
    forall i xs, nth_error xss i = Some xs ->
      exists ys, nth_error ts i = Some (fresh (map (@length T) xss) ys) /\
        length ys = prod (map (@length T) xss) /\
        forall idx, in_shape (map (@length T) xss) idx ->
          elem (map (@length T) xss) ys idx = nth_error xs (nth i idx 0).
Proof. exact (@c42_meshgrid_ij T c axes xss). Qed.
Print Assumptions C42_meshgrid_ij.

(** An axis that is not a vector is rejected. *)
Theorem C42_meshgrid_rank {T} c (t : tensor T) ds xs :
  repr t ds xs -> length ds <> 1 -> 0 < length xs -> supported [length xs] ->
  meshgrid c [t] = Panic /\ meshgrid_ij c [t] = Panic.
Proof. exact (@c42_meshgrid_rank T c t ds xs). Qed.
Print Assumptions C42_meshgrid_rank.

Example C42_example :
  meshgrid dev [fresh [3] [1; 2; 3]; fresh [2] [10; 20]]
  = Ok [fresh [2; 3] [1; 2; 3; 1; 2; 3]; fresh [2; 3] [10; 10; 10; 20; 20; 20]] /\
  meshgrid_ij dev [fresh [3] [1; 2; 3]; fresh [2] [10; 20]]
  = Ok [fresh [3; 2] [1; 1; 2; 2; 3; 3]; fresh [3; 2] [10; 20; 10; 20; 10; 20]].
Proof. split; reflexivity. Qed.

(** ** C43 *)

(** With the given arithmetic: one entry per count along a new outer axis. *)
Theorem C43_linspace {F} (o : fops F) c (s e : tensor F) ds xs ys len :
  repr s ds xs -> repr e ds ys -> 0 < prod ds -> length ds < 5 -> supported (len :: ds) ->
  can_alloc c (len * prod ds) ->
  (forall i x y, nth_error xs i = Some x -> nth_error ys i = Some y -> fle o x y = true) ->
  exists zs, linspace o c s e len = Ok (fresh (len :: ds) zs) /\ length zs = prod (len :: ds) /\
    forall k idx x y, k < len -> elem ds xs idx = Some x -> elem ds ys idx = Some y ->
      elem (len :: ds) zs (k :: idx)
      = Some (fadd o x (fmul o (if 1 <? len then fdiv o (fsub o y x) (fof o (len - 1)) else fzero o) (fof o k))).
Proof. exact (@c43_linspace F o c s e ds xs ys len). Qed.
Print Assumptions C43_linspace.

(** Over the reals. *)
Theorem C43_linspace_real c (s e : tensor R) ds xs ys len :
  repr s ds xs -> repr e ds ys -> 0 < prod ds -> length ds < 5 -> supported (len :: ds) ->
  2 <= len ->
  (forall i x y, nth_error xs i = Some x -> nth_error ys i = Some y -> (x <= y)%R) ->
  exists zs, linspace R_ops c s e len = Ok (fresh (len :: ds) zs) /\ length zs = prod (len :: ds) /\
    (forall k idx x y, k < len -> elem ds xs idx = Some x -> elem ds ys idx = Some y ->
      elem (len :: ds) zs (k :: idx) = Some (x + INR k * (y - x) / (INR len - 1))%R) /\
    (forall idx x y, elem ds xs idx = Some x -> elem ds ys idx = Some y ->
      elem (len :: ds) zs (0 :: idx) = Some x /\ elem (len :: ds) zs (len - 1 :: idx) = Some y).
Proof. exact (@c43_linspace_real c s e ds xs ys len). Qed.
Print Assumptions C43_linspace_real.

(** A single sample is the start. *)
Theorem C43_linspace_one c (s e : tensor R) ds xs ys :
  repr s ds xs -> repr e ds ys -> 0 < prod ds -> length ds < 5 -> supported (1 :: ds) ->
  (forall i x y, nth_error xs i = Some x -> nth_error ys i = Some y -> (x <= y)%R) ->
  linspace R_ops c s e 1 = Ok (fresh (1 :: ds) xs).
Proof. exact (@c43_linspace_one c s e ds xs ys). Qed.
Print Assumptions C43_linspace_one.

Theorem C43_logspace_real c (s e : tensor R) ds xs ys len base :
  repr s ds xs -> repr e ds ys -> 0 < prod ds -> length ds < 5 -> supported (len :: ds) ->
  2 <= len ->
  (forall i x y, nth_error xs i = Some x -> nth_error ys i = Some y -> (x <= y)%R) ->
  exists zs, logspace R_ops c s e len base = Ok (fresh (len :: ds) zs) /\ length zs = prod (len :: ds) /\
    forall k idx x y, k < len -> elem ds xs idx = Some x -> elem ds ys idx = Some y ->
      elem (len :: ds) zs (k :: idx)
      = Some (Rpower (match base with Some b => b | None => 10 end) (x + INR k * (y - x) / (INR len - 1)))%R.
Proof. exact (@c43_logspace_real c s e ds xs ys len base). Qed.
Print Assumptions C43_logspace_real.

(** geomspace interpolates the logarithms: between positive end points the ratio of
    successive entries is constant, [x * (y / x)^(k / (len - 1))].  A one-element pair
    of end points gives a vector whatever its rank. *)
Theorem C43_geomspace_real c (s e : tensor R) ds xs ys len :
  repr s ds xs -> repr e ds ys -> 1 < prod ds -> length ds < 5 -> supported (len :: ds) ->
  2 <= len ->
  (forall i x y, nth_error xs i = Some x -> nth_error ys i = Some y -> (0 < x <= y)%R) ->
  exists zs, geomspace R_ops c s e len = Ok (fresh (len :: ds) zs) /\ length zs = prod (len :: ds) /\
    forall k idx x y, k < len -> elem ds xs idx = Some x -> elem ds ys idx = Some y ->
      elem (len :: ds) zs (k :: idx) = Some (x * Rpower (y / x) (INR k / (INR len - 1)))%R.
Proof. exact (@c43_geomspace_real c s e ds xs ys len). Qed.
Print Assumptions C43_geomspace_real.

Theorem C43_geomspace_scalar c (s e : tensor R) ds x y len :
  repr s ds [x] -> repr e ds [y] -> supported [len] -> 2 <= len -> (0 < x <= y)%R ->
  exists zs, geomspace R_ops c s e len = Ok (fresh [len] zs) /\ length zs = len /\
    forall k, k < len -> nth_error zs k = Some (x * Rpower (y / x) (INR k / (INR len - 1)))%R.
Proof. exact (@c43_geomspace_scalar c s e ds x y len). Qed.
Print Assumptions C43_geomspace_scalar.

(** C42: [mgrid::<M, N>] spreads the counts below [M] over the columns and those below
    [N] over the rows (over the reals). *)
Theorem C42_mgrid_real c M N :
  0 < M -> 0 < N -> supported [M; N] ->
  exists xs ys, mgrid R_ops c M N = Ok [fresh [N; M] xs; fresh [N; M] ys] /\
    length xs = N * M /\ length ys = N * M /\
    forall i j, i < N -> j < M ->
      elem [N; M] xs [i; j] = Some (INR j) /\ elem [N; M] ys [i; j] = Some (INR i).
Proof. exact (@c42_mgrid_real c M N). Qed.
Print Assumptions C42_mgrid_real.

(** A start that is not below its end panics, and so do end points of different shapes. *)
Theorem C43_order {F} (o : fops F) c (s e : tensor F) ds xs ys len base i x y :
  repr s ds xs -> repr e ds ys -> length ds < 5 -> supported (len :: ds) -> can_alloc c (len * prod ds) ->
  nth_error xs i = Some x -> nth_error ys i = Some y -> fle o x y = false ->
  linspace o c s e len = Panic /\ logspace o c s e len base = Panic.
Proof. exact (@c43_order F o c s e ds xs ys len base i x y). Qed.
Print Assumptions C43_order.

Theorem C43_shapes {F} (o : fops F) c (s e : tensor F) ds ds' xs ys len base :
  repr s ds xs -> repr e ds' ys -> ds <> ds' ->
  linspace o c s e len = Panic /\ logspace o c s e len base = Panic /\ geomspace o c s e len = Panic.
Proof. exact (@c43_shapes F o c s e ds ds' xs ys len base). Qed.
Print Assumptions C43_shapes.

(** End points of rank five or six never give a result, although the result's rank is
    supported for rank five. *)
Theorem C43_linspace_deep {F} (o : fops F) c (s e : tensor F) ds xs ys len :
  repr s ds xs -> repr e ds ys -> 5 <= length ds -> 0 < len -> supported [len] ->
  linspace o c s e len <> Ub /\ forall t, linspace o c s e len <> Ok t.
Proof. exact (@c43_linspace_deep F o c s e ds xs ys len). Qed.
Print Assumptions C43_linspace_deep.

(** In binary32 the first sample equals the start if the distance between the end points
    does not overflow ... *)
Theorem C43_linspace_first_b32 ln_ exp_ pow_ c (s e : tensor b32) ds xs ys len :
  repr s ds xs -> repr e ds ys -> 0 < prod ds -> length ds < 5 -> supported (len :: ds) -> 0 < len ->
  (forall i x y, nth_error xs i = Some x -> nth_error ys i = Some y ->
     Bleb x y = true /\ is_finite x = true /\
     is_finite (@Bminus 24 128 b32_prec b32_emax mode_NE y x) = true) ->
  exists zs, linspace (b32_ops ln_ exp_ pow_) c s e len = Ok (fresh (len :: ds) zs) /\
    forall idx x y, elem ds xs idx = Some x -> elem ds ys idx = Some y ->
      exists z, elem (len :: ds) zs (0 :: idx) = Some z /\ Beqb z x = true.
Proof. exact (@c43_linspace_first_b32 ln_ exp_ pow_ c s e ds xs ys len). Qed.
Print Assumptions C43_linspace_first_b32.

(** ... but it is NaN if it does, and the last sample need not be the end. *)
Theorem C43_linspace_b32_refuted ln_ exp_ pow_ :
  let o := b32_ops ln_ exp_ pow_ in
  (exists z zs, linspace o dev (fresh [] [fmin_value o]) (fresh [] [fmax_value o]) 2 = Ok (fresh [2] (z :: zs)) /\
     is_nan z = true) /\
  (exists zs z, linspace o dev (fresh [] [fzero o]) (fresh [] [fone o]) 42 = Ok (fresh [42] zs) /\
     nth_error zs 41 = Some z /\ Beqb z (fone o) = false).
Proof. exact (@c43_linspace_b32_refuted ln_ exp_ pow_). Qed.
Print Assumptions C43_linspace_b32_refuted.

Example C43_example :
  let o := b32_ops (fun x => x) (fun x => x) (fun x _ => x) in
  let n k := b32_of_Z k (-1) in
  match linspace o dev (fresh [2] [n 0; n 20]%Z) (fresh [2] [n 2; n 40]%Z) 3 with
  | Ok t => tshape t = canon [3; 2] /\ map B2SF (tdata t) = map (fun k => B2SF (n k)) [0; 20; 1; 30; 2; 40]%Z
  | _ => False
  end.
Proof. vm_compute. auto. Qed.

(** ** C44 *)

Theorem C44_arange_result {F} (o : fops F) c fuel start end_ step r :
  feq o step (fzero o) = false -> fle o start end_ = true -> flt o (fzero o) step = true ->
  arange o c fuel start end_ step = Some r ->
  exists N, r = of_vec c (map (fun k => iterate (fun x => fadd o x step) k start) (seq 0 N)) /\
    (forall k, k < N -> flt o (iterate (fun x => fadd o x step) k start) end_ = true) /\
    flt o (iterate (fun x => fadd o x step) N start) end_ = false.
Proof. exact (@c44_arange_result F o c fuel start end_ step r). Qed.
Print Assumptions C44_arange_result.

(** Over the reals with a positive step it terminates, with exactly the members of the
    progression that lie strictly before the end. *)
Theorem C44_arange_real c start end_ step :
  (0 < step)%R -> (start <= end_)%R ->
  exists N, (forall k, k < N <-> (start + INR k * step < end_)%R) /\
    (supported [N] -> forall fuel, N <= fuel ->
      arange R_ops c fuel start end_ step
      = Some (Ok (fresh [N] (map (fun k => (start + INR k * step)%R) (seq 0 N))))).
Proof. exact (@c44_arange_real c start end_ step). Qed.
Print Assumptions C44_arange_real.

(** In binary32, between integers of at most 24 bits, the samples are exact. *)
Theorem C44_arange_int_b32 ln_ exp_ pow_ c a e s N :
  (0 < s <= 16777216)%Z -> (- 16777216 <= a <= e)%Z -> (e + s <= 16777216)%Z ->
  (forall k, k < N <-> (a + Z.of_nat k * s < e)%Z) -> supported [N] ->
  forall fuel, N <= fuel ->
    arange (b32_ops ln_ exp_ pow_) c fuel (b32_of_Z a 0) (b32_of_Z e 0) (b32_of_Z s 0)
    = Some (Ok (fresh [N] (map (fun k => b32_of_Z (a + Z.of_nat k * s) 0) (seq 0 N)))).
Proof. exact (@c44_arange_int_b32 ln_ exp_ pow_ c a e s N). Qed.
Print Assumptions C44_arange_int_b32.

(** Steps that do not lead towards the end are rejected. *)
Theorem C44_arange_direction c fuel start end_ step :
  (step = 0 \/ (start < end_ /\ step < 0) \/ (end_ < start /\ 0 < step))%R ->
  arange R_ops c fuel start end_ step = Some Panic.
Proof. exact (@c44_arange_direction c fuel start end_ step). Qed.
Print Assumptions C44_arange_direction.

(** With a negative step and the end below the start the loop subtracts the negative
    step and never terminates: over the reals ... *)
Theorem C44_arange_refuted c start end_ step :
  (step < 0)%R -> (end_ < start)%R -> forall fuel, arange R_ops c fuel start end_ step = None.
Proof. exact (@c44_arange_refuted c start end_ step). Qed.
Print Assumptions C44_arange_refuted.

(** ... and in binary32. *)
Theorem C44_arange_b32_refuted ln_ exp_ pow_ c (start end_ step : b32) :
  is_finite end_ = true -> is_finite step = true ->
  Bltb step (B754_zero false) = true -> Bltb end_ start = true ->
  forall fuel, arange (b32_ops ln_ exp_ pow_) c fuel start end_ step = None.
Proof. exact (@c44_arange_b32_refuted ln_ exp_ pow_ c start end_ step). Qed.
Print Assumptions C44_arange_b32_refuted.

(** Even ascending it can run forever in binary32: 2^24 + 1 rounds to 2^24. *)
Theorem C44_arange_stuck_refuted ln_ exp_ pow_ c :
  forall fuel, arange (b32_ops ln_ exp_ pow_) c fuel (b32_of_Z 16777216 0) (b32_of_Z 16777218 0) (b32_of_Z 1 0)
               = None.
Proof. exact (@c44_arange_stuck_refuted ln_ exp_ pow_ c). Qed.
Print Assumptions C44_arange_stuck_refuted.

Example C44_example :
  let o := b32_ops (fun x => x) (fun x => x) (fun x _ => x) in
  match arange o dev 10 (b32_of_Z 1 0) (b32_of_Z 3 0) (b32_of_Z 1 (-1)) with
  | Some (Ok t) => map B2SF (tdata t) = map (fun k => B2SF (b32_of_Z k (-1))) [2; 3; 4; 5]%Z /\ tsize t = 4
  | _ => False
  end.
Proof. vm_compute. auto. Qed.

(** ** C45 *)

Theorem C45_one_hot {F} (o : fops F) c indices depth :
  supported [depth] -> Forall (fun i => i < depth) indices ->
  exists ys, one_hot o c indices depth = Ok (fresh [depth] ys) /\ length ys = depth /\
    forall k, k < depth ->
      (In k indices -> nth_error ys k = Some (fone o)) /\ (~ In k indices -> nth_error ys k = Some (fzero o)).
Proof. exact (@c45_one_hot F o c indices depth). Qed.
Print Assumptions C45_one_hot.

Theorem C45_one_hot_range {F} (o : fops F) c indices depth i :
  In i indices -> depth <= i -> one_hot o c indices depth = Panic.
Proof. exact (@c45_one_hot_range F o c indices depth i). Qed.
Print Assumptions C45_one_hot_range.

Example C45_example :
  one_hot R_ops dev [2; 0; 2] 4 = Ok (fresh [4] [1; 0; 1; 0]%R) /\ one_hot R_ops dev [1; 4] 4 = Panic.
Proof. split; reflexivity. Qed.
