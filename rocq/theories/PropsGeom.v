(** * C80: geometric sequences and powers in binary32 *)
From Coq Require Import Reals.
From Flocq Require Import IEEE754.BinarySingleNaN.
From Verif Require Import Base ShapeModel TensorModel FloatModel InitModel Spec FloatSpec RoundSpec NormalSpec GeomProofs.

(** With a faithfully rounded logarithm and exponential (each result is one of the two numbers next to the real value),
    every sample of [geomspace] between numbers from 2^-100 to 2^100 is a number and within one part in 8192 of the
    exact one.  [geomspace] compares the logarithms of the endpoints, so these must be in order too. *)
Theorem C80_geomspace_error ln_ exp_ pow_ c (s e : tensor b32) ds x y len :
  (forall x, number x -> (0 < B2R x)%R -> faithful (ln (B2R x)) (ln_ x)) ->
  (forall x, number x -> (exp (B2R x) <= 2 ^ 126)%R -> faithful (exp (B2R x)) (exp_ x)) ->
  repr s ds [x] -> repr e ds [y] -> supported [len] -> 2 <= len -> (Z.of_nat len <= 16777217)%Z ->
  number x -> number y -> (/ 2 ^ 100 <= B2R x <= B2R y)%R -> (B2R y <= 2 ^ 100)%R -> (B2R (ln_ x) <= B2R (ln_ y))%R ->
  exists zs, geomspace (b32_ops ln_ exp_ pow_) c s e len = Ok (fresh [len] zs) /\ length zs = len /\
    forall k, k < len -> exists z, nth_error zs k = Some z /\ number z /\
      let r := (B2R x * Rpower (B2R y / B2R x) (INR k / INR (len - 1)))%R in (Rabs (B2R z - r) <= / 2 ^ 13 * r)%R.
Proof. exact (fun Hln Hexp => @c80_geomspace_error ln_ exp_ pow_ Hln Hexp c s e ds x y len). Qed.
Print Assumptions C80_geomspace_error.

(** The same for each pair of endpoints of a tensor. *)
Theorem C80_geomspace_batch ln_ exp_ pow_ c (s e : tensor b32) ds xs ys len :
  (forall x, number x -> (0 < B2R x)%R -> faithful (ln (B2R x)) (ln_ x)) ->
  (forall x, number x -> (exp (B2R x) <= 2 ^ 126)%R -> faithful (exp (B2R x)) (exp_ x)) ->
  repr s ds xs -> repr e ds ys -> 1 < prod ds -> length ds < 5 -> supported (len :: ds) ->
  2 <= len -> (Z.of_nat len <= 16777217)%Z ->
  (forall i x y, nth_error xs i = Some x -> nth_error ys i = Some y ->
     number x /\ number y /\ (/ 2 ^ 100 <= B2R x <= B2R y)%R /\ (B2R y <= 2 ^ 100)%R /\ (B2R (ln_ x) <= B2R (ln_ y))%R) ->
  exists zs, geomspace (b32_ops ln_ exp_ pow_) c s e len = Ok (fresh (len :: ds) zs) /\ length zs = prod (len :: ds) /\
    forall k idx x y, k < len -> elem ds xs idx = Some x -> elem ds ys idx = Some y ->
      exists z, elem (len :: ds) zs (k :: idx) = Some z /\ number z /\
        let r := (B2R x * Rpower (B2R y / B2R x) (INR k / INR (len - 1)))%R in (Rabs (B2R z - r) <= / 2 ^ 13 * r)%R.
Proof. exact (fun Hln Hexp => @c80_geomspace_batch ln_ exp_ pow_ Hln Hexp c s e ds xs ys len). Qed.
Print Assumptions C80_geomspace_batch.

(** From 1 to 100 in three samples, with the binary32 numbers nearest to the values of the functions at the points where
    they are needed: 1, 10 and the number after 100. *)
Example C80_geomspace_example pow_ :
  let n k := b32_of_Z k 0 in
  let l := b32_of_Z 9657742 in
  let ln_ x := if Beqb x (n 1%Z) then n 0%Z else if Beqb x (n 100%Z) then l (-21)%Z else B754_nan in
  let exp_ x := if Beqb x (n 0%Z) then n 1%Z else if Beqb x (l (-22)%Z) then n 10%Z
                else if Beqb x (l (-21)%Z) then b32_of_Z 13107201 (-17) else B754_nan in
  match geomspace (b32_ops ln_ exp_ pow_) dev (fresh [] [n 1%Z]) (fresh [] [n 100%Z]) 3 with
  | Ok t => tshape t = canon [3] /\ map B2SF (tdata t) = map B2SF [n 1%Z; n 10%Z; b32_of_Z 13107201 (-17)]
  | _ => False
  end.
Proof. vm_compute. split; reflexivity. Qed.

(** Likewise [logspace], for bases from 1/16 to 16 and exponents from -25 to 25: within one part in 4096. *)
Theorem C80_logspace_error ln_ exp_ pow_ c (s e : tensor b32) ds xs ys len base :
  (forall x y, number x -> number y -> (0 < B2R x)%R -> (Rpower (B2R x) (B2R y) <= 2 ^ 127)%R ->
     faithful (Rpower (B2R x) (B2R y)) (pow_ x y)) ->
  match base with Some b => number b /\ (/ 16 <= B2R b <= 16)%R | None => True end ->
  repr s ds xs -> repr e ds ys -> 0 < prod ds -> length ds < 5 -> supported (len :: ds) ->
  2 <= len -> (Z.of_nat len <= 16777217)%Z ->
  (forall i x y, nth_error xs i = Some x -> nth_error ys i = Some y ->
     number x /\ number y /\ (-25 <= B2R x <= B2R y)%R /\ (B2R y <= 25)%R) ->
  exists zs, logspace (b32_ops ln_ exp_ pow_) c s e len base = Ok (fresh (len :: ds) zs) /\ length zs = prod (len :: ds) /\
    forall k idx x y, k < len -> elem ds xs idx = Some x -> elem ds ys idx = Some y ->
      exists z, elem (len :: ds) zs (k :: idx) = Some z /\ number z /\
        let r := Rpower (match base with Some b => B2R b | None => 10%R end)
                   (B2R x + INR k * (B2R y - B2R x) / INR (len - 1)) in
        (Rabs (B2R z - r) <= / 2 ^ 12 * r)%R.
Proof. exact (fun Hpow => @c80_logspace_error ln_ exp_ pow_ Hpow c s e ds xs ys len base). Qed.
Print Assumptions C80_logspace_error.

(** The powers of 4 with exponents 0, 1/2 and 1. *)
Example C80_logspace_example ln_ exp_ :
  let n k := b32_of_Z k 0 in
  let pow_ x y := if Beqb y (n 0%Z) then n 1%Z else if Beqb y (b32_of_Z 1 (-1)) then @Bsqrt 24 128 b32_prec b32_emax mode_NE x
                  else if Beqb y (n 1%Z) then x else B754_nan in
  match logspace (b32_ops ln_ exp_ pow_) dev (fresh [] [n 0%Z]) (fresh [] [n 1%Z]) 3 (Some (n 4%Z)) with
  | Ok t => tshape t = canon [3] /\ map B2SF (tdata t) = map (fun k => B2SF (n k)) [1; 2; 4]%Z
  | _ => False
  end.
Proof. vm_compute. split; reflexivity. Qed.

(** [geomspace] compares logarithms: if those of some pair of endpoints are out of order, or not comparable, it panics. *)
Theorem C43_geomspace_order {F} (o : fops F) c (s e : tensor F) ds xs ys len i x y :
  repr s ds xs -> repr e ds ys -> prod ds = 1 \/ length ds < 5 ->
  supported (len :: ds) \/ (prod ds = 1 /\ supported [len]) -> can_alloc c (len * prod ds) ->
  nth_error xs i = Some x -> nth_error ys i = Some y -> fle o (fln o x) (fln o y) = false ->
  geomspace o c s e len = Panic.
Proof. exact (@c43_geomspace_order F o c s e ds xs ys len i x y). Qed.
Print Assumptions C43_geomspace_order.

(** From -1, whose logarithm is NaN, to 1: a panic. *)
Example C43_geomspace_order_example exp_ pow_ :
  let n k := b32_of_Z k 0 in
  let ln_ x := if Beqb x (n 1%Z) then n 0%Z else B754_nan in
  match geomspace (b32_ops ln_ exp_ pow_) dev (fresh [2] [n 1%Z; n (-1)%Z]) (fresh [2] [n 1%Z; n 1%Z]) 3 with
  | Panic => True
  | _ => False
  end.
Proof. vm_compute. exact I. Qed.

(** A start of 0 passes that comparison, since its logarithm is -infinity.  Every sample, the first and the last included,
    is then the exponential of NaN. *)
Theorem C80_geomspace_zero ln_ exp_ pow_ c (s e : tensor b32) ds x y len :
  repr s ds [x] -> repr e ds [y] -> supported [len] -> 2 <= len ->
  ln_ x = B754_infinity true -> is_finite (ln_ y) = true ->
  geomspace (b32_ops ln_ exp_ pow_) c s e len = Ok (fresh [len] (repeat (exp_ B754_nan) len)).
Proof. exact (@c80_geomspace_zero ln_ exp_ pow_ c s e ds x y len). Qed.
Print Assumptions C80_geomspace_zero.

(** In a tensor of endpoints the samples of such a pair are lost in the same way. *)
Theorem C80_geomspace_zero_batch ln_ exp_ pow_ c (s e : tensor b32) ds xs ys len :
  repr s ds xs -> repr e ds ys -> 1 < prod ds -> length ds < 5 -> supported (len :: ds) -> 2 <= len ->
  (forall i x y, nth_error xs i = Some x -> nth_error ys i = Some y -> Bleb (ln_ x) (ln_ y) = true) ->
  exists zs, geomspace (b32_ops ln_ exp_ pow_) c s e len = Ok (fresh (len :: ds) zs) /\ length zs = prod (len :: ds) /\
    forall k idx x y, k < len -> elem ds xs idx = Some x -> elem ds ys idx = Some y ->
      ln_ x = B754_infinity true -> is_finite (ln_ y) = true -> elem (len :: ds) zs (k :: idx) = Some (exp_ B754_nan).
Proof. exact (@c80_geomspace_zero_batch ln_ exp_ pow_ c s e ds xs ys len). Qed.
Print Assumptions C80_geomspace_zero_batch.

Example C80_geomspace_zero_example pow_ :
  let n k := b32_of_Z k 0 in
  let ln_ x := if Beqb x (n 0%Z) then B754_infinity true else n 0%Z in
  match geomspace (b32_ops ln_ (fun x => x) pow_) dev (fresh [] [n 0%Z]) (fresh [] [n 1%Z]) 3 with
  | Ok t => tshape t = canon [3] /\ map (@is_nan 24 128) (tdata t) = [true; true; true]
  | _ => False
  end.
Proof. vm_compute. split; reflexivity. Qed.

(** Two pairs, (1, 1) and (0, 1), with the constant 1 for the exponential of a number: the second column is NaN. *)
Example C80_geomspace_zero_batch_example pow_ :
  let n k := b32_of_Z k 0 in
  let ln_ x := if Beqb x (n 0%Z) then B754_infinity true else n 0%Z in
  let exp_ x := if is_nan x then x else n 1%Z in
  match geomspace (b32_ops ln_ exp_ pow_) dev (fresh [2] [n 1%Z; n 0%Z]) (fresh [2] [n 1%Z; n 1%Z]) 2 with
  | Ok t => tshape t = canon [2; 2] /\ map (@is_nan 24 128) (tdata t) = [false; true; false; true]
  | _ => False
  end.
Proof. vm_compute. split; reflexivity. Qed.
