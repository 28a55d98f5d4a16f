(** * C42, C43: grids of integers are exact in binary32 *)
From Coq Require Import Reals.
From Flocq Require Import IEEE754.BinarySingleNaN.
From Verif Require Import Base ShapeModel TensorModel FloatModel InitModel Spec FloatSpec InitSpec RoundSpec
  NormalSpec GridProofs LogProofs.

(** When the endpoints are integers up to 2^24, at most 2^24 apart, and the length divides their distance
    into whole steps, every sample is exact. *)
Theorem C43_linspace_int_b32 ln_ exp_ pow_ c (s e : tensor b32) ds xs ys len :
  repr s ds xs -> repr e ds ys -> 0 < prod ds -> length ds < 5 -> supported (len :: ds) ->
  0 < len -> (Z.of_nat len <= 16777217)%Z ->
  (forall i x y, nth_error xs i = Some x -> nth_error ys i = Some y -> exists a d,
     number x /\ number y /\ B2R x = IZR a /\ B2R y = IZR (a + d * (Z.of_nat len - 1)) /\ (0 <= d)%Z /\
     (Z.abs a <= 16777216)%Z /\ (Z.abs (a + d * (Z.of_nat len - 1)) <= 16777216)%Z /\
     (d * (Z.of_nat len - 1) <= 16777216)%Z) ->
  exists zs, linspace (b32_ops ln_ exp_ pow_) c s e len = Ok (fresh (len :: ds) zs) /\ length zs = prod (len :: ds) /\
    forall k idx x y, k < len -> elem ds xs idx = Some x -> elem ds ys idx = Some y ->
      exists z, elem (len :: ds) zs (k :: idx) = Some z /\ number z /\
        forall a d, B2R x = IZR a -> B2R y = IZR (a + d * (Z.of_nat len - 1)) -> B2R z = IZR (a + d * Z.of_nat k).
Proof. exact (@c43_linspace_int_b32 ln_ exp_ pow_ c s e ds xs ys len). Qed.
Print Assumptions C43_linspace_int_b32.

(** From -3 to 6 and from 5 to 8, in four samples. *)
Example C43_linspace_int_b32_example ln_ exp_ pow_ :
  let n k := b32_of_Z k 0 in
  match linspace (b32_ops ln_ exp_ pow_) dev (fresh [2] [n (-3); n 5]%Z) (fresh [2] [n 6; n 8]%Z) 4 with
  | Ok t => tshape t = canon [4; 2] /\ map B2SF (tdata t) = map (fun k => B2SF (n k)) [-3; 5; 0; 6; 3; 7; 6; 8]%Z
  | _ => False
  end.
Proof. vm_compute. split; reflexivity. Qed.

(** [logspace] between such endpoints gives the powers with these whole exponents, faithfully rounded, if
    [powf] is faithfully rounded. *)
Theorem C43_logspace_int_b32 ln_ exp_ pow_ c (s e : tensor b32) ds xs ys len base :
  (forall x y, number x -> number y -> (0 < B2R x)%R -> (Rpower (B2R x) (B2R y) <= 2 ^ 127)%R ->
     faithful (Rpower (B2R x) (B2R y)) (pow_ x y)) ->
  match base with Some b => number b /\ (0 < B2R b)%R | None => True end ->
  repr s ds xs -> repr e ds ys -> 0 < prod ds -> length ds < 5 -> supported (len :: ds) ->
  0 < len -> (Z.of_nat len <= 16777217)%Z ->
  (forall i x y, nth_error xs i = Some x -> nth_error ys i = Some y -> exists a d,
     number x /\ number y /\ B2R x = IZR a /\ B2R y = IZR (a + d * (Z.of_nat len - 1)) /\ (0 <= d)%Z /\
     (Z.abs a <= 16777216)%Z /\ (Z.abs (a + d * (Z.of_nat len - 1)) <= 16777216)%Z /\
     (d * (Z.of_nat len - 1) <= 16777216)%Z) ->
  exists zs, logspace (b32_ops ln_ exp_ pow_) c s e len base = Ok (fresh (len :: ds) zs) /\ length zs = prod (len :: ds) /\
    forall k idx x y, k < len -> elem ds xs idx = Some x -> elem ds ys idx = Some y ->
      exists z, elem (len :: ds) zs (k :: idx) = Some z /\
        forall a d, B2R x = IZR a -> B2R y = IZR (a + d * (Z.of_nat len - 1)) ->
          let r := Rpower (match base with Some b => B2R b | None => 10%R end) (IZR (a + d * Z.of_nat k)) in
          (r <= 2 ^ 127)%R -> faithful r z.
Proof. exact (@c43_logspace_int_b32 ln_ exp_ pow_ c s e ds xs ys len base). Qed.
Print Assumptions C43_logspace_int_b32.

(** So a power that is itself a binary32 number is exact. *)
Theorem C43_faithful_exact (v y : b32) : number v -> faithful (B2R v) y -> B2R y = B2R v.
Proof. exact (@c43_faithful_exact v y). Qed.
Print Assumptions C43_faithful_exact.

(** The powers of 10 from 10^0 to 10^3, and of 3 from 3^2 to 3^6, with repeated multiplication for [powf]. *)
Example C43_logspace_int_b32_example ln_ exp_ :
  let n k := b32_of_Z k 0 in
  let pow_ x y := Nat.iter (Z.to_nat (Btrunc y)) (@Bmult 24 128 b32_prec b32_emax mode_NE x) (n 1%Z) in
  match logspace (b32_ops ln_ exp_ pow_) dev (fresh [] [n 0%Z]) (fresh [] [n 3%Z]) 4 None,
        logspace (b32_ops ln_ exp_ pow_) dev (fresh [] [n 2%Z]) (fresh [] [n 6%Z]) 3 (Some (n 3%Z)) with
  | Ok t, Ok u => tshape t = canon [4] /\ map B2SF (tdata t) = map (fun k => B2SF (n k)) [1; 10; 100; 1000]%Z /\
                  tshape u = canon [3] /\ map B2SF (tdata u) = map (fun k => B2SF (n k)) [9; 81; 729]%Z
  | _, _ => False
  end.
Proof. vm_compute. repeat split; reflexivity. Qed.

(** [mgrid::<M, N>] is exact up to 2^24 rows and columns. *)
Theorem C42_mgrid_b32 ln_ exp_ pow_ c M N :
  0 < M -> 0 < N -> supported [M; N] -> (Z.of_nat M <= 16777216)%Z -> (Z.of_nat N <= 16777216)%Z ->
  exists xs ys, mgrid (b32_ops ln_ exp_ pow_) c M N = Ok [fresh [N; M] xs; fresh [N; M] ys] /\
    length xs = N * M /\ length ys = N * M /\
    forall i j, i < N -> j < M -> exists x y,
      elem [N; M] xs [i; j] = Some x /\ elem [N; M] ys [i; j] = Some y /\
      number x /\ B2R x = INR j /\ number y /\ B2R y = INR i.
Proof. exact (@c42_mgrid_b32 ln_ exp_ pow_ c M N). Qed.
Print Assumptions C42_mgrid_b32.

Example C42_mgrid_b32_example ln_ exp_ pow_ :
  match mgrid (b32_ops ln_ exp_ pow_) dev 3 2 with
  | Ok [x; y] => map B2SF (tdata x) = map (fun k => B2SF (b32_of_Z k 0)) [0; 1; 2; 0; 1; 2]%Z /\
                 map B2SF (tdata y) = map (fun k => B2SF (b32_of_Z k 0)) [0; 0; 0; 1; 1; 1]%Z
  | _ => False
  end.
Proof. vm_compute. split; reflexivity. Qed.
