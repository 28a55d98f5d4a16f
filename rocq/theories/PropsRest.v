(** * C56, C57 and C75: [Rand64::next_normal], the remaining options and conversions, and [idim] *)
From Coq Require Import Reals.
From Flocq Require Import IEEE754.BinarySingleNaN.
From Verif Require Import Base ShapeModel TensorModel FloatModel RandomModel Rand64Model FromModel Spec FloatSpec RoundSpec
  RandomSpec NormalSpec NormalProofs RestProofs.

(** [Rand64::next_normal] takes the logarithm of a value that should be at most 1 and is not (C56_rand64_uniform_b64).
    For every state whose next value is 2^32 or more (by C55_rand64_equidistributed, all values but one in
    2^32), and every logarithm that is positive above 1, the result is NaN. *)
Theorem C56_rand64_normal_nan (ln_ cos_ : b64 -> b64) s :
  (forall x, is_finite x = true -> (1 < B2R x)%R -> is_finite (ln_ x) = true /\ (0 < B2R (ln_ x))%R) ->
  (2 ^ 32 <= snd (rand64_next s))%Z -> snd (rand64_normal_b64 ln_ cos_ s) = B754_nan.
Proof. exact (@c56_rand64_normal_nan ln_ cos_ s). Qed.
Print Assumptions C56_rand64_normal_nan.

(** The first two values of seed 0, with x - 1 for the logarithm and x for the cosine. *)
Example C56_rand64_normal_example :
  let ln_ x := @Bminus 53 1024 b64_prec b64_emax mode_NE x (b64_of_Z 1 0) in
  let '(s1, x) := rand64_normal_b64 ln_ (fun x => x) 0 in
  is_nan x = true /\ is_nan (snd (rand64_normal_b64 ln_ (fun x => x) s1)) = true /\ (2 ^ 32 <= snd (rand64_next 0))%Z.
Proof. vm_compute. repeat split; discriminate. Qed.

(** It draws two uniform variates, the first for the radius and the second for the angle. *)
Theorem C56_rand64_normal_draws (ln_ cos_ : b64 -> b64) {F} (o : rops F) s :
  fst (rand64_normal_b64 ln_ cos_ s) = fst (rand64_next (fst (rand64_next s))) /\
  rand64_normal o s =
  (let a := snd (rand64_uniform o s) in let b := snd (rand64_uniform o (fst (rand64_next s))) in
   (fst (rand64_next (fst (rand64_next s))),
    fmul (rbase o) (fsqrt (rbase o) (fmul (rbase o) (rneg2 o) (fln (rbase o) a))) (rcos o (fmul (rbase o) (rtau o) b)))).
Proof. exact (@c56_rand64_normal_draws ln_ cos_ F o s). Qed.
Print Assumptions C56_rand64_normal_draws.

(** Its value in binary64: the square root of -2 times the logarithm of the first variate, times the cosine of the nearest
    number to 2 pi times the second. *)
Theorem C56_rand64_normal_value :
  exists m2 tau : b64, is_finite m2 = true /\ B2R m2 = (-2)%R /\ is_finite tau = true /\ (Rabs (B2R tau - 2 * PI) <= / 2 ^ 51)%R /\
  forall (ln_ cos_ : b64 -> b64) s,
    let mul := @Bmult 53 1024 b64_prec b64_emax mode_NE in
    let a := snd (rand64_uniform_b64 s) in
    let b := snd (rand64_uniform_b64 (fst (rand64_next s))) in
    snd (rand64_normal_b64 ln_ cos_ s) = mul (@Bsqrt 53 1024 b64_prec b64_emax mode_NE (mul m2 (ln_ a))) (cos_ (mul tau b)).
Proof. exact c56_rand64_normal_value. Qed.
Print Assumptions C56_rand64_normal_value.

(** Seed 0, with -2 for the logarithm and 1/2 for the cosine: the square root of 4, halved. *)
Example C56_rand64_normal_value_example :
  B2SF (snd (rand64_normal_b64 (fun _ => b64_of_Z (-2) 0) (fun _ => b64_of_Z 1 (-1)) 0)) = B2SF (b64_of_Z 1 0).
Proof. vm_compute. reflexivity. Qed.

(** [Rand32::next_normal] is a number of magnitude at most 7 whenever the first of its two values is not 0, if the
    logarithm of a number from 2^-32 to 1 is a number from -23 to 0, and the cosine a number from -1 to 1. *)
Theorem C56_rand32_normal_range ln_ exp_ pow_ cos_ s :
  (forall x, is_finite x = true -> (/ 2 ^ 32 <= B2R x <= 1)%R -> is_finite (ln_ x) = true /\ (-23 <= B2R (ln_ x) <= 0)%R) ->
  (forall x, is_finite x = true -> (Rabs (B2R x) <= 7)%R -> is_finite (cos_ x) = true /\ (Rabs (B2R (cos_ x)) <= 1)%R) ->
  snd (rand32_next s) <> 0%Z ->
  let z := snd (rand32_normal (b32_rops ln_ exp_ pow_ cos_) s) in
  is_finite z = true /\ (Rabs (B2R z) <= 7)%R.
Proof. exact (@c56_rand32_normal_range ln_ exp_ pow_ cos_ s). Qed.
Print Assumptions C56_rand32_normal_range.

(** Seed 0, with x - 1 for the logarithm and 1/2 for the cosine: the square root of 0.733694077, halved. *)
Example C56_rand32_normal_example exp_ pow_ :
  let ln_ x := @Bminus 24 128 b32_prec b32_emax mode_NE x (b32_of_Z 1 0) in
  B2SF (snd (rand32_normal (b32_rops ln_ exp_ pow_ (fun _ => b32_of_Z 1 (-1))) 0)) = B2SF (b32_of_Z 14370683 (-25)) /\
  snd (rand32_next 0) = 2719371262%Z.
Proof. vm_compute. split; reflexivity. Qed.

(** So a seeded normal tensor consists of numbers, unless a value 0 comes first in a pair. *)
Theorem C57_random_normal_finite ln_ exp_ pow_ cos_ c ds opt s entropy :
  (forall x, is_finite x = true -> (/ 2 ^ 32 <= B2R x <= 1)%R -> is_finite (ln_ x) = true /\ (-23 <= B2R (ln_ x) <= 0)%R) ->
  (forall x, is_finite x = true -> (Rabs (B2R x) <= 7)%R -> is_finite (cos_ x) = true /\ (Rabs (B2R (cos_ x)) <= 1)%R) ->
  supported ds -> can_alloc c (prod ds) -> n_seed opt = Some s ->
  number (n_mean opt) -> number (n_std opt) ->
  (Rabs (B2R (n_mean opt)) <= 2 ^ 100)%R -> (Rabs (B2R (n_std opt)) <= 2 ^ 100)%R ->
  (forall k, k < prod ds -> rand32_nth s (2 * N.of_nat k) <> 0%Z) ->
  exists xs, random_normal (b32_rops ln_ exp_ pow_ cos_) c (canon ds) opt entropy = Ok (fresh ds xs) /\
    length xs = prod ds /\ Forall number xs.
Proof. exact (@c57_random_normal_finite ln_ exp_ pow_ cos_ c ds opt s entropy). Qed.
Print Assumptions C57_random_normal_finite.

Example C57_random_normal_example exp_ pow_ :
  let ln_ x := @Bminus 24 128 b32_prec b32_emax mode_NE x (b32_of_Z 1 0) in
  match random_normal (b32_rops ln_ exp_ pow_ (fun _ => b32_of_Z 1 (-1))) dev (canon [2; 2])
          (mkNormal (b32_of_Z 5 0) (b32_of_Z 3 0) (Some 7%Z)) 0 with
  | Ok t => tshape t = canon [2; 2] /\ map is_finite (tdata t) = [true; true; true; true]
  | _ => False
  end.
Proof. vm_compute. split; reflexivity. Qed.

(** A faithfully rounded logarithm and cosine satisfy the assumptions of the two theorems. *)
Theorem C56_normal_faithful ln_ exp_ pow_ cos_ s :
  (forall x, number x -> (0 < B2R x)%R -> faithful (ln (B2R x)) (ln_ x)) ->
  (forall x, number x -> faithful (cos (B2R x)) (cos_ x)) ->
  snd (rand32_next s) <> 0%Z ->
  let z := snd (rand32_normal (b32_rops ln_ exp_ pow_ cos_) s) in
  number z /\ (Rabs (B2R z) <= 7)%R.
Proof. exact (@c56_normal_faithful ln_ exp_ pow_ cos_ s). Qed.
Print Assumptions C56_normal_faithful.

Theorem C57_normal_faithful ln_ exp_ pow_ cos_ c ds opt s entropy :
  (forall x, number x -> (0 < B2R x)%R -> faithful (ln (B2R x)) (ln_ x)) ->
  (forall x, number x -> faithful (cos (B2R x)) (cos_ x)) ->
  supported ds -> can_alloc c (prod ds) -> n_seed opt = Some s ->
  number (n_mean opt) -> number (n_std opt) ->
  (Rabs (B2R (n_mean opt)) <= 2 ^ 100)%R -> (Rabs (B2R (n_std opt)) <= 2 ^ 100)%R ->
  (forall k, k < prod ds -> rand32_nth s (2 * N.of_nat k) <> 0%Z) ->
  exists xs, random_normal (b32_rops ln_ exp_ pow_ cos_) c (canon ds) opt entropy = Ok (fresh ds xs) /\
    length xs = prod ds /\ Forall number xs.
Proof. exact (@c57_normal_faithful ln_ exp_ pow_ cos_ c ds opt s entropy). Qed.
Print Assumptions C57_normal_faithful.

(** [random_uniform] scales normal variates (C56_random_uniform_refuted), so the same holds of it. *)
Theorem C57_random_uniform_finite ln_ exp_ pow_ cos_ c ds opt s entropy :
  (forall x, number x -> (0 < B2R x)%R -> faithful (ln (B2R x)) (ln_ x)) ->
  (forall x, number x -> faithful (cos (B2R x)) (cos_ x)) ->
  supported ds -> can_alloc c (prod ds) -> u_seed opt = Some s ->
  number (u_min opt) -> number (u_max opt) ->
  (Rabs (B2R (u_min opt)) <= 2 ^ 99)%R -> (Rabs (B2R (u_max opt)) <= 2 ^ 99)%R ->
  (forall k, k < prod ds -> rand32_nth s (2 * N.of_nat k) <> 0%Z) ->
  exists xs, random_uniform (b32_rops ln_ exp_ pow_ cos_) c (canon ds) opt entropy = Ok (fresh ds xs) /\
    length xs = prod ds /\ Forall number xs.
Proof. exact (@c57_random_uniform_finite ln_ exp_ pow_ cos_ c ds opt s entropy). Qed.
Print Assumptions C57_random_uniform_finite.

Example C57_random_uniform_example exp_ pow_ :
  let ln_ x := @Bminus 24 128 b32_prec b32_emax mode_NE x (b32_of_Z 1 0) in
  match random_uniform (b32_rops ln_ exp_ pow_ (fun _ => b32_of_Z 1 (-1))) dev (canon [3])
          (mkUniform (b32_of_Z 5 0) (b32_of_Z 9 0) (Some 7%Z)) 0 with
  | Ok t => tshape t = canon [3] /\ map is_finite (tdata t) = [true; true; true]
  | _ => False
  end.
Proof. vm_compute. split; reflexivity. Qed.

(** Faithful functions include those that return the nearest number. *)
Theorem C56_faithful_nearest r (y : b32) :
  number y -> (forall z : b32, number z -> (Rabs (B2R y - r) <= Rabs (B2R z - r))%R) -> faithful r y.
Proof. exact (@c56_faithful_nearest r y). Qed.
Print Assumptions C56_faithful_nearest.

(** When the logarithm of 0 is minus infinity, the value 0 is the only one that does not give a number: by
    C55_rand32_equidistributed, one in 2^32. *)
Theorem C56_normal_number_iff ln_ exp_ pow_ cos_ s :
  (forall x, number x -> (0 < B2R x)%R -> faithful (ln (B2R x)) (ln_ x)) ->
  (forall x, number x -> faithful (cos (B2R x)) (cos_ x)) ->
  ln_ (b32_of_Z 0 0) = B754_infinity true ->
  number (snd (rand32_normal (b32_rops ln_ exp_ pow_ cos_) s)) <-> snd (rand32_next s) <> 0%Z.
Proof. exact (@c56_normal_number_iff ln_ exp_ pow_ cos_ s). Qed.
Print Assumptions C56_normal_number_iff.

(** A state that returns 0. *)
Example C56_normal_number_example : snd (rand32_next 14557819648473306927) = 0%Z.
Proof. vm_compute. reflexivity. Qed.

(** The values of seed 7 that become logarithms are not 0. *)
Example C57_normal_faithful_example :
  map (fun k => rand32_nth 7 (2 * N.of_nat k)) [0; 1; 2; 3] = [775751835; 548762596; 3815440892; 2654222843]%Z.
Proof. vm_compute. reflexivity. Qed.

(** The defaults, and the builders of the option structures in either order. *)
Theorem C57_defaults {F} (f : fops F) (m d : F) s :
  normal_default f = mkNormal (fzero f) (fone f) None /\ normal_std f d = mkNormal (fzero f) d None /\
  normal_of_seed f s = mkNormal (fzero f) (fone f) s /\
  uniform_default f = mkUniform (fzero f) (fone f) None /\ uniform_of_seed f s = mkUniform (fzero f) (fone f) s /\
  with_std (normal_mean f m) d = with_mean (normal_std f d) m /\
  with_max (uniform_min f m) d = with_min (uniform_max f d) m.
Proof. exact (@c57_defaults F f m d s). Qed.
Print Assumptions C57_defaults.

Example C57_defaults_example :
  normal_default R_ops = mkNormal 0%R 1%R None /\ uniform_of_seed R_ops (Some 7%Z) = mkUniform 0%R 1%R (Some 7%Z).
Proof. split; reflexivity. Qed.

(** A dimension by a signed index: negative indices count from the end.  Indices outside wrap around, modulo
    the rank above, and modulo the rank of 2^64 + i below. *)
Theorem C75_idim c ds i : length ds <= 6 -> (- 2 ^ 63 <= i)%Z -> (i + Z.of_nat (length ds) < 2 ^ 63)%Z ->
  let r := Z.of_nat (length ds) in
  (ds = [] -> idim c (canon ds) i = Panic) /\
  ((0 <= i < r)%Z -> idim c (canon ds) i = Ok (nth (Z.to_nat i) ds 0)) /\
  ((- r <= i < 0)%Z -> idim c (canon ds) i = Ok (nth (Z.to_nat (r + i)) ds 0)) /\
  (ds <> [] -> (r <= i)%Z -> idim c (canon ds) i = Ok (nth (Z.to_nat (i mod r)) ds 0)) /\
  (ds <> [] -> (i < - r)%Z -> idim c (canon ds) i = Ok (nth (Z.to_nat ((2 ^ 64 + i) mod r)) ds 0)).
Proof. exact (@c75_idim c ds i). Qed.
Print Assumptions C75_idim.

Example C75_idim_example :
  map (idim dev (canon [2; 3; 5])) [0; 2; -1; -3; 4]%Z = [Ok 2; Ok 5; Ok 5; Ok 2; Ok 3].
Proof. reflexivity. Qed.

(** So an index below the first is neither rejected nor reduced modulo the rank. *)
Theorem C75_idim_refuted : exists ds i, (i < - Z.of_nat (length ds))%Z /\
  (forall c, exists v, idim c (canon ds) i = Ok v) /\
  exists v, idim dev (canon ds) i = Ok v /\ v <> nth (Z.to_nat (i mod Z.of_nat (length ds))) ds 0.
Proof. exact c75_idim_refuted. Qed.
Print Assumptions C75_idim_refuted.

(** Conversions from a reference, from a string and from a vector of tensors. *)
Theorem C75_conversions {A} c (t : tensor A) (ts : list (tensor A)) (text : A) :
  of_tensor_ref t = t /\ of_str c text = Ok (fresh [] [text]) /\ of_tensor_vec c ts = of_tensors c ts.
Proof. exact (@c75_conversions A c t ts text). Qed.
Print Assumptions C75_conversions.

Example C75_conversions_example :
  of_tensor_vec dev [fresh [2] [1; 2]; fresh [2] [3; 4]] = Ok (fresh [2; 2] [1; 2; 3; 4]).
Proof. reflexivity. Qed.
