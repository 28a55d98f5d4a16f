(** * Properties of the random number generators (C55-C58) *)
From Coq Require Import Reals Lra NArith Znumtheory.
From Flocq Require Import Core IEEE754.BinarySingleNaN.
From Verif Require Import Base ShapeModel TensorModel MapModel FloatModel RandomModel
  Spec BaseFacts ShapeFacts CoordFacts MapFacts RealFacts MathFacts RandomFacts.
From Verif Require Import RandomSpec RandomProofs.
Local Open Scope Z_scope.

(** ** C55 *)

(** From every seed, each of the 2^64 states is reached after exactly one number of
    steps below 2^64; the generator is back at a state after [n] steps if and only if
    2^64 divides [n]. *)
Theorem C55_rand32_full_period s y :
  0 <= s < 2 ^ 64 -> 0 <= y < 2 ^ 64 ->
  exists! n, (n < 2 ^ 64)%N /\ N.iter n rand32_step s = y.
Proof. exact (@c55_rand32_full_period s y). Qed.
Print Assumptions C55_rand32_full_period.

Theorem C55_rand32_return s n :
  0 <= s < 2 ^ 64 -> (N.iter n rand32_step s = s <-> (2 ^ 64 | Z.of_N n)).
Proof. exact (@c55_rand32_return s n). Qed.
Print Assumptions C55_rand32_return.

Theorem C55_rand64_full_period s y :
  0 <= s < 2 ^ 128 -> 0 <= y < 2 ^ 128 ->
  exists! n, (n < 2 ^ 128)%N /\ N.iter n rand64_step s = y.
Proof. exact (@c55_rand64_full_period s y). Qed.
Print Assumptions C55_rand64_full_period.

Theorem C55_rand64_return s n :
  0 <= s < 2 ^ 128 -> (N.iter n rand64_step s = s <-> (2 ^ 128 | Z.of_N n)).
Proof. exact (@c55_rand64_return s n). Qed.
Print Assumptions C55_rand64_return.

(** Among any 2^64 consecutive calls, each [u32] is returned exactly 2^32 times. *)
Theorem C55_rand32_equidistributed s v :
  0 <= s < 2 ^ 64 -> 0 <= v < 2 ^ 32 ->
  exists ns, NoDup ns /\ Z.of_nat (length ns) = 2 ^ 32 /\
    forall n, In n ns <-> (n < 2 ^ 64)%N /\ rand32_nth s n = v.
Proof. exact (@c55_rand32_equidistributed s v). Qed.
Print Assumptions C55_rand32_equidistributed.

(** Among any 2^128 consecutive calls, each [u64] is returned exactly 2^64 times. *)
Theorem C55_rand64_equidistributed s v :
  0 <= s < 2 ^ 128 -> 0 <= v < 2 ^ 64 ->
  exists ns, NoDup ns /\ Z.of_nat (length ns) = 2 ^ 64 /\
    forall n, In n ns <-> (n < 2 ^ 128)%N /\ rand64_nth s n = v.
Proof. exact (@c55_rand64_equidistributed s v). Qed.
Print Assumptions C55_rand64_equidistributed.

Theorem C55_rand64_results_repeat s n : 0 <= s < 2 ^ 128 -> rand64_nth s (n + 2 ^ 96) = rand64_nth s n.
Proof. exact (@c55_rand64_results_repeat s n). Qed.
Print Assumptions C55_rand64_results_repeat.

(** The values in the repository's tests. *)
Example C55_example :
  map (fun n => rand32_nth 0 n) [0; 1; 2; 3; 4; 5; 6; 7; 8; 9]%N =
    [2719371262; 3366669408; 1060708876; 3350485177; 266455276;
     3435573958; 1339492206; 1385110079; 222350999; 936719904] /\
  map (fun s => rand32_nth s 0) [1; 2; 10] = [67131503; 3750639004; 613872473] /\
  map (fun b => rand32_nth (rand32_from b) 0) [[]; [97]; [32]; [97; 97]]
    = [2719371262; 2183894628; 3200514678; 3194888993].
Proof. vm_compute. auto. Qed.

(** ** C56 *)

(** In binary32 arithmetic [Rand32::next_uniform] is in [0, 1] for every state. *)
Theorem C56_rand32_uniform ln_ exp_ pow_ cos_ s :
  let u := snd (rand32_uniform (b32_rops ln_ exp_ pow_ cos_) s) in
  is_finite u = true /\ (0 <= B2R u <= 1)%R.
Proof. exact (@c56_rand32_uniform ln_ exp_ pow_ cos_ s). Qed.
Print Assumptions C56_rand32_uniform.

(** Both ends are attained. *)
Theorem C56_rand32_uniform_ends ln_ exp_ pow_ cos_ :
  let o := b32_rops ln_ exp_ pow_ cos_ in
  B2SF (snd (rand32_uniform o 14557819648473306927)) = B2SF (b32_of_Z 0 0) /\
  B2SF (snd (rand32_uniform o 3127309200044332847)) = B2SF (b32_of_Z 1 0).
Proof. exact (@c56_rand32_uniform_ends ln_ exp_ pow_ cos_). Qed.
Print Assumptions C56_rand32_uniform_ends.

(** The value of [Rand32::next_uniform]: the generator's output rounded to binary32, divided
    exactly by 2^32 (2^32 - 1 itself is not a binary32 number). *)
Theorem C56_rand32_uniform_value ln_ exp_ pow_ cos_ s :
  let v := snd (rand32_next s) in
  B2R (snd (rand32_uniform (b32_rops ln_ exp_ pow_ cos_) s))
    = (round radix2 (FLT_exp (-149) 24) ZnearestE (IZR v) / IZR (2 ^ 32))%R.
Proof. exact (@c56_rand32_uniform_value ln_ exp_ pow_ cos_ s). Qed.
Print Assumptions C56_rand32_uniform_value.

(** Rand64 divides its 64-bit value by 2^32 - 1.  The result is above 1 for the first
    value of seed 0 (in binary64), and in general for every value above 2^32 - 1. *)
Theorem C56_rand64_uniform_refuted :
  Bltb (b64_of_Z 1 0) (snd (rand64_uniform_b64 0)) = true.
Proof. exact c56_rand64_uniform_refuted. Qed.
Print Assumptions C56_rand64_uniform_refuted.

Theorem C56_rand64_uniform_actual s :
  let v := snd (rand64_next s) in
  let u := snd (rand64_uniform R_rops s) in
  (0 <= u <= IZR (2 ^ 32 + 1))%R /\ ((u <= 1)%R <-> v < 2 ^ 32).
Proof. exact (@c56_rand64_uniform_actual s). Qed.
Print Assumptions C56_rand64_uniform_actual.

(** The same in binary64, with both roundings. *)
Theorem C56_rand64_uniform_b64 s :
  let v := snd (rand64_next s) in
  let u := snd (rand64_uniform_b64 s) in
  let rnd := round radix2 (FLT_exp (-1074) 53) ZnearestE in
  is_finite u = true /\ B2R u = rnd (rnd (IZR v) / IZR (2 ^ 32 - 1))%R /\ ((B2R u <= 1)%R <-> v < 2 ^ 32).
Proof. exact (@c56_rand64_uniform_b64 s). Qed.
Print Assumptions C56_rand64_uniform_b64.

(** [random_uniform] draws normal variates: for seed 2, with the range [0, 1) and exact
    real arithmetic, its first element is negative. *)
Theorem C56_random_uniform_refuted c :
  exists x, random_uniform R_rops c (canon [1%nat]) (uniform_seed R_ops 2) 0 = Ok (fresh [1%nat] [x]) /\ (x < 0)%R.
Proof. exact (@c56_random_uniform_refuted c). Qed.
Print Assumptions C56_random_uniform_refuted.

(** The constants of [next_normal] in binary32: -2 exactly, and 2 pi to half a unit in the
    last place. *)
Theorem C56_constants ln_ exp_ pow_ cos_ :
  let o := b32_rops ln_ exp_ pow_ cos_ in
  is_finite (rneg2 o) = true /\ B2R (rneg2 o) = (-2)%R /\
  is_finite (rtau o) = true /\ (Rabs (B2R (rtau o) - 2 * PI) <= / 2 ^ 22)%R.
Proof. exact (@c56_constants ln_ exp_ pow_ cos_). Qed.
Print Assumptions C56_constants.

(** [next_normal] is not finite whenever the first uniform variate is 0 (with any
    logarithm that maps 0 to minus infinity). *)
Theorem C56_normal_infinite ln_ exp_ pow_ cos_ :
  ln_ (b32_of_Z 0 0) = B754_infinity true ->
  exists s, 0 <= s < 2 ^ 64 /\ is_finite (snd (rand32_normal (b32_rops ln_ exp_ pow_ cos_) s)) = false.
Proof. exact (@c56_normal_infinite ln_ exp_ pow_ cos_). Qed.
Print Assumptions C56_normal_infinite.

(** The first two uniform variates of seed 0: 0.63315296 and 0.7838638. *)
Example C56_example :
  let o := b32_rops (fun x => x) (fun x => x) (fun x _ => x) (fun x => x) in
  let '(s1, u1) := rand32_uniform o 0 in
  let '(s2, u2) := rand32_uniform o s1 in
  B2SF u1 = B2SF (b32_of_Z 10622544 (-24)) /\ B2SF u2 = B2SF (b32_of_Z 13151052 (-24)).
Proof. vm_compute. split; reflexivity. Qed.

(** ** C57 *)

(** Element [k] of a random tensor is made from the uniform variates [2 k] and [2 k + 1]
    of its seed, whatever the shape. *)
Theorem C57_random_normal {F} (o : rops F) c ds opt s entropy :
  supported ds -> can_alloc c (prod ds) -> n_seed opt = Some s ->
  random_normal o c (canon ds) opt entropy =
  Ok (fresh ds (map (fun k => fadd (rbase o) (n_mean opt) (fmul (rbase o) (normal_nth o s k) (n_std opt)))
                    (seq 0 (prod ds)))).
Proof. exact (@c57_random_normal F o c ds opt s entropy). Qed.
Print Assumptions C57_random_normal.

Theorem C57_random_uniform {F} (o : rops F) c ds opt s entropy :
  supported ds -> can_alloc c (prod ds) -> u_seed opt = Some s ->
  random_uniform o c (canon ds) opt entropy =
  Ok (fresh ds (map (fun k => fadd (rbase o) (u_min opt)
        (fmul (rbase o) (normal_nth o s k) (fmax (rbase o) (fsub (rbase o) (u_max opt) (u_min opt)) (fzero (rbase o)))))
                    (seq 0 (prod ds)))).
Proof. exact (@c57_random_uniform F o c ds opt s entropy). Qed.
Print Assumptions C57_random_uniform.

(** Without a seed the tensor is the one of the seed drawn from the thread's generator. *)
Theorem C57_unseeded {F} (o : rops F) c sh entropy entropy' :
  (forall m d, random_normal o c sh (mkNormal m d None) entropy = random_normal o c sh (mkNormal m d (Some entropy)) entropy') /\
  (forall a b, random_uniform o c sh (mkUniform a b None) entropy = random_uniform o c sh (mkUniform a b (Some entropy)) entropy').
Proof. exact (@c57_unseeded F o c sh entropy entropy'). Qed.
Print Assumptions C57_unseeded.

(** Equal seeds: two tensors with the same number of elements have the same elements
    (equal shapes: equal tensors), and the elements of the smaller are a prefix. *)
Theorem C57_prefix {F} (o : rops F) c c' ds ds' e e' :
  supported ds -> can_alloc c (prod ds) -> supported ds' -> can_alloc c' (prod ds') ->
  (prod ds <= prod ds')%nat ->
  (forall opt s, n_seed opt = Some s -> exists xs ys,
     random_normal o c (canon ds) opt e = Ok (fresh ds xs) /\
     random_normal o c' (canon ds') opt e' = Ok (fresh ds' ys) /\ xs = firstn (prod ds) ys) /\
  (forall opt s, u_seed opt = Some s -> exists xs ys,
     random_uniform o c (canon ds) opt e = Ok (fresh ds xs) /\
     random_uniform o c' (canon ds') opt e' = Ok (fresh ds' ys) /\ xs = firstn (prod ds) ys).
Proof. exact (@c57_prefix F o c c' ds ds' e e'). Qed.
Print Assumptions C57_prefix.

(** [From<&str>]: a string names the seed its bytes give. *)
Theorem C57_string_seed b bs :
  rand32_from (bs ++ [b]) = (rand32_step (rand32_from bs) + b) mod 2 ^ 64 /\ rand32_from [] = 0 /\
  rand64_from (bs ++ [b]) = (rand64_step (rand64_from bs) + b) mod 2 ^ 128 /\ rand64_from [] = 0.
Proof. exact (@c57_string_seed b bs). Qed.
Print Assumptions C57_string_seed.

(** The builders set the field they name. *)
Theorem C57_options {F} (f : fops F) m d s (a b : F) :
  normal_seed f s = mkNormal (fzero f) (fone f) (Some s) /\
  with_seed (with_std (normal_mean f m) d) s = mkNormal m d (Some s) /\
  with_mean (with_std (normal_seed f s) d) m = mkNormal m d (Some s) /\
  normal_of_pair f (m, d) = mkNormal m d None /\
  uniform_with_seed (with_max (uniform_min f a) b) s = mkUniform a b (Some s) /\
  with_min (uniform_with_seed (uniform_max f b) s) a = mkUniform a b (Some s) /\
  uniform_of_pair f (a, b) = mkUniform a b None.
Proof. exact (@c57_options F f m d s a b). Qed.
Print Assumptions C57_options.

Example C57_example :
  (* "Box-Muller" as a pair, to see which variates are used *)
  let o := mkRops (mkFops 0 1 Z.add Z.sub Z.mul (fun a _ => a) (fun a => a) Z.leb Z.ltb Z.eqb Z.of_nat Z.to_nat
                    (fun a => a) (fun a => a) (fun a _ => a) 0 0 0) (fun v => v) (fun x => 2 ^ 32 * x) 1 1 in
  let opt := mkNormal 0 1 (Some 0) in
  let u1 := 2719371262 * (2 ^ 32 * 3366669408) in
  let u2 := 1060708876 * (2 ^ 32 * 3350485177) in
  random_normal o dev (canon [2%nat]) opt 7 = Ok (fresh [2%nat] [u1; u2]) /\
  random_normal o release (canon [1; 1]%nat) opt 8 = Ok (fresh [1; 1]%nat [u1]).
Proof. vm_compute. auto. Qed.

(** ** C58 *)

(** No 64-bit seed is followed by 0: [SEED] never goes back to "not seeded". *)
Theorem C58_seed_nonzero s : 0 <= s < 2 ^ 64 -> 0 < seed_after s < 2 ^ 64.
Proof. exact (@c58_seed_nonzero s). Qed.
Print Assumptions C58_seed_nonzero.

(** From any state of the program with [SEED] = [s], under any interleaving of the
    threads' steps (no call of [random_seed]), the threads seeded since then can be put
    in an order in which they received the first, second, ... value after [s]; [SEED] is
    the last one handed out. *)
Theorem C58_schedule st0 es st :
  0 < sys_seed st0 < 2 ^ 64 -> forallb (fun e => negb (is_store e)) es = true -> run es st0 = Some st ->
  exists ord : list nat,
    NoDup ord /\
    (forall i, In i ord <-> is_seeded st i /\ ~ is_seeded st0 i) /\
    (forall k i, nth_error ord k = Some i ->
       nth_error (sys_threads st) i = Some (Seeded (seed_nth (sys_seed st0) (S k)))) /\
    sys_seed st = seed_nth (sys_seed st0) (length ord).
Proof. exact (@c58_schedule st0 es st). Qed.
Print Assumptions C58_schedule.

(** A thread keeps its seed whatever happens later, [random_seed] included. *)
Theorem C58_keep es st st' i v :
  run es st = Some st' -> nth_error (sys_threads st) i = Some (Seeded v) ->
  nth_error (sys_threads st') i = Some (Seeded v).
Proof. exact (@c58_keep es st st' i v). Qed.
Print Assumptions C58_keep.

(** Without a call of [random_seed] the first thread to finish takes a value from the
    operating system, and the others the seeds that follow it. *)
Theorem C58_unseeded st0 es st :
  sys_seed st0 = 0 -> forallb (fun e => negb (is_store e)) es = true ->
  (forall i en, In (Exchange i en) es -> 0 < en < 2 ^ 64) ->
  run es st0 = Some st ->
  (sys_seed st = 0 /\ forall i, is_seeded st i <-> is_seeded st0 i) \/
  exists en ord,
    (exists i, In (Exchange i en) es) /\ NoDup ord /\
    (forall i, In i ord <-> is_seeded st i /\ ~ is_seeded st0 i) /\
    (forall k i, nth_error ord k = Some i -> nth_error (sys_threads st) i = Some (Seeded (seed_nth en k))) /\
    sys_seed st = seed_nth en (length ord - 1).
Proof. exact (@c58_unseeded st0 es st). Qed.
Print Assumptions C58_unseeded.

(** Progress: an unseeded thread that runs alone is seeded after at most three steps. *)
Theorem C58_progress st i t en :
  nth_error (sys_threads st) i = Some t ->
  exists es st' v, (length es <= 3)%nat /\
    (forall e, In e es -> e = Load i \/ e = Exchange i en) /\
    run es st = Some st' /\ nth_error (sys_threads st') i = Some (Seeded v).
Proof. exact (@c58_progress st i t en). Qed.
Print Assumptions C58_progress.

(** An exchange fails only if [SEED] has changed since the thread's load. *)
Theorem C58_lock_free st i en old :
  nth_error (sys_threads st) i = Some (Loaded old) ->
  exists st', sys_step (Exchange i en) st = Some st' /\
    (if sys_seed st =? old then is_seeded st' i
     else nth_error (sys_threads st') i = Some Ready /\ sys_seed st' = sys_seed st).
Proof. exact (@c58_lock_free st i en old). Qed.
Print Assumptions C58_lock_free.

(** Two different arguments of [random_seed] give every thread the same seed. *)
Theorem C58_seed_collision k : seed_nth 1 (S k) = seed_nth 2746521410856025452 (S k).
Proof. exact (@c58_seed_collision k). Qed.
Print Assumptions C58_seed_collision.

(** The seeds handed out are distinct as long as the sequence has not come back to an
    earlier value: *)
Theorem C58_distinct st0 es st i j v :
  0 < sys_seed st0 < 2 ^ 64 -> forallb (fun e => negb (is_store e)) es = true -> run es st0 = Some st ->
  (forall a b, (0 < a <= length (sys_threads st))%nat -> (0 < b <= length (sys_threads st))%nat ->
     seed_nth (sys_seed st0) a = seed_nth (sys_seed st0) b -> a = b) ->
  ~ is_seeded st0 i -> ~ is_seeded st0 j ->
  nth_error (sys_threads st) i = Some (Seeded v) -> nth_error (sys_threads st) j = Some (Seeded v) -> i = j.
Proof. exact (@c58_distinct st0 es st i j v). Qed.
Print Assumptions C58_distinct.

Theorem C58_distinct_refuted s : 0 < s < 2 ^ 64 ->
  exists n es st i j v,
    forallb (fun e => negb (is_store e)) es = true /\ run es (mkSys s (repeat Ready n)) = Some st /\ i <> j /\
    nth_error (sys_threads st) i = Some (Seeded v) /\ nth_error (sys_threads st) j = Some (Seeded v).
Proof. exact (@c58_distinct_refuted s). Qed.
Print Assumptions C58_distinct_refuted.

(** Two threads after [random_seed(7)]; the second reads before the first has stored. *)
Example C58_example :
  run [Store 7; Load 0; Load 1; Exchange 1 0; Exchange 0 0; Load 0; Exchange 0 0] (mkSys 0 [Ready; Ready])
  = Some (mkSys (seed_nth 7 2) [Seeded (seed_nth 7 2); Seeded (seed_nth 7 1)]) /\ seed_nth 7 1 <> seed_nth 7 2.
Proof. split; [vm_compute; reflexivity|vm_compute; discriminate]. Qed.
