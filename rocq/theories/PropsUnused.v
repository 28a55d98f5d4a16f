(** * C77: functions that nothing calls *)
From Verif Require Import Base ShapeModel TensorModel MapModel IoModel Spec IoSpec UnusedModel UnusedSpec UnusedProofs.

(** ** C77 *)

(** [_map2_row] with closures that return one value: one value for each pair of rows, the
    rows of the operand that has fewer being repeated.  [ra] and [rb] are the numbers of
    rows, and neither operand is a view into a larger allocation. *)
Theorem C77_map2_row_one {S T U V} c ds (a : tensor T) da xs ac (b : tensor U) db ys bc
    (f : S -> list T -> list U -> outcome (S * V)) st ra rb :
  repr a da xs -> toffset a = 0 -> repr b db ys -> toffset b = 0 ->
  ac <> 0 -> bc <> 0 -> length xs = ra * ac -> length ys = rb * bc -> ra <> 0 -> rb <> 0 ->
  let R := Nat.max ra rb in
  Nat.divide ra R -> Nat.divide rb R ->
  (Z.of_nat (ac * R) < two64)%Z -> (Z.of_nat (bc * R) < two64)%Z ->
  supported ds -> prod ds = R ->
  map2_row_ c 1 (canon ds) a ac b bc (fun st x y => let* '(st, v) := f st x y in Ok (st, [v])) st =
  let* '(st, vs) := traverse (fun st p => f st (row ac xs (p mod ra)) (row bc ys (p mod rb))) st (seq 0 R) in
  Ok (st, fresh ds vs).
Proof. exact (@c77_map2_row_one S T U V c ds a da xs ac b db ys bc f st ra rb). Qed.
Print Assumptions C77_map2_row_one.

(** With any other number of values it is undefined, whatever the shape: the buffer has one
    cell for each pair of rows, so that more values are written past its end, and no values
    leave it uninitialised. *)
Theorem C77_map2_row_wide {S T U V} c N ds (a : tensor T) da xs ac (b : tensor U) db ys bc
    (f : S -> list T -> list U -> outcome (S * list V)) st ra rb :
  repr a da xs -> toffset a = 0 -> repr b db ys -> toffset b = 0 ->
  ac <> 0 -> bc <> 0 -> length xs = ra * ac -> length ys = rb * bc -> ra <> 0 -> rb <> 0 ->
  let R := Nat.max ra rb in
  Nat.divide ra R -> Nat.divide rb R ->
  (Z.of_nat (ac * R) < two64)%Z -> (Z.of_nat (bc * R) < two64)%Z ->
  N <> 1 ->
  (forall st x y, exists st' vs, f st x y = Ok (st', vs) /\ length vs = N) ->
  map2_row_ c N (canon ds) a ac b bc f st = Ub.
Proof. exact (@c77_map2_row_wide S T U V c N ds a da xs ac b db ys bc f st ra rb). Qed.
Print Assumptions C77_map2_row_wide.

(** [_read_u16] reads two bytes, the high one first. *)
Theorem C77_read_u16 c bs i :
  Forall is_byte bs -> (Z.of_nat i < two63)%Z ->
  read_u16_ c bs i = match nth_error bs i, nth_error bs (i + 1) with
    | Some a, Some b => Ok ((256 * a + b)%Z, i + 2)
    | _, _ => Panic
    end.
Proof. exact (@c77_read_u16 c bs i). Qed.
Print Assumptions C77_read_u16.

(** [_read_slice] copies the bytes at the cursor, or panics if there are too few. *)
Theorem C77_read_slice c bs i slice :
  (Z.of_nat (i + length slice) < two64)%Z ->
  read_slice_ c bs i slice =
    if (i + length slice <=? length bs) || (length slice =? 0)
    then Ok (firstn (length slice) (skipn i bs)) else Panic.
Proof. exact (@c77_read_slice c bs i slice). Qed.
Print Assumptions C77_read_slice.

Example C77_example :
  let a := fresh [3; 2] [1; 2; 3; 4; 5; 6] in
  let b := fresh [2] [10; 20] in
  map2_row_ dev 1 (canon [3]) a 2 b 2 (pure2 (fun x y => [list_sum x + list_sum y])) tt
    = Ok (tt, fresh [3] [33; 37; 41]) /\
  map2_row_ dev 2 (canon [3; 2]) a 2 b 2 (pure2 (fun x y => [list_sum x; list_sum y])) tt = Ub /\
  read_u16_ dev [1; 2; 3]%Z 1 = Ok (515%Z, 3) /\
  read_slice_ dev [1; 2; 3; 4]%Z 1 [0; 0]%Z = Ok [2; 3]%Z /\
  read_slice_ dev [1; 2; 3; 4]%Z 3 [0; 0]%Z = Panic.
Proof. repeat split. Qed.
