(** * arange in binary32 (C44) *)
From Coq Require Import Reals.
From Flocq Require Import IEEE754.BinarySingleNaN.
From Verif Require Import Base ShapeModel TensorModel FloatModel InitModel Spec FloatSpec InitSpec RoundSpec ArangeProofs.

(** With a positive step and the start not above the end, all numbers, there are two cases.
    Either some member of the progression is below the end and the step is lost in it by
    rounding, and the call never returns.  Or the call returns the members below the end: they
    increase, they stop at the first that is not below the end, and the k-th is the exact
    member up to k roundings. *)
Theorem C44_arange_b32 ln_ exp_ pow_ c (start end_ step : b32) :
  number start -> number end_ -> number step -> (0 < B2R step)%R -> (B2R start <= B2R end_)%R ->
  let o := b32_ops ln_ exp_ pow_ in
  let x k := iterate (fun v => fadd o v step) k start in
  ((exists k, number (x k) /\ (B2R start <= B2R (x k) < B2R end_)%R /\ x (S k) = x k) /\
   forall fuel, arange o c fuel start end_ step = None) \/
  (exists N,
    (supported [N] -> forall fuel, N <= fuel -> arange o c fuel start end_ step = Some (Ok (fresh [N] (map x (seq 0 N))))) /\
    (forall k, S k < N -> (B2R (x k) < B2R (x (S k)))%R) /\
    (forall k, k < N -> number (x k) /\ (B2R (x k) < B2R end_)%R /\
      (Rabs (B2R (x k) - (B2R start + INR k * B2R step))
       <= ((1 + u32) ^ k - 1) * (Rabs (B2R start) + INR k * B2R step))%R) /\
    (number (x N) -> (B2R end_ <= B2R (x N))%R)).
Proof. exact (@c44_arange_b32 ln_ exp_ pow_ c start end_ step). Qed.
Print Assumptions C44_arange_b32.

(** The first case is impossible, and the call returns, when the step is more than about
    2^-24 of the larger of the two ends. *)
Theorem C44_arange_b32_terminates ln_ exp_ pow_ c (start end_ step : b32) :
  number start -> number end_ -> number step -> (0 < B2R step)%R -> (B2R start <= B2R end_)%R ->
  (u32 * Rmax (Rabs (B2R start)) (Rabs (B2R end_)) < (1 - u32) * B2R step)%R ->
  let o := b32_ops ln_ exp_ pow_ in
  exists N, supported [N] -> forall fuel, N <= fuel ->
    arange o c fuel start end_ step
    = Some (Ok (fresh [N] (map (fun k => iterate (fun v => fadd o v step) k start) (seq 0 N)))).
Proof. exact (@c44_arange_b32_terminates ln_ exp_ pow_ c start end_ step). Qed.
Print Assumptions C44_arange_b32_terminates.

(** A step of a third takes ten members to reach 3, although the tenth member of the exact
    progression is already above 3. *)
Theorem C44_arange_count_refuted ln_ exp_ pow_ :
  let o := b32_ops ln_ exp_ pow_ in
  exists (end_ step : b32) t,
    arange o dev 20 (b32_of_Z 0 0) end_ step = Some (Ok t) /\ tsize t = 10 /\ (B2R end_ < 9 * B2R step)%R /\
    forall x, In x (tdata t) -> Bltb x end_ = true.
Proof. exact (@c44_arange_count_refuted ln_ exp_ pow_). Qed.
Print Assumptions C44_arange_count_refuted.

(** The last of the ten, and the last of the four between 1 and 3 in steps of a half. *)
Example C44_b32_example :
  let o := b32_ops (fun x => x) (fun x => x) (fun x _ => x) in
  match arange o dev 20 (b32_of_Z 0 0) (b32_of_Z 3 0) (b32_of_Z 11184811 (-25)),
        arange o dev 4 (b32_of_Z 1 0) (b32_of_Z 3 0) (b32_of_Z 1 (-1)) with
  | Some (Ok t), Some (Ok u) =>
      option_map B2SF (nth_error (tdata t) 9) = Some (B2SF (b32_of_Z 12582911 (-22))) /\
      map B2SF (tdata u) = map (fun k => B2SF (b32_of_Z k (-1))) [2; 3; 4; 5]%Z
  | _, _ => False
  end.
Proof. vm_compute. auto. Qed.
