(** * Specification vocabulary for arithmetic *)
From Coq Require Import Reals.
From Verif Require Import Base FloatModel.

(** The sum over [p < k] of the products [f p * g p], added up from the left, starting
    with zero; undefined if one of the factors is. *)
Fixpoint dot {F} (o : fops F) (k : nat) (f g : nat -> option F) : option F :=
  match k with
  | O => Some (fzero o)
  | S k' =>
    match dot o k' f g, f k', g k' with
    | Some v, Some x, Some y => Some (fadd o v (fmul o x y))
    | _, _, _ => None
    end
  end.

(** Sum, product, mean and population variance of a list of real numbers. *)
Definition rsum (l : list R) : R := fold_right Rplus 0%R l.
Definition rprod (l : list R) : R := fold_right Rmult 1%R l.
Definition mean (l : list R) : R := (rsum l / INR (length l))%R.
Definition variance (l : list R) : R :=
  (rsum (map (fun x => (x - mean l) * (x - mean l)) l) / INR (length l))%R.

(** The least and the greatest element of a list. *)
Definition least (m : R) (l : list R) : Prop := In m l /\ forall x, In x l -> (m <= x)%R.
Definition greatest (m : R) (l : list R) : Prop := In m l /\ forall x, In x l -> (x <= m)%R.
