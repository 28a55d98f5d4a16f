(** * Vocabulary for C79 *)
From Verif Require Import Base.

(** The running totals of a list from [lo], without the last: where parts of these lengths
    laid side by side meet. *)
Fixpoint joints (lo : nat) (ms : list nat) : list nat :=
  match ms with
  | m :: ((_ :: _) as ms') => (lo + m) :: joints (lo + m) ms'
  | _ => []
  end.
