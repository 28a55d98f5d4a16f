(** * Notions for the unused functions *)
From Verif Require Import Base.

(** Row [r] of the elements [xs] in rows of [k]. *)
Definition row {A} (k : nat) (xs : list A) (r : nat) : list A := firstn k (skipn (r * k) xs).
