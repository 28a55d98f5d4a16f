(** * Properties of the random number generators (C55-C58): notions used in the statements *)
From Coq Require Import Reals Lra NArith Znumtheory.
From Flocq Require Import Core IEEE754.BinarySingleNaN.
From Verif Require Import Base ShapeModel TensorModel MapModel FloatModel RandomModel Spec RandomFacts.
Local Open Scope Z_scope.

(** ** C55 *)

(** The value returned by the call after [n] earlier calls. *)
Definition rand32_nth (s : Z) (n : N) : Z := snd (rand32_next (N.iter n (fun s => fst (rand32_next s)) s)).

Definition rand64_nth (s : Z) (n : N) : Z := snd (rand64_next (N.iter n (fun s => fst (rand64_next s)) s)).

(** Inverse of the output function. *)
Definition rand32_undo (v : Z) : Z := xorshift 16 ((v * 3458158501) mod u32_mod).

Definition rand64_undo (v : Z) : Z := xorshift 32 ((v * 5546147812785705381) mod u64_mod).

(** ** C57 *)

(** The Box-Muller transform. *)
Definition box_muller {F} (o : rops F) (a b : F) : F :=
  fmul (rbase o) (fsqrt (rbase o) (fmul (rbase o) (rneg2 o) (fln (rbase o) a))) (rcos o (fmul (rbase o) (rtau o) b)).

(** The [n]-th uniform variate of a seed. *)
Definition uniform_nth {F} (o : rops F) (s : Z) (n : N) : F :=
  fdiv (rbase o) (rof o (rand32_nth s n)) (rof o 4294967295).

(** The [k]-th normal variate of a seed. *)
Definition normal_nth {F} (o : rops F) (s : Z) (k : nat) : F :=
  box_muller o (uniform_nth o s (2 * N.of_nat k)) (uniform_nth o s (2 * N.of_nat k + 1)).

(** ** C58 *)

(** The seed sequence: each seed is the first value of a [Rand64] started at the previous
    one. *)
Definition seed_after (s : Z) : Z := snd (rand64_next s).

Definition seed_nth (s : Z) (k : nat) : Z := Nat.iter k seed_after s.

Definition is_store (e : event) : bool := match e with Store _ => true | _ => false end.

Definition is_seeded (s : sys) (i : nat) : Prop := exists v, nth_error (sys_threads s) i = Some (Seeded v).
