(** * C71: debug and release builds *)
From Verif Require Import Base Spec ShapeModel TensorModel MapModel MathModel ArrayModel
  ProfileSpec ProfileProofs.

(** ** C71 *)

(** The release outcome is the debug outcome, unless the debug build panics. *)
Theorem C71_agree R (h : cfg -> outcome R) z :
  program R h -> agree (h (checked z)) (h (unchecked z)).
Proof. exact (@c71_agree R h z). Qed.
Print Assumptions C71_agree.

(** What a debug build returns, a release build returns. *)
Theorem C71_ok R (h : cfg -> outcome R) z r :
  program R h -> h (mkCfg true z) = Ok r -> h (mkCfg false z) = Ok r.
Proof. exact (@c71_ok R h z r). Qed.
Print Assumptions C71_ok.

(** Release builds add no panics. *)
Theorem C71_release_panic R (h : cfg -> outcome R) z :
  program R h -> h (mkCfg false z) = Panic -> h (mkCfg true z) = Panic.
Proof. exact (@c71_release_panic R h z). Qed.
Print Assumptions C71_release_panic.

(** What is defined in release builds is defined in debug builds. *)
Theorem C71_defined R (h : cfg -> outcome R) z :
  program R h -> h (mkCfg false z) <> Ub -> h (mkCfg true z) <> Ub.
Proof. exact (@c71_defined R h z). Qed.
Print Assumptions C71_defined.

(** The converse of the last one is false: two multiples of 2^32 make [tile] write
    outside its buffer in release builds, where debug builds panic. *)
Theorem C71_release_ub_refuted :
  exists (m : tensor nat), program _ (fun c => tile c (fresh [1] [7]) m) /\
    as_slice m = Ok (tdata m) /\ rank (tshape m) = 1 /\
    tile dev (fresh [1] [7]) m = Panic /\ tile release (fresh [1] [7]) m = Ub.
Proof. exact c71_release_ub. Qed.
Print Assumptions C71_release_ub_refuted.

(** Column sums with checked additions, of a matrix built from a vector and doubled by a
    closure that multiplies. *)
Definition c71_sums (v : list nat) (c : cfg) : outcome (list nat) :=
  let* t := from_vec c v (canon [2; 3]) in
  let* '(_, d) := map_ c t (fun st x => let* y := umul c 2 x in Ok (st, y)) tt in
  let* r := reduce_sum_axis c (uadd c) d (Some 0%Z) in
  as_slice r.

Example C71_example :
  (forall v, program _ (c71_sums v)) /\
  c71_sums [1; 2; 3; 4; 5; 6] dev = Ok [10; 14; 18] /\
  c71_sums [1; 2; 3; 4; 5; 6] release = Ok [10; 14; 18] /\
  c71_sums [1; 2; 3; 4; 5] dev = Panic.
Proof.
  split; [|split; [reflexivity|split; reflexivity]].
  intros v. unfold c71_sums. apply prog_bind; [apply prog_from_vec|intros t].
  apply (prog_bind _ _ (fun c => map_ c t (fun st x => let* y := umul c 2 x in Ok (st, y)) tt)
    (fun c p => let (_, d) := p in let* r := reduce_sum_axis c (uadd c) d (Some 0%Z) in as_slice r)).
  - apply (prog_map_ unit nat nat t (fun c st x => let* y := umul c 2 x in Ok (st, y))).
    intros st x. apply (prog_bind _ _ (fun c => umul c 2 x)); [apply prog_arith|].
    intros y. apply prog_const.
  - intros [st d]. apply (prog_bind _ _ (fun c => reduce_sum_axis c (uadd c) d (Some 0%Z)) (fun _ r => as_slice r)).
    + apply (prog_reduce_sum_axis nat uadd). intros x y. apply prog_arith.
    + intros r. apply prog_const.
Qed.
