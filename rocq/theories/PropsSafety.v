(** * Memory safety of call histories (C22, C23) *)
From Coq Require Import ZifyBool ZifyNat ZifyN.
From Verif Require Import Base ShapeModel TensorModel AxisModel MapModel ArrayModel NumModel FloatModel InitModel MathModel LinalgModel RandomModel
  SignalModel IoModel FmtModel Spec BaseFacts SafeFacts ShapeFacts ShapeFacts2 SplitFacts SafetyFacts SafetyFacts2 SafetyFacts3 SafetyFacts4 StrictFacts LinalgSpec LinalgProofs.
From Verif Require Import SafetySpec SafetyProofs.

(** C22.  After any history of calls, with overflow checks and an allocator that accepts
    zero-size requests: no call has undefined behaviour, and a live tensor shows exactly
    the elements its shape announces, all of them inside its buffer.  (That the buffer is
    fully initialised is part of its type: taking over a buffer with an uninitialised
    element is [Ub].) *)
Theorem C22_history c : overflow_checks c = true -> zero_alloc_ok c = true ->
  (forall A x, call c A x -> x <> Ub) /\
  (forall R x, reads c R x -> x <> Ub) /\
  (forall A t, live c A t ->
     tsize t = prod (dlist (tshape t)) /\
     exists pre xs post, tdata t = pre ++ xs ++ post /\ length pre = toffset t /\ length xs = tsize t).
Proof. exact (@c22_history c). Qed.
Print Assumptions C22_history.

(** A history: two rows, a view of the second one, its transpose, a concatenation with
    another view, and a sum along an axis. *)
Example C22_history_example :
  let t := fresh [2; 2] [1; 2; 3; 4] in
  exists v w r, call dev nat (Ok [v]) /\ call dev nat (Ok [w]) /\ call dev nat (Ok [r]) /\
    subslice dev t 1 1 = Ok v /\ toffset v = 2 /\
    concatenate dev [v; v] = Ok w /\ as_slice w = Ok [3; 4; 3; 4] /\
    reduce_axis dev w (Some 0%Z) (pure2 Nat.add) tt = Ok (tt, r) /\ as_slice r = Ok [6; 8].
Proof.
  intros t. set (v := mkTensor (canon [1; 2]) 2 2 [1; 2; 3; 4]). set (w := fresh [2; 2] [3; 4; 3; 4]). set (r := fresh [2] [6; 8]).
  assert (Lt : live dev nat t).
  { apply (live_result dev nat [t]); [|now left]. exact (call_from_vec dev nat [1; 2; 3; 4] (canon [2; 2]) (canon_a_shape [2; 2] ltac:(cbn; lia) ltac:(repeat constructor))). }
  assert (Cv : call dev nat (Ok [v])) by exact (call_subslice dev nat t 1 1 Lt).
  assert (Lv : live dev nat v) by (apply (live_result dev nat [v]); [exact Cv|now left]).
  assert (Cw : call dev nat (Ok [w])).
  { refine (call_concatenate dev nat [v; v] _). intros x [<-|[<-|[]]]; exact Lv. }
  assert (Lw : live dev nat w) by (apply (live_result dev nat [w]); [exact Cw|now left]).
  assert (Cr : call dev nat (Ok [r])).
  { refine (call_reduce_axis dev unit nat w (Some 0%Z) (pure2 Nat.add) tt Lw _). intros ? ? ?. discriminate. }
  exists v, w, r. repeat split; assumption || reflexivity.
Qed.

(** *** The exceptions *)

(** [get] on a view reads past the buffer. *)
Theorem C22_get_refuted : exists t : tensor nat, live dev nat t /\ get dev t 0 = Ub.
Proof. exact c22_get_refuted. Qed.
Print Assumptions C22_get_refuted.

(** [subslice_flat] of one element with an empty shape gives a tensor whose shape and
    size disagree; concatenating it takes over an uninitialised buffer. *)
Theorem C22_subslice_flat_refuted : exists t v : tensor nat,
  live dev nat t /\ subslice_flat dev t 0 1 (Ok (canon [0])) = Ok v /\ tsize v <> prod (dlist (tshape v)) /\ concatenate dev [v] = Ub.
Proof. exact c22_subslice_flat_refuted. Qed.
Print Assumptions C22_subslice_flat_refuted.

(** [tile] with a matrix of multiples leaves part of the result uninitialised. *)
Theorem C22_tile_refuted : exists (t : tensor nat) (m : tensor nat),
  live dev nat t /\ live dev nat m /\ rank (tshape m) = 2 /\ tile dev t m = Ub.
Proof. exact c22_tile_refuted. Qed.
Print Assumptions C22_tile_refuted.

(** [fold_row] to rows of 2^32 elements: the length is truncated to 0 in the shape of the
    result, and the first row is written behind an empty buffer. *)
Theorem C22_fold_row_refuted : exists N (into : nat -> list nat) (t : tensor nat),
  Z.of_nat N = 4294967296%Z /\ (forall r, length (into r) = N) /\ live dev nat t /\
  fold_row dev N t None 0 into (pure2 (fun r row => r + list_sum row)) tt = Ub.
Proof. exact c22_fold_row_refuted. Qed.
Print Assumptions C22_fold_row_refuted.

(** [matvec] with a right operand of rank 0 whose [cols] has been set by [with_cols]. *)
Theorem C22_matvec_refuted : exists a x : tensor Z,
  live dev Z a /\ live dev Z x /\ rank (tshape x) = 0 /\ tsize x = 1 /\ matvec Z_ops dev a x = Ub.
Proof. exact c22_matvec_refuted. Qed.
Print Assumptions C22_matvec_refuted.

(** The shape in question comes from a public function. *)
Example C22_matvec_shape : with_cols scalar 3 = Ok (mkShape [3; 0; 0; 0; 0; 0] 0).
Proof. reflexivity. Qed.

(** The fields [shape], [offset] and [size] are public (src/tensor/tensor.rs:10-16), so that
    safe code can assign them.  [as_slice] then has undefined behaviour exactly if the
    assigned range ends outside of the buffer, and shows the assigned range otherwise. *)
Theorem C22_fields {A} (t : tensor A) s o n :
  (as_slice (mkTensor s o n (tdata t)) = Ub <-> length (tdata t) < o + n) /\
  (o + n <= length (tdata t) -> as_slice (mkTensor s o n (tdata t)) = Ok (firstn n (skipn o (tdata t)))).
Proof. exact (@c22_fields A t s o n). Qed.
Print Assumptions C22_fields.

(** Each of the three assignments breaks a live tensor. *)
Theorem C22_fields_refuted : exists t : tensor nat, live dev nat t /\
  as_slice (mkTensor (tshape t) (toffset t) 4 (tdata t)) = Ub /\
  as_slice (mkTensor (tshape t) 1 (tsize t) (tdata t)) = Ub /\
  concatenate dev [mkTensor (canon [2]) (toffset t) (tsize t) (tdata t)] = Ub.
Proof. exact c22_fields_refuted. Qed.
Print Assumptions C22_fields_refuted.

(** Without overflow checks: a tensor without elements can have 2^32 columns of length 0;
    [fold_axis] then writes outside of the empty buffer it has allocated. *)
Theorem C22_release_refuted : exists (s : shape) (t : tensor nat),
  a_shape s /\ from_vec release [] s = Ok t /\ fold_axis release t (Some 2%Z) 0 (fun r => r) (pure2 Nat.add) tt = Ub.
Proof. exact c22_release_refuted. Qed.
Print Assumptions C22_release_refuted.

(** Without the allocator accepting zero-size requests. *)
Theorem C23_refuted : exists (t : tensor nat),
  live (mkCfg true false) nat t /\ map_ (mkCfg true false) t (pure1 S) tt = Ub.
Proof. exact c23_refuted. Qed.
Print Assumptions C23_refuted.

(** What remains true: the buffer of the result is the only thing a call allocates, so
    that a call does not depend on how the allocator treats empty requests unless its
    result is empty.  [strict b] and [lenient b] (StrictFacts) are the configurations in
    which zero-byte requests are undefined and harmless, and are otherwise equal.

    [map] asks for zero bytes on empty tensors, and on no others. *)
Theorem C23_map {S U V} (t : tensor U) (f : S -> U -> outcome (S * V)) st :
  inside dev t -> sane1 f -> (map_ (strict true) t f st = Ub <-> tsize t = 0).
Proof. exact (@c23_map S U V t f st). Qed.
Print Assumptions C23_map.

Example C23_map_example :
  map_ (strict true) (mkTensor (canon [2]) 1 2 [3; 4; 5]) (pure1 S) tt = Ok (tt, mkTensor (canon [2]) 0 2 [5; 6]).
Proof. vm_compute. reflexivity. Qed.

(** [map2] and [map3] never do: they panic on empty tensors. *)
Theorem C23_map2 {S T U V W} b (t : tensor T) (u : tensor U) (v : tensor V)
    (f : S -> T -> U -> outcome (S * V)) (g : S -> T -> U -> V -> outcome (S * W)) st :
  map2 (strict b) t u f st = map2 (lenient b) t u f st /\
  map3 (strict b) t u v g st = map3 (lenient b) t u v g st.
Proof. exact (@c23_map2 S T U V W b t u v f g st). Qed.
Print Assumptions C23_map2.

Example C23_map2_example :
  let e := mkTensor (canon [0]) 0 0 (@nil nat) in map2 (strict true) e e (pure2 Nat.add) tt = Panic.
Proof. vm_compute. reflexivity. Qed.

(** Views and conversions from vectors do not use that allocation. *)
Theorem C23_views {A} b (t : tensor A) (v : list A) s fs o n (l : list (tensor A)) :
  from_vec (strict b) v s = from_vec (lenient b) v s /\
  from_merge (strict b) l s = from_merge (lenient b) l s /\
  reshape (strict b) t s = reshape (lenient b) t s /\
  subslice_flat (strict b) t o n fs = subslice_flat (lenient b) t o n fs /\
  subslice (strict b) t o n = subslice (lenient b) t o n.
Proof. exact (@c23_views A b t v s fs o n l). Qed.
Print Assumptions C23_views.

Example C23_views_example :
  subslice (strict true) (mkTensor (canon [3]) 0 3 [7; 8; 9]) 1 2 = Ok (mkTensor (canon [2]) 1 2 [7; 8; 9]) /\
  from_vec (strict true) (@nil nat) (canon [0]) = Ok (mkTensor (canon [0]) 0 0 []).
Proof. vm_compute. split; reflexivity. Qed.

(** All other calls ask for as many elements as their result has: a non-empty result is
    the same with every allocator. *)
Theorem C23_result {A} b (t r : tensor A) (l : list (tensor A)) m ax : tsize r <> 0 ->
  (transpose (lenient b) t = Ok r -> transpose (strict b) t = Ok r) /\
  (concatenate_axis (lenient b) ax l = Ok r -> concatenate_axis (strict b) ax l = Ok r) /\
  (stack_axis (lenient b) ax l = Ok r -> stack_axis (strict b) ax l = Ok r) /\
  (tile (lenient b) t m = Ok r -> tile (strict b) t m = Ok r) /\
  (from_slice (lenient b) (tdata t) = Ok r -> from_slice (strict b) (tdata t) = Ok r).
Proof. exact (@c23_result A b t r l m ax). Qed.
Print Assumptions C23_result.

Theorem C23_result_map {A S V} b (t : tensor A) (r : tensor V) ax R (ini : R) (into : R -> V)
    (f : S -> R -> A -> outcome (S * R)) s (g : S -> outcome (S * V)) (h : S -> list nat -> outcome (S * V))
    (k : S -> V -> V -> outcome (S * V)) (u : tensor V) st st' : tsize r <> 0 ->
  (init (lenient b) s g st = Ok (st', r) -> init (strict b) s g st = Ok (st', r)) /\
  (init_rindexed (lenient b) s h st = Ok (st', r) -> init_rindexed (strict b) s h st = Ok (st', r)) /\
  (fold_axis (lenient b) t ax ini into f st = Ok (st', r) -> fold_axis (strict b) t ax ini into f st = Ok (st', r)) /\
  (reduce_axis (lenient b) u ax k st = Ok (st', r) -> reduce_axis (strict b) u ax k st = Ok (st', r)).
Proof. exact (@c23_result_map A S V b t r ax R ini into f s g h k u st st'). Qed.
Print Assumptions C23_result_map.

Theorem C23_result_float {A} b (F : fops A) (x y r : tensor A) n tr base : tsize r <> 0 ->
  (linspace F (lenient b) x y n = Ok r -> linspace F (strict b) x y n = Ok r) /\
  (geomspace F (lenient b) x y n = Ok r -> geomspace F (strict b) x y n = Ok r) /\
  (logspace F (lenient b) x y n base = Ok r -> logspace F (strict b) x y n base = Ok r) /\
  (matmul_t F (lenient b) x y tr = Ok r -> matmul_t F (strict b) x y tr = Ok r) /\
  (matvec_t F (lenient b) x y tr = Ok r -> matvec_t F (strict b) x y tr = Ok r).
Proof. exact (@c23_result_float A b F x y r n tr base). Qed.
Print Assumptions C23_result_float.

Example C23_result_example :
  transpose (strict true) (mkTensor (canon [2; 3]) 0 6 [1; 2; 3; 4; 5; 6]) =
    Ok (mkTensor (canon [3; 2]) 0 6 [1; 4; 2; 5; 3; 6]) /\
  concatenate_axis (strict true) None [mkTensor (canon [0]) 0 0 (@nil nat)] = Ub.
Proof. vm_compute. split; reflexivity. Qed.
