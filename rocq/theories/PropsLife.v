(** * Lifetime of the buffers (C62) *)
From Coq Require Import Permutation ZifyBool ZifyNat ZifyN.
From Verif Require Import Base ShapeModel TensorModel LifeModel Spec BaseFacts SafeFacts SplitFacts.
From Verif Require Import LifeSpec LifeProofs.

(** ** C62 *)

Theorem C62_conserve {A} c (l : list (op A)) st : run c empty_heap l = Some st ->
  Permutation (created l) (dropped st ++ held st ++ leaked st).
Proof. exact (@c62_conserve A c l st). Qed.
Print Assumptions C62_conserve.

Theorem C62_leaks {A} c (l : list (op A)) st : run c empty_heap l = Some st ->
  leaked st = concat (map (fun x => match x with NewPanics xs => xs | _ => [] end) l).
Proof. exact (@c62_leaks A c l st). Qed.
Print Assumptions C62_leaks.

Theorem C62_all {A} c (l : list (op A)) st : run c empty_heap l = Some st -> quiet st ->
  (forall xs, ~ In (NewPanics xs) l) -> Permutation (dropped st) (created l).
Proof. exact (@c62_all A c l st). Qed.
Print Assumptions C62_all.

Theorem C62_alive {A} c (l l' : list (op A)) st st' i h :
  run c empty_heap l = Some st -> i < length (tensors st) ->
  run c st l' = Some st' -> live st' i = Some h ->
  exists xs, read st i = Ok xs /\ read st' i = Ok xs.
Proof. exact (@c62_alive A c l l' st st' i h). Qed.
Print Assumptions C62_alive.

Theorem C62_drop_shared {A} c (l : list (op A)) st i h :
  run c empty_heap l = Some st -> live st i = Some h -> shared st i h ->
  exists st', step c st (Drop i) = Some st' /\ dropped st' = dropped st /\
    map bphase (blocks st') = map bphase (blocks st) /\ map bdata (blocks st') = map bdata (blocks st).
Proof. exact (@c62_drop_shared A c l st i h). Qed.
Print Assumptions C62_drop_shared.

Theorem C62_drop_last {A} c (l : list (op A)) st i h :
  run c empty_heap l = Some st -> live st i = Some h -> ~ shared st i h ->
  exists b st1, nth_error (blocks st) (haddr h) = Some b /\ step c st (Drop i) = Some st1 /\ dropped st1 = dropped st /\
    forall l' st2, run c st1 l' = Some st2 -> ~ In (Free (haddr h)) l' ->
      exists st3, step c st2 (Free (haddr h)) = Some st3 /\ dropped st3 = dropped st2 ++ bdata b.
Proof. exact (@c62_drop_last A c l st i h). Qed.
Print Assumptions C62_drop_last.

(** A buffer's [Drop] runs at most once, and not while a tensor uses the buffer. *)
Theorem C62_free_once {A} c (l1 l2 : list (op A)) st a :
  run c empty_heap (l1 ++ Free a :: l2) = Some st -> ~ In (Free a) l1 /\ ~ In (Free a) l2.
Proof. exact (@c62_free_once A c l1 l2 st a). Qed.
Print Assumptions C62_free_once.

Theorem C62_free_unused {A} c (l : list (op A)) st st' a :
  run c empty_heap l = Some st -> step c st (Free a) = Some st' -> forall i h, live st i = Some h -> haddr h <> a.
Proof. exact (@c62_free_unused A c l st st' a). Qed.
Print Assumptions C62_free_unused.

(** What a panicking initialiser leaves behind: its elements are never dropped. *)
Theorem C62_panicking_initialiser_leaks {A} c (xs : list A) st :
  run c empty_heap [NewPanics xs] = Some st -> quiet st /\ dropped st = [] /\ leaked st = xs.
Proof. exact (@c62_panicking_initialiser_leaks A c xs st). Qed.
Print Assumptions C62_panicking_initialiser_leaks.

(** Two tensors and a view: the buffer goes when the view, the last user, goes. *)
Example C62_example :
  exists st1 st2,
    run dev empty_heap [New [10; 11; 12] (canon [3]); Clone 0; Subslice 0 1 2; Drop 0; Drop 1] = Some st1 /\
    read st1 2 = Ok [11; 12] /\ dropped st1 = [] /\
    run dev st1 [Drop 2; New [7] (canon [1]); Free 0; Reshape 3 (canon [1; 1])] = Some st2 /\
    dropped st2 = [10; 11; 12] /\ read st2 3 = Ok [7] /\
    run dev st1 [Drop 2; Free 0; Free 0] = None.
Proof. do 2 eexists. split; [vm_compute; reflexivity|]. repeat (split; [vm_compute; reflexivity|]). vm_compute. reflexivity. Qed.
