(** * Option builders (C63) *)
From Coq Require Import String Ascii.
From Verif Require Import Base OptModel.
From Verif Require Import OptSpec OptProofs.

(** [into t v] is the argument [v] converted to type [t]. *)

(** Any chain of setters, starting from [()] or from the default struct. *)
Theorem C63_chain (into : ty -> val -> val) fs default l : wf fs default -> (forall n v, In (n, v) l -> In n (map fst fs)) ->
  exists r, chain into fs default RUnit l = Some r /\ result into fs default l (into_arg default r) /\
    (l <> [] -> chain into fs default (RArg default) l = Some r).
Proof. exact (@c63_chain into fs default l). Qed.
Print Assumptions C63_chain.

(** The result is determined by the last setting of each field: earlier settings of the
    same field do not matter and settings of different fields commute. *)
Theorem C63_determined (into : ty -> val -> val) fs default l1 l2 r1 r2 : wf fs default ->
  (forall n v, In (n, v) (l1 ++ l2) -> In n (map fst fs)) ->
  chain into fs default RUnit l1 = Some r1 -> chain into fs default RUnit l2 = Some r2 ->
  (forall n, last_set n l1 = last_set n l2) ->
  into_arg default r1 = into_arg default r2.
Proof. exact (@c63_determined into fs default l1 l2 r1 r2). Qed.
Print Assumptions C63_determined.

Theorem C63_commute (into : ty -> val -> val) fs default l1 l2 n v m w : wf fs default -> n <> m ->
  (forall k u, In (k, u) (l1 ++ (n, v) :: (m, w) :: l2) -> In k (map fst fs)) ->
  option_map (into_arg default) (chain into fs default RUnit (l1 ++ (n, v) :: (m, w) :: l2)) =
  option_map (into_arg default) (chain into fs default RUnit (l1 ++ (m, w) :: (n, v) :: l2)).
Proof. exact (@c63_commute into fs default l1 l2 n v m w). Qed.
Print Assumptions C63_commute.

(** Only the fields of the struct have setters, and [()] alone means the defaults. *)
Theorem C63_unknown (into : ty -> val -> val) fs default r n v : ~ In n (map fst fs) -> call into fs default r n v = None.
Proof. exact (@c63_unknown into fs default r n v). Qed.
Print Assumptions C63_unknown.

Example C63_example : forall into,
  let fs := [("seed"%string, t_option (TPath ["u64"%string] [])); ("len"%string, t_option t_usize); ("k"%string, t_usize)] in
  let default := [("seed"%string, VNone); ("len"%string, VNone); ("k"%string, VBase 7)] in
  wf fs default /\
  option_map (into_arg default) (chain into fs default RUnit
   [("len"%string, VBase 3); ("seed"%string, VBase 1); ("len"%string, VBase 4)]) =
  Some [("seed"%string, VSome (into (TPath ["u64"%string] []) (VBase 1))); ("len"%string, VSome (VBase 4)); ("k"%string, VBase 7)] /\
  option_map (into_arg default) (chain into fs default RUnit [("k"%string, VBase 0)]) =
  Some [("seed"%string, VNone); ("len"%string, VNone); ("k"%string, VBase 0)].
Proof.
  intros into. cbv zeta. split; [|split; reflexivity]. split; [|reflexivity].
  cbn. repeat constructor; cbn; intuition discriminate.
Qed.
