(** * Properties C01-C10: shapes: notions used in the statements *)
From Verif Require Import Base ShapeModel TensorModel Spec.

(** Every dimension fits in 32 bits. *)
Definition dims32 (ds : list nat) : Prop := Forall (fun d => Z.of_nat d < 4294967296)%Z ds.

Definition positive (ds : list nat) : Prop := Forall (fun d => 0 < d) ds.

(** ** C02 *)

(** Shapes built by shape operations, excluding the three calls that are shown below to
    leave stale slots. *)
Inductive built (c : cfg) : shape -> Prop :=
| b_scalar : built c scalar
| b_vector n s : vector n = Ok s -> built c s
| b_usize n s : from_usize n = Ok s -> built c s
| b_slice ds s : from_slice_dims ds = Ok s -> built c s
| b_vec ds s : from_vec_dims ds = Ok s -> built c s
| b_push s d s' : built c s -> push s d = Ok s' -> built c s'
| b_pop s s' : built c s -> pop c s = Ok s' -> built c s'
| b_insert s i d s' : built c s -> i <= rank s -> insert c s i d = Ok s' -> built c s'
| b_rinsert s i d s' : built c s -> i <= rank s -> rinsert c s i d = Ok s' -> built c s'
| b_remove s i s' : built c s -> remove s i = Ok s' -> built c s'
| b_rremove s i s' : built c s -> rremove s i = Ok s' -> built c s'
| b_replace s i d s' : built c s -> replace c s i d = Ok s' -> built c s'
| b_rreplace s i d s' : built c s -> rreplace s i d = Ok s' -> built c s'
| b_with_cols s d s' : built c s -> 0 < rank s -> with_cols s d = Ok s' -> built c s'
| b_with_rows s d s' : built c s -> with_rows s d = Ok s' -> built c s'
| b_reduce s s' : built c s -> 0 < rank s -> reduce_shape s = Ok s' -> built c s'
| b_squeeze s s' : built c s -> squeeze c s None = Ok s' -> built c s'
| b_expand s a s' : built c s -> expand_dims c s a = Ok s' -> built c s'
| b_broadcast s s1 s' : built c s -> built c s1 -> broadcast_to s s1 = Ok s' -> built c s'.
