(** * Properties of map, fold, reduce and normalize (C24-C33): notions used in the statements *)
From Verif Require Import Base ShapeModel TensorModel AxisModel MapModel NumModel Spec.

(** A counter-and-log closure used in the examples: records its arguments in order. *)
Definition logged {X Y} (f : X -> Y) : list X -> X -> outcome (list X * Y) :=
  fun log x => Ok (log ++ [x], f x).

(** ** C30 *)

(** The lines along the axis: [l] at a kept coordinate lists the elements with
    [k = 0, 1, ...] inserted at the axis. *)
Definition axis_lines {T} (d1 : list nat) (d : nat) (d2 : list nat) (xs : list T)
    (ls : list (list T)) : Prop :=
  length ls = prod (d1 ++ d2) /\
  forall i1 i2, in_shape d1 i1 -> in_shape d2 i2 ->
    exists l, elem (d1 ++ d2) ls (i1 ++ i2) = Some l /\ length l = d /\
      forall k, k < d -> nth_error l k = elem (d1 ++ d :: d2) xs (i1 ++ k :: i2).

(** ** C32 *)

(** [ls] lists, per kept outer coordinate, the rows along the axis. *)
Definition row_lines {T} (d1 : list nat) (d : nat) (d2 : list nat) (k : nat) (xs : list T)
    (ls : list (list (list T))) : Prop :=
  length ls = prod (d1 ++ d2) /\
  forall i1 i2, in_shape d1 i1 -> in_shape d2 i2 ->
    exists l, elem (d1 ++ d2) ls (i1 ++ i2) = Some l /\ length l = d /\
      forall m, m < d -> exists row, nth_error l m = Some row /\ length row = k /\
        forall j, j < k -> nth_error row j = elem (d1 ++ d :: d2 ++ [k]) xs (i1 ++ m :: i2 ++ [j]).
