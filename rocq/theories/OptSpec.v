(** * Option builders (C63): notions used in the statements *)
From Coq Require Import String Ascii.
From Verif Require Import Base OptModel.

(** The last value given to field [n], if any. *)
Fixpoint last_set (n : string) (l : list (string * val)) : option val :=
    match l with
    | [] => None
    | (m, v) :: l' =>
      match last_set n l' with
      | Some w => Some w
      | None => if String.eqb m n then Some v else None
      end
    end.

(** What a field of type [t] holds after it was given [v]: for [Option<usize>] it is
      [Some v], for [Option<t'>] it is [Some] of [v] converted to [t'], and for any other
      type [v] itself. [into t' v] is [v] converted to type [t']. *)
Definition stored (into : ty -> val -> val) (t : ty) (v : val) : val :=
    match t with
    | TPath [o] (t' :: _) =>
      if String.eqb o "Option" then
        VSome (match t' with TPath [u] _ => if String.eqb u "usize" then v else into t' v | _ => into t' v end)
      else v
    | _ => v
    end.

(** The value of field [n] of a struct. *)
Fixpoint field (s : struct) (n : string) : option val :=
    match s with [] => None | (m, v) :: s' => if String.eqb m n then Some v else field s' n end.

(** A struct definition with distinct field names and its default value. *)
Definition wf (fs : fields) (default : struct) : Prop := NoDup (map fst fs) /\ map fst default = map fst fs.

(** The struct [s] after the settings [l]: each field holds its last setting, or the
      default if there was none. *)
Definition result (into : ty -> val -> val) (fs : fields) (default : struct) (l : list (string * val)) (s : struct) : Prop :=
    map fst s = map fst fs /\
    forall n t, In (n, t) fs ->
      field s n = match last_set n l with Some v => Some (stored into t v) | None => field default n end.

(** The types of a struct like src/signal/rfft.rs:65-69. *)
Definition t_usize := TPath ["usize"%string] [].

Definition t_option (t : ty) := TPath ["Option"%string] [t].
