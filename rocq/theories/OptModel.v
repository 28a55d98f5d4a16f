(** * Model of crates/essay-opt/src/options.rs: the [derive_opt] macro

    The macro turns a struct of options into a trait of setters, implemented for the
    struct itself and for [()].  A struct value is modelled as the list of its fields with
    their values, in declaration order; the types are syntactic, as the macro sees them. *)
From Coq Require Import String.
From Verif Require Import Base.

(** A [syn::Type]: a path without qualified self, given by the names of its segments and
    the generic arguments of the last one, or any other type. *)
Inductive ty := TPath (segments : list string) (args : list ty) | TOther.

(** crates/essay-opt/src/options.rs:249-256 *)
Definition path_to_string (segments : list string) : string := String.concat ":" segments.

(** crates/essay-opt/src/options.rs:227-247 *)
Definition option_type (t : ty) : option ty :=
  match t with
  | TPath segments args =>
    if String.eqb (path_to_string segments) "Option" then
      match args with a :: _ => Some a | [] => None end
    else None
  | TOther => None
  end.

(** crates/essay-opt/src/options.rs:176-186 *)
Definition is_into_type (t : ty) : bool :=
  match t with
  | TPath segments _ => negb (String.eqb (path_to_string segments) "usize")
  | TOther => true
  end.

(** The values a field or a setter's argument can have: a base value or an [Option]. *)
Inductive val := VBase (n : Z) | VNone | VSome (v : val).

Section Opt.
  (** The conversion [Into::into] of an argument to the given type. *)
  Variable into : ty -> val -> val.

  Definition fields := list (string * ty).
  Definition struct := list (string * val).

  (** [Self { name: v, ..self }] *)
  Definition update (s : struct) (name : string) (v : val) : struct :=
    map (fun '(m, w) => if String.eqb m name then (m, v) else (m, w)) s.

  (** crates/essay-opt/src/options.rs:136-174: the setter of field [name] of the struct;
      calling a method that was not generated does not compile ([None]). *)
  Fixpoint arg_method (fs : fields) (s : struct) (name : string) (v : val) : option struct :=
    match fs with
    | [] => None
    | (m, t) :: fs' =>
      if String.eqb m name then
        Some (match option_type t with
              | Some t' => if is_into_type t' then update s m (VSome (into t' v)) else update s m (VSome v)
              | None => update s m v
              end)
      else arg_method fs' s name v
    end.

  (** crates/essay-opt/src/options.rs:188-225: the setters of [()]. *)
  Definition nil_method (fs : fields) (default : struct) (name : string) (v : val) : option struct :=
    arg_method fs default name v.

  (** crates/essay-opt/src/options.rs:72-99: an implementor of the trait. *)
  Inductive receiver := RUnit | RArg (s : struct).

  Definition call (fs : fields) (default : struct) (r : receiver) (name : string) (v : val) : option receiver :=
    match (match r with RUnit => nil_method fs default name v | RArg s => arg_method fs s name v end) with
    | Some s => Some (RArg s)
    | None => None
    end.

  Definition into_arg (default : struct) (r : receiver) : struct :=
    match r with RUnit => default | RArg s => s end.

  (** A chain of setter calls as a user writes it. *)
  Fixpoint chain (fs : fields) (default : struct) (r : receiver) (l : list (string * val)) : option receiver :=
    match l with
    | [] => Some r
    | (n, v) :: l' =>
      match call fs default r n v with
      | Some r' => chain fs default r' l'
      | None => None
      end
    end.
End Opt.
