(** * Model of src/random/random.rs and src/init/random.rs

    Machine words are integers in [0, 2^32), [0, 2^64) or [0, 2^128). *)
From Coq Require Import Reals.
From Flocq Require Import IEEE754.BinarySingleNaN.
From Verif Require Import Base ShapeModel TensorModel MapModel FloatModel.

Definition u32_mod : Z := (2 ^ 32)%Z.
Definition u64_mod : Z := (2 ^ 64)%Z.
Definition u128_mod : Z := (2 ^ 128)%Z.

(** src/random/random.rs:10-12 *)
Definition rand32_A : Z := 0x4822581B885237D5.
Definition rand32_C : Z := 0x6ED29E641A5F9CE5.
Definition rand32_M : Z := 0x8A53002D.

(** src/random/random.rs:20-27: the new state and the result. *)
Definition rand32_step (s : Z) : Z := (((s * rand32_A) mod u64_mod + rand32_C) mod u64_mod)%Z.
Definition rand32_out (s : Z) : Z :=
  let r := (Z.shiftr s 32 mod u32_mod)%Z in
  let r := Z.lxor r (Z.shiftr r 16) in
  ((r * rand32_M) mod u32_mod)%Z.
Definition rand32_next (s : Z) : Z * Z :=
  let s' := rand32_step s in (s', rand32_out s').

(** src/random/random.rs:44-54: the seed made from the bytes of a string. *)
Definition rand32_from (bytes : list Z) : Z :=
  fold_left (fun seed v =>
    ((((seed * rand32_A) mod u64_mod + rand32_C) mod u64_mod + v) mod u64_mod)%Z) bytes 0%Z.

(** src/random/random.rs:58-60 *)
Definition rand64_A : Z := 0xACAEAEFB4BF4A6A78B6E278B66409E7D.
Definition rand64_C : Z := 0x351402A3544A25016AEE39FBBADBB38D.
Definition rand64_M : Z := 0xA18E4C689403AE2D.

(** src/random/random.rs:68-75 *)
Definition rand64_step (s : Z) : Z := (((s * rand64_A) mod u128_mod + rand64_C) mod u128_mod)%Z.
Definition rand64_out (s : Z) : Z :=
  let r := (Z.shiftr s 32 mod u64_mod)%Z in
  let r := Z.lxor r (Z.shiftr r 32) in
  ((r * rand64_M) mod u64_mod)%Z.
Definition rand64_next (s : Z) : Z * Z :=
  let s' := rand64_step s in (s', rand64_out s').

(** src/random/random.rs:92-102 *)
Definition rand64_from (bytes : list Z) : Z :=
  fold_left (fun seed v =>
    ((((seed * rand64_A) mod u128_mod + rand64_C) mod u128_mod + v) mod u128_mod)%Z) bytes 0%Z.

(** Further operations of the float type: [x as f32] for a [u32] (or [x as f64] for a
    [u64]), cosine, and the constants -2 and 2 pi. *)
Record rops (F : Type) := mkRops {
  rbase : fops F;
  rof : Z -> F;
  rcos : F -> F;
  rneg2 : F;
  rtau : F
}.
Arguments mkRops {F}.
Arguments rbase {F}.
Arguments rof {F}.
Arguments rcos {F}.
Arguments rneg2 {F}.
Arguments rtau {F}.

Definition R_rops : rops R := mkRops R_ops IZR cos (-2)%R (2 * PI)%R.
(** [TAU] is 0x40C90FDB in binary32. *)
Definition b32_rops (ln_ exp_ : b32 -> b32) (pow_ : b32 -> b32 -> b32) (cos_ : b32 -> b32) : rops b32 :=
  mkRops (b32_ops ln_ exp_ pow_) (fun z => b32_of_Z z 0) cos_ (b32_of_Z (-2) 0) (b32_of_Z 13176795 (-21)).

(** src/random/random.rs:30-32 *)
Definition rand32_uniform {F} (o : rops F) (s : Z) : Z * F :=
  let '(s, v) := rand32_next s in (s, fdiv (rbase o) (rof o v) (rof o (u32_mod - 1)%Z)).

(** src/random/random.rs:35-41 *)
Definition rand32_normal {F} (o : rops F) (s : Z) : Z * F :=
  let '(s, a) := rand32_uniform o s in
  let '(s, b) := rand32_uniform o s in
  let f := rbase o in
  (s, fmul f (fsqrt f (fmul f (rneg2 o) (fln f a))) (rcos o (fmul f (rtau o) b))).

(** src/random/random.rs:78-80 and 83-89, with [F] the type [f64]; note the divisor
    [u32::MAX]. *)
Definition rand64_uniform {F} (o : rops F) (s : Z) : Z * F :=
  let '(s, v) := rand64_next s in (s, fdiv (rbase o) (rof o v) (rof o (u32_mod - 1)%Z)).
Definition rand64_normal {F} (o : rops F) (s : Z) : Z * F :=
  let '(s, a) := rand64_uniform o s in
  let '(s, b) := rand64_uniform o s in
  let f := rbase o in
  (s, fmul f (fsqrt f (fmul f (rneg2 o) (fln f a))) (rcos o (fmul f (rtau o) b))).

(** [f64]: binary64. *)
Definition b64 := binary_float 53 1024.
Definition b64_prec : FLX.Prec_gt_0 53 := eq_refl.
Definition b64_emax : Prec_lt_emax 53 1024 := eq_refl.
Definition b64_of_Z (m e : Z) : b64 := @binary_normalize 53 1024 b64_prec b64_emax mode_NE m e false.
(** src/random/random.rs:78-80 in binary64. *)
Definition rand64_uniform_b64 (s : Z) : Z * b64 :=
  let '(s, v) := rand64_next s in
  (s, @Bdiv 53 1024 b64_prec b64_emax mode_NE (b64_of_Z v 0) (b64_of_Z (u32_mod - 1)%Z 0)).

(** src/init/random.rs:42-47 and 129-134: the options.  The seed [None] draws a seed from
    the thread's generator (src/random/random.rs:15-17); that generator is the argument
    [entropy] below. *)
Record normal_opt (F : Type) := mkNormal { n_mean : F; n_std : F; n_seed : option Z }.
Arguments mkNormal {F}.
Arguments n_mean {F}.
Arguments n_std {F}.
Arguments n_seed {F}.
Record uniform_opt (F : Type) := mkUniform { u_min : F; u_max : F; u_seed : option Z }.
Arguments mkUniform {F}.
Arguments u_min {F}.
Arguments u_max {F}.
Arguments u_seed {F}.

(** src/init/random.rs:95-100 and 182-187 *)
Definition opt_init (seed : option Z) (entropy : Z) : Z :=
  match seed with Some s => s | None => entropy end.

(** src/init/random.rs:4-16; the shape is already converted. *)
Definition random_normal {F} (o : rops F) (c : cfg) (s : shape) (opt : normal_opt F) (entropy : Z)
  : outcome (tensor F) :=
  let f := rbase o in
  let* '(_, t) := init c s (fun st =>
    let '(st, p) := rand32_normal o st in
    Ok (st, fadd f (n_mean opt) (fmul f p (n_std opt)))) (opt_init (n_seed opt) entropy) in
  Ok t.

(** src/init/random.rs:18-30 *)
Definition random_uniform {F} (o : rops F) (c : cfg) (s : shape) (opt : uniform_opt F) (entropy : Z)
  : outcome (tensor F) :=
  let f := rbase o in
  let* '(_, t) := init c s (fun st =>
    let '(st, p) := rand32_normal o st in
    Ok (st, fadd f (u_min opt) (fmul f p (fmax f (fsub f (u_max opt) (u_min opt)) (fzero f)))))
    (opt_init (u_seed opt) entropy) in
  Ok t.

(** The option builders: src/init/random.rs:50-93, 103-127 *)
Definition normal_default {F} (f : fops F) : normal_opt F := mkNormal (fzero f) (fone f) None.
Definition normal_mean {F} (f : fops F) (m : F) : normal_opt F := mkNormal m (fone f) None.
Definition normal_std {F} (f : fops F) (s : F) : normal_opt F := mkNormal (fzero f) s None.
Definition normal_seed {F} (f : fops F) (s : Z) : normal_opt F := mkNormal (fzero f) (fone f) (Some s).
Definition with_mean {F} (p : normal_opt F) (m : F) : normal_opt F := mkNormal m (n_std p) (n_seed p).
Definition with_std {F} (p : normal_opt F) (s : F) : normal_opt F := mkNormal (n_mean p) s (n_seed p).
Definition with_seed {F} (p : normal_opt F) (s : Z) : normal_opt F := mkNormal (n_mean p) (n_std p) (Some s).
Definition normal_of_seed {F} (f : fops F) (s : option Z) : normal_opt F := mkNormal (fzero f) (fone f) s.
Definition normal_of_pair {F} (f : fops F) (ms : F * F) : normal_opt F := with_std (normal_mean f (fst ms)) (snd ms).
(** src/init/random.rs:137-180, 190-214 *)
Definition uniform_default {F} (f : fops F) : uniform_opt F := mkUniform (fzero f) (fone f) None.
Definition uniform_min {F} (f : fops F) (m : F) : uniform_opt F := mkUniform m (fone f) None.
Definition uniform_max {F} (f : fops F) (m : F) : uniform_opt F := mkUniform (fzero f) m None.
Definition uniform_seed {F} (f : fops F) (s : Z) : uniform_opt F := mkUniform (fzero f) (fone f) (Some s).
Definition with_min {F} (p : uniform_opt F) (m : F) : uniform_opt F := mkUniform m (u_max p) (u_seed p).
Definition with_max {F} (p : uniform_opt F) (m : F) : uniform_opt F := mkUniform (u_min p) m (u_seed p).
Definition uniform_with_seed {F} (p : uniform_opt F) (s : Z) : uniform_opt F := mkUniform (u_min p) (u_max p) (Some s).
Definition uniform_of_seed {F} (f : fops F) (s : option Z) : uniform_opt F := mkUniform (fzero f) (fone f) s.
Definition uniform_of_pair {F} (f : fops F) (mm : F * F) : uniform_opt F := with_max (uniform_min f (fst mm)) (snd mm).

(** ** The seed of the threads' generators: src/random/random.rs:104-137

    A thread initialises its generator on first use.  Each step of the model is one
    atomic operation on [SEED]; steps of different threads interleave in any order.  The
    loop's orderings (Acquire load, SeqCst exchange) concern a single atomic variable,
    whose accesses are totally ordered, so that interleaving is exact here.  Without a
    seed ([SEED] = 0) the operating system's generator supplies a value: any value. *)
Inductive thread :=
| Ready                 (* before the load *)
| Loaded (old : Z)      (* between the load and the exchange *)
| Seeded (seed : Z).    (* the generator starts in this state *)

Record sys := mkSys { sys_seed : Z; sys_threads : list thread }.

(** The new seed, from the old one and the value the operating system would supply. *)
Definition next_seed (old entropy : Z) : Z :=
  if (old =? 0)%Z then entropy else snd (rand64_next old).

Inductive event :=
| Load (i : nat)
| Exchange (i : nat) (entropy : Z)
| Store (seed : Z).     (* [random_seed] *)

Definition sys_step (e : event) (s : sys) : option sys :=
  match e with
  | Load i =>
    match nth_error (sys_threads s) i with
    | Some Ready => Some (mkSys (sys_seed s) (set_nth (sys_threads s) i (Loaded (sys_seed s))))
    | _ => None
    end
  | Exchange i entropy =>
    match nth_error (sys_threads s) i with
    | Some (Loaded old) =>
      if (sys_seed s =? old)%Z
      then Some (mkSys (next_seed old entropy) (set_nth (sys_threads s) i (Seeded (next_seed old entropy))))
      else Some (mkSys (sys_seed s) (set_nth (sys_threads s) i Ready))
    | _ => None
    end
  | Store seed => Some (mkSys seed (sys_threads s))
  end.

Fixpoint run (es : list event) (s : sys) : option sys :=
  match es with
  | [] => Some s
  | e :: es => match sys_step e s with Some s' => run es s' | None => None end
  end.
