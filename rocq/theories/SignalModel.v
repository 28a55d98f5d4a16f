(** * Model of src/signal/rfft.rs, src/signal/frame.rs and src/tensor/slice.rs *)
From Verif Require Import Base ShapeModel TensorModel MapModel FloatModel.

(** What [rfft_norm] needs besides the float operations: the sine, pi, and the complex
    type [C] of num-complex with rustfft's forward transform, which maps a buffer to a
    buffer of the same length (see [cfft_length] where it is used). *)
Record sigops (F C : Type) := mkSig {
  sbase : fops F;
  ssin : F -> F;
  spi : F;
  creal : F -> C;       (* [Complex { re, im: 0. }] *)
  cnorm : C -> F;
  cfft : list C -> list C
}.
Arguments mkSig {F C}.
Arguments sbase {F C}.
Arguments ssin {F C}.
Arguments spi {F C}.
Arguments creal {F C}.
Arguments cnorm {F C}.
Arguments cfft {F C}.

(** src/signal/rfft.rs:56-63 *)
Definition hann_window {F C} (o : sigops F C) (c : cfg) (len : nat) : outcome (tensor F) :=
  let f := sbase o in
  let step := fdiv f (spi o) (fof f len) in
  let* s := from_slice_dims [len] in
  let* '(_, t) := init_rindexed c s (fun st idx =>
    let* i := aget idx 0 in
    let tmp := ssin o (fmul f step (fof f i)) in
    Ok (st, fmul f tmp tmp)) tt in
  Ok t.

(** src/signal/rfft.rs:8-54; [fft_length] is the option of the same name.  The planner
    (line 14-15) does not fail: a length of 0 has already failed in line 12. *)
Definition rfft_norm {F C} (o : sigops F C) (c : cfg) (t : tensor F) (fft_length : option nat)
  : outcome (tensor F) :=
  let f := sbase o in
  let* len := cols (tshape t) in
  let* n0 := ShapeModel.len c (tshape t) in
  let* batch := udiv n0 len in
  let buffer := repeat (creal o (fzero f)) len in
  let* window := hann_window o c len in
  let* fft_out := uadd c (len / 2) 1 in
  let len_out := match fft_length with Some l => l | None => fft_out end in
  let* s := with_cols (tshape t) len_out in
  let* size := umul c batch len_out in
  let* '(_, r) := unsafe_init c size s (fun '(buffer, out) =>
    for_ batch (fun n '(buffer, out) =>
      let* p := umul c n len in
      let* x := as_wrap_slice t p in
      let* buffer := for_ len (fun i buffer =>
        let* xi := aget x i in
        let* wi := index1 window i in
        aset buffer i (creal o (fmul f xi wi))) buffer in
      let buffer := cfft o buffer in
      let* offset := umul c n len_out in
      let* out := for_ (Nat.min fft_out len_out) (fun i out =>
        let* z := aget buffer i in
        let* q := uadd c offset i in
        write out q (cnorm o z)) out in
      let* out := for_range fft_out len_out (fun i out =>
        let* q := uadd c offset i in
        write out q (fzero f)) out in
      Ok (buffer, out)) (buffer, out)) buffer in
  Ok r.

(** [x as isize] for a [usize] x. *)
Definition as_isize (n : nat) : Z := let z := Z.of_nat n in if (z <? two63)%Z then z else (z - two64)%Z.
(** [isize] subtraction and division; division panics for a zero divisor and (in all
    build modes) for the minimum divided by -1. *)
Definition isub (c : cfg) (a b : Z) : outcome Z :=
  if isize_ok (a - b) then Ok (a - b)%Z
  else if overflow_checks c then Panic else Ok ((a - b + two63) mod two64 - two63)%Z.
Definition idiv (a b : Z) : outcome Z :=
  if (b =? 0)%Z || ((a =? - two63) && (b =? -1))%Z then Panic else Ok (Z.quot a b).

(** src/signal/frame.rs:3-26; [pad_end] is the constant [false].  After the frames have
    been collected comes [todo!()]. *)
Definition frame {A} (c : cfg) (x : tensor A) (len step : nat) : outcome (tensor A) :=
  let* d := dim c (tshape x) 0 in
  let* a := isub c (as_isize d) (as_isize len) in
  let* q := idiv a (as_isize step) in
  let* n := iadd c 1 q in
  let n_frames := as_usize n in
  let* _ := for_ n_frames (fun i vec =>
    let* p := umul c i step in
    let* f := subslice c x p len in
    Ok (vec ++ [f])) [] in
  Panic.

(** src/tensor/slice.rs:15-26: the checks, then [todo!()]. *)
Definition slice_usize {A} (c : cfg) (t : tensor A) (i : nat) : outcome (tensor A) :=
  assert! (0 <? rank (tshape t)) in
  let* d := dim c (tshape t) 0 in
  assert! (i <? d) in
  Panic.
(** src/tensor/slice.rs:28-43 *)
Definition slice_pair {A} (c : cfg) (t : tensor A) (i j : nat) : outcome (tensor A) :=
  assert! (1 <? rank (tshape t)) in
  let* d0 := dim c (tshape t) 0 in
  assert! (i <? d0) in
  let* d1 := dim c (tshape t) 1 in
  assert! (j <? d1) in
  Panic.
