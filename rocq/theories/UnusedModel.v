(** * Model of the functions that nothing calls

    [_map2_row] (src/tensor/map.rs), [_read_u16] and [_read_slice] (src/io/decode_wav.rs). *)
From Verif Require Import Base ShapeModel TensorModel AxisModel MapModel FloatModel RandomModel IoModel.

(** src/tensor/map.rs:316-359.  [N] is the length of the arrays the closure returns; the
    const generics [L] and [M] are not used.  The products [a_size * a_cols],
    [b_size * b_cols], [batch * inner] and the sums [offset + k] are at most a size; where
    [offset + k * N + i] does not fit, an earlier write of the same loop was outside the
    buffer already.  These are plain numbers here. *)
Definition map2_row_ {S T U V} (c : cfg) (N : nat) (s : shape) (a : tensor T) (a_cols : nat)
    (b : tensor U) (b_cols : nat) (f : S -> list T -> list U -> outcome (S * list V)) (st : S)
  : outcome (S * tensor V) :=
  let* a_size := udiv (tsize a) a_cols in
  assert! (a_size * a_cols =? tsize a) in
  let* b_size := udiv (tsize b) b_cols in
  assert! (b_size * b_cols =? tsize b) in
  let size := Nat.max a_size b_size in
  let inner := Nat.min a_size b_size in
  let* batch := udiv size inner in
  assert! (batch * inner =? size) in
  unsafe_init c size s (fun sb =>
    for_ batch (fun n sb =>
      let offset := n * inner in
      for_ inner (fun k '(st, o) =>
        let* p := umul c a_cols (offset + k) in
        let* xa := as_wrap_slice_n c a p a_cols in
        let* q := umul c b_cols (offset + k) in
        let* xb := as_wrap_slice_n c b q b_cols in
        let* '(st, vs) := f st xa xb in
        let* o := write_row o (offset + k * N) vs in
        Ok (st, o)) sb) sb) st.

(** src/io/decode_wav.rs:71-76: the cursor of a new reader. *)
Definition cursor_new : nat := 0.

(** src/io/decode_wav.rs:84-86 *)
Definition read_u16_ (c : cfg) (bs : list Z) (i : nat) : outcome (Z * nat) :=
  let* '(a, i) := read c bs i in
  let* a := zarith c u16_mod (0x100 * a) in
  let* '(b, i) := read c bs i in
  let* v := zarith c u16_mod (a + b) in
  Ok (v, i).

(** src/io/decode_wav.rs:110-114: the filled slice.  The cursor stays where it is. *)
Definition read_slice_ (c : cfg) (bs : list Z) (i : nat) (slice : list Z) : outcome (list Z) :=
  for_ (length slice) (fun k slice =>
    let* p := uadd c k i in
    let* v := aget bs p in
    aset slice k v) slice.
