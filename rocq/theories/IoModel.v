(** * Model of src/io/decode_wav.rs and src/io/read_file.rs

    Bytes and the 16- and 32-bit words are integers; a file is a list of bytes. *)
From Verif Require Import Base ShapeModel TensorModel FloatModel RandomModel.

(** Unsigned arithmetic modulo [m] on integers: a panic on overflow with overflow checks,
    wrapping without. *)
Definition zarith (c : cfg) (m v : Z) : outcome Z :=
  if ((0 <=? v) && (v <? m))%Z then Ok v
  else if overflow_checks c then Panic else Ok (v mod m)%Z.
Definition u16_mod : Z := 65536.

(** src/io/decode_wav.rs:78-82: the byte at the cursor and the moved cursor. *)
Definition read (c : cfg) (bs : list Z) (i : nat) : outcome (Z * nat) :=
  let* v := aget bs i in
  let* i := uadd c i 1 in
  Ok (v, i).

(** src/io/decode_wav.rs:88-90 *)
Definition read_u16_little (c : cfg) (bs : list Z) (i : nat) : outcome (Z * nat) :=
  let* '(a, i) := read c bs i in
  let* '(b, i) := read c bs i in
  let* b := zarith c u16_mod (0x100 * b) in
  let* v := zarith c u16_mod (a + b) in
  Ok (v, i).

(** [x as i16] for a [u16] x. *)
Definition as_i16 (v : Z) : Z := if (v <? 32768)%Z then v else (v - 65536)%Z.

(** src/io/decode_wav.rs:92-94 *)
Definition read_i16_little (c : cfg) (bs : list Z) (i : nat) : outcome (Z * nat) :=
  let* '(v, i) := read_u16_little c bs i in
  Ok (as_i16 v, i).

(** src/io/decode_wav.rs:96-101 *)
Definition read_u32_big (c : cfg) (bs : list Z) (i : nat) : outcome (Z * nat) :=
  let* '(a, i) := read c bs i in
  let* a := zarith c u32_mod (0x1000000 * a) in
  let* '(b, i) := read c bs i in
  let* b := zarith c u32_mod (0x10000 * b) in
  let* v := zarith c u32_mod (a + b) in
  let* '(d, i) := read c bs i in
  let* d := zarith c u32_mod (0x100 * d) in
  let* v := zarith c u32_mod (v + d) in
  let* '(e, i) := read c bs i in
  let* v := zarith c u32_mod (v + e) in
  Ok (v, i).

(** src/io/decode_wav.rs:103-108 *)
Definition read_u32_little (c : cfg) (bs : list Z) (i : nat) : outcome (Z * nat) :=
  let* '(a, i) := read c bs i in
  let* '(b, i) := read c bs i in
  let* b := zarith c u32_mod (0x100 * b) in
  let* v := zarith c u32_mod (a + b) in
  let* '(d, i) := read c bs i in
  let* d := zarith c u32_mod (0x10000 * d) in
  let* v := zarith c u32_mod (v + d) in
  let* '(e, i) := read c bs i in
  let* e := zarith c u32_mod (0x1000000 * e) in
  let* v := zarith c u32_mod (v + e) in
  Ok (v, i).

(** src/io/decode_wav.rs:3-53.  [o] is the float type of the samples.  [reserve_exact]
    (at most 2^31 elements) is taken to succeed. *)
Definition decode_wav {F} (o : rops F) (c : cfg) (contents : tensor Z) : outcome (tensor F * tensor Z) :=
  let* bs := as_slice contents in
  let* '(v, i) := read_u32_big c bs 0 in
  assert! (v =? 0x52494646)%Z in
  let* '(v, i) := read_u32_little c bs i in
  let* len := usub c (length bs) 8 in
  assert! (v =? Z.of_nat len mod u32_mod)%Z in
  let* '(v, i) := read_u32_big c bs i in
  assert! (v =? 0x57415645)%Z in
  let* '(v, i) := read_u32_big c bs i in
  assert! (v =? 0x666d7420)%Z in
  let* '(v, i) := read_u32_little c bs i in
  assert! (v =? 16)%Z in
  let* '(fmt, i) := read_u16_little c bs i in
  let* '(n_channels, i) := read_u16_little c bs i in
  let* '(sample_rate, i) := read_u32_little c bs i in
  let* '(_, i) := read_u32_little c bs i in
  let* '(_, i) := read_u16_little c bs i in
  let* '(bits, i) := read_u16_little c bs i in
  assert! (fmt =? 1)%Z in
  assert! (bits =? 16)%Z in
  let* '(v, i) := read_u32_big c bs i in
  assert! (v =? 0x64617461)%Z in
  let* '(size, i) := read_u32_little c bs i in
  let n_samples := Z.to_nat (size / 2) in
  let* '(data, _) := for_ n_samples (fun _ '(data, i) =>
    let* '(item, i) := read_i16_little c bs i in
    Ok (data ++ [fdiv (rbase o) (rof o item) (rof o 32768)], i)) ([], i) in
  let* rows := udiv n_samples (Z.to_nat n_channels) in
  let* s := from_slice_dims [rows; Z.to_nat n_channels] in
  let* audio := from_vec c data s in
  let* rate := of_value c sample_rate in
  Ok (audio, rate).

(** src/io/read_file.rs:5-16 after the file name has been taken from its tensor.  The
    operating system is: opening the file ([file] is its content, [None] an error), the
    length in the metadata [len] (or an error), and what the single [read] does: an error
    or the number [n] of bytes transferred, which is at most the buffer's length and the
    file's.  The result [None] is [Err]. *)
Record os := mkOs { os_file : option (list Z); os_len : option nat; os_read : option nat }.
Definition read_file (c : cfg) (sys : os) : outcome (option (tensor Z)) :=
  match os_file sys with
  | None => Ok None
  | Some content =>
    match os_len sys with
    | None => Ok None
    | Some len =>
      match os_read sys with
      | None => Ok None
      | Some n =>
        let data := firstn n content ++ repeat 0%Z (len - n) in
        let* t := of_vec c data in
        Ok (Some t)
      end
    end
  end.
