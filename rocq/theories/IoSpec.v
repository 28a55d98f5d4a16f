(** * Properties of the file functions (C59, C60): notions used in the statements *)
From Coq Require Import Reals Lra.
From Flocq Require Import Core IEEE754.BinarySingleNaN.
From Verif Require Import Base ShapeModel TensorModel FloatModel RandomModel IoModel Spec.

(** ** C59 *)

(** A field of a file, and the number it spells in little-endian order. *)
Definition field (bs : list Z) (off n : nat) : list Z := firstn n (skipn off bs).

Definition le (bs : list Z) : Z := fold_right (fun b v => b + 256 * v)%Z 0%Z bs.

Definition is_byte (b : Z) : Prop := (0 <= b < 256)%Z.

(** The two's complement reading of a 16-bit word. *)
Definition signed16 (v : Z) : Z := ((v + 32768) mod 65536 - 32768)%Z.

Definition wav_channels (bs : list Z) : nat := Z.to_nat (le (field bs 22 2)).

Definition wav_rate (bs : list Z) : Z := le (field bs 24 4).

Definition wav_samples (bs : list Z) : nat := Z.to_nat (le (field bs 40 4) / 2).

Definition wav_sample (bs : list Z) (k : nat) : Z := signed16 (le (field bs (44 + 2 * k) 2)).

(** A file [decode_wav] accepts: "RIFF", length, "WAVE", "fmt ", 16, PCM, 16 bits,
    "data", all samples present, whole frames. *)
Definition wav_ok (bs : list Z) : Prop :=
  44 <= length bs /\
  field bs 0 4 = [82; 73; 70; 70]%Z /\
  le (field bs 4 4) = (Z.of_nat (length bs) - 8)%Z /\
  field bs 8 4 = [87; 65; 86; 69]%Z /\
  field bs 12 4 = [102; 109; 116; 32]%Z /\
  le (field bs 16 4) = 16%Z /\
  le (field bs 20 2) = 1%Z /\
  le (field bs 34 2) = 16%Z /\
  field bs 36 4 = [100; 97; 116; 97]%Z /\
  44 + 2 * wav_samples bs <= length bs /\
  0 < wav_channels bs /\
  Nat.divide (wav_channels bs) (wav_samples bs).

(** The canonical file: 16-bit PCM with a 44-byte header. *)
Definition word16 (v : Z) : list Z := [v mod 256; v / 256 mod 256]%Z.

Definition word32 (v : Z) : list Z := [v mod 256; v / 256 mod 256; v / 65536 mod 256; v / 16777216 mod 256]%Z.

Definition wav_file (rate channels : Z) (samples : list Z) : list Z :=
  let n := Z.of_nat (length samples) in
  [82; 73; 70; 70]%Z ++ word32 (36 + 2 * n) ++ [87; 65; 86; 69]%Z ++
  [102; 109; 116; 32]%Z ++ word32 16 ++ word16 1 ++ word16 channels ++ word32 rate ++
  word32 (rate * (2 * channels)) ++ word16 (2 * channels) ++ word16 16 ++
  [100; 97; 116; 97]%Z ++ word32 (2 * n) ++ flat_map word16 samples.

(** ** C60 *)

(** Legal behaviours of the operating system for a file with content [content]: the
    metadata give its length and the read transfers at most that many bytes. *)
Definition legal_os (content : list Z) (sys : os) : Prop :=
  os_file sys = Some content /\ os_len sys = Some (length content) /\
  exists n, os_read sys = Some n /\ n <= length content.
