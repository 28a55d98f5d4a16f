(** * Properties of the file functions (C59, C60) *)
From Coq Require Import Reals Lra.
From Coq Require Import ZifyBool ZifyNat ZifyN.
From Flocq Require Import Core IEEE754.BinarySingleNaN.
From Verif Require Import Base ShapeModel TensorModel FloatModel RandomModel IoModel
  Spec BaseFacts ShapeFacts TensorFacts RealFacts MathFacts StatsFacts InitFacts.
From Verif Require Import IoSpec IoProofs.

(** ** C59 *)

(** For every file: if it is well formed, [decode_wav] gives the samples divided by
    32768, frame by frame, and the rate; otherwise it panics. *)
Theorem C59_decode {F} (o : rops F) c (t : tensor Z) ds bs :
  repr t ds bs -> Forall is_byte bs -> wav_ok bs ->
  decode_wav o c t =
    Ok (fresh [wav_samples bs / wav_channels bs; wav_channels bs]
          (map (fun k => fdiv (rbase o) (rof o (wav_sample bs k)) (rof o 32768)) (seq 0 (wav_samples bs))),
        fresh [] [wav_rate bs]).
Proof. exact (@c59_decode F o c t ds bs). Qed.
Print Assumptions C59_decode.

Theorem C59_rejects {F} (o : rops F) c (t : tensor Z) ds bs :
  repr t ds bs -> Forall is_byte bs -> ~ wav_ok bs -> decode_wav o c t = Panic.
Proof. exact (@c59_rejects F o c t ds bs). Qed.
Print Assumptions C59_rejects.

(** Every list of 16-bit samples survives encoding and decoding. *)
Theorem C59_roundtrip {F} (o : rops F) c (t : tensor Z) ds rate ch samples :
  repr t ds (wav_file rate ch samples) ->
  Forall (fun v => -32768 <= v < 32768)%Z samples -> (0 <= rate < 4294967296)%Z ->
  (0 < ch < 65536)%Z -> (ch | Z.of_nat (length samples))%Z ->
  decode_wav o c t =
    Ok (fresh [length samples / Z.to_nat ch; Z.to_nat ch]
          (map (fun v => fdiv (rbase o) (rof o v) (rof o 32768)) samples),
        fresh [] [rate]).
Proof. exact (@c59_roundtrip F o c t ds rate ch samples). Qed.
Print Assumptions C59_roundtrip.

(** Every proper prefix of a canonical file is rejected. *)
Theorem C59_truncated {F} (o : rops F) c (t : tensor Z) ds rate ch samples k :
  k < length (wav_file rate ch samples) ->
  (44 + 2 * Z.of_nat (length samples) < 4294967296)%Z ->
  repr t ds (firstn k (wav_file rate ch samples)) ->
  decode_wav o c t = Panic.
Proof. exact (@c59_truncated F o c t ds rate ch samples k). Qed.
Print Assumptions C59_truncated.

(** In binary32 the division by 32768 is exact. *)
Theorem C59_sample_b32 ln_ exp_ pow_ cos_ v : (-32768 <= v < 32768)%Z ->
  let o := b32_rops ln_ exp_ pow_ cos_ in
  let x := fdiv (rbase o) (rof o v) (rof o 32768) in
  is_finite x = true /\ B2R x = (IZR v / 32768)%R.
Proof. exact (@c59_sample_b32 ln_ exp_ pow_ cos_ v). Qed.
Print Assumptions C59_sample_b32.

Example C59_example :
  (* two stereo frames; "division" as a pair *)
  let o := mkRops (mkFops 0 1 Z.add Z.sub Z.mul (fun a b => a * 100000 + b)%Z (fun a => a) Z.leb Z.ltb Z.eqb Z.of_nat Z.to_nat
                    (fun a => a) (fun a => a) (fun a _ => a) 0 0 0)%Z (fun v => v) (fun x => x) 1%Z 1%Z in
  let bs := wav_file 16000 2 [1; -1; 32767; -32768]%Z in
  decode_wav o dev (fresh [52] bs)
  = Ok (fresh [2; 2] [132768; -67232; 3276732768; -3276767232]%Z, fresh [] [16000]%Z) /\
  decode_wav o dev (fresh [51] (firstn 51 bs)) = Panic /\
  (* a trailing byte and an odd data size are accepted *)
  decode_wav o dev (fresh [45] ([82; 73; 70; 70; 37; 0; 0; 0; 87; 65; 86; 69; 102; 109; 116; 32; 16; 0; 0; 0; 1; 0; 1; 0;
     7; 0; 0; 0; 0; 0; 0; 0; 0; 0; 16; 0; 100; 97; 116; 97; 1; 0; 0; 0; 9])%Z) = Ok (fresh [0; 1] [], fresh [] [7]%Z).
Proof. vm_compute. auto. Qed.

(** ** C60 *)

(** What is returned: the bytes transferred, then zeros. *)
Theorem C60_read_file_actual c content sys n :
  legal_os content sys -> os_read sys = Some n -> supported [length content] ->
  read_file c sys =
    Ok (Some (fresh [length content] (firstn n content ++ repeat 0%Z (length content - n)))).
Proof. exact (@c60_read_file_actual c content sys n). Qed.
Print Assumptions C60_read_file_actual.

(** The whole file is returned if the single read transfers everything - more
    precisely, if and only if what it left out is zeros. *)
Theorem C60_read_file_partial c content sys n :
  legal_os content sys -> os_read sys = Some n -> supported [length content] ->
  (read_file c sys = Ok (Some (fresh [length content] content)) <-> Forall (eq 0%Z) (skipn n content)).
Proof. exact (@c60_read_file_partial c content sys n). Qed.
Print Assumptions C60_read_file_partial.

(** A short read returns a tensor that is not the file's content. *)
Theorem C60_refuted :
  exists content sys t, legal_os content sys /\ read_file dev sys = Ok (Some t) /\ as_slice t = Ok [1; 2; 0]%Z /\ content = [1; 2; 3]%Z.
Proof. exact c60_refuted. Qed.
Print Assumptions C60_refuted.

(** Errors of the operating system are returned as errors. *)
Theorem C60_errors c sys :
  os_file sys = None \/ os_len sys = None \/ os_read sys = None -> read_file c sys = Ok None.
Proof. exact (@c60_errors c sys). Qed.
Print Assumptions C60_errors.

Example C60_example :
  read_file dev (mkOs (Some [84; 104; 101]%Z) (Some 3) (Some 3)) = Ok (Some (fresh [3] [84; 104; 101]%Z)).
Proof. reflexivity. Qed.
