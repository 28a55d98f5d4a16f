(** * Properties of rfft_norm and of the unimplemented functions (C61, C65): notions used in the statements *)
From Coq Require Import Reals Lra.
From Verif Require Import Base ShapeModel TensorModel MapModel FloatModel SignalModel Spec TensorSpec MapSpec.

(** ** C61 *)

(** The window, the spectrum of one row, and the row of [m] magnitudes made from it. *)
Definition hann {F C} (o : sigops F C) (n : nat) : list F :=
  map (fun i => let s := ssin o (fmul (sbase o) (fdiv (sbase o) (spi o) (fof (sbase o) n)) (fof (sbase o) i)) in
                fmul (sbase o) s s) (seq 0 n).

Definition spectrum {F C} (o : sigops F C) (xs : list F) : list C :=
  cfft o (map (creal o) (zip_with (fmul (sbase o)) xs (hann o (length xs)))).

Definition magnitudes {F C} (o : sigops F C) (m : nat) (xs : list F) : list F :=
  map (fun i => if i <? length xs / 2 + 1 then cnorm o (nth i (spectrum o xs) (creal o (fzero (sbase o))))
                else fzero (sbase o)) (seq 0 m).

(** The length of an output row. *)
Definition out_len (n : nat) (fft_length : option nat) : nat :=
  match fft_length with Some l => l | None => n / 2 + 1 end.

(** The rows of length [n] of the elements [xs], in order. *)
Definition row_of {F} (n : nat) (xs : list F) (k : nat) : list F := firstn n (skipn (k * n) xs).

(** The real numbers with the discrete Fourier transform. *)
Definition dft (l : list (R * R)) : list (R * R) :=
  let n := INR (length l) in
  map (fun k =>
    fold_right (fun jz acc =>
      let '(j, (a, b)) := jz in
      let th := (- (2 * PI * INR j * INR k / n))%R in
      (a * cos th - b * sin th + fst acc, a * sin th + b * cos th + snd acc)%R) (0, 0)%R
      (combine (seq 0 (length l)) l))
    (seq 0 (length l)).

Definition R_sig : sigops R (R * R) := mkSig R_ops sin PI (fun x => (x, 0)%R)
  (fun z => sqrt (fst z * fst z + snd z * snd z)) dft.

(** The [k]-th Fourier coefficient of the windowed vector. *)
Definition coefficient (xs : list R) (k : nat) : R * R :=
  let n := INR (length xs) in
  let w j := (sin (PI / n * INR j) * sin (PI / n * INR j))%R in
  let th j := (- (2 * PI * INR j * INR k / n))%R in
  (fold_right Rplus 0 (map (fun '(j, x) => x * w j * cos (th j)) (combine (seq 0 (length xs)) xs)),
   fold_right Rplus 0 (map (fun '(j, x) => x * w j * sin (th j)) (combine (seq 0 (length xs)) xs)))%R.
