(** * Model of src/math/reduce.rs, src/math/normalize.rs, src/math/{float,complex,integer}.rs
    and src/stats *)
From Verif Require Import Base ShapeModel TensorModel AxisModel MapModel NumModel FloatModel InitModel.

(** src/math/reduce.rs:7-11 and 76-97 ([Hypot]) *)
Definition hypot_update {F} (o : fops F) (s v : F) : F := fadd o s (fmul o v v).
Definition reduce_hypot {F} (o : fops F) (c : cfg) (t : tensor F) : outcome (tensor F) :=
  let* '(_, r) := fold_ c t (fzero o) (fsqrt o) (pure2 (hypot_update o)) tt in Ok r.

(** src/math/reduce.rs:14-28 *)
Definition reduce_min {F} (o : fops F) (c : cfg) (t : tensor F) : outcome (tensor F) :=
  let* '(_, r) := reduce c t (pure2 (fmin o)) tt in Ok r.
Definition reduce_min_axis {F} (o : fops F) (c : cfg) (t : tensor F) (axis : option Z)
  : outcome (tensor F) :=
  let* '(_, r) := reduce_axis c t axis (pure2 (fmin o)) tt in Ok r.
Definition reduce_max {F} (o : fops F) (c : cfg) (t : tensor F) : outcome (tensor F) :=
  let* '(_, r) := reduce c t (pure2 (fmax o)) tt in Ok r.
Definition reduce_max_axis {F} (o : fops F) (c : cfg) (t : tensor F) (axis : option Z)
  : outcome (tensor F) :=
  let* '(_, r) := reduce_axis c t axis (pure2 (fmax o)) tt in Ok r.

(** src/math/reduce.rs:99-120 ([Mean]: the count and the sum) *)
Definition mean_update {F} (o : fops F) (c : cfg) (st : unit) (s : nat * F) (v : F)
  : outcome (unit * (nat * F)) :=
  let* n := uadd c (fst s) 1 in Ok (st, (n, fadd o (snd s) v)).
Definition mean_result {F} (o : fops F) (s : nat * F) : F :=
  fdiv o (snd s) (fof o (Nat.max (fst s) 1)).
(** src/math/reduce.rs:32-38 *)
Definition reduce_mean {F} (o : fops F) (c : cfg) (t : tensor F) : outcome (tensor F) :=
  let* '(_, r) := fold_ c t (0, fzero o) (mean_result o) (mean_update o c) tt in Ok r.
Definition reduce_mean_axis {F} (o : fops F) (c : cfg) (t : tensor F) (axis : option Z)
  : outcome (tensor F) :=
  let* '(_, r) := fold_axis c t axis (0, fzero o) (mean_result o) (mean_update o c) tt in Ok r.

(** src/math/reduce.rs:122-159 ([Std]; [Var], 173-201, has the same update): the count
    [k], the running mean [m] and the sum of squares [s]. *)
Record welford (F : Type) := mkWelford { wk : nat; wm : F; ws : F }.
Arguments mkWelford {F}.
Arguments wk {F}.
Arguments wm {F}.
Arguments ws {F}.
Definition welford_update {F} (o : fops F) (c : cfg) (st : unit) (w : welford F) (x : F)
  : outcome (unit * welford F) :=
  if wk w =? 0 then Ok (st, mkWelford 1 x (fzero o))
  else
    let* k := uadd c (wk w) 1 in
    let m := fadd o (wm w) (fdiv o (fsub o x (wm w)) (fof o k)) in
    Ok (st, mkWelford k m (fadd o (ws w) (fmul o (fsub o x (wm w)) (fsub o x m)))).
Definition welford_default {F} (o : fops F) : welford F := mkWelford 0 (fzero o) (fzero o).
(** src/math/reduce.rs:161-171 and 203-213 *)
Definition std_result {F} (o : fops F) (w : welford F) : F :=
  if 1 <? wk w then fsqrt o (fdiv o (ws w) (fof o (wk w))) else fzero o.
Definition var_result {F} (o : fops F) (w : welford F) : F :=
  if 1 <? wk w then fdiv o (ws w) (fof o (wk w)) else fzero o.
(** src/math/reduce.rs:40-54 *)
Definition reduce_std {F} (o : fops F) (c : cfg) (t : tensor F) : outcome (tensor F) :=
  let* '(_, r) := fold_ c t (welford_default o) (std_result o) (welford_update o c) tt in Ok r.
Definition reduce_std_axis {F} (o : fops F) (c : cfg) (t : tensor F) (axis : option Z)
  : outcome (tensor F) :=
  let* '(_, r) := fold_axis c t axis (welford_default o) (std_result o) (welford_update o c) tt in Ok r.
Definition reduce_variance {F} (o : fops F) (c : cfg) (t : tensor F) : outcome (tensor F) :=
  let* '(_, r) := fold_ c t (welford_default o) (var_result o) (welford_update o c) tt in Ok r.
Definition reduce_variance_axis {F} (o : fops F) (c : cfg) (t : tensor F) (axis : option Z)
  : outcome (tensor F) :=
  let* '(_, r) := fold_axis c t axis (welford_default o) (var_result o) (welford_update o c) tt in Ok r.

(** src/math/reduce.rs:57-64; [add] is the element type's addition, which may panic. *)
Definition reduce_sum {T} (c : cfg) (add : T -> T -> outcome T) (t : tensor T) : outcome (tensor T) :=
  let* '(_, r) := reduce c t (lift2 add) tt in Ok r.
Definition reduce_sum_axis {T} (c : cfg) (add : T -> T -> outcome T) (t : tensor T) (axis : option Z)
  : outcome (tensor T) :=
  let* '(_, r) := reduce_axis c t axis (lift2 add) tt in Ok r.
(** src/math/reduce.rs:66-74 *)
Definition reduce_product {T} (c : cfg) (mul : T -> T -> outcome T) (t : tensor T) : outcome (tensor T) :=
  let* '(_, r) := reduce c t (lift2 mul) tt in Ok r.
Definition reduce_product_axis {T} (c : cfg) (mul : T -> T -> outcome T) (t : tensor T) (axis : option Z)
  : outcome (tensor T) :=
  let* '(_, r) := reduce_axis c t axis (lift2 mul) tt in Ok r.

(** src/math/normalize.rs:5-41: the state is the pair (min, max). *)
Definition unit_update {F} (o : fops F) (s : F * F) (v : F) : F * F :=
  (fmin o (fst s) v, fmax o (snd s) v).
Definition unit_norm {F} (o : fops F) (s : F * F) (v : F) : F :=
  fdiv o (fsub o v (fst s)) (fsub o (snd s) (fst s)).
Definition normalize_unit {F} (o : fops F) (c : cfg) (t : tensor F) : outcome (tensor F) :=
  let* '(_, r) := normalize c t None (fmax_value o, fmin_value o)
    (pure2 (unit_update o)) (pure1 (fun s => s)) (pure2 (unit_norm o)) tt in Ok r.

(** src/math/float.rs, src/math/complex.rs, src/math/integer.rs: every method applies a
    function of the element type [f] through [map] (macros [map!], [map_to_re!],
    [map_to_u32!], and [re], [im], [sin_cos], [to_polar], [from_polar]), through [map2]
    (macros [map2!], [map2_re!], [map2_type!], and [powi], [rotate_left],
    [rotate_right]), or through [map3] ([mul_add], float.rs:74-80).  The element
    functions themselves belong to std, num_traits and num_complex; here they do not
    panic (those that may, such as integer division, are operators: [unop], [binop_tt]). *)
Definition float_map {T V} (c : cfg) (t : tensor T) (f : T -> V) : outcome (tensor V) :=
  let* '(_, r) := map_ c t (pure1 f) tt in Ok r.
Definition float_map2 {T U V} (c : cfg) (a : tensor T) (b : tensor U) (f : T -> U -> V)
  : outcome (tensor V) :=
  let* '(_, r) := map2 c a b (pure2 f) tt in Ok r.
Definition float_map3 {T U V W} (c : cfg) (ta : tensor T) (tb : tensor U) (tc : tensor V)
    (f : T -> U -> V -> W) : outcome (tensor W) :=
  let* '(_, r) := map3 c ta tb tc (pure3 f) tt in Ok r.

(** src/stats/histogram.rs:34-72: the number of bins of the options; [None] is [()].
    The builder asserts that it is positive. *)
Definition hist_bins (n_bins : option nat) : outcome nat :=
  match n_bins with
  | None => Ok 10
  | Some n => assert! (0 <? n) in Ok n
  end.

(** src/stats/histogram.rs:10-14: the width of a bin. *)
Definition hist_delta {F} (o : fops F) (mn mx : F) (n : nat) : F :=
  if feq o mn mx then fepsilon o else fdiv o (fsub o mx mn) (fof o n).

(** src/stats/histogram.rs:18-29: the counts.  [+= 1.] is floating-point addition. *)
Definition hist_loop {F} (o : fops F) (c : cfg) (mn delta : F) (n : nat) (data values : list F)
  : outcome (list F) :=
  for_each data (fun item values =>
    let bin := ffloor o (fdiv o (fsub o item mn) delta) in
    if bin <? n then
      let* v := aget values bin in
      aset values bin (fadd o v (fone o))
    else
      let* k := usub c n 1 in
      let* v := aget values k in
      aset values k (fadd o v (fone o))) values.

(** src/stats/histogram.rs:3-32; the arguments are already converted. *)
Definition histogram {F} (o : fops F) (c : cfg) (data : tensor F) (n_bins : option nat)
  : outcome (tensor F * tensor F) :=
  assert! (rank (tshape data) =? 1) in
  let* n := hist_bins n_bins in
  let* t := reduce_min o c data in
  let* mn := index1 t 0 in
  let* t := reduce_max o c data in
  let* mx := index1 t 0 in
  let delta := hist_delta o mn mx n in
  let* n1 := uadd c n 1 in
  let* s := of_value c mn in
  let* e := of_value c mx in
  let* bins := linspace o c s e n1 in
  let* d := as_slice data in
  let* values := hist_loop o c mn delta n d (repeat (fzero o) n) in
  let* r := of_vec c values in
  Ok (r, bins).

(** src/stats/histogram2d.rs:48-86: as [hist_bins].  src/stats/histogram2d.rs:3-46. *)
Definition histogram2d {F} (o : fops F) (c : cfg) (data : tensor F) (n_bins : option nat)
  : outcome (tensor F * tensor F * tensor F) :=
  assert! (rank (tshape data) =? 2) in
  let* k := cols (tshape data) in
  assert! (k =? 2) in
  let* n := hist_bins n_bins in
  let* mn := reduce_min o c data in
  let* mx := reduce_max o c data in
  let* min_x := index1 mn 0 in
  let* min_y := index1 mn 1 in
  let* max_x := index1 mx 0 in
  let* max_y := index1 mx 1 in
  let delta_x := hist_delta o min_x max_x n in
  let delta_y := hist_delta o min_y max_y n in
  let* n1 := uadd c n 1 in
  let* sx := of_value c min_x in
  let* ex := of_value c max_x in
  let* bins_x := linspace o c sx ex n1 in
  let* sy := of_value c min_y in
  let* ey := of_value c max_y in
  let* bins_y := linspace o c sy ey n1 in
  let* nn := umul c n n in
  let* rows := iter_row data in
  let* values := for_each rows (fun item values =>
    let* x := aget item 0 in
    let* y := aget item 1 in
    let* last := usub c n 1 in
    let bin_x := Nat.min (ffloor o (fdiv o (fsub o x min_x) delta_x)) last in
    let bin_y := Nat.min (ffloor o (fdiv o (fsub o y min_y) delta_y)) last in
    let* p := umul c bin_y n in
    let* p := uadd c p bin_x in
    let* v := aget values p in
    aset values p (fadd o v (fone o))) (repeat (fzero o) nn) in
  let* t := of_vec c values in
  let* sh := from_slice_dims [n; n] in
  let* r := reshape c t sh in
  Ok (r, bins_x, bins_y).
