(** * The repository's own unit tests, run on the model

    Every [#[test]] of /repo/src that does not depend on the file system, on the element
    types' library functions (ln, exp, pow, cos, the FFT) or on the order in which tests
    run is transcribed here and evaluated.  A test whose name ends in [_passes] succeeds;
    [_fails] means that one of its assertions is false of the modelled code, [_panics]
    that the code panics before.  The failing tests are discussed in DESIGN.md.

    The macro [ten!] (src/macros/mod.rs:2-12) takes its items without outer brackets:
    [ten![1., 2.]] has rank 1 but [ten!([1., 2.])] matches the second arm and has rank 2,
    and [ten!([[1.], [2.]])] has rank 3.  Test element types ([T], [C], [Z], floats
    where no float arithmetic is tested) are represented by [Z]. *)
From Coq Require Import String.
From Flocq Require Import IEEE754.BinarySingleNaN.
From Verif Require Import Base ShapeModel TensorModel AxisModel MapModel NumModel FloatModel
  InitModel ArrayModel LinalgModel MathModel SignalModel RandomModel FmtModel LifeModel FromModel WrapModel.
Open Scope list_scope.
Open Scope Z_scope.

(** ** Vocabulary *)

(** A test: its assertions in order, up to the first that is false or panics. *)
Fixpoint checks (l : list (outcome bool)) : outcome bool :=
  match l with
  | [] => Ok true
  | Ok true :: l => checks l
  | x :: _ => x
  end.
(** [#[should_panic]] *)
Definition should_panic {A} (x : outcome A) : outcome bool :=
  Ok (match x with Panic => true | _ => false end).

Definition n_ (z : Z) : nat := Z.to_nat z.
Definition ns (l : list Z) : list nat := map n_ l.
Definition width {A} (l : list (list A)) : nat := match l with r :: _ => length r | [] => 0%nat end.

(** [ten!] with items of nesting depth 0, 1, 2, 3 *)
Definition ten1 {A} (l : list A) := of_vec dev l.
Definition ten2 {A} (l : list (list A)) := of_rows dev (width l) l.
Definition ten3 {A} (l : list (list (list A))) := of_rows2 dev (width l) (width (concat l)) l.
Definition ten4 {A} (l : list (list (list (list A)))) :=
  of_rows3 dev (width l) (width (concat l)) (width (concat (concat l))) l.
(** [tensor::scalar] and [Tensor::from] of one value *)
Definition sc {A} (v : A) := of_value dev v.
(** [Shape::from] of an array *)
Definition sh (l : list Z) := from_slice_dims (ns l).

(** [assert_eq!] and [assert_ne!] of two tensors *)
Definition same {A} (eqb : A -> A -> bool) (x y : outcome (tensor A)) : outcome bool :=
  let* a := x in let* b := y in tensor_eqb eqb a b.
Definition eq (x y : outcome (tensor Z)) : outcome bool := same Z.eqb x y.
Definition eqn (x y : outcome (tensor nat)) : outcome bool := same Nat.eqb x y.
Definition ne (x y : outcome (tensor Z)) : outcome bool := let* b := eq x y in Ok (negb b).
(** [assert_eq!] of numbers, vectors and shapes *)
Definition nat_is (x : outcome nat) (n : Z) : outcome bool := let* a := x in Ok (Nat.eqb a (n_ n)).
Definition val_is (x : outcome Z) (v : Z) : outcome bool := let* a := x in Ok (a =? v).
Definition vec_is (x : outcome (list nat)) (l : list Z) : outcome bool :=
  let* a := x in Ok (list_eqb Nat.eqb a (ns l)).
Definition slice_is (t : outcome (tensor Z)) (l : list Z) : outcome bool :=
  let* t := t in let* a := as_slice t in Ok (list_eqb Z.eqb a l).
Definition shape_is {A} (t : outcome (tensor A)) (l : list Z) : outcome bool :=
  let* t := t in let* s := sh l in Ok (shape_eqb (tshape t) s).
Definition dims_are {A} (t : outcome (tensor A)) (l : list Z) : outcome bool :=
  let* t := t in vec_is (as_vec dev (tshape t)) l.
Definition of_shape (x : outcome shape) {A} (f : shape -> outcome A) : outcome A := let* s := x in f s.
Definition size_is {A} (t : outcome (tensor A)) (n : Z) : outcome bool := let* t := t in nat_is (Ok (tsize t)) n.
Definition offset_is {A} (t : outcome (tensor A)) (n : Z) : outcome bool := let* t := t in nat_is (Ok (toffset t)) n.
Definition rank_is {A} (t : outcome (tensor A)) (n : Z) : outcome bool :=
  let* t := t in nat_is (Ok (rank (tshape t))) n.
Definition cols_is {A} (t : outcome (tensor A)) (n : Z) : outcome bool := let* t := t in nat_is (cols (tshape t)) n.
Definition rows_is {A} (t : outcome (tensor A)) (n : Z) : outcome bool := let* t := t in nat_is (rows (tshape t)) n.
Definition dim_is {A} (t : outcome (tensor A)) (i n : Z) : outcome bool :=
  let* t := t in nat_is (dim dev (tshape t) (n_ i)) n.
Definition rdim_is {A} (t : outcome (tensor A)) (i n : Z) : outcome bool :=
  let* t := t in nat_is (rdim (tshape t) (n_ i)) n.
Definition get_is (t : outcome (tensor Z)) (i : Z) (v : option Z) : outcome bool :=
  let* t := t in
  let* x := get dev t (n_ i) in
  Ok (match x, v with Some a, Some b => a =? b | None, None => true | _, _ => false end).
Definition at_is (t : outcome (tensor Z)) (i v : Z) : outcome bool :=
  let* t := t in val_is (index1 t (n_ i)) v.
Definition on {A B} (t : outcome (tensor A)) (f : tensor A -> outcome B) : outcome B := let* t := t in f t.
Definition rs {A} (t : outcome (tensor A)) (l : list Z) : outcome (tensor A) :=
  let* t := t in let* s := sh l in reshape dev t s.
Definition drop_state {S A} (x : outcome (S * A)) : outcome A := let* '(_, r) := x in Ok r.
Definition all_eq (x : outcome (list (tensor Z))) (l : list (outcome (tensor Z))) : outcome bool :=
  let* a := x in
  let* b := map_out (fun t => t) l in
  if Nat.eqb (length a) (length b)
  then checks (map (fun '(u, v) => tensor_eqb Z.eqb u v) (combine a b)) else Ok false.
Definition ts {A B} (l : list (outcome (tensor A))) (f : list (tensor A) -> outcome B) : outcome B :=
  let* l := map_out (fun t => t) l in f l.

(** binary32 values: integers, and a significand with an exponent *)
Definition f (n : Z) : b32 := b32_of_Z n 0.
Definition x (m e : Z) : b32 := b32_of_Z m e.
Definition fs (l : list Z) : list b32 := map f l.
Definition fz (l : list (list Z)) := map fs l.
(** the library functions are not used by the tests below *)
Definition o32 : fops b32 := b32_ops (fun x => x) (fun x => x) (fun x _ => x).
Definition eqf (a b : outcome (tensor b32)) : outcome bool := same (@Beqb 24 128) a b.

(** ** src/tensor/shape.rs *)

(** src/tensor/shape.rs:578-607 *)
Definition test_shape__shape_from_slice := checks [
  of_shape (sh []) (fun s => checks [nat_is (Ok (rank s)) 0; nat_is (size dev s) 1; nat_is (cols s) 0;
    nat_is (rows s) 0; vec_is (as_vec dev s) []]);
  of_shape (sh [4]) (fun s => checks [nat_is (Ok (rank s)) 1; nat_is (size dev s) 4; nat_is (cols s) 4;
    nat_is (rows s) 0; nat_is (dim dev s 0) 4; nat_is (rdim s 0) 4; vec_is (as_vec dev s) [4]]);
  of_shape (sh [2; 4]) (fun s => checks [nat_is (Ok (rank s)) 2; nat_is (size dev s) 8; nat_is (cols s) 4;
    nat_is (rows s) 2; nat_is (dim dev s 0) 2; nat_is (dim dev s 1) 4; nat_is (rdim s 0) 4; nat_is (rdim s 1) 2;
    vec_is (as_vec dev s) [2; 4]])].
Example shape__shape_from_slice_passes : test_shape__shape_from_slice = Ok true.
Proof. vm_compute. reflexivity. Qed.

(** ** src/tensor/test/shape.rs *)

(** src/tensor/test/shape.rs:4-33: the first assertions contradict those of the test above. *)
Definition test_tshape__shape_from_slice := checks [
  of_shape (sh []) (fun s => checks [nat_is (Ok (rank s)) 1; nat_is (size dev s) 0; nat_is (cols s) 0;
    nat_is (rows s) 0; vec_is (as_vec dev s) [0]]);
  of_shape (sh [4]) (fun s => checks [nat_is (Ok (rank s)) 1; nat_is (size dev s) 4; nat_is (cols s) 4;
    nat_is (rows s) 0; nat_is (dim dev s 0) 4; nat_is (rdim s 0) 4; vec_is (as_vec dev s) [4]]);
  of_shape (sh [2; 4]) (fun s => checks [nat_is (Ok (rank s)) 2; nat_is (size dev s) 8; nat_is (cols s) 4;
    nat_is (rows s) 2; nat_is (dim dev s 0) 2; nat_is (dim dev s 1) 4; nat_is (rdim s 0) 4; nat_is (rdim s 1) 2;
    vec_is (as_vec dev s) [2; 4]])].
Example tshape__shape_from_slice_fails : test_tshape__shape_from_slice = Ok false.
Proof. vm_compute. reflexivity. Qed.

(** ** src/tensor/shape.rs *)

(** src/tensor/shape.rs:608-613: the text of a derived [Debug]; the code prints [Shape[]]. *)
Definition prints (s : outcome shape) (text : string) : outcome bool :=
  of_shape s (fun s => let* t := fmt_shape dev s in Ok (String.eqb t text)).
Definition test_shape__shape_debug := checks [
  prints (sh []) "Shape { dims: [0, 0, 0, 0, 0, 0], rank: 0 }";
  prints (sh [4]) "Shape { dims: [4, 0, 0, 0, 0, 0], rank: 1 }";
  prints (sh [4; 2]) "Shape { dims: [2, 4, 0, 0, 0, 0], rank: 2 }"].
Example shape__shape_debug_fails : test_shape__shape_debug = Ok false.
Proof. vm_compute. reflexivity. Qed.

(** ** src/tensor/test/shape.rs *)

(** src/tensor/test/shape.rs:34-39: the same text as the previous test. *)
Definition test_tshape__shape_debug := test_shape__shape_debug.
Example tshape__shape_debug_fails : test_tshape__shape_debug = Ok false.
Proof. vm_compute. reflexivity. Qed.

(** ** src/tensor/shape.rs *)

(** src/tensor/shape.rs:615-623 *)
Definition test_shape__shape_insert :=
  let t l i r := vec_is (let* s := sh l in let* s := insert dev s (n_ i) 4 in as_vec dev s) r in checks [
  t [1] 0 [4; 1]; t [1] 1 [1; 4]; t [1; 2] 0 [4; 1; 2]; t [1; 2] 1 [1; 4; 2]; t [1; 2] 2 [1; 2; 4]].
Example shape__shape_insert_passes : test_shape__shape_insert = Ok true.
Proof. vm_compute. reflexivity. Qed.

(** ** src/tensor/test/shape.rs *)

(** src/tensor/test/shape.rs:41-49: the same text as the previous test. *)
Definition test_tshape__shape_insert := test_shape__shape_insert.
Example tshape__shape_insert_passes : test_tshape__shape_insert = Ok true.
Proof. vm_compute. reflexivity. Qed.

(** src/tensor/test/shape.rs:51-59 *)
Definition test_tshape__shape_rinsert :=
  let t l i r := vec_is (let* s := sh l in let* s := rinsert dev s (n_ i) 4 in as_vec dev s) r in checks [
  t [1] 0 [1; 4]; t [1] 1 [4; 1]; t [1; 2] 0 [1; 2; 4]; t [1; 2] 1 [1; 4; 2]; t [1; 2] 2 [4; 1; 2]].
Example tshape__shape_rinsert_passes : test_tshape__shape_rinsert = Ok true.
Proof. vm_compute. reflexivity. Qed.

(** src/tensor/test/shape.rs:61-67 *)
Definition test_tshape__shape_replace :=
  let t l i r := vec_is (let* s := sh l in let* s := replace dev s (n_ i) 4 in as_vec dev s) r in checks [
  t [1] 0 [4]; t [1; 2; 3] 0 [4; 2; 3]; t [1; 2; 3] 1 [1; 4; 3]; t [1; 2; 3] 2 [1; 2; 4]].
Example tshape__shape_replace_passes : test_tshape__shape_replace = Ok true.
Proof. vm_compute. reflexivity. Qed.

(** src/tensor/test/shape.rs:69-75 *)
Definition test_tshape__shape_rreplace :=
  let t l i r := vec_is (let* s := sh l in let* s := rreplace s (n_ i) 4 in as_vec dev s) r in checks [
  t [1] 0 [4]; t [1; 2; 3] 0 [1; 2; 4]; t [1; 2; 3] 1 [1; 4; 3]; t [1; 2; 3] 2 [4; 2; 3]].
Example tshape__shape_rreplace_passes : test_tshape__shape_rreplace = Ok true.
Proof. vm_compute. reflexivity. Qed.

(** src/tensor/test/shape.rs:77-83 *)
Definition test_tshape__shape_remove :=
  let t l i r := vec_is (let* s := sh l in let* s := remove s (n_ i) in as_vec dev s) r in checks [
  t [1] 0 []; t [1; 2; 3] 0 [2; 3]; t [1; 2; 3] 1 [1; 3]; t [1; 2; 3] 2 [1; 2]].
Example tshape__shape_remove_passes : test_tshape__shape_remove = Ok true.
Proof. vm_compute. reflexivity. Qed.

(** src/tensor/test/shape.rs:85-91 *)
Definition test_tshape__shape_rremove :=
  let t l i r := vec_is (let* s := sh l in let* s := rremove s (n_ i) in as_vec dev s) r in checks [
  t [1] 0 []; t [1; 2; 3] 0 [1; 2]; t [1; 2; 3] 1 [1; 3]; t [1; 2; 3] 2 [2; 3]].
Example tshape__shape_rremove_passes : test_tshape__shape_rremove = Ok true.
Proof. vm_compute. reflexivity. Qed.

(** ** src/tensor/shape.rs *)

(** src/tensor/shape.rs:625-655 *)
Definition test_shape__test_expand_dims :=
  let v := ten1 [1; 2] in
  let m := ten2 [[1; 2]; [3; 4]] in
  let t x a r := eq (on x (fun x => t_expand_dims dev x (Some a))) r in checks [
  t v 0 (ten2 [[1; 2]]); t v 1 (ten2 [[1]; [2]]); t v (-1) (ten2 [[1]; [2]]);
  t m 0 (ten3 [[[1; 2]; [3; 4]]]); t m 1 (ten3 [[[1; 2]]; [[3; 4]]]);
  t m 2 (ten3 [[[1]; [2]]; [[3]; [4]]]); t m (-1) (ten3 [[[1]; [2]]; [[3]; [4]]]);
  t m (-2) (ten3 [[[1; 2]]; [[3; 4]]])].
Example shape__test_expand_dims_passes : test_shape__test_expand_dims = Ok true.
Proof. vm_compute. reflexivity. Qed.

(** ** src/tensor/test/shape.rs *)

(** src/tensor/test/shape.rs:93-96: the right-hand side has shape [1, 4]. *)
Definition test_tshape__test_flatten := checks [
  eq (on (ten3 [[[1; 2]; [3; 4]]]) (flatten dev)) (ten2 [[1; 2; 3; 4]])].
Example tshape__test_flatten_fails : test_tshape__test_flatten = Ok false.
Proof. vm_compute. reflexivity. Qed.

(** src/tensor/test/shape.rs:97-103: the right-hand side has shape [1, 4]. *)
Definition test_tshape__test_reshape := checks [
  eq (rs (ten3 [[[1; 2]; [3; 4]]]) [4]) (ten2 [[1; 2; 3; 4]])].
Example tshape__test_reshape_fails : test_tshape__test_reshape = Ok false.
Proof. vm_compute. reflexivity. Qed.

(** src/tensor/test/shape.rs:105-110: the expected tensors have shapes [1], [1, 2] and [1, 2].
    *)
Definition test_tshape__test_squeeze := checks [
  eq (on (ten3 [[[1]]]) (t_squeeze dev)) (ten1 [1]);
  eq (on (ten3 [[[1; 2]]]) (t_squeeze dev)) (ten2 [[1; 2]]);
  eq (on (ten4 [[[[1]; [2]]]]) (t_squeeze dev)) (ten2 [[1; 2]])].
Example tshape__test_squeeze_fails : test_tshape__test_squeeze = Ok false.
Proof. vm_compute. reflexivity. Qed.

(** src/tensor/test/shape.rs:112-115: with the outer brackets the argument has shape [1, 1, 2,
    1] and the expected result [1, 1, 2]; [squeeze(-1)] removes another axis (C10). *)
Definition test_tshape__test_squeeze_axis := checks [
  eq (on (ten4 [[[[1]; [2]]]]) (fun t => squeeze_axis dev t (Some (-1)))) (ten3 [[[1; 2]]])].
Example tshape__test_squeeze_axis_fails : test_tshape__test_squeeze_axis = Ok false.
Proof. vm_compute. reflexivity. Qed.

(** ** src/tensor/test/tensor.rs *)

(** src/tensor/test/tensor.rs:3-37 *)
Definition test_ttensor__tensor_rank_0 :=
  let t := sc 10 in checks [
  size_is t 1; offset_is t 0; dims_are t []; rank_is t 0; slice_is t [10];
  eq t (sc 10); ne t (sc 11); ne t (ten1 []); ne t (ten1 [10]);
  eq t (rs t []); ne t (rs t [1]); eq (rs t [1]) (rs t [1]);
  get_is t 0 (Some 10); get_is t 1 None].
Example ttensor__tensor_rank_0_passes : test_ttensor__tensor_rank_0 = Ok true.
Proof. vm_compute. reflexivity. Qed.

(** src/tensor/test/tensor.rs:39-76 *)
Definition test_ttensor__tensor_rank_1 :=
  let t := ten1 [0; 1; 2] in checks [
  size_is t 3; offset_is t 0; dims_are t [3]; rank_is t 1; dim_is t 0 3; rdim_is t 0 3; cols_is t 3;
  slice_is t [0; 1; 2]; eq t (ten1 [0; 1; 2]); ne t (ten1 [0; 1; 3]); ne t (ten1 [0; 1]);
  ne t (ten1 [0; 1; 3; 4]); eq t (rs t [3]); ne t (rs t [1; 3]); ne t (rs t [3; 1]);
  ne (rs t [1; 3]) (rs t [3; 1]);
  get_is t 0 (Some 0); get_is t 1 (Some 1); get_is t 2 (Some 2); get_is t 4 None].
Example ttensor__tensor_rank_1_passes : test_ttensor__tensor_rank_1 = Ok true.
Proof. vm_compute. reflexivity. Qed.

(** src/tensor/test/tensor.rs:78-113 *)
Definition test_ttensor__tensor_rank_1_empty :=
  let t := ten1 [] in checks [
  size_is t 0; offset_is t 0; dims_are t [0]; rank_is t 1; dim_is t 0 0; rdim_is t 0 0; cols_is t 0;
  slice_is t []; eq t (ten1 []); ne t (sc 0); ne t (ten1 [0]); eq t (rs t [0]);
  eq (rs t [0]) (rs t [0]); get_is t 0 None].
Example ttensor__tensor_rank_1_empty_passes : test_ttensor__tensor_rank_1_empty = Ok true.
Proof. vm_compute. reflexivity. Qed.

Definition cube := [[[101; 102; 103; 104]; [111; 112; 113; 114]; [121; 122; 123; 124]];
  [[201; 202; 203; 204]; [211; 212; 213; 214]; [221; 222; 223; 224]]].

(** src/tensor/test/tensor.rs:115-164 *)
Definition test_ttensor__tensor_rank_3 :=
  let t := of_vec3 dev cube in
  let slice := concat (concat cube) in checks ([
  size_is t 24; offset_is t 0; shape_is t [2; 3; 4]; rank_is t 3; dim_is t 0 2; dim_is t 1 3; dim_is t 2 4;
  rdim_is t 0 4; rdim_is t 1 3; rdim_is t 2 2; cols_is t 4; rows_is t 3; slice_is t slice;
  ne t (ten1 slice); eq t (rs (ten1 slice) [2; 3; 4])] ++
  map (fun i => get_is t (Z.of_nat i) (nth_error slice i)) (seq 0 24) ++ [slice_is t slice]).
Example ttensor__tensor_rank_3_passes : test_ttensor__tensor_rank_3 = Ok true.
Proof. vm_compute. reflexivity. Qed.

(** ** src/tensor/tensor.rs *)

(** src/tensor/tensor.rs:434-483: the same text as the previous test. *)
Definition test_tensor__basic_tensor := test_ttensor__tensor_rank_3.
Example tensor__basic_tensor_passes : test_tensor__basic_tensor = Ok true.
Proof. vm_compute. reflexivity. Qed.

(** Debug output: [name] is what [type_name] gives for the element type. *)
Definition shows {A} (show : A -> string) (name : string) (t : outcome (tensor A)) (s : string) : outcome bool :=
  let* t := t in let* p := fmt_tensor dev name t in Ok (String.eqb (text show p) s).
Definition show_Z (z : Z) : string := show_nat (n_ z).
Definition show_T (z : Z) : string := ("T(" ++ show_Z z ++ ")")%string.
Definition show_f (z : Z) : string := (show_Z z ++ ".0")%string.
Definition nameT : string := "essay_tensor::test::T".

(** ** src/tensor/test/tensor.rs *)

(** src/tensor/test/tensor.rs:166-170 *)
Definition test_ttensor__debug_rank_0 := checks [
  shows show_T nameT (sc 0) "Tensor<essay_tensor::test::T> {T(0), shape: []}"].
Example ttensor__debug_rank_0_passes : test_ttensor__debug_rank_0 = Ok true.
Proof. vm_compute. reflexivity. Qed.

(** src/tensor/test/tensor.rs:172-186 *)
Definition test_ttensor__debug_rank_1 := checks [
  shows show_T nameT (ten1 []) "Tensor<essay_tensor::test::T> {[], shape: [0]}";
  shows show_T nameT (ten1 [0]) "Tensor<essay_tensor::test::T> {[T(0)], shape: [1]}";
  shows show_T nameT (ten1 [0; 1]) "Tensor<essay_tensor::test::T> {[T(0) T(1)], shape: [2]}";
  shows show_Z "i32" (ten1 [1; 2; 3; 4; 5]) "Tensor<i32> {[1 2 3 4 5], shape: [5]}"].
Example ttensor__debug_rank_1_passes : test_ttensor__debug_rank_1 = Ok true.
Proof. vm_compute. reflexivity. Qed.

(** src/tensor/test/tensor.rs:188-201 *)
Definition test_ttensor__debug_rank_2 := checks [
  shows show_Z "i32" (ten2 [[10]]) "Tensor<i32> {
[[10]], shape: [1, 1]}";
  shows show_Z "i32" (ten2 [[1; 2]]) "Tensor<i32> {
[[1 2]], shape: [1, 2]}";
  shows show_Z "i32" (ten2 [[1]; [2]]) "Tensor<i32> {
[[1],
 [2]], shape: [2, 1]}";
  shows show_Z "i32" (ten2 [[1; 2; 3]; [4; 5; 6]]) "Tensor<i32> {
[[1 2 3],
 [4 5 6]], shape: [2, 3]}"].
Example ttensor__debug_rank_2_passes : test_ttensor__debug_rank_2 = Ok true.
Proof. vm_compute. reflexivity. Qed.

(** src/tensor/test/tensor.rs:203-261 *)
Definition test_ttensor__debug_rank_3 := checks [
  shows show_Z "i32" (ten3 [[[10]]]) "Tensor<i32> {
[[[10]]], shape: [1, 1, 1]}";
  shows show_Z "i32" (ten3 [[[1]]; [[101]]]) "Tensor<i32> {
[[[1]],

 [[101]]], shape: [2, 1, 1]}";
  shows show_Z "i32" (ten3 [[[1]; [101]]]) "Tensor<i32> {
[[[1],
 [101]]], shape: [1, 2, 1]}";
  shows show_Z "i32" (ten3 [[[1; 101]]]) "Tensor<i32> {
[[[1 101]]], shape: [1, 1, 2]}";
  shows show_Z "i32" (ten3 [[[1; 2; 3; 4]; [5; 6; 7; 8]; [9; 10; 11; 12]];
    [[101; 102; 103; 104]; [105; 106; 107; 108]; [109; 110; 111; 112]]]) "Tensor<i32> {
[[[1 2 3 4],
 [5 6 7 8],
 [9 10 11 12]],

 [[101 102 103 104],
 [105 106 107 108],
 [109 110 111 112]]], shape: [2, 3, 4]}";
  shows show_Z "i32" (ten3 [[[1; 2]; [3; 4]; [5; 6]]; [[7; 8]; [9; 10]; [11; 12]];
    [[101; 102]; [103; 104]; [105; 106]]; [[107; 108]; [109; 110]; [111; 112]]]) "Tensor<i32> {
[[[1 2],
 [3 4],
 [5 6]],

 [[7 8],
 [9 10],
 [11 12]],

 [[101 102],
 [103 104],
 [105 106]],

 [[107 108],
 [109 110],
 [111 112]]], shape: [4, 3, 2]}"].
Example ttensor__debug_rank_3_passes : test_ttensor__debug_rank_3 = Ok true.
Proof. vm_compute. reflexivity. Qed.

Definition block4 (b : Z) := map (fun r => map (fun k => b + 5 * r + k) [1; 2; 3; 4; 5]) [0; 1; 2; 3].
(** src/tensor/test/tensor.rs:263-352 *)
Definition test_ttensor__debug_rank_4 :=
  let t := ten4 [[block4 0; block4 100; block4 200]; [block4 1000; block4 1100; block4 1200]] in checks [
  shows show_Z "i32" (ten4 [[[[10]]]]) "Tensor<i32> {
[[[[10]]]], shape: [1, 1, 1, 1]}";
  shows show_Z "i32" (ten4 [[[[10; 11]]]]) "Tensor<i32> {
[[[[10 11]]]], shape: [1, 1, 1, 2]}";
  (let* t' := t in let* n := size dev (tshape t') in Ok (Nat.eqb n (tsize t')));
  shows show_Z "i32" t "Tensor<i32> {
[[[[1 2 3 4 5],
 [6 7 8 9 10],
 [11 12 13 14 15],
 [16 17 18 19 20]],

 [[101 102 103 104 105],
 [106 107 108 109 110],
 [111 112 113 114 115],
 [116 117 118 119 120]],

 [[201 202 203 204 205],
 [206 207 208 209 210],
 [211 212 213 214 215],
 [216 217 218 219 220]]],

 [[[1001 1002 1003 1004 1005],
 [1006 1007 1008 1009 1010],
 [1011 1012 1013 1014 1015],
 [1016 1017 1018 1019 1020]],

 [[1101 1102 1103 1104 1105],
 [1106 1107 1108 1109 1110],
 [1111 1112 1113 1114 1115],
 [1116 1117 1118 1119 1120]],

 [[1201 1202 1203 1204 1205],
 [1206 1207 1208 1209 1210],
 [1211 1212 1213 1214 1215],
 [1216 1217 1218 1219 1220]]]], shape: [2, 3, 4, 5]}"].
Example ttensor__debug_rank_4_passes : test_ttensor__debug_rank_4 = Ok true.
Proof. vm_compute. reflexivity. Qed.

(** src/tensor/test/tensor.rs:354-380 *)
Definition test_ttensor__debug_vector_from_macro := checks [
  shows show_f "f64" (ten1 [1]) "Tensor<f64> {[1.0], shape: [1]}";
  shows show_f "f64" (ten1 [1; 2]) "Tensor<f64> {[1.0 2.0], shape: [2]}";
  shows show_f "f32" (ten2 [[1; 2; 3]; [3; 4; 5]]) "Tensor<f32> {
[[1.0 2.0 3.0],
 [3.0 4.0 5.0]], shape: [2, 3]}";
  shows show_f "f32" (ten3 [[[1; 2]; [3; 4]]; [[11; 12]; [13; 14]]]) "Tensor<f32> {
[[[1.0 2.0],
 [3.0 4.0]],

 [[11.0 12.0],
 [13.0 14.0]]], shape: [2, 2, 2]}";
  shows show_f "f64" (ten3 [[[1; 2]; [3; 4]]; [[11; 12]; [13; 14]]; [[21; 22]; [23; 24]]]) "Tensor<f64> {
[[[1.0 2.0],
 [3.0 4.0]],

 [[11.0 12.0],
 [13.0 14.0]],

 [[21.0 22.0],
 [23.0 24.0]]], shape: [3, 2, 2]}"].
Example ttensor__debug_vector_from_macro_passes : test_ttensor__debug_vector_from_macro = Ok true.
Proof. vm_compute. reflexivity. Qed.

(** ** src/tensor/tensor.rs *)

(** src/tensor/tensor.rs:485-493 *)
Definition test_tensor__tensor_scalar := checks [
  slice_is (sc 10) [10]; size_is (sc 10) 1; rank_is (sc 10) 0; cols_is (sc 10) 0;
  shows show_T nameT (sc 10) "Tensor<essay_tensor::test::T> {T(10), shape: []}"].
Example tensor__tensor_scalar_passes : test_tensor__tensor_scalar = Ok true.
Proof. vm_compute. reflexivity. Qed.

(** src/tensor/tensor.rs:495-529 *)
Definition test_tensor__tensor_vector := checks [
  slice_is (ten1 []) []; shows show_T nameT (ten1 []) "Tensor<essay_tensor::test::T> {[], shape: [0]}";
  slice_is (of_vec dev []) []; slice_is (ten1 [10; 11; 12]) [10; 11; 12];
  eq (ten1 [10; 11; 12]) (ten1 [10; 11; 12]);
  shows show_T nameT (ten1 [10; 11; 12]) "Tensor<essay_tensor::test::T> {[T(10) T(11) T(12)], shape: [3]}";
  eq (of_vec dev [10; 11; 12]) (ten1 [10; 11; 12])].
Example tensor__tensor_vector_passes : test_tensor__tensor_vector = Ok true.
Proof. vm_compute. reflexivity. Qed.

(** src/tensor/tensor.rs:531-547 *)
Definition test_tensor__tensor_matrix :=
  let m := [[0; 1; 2]; [10; 11; 12]] in checks [
  slice_is (ten2 m) [0; 1; 2; 10; 11; 12];
  shows show_T nameT (ten2 m) "Tensor<essay_tensor::test::T> {
[[T(0) T(1) T(2)],
 [T(10) T(11) T(12)]], shape: [2, 3]}";
  dims_are (ten2 m) [2; 3]; eq (of_rows dev 3 m) (ten2 m); eq (of_vec2 dev m) (ten2 m)].
Example tensor__tensor_matrix_passes : test_tensor__tensor_matrix = Ok true.
Proof. vm_compute. reflexivity. Qed.

(** ** src/tensor/test/tensor.rs *)

(** src/tensor/test/tensor.rs:384-389: a clone shares everything. *)
Definition test_ttensor__clone_with_non_clone_type := checks [
  eq (let* t := ten1 [2; 3; 4] in Ok (of_tensor_ref t)) (ten1 [2; 3; 4])].
Example ttensor__clone_with_non_clone_type_passes : test_ttensor__clone_with_non_clone_type = Ok true.
Proof. vm_compute. reflexivity. Qed.

(** The elements dropped by a history, in order. *)
Definition drops (l : list (op Z)) (expected : list Z) : outcome bool :=
  Ok (match LifeModel.run dev empty_heap l with
      | Some st => list_eqb Z.eqb (dropped st) expected
      | None => false
      end).
Definition dims1 (n : nat) : shape := mkShape [n; 0; 0; 0; 0; 0]%nat 1.
Definition dims2 (m n : nat) : shape := mkShape [n; m; 0; 0; 0; 0]%nat 2.

(** src/tensor/test/tensor.rs:393-411: three clones, dropped in order, then the tensor.  The
    second half, about clones of a [Vec], is left out. *)
Definition test_ttensor__clone_drop := checks [
  drops [New [0x10; 0x20] (dims1 2); Clone 0; Clone 0; Clone 0; Drop 1; Drop 2; Drop 3] [];
  drops [New [0x10; 0x20] (dims1 2); Clone 0; Clone 0; Clone 0; Drop 1; Drop 2; Drop 3; Drop 0; Free 0]
    [0x10; 0x20]].
Example ttensor__clone_drop_passes : test_ttensor__clone_drop = Ok true.
Proof. vm_compute. reflexivity. Qed.

(** src/tensor/test/tensor.rs:413-422 *)
Definition test_ttensor__tensor_iter := checks [
  slice_is (ten1 [1; 2; 3; 4]) [1; 2; 3; 4]; slice_is (ten2 [[1; 2]; [3; 4]]) [1; 2; 3; 4]].
Example ttensor__tensor_iter_passes : test_ttensor__tensor_iter = Ok true.
Proof. vm_compute. reflexivity. Qed.

Definition rows_are (t : outcome (tensor Z)) (l : list (list Z)) : outcome bool :=
  let* t := t in let* r := iter_row t in Ok (list_eqb (list_eqb Z.eqb) r l).
(** src/tensor/test/tensor.rs:424-433 *)
Definition test_ttensor__tensor_iter_slice := checks [
  rows_are (ten1 [1; 2; 3; 4]) [[1]; [2]; [3]; [4]]; rows_are (ten2 [[1; 2]; [3; 4]]) [[1; 2]; [3; 4]]].
Example ttensor__tensor_iter_slice_passes : test_ttensor__tensor_iter_slice = Ok true.
Proof. vm_compute. reflexivity. Qed.

(** src/tensor/test/tensor.rs:435-440: [as_ref] is the tensor itself. *)
Definition test_ttensor__test_as_ref := checks [let* _ := ten2 [[1; 2; 3]] in Ok true].
Example ttensor__test_as_ref_passes : test_ttensor__test_as_ref = Ok true.
Proof. vm_compute. reflexivity. Qed.

(** src/tensor/test/tensor.rs:446-451: [as_ref] is [as_slice]. *)
Definition test_ttensor__test_as_slice := checks [let* t := ten2 [[1; 2; 3]] in let* _ := as_slice t in Ok true].
Example ttensor__test_as_slice_passes : test_ttensor__test_as_slice = Ok true.
Proof. vm_compute. reflexivity. Qed.

(** src/tensor/test/tensor.rs:457-466 *)
Definition test_ttensor__test_collect := checks [
  eq (of_vec dev [1; 2; 3]) (ten1 [1; 2; 3]); eq (of_vec dev [1; 2; 3]) (ten1 [1; 2; 3])].
Example ttensor__test_collect_passes : test_ttensor__test_collect = Ok true.
Proof. vm_compute. reflexivity. Qed.

(** src/tensor/test/tensor.rs:468-478: iteration is iteration over the slice. *)
Definition test_ttensor__test_iter := checks [slice_is (of_vec dev [1; 2; 3]) [1; 2; 3]].
Example ttensor__test_iter_passes : test_ttensor__test_iter = Ok true.
Proof. vm_compute. reflexivity. Qed.

(** ** src/tensor/test/from.rs *)

(** src/tensor/test/from.rs:4-12: 0.25 is represented by 25. *)
Definition test_tfrom__tensor_0_from_scalar := checks [
  size_is (sc 25) 1; rank_is (sc 25) 0; shape_is (sc 25) []; get_is (sc 25) 0 (Some 25)].
Example tfrom__tensor_0_from_scalar_passes : test_tfrom__tensor_0_from_scalar = Ok true.
Proof. vm_compute. reflexivity. Qed.

(** src/tensor/test/from.rs:14-23 *)
Definition test_tfrom__tensor_empty := checks [
  @size_is Z (ten1 []) 0; @rank_is Z (ten1 []) 1; @cols_is Z (ten1 []) 0; slice_is (ten1 []) [];
  @dims_are Z (ten1 []) [0]].
Example tfrom__tensor_empty_passes : test_tfrom__tensor_empty = Ok true.
Proof. vm_compute. reflexivity. Qed.

(** src/tensor/test/from.rs:25-32: 10.5 is represented by 105. *)
Definition test_tfrom__tensor_from_f32 := checks [
  size_is (sc 105) 1; at_is (sc 105) 0 105; slice_is (sc 105) [105]; shape_is (sc 105) []].
Example tfrom__tensor_from_f32_passes : test_tfrom__tensor_from_f32 = Ok true.
Proof. vm_compute. reflexivity. Qed.

(** src/tensor/test/from.rs:34-41 *)
Definition test_tfrom__tensor_scalar_type := checks [
  size_is (sc 10) 1; at_is (sc 10) 0 10; slice_is (sc 10) [10]; shape_is (sc 10) []].
Example tfrom__tensor_scalar_type_passes : test_tfrom__tensor_scalar_type = Ok true.
Proof. vm_compute. reflexivity. Qed.

(** src/tensor/test/from.rs:43-51 *)
Definition test_tfrom__tensor_from_scalar_iterator :=
  let t := of_vec dev [0; 1; 2; 3; 4; 5] in checks ([
  size_is t 6; dims_are t [6]] ++ map (fun i => get_is t i (Some i)) [0; 1; 2; 3; 4; 5]).
Example tfrom__tensor_from_scalar_iterator_passes : test_tfrom__tensor_from_scalar_iterator = Ok true.
Proof. vm_compute. reflexivity. Qed.

(** src/tensor/test/from.rs:57-65 *)
Definition test_tfrom__tensor_from_vec :=
  let t := of_vec dev [10; 11; 12] in checks [
  size_is t 3; rank_is t 1; cols_is t 3; dims_are t [3]; slice_is t [10; 11; 12]].
Example tfrom__tensor_from_vec_passes : test_tfrom__tensor_from_vec = Ok true.
Proof. vm_compute. reflexivity. Qed.

(** src/tensor/test/from.rs:67-75: the same with another element type. *)
Definition test_tfrom__tensor_from_vec_type := test_tfrom__tensor_from_vec.
Example tfrom__tensor_from_vec_type_passes : test_tfrom__tensor_from_vec_type = Ok true.
Proof. vm_compute. reflexivity. Qed.

(** src/tensor/test/from.rs:77-83 *)
Definition test_tfrom__tensor_from_vec_ref :=
  let t := of_vec dev [10; 11; 12] in checks [size_is t 3; dims_are t [3]; slice_is t [10; 11; 12]].
Example tfrom__tensor_from_vec_ref_passes : test_tfrom__tensor_from_vec_ref = Ok true.
Proof. vm_compute. reflexivity. Qed.

(** src/tensor/test/from.rs:85-94 *)
Definition test_tfrom__tensor_from_vec_rows :=
  let t := of_rows dev 3 [[10; 20; 30]; [11; 21; 31]] in checks [
  size_is t 6; cols_is t 3; rows_is t 2; dims_are t [2; 3]; slice_is t [10; 20; 30; 11; 21; 31]].
Example tfrom__tensor_from_vec_rows_passes : test_tfrom__tensor_from_vec_rows = Ok true.
Proof. vm_compute. reflexivity. Qed.

(** src/tensor/test/from.rs:96-105: the same assertions for a reference. *)
Definition test_tfrom__tensor_from_vec_rows_ref := test_tfrom__tensor_from_vec_rows.
Example tfrom__tensor_from_vec_rows_ref_passes : test_tfrom__tensor_from_vec_rows_ref = Ok true.
Proof. vm_compute. reflexivity. Qed.

(** src/tensor/test/from.rs:107-110 *)
Definition test_tfrom__tensor_into := checks [eq (ten1 [3]) (ten1 [3])].
Example tfrom__tensor_into_passes : test_tfrom__tensor_into = Ok true.
Proof. vm_compute. reflexivity. Qed.

(** src/tensor/test/from.rs:126-132 *)
Definition test_tfrom__tensor_from_array_1d := checks [
  size_is (ten1 [10; 11; 12]) 3; dims_are (ten1 [10; 11; 12]) [3]; slice_is (ten1 [10; 11; 12]) [10; 11; 12]].
Example tfrom__tensor_from_array_1d_passes : test_tfrom__tensor_from_array_1d = Ok true.
Proof. vm_compute. reflexivity. Qed.

(** src/tensor/test/from.rs:135-141: the same assertions for a slice. *)
Definition test_tfrom__tensor_from_array_1d_ref := test_tfrom__tensor_from_array_1d.
Example tfrom__tensor_from_array_1d_ref_passes : test_tfrom__tensor_from_array_1d_ref = Ok true.
Proof. vm_compute. reflexivity. Qed.

(** src/tensor/test/from.rs:144-150 *)
Definition test_tfrom__tensor_from_array_2d :=
  let t := ten2 [[10; 11]; [110; 111]; [210; 211]] in checks [
  size_is t 6; dims_are t [3; 2]; slice_is t [10; 11; 110; 111; 210; 211]].
Example tfrom__tensor_from_array_2d_passes : test_tfrom__tensor_from_array_2d = Ok true.
Proof. vm_compute. reflexivity. Qed.

(** src/tensor/test/from.rs:153-164: the same assertions for a slice. *)
Definition test_tfrom__tensor_from_array_2d_ref := test_tfrom__tensor_from_array_2d.
Example tfrom__tensor_from_array_2d_ref_passes : test_tfrom__tensor_from_array_2d_ref = Ok true.
Proof. vm_compute. reflexivity. Qed.

(** src/tensor/test/from.rs:170-192 *)
Definition test_tfrom__tensor_from_tensor_slice :=
  let t0 := ts [sc 2; sc 1; sc 3] (of_tensor_vec dev) in
  let t1 := ts [ten1 [1; 2]; ten1 [2; 3]; ten1 [3; 4]] (of_tensor_vec dev) in checks [
  size_is t0 3; dims_are t0 [3]; get_is t0 0 (Some 2); get_is t0 1 (Some 1); get_is t0 2 (Some 3);
  size_is t1 6; dims_are t1 [3; 2]; at_is t1 0 1; at_is t1 1 2; at_is t1 2 2; at_is t1 3 3; at_is t1 4 3;
  at_is t1 5 4].
Example tfrom__tensor_from_tensor_slice_passes : test_tfrom__tensor_from_tensor_slice = Ok true.
Proof. vm_compute. reflexivity. Qed.

(** src/tensor/test/from.rs:194-233: [ten!(2.)] has shape [1], so the first shape is [3, 1]. *)
Definition test_tfrom__tensor_from_vec_slice :=
  let t0 := ts [ten1 [2]; ten1 [1]; ten1 [3]] (of_tensors dev) in
  let t1 := ts [ten2 [[1; 2]]; ten2 [[2; 3]]; ten2 [[3; 4]]] (of_tensors dev) in
  let l1 := [size_is t1 6; dims_are t1 [2; 3]; at_is t1 0 1; at_is t1 1 2; at_is t1 2 2; at_is t1 3 3;
    at_is t1 4 3; at_is t1 5 4] in checks ([
  size_is t0 3; dims_are t0 [3]; get_is t0 0 (Some 2); get_is t0 1 (Some 1); get_is t0 2 (Some 3)] ++ l1 ++ l1).
Example tfrom__tensor_from_vec_slice_fails : test_tfrom__tensor_from_vec_slice = Ok false.
Proof. vm_compute. reflexivity. Qed.

(** src/tensor/test/from.rs:235-243 *)
Definition test_tfrom__shape_from_zeros :=
  let t := let* s := sh [3; 2; 4; 5] in drop_state (init dev s (fun u : unit => Ok (u, 0)) tt) in checks [
  dims_are t [3; 2; 4; 5]; rank_is t 4; cols_is t 5; rows_is t 4; size_is t 120].
Example tfrom__shape_from_zeros_passes : test_tfrom__shape_from_zeros = Ok true.
Proof. vm_compute. reflexivity. Qed.

(** src/tensor/test/from.rs:245-259 *)
Definition test_tfrom__tensor_macro_float := checks [
  dims_are (ten1 [1]) [1]; eq (ten1 [1]) (ten1 [1]); dims_are (ten1 [1; 2; 3]) [3];
  eq (ten1 [1; 2; 3]) (of_vec dev [1; 2; 3]); dims_are (ten2 [[1; 2; 3]; [4; 5; 6]]) [2; 3];
  eq (ten2 [[1; 2; 3]; [4; 5; 6]]) (of_rows dev 3 [[1; 2; 3]; [4; 5; 6]])].
Example tfrom__tensor_macro_float_passes : test_tfrom__tensor_macro_float = Ok true.
Proof. vm_compute. reflexivity. Qed.

(** src/tensor/test/from.rs:261-274: the strings are represented by numbers. *)
Definition test_tfrom__tensor_macro_string := checks [
  dims_are (ten1 [1]) [1]; at_is (ten1 [1]) 0 1; dims_are (ten1 [1; 2; 3]) [3];
  at_is (ten1 [1; 2; 3]) 0 1; at_is (ten1 [1; 2; 3]) 1 2; at_is (ten1 [1; 2; 3]) 2 3].
Example tfrom__tensor_macro_string_passes : test_tfrom__tensor_macro_string = Ok true.
Proof. vm_compute. reflexivity. Qed.

(** ** src/tensor/test/data.rs *)

(** src/tensor/test/data.rs:7-14 *)
Definition test_tdata__from_boxed_slice_empty_panic := checks [should_panic (from_vec dev ([] : list Z) scalar)].
Example tdata__from_boxed_slice_empty_panic_passes : test_tdata__from_boxed_slice_empty_panic = Ok true.
Proof. vm_compute. reflexivity. Qed.

(** src/tensor/test/data.rs:50-57 *)
Definition test_tdata__from_boxed_rows_empty_panic := checks [
  should_panic (from_vec dev (concat ([] : list (list Z))) scalar)].
Example tdata__from_boxed_rows_empty_panic_passes : test_tdata__from_boxed_rows_empty_panic = Ok true.
Proof. vm_compute. reflexivity. Qed.

(** src/tensor/test/data.rs:16-30 *)
Definition test_tdata__from_boxed_slice_scalar :=
  let t := from_vec dev [0xaaaa5555] scalar in checks [
  eq t (sc 0xaaaa5555); slice_is t [0xaaaa5555]; dims_are t [];
  (let* t := t in nat_is (size dev (tshape t)) 1); rank_is t 0; size_is t 1; offset_is t 0].
Example tdata__from_boxed_slice_scalar_passes : test_tdata__from_boxed_slice_scalar = Ok true.
Proof. vm_compute. reflexivity. Qed.

(** src/tensor/test/data.rs:32-48 *)
Definition test_tdata__from_boxed_slice_drop := checks [
  drops [New [0x10; 0x11] (dims1 2); Drop 0; Free 0] [0x10; 0x11]].
Example tdata__from_boxed_slice_drop_passes : test_tdata__from_boxed_slice_drop = Ok true.
Proof. vm_compute. reflexivity. Qed.

(** src/tensor/test/data.rs:59-73 *)
Definition test_tdata__from_boxed_rows_scalar :=
  let t := let* s := sh [2; 1] in from_vec dev (concat [[0xaaaa5555]; [0x5555aaaa]]) s in checks [
  eq t (ten2 [[0xaaaa5555]; [0x5555aaaa]]); slice_is t [0xaaaa5555; 0x5555aaaa]; dims_are t [2; 1];
  (let* t := t in nat_is (size dev (tshape t)) 2); rank_is t 2; size_is t 2; offset_is t 0].
Example tdata__from_boxed_rows_scalar_passes : test_tdata__from_boxed_rows_scalar = Ok true.
Proof. vm_compute. reflexivity. Qed.

(** src/tensor/test/data.rs:75-91 *)
Definition test_tdata__from_boxed_rows_drop := checks [
  drops [New [0x10; 0x11; 0x20; 0x21] (dims2 2 2); Drop 0; Free 0] [0x10; 0x11; 0x20; 0x21]].
Example tdata__from_boxed_rows_drop_passes : test_tdata__from_boxed_rows_drop = Ok true.
Proof. vm_compute. reflexivity. Qed.

(** src/tensor/test/data.rs:93-100 *)
Definition test_tdata__unsafe_init_empty_panic := checks [
  should_panic (unsafe_init_ dev 0 scalar (fun o : buf Z => Ok o))].
Example tdata__unsafe_init_empty_panic_passes : test_tdata__unsafe_init_empty_panic = Ok true.
Proof. vm_compute. reflexivity. Qed.

(** src/tensor/test/data.rs:102-117: the test expects size and rank 2 of a scalar. *)
Definition test_tdata__unsafe_init_scalar :=
  let t := unsafe_init_ dev 1 scalar (fun o => write o 0 0x10) in checks [
  eq t (sc 0x10); slice_is t [0x10]; dims_are t []; (let* t := t in nat_is (size dev (tshape t)) 2);
  rank_is t 2; size_is t 2; offset_is t 0].
Example tdata__unsafe_init_scalar_fails : test_tdata__unsafe_init_scalar = Ok false.
Proof. vm_compute. reflexivity. Qed.

(** src/tensor/test/data.rs:119-137 *)
Definition test_tdata__unsafe_init_tensor :=
  let t := let* s := sh [2; 2] in unsafe_init_ dev 4 s (fun o =>
    let* o := write o 0 0x10 in let* o := write o 1 0x11 in let* o := write o 2 0x20 in write o 3 0x21) in checks [
  eq t (ten2 [[0x10; 0x11]; [0x20; 0x21]]); slice_is t [0x10; 0x11; 0x20; 0x21]; dims_are t [2; 2];
  (let* t := t in nat_is (size dev (tshape t)) 4); rank_is t 2; size_is t 4; offset_is t 0].
Example tdata__unsafe_init_tensor_passes : test_tdata__unsafe_init_tensor = Ok true.
Proof. vm_compute. reflexivity. Qed.

(** src/tensor/test/data.rs:139-150 *)
Definition test_tdata__unsafe_init_drop_scalar := checks [
  drops [New [0x10] scalar; Drop 0; Free 0] [0x10]].
Example tdata__unsafe_init_drop_scalar_passes : test_tdata__unsafe_init_drop_scalar = Ok true.
Proof. vm_compute. reflexivity. Qed.

(** src/tensor/test/data.rs:152-168: the overwritten value is not dropped. *)
Definition test_tdata__unsafe_init_drop_matrix := checks [
  match (let* s := sh [2; 2] in unsafe_init_ dev 4 s (fun o =>
    let* o := write o 0 0x10 in let* o := write o 1 0x11 in let* o := write o 2 0x20 in
    let* o := write o 3 0x21 in write o 3 0x31)) with
  | Ok t => drops [New (tdata t) (tshape t); Drop 0; Free 0] [0x10; 0x11; 0x20; 0x31]
  | _ => Ok false
  end].
Example tdata__unsafe_init_drop_matrix_passes : test_tdata__unsafe_init_drop_matrix = Ok true.
Proof. vm_compute. reflexivity. Qed.

(** src/tensor/test/data.rs:171-189: what the tensor drops; the second half, about clones of a
    [Vec], is left out. *)
Definition test_tdata__clone_drop := test_ttensor__clone_drop.
Example tdata__clone_drop_passes : test_tdata__clone_drop = Ok true.
Proof. vm_compute. reflexivity. Qed.

(** src/tensor/test/data.rs:193-211 *)
Definition test_tdata__data_drop_from_vec := checks [drops [New [1; 2] (dims1 2); Drop 0; Free 0] [1; 2]].
Example tdata__data_drop_from_vec_passes : test_tdata__data_drop_from_vec = Ok true.
Proof. vm_compute. reflexivity. Qed.

(** src/tensor/test/data.rs:213-233 *)
Definition test_tdata__data_drop_from_row_vec := checks [drops [New [1; 2] (dims2 1 2); Drop 0; Free 0] [1; 2]].
Example tdata__data_drop_from_row_vec_passes : test_tdata__data_drop_from_row_vec = Ok true.
Proof. vm_compute. reflexivity. Qed.

(** src/tensor/test/data.rs:235-253 *)
Definition test_tdata__data_drop_from_boxed_slice := checks [
  drops [New [1; 2] (dims2 1 2); Drop 0; Free 0] [1; 2]].
Example tdata__data_drop_from_boxed_slice_passes : test_tdata__data_drop_from_boxed_slice = Ok true.
Proof. vm_compute. reflexivity. Qed.

(** src/tensor/test/data.rs:255-273: the tensor drops its two clones; the second message of each
    is from the array. *)
Definition test_tdata__data_drop_from_slice := checks [
  match from_slice dev [1; 2] with
  | Ok t => drops [New (tdata t) (tshape t); Drop 0; Free 0] [1; 2]
  | _ => Ok false
  end].
Example tdata__data_drop_from_slice_passes : test_tdata__data_drop_from_slice = Ok true.
Proof. vm_compute. reflexivity. Qed.

(** src/tensor/test/data.rs:298-310 *)
Definition test_tdata__test_drop_clone := checks [
  drops [New [2] (dims1 1); Clone 0; Drop 1; Drop 0; Free 0] [2]].
Example tdata__test_drop_clone_passes : test_tdata__test_drop_clone = Ok true.
Proof. vm_compute. reflexivity. Qed.

(** src/tensor/test/data.rs:404-430: first half; the second, which assigns through the pointer,
    is left out. *)
Definition test_tdata__unsafe_init_dead := checks [
  match (let* s := sh [1] in unsafe_init_ dev 1 s (fun o =>
    let* o := write o 0 0x10 in let* o := write o 0 0x20 in write o 0 0x30)) with
  | Ok t => drops [New (tdata t) (tshape t); Drop 0; Free 0] [0x30]
  | _ => Ok false
  end].
Example tdata__unsafe_init_dead_passes : test_tdata__unsafe_init_dead = Ok true.
Proof. vm_compute. reflexivity. Qed.

(** src/tensor/test/data.rs:275-296: [Tensor::from(test)] moves the value, which is then dropped
    once; the test expects it twice. *)
Definition test_tdata__drop_tensor := checks [
  drops [New [2] scalar; Drop 0; Free 0] [2; 2]; drops [New [2] (dims1 1); Drop 0; Free 0] [2]].
Example tdata__drop_tensor_fails : test_tdata__drop_tensor = Ok false.
Proof. vm_compute. reflexivity. Qed.

(** src/tensor/test/data.rs:312-366: the layout of the pairs in memory is not modelled; the
    reads through [as_ptr] are left out. *)
Definition test_tdata__test_vec_align :=
  let same l := let* t := of_vec dev l in let* s := as_slice t in
    Ok (list_eqb (fun a b => (fst a =? fst b) && (snd a =? snd b)) s l) in checks [
  same [(0x01, 0x40001000); (0x02, 0x50001001); (0x03, 0x60001002); (0x04, 0x70001003)];
  same [(0x40001000, 0x01); (0x50001001, 0x02); (0x60001002, 0x03); (0x70001003, 0x04)]].
Example tdata__test_vec_align_passes : test_tdata__test_vec_align = Ok true.
Proof. vm_compute. reflexivity. Qed.

(** src/tensor/test/data.rs:368-387 *)
Definition test_tdata__test_vec_rows_basic :=
  let v := [[0x01; 0x1000; 0x010000]; [0x02; 0x2000; 0x020000]; [0x03; 0x3000; 0x030000];
            [0x04; 0x4000; 0x040000]] in checks [
  slice_is (let* s := sh [4; 3] in from_vec dev (concat v) s) (concat v)].
Example tdata__test_vec_rows_basic_passes : test_tdata__test_vec_rows_basic = Ok true.
Proof. vm_compute. reflexivity. Qed.

(** src/tensor/test/data.rs:389-402 *)
Definition test_tdata__test_slice := checks [
  slice_is (ten1 [10]) [10]; slice_is (ten2 [[10]]) [10]; slice_is (ten2 [[10; 20; 30]]) [10; 20; 30];
  slice_is (ten3 [[[10; 20]; [30; 40]]]) [10; 20; 30; 40]].
Example tdata__test_slice_passes : test_tdata__test_slice = Ok true.
Proof. vm_compute. reflexivity. Qed.

(** src/tensor/test/data.rs:432-441 *)
Definition test_tdata__map_dead := checks [
  match (let* t := ten1 [0x10; 0x20; 0x30] in drop_state (map_ dev t (pure1 (fun v => v)) tt)) with
  | Ok t => drops [New (tdata t) (tshape t); Drop 0; Free 0] [0x10; 0x20; 0x30]
  | _ => Ok false
  end].
Example tdata__map_dead_passes : test_tdata__map_dead = Ok true.
Proof. vm_compute. reflexivity. Qed.

Definition init_ (l : list Z) (g : Z -> outcome (Z * Z)) (st : Z) : outcome (tensor Z) :=
  let* s := sh l in drop_state (init dev s g st).
(** [zeros], [ones] and [fill] are [init] with a constant closure (src/init/mod.rs:28-56). *)
Definition fill_ (l : list Z) (v : Z) : outcome (tensor Z) := init_ l (fun st => Ok (st, v)) 0.
Definition counting (st : Z) : outcome (Z * Z) := Ok (st + 1, st).
Definition idx (l : list Z) (g : list nat -> nat) : outcome (tensor nat) :=
  let* s := sh l in drop_state (init_rindexed dev s (pure1 g) tt).
Definition i0 (l : list nat) := nth 0 l 0%nat.
Definition i1 (l : list nat) := nth 1 l 0%nat.
Definition nat1 (l : list Z) : outcome (tensor nat) := ten1 (ns l).
Definition nat2 (l : list (list Z)) : outcome (tensor nat) := ten2 (map ns l).
Definition is_4 {A} (t : outcome (tensor A)) := [size_is t 4; cols_is t 4; rows_is t 0; dims_are t [4]].
Definition is_3x2 {A} (t : outcome (tensor A)) := [size_is t 6; cols_is t 2; rows_is t 3; dims_are t [3; 2]].

(** ** src/tensor/test/map.rs *)

(** src/tensor/test/map.rs:3-20: [ten!([0., 0., 0., 0.])] has shape [1, 4]. *)
Definition test_tmap__tensor_init_zero := checks (
  is_4 (fill_ [4] 0) ++ [eq (fill_ [4] 0) (ten2 [[0; 0; 0; 0]])] ++
  is_3x2 (fill_ [3; 2] 0) ++ [eq (fill_ [3; 2] 0) (ten3 [[[0; 0]; [0; 0]; [0; 0]]])]).
Example tmap__tensor_init_zero_fails : test_tmap__tensor_init_zero = Ok false.
Proof. vm_compute. reflexivity. Qed.

(** src/tensor/test/map.rs:22-31 *)
Definition test_tmap__tensor_init_type := checks (
  is_4 (fill_ [4] 4) ++ [eq (fill_ [4] 4) (ten1 [4; 4; 4; 4])]).
Example tmap__tensor_init_type_passes : test_tmap__tensor_init_type = Ok true.
Proof. vm_compute. reflexivity. Qed.

(** src/tensor/test/map.rs:33-60: [ten!([0, 1, 2, 3])] has shape [1, 4]. *)
Definition test_tmap__tensor_init_count := checks (
  is_4 (init_ [4] counting 0) ++ [eq (init_ [4] counting 0) (ten2 [[0; 1; 2; 3]])] ++
  is_3x2 (init_ [3; 2] counting 0) ++ [eq (init_ [3; 2] counting 0) (ten3 [[[0; 1]; [2; 3]; [4; 5]]])]).
Example tmap__tensor_init_count_fails : test_tmap__tensor_init_count = Ok false.
Proof. vm_compute. reflexivity. Qed.

(** src/tensor/test/map.rs:62-97 *)
Definition test_tmap__tensor_init_indexed :=
  let a := idx [4] i0 in
  let b := idx [3; 2] i0 in
  let d := idx [3; 2] i1 in
  let e := idx [3; 2] (fun i => if Nat.eqb (i1 i) (i0 i) then 1%nat else 0%nat) in checks (
  is_4 a ++ [eqn a (nat1 [0; 1; 2; 3]); eqn b (nat2 [[0; 1]; [0; 1]; [0; 1]])] ++ is_3x2 b ++
  [eqn d (nat2 [[0; 0]; [1; 1]; [2; 2]])] ++ is_3x2 d ++
  [eqn e (nat2 [[1; 0]; [0; 1]; [0; 0]])] ++ is_3x2 e).
Example tmap__tensor_init_indexed_passes : test_tmap__tensor_init_indexed = Ok true.
Proof. vm_compute. reflexivity. Qed.

(** src/tensor/test/map.rs:99-103 *)
Definition test_tmap__tensor_init_indexed_type := checks [eqn (idx [4] i0) (nat1 [0; 1; 2; 3])].
Example tmap__tensor_init_indexed_type_passes : test_tmap__tensor_init_indexed_type = Ok true.
Proof. vm_compute. reflexivity. Qed.

(** src/tensor/test/map.rs:105-122: [ten!([0, 0, 0, 0])] has shape [1, 4]. *)
Definition test_tmap__tensor_fill := checks (
  [eq (fill_ [4] 0) (ten2 [[0; 0; 0; 0]])] ++ is_4 (fill_ [4] 0) ++
  [eq (fill_ [3; 2] 0) (ten2 [[0; 0]; [0; 0]; [0; 0]])] ++ is_3x2 (fill_ [3; 2] 0)).
Example tmap__tensor_fill_fails : test_tmap__tensor_fill = Ok false.
Proof. vm_compute. reflexivity. Qed.

(** src/tensor/test/map.rs:124-141: [ten!([0, 0, 0, 0])] has shape [1, 4]. *)
Definition test_tmap__tensor_zeros := checks (
  is_4 (fill_ [4] 0) ++ [eq (fill_ [4] 0) (ten2 [[0; 0; 0; 0]])] ++
  is_3x2 (fill_ [3; 2] 0) ++ [eq (fill_ [3; 2] 0) (ten3 [[[0; 0]; [0; 0]; [0; 0]]])]).
Example tmap__tensor_zeros_fails : test_tmap__tensor_zeros = Ok false.
Proof. vm_compute. reflexivity. Qed.

Definition mp (t : outcome (tensor Z)) (g : Z -> Z) : outcome (tensor Z) :=
  let* t := t in drop_state (map_ dev t (pure1 g) tt).
Definition alike {A B} (a : outcome (tensor A)) (b : outcome (tensor B)) : outcome bool :=
  let* a := a in let* b := b in
  Ok (shape_eqb (tshape a) (tshape b) && Nat.eqb (toffset a) (toffset b) && Nat.eqb (tsize a) (tsize b)).
(** src/tensor/test/map.rs:143-152 *)
Definition test_tmap__map_i32 :=
  let t1 := ten2 [[1; 2; 3]; [4; 5; 6]] in
  let t2 := mp t1 (Z.add 10) in checks [alike t1 t2; eq t2 (ten2 [[11; 12; 13]; [14; 15; 16]])].
Example tmap__map_i32_passes : test_tmap__map_i32 = Ok true.
Proof. vm_compute. reflexivity. Qed.

(** src/tensor/test/map.rs:154-163 *)
Definition test_tmap__map_i32_to_f32 :=
  let t1 := ten1 [1; 2; 3; 4] in
  let t2 := mp t1 (Z.mul 2) in checks [alike t1 t2; eq t2 (ten1 [2; 4; 6; 8])].
Example tmap__map_i32_to_f32_passes : test_tmap__map_i32_to_f32 = Ok true.
Proof. vm_compute. reflexivity. Qed.

(** src/tensor/test/map.rs:165-176 *)
Definition test_tmap__map_fnmut := checks [
  eq (let* t := ten1 [1; 2; 3; 4] in drop_state (map_ dev t (fun count v => Ok (count + 1, 10 * count + v)) 1))
     (ten1 [11; 22; 33; 44])].
Example tmap__map_fnmut_passes : test_tmap__map_fnmut = Ok true.
Proof. vm_compute. reflexivity. Qed.

Definition mrow (N : Z) (t : outcome (tensor Z)) (g : list Z -> list Z) : outcome (tensor Z) :=
  let* t := t in drop_state (map_row dev (n_ N) t (pure1 g) tt).
Definition v0 (l : list Z) := nth 0 l 0.
Definition v1 (l : list Z) := nth 1 l 0.
Definition v2 (l : list Z) := nth 2 l 0.
(** src/tensor/test/map.rs:178-186 *)
Definition test_tmap__tensor_map_slice_4x1_to_4 :=
  let t2 := mrow 1 (rs (ten1 [1; 2; 3; 4]) [4; 1]) (fun v => [2 * v0 v]) in checks [
  dims_are t2 [4]; eq t2 (ten1 [2; 4; 6; 8])].
Example tmap__tensor_map_slice_4x1_to_4_passes : test_tmap__tensor_map_slice_4x1_to_4 = Ok true.
Proof. vm_compute. reflexivity. Qed.

(** src/tensor/test/map.rs:188-208 *)
Definition test_tmap__map_row :=
  let t := mrow 4 (ten2 [[1; 20]; [3; 40]; [5; 60]])
    (fun v => [10 * v0 v; 10 * v1 v; v0 v + v1 v; 10 * (v0 v + v1 v)]) in checks [
  eq t (ten2 [[10; 200; 21; 210]; [30; 400; 43; 430]; [50; 600; 65; 650]]);
  shape_is t [3; 4]; size_is t 12; offset_is t 0].
Example tmap__map_row_passes : test_tmap__map_row = Ok true.
Proof. vm_compute. reflexivity. Qed.

(** src/tensor/test/map.rs:210-219 *)
Definition test_tmap__map_row_combine :=
  let t := mrow 1 (ten2 [[1; 20]; [3; 40]; [5; 60]]) (fun v => [v0 v + 10 * v1 v]) in checks [
  eq t (ten1 [201; 403; 605]); shape_is t [3]].
Example tmap__map_row_combine_passes : test_tmap__map_row_combine = Ok true.
Proof. vm_compute. reflexivity. Qed.

(** src/tensor/test/map.rs:221-233 *)
Definition test_tmap__tensor_map_expand_to_3 := checks [
  eq (let* t := ten1 [1; 2; 3; 4] in drop_state (map_expand dev 3 t (pure1 (fun v => [v; v * 10; v * 100])) tt))
     (ten2 [[1; 10; 100]; [2; 20; 200]; [3; 30; 300]; [4; 40; 400]])].
Example tmap__tensor_map_expand_to_3_passes : test_tmap__tensor_map_expand_to_3 = Ok true.
Proof. vm_compute. reflexivity. Qed.

Definition ma := ten2 [[1; 20]; [3; 40]; [5; 60]].
Definition mb := ten2 [[100; 2000]; [300; 4000]; [500; 6000]].
Definition mc := ten2 [[10000; 200000]; [30000; 400000]; [50000; 600000]].
(** src/tensor/test/map.rs:235-247 *)
Definition test_tmap__map2 :=
  let d := let* a := ma in let* b := mb in drop_state (map2 dev a b (pure2 Z.add) tt) in checks [
  eq d (ten2 [[101; 2020]; [303; 4040]; [505; 6060]]); shape_is d [3; 2]; size_is d 6; offset_is d 0].
Example tmap__map2_passes : test_tmap__map2 = Ok true.
Proof. vm_compute. reflexivity. Qed.

(** src/tensor/test/map.rs:249-267 *)
Definition test_tmap__map2_fnmut :=
  let d := let* a := ma in let* b := mb in
    drop_state (map2 dev a b (fun count x y => Ok (count + 1, 10000 * count + x + y)) 1) in checks [
  eq d (ten2 [[10101; 22020]; [30303; 44040]; [50505; 66060]]); shape_is d [3; 2]; size_is d 6; offset_is d 0].
Example tmap__map2_fnmut_passes : test_tmap__map2_fnmut = Ok true.
Proof. vm_compute. reflexivity. Qed.

(** src/tensor/test/map.rs:269-281: [map2_row] is [todo!()]. *)
Definition test_tmap__map2_row := checks [
  eq map2_row (ten2 [[101; 2020]; [303; 4040]; [505; 6060]]); @shape_is Z map2_row [3; 2];
  @size_is Z map2_row 6; @offset_is Z map2_row 0].
Example tmap__map2_row_panics : test_tmap__map2_row = Panic.
Proof. vm_compute. reflexivity. Qed.

Definition red (t : outcome (tensor Z)) := let* t := t in drop_state (reduce dev t (pure2 Z.add) tt).
Definition reda (t : outcome (tensor Z)) (a : option Z) :=
  let* t := t in drop_state (reduce_axis dev t a (pure2 Z.add) tt).
Definition fol (t : outcome (tensor Z)) (i : Z) :=
  let* t := t in drop_state (fold_ dev t i (fun s => s) (pure2 Z.add) tt).
Definition fola (t : outcome (tensor Z)) (a : option Z) (i : Z) :=
  let* t := t in drop_state (fold_axis dev t a i (fun s => s) (pure2 Z.add) tt).

(** src/tensor/test/map.rs:283-291: [fold] returns a scalar, shape []. *)
Definition test_tmap__fold_i32 :=
  let t2 := fol (ten2 [[1; 2; 3]; [4; 5; 6]]) 100 in checks [eq t2 (ten1 [121]); shape_is t2 [1]; size_is t2 1].
Example tmap__fold_i32_fails : test_tmap__fold_i32 = Ok false.
Proof. vm_compute. reflexivity. Qed.

(** src/tensor/test/map.rs:293-372: without an axis the result is a scalar, shape []. *)
Definition test_tmap__fold_axis :=
  let t1 := ten3 [[[1; 2]; [11; 12]; [21; 22]; [31; 32]];
    [[101; 102]; [111; 112]; [121; 122]; [131; 132]]; [[301; 302]; [311; 312]; [321; 322]; [331; 332]]] in
  let all := fola t1 None 1000 in
  let last := fola t1 (Some (-1)) 1000 in
  let two := fola t1 (Some 2) 1000 in
  let zero := fola t1 (Some 0) 1000 in
  let one := fola t1 (Some 1) 1000 in
  let sums := ten2 [[1003; 1023; 1043; 1063]; [1203; 1223; 1243; 1263]; [1603; 1623; 1643; 1663]] in checks [
  eq all (ten1 [4596]); shape_is all [1]; size_is all 1;
  eq last sums; shape_is last [3; 4]; size_is last 12; eq two sums; shape_is two [3; 4]; size_is two 12;
  eq zero (ten2 [[1403; 1406]; [1433; 1436]; [1463; 1466]; [1493; 1496]]); shape_is zero [4; 2]; size_is zero 8;
  eq one (ten2 [[1064; 1068]; [1464; 1468]; [2264; 2268]]); shape_is one [3; 2]; size_is one 6].
Example tmap__fold_axis_fails : test_tmap__fold_axis = Ok false.
Proof. vm_compute. reflexivity. Qed.

(** src/tensor/test/map.rs:374-407 *)
Definition test_tmap__fold_row_i32 :=
  let t := let* t := ten3 [[[1; 2]; [11; 12]]] in
    drop_state (fold_row dev 2 t None [1000; 2000] (fun s => s) (fun u s v =>
      assert! (Nat.eqb (length v) 2) in Ok (u, [v0 s + v0 v; v1 s + v1 v])) tt) in
  let t' := let* t := ten3 [[[1; 2]; [10; 20]; [100; 200]]; [[3; 4]; [30; 40]; [300; 400]];
                            [[5; 6]; [50; 60]; [500; 600]]] in
    drop_state (fold_row dev 3 t (Some (-2)) [1000; 2000; 3000] (fun s => s) (fun u s v =>
      assert! (Nat.eqb (length v) 2) in
      Ok (u, [v0 s + v0 v; v1 s + v1 v; v2 s + v0 v + v1 v])) tt) in checks [
  eq t (ten1 [1012; 2014]); shape_is t [2]; size_is t 2;
  eq t' (ten2 [[1111; 2222; 3333]; [1333; 2444; 3777]; [1555; 2666; 4221]]); shape_is t' [3; 3]; size_is t' 9].
Example tmap__fold_row_i32_passes : test_tmap__fold_row_i32 = Ok true.
Proof. vm_compute. reflexivity. Qed.

(** src/tensor/test/map.rs:409-421: [reduce] returns a scalar, shape []. *)
Definition test_tmap__reduce_shape :=
  let a := red (ten1 [1; 2; 3; 4]) in
  let b := red (ten2 [[1; 2]; [3; 4]]) in checks [
  eq a (ten1 [10]); shape_is a [1]; size_is a 1; eq b (ten1 [3; 7]); shape_is b [2]; size_is b 2].
Example tmap__reduce_shape_fails : test_tmap__reduce_shape = Ok false.
Proof. vm_compute. reflexivity. Qed.

(** src/tensor/test/map.rs:423-434: [reduce] combines all elements. *)
Definition test_tmap__reduce_fnmut := checks [
  eq (let* t := ten2 [[1; 2; 3]; [4; 5; 6]] in
      drop_state (reduce dev t (fun count s v => Ok (count + 1, s + v + count * 100)) 1)) (ten1 [306; 715])].
Example tmap__reduce_fnmut_fails : test_tmap__reduce_fnmut = Ok false.
Proof. vm_compute. reflexivity. Qed.

(** src/tensor/test/map.rs:437-446: [reduce] combines all elements. *)
Definition test_tmap__reduce_with_clone := checks [eq (red (ten2 [[1; 2]; [3; 4]])) (ten1 [3; 7])].
Example tmap__reduce_with_clone_fails : test_tmap__reduce_with_clone = Ok false.
Proof. vm_compute. reflexivity. Qed.

(** src/tensor/test/map.rs:448-457 *)
Definition test_tmap__tensor_map_i32 :=
  let t1 := ten2 [[1; 2; 3; 4]] in
  let t2 := mp t1 (Z.mul 2) in checks [alike t1 t2; eq t2 (ten2 [[2; 4; 6; 8]])].
Example tmap__tensor_map_i32_passes : test_tmap__tensor_map_i32 = Ok true.
Proof. vm_compute. reflexivity. Qed.

(** src/tensor/test/map.rs:459-468: the left side has shape [1, 4]. *)
Definition test_tmap__tensor_map_i32_to_f32 :=
  let t1 := ten2 [[1; 2; 3; 4]] in
  let t2 := mp t1 (Z.mul 2) in checks [alike t1 t2; eq t2 (ten1 [2; 4; 6; 8])].
Example tmap__tensor_map_i32_to_f32_fails : test_tmap__tensor_map_i32_to_f32 = Ok false.
Proof. vm_compute. reflexivity. Qed.

(** src/tensor/test/map.rs:470-479: [fold] returns a scalar, shape []. *)
Definition test_tmap__tensor_fold_i32 :=
  let t2 := fol (ten2 [[1; 2; 3; 4]]) 0 in checks [
  dims_are t2 [1]; offset_is t2 0; size_is t2 1; eq t2 (ten2 [[10]])].
Example tmap__tensor_fold_i32_fails : test_tmap__tensor_fold_i32 = Ok false.
Proof. vm_compute. reflexivity. Qed.

(** src/tensor/test/map.rs:481-498: [reduce] returns a scalar, shape []. *)
Definition test_tmap__tensor_reduce :=
  let a := red (ten1 [1; 2; 3; 4]) in
  let b := red (ten2 [[1; 2]; [3; 4]]) in checks [
  eq a (ten1 [10]); dims_are a [1]; offset_is a 0; size_is a 1;
  eq b (ten1 [3; 7]); dims_are b [2]; offset_is b 0; size_is b 2].
Example tmap__tensor_reduce_fails : test_tmap__tensor_reduce = Ok false.
Proof. vm_compute. reflexivity. Qed.

(** ** src/tensor/map.rs *)

(** src/tensor/map.rs:637-655 *)
Definition test_map__init :=
  let v := init_ [3; 2] counting 10 in
  let w := idx [3; 2] (fun i => 100 * i1 i + i0 i)%nat in checks [
  eq v (ten2 [[10; 11]; [12; 13]; [14; 15]]); shape_is v [3; 2];
  eqn w (nat2 [[0; 1]; [100; 101]; [200; 201]]); shape_is w [3; 2]].
Example map__init_passes : test_map__init = Ok true.
Proof. vm_compute. reflexivity. Qed.

(** src/tensor/map.rs:657-665 *)
Definition test_map__map :=
  let d := mp ma (Z.add 100) in checks [eq d (ten2 [[101; 120]; [103; 140]; [105; 160]]); shape_is d [3; 2]].
Example map__map_passes : test_map__map = Ok true.
Proof. vm_compute. reflexivity. Qed.

(** src/tensor/map.rs:667-677 *)
Definition test_map__map2 :=
  let d := let* a := ma in let* b := mb in drop_state (map2 dev a b (pure2 Z.add) tt) in checks [
  eq d (ten2 [[101; 2020]; [303; 4040]; [505; 6060]]); shape_is d [3; 2]].
Example map__map2_passes : test_map__map2 = Ok true.
Proof. vm_compute. reflexivity. Qed.

(** src/tensor/map.rs:679-690 *)
Definition test_map__map3 :=
  let d := let* a := ma in let* b := mb in let* c := mc in
    drop_state (map3 dev a b c (pure3 (fun x y z => x + y + z)) tt) in checks [
  eq d (ten2 [[10101; 202020]; [30303; 404040]; [50505; 606060]]); shape_is d [3; 2]].
Example map__map3_passes : test_map__map3 = Ok true.
Proof. vm_compute. reflexivity. Qed.

(** src/tensor/map.rs:692-707 *)
Definition test_map__reduce :=
  let a := ten2 [[1; 200]; [3; 400]; [5; 600]] in checks [
  eq (red a) (sc 1209); eq (reda a None) (sc 1209); eq (reda a (Some (-1))) (ten1 [201; 403; 605]);
  eq (reda a (Some 0)) (ten1 [9; 1200])].
Example map__reduce_passes : test_map__reduce = Ok true.
Proof. vm_compute. reflexivity. Qed.

(** src/tensor/map.rs:709-723 *)
Definition test_map__fold :=
  let a := ten2 [[1; 200]; [3; 400]; [5; 600]] in checks [
  eq (fol a 10000) (sc 11209); eq (fola a None 10000) (sc 11209);
  eq (fola a (Some (-1)) 10000) (ten1 [10201; 10403; 10605]); eq (fola a (Some 0) 10000) (ten1 [10009; 11200])].
Example map__fold_passes : test_map__fold = Ok true.
Proof. vm_compute. reflexivity. Qed.

(** ** src/tensor/index.rs *)

(** src/tensor/index.rs:123-138 *)
Definition test_index__index_rank_2 :=
  let t := ten2 [[1; 2]; [3; 4]; [5; 6]] in
  let at2 i j v := let* t := t in val_is (index2 dev t (n_ i) (n_ j)) v in checks [
  dims_are t [3; 2]; at_is t 0 1; at_is t 1 2; at_is t 2 3;
  at2 0 0 1; at2 0 1 2; at2 1 0 3; at2 1 1 4; at2 2 0 5; at2 2 1 6].
Example index__index_rank_2_passes : test_index__index_rank_2 = Ok true.
Proof. vm_compute. reflexivity. Qed.

(** src/tensor/index.rs:140-149 *)
Definition test_index__index_rank_1 :=
  let t := ten1 [1; 2; 3; 4] in checks [
  dims_are t [4]; at_is t 0 1; at_is t 1 2; at_is t 2 3; at_is t 3 4].
Example index__index_rank_1_passes : test_index__index_rank_1 = Ok true.
Proof. vm_compute. reflexivity. Qed.

Definition sl (t : outcome (tensor Z)) (i : Z) := let* t := t in slice_usize dev t (n_ i).
Definition sl2 (t : outcome (tensor Z)) (i j : Z) := let* t := t in slice_pair dev t (n_ i) (n_ j).
(** src/tensor/index.rs:151-160: [slice] is [todo!()]. *)
Definition test_index__index_rank_1_slice :=
  let t := ten1 [1; 2; 3; 4] in checks [
  dims_are t [4]; at_is (sl t 0) 0 1; at_is (sl t 1) 0 2; at_is (sl t 2) 0 3; at_is (sl t 3) 0 4].
Example index__index_rank_1_slice_panics : test_index__index_rank_1_slice = Panic.
Proof. vm_compute. reflexivity. Qed.

(** ** src/tensor/slice.rs *)

(** src/tensor/slice.rs:49-65: [slice] is [todo!()]. *)
Definition test_slice__slice_usize :=
  let t := ten2 [[1; 2]; [3; 4]; [5; 6]] in checks [
  dims_are t [3; 2]; dims_are (sl t 0) [2]; slice_is (sl t 0) [1; 2]; dims_are (sl t 1) [2];
  slice_is (sl t 1) [3; 4]; dims_are (sl t 2) [2]; slice_is (sl t 2) [5; 6]].
Example slice__slice_usize_panics : test_slice__slice_usize = Panic.
Proof. vm_compute. reflexivity. Qed.

(** src/tensor/slice.rs:67-90: [slice] is [todo!()]. *)
Definition test_slice__slice_usize_rank1 :=
  let t := ten2 [[1; 2; 3; 4]] in checks [
  dims_are (sl t 0) []; slice_is (sl t 0) [1]; at_is (sl t 0) 0 1;
  dims_are (sl t 1) []; slice_is (sl t 1) [2]; at_is (sl t 1) 0 2;
  dims_are (sl t 2) []; slice_is (sl t 2) [3]; at_is (sl t 2) 0 3;
  dims_are (sl t 3) []; slice_is (sl t 3) [4]; at_is (sl t 3) 0 4].
Example slice__slice_usize_rank1_panics : test_slice__slice_usize_rank1 = Panic.
Proof. vm_compute. reflexivity. Qed.

(** src/tensor/slice.rs:92-107: with the outer brackets the tensor has shape [1, 2, 3, 2]. *)
Definition test_slice__slice_usize_usize :=
  let t := ten4 [[[[1; 2]; [3; 4]; [5; 6]]; [[10; 20]; [30; 40]; [50; 60]]]] in checks [
  dims_are t [2; 3; 2]; size_is (sl2 t 0 1) 2; slice_is (sl2 t 0 1) [3; 4];
  size_is (sl2 t 1 2) 2; slice_is (sl2 t 1 2) [50; 60]].
Example slice__slice_usize_usize_fails : test_slice__slice_usize_usize = Ok false.
Proof. vm_compute. reflexivity. Qed.

Definition bin (a b : outcome (tensor Z)) (g : Z -> Z -> Z) :=
  let* a := a in let* b := b in binop_tt dev a b (fun x y => Ok (g x y)).
(** src/tensor/slice.rs:109-119: with the outer brackets the tensor has shape [1, 4]. *)
Definition test_slice__slice_with_broadcast :=
  let t := ten2 [[1; 2; 3; 4]] in checks [
  dims_are t [4]; dims_are (sl t 1) []; slice_is (sl t 1) [2];
  eq (bin (sl t 1) (ten3 [[[1]; [2]]]) Z.add) (ten3 [[[3]; [4]]])].
Example slice__slice_with_broadcast_fails : test_slice__slice_with_broadcast = Ok false.
Proof. vm_compute. reflexivity. Qed.

(** The operator forms with references clone their operands' handles and are the same
    function. *)
Definition un (t : outcome (tensor Z)) (g : Z -> Z) := let* t := t in unop dev t (fun x => Ok (g x)).
Definition bts (a : outcome (tensor Z)) (y : Z) (g : Z -> Z -> Z) :=
  let* a := a in binop_ts dev a y (fun x y => Ok (g x y)).
Definition bst (x : Z) (a : outcome (tensor Z)) (g : Z -> Z -> Z) :=
  let* a := a in binop_st dev x a (fun x y => Ok (g x y)).
Definition sub (t : outcome (tensor Z)) (o n : Z) := let* t := t in subslice dev t (n_ o) (n_ n).
(** ** src/math/num.rs *)

(** src/math/num.rs:262-278 *)
Definition test_num__abs := checks [
  eq (un (ten1 [-1]) Z.abs) (ten1 [1]); eq (un (ten1 [1; -2; 3]) Z.abs) (ten1 [1; 2; 3]);
  eq (un (ten2 [[1; -2]; [-3; 4]]) Z.abs) (ten2 [[1; 2]; [3; 4]]);
  ne (un (ten2 [[-1; 2]; [3; -4]]) Z.abs) (ten1 [1; 2; 3; 4]);
  eq (un (sub (ten2 [[1; 2]; [-3; 4]]) 1 1) Z.abs) (ten2 [[3; 4]])].
Example num__abs_passes : test_num__abs = Ok true.
Proof. vm_compute. reflexivity. Qed.

(** src/math/num.rs:280-290: the same assertion for seven types. *)
Definition test_num__signed_types := checks [eq (un (ten1 [-1]) Z.abs) (ten1 [1])].
Example num__signed_types_passes : test_num__signed_types = Ok true.
Proof. vm_compute. reflexivity. Qed.

(** src/math/num.rs:292-308 *)
Definition test_num__neg := checks [
  eq (un (ten1 [1]) Z.opp) (ten1 [-1]); eq (un (ten1 [1; 2; 3]) Z.opp) (ten1 [-1; -2; -3]);
  eq (un (ten2 [[1; 2]; [3; 4]]) Z.opp) (ten2 [[-1; -2]; [-3; -4]]);
  ne (un (ten2 [[1; 2]; [3; 4]]) Z.opp) (ten1 [-1; -2; -3; -4]);
  eq (un (sub (ten2 [[1; 2]; [3; 4]]) 1 1) Z.opp) (ten2 [[-3; -4]])].
Example num__neg_passes : test_num__neg = Ok true.
Proof. vm_compute. reflexivity. Qed.

(** src/math/num.rs:310-326: the assertions of the previous test for integers. *)
Definition test_num__neg_i32 := test_num__neg.
Example num__neg_i32_passes : test_num__neg_i32 = Ok true.
Proof. vm_compute. reflexivity. Qed.

(** src/math/num.rs:328-340 *)
Definition test_num__binop_patterns := checks [
  eq (bin (ten1 [2; 20]) (ten1 [3; 30]) Z.add) (ten1 [5; 50]);
  eq (bts (ten1 [2; 20]) 3 Z.add) (ten1 [5; 23]); eq (bst 3 (ten1 [2; 20]) Z.add) (ten1 [5; 23])].
Example num__binop_patterns_passes : test_num__binop_patterns = Ok true.
Proof. vm_compute. reflexivity. Qed.

(** src/math/num.rs:342-354 *)
Definition test_num__binop_patterns_order := checks [
  eq (bin (ten1 [3; 30]) (ten1 [2; 20]) Z.sub) (ten1 [1; 10]);
  eq (bts (ten1 [3; 30]) 2 Z.sub) (ten1 [1; 28]); eq (bst 2 (ten1 [3; 30]) Z.sub) (ten1 [-1; -28])].
Example num__binop_patterns_order_passes : test_num__binop_patterns_order = Ok true.
Proof. vm_compute. reflexivity. Qed.

(** src/math/num.rs:356-373: with the two [Add] instances of lines 391-405. *)
Definition test_num__binop_asymmetric :=
  let ab x y := x * 100 + y in
  let ba x y := x * 1000 + y in checks [
  eq (bin (ten1 [2]) (ten1 [3]) ab) (ten1 [203]); eq (bts (ten1 [2]) 3 ab) (ten1 [203]);
  eq (bin (ten1 [2]) (ten1 [3]) ba) (ten1 [2003]); eq (bts (ten1 [2]) 3 ba) (ten1 [2003])].
Example num__binop_asymmetric_passes : test_num__binop_asymmetric = Ok true.
Proof. vm_compute. reflexivity. Qed.

(** src/math/num.rs:407-425 *)
Definition test_num__add_f32_broadcast := checks [
  eq (bin (sc 2) (ten1 [1; 2; 3]) Z.add) (ten1 [3; 4; 5]);
  eq (bin (ten1 [1; 2; 3]) (sc 2) Z.add) (ten1 [3; 4; 5]);
  eq (bin (ten1 [3; 2; 1]) (ten1 [1; 2; 3]) Z.add) (ten1 [4; 4; 4]);
  eq (bin (ten2 [[1; 2]; [3; 4]]) (ten1 [10; 20]) Z.add) (ten2 [[11; 22]; [13; 24]])].
Example num__add_f32_broadcast_passes : test_num__add_f32_broadcast = Ok true.
Proof. vm_compute. reflexivity. Qed.

(** src/math/num.rs:427-445 *)
Definition test_num__add_i32 := checks [
  eq (bin (ten1 [2]) (ten1 [3]) Z.add) (ten1 [5]); eq (bin (ten1 [2; 20]) (ten1 [3; 30]) Z.add) (ten1 [5; 50]);
  eq (bin (ten2 [[2; 20]; [200; 2000]]) (ten2 [[3; 30]; [300; 3000]]) Z.add) (ten2 [[5; 50]; [500; 5000]]);
  eq (bts (ten1 [2]) 3 Z.add) (ten1 [5]); eq (bst 3 (ten1 [2]) Z.add) (ten1 [5])].
Example num__add_i32_passes : test_num__add_i32 = Ok true.
Proof. vm_compute. reflexivity. Qed.

Definition pattern (g : Z -> Z -> Z) (a b r : Z) := checks [
  eq (bin (ten1 [a]) (ten1 [b]) g) (ten1 [r]); eq (bst a (ten1 [b]) g) (ten1 [r]);
  eq (bts (ten1 [a]) b g) (ten1 [r])].
(** src/math/num.rs:447-458 *)
Definition test_num__bitand_patterns := pattern Z.land 0x3 0x6 0x2.
Example num__bitand_patterns_passes : test_num__bitand_patterns = Ok true.
Proof. vm_compute. reflexivity. Qed.

(** src/math/num.rs:460-471 *)
Definition test_num__bitor_patterns := pattern Z.lor 0x3 0x6 0x7.
Example num__bitor_patterns_passes : test_num__bitor_patterns = Ok true.
Proof. vm_compute. reflexivity. Qed.

(** src/math/num.rs:473-484 *)
Definition test_num__bitxor_patterns := pattern Z.lxor 0x3 0x6 0x5.
Example num__bitxor_patterns_passes : test_num__bitxor_patterns = Ok true.
Proof. vm_compute. reflexivity. Qed.

(** src/math/num.rs:486-497 *)
Definition test_num__shl_patterns := pattern Z.shiftl 0x3 0x2 0xc.
Example num__shl_patterns_passes : test_num__shl_patterns = Ok true.
Proof. vm_compute. reflexivity. Qed.

(** src/math/num.rs:499-510 *)
Definition test_num__shr_patterns := pattern Z.shiftr 0xc 0x2 0x3.
Example num__shr_patterns_passes : test_num__shr_patterns = Ok true.
Proof. vm_compute. reflexivity. Qed.

(** src/math/num.rs:512-516 *)
Definition test_num__not_patterns := checks [eq (un (ten1 [0x3]) Z.lnot) (ten1 [-4])].
Example num__not_patterns_passes : test_num__not_patterns = Ok true.
Proof. vm_compute. reflexivity. Qed.

(** src/math/num.rs:518-531: the comparison operators are the standard ones derived from
    [partial_cmp]. *)
Definition test_num__partial_ord :=
  let cmp a b (p : option comparison -> bool) := let* a := ten1 [a] in let* b := ten1 [b] in
    let* o := tensor_partial_cmp (fun x y => Some (Z.compare x y)) a b in Ok (p o) in
  let lt r := match r with Some Lt => true | _ => false end in
  let gt r := match r with Some Gt => true | _ => false end in
  let le r := match r with Some Lt | Some Eq => true | _ => false end in
  let ge r := match r with Some Gt | Some Eq => true | _ => false end in checks [
  cmp 0 1 lt; cmp 1 0 (fun r => negb (lt r)); cmp 0 1 le; cmp 0 0 le; cmp 1 0 (fun r => negb (le r));
  cmp 1 0 gt; cmp 0 1 (fun r => negb (gt r)); cmp 1 0 ge; cmp 1 1 ge; cmp 0 1 (fun r => negb (ge r))].
Example num__partial_ord_passes : test_num__partial_ord = Ok true.
Proof. vm_compute. reflexivity. Qed.

(** ** src/math/float.rs *)

(** src/math/float.rs:89-92 *)
Definition test_float__mul_add := checks [
  eq (let* a := ten1 [2] in let* b := ten1 [3] in let* c := ten1 [10] in
      float_map3 dev a b c (fun x y z => x * y + z)) (ten1 [16])].
Example float__mul_add_passes : test_float__mul_add = Ok true.
Proof. vm_compute. reflexivity. Qed.

(** ** src/math/reduce.rs *)

(** src/math/reduce.rs:219-240: the assertions for the type [C] are the same. *)
Definition test_reduce__reduce := checks [
  eq (red (ten1 [1; 2; 3; 4])) (sc 10); eq (red (ten2 [[1; 2]; [3; 4]])) (sc 10)].
Example reduce__reduce_passes : test_reduce__reduce = Ok true.
Proof. vm_compute. reflexivity. Qed.

(** src/math/reduce.rs:242-256 *)
Definition test_reduce__reduce_axis :=
  let t := ten2 [[1; 2]; [3; 4]] in checks [
  eq (reda t None) (sc 10); eq (reda t (Some 1)) (ten1 [3; 7]); eq (reda t (Some 0)) (ten1 [4; 6])].
Example reduce__reduce_axis_passes : test_reduce__reduce_axis = Ok true.
Proof. vm_compute. reflexivity. Qed.

Definition sum (t : outcome (tensor Z)) := let* t := t in reduce_sum dev (fun x y => Ok (x + y)) t.
Definition suma (t : outcome (tensor Z)) (a : option Z) :=
  let* t := t in reduce_sum_axis dev (fun x y => Ok (x + y)) t a.
(** src/math/reduce.rs:258-263 *)
Definition test_reduce__reduce_sum_n := checks [
  eq (sum (ten1 [1])) (sc 1); eq (sum (ten1 [1; 10])) (sc 11); eq (sum (ten1 [10; 1])) (sc 11)].
Example reduce__reduce_sum_n_passes : test_reduce__reduce_sum_n = Ok true.
Proof. vm_compute. reflexivity. Qed.

(** src/math/reduce.rs:265-270 *)
Definition test_reduce__reduce_sum_1xn := checks [
  eq (sum (ten2 [[1]])) (sc 1); eq (sum (ten2 [[1; 10]])) (sc 11); eq (sum (ten2 [[10; 1]])) (sc 11)].
Example reduce__reduce_sum_1xn_passes : test_reduce__reduce_sum_1xn = Ok true.
Proof. vm_compute. reflexivity. Qed.

(** src/math/reduce.rs:272-277 *)
Definition test_reduce__reduce_sum_2xn :=
  let s t := suma t (Some (-1)) in checks [
  eq (s (ten2 [[1]; [2]])) (ten1 [1; 2]); eq (s (ten2 [[1; 10]; [2; 20]])) (ten1 [11; 22]);
  eq (s (ten2 [[20; 2]; [10; 1]])) (ten1 [22; 11])].
Example reduce__reduce_sum_2xn_passes : test_reduce__reduce_sum_2xn = Ok true.
Proof. vm_compute. reflexivity. Qed.

(** src/math/reduce.rs:279-284 *)
Definition test_reduce__reduce_sum_2x1xn :=
  let s t := suma t (Some (-1)) in checks [
  eq (s (ten3 [[[1]]; [[2]]])) (ten2 [[1]; [2]]); eq (s (ten3 [[[1; 10]]; [[2; 20]]])) (ten2 [[11]; [22]]);
  eq (s (ten3 [[[20; 2]]; [[10; 1]]])) (ten2 [[22]; [11]])].
Example reduce__reduce_sum_2x1xn_passes : test_reduce__reduce_sum_2x1xn = Ok true.
Proof. vm_compute. reflexivity. Qed.

(** src/math/reduce.rs:286-291 *)
Definition test_reduce__reduce_sum_1xn_axis_none := checks [
  eq (suma (ten2 [[1]]) None) (sc 1); eq (suma (ten2 [[1; 10]]) None) (sc 11);
  eq (suma (ten2 [[10; 1]]) None) (sc 11)].
Example reduce__reduce_sum_1xn_axis_none_passes : test_reduce__reduce_sum_1xn_axis_none = Ok true.
Proof. vm_compute. reflexivity. Qed.

(** src/math/reduce.rs:293-297 *)
Definition test_reduce__reduce_sum_2xn_axis_none := checks [
  eq (suma (ten2 [[1]; [2]]) None) (sc 3); eq (suma (ten2 [[1; 10]; [100; 1000]]) None) (sc 1111)].
Example reduce__reduce_sum_2xn_axis_none_passes : test_reduce__reduce_sum_2xn_axis_none = Ok true.
Proof. vm_compute. reflexivity. Qed.

(** src/math/reduce.rs:299-303 *)
Definition test_reduce__reduce_sum_2x1x1xn_axis_none := checks [
  eq (suma (ten4 [[[[1]]]; [[[2]]]]) None) (sc 3);
  eq (suma (ten4 [[[[1; 10]]]; [[[100; 1000]]]]) None) (sc 1111)].
Example reduce__reduce_sum_2x1x1xn_axis_none_passes : test_reduce__reduce_sum_2x1x1xn_axis_none = Ok true.
Proof. vm_compute. reflexivity. Qed.

(** src/math/reduce.rs:305-309 *)
Definition test_reduce__reduce_sum_2xn_axis_0 := checks [
  eq (suma (ten2 [[1]; [2]]) (Some 0)) (ten1 [3]);
  eq (suma (ten2 [[1; 10]; [100; 1000]]) (Some 0)) (ten1 [101; 1010])].
Example reduce__reduce_sum_2xn_axis_0_passes : test_reduce__reduce_sum_2xn_axis_0 = Ok true.
Proof. vm_compute. reflexivity. Qed.

Definition rf (g : fops b32 -> cfg -> tensor b32 -> outcome (tensor b32)) (t : outcome (tensor b32)) :=
  let* t := t in g o32 dev t.
Definition rfa (g : fops b32 -> cfg -> tensor b32 -> option Z -> outcome (tensor b32)) (t : outcome (tensor b32))
    (a : option Z) := let* t := t in g o32 dev t a.
Definition f1 (l : list Z) := ten1 (fs l).
Definition f2 (l : list (list Z)) := ten2 (fz l).
Definition f3 (l : list (list (list Z))) := ten3 (map fz l).
(** src/math/reduce.rs:311-314 *)
Definition test_reduce__reduce_max := checks [eqf (rf reduce_max (f1 [1; 3; 2])) (sc (f 3))].
Example reduce__reduce_max_passes : test_reduce__reduce_max = Ok true.
Proof. vm_compute. reflexivity. Qed.

(** src/math/reduce.rs:316-319 *)
Definition test_reduce__reduce_min := checks [eqf (rf reduce_min (f2 [[1; 3; 2]])) (sc (f 1))].
Example reduce__reduce_min_passes : test_reduce__reduce_min = Ok true.
Proof. vm_compute. reflexivity. Qed.

(** src/math/reduce.rs:321-325 *)
Definition test_reduce__reduce_hypot := checks [
  eqf (rf reduce_hypot (f1 [3; 4])) (sc (f 5)); eqf (rf reduce_hypot (f1 [2; 2; 2; 2])) (sc (f 4))].
Example reduce__reduce_hypot_passes : test_reduce__reduce_hypot = Ok true.
Proof. vm_compute. reflexivity. Qed.

(** src/math/reduce.rs:327-333 *)
Definition test_reduce__reduce_mean := checks [
  eqf (rf reduce_mean (f1 [1])) (sc (f 1)); eqf (rf reduce_mean (f1 [1; 3])) (sc (f 2));
  eqf (rf reduce_mean (f2 [[1; 3]; [4; 0]])) (sc (f 2))].
Example reduce__reduce_mean_passes : test_reduce__reduce_mean = Ok true.
Proof. vm_compute. reflexivity. Qed.

(** src/math/reduce.rs:335-351 *)
Definition test_reduce__reduce_mean_axis :=
  let m := rfa reduce_mean_axis in checks [
  eqf (m (f1 [1]) None) (sc (f 1)); eqf (m (f1 [1; 3]) None) (sc (f 2));
  eqf (m (f2 [[1; 3]; [4; 6]]) None) (sc (x (14680064) (-22))); eqf (m (f3 [[[1; 3]]; [[4; 6]]]) None) (sc (x (14680064) (-22)));
  eqf (m (f1 [1]) (Some (-1))) (sc (f 1)); eqf (m (f1 [1; 3]) (Some (-1))) (sc (f 2));
  eqf (m (f2 [[1; 3]; [4; 6]]) (Some (-1))) (f1 [2; 5]);
  eqf (m (f3 [[[1; 3]]; [[4; 6]]]) (Some (-1))) (f2 [[2]; [5]]);
  eqf (m (f1 [1]) (Some 0)) (f1 [1]); eqf (m (f1 [1; 3]) (Some 0)) (f1 [2]);
  eqf (m (f2 [[1; 3]; [4; 6]]) (Some 0)) (ten1 [(x (10485760) (-22)); (x (9437184) (-21))]);
  eqf (m (f3 [[[1; 3]]; [[4; 6]]]) (Some 0)) (ten2 [[(x (10485760) (-22)); (x (9437184) (-21))]])].
Example reduce__reduce_mean_axis_fails : test_reduce__reduce_mean_axis = Ok false.
Proof. vm_compute. reflexivity. Qed.

(** src/math/reduce.rs:353-370 *)
Definition test_reduce__reduce_std :=
  let s := rf reduce_std in
  let m := f2 [[1; 3]; [2; 2]] in checks [
  eqf (s (f1 [1])) (sc (f 0)); eqf (s (f1 [1; 1])) (sc (f 0)); eqf (s (f1 [2; 2; 2; 2])) (sc (f 0));
  eqf (s (f1 [1; 3; 2; 2])) (sc (x (11863283) (-24))); eqf (s m) (sc (x (11863283) (-24)));
  eqf (rfa reduce_std_axis m None) (sc (x (11863283) (-24))); eqf (rfa reduce_std_axis m (Some (-1))) (f1 [1; 0]);
  eqf (rfa reduce_std_axis m (Some 0)) (ten1 [(x (8388608) (-24)); (x (8388608) (-24))]);
  eqf (s (f1 [1; 3])) (sc (f 1)); eqf (s (f1 [1; 3; 3])) (sc (x (15817711) (-24))); eqf (s (f1 [1; 3; 1; 3])) (sc (f 1));
  eqf (s (f1 [1; 3; 4; 0])) (sc (x (13263554) (-23))); eqf (s (f1 [1; 3; 4; 0; 2])) (sc (x (11863283) (-23)))].
Example reduce__reduce_std_passes : test_reduce__reduce_std = Ok true.
Proof. vm_compute. reflexivity. Qed.

(** src/math/reduce.rs:372-383 *)
Definition test_reduce__reduce_var :=
  let s l := rf reduce_variance (f2 [l]) in checks [
  eqf (s [1]) (sc (f 0)); eqf (s [1; 1]) (sc (f 0)); eqf (s [2; 2; 2; 2]) (sc (f 0));
  eqf (s [1; 3]) (sc (f 1)); eqf (s [1; 3; 1; 3]) (sc (f 1)); eqf (s [1; 3; 3]) (sc (x (14913081) (-24)));
  eqf (s [1; 3; 4; 0]) (sc (x (10485760) (-22))); eqf (s [1; 3; 4; 0; 2]) (sc (f 2))].
Example reduce__reduce_var_passes : test_reduce__reduce_var = Ok true.
Proof. vm_compute. reflexivity. Qed.

Definition n1 (l : list Z) := ten1 (ns l).
Definition tile_ (t : outcome (tensor Z)) (m : list Z) : outcome (tensor Z) :=
  let* t := t in let* m := n1 m in tile dev t m.
(** ** src/array/tile.rs *)

(** src/array/tile.rs:102-131 *)
Definition test_tile__test_tile := checks [
  eq (tile_ (ten1 [1]) [3]) (ten1 [1; 1; 1]);
  eq (tile_ (ten1 [1]) [2; 3]) (ten2 [[1; 1; 1]; [1; 1; 1]]);
  eq (tile_ (ten1 [1; 2]) [3]) (ten1 [1; 2; 1; 2; 1; 2]);
  eq (tile_ (ten2 [[1]; [2]]) [3]) (ten2 [[1; 1; 1]; [2; 2; 2]]);
  eq (tile_ (ten1 [1; 2]) [2; 3]) (ten2 [[1; 2; 1; 2; 1; 2]; [1; 2; 1; 2; 1; 2]])].
Example tile__test_tile_passes : test_tile__test_tile = Ok true.
Proof. vm_compute. reflexivity. Qed.

(** src/array/tile.rs:133-142 *)
Definition test_tile__tile_i32 := checks [
  eq (tile_ (ten1 [1; 2]) [2; 3]) (ten2 [[1; 2; 1; 2; 1; 2]; [1; 2; 1; 2; 1; 2]])].
Example tile__tile_i32_passes : test_tile__tile_i32 = Ok true.
Proof. vm_compute. reflexivity. Qed.

(** A tuple, an array and a vector of tensors give the same list (src/tensor/from.rs). *)
Definition cat (l : list (outcome (tensor Z))) := ts l (concatenate dev).
Definition cata (a : Z) (l : list (outcome (tensor Z))) := ts l (concatenate_axis dev (Some a)).
(** ** src/array/stack.rs *)

(** src/array/stack.rs:344-378 *)
Definition test_stack__test_concat := checks [
  eq (cat [ten1 [1]; ten1 [10]]) (ten1 [1; 10]);
  eq (cat [ten1 [1; 2]; ten1 [10; 20; 30]]) (ten1 [1; 2; 10; 20; 30]);
  eq (cat [ten2 [[1]; [2]]; ten2 [[10]; [20]; [30]]]) (ten2 [[1]; [2]; [10]; [20]; [30]]);
  eq (cat [ten2 [[1; 2]]; ten2 [[10; 20]; [30; 40]]]) (ten2 [[1; 2]; [10; 20]; [30; 40]]);
  eq (cat [ten3 [[[1; 2]]]; ten3 [[[10; 20]]; [[30; 40]]]]) (ten3 [[[1; 2]]; [[10; 20]]; [[30; 40]]])].
Example stack__test_concat_passes : test_stack__test_concat = Ok true.
Proof. vm_compute. reflexivity. Qed.

(** src/array/stack.rs:380-416 *)
Definition test_stack__test_concat_axis := checks [
  eq (cata 0 [ten1 [1]; ten1 [10]]) (ten1 [1; 10]);
  eq (cata (-1) [ten1 [1; 2]; ten1 [10; 20; 30]]) (ten1 [1; 2; 10; 20; 30]);
  eq (cata 0 [ten2 [[1; 2]]; ten2 [[10; 20]]]) (ten2 [[1; 2]; [10; 20]]);
  eq (cata 1 [ten2 [[1; 2]]; ten2 [[10; 20]]]) (ten2 [[1; 2; 10; 20]]);
  eq (cata 1 [ten2 [[1; 2]; [3; 4]]; ten2 [[10]; [20]]]) (ten2 [[1; 2; 10]; [3; 4; 20]])].
Example stack__test_concat_axis_passes : test_stack__test_concat_axis = Ok true.
Proof. vm_compute. reflexivity. Qed.

(** src/array/stack.rs:418-435 *)
Definition test_stack__test_stack := checks [
  eq (ts [ten1 [1]; ten1 [10]] (stack dev)) (ten2 [[1]; [10]]);
  eq (ts [ten1 [1; 2; 3; 4]; ten1 [10; 20; 30; 40]] (stack dev)) (ten2 [[1; 2; 3; 4]; [10; 20; 30; 40]])].
Example stack__test_stack_passes : test_stack__test_stack = Ok true.
Proof. vm_compute. reflexivity. Qed.

(** src/array/stack.rs:437-455 *)
Definition test_stack__test_stack_axis := checks [
  eq (ts [ten1 [1]; ten1 [10]] (stack_axis dev (Some (-1)))) (ten2 [[1; 10]]);
  eq (ts [ten1 [1; 2; 3; 4]; ten1 [10; 20; 30; 40]] (stack_axis dev (Some (-1))))
     (ten2 [[1; 10]; [2; 20]; [3; 30]; [4; 40]])].
Example stack__test_stack_axis_passes : test_stack__test_stack_axis = Ok true.
Proof. vm_compute. reflexivity. Qed.

(** src/array/stack.rs:457-485 *)
Definition test_stack__test_dstack := checks [
  eq (ts [ten1 [1]; ten1 [10]] (dstack dev)) (ten3 [[[1; 10]]]);
  eq (ts [ten1 [1; 2]; ten1 [10; 20]] (dstack dev)) (ten3 [[[1; 10]; [2; 20]]]);
  eq (ts [ten2 [[1]; [2]; [3]]; ten2 [[10]; [20]; [30]]] (dstack dev))
     (ten3 [[[1; 10]]; [[2; 20]]; [[3; 30]]])].
Example stack__test_dstack_passes : test_stack__test_dstack = Ok true.
Proof. vm_compute. reflexivity. Qed.

(** src/array/stack.rs:487-507 *)
Definition test_stack__test_hstack := checks [
  eq (ts [ten1 [1; 2]; ten1 [10; 20; 30]] (hstack dev)) (ten1 [1; 2; 10; 20; 30]);
  eq (ts [ten2 [[1; 2]]; ten2 [[10; 20]]] (hstack dev)) (ten2 [[1; 2; 10; 20]]);
  eq (ts [ten2 [[1]; [2]]; ten2 [[10]; [20]]] (hstack dev)) (ten2 [[1; 10]; [2; 20]])].
Example stack__test_hstack_passes : test_stack__test_hstack = Ok true.
Proof. vm_compute. reflexivity. Qed.

(** src/array/stack.rs:508-521 *)
Definition test_stack__test_vstack := checks [
  eq (ts [ten1 [1]; ten1 [10]] (vstack dev)) (ten2 [[1]; [10]]);
  eq (ts [ten2 [[1; 2]]; ten2 [[10; 20]]] (vstack dev)) (ten3 [[[1; 2]]; [[10; 20]]])].
Example stack__test_vstack_passes : test_stack__test_vstack = Ok true.
Proof. vm_compute. reflexivity. Qed.

Definition quad := ten2 [[1; 2]; [3; 4]].
Definition line := ten1 [1; 2; 3; 4].
Definition cuts13 := SplitCuts (ns [1; 3]).
(** ** src/array/split.rs *)

(** src/array/split.rs:179-190 *)
Definition test_split__test_split := checks [
  all_eq (on quad (fun t => split dev t (SplitEqual 2))) [ten2 [[1; 2]]; ten2 [[3; 4]]];
  all_eq (on line (fun t => split dev t cuts13)) [ten1 [1]; ten1 [2; 3]; ten1 [4]]].
Example split__test_split_passes : test_split__test_split = Ok true.
Proof. vm_compute. reflexivity. Qed.

(** src/array/split.rs:192-198 *)
Definition test_split__test_split_axis := checks [
  all_eq (on quad (fun t => split_axis dev (Some 1) t (SplitEqual 2))) [ten2 [[1]; [3]]; ten2 [[2]; [4]]]].
Example split__test_split_axis_passes : test_split__test_split_axis = Ok true.
Proof. vm_compute. reflexivity. Qed.

(** src/array/split.rs:200-211 *)
Definition test_split__test_vsplit := checks [
  all_eq (on quad (fun t => vsplit dev t (SplitEqual 2))) [ten2 [[1; 2]]; ten2 [[3; 4]]];
  all_eq (on line (fun t => vsplit dev t cuts13)) [ten1 [1]; ten1 [2; 3]; ten1 [4]]].
Example split__test_vsplit_passes : test_split__test_vsplit = Ok true.
Proof. vm_compute. reflexivity. Qed.

(** src/array/split.rs:213-219 *)
Definition test_split__test_hsplit := checks [
  all_eq (on quad (fun t => hsplit dev t (SplitEqual 2))) [ten2 [[1]; [3]]; ten2 [[2]; [4]]]].
Example split__test_hsplit_passes : test_split__test_hsplit = Ok true.
Proof. vm_compute. reflexivity. Qed.

(** src/array/split.rs:221-230 *)
Definition test_split__test_dsplit := checks [
  all_eq (on (ten3 [[[1; 2]; [3; 4]]; [[5; 6]; [7; 8]]]) (fun t => dsplit dev t (SplitEqual 2)))
    [ten3 [[[1]; [3]]; [[5]; [7]]]; ten3 [[[2]; [4]]; [[6]; [8]]]]].
Example split__test_dsplit_passes : test_split__test_dsplit = Ok true.
Proof. vm_compute. reflexivity. Qed.

(** ** src/array/transpose.rs *)

(** src/array/transpose.rs:51-62 *)
Definition test_transpose__test_transpose := checks [
  eq (on (ten1 [1; 2]) (transpose dev)) (ten2 [[1]; [2]]);
  eq (on (ten2 [[1; 2]; [3; 4]; [5; 6]]) (transpose dev)) (ten2 [[1; 3; 5]; [2; 4; 6]])].
Example transpose__test_transpose_passes : test_transpose__test_transpose = Ok true.
Proof. vm_compute. reflexivity. Qed.

(** The operands below are written [ten!([[..]])] and have shape [1, rows, columns]. *)
Definition m3 (l : list (list Z)) := f3 [l].
Definition mm (a b : outcome (tensor b32)) := let* a := a in let* b := b in matmul o32 dev a b.
Definition mmt (t : trans) (a b : outcome (tensor b32)) :=
  let* a := a in let* b := b in matmul_t o32 dev a b t.
(** ** src/linalg/matmul.rs *)

(** src/linalg/matmul.rs:174-180 *)
Definition test_matmul__test_matmul_1 := checks [eqf (mm (m3 [[2]]) (m3 [[3]])) (m3 [[6]])].
Example matmul__test_matmul_1_passes : test_matmul__test_matmul_1 = Ok true.
Proof. vm_compute. reflexivity. Qed.

(** src/linalg/matmul.rs:182-191 *)
Definition test_matmul__test_matmul_vectors := checks [
  eqf (mm (m3 [[1; 2]]) (m3 [[1]; [3]])) (m3 [[7]]);
  eqf (mm (m3 [[1]; [3]]) (m3 [[1; 2]])) (m3 [[1; 2]; [3; 6]])].
Example matmul__test_matmul_vectors_passes : test_matmul__test_matmul_vectors = Ok true.
Proof. vm_compute. reflexivity. Qed.

(** src/linalg/matmul.rs:193-209 *)
Definition test_matmul__test_matmul_square :=
  let id := m3 [[1; 0]; [0; 1]] in
  let a := m3 [[1; 0]; [0; 2]] in
  let top := m3 [[1; 1]; [0; 1]] in
  let bot := m3 [[1; 0]; [1; 1]] in checks [
  eqf (mm id id) id; eqf (mm id a) a; eqf (mm a id) a; eqf (mm a a) (m3 [[1; 0]; [0; 4]]);
  eqf (mm top top) (m3 [[1; 2]; [0; 1]]); eqf (mm bot bot) (m3 [[1; 0]; [2; 1]])].
Example matmul__test_matmul_square_passes : test_matmul__test_matmul_square = Ok true.
Proof. vm_compute. reflexivity. Qed.

(** src/linalg/matmul.rs:211-220 *)
Definition test_matmul__test_matmul_2x3 :=
  let a := m3 [[1; 0; 2]; [0; 1; 10]] in
  let b := m3 [[1; 0]; [0; 1]; [3; 4]] in checks [
  eqf (mm a b) (m3 [[7; 8]; [30; 41]]); eqf (mm b a) (m3 [[1; 0; 2]; [0; 1; 10]; [3; 4; 46]])].
Example matmul__test_matmul_2x3_passes : test_matmul__test_matmul_2x3 = Ok true.
Proof. vm_compute. reflexivity. Qed.

(** src/linalg/matmul.rs:222-228 *)
Definition test_matmul__matmul_transpose_none := checks [
  eqf (mmt TNone (m3 [[1; 2]]) (m3 [[10]; [20]])) (m3 [[50]])].
Example matmul__matmul_transpose_none_passes : test_matmul__matmul_transpose_none = Ok true.
Proof. vm_compute. reflexivity. Qed.

(** src/linalg/matmul.rs:230-236 *)
Definition test_matmul__matmul_transpose_a := checks [
  eqf (mmt TransposeA (m3 [[1]; [2]]) (m3 [[10]; [20]])) (m3 [[50]])].
Example matmul__matmul_transpose_a_passes : test_matmul__matmul_transpose_a = Ok true.
Proof. vm_compute. reflexivity. Qed.

(** src/linalg/matmul.rs:238-244 *)
Definition test_matmul__matmul_transpose_b := checks [
  eqf (mmt TransposeB (m3 [[1; 2]]) (m3 [[10; 20]])) (m3 [[50]])].
Example matmul__matmul_transpose_b_passes : test_matmul__matmul_transpose_b = Ok true.
Proof. vm_compute. reflexivity. Qed.

(** src/linalg/matmul.rs:246-252 *)
Definition test_matmul__matmul_transpose_ab := checks [
  eqf (mmt TransposeAB (m3 [[1]; [2]]) (m3 [[10; 20]])) (m3 [[50]])].
Example matmul__matmul_transpose_ab_passes : test_matmul__matmul_transpose_ab = Ok true.
Proof. vm_compute. reflexivity. Qed.

(** src/linalg/matmul.rs:254-267 *)
Definition test_matmul__matmul_2_2_transpose :=
  let a := m3 [[1; 2]; [3; 4]] in
  let b := m3 [[10; 20]; [30; 40]] in checks [
  eqf (mmt TNone a b) (m3 [[70; 100]; [150; 220]]); eqf (mmt TransposeA a b) (m3 [[100; 140]; [140; 200]]);
  eqf (mmt TransposeB a b) (m3 [[50; 110]; [110; 250]])].
Example matmul__matmul_2_2_transpose_passes : test_matmul__matmul_2_2_transpose = Ok true.
Proof. vm_compute. reflexivity. Qed.

(** src/linalg/matmul.rs:269-288 *)
Definition test_matmul__matmul_1_2_2_3_transpose :=
  let b := m3 [[10; 20; 30]; [40; 50; 60]] in checks [
  eqf (mmt TNone (m3 [[1; 2]]) b) (m3 [[90; 120; 150]]);
  eqf (mmt TransposeA (m3 [[1]; [2]]) b) (m3 [[90; 120; 150]]);
  eqf (mmt TransposeB (m3 [[1; 2]]) (m3 [[10; 40]; [20; 50]; [30; 60]])) (m3 [[90; 120; 150]])].
Example matmul__matmul_1_2_2_3_transpose_fails : test_matmul__matmul_1_2_2_3_transpose = Ok false.
Proof. vm_compute. reflexivity. Qed.

Definition mv (a b : outcome (tensor b32)) := let* a := a in let* b := b in matvec o32 dev a b.
Definition mvt (t : trans) (a b : outcome (tensor b32)) :=
  let* a := a in let* b := b in matvec_t o32 dev a b t.
(** ** src/linalg/matvec.rs *)

(** src/linalg/matvec.rs:139-145 *)
Definition test_matvec__test_matvec_1_1 := checks [eqf (mv (f2 [[2]]) (f1 [3])) (f1 [6])].
Example matvec__test_matvec_1_1_passes : test_matvec__test_matvec_1_1 = Ok true.
Proof. vm_compute. reflexivity. Qed.

(** src/linalg/matvec.rs:147-153 *)
Definition test_matvec__test_matvec_1_2 := checks [eqf (mv (f2 [[1; 2]]) (f1 [3; 4])) (f1 [11])].
Example matvec__test_matvec_1_2_passes : test_matvec__test_matvec_1_2 = Ok true.
Proof. vm_compute. reflexivity. Qed.

(** src/linalg/matvec.rs:155-164 *)
Definition test_matvec__test_matvec_2_n := checks [
  eqf (mv (f2 [[1]; [2]]) (f1 [2])) (f1 [2; 4]); eqf (mv (f2 [[1; 2]; [2; 3]]) (f1 [2; 3])) (f1 [8; 13])].
Example matvec__test_matvec_2_n_passes : test_matvec__test_matvec_2_n = Ok true.
Proof. vm_compute. reflexivity. Qed.

(** src/linalg/matvec.rs:166-171 *)
Definition test_matvec__test_matvec_3_n := checks [eqf (mv (f2 [[1]; [2]; [3]]) (f1 [2])) (f1 [2; 4; 6])].
Example matvec__test_matvec_3_n_passes : test_matvec__test_matvec_3_n = Ok true.
Proof. vm_compute. reflexivity. Qed.

(** src/linalg/matvec.rs:173-182 *)
Definition test_matvec__test_matvec_t := checks [
  eqf (mv (f2 [[1; 4]; [2; 5]; [3; 6]]) (f1 [10; 20])) (f1 [90; 120; 150]);
  eqf (mvt TransposeA (f2 [[1; 2; 3]; [4; 5; 6]]) (f1 [10; 20])) (f1 [90; 120; 150])].
Example matvec__test_matvec_t_passes : test_matvec__test_matvec_t = Ok true.
Proof. vm_compute. reflexivity. Qed.

(** src/linalg/matvec.rs:184-193: [#[should_panic]].  A false assertion would panic too. *)
Definition test_matvec__matvec_2x1_by_2 :=
  should_panic (let* b := eqf (mv (f2 [[10]; [20]]) (f1 [1; 3])) (f2 [[10]; [20]]) in assert! b in Ok b).
Example matvec__matvec_2x1_by_2_passes : test_matvec__matvec_2x1_by_2 = Ok true.
Proof. vm_compute. reflexivity. Qed.

Definition hist (d : outcome (tensor b32)) (n : option nat) (v b : outcome (tensor b32)) : outcome bool :=
  let* d := d in let* '(x, y) := histogram o32 dev d n in checks [eqf (Ok x) v; eqf (Ok y) b].
(** ** src/stats/histogram.rs *)

(** src/stats/histogram.rs:78-98: the data are written [ten!([..])] and have shape [1, n];
    [histogram] requires rank 1. *)
Definition test_histogram__histogram_default := checks [
  hist (f2 [[0; 1; 2; 1; 3; 10]]) None (f2 [[1; 2; 1; 1; 0; 0; 0; 0; 0; 1]])
    (f2 [[0; 1; 2; 3; 4; 5; 6; 7; 8; 9; 10]]);
  hist (ten2 [[f 0; f 10; f 1; (x (15938355) (-23)); (x (12582912) (-23))]]) None (f2 [[1; 3; 0; 0; 0; 0; 0; 0; 0; 1]])
    (f2 [[0; 1; 2; 3; 4; 5; 6; 7; 8; 9; 10]]);
  hist (ten2 [[f 0; f 1; (x (13421773) (-27)); (x (12750684) (-26)); (x (10066330) (-26))]]) None (f2 [[1; 3; 0; 0; 0; 0; 0; 0; 0; 1]])
    (ten2 [[f 0; (x (13421773) (-27)); (x (13421773) (-26)); (x (10066330) (-25)); (x (13421773) (-25)); (x (8388608) (-24)); (x (10066330) (-24)); (x (11744051) (-24)); (x (13421773) (-24)); (x (15099495) (-24)); f 1]])].
Example histogram__histogram_default_panics : test_histogram__histogram_default = Panic.
Proof. vm_compute. reflexivity. Qed.

(** src/stats/histogram.rs:100-107: the data have shape [1, 5]. *)
Definition test_histogram__histogram_bins := checks [
  hist (f2 [[0; 1; 2; 1; 4]]) (Some 4%nat) (f2 [[1; 2; 1; 1]]) (f2 [[0; 1; 2; 3; 4]])].
Example histogram__histogram_bins_panics : test_histogram__histogram_bins = Panic.
Proof. vm_compute. reflexivity. Qed.

(** ** src/stats/histogram2d.rs *)

(** src/stats/histogram2d.rs:92-101: the data have shape [1, 4, 2]; [histogram2d] requires rank
    2. *)
Definition test_histogram2d__histogram2d_bins_2 := checks [
  (let* d := ten3 [[[f 0; f 0]; [f 1; f 0]; [f 1; f 1]; [(x (8556380) (-24)); (x (16441672) (-25))]]] in
   let* '(v, bx, by_) := histogram2d o32 dev d (Some 2%nat) in checks [
     eqf (Ok v) (f3 [[[1; 2]; [0; 1]]]); eqf (Ok bx) (ten2 [[f 0; (x (8388608) (-24)); f 1]]);
     eqf (Ok by_) (ten2 [[f 0; (x (8388608) (-24)); f 1]])])].
Example histogram2d__histogram2d_bins_2_panics : test_histogram2d__histogram2d_bins_2 = Panic.
Proof. vm_compute. reflexivity. Qed.

Definition six := ten2 [[1; 2; 3; 4; 5; 6]].
Definition fr (len step : Z) := let* t := six in frame dev t (n_ len) (n_ step).
(** ** src/signal/frame.rs *)

(** src/signal/frame.rs:32-39: [frame] ends in [todo!()]. *)
Definition test_frame__test_frame_2_2 := checks [
  eq (fr 2 2) (ten3 [[[1; 2]; [3; 4]; [5; 6]]]); eq (fr 3 3) (ten3 [[[1; 2; 3]; [4; 5; 6]]])].
Example frame__test_frame_2_2_panics : test_frame__test_frame_2_2 = Panic.
Proof. vm_compute. reflexivity. Qed.

(** src/signal/frame.rs:41-45: [frame] ends in [todo!()]. *)
Definition test_frame__test_frame_3_2 := checks [eq (fr 3 2) (ten3 [[[1; 2; 3]; [3; 4; 5]]])].
Example frame__test_frame_3_2_panics : test_frame__test_frame_3_2 = Panic.
Proof. vm_compute. reflexivity. Qed.

(** successive results of [next] and [next_uniform] *)
Fixpoint nexts (s : Z) (l : list Z) : list (outcome bool) :=
  match l with [] => [] | v :: l => let '(s, r) := rand32_next s in Ok (v =? r) :: nexts s l end.
Definition r32 : rops b32 := b32_rops (fun x => x) (fun x => x) (fun x _ => x) (fun x => x).
Fixpoint uniforms (s : Z) (l : list b32) : list (outcome bool) :=
  match l with [] => [] | v :: l => let '(s, r) := rand32_uniform r32 s in Ok (Beqb v r) :: uniforms s l end.
Definition seed0 := [2719371262; 3366669408; 1060708876; 3350485177; 0266455276;
  3435573958; 1339492206; 1385110079; 0222350999; 0936719904].
(** ** src/random/random.rs *)

(** src/random/random.rs:177-206 *)
Definition test_random__rand32_u32_seed_0 := checks (nexts 0 seed0 ++ nexts 0 seed0).
Example random__rand32_u32_seed_0_passes : test_random__rand32_u32_seed_0 = Ok true.
Proof. vm_compute. reflexivity. Qed.

(** src/random/random.rs:208-233: 97 and 32 are the bytes of "a" and " ". *)
Definition test_random__rand32_u32_seeds := checks (
  nexts 0 [2719371262] ++ nexts 1 [0067131503] ++ nexts 2 [3750639004] ++ nexts 10 [0613872473] ++
  nexts (rand32_from []) [2719371262] ++ nexts (rand32_from [97]) [2183894628] ++
  nexts (rand32_from [32]) [3200514678] ++ nexts (rand32_from [97; 97]) [3194888993]).
Example random__rand32_u32_seeds_passes : test_random__rand32_u32_seeds = Ok true.
Proof. vm_compute. reflexivity. Qed.

(** src/random/random.rs:235-250 *)
Definition test_random__rand32_uniform_seed_0 := checks (uniforms 0 [
  (x (10622544) (-24)); (x (13151052) (-24)); (x (16573576) (-26)); (x (13087833) (-24)); (x (16653455) (-28));
  (x (13420211) (-24)); (x (10464783) (-25)); (x (10821172) (-25)); (x (13896937) (-28)); (x (14636248) (-26))]).
Example random__rand32_uniform_seed_0_passes : test_random__rand32_uniform_seed_0 = Ok true.
Proof. vm_compute. reflexivity. Qed.

Definition lin (a b : outcome (tensor b32)) (n : Z) :=
  let* a := a in let* b := b in linspace o32 dev a b (n_ n).
Definition ls (a b n : Z) := lin (sc (f a)) (sc (f b)) n.
(** ** src/init/vector.rs *)

(** src/init/vector.rs:243-249 *)
Definition test_vector__linspace_0_4_5 := checks [
  eqf (ls 0 1 2) (f1 [0; 1]); eqf (ls 0 4 5) (f1 [0; 1; 2; 3; 4]); eqf (ls 0 4 0) (f1 [])].
Example vector__linspace_0_4_5_passes : test_vector__linspace_0_4_5 = Ok true.
Proof. vm_compute. reflexivity. Qed.

(** src/init/vector.rs:251-258 *)
Definition test_vector__linspace_vector_n := checks [
  eqf (lin (f1 [0]) (f1 [1]) 2) (f2 [[0]; [1]]);
  eqf (lin (f1 [0; 0; 0]) (f1 [1; 2; 3]) 2) (f2 [[0; 0; 0]; [1; 2; 3]])].
Example vector__linspace_vector_n_passes : test_vector__linspace_vector_n = Ok true.
Proof. vm_compute. reflexivity. Qed.

(** src/init/vector.rs:260-271 *)
Definition test_vector__linspace_tensor := checks [
  eqf (lin (f2 [[0]]) (f2 [[1]]) 2) (f3 [[[0]]; [[1]]]);
  eqf (lin (f2 [[0; 0; 0]; [0; 0; 0]]) (f2 [[1; 2; 3]; [10; 20; 30]]) 3)
    (ten3 [fz [[0; 0; 0]; [0; 0; 0]]; [[(x (8388608) (-24)); f 1; (x (12582912) (-23))]; fs [5; 10; 15]]; fz [[1; 2; 3]; [10; 20; 30]]])].
Example vector__linspace_tensor_passes : test_vector__linspace_tensor = Ok true.
Proof. vm_compute. reflexivity. Qed.

Definition hot (l : list Z) := one_hot o32 dev (ns l) 3.
(** src/init/vector.rs:293-299 *)
Definition test_vector__basic_one_hot := checks [
  eqf (hot [0]) (f1 [1; 0; 0]); eqf (hot [1]) (f1 [0; 1; 0]); eqf (hot [2]) (f1 [0; 0; 1]);
  eqf (hot [0; 2]) (f1 [1; 0; 1])].
Example vector__basic_one_hot_passes : test_vector__basic_one_hot = Ok true.
Proof. vm_compute. reflexivity. Qed.

Definition eye_ (n : Z) := eye dev 0 1 (n_ n).
(** ** src/init/matrix.rs *)

(** src/init/matrix.rs:308-325: the last assertion is for the type [ZO]. *)
Definition test_matrix__test_eye := checks [
  eq (eye_ 0) (sc 0); eq (eye_ 1) (ten2 [[1]]); eq (eye_ 2) (ten2 [[1; 0]; [0; 1]]);
  eq (eye_ 4) (ten2 [[1; 0; 0; 0]; [0; 1; 0; 0]; [0; 0; 1; 0]; [0; 0; 0; 1]]);
  eq (eye_ 2) (ten2 [[1; 0]; [0; 1]])].
Example matrix__test_eye_passes : test_matrix__test_eye = Ok true.
Proof. vm_compute. reflexivity. Qed.

(** src/init/matrix.rs:327-344: [identity] is [eye]; the same assertions. *)
Definition test_matrix__test_identity := test_matrix__test_eye.
Example matrix__test_identity_passes : test_matrix__test_identity = Ok true.
Proof. vm_compute. reflexivity. Qed.

(** src/init/matrix.rs:345-366: the second assertion is for integers, the third for the type
    [Z]. *)
Definition test_matrix__test_diagflat :=
  let d l := on (ten1 l) (diagflat dev 0) in checks [
  eq (d [1; 2; 3]) (ten2 [[1; 0; 0]; [0; 2; 0]; [0; 0; 3]]);
  eq (d [1; 2; 3]) (ten2 [[1; 0; 0]; [0; 2; 0]; [0; 0; 3]]);
  eq (d [1; 2]) (ten2 [[1; 0]; [0; 2]])].
Example matrix__test_diagflat_passes : test_matrix__test_diagflat = Ok true.
Proof. vm_compute. reflexivity. Qed.

(** src/init/matrix.rs:367-385 *)
Definition test_matrix__test_tri :=
  let tri_ n := tri dev 0 1 (n_ n) in checks [
  eq (tri_ 1) (ten2 [[1]]); eq (tri_ 2) (ten2 [[1; 0]; [1; 1]]);
  eq (tri_ 4) (ten2 [[1; 0; 0; 0]; [1; 1; 0; 0]; [1; 1; 1; 0]; [1; 1; 1; 1]]);
  eq (tri_ 2) (ten2 [[1; 0]; [1; 1]])].
Example matrix__test_tri_passes : test_matrix__test_tri = Ok true.
Proof. vm_compute. reflexivity. Qed.

Definition mat4 := [[1; 2; 3; 4]; [11; 12; 13; 14]; [21; 22; 23; 24]; [31; 32; 33; 34]].
(** src/init/matrix.rs:387-408: argument and result are written [ten!([..])] and have rank 3. *)
Definition test_matrix__test_tril := checks [
  eq (on (ten3 [mat4]) (tril dev 0))
     (ten3 [[[1; 0; 0; 0]; [11; 12; 0; 0]; [21; 22; 23; 0]; [31; 32; 33; 34]]]);
  eq (on (ten3 [[[1; 2]; [11; 12]]]) (tril dev 0)) (ten3 [[[1; 0]; [11; 12]]])].
Example matrix__test_tril_passes : test_matrix__test_tril = Ok true.
Proof. vm_compute. reflexivity. Qed.

(** src/init/matrix.rs:410-431 *)
Definition test_matrix__test_triu := checks [
  eq (on (ten2 mat4) (triu dev 0)) (ten2 [[1; 2; 3; 4]; [0; 12; 13; 14]; [0; 0; 23; 24]; [0; 0; 0; 34]]);
  eq (on (ten2 [[1; 2]; [11; 12]]) (triu dev 0)) (ten2 [[1; 2]; [0; 12]])].
Example matrix__test_triu_passes : test_matrix__test_triu = Ok true.
Proof. vm_compute. reflexivity. Qed.

Definition all_eqf (x : outcome (list (tensor b32))) (l : list (outcome (tensor b32))) : outcome bool :=
  let* a := x in
  if Nat.eqb (length a) (length l)
  then checks (map (fun '(u, v) => eqf (Ok u) v) (combine a l)) else Ok false.
Definition mesh (l : list (outcome (tensor b32))) := ts l (meshgrid dev).
Definition mesh_ij (l : list (outcome (tensor b32))) := ts l (meshgrid_ij dev).
(** src/init/matrix.rs:432-439 *)
Definition test_matrix__meshgrid_1d := checks [
  all_eqf (mesh [ls 0 3 4]) [f1 [0; 1; 2; 3]]; all_eq (ts [ten1 [1; 2; 3]] (meshgrid dev)) [ten1 [1; 2; 3]]].
Example matrix__meshgrid_1d_passes : test_matrix__meshgrid_1d = Ok true.
Proof. vm_compute. reflexivity. Qed.

(** src/init/matrix.rs:441-458 *)
Definition test_matrix__meshgrid_xy_2d := checks [
  all_eqf (mesh [ls 0 1 2; ls 0 2 3]) [f2 [[0; 1]; [0; 1]; [0; 1]]; f2 [[0; 0]; [1; 1]; [2; 2]]];
  all_eq (ts [ten1 [0; 1]; ten1 [0; 1; 2]] (meshgrid dev))
    [ten2 [[0; 1]; [0; 1]; [0; 1]]; ten2 [[0; 0]; [1; 1]; [2; 2]]]].
Example matrix__meshgrid_xy_2d_passes : test_matrix__meshgrid_xy_2d = Ok true.
Proof. vm_compute. reflexivity. Qed.

Definition grid_x := f3 [[[0; 1]; [0; 1]; [0; 1]]; [[0; 1]; [0; 1]; [0; 1]];
  [[0; 1]; [0; 1]; [0; 1]]; [[0; 1]; [0; 1]; [0; 1]]].
Definition grid_y := f3 [[[0; 0]; [1; 1]; [2; 2]]; [[0; 0]; [1; 1]; [2; 2]];
  [[0; 0]; [1; 1]; [2; 2]]; [[0; 0]; [1; 1]; [2; 2]]].
Definition grid_z := f3 [[[0; 0]; [0; 0]; [0; 0]]; [[1; 1]; [1; 1]; [1; 1]];
  [[2; 2]; [2; 2]; [2; 2]]; [[3; 3]; [3; 3]; [3; 3]]].
(** src/init/matrix.rs:460-487 *)
Definition test_matrix__meshgrid_xyz_3d := checks [
  all_eqf (mesh [ls 0 1 2; ls 0 2 3; ls 0 3 4]) [grid_x; grid_y; grid_z]].
Example matrix__meshgrid_xyz_3d_passes : test_matrix__meshgrid_xyz_3d = Ok true.
Proof. vm_compute. reflexivity. Qed.

(** src/init/matrix.rs:489-496 *)
Definition test_matrix__meshgrid_ij_1d := checks [
  all_eqf (mesh_ij [ls 0 3 4]) [f1 [0; 1; 2; 3]];
  all_eq (ts [ten1 [3; 4; 5]] (meshgrid_ij dev)) [ten1 [3; 4; 5]]].
Example matrix__meshgrid_ij_1d_passes : test_matrix__meshgrid_ij_1d = Ok true.
Proof. vm_compute. reflexivity. Qed.

(** src/init/matrix.rs:498-507: the results are bound in the order [j, i]. *)
Definition test_matrix__meshgrid_ij_2d := checks [
  all_eqf (mesh_ij [ls 1 3 3; ls 10 20 2]) [f2 [[1; 1]; [2; 2]; [3; 3]]; f2 [[10; 20]; [10; 20]; [10; 20]]]].
Example matrix__meshgrid_ij_2d_passes : test_matrix__meshgrid_ij_2d = Ok true.
Proof. vm_compute. reflexivity. Qed.

(** src/init/matrix.rs:509-570: the results are bound in the order [k, j, i]. *)
Definition test_matrix__meshgrid_ij_3d := checks [
  all_eqf (mesh_ij [ls 0 3 4; ls 0 2 3; ls 0 1 2]) [grid_z; grid_y; grid_x]].
Example matrix__meshgrid_ij_3d_passes : test_matrix__meshgrid_ij_3d = Ok true.
Proof. vm_compute. reflexivity. Qed.

(** ** src/init/mod.rs *)

(** src/init/mod.rs:68-75: the last assertion is for the type [Z]. *)
Definition test_init__test_zeros := checks [
  eq (fill_ [1] 0) (ten1 [0]); eq (fill_ [3] 0) (ten1 [0; 0; 0]);
  eq (fill_ [2; 3] 0) (ten2 [[0; 0; 0]; [0; 0; 0]]); eq (fill_ [2] 0) (ten1 [0; 0])].
Example init__test_zeros_passes : test_init__test_zeros = Ok true.
Proof. vm_compute. reflexivity. Qed.

(** src/init/mod.rs:77-95: the same assertion for fourteen types. *)
Definition test_init__test_zeros_types := checks [eq (fill_ [1] 0) (ten1 [0])].
Example init__test_zeros_types_passes : test_init__test_zeros_types = Ok true.
Proof. vm_compute. reflexivity. Qed.

(** src/init/mod.rs:97-104 *)
Definition test_init__test_ones := checks [
  eq (fill_ [1] 1) (ten1 [1]); eq (fill_ [3] 1) (ten1 [1; 1; 1]);
  eq (fill_ [2; 3] 1) (ten2 [[1; 1; 1]; [1; 1; 1]]); eq (fill_ [2] 1) (ten1 [1; 1])].
Example init__test_ones_passes : test_init__test_ones = Ok true.
Proof. vm_compute. reflexivity. Qed.

(** src/init/mod.rs:106-119 *)
Definition test_init__fill_basic := checks [
  eq (fill_ [] 0) (sc 0); eq (fill_ [1] 1) (ten1 [1]); eq (fill_ [3] 2) (ten1 [2; 2; 2]);
  eq (fill_ [2; 3] 3) (ten2 [[3; 3; 3]; [3; 3; 3]]);
  eq (fill_ [3; 2; 1] 4) (ten3 [[[4]; [4]]; [[4]; [4]]; [[4]; [4]]]); eq (fill_ [3] 2) (ten1 [2; 2; 2])].
Example init__fill_basic_passes : test_init__fill_basic = Ok true.
Proof. vm_compute. reflexivity. Qed.

