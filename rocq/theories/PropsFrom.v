(** * Properties C66 and C67: deeper conversions and argument lists *)
From Verif Require Import Base ShapeModel TensorModel ArrayModel FromModel ArgModel Spec TensorSpec TensorProofs
  FromFacts ArgFacts.

(** ** C66 *)

Theorem C66_vec5 {A} c (v : list (list (list (list (list A))))) h k l m n :
  rect5 h k l m n v -> 0 < h -> 0 < k -> 0 < l -> 0 < m -> supported [h; k; l; m; n] ->
  exists t xs, of_vec5 c v = Ok t /\ repr t [h; k; l; m; n] xs /\
    forall a b d e f, a < h -> b < k -> d < l -> e < m -> f < n ->
      elem [h; k; l; m; n] xs [a; b; d; e; f] = at5 v a b d e f.
Proof. exact (of_vec5_elem c v h k l m n). Qed.
Print Assumptions C66_vec5.

Theorem C66_vec5_rejects {A} c (v : list (list (list (list (list A))))) :
  v = [] \/ hd [] v = [] \/ hd [] (hd [] v) = [] \/ hd [] (hd [] (hd [] v)) = [] \/
  ~ rect5 (length v) (length (hd [] v)) (length (hd [] (hd [] v)))
      (length (hd [] (hd [] (hd [] v)))) (length (hd [] (hd [] (hd [] (hd [] v))))) v ->
  of_vec5 c v = Panic.
Proof. exact (of_vec5_panics c v). Qed.
Print Assumptions C66_vec5_rejects.

(** Vectors of vectors of arrays of length [n]. *)
Theorem C66_vec_rows {A} c (v : list (list (list A))) l m n :
  rect3 l m n v -> 0 < l -> supported [l; m; n] ->
  exists t xs, of_vec_rows c n v = Ok t /\ repr t [l; m; n] xs /\
    forall i j k, i < l -> j < m -> k < n -> elem [l; m; n] xs [i; j; k] = at3 v i j k.
Proof. exact (of_vec_rows_elem c v l m n). Qed.
Print Assumptions C66_vec_rows.

Theorem C66_vec_rows_rejects {A} c n (v : list (list (list A))) :
  v = [] \/ Exists (fun p => length p <> length (hd [] v)) v -> of_vec_rows c n v = Panic.
Proof. exact (of_vec_rows_panics c n v). Qed.
Print Assumptions C66_vec_rows_rejects.

(** Four-fold arrays, rectangular by typing; also empty ones. *)
Theorem C66_rows3 {A} c (v : list (list (list (list A)))) k l m n :
  rect4 k l m n v -> supported [k; l; m; n] ->
  exists t xs, of_rows3 c l m n v = Ok t /\ repr t [k; l; m; n] xs /\
    forall g h i j, g < k -> h < l -> i < m -> j < n ->
      elem [k; l; m; n] xs [g; h; i; j] = at4 v g h i j.
Proof. exact (of_rows3_repr c v k l m n). Qed.
Print Assumptions C66_rows3.

Example C66_example :
  of_vec5 dev [[[[[1; 2]; [3; 4]]]; [[[5; 6]; [7; 8]]]]] = Ok (fresh [1; 2; 1; 2; 2] [1; 2; 3; 4; 5; 6; 7; 8]) /\
  of_vec5 dev [[[[[1; 2]; [3; 4]]]; [[[5; 6]; [7]]]]] = Panic /\
  of_vec_rows dev 2 [[[1; 2]]; [[3; 4]]; [[5; 6]]] = Ok (fresh [3; 1; 2] [1; 2; 3; 4; 5; 6]) /\
  of_vec_rows dev 2 [[[1; 2]]; [[3; 4]; [5; 6]]] = Panic /\
  of_rows3 dev 1 2 2 [[[[1; 2]; [3; 4]]]; [[[5; 6]; [7; 8]]]] = Ok (fresh [2; 1; 2; 2] [1; 2; 3; 4; 5; 6; 7; 8]).
Proof. repeat split. Qed.

(** ** C67 *)

(** Vectors become rank 1 tensors, in order, after what is already in the list. *)
Theorem C67_vecs {A} c (vs : list (list A)) vec :
  Forall (fun v => supported [length v]) vs ->
  exists ts, into_list c (Vecs vs) vec = Ok (vec ++ ts) /\
    Forall2 (fun t v => repr t [length v] v) ts vs.
Proof. exact (into_list_vecs c vs vec). Qed.
Print Assumptions C67_vecs.

Theorem C67_tuple {A} c (xs : list (tensor A)) vec :
  into_list c (Tuple (map Ok xs)) vec = Ok (vec ++ xs).
Proof. exact (into_list_tuple c xs vec). Qed.
Print Assumptions C67_tuple.

(** A component that cannot be converted panics, whatever follows it. *)
Theorem C67_tuple_rejects {A} c (xs : list (tensor A)) ys vec :
  into_list c (Tuple (map Ok xs ++ Panic :: ys)) vec = Panic.
Proof. exact (into_list_tuple_panics c xs ys vec). Qed.
Print Assumptions C67_tuple_rejects.

Theorem C67_functions {A} c (x : tensor_list A) ts ax :
  into_list c x [] = Ok ts ->
  concatenate_args c x = concatenate c ts /\ concatenate_axis_args c ax x = concatenate_axis c ax ts /\
  stack_args c x = stack c ts /\ stack_axis_args c ax x = stack_axis c ax ts /\
  dstack_args c x = dstack c ts /\ hstack_args c x = hstack c ts /\ vstack_args c x = vstack c ts.
Proof. exact (args_functions c x ts ax). Qed.
Print Assumptions C67_functions.

(** The methods put the receiver in front of the arguments. *)
Theorem C67_methods {A} c (t : tensor A) (x : tensor_list A) ts ax :
  into_list c x [] = Ok ts ->
  m_concatenate c t x = concatenate c (t :: ts) /\
  m_concatenate_axis c t ax x = concatenate_axis c ax (t :: ts) /\
  m_stack c t x ax = stack_axis c ax (t :: ts) /\
  m_dstack c t x = dstack c (t :: ts) /\ m_vstack c t x = vstack c (t :: ts).
Proof. exact (args_methods c t x ts ax). Qed.
Print Assumptions C67_methods.

Theorem C67_panic {A} c (t : tensor A) (x : tensor_list A) ax :
  into_list c x [] = Panic ->
  concatenate_args c x = Panic /\ concatenate_axis_args c ax x = Panic /\ stack_args c x = Panic /\
  stack_axis_args c ax x = Panic /\ dstack_args c x = Panic /\ hstack_args c x = Panic /\
  vstack_args c x = Panic /\ m_concatenate c t x = Panic /\ m_concatenate_axis c t ax x = Panic /\
  m_stack c t x ax = Panic /\ m_dstack c t x = Panic /\ m_vstack c t x = Panic.
Proof. exact (args_panic c t x ax). Qed.
Print Assumptions C67_panic.

(** Along the first axis the elements are those of the inputs, one after another. *)
Theorem C67_first_axis {A} c ds (ts : list (tensor A)) parts :
  parts <> [] -> Forall2 (fun t p => repr t (fst p :: ds) (snd p)) ts parts -> length ds < 5 ->
  supported (list_sum (map fst parts) :: ds) -> can_alloc c (prod (list_sum (map fst parts) :: ds)) ->
  exists r, concatenate_args c (Tensors ts) = Ok r /\
    repr r (list_sum (map fst parts) :: ds) (concat (map snd parts)).
Proof. exact (concatenate_flat c ds ts parts). Qed.
Print Assumptions C67_first_axis.

(** A vector followed by plain vectors. *)
Theorem C67_vectors {A} c (t : tensor A) n xs (vs : list (list A)) :
  repr t [n] xs -> supported [length (xs ++ concat vs)] -> can_alloc c (length (xs ++ concat vs)) ->
  exists r, m_concatenate c t (Vecs vs) = Ok r /\ repr r [length (xs ++ concat vs)] (xs ++ concat vs).
Proof. exact (concatenate_vectors c t n xs vs). Qed.
Print Assumptions C67_vectors.

Example C67_example :
  m_concatenate dev (fresh [2] [1; 2]) (Vecs [[3]; [4; 5]]) = Ok (fresh [5] [1; 2; 3; 4; 5]) /\
  m_stack dev (fresh [2] [1; 2]) (Tuple [of_vec dev [3; 4]]) (Some 1%Z) = Ok (fresh [2; 2] [1; 3; 2; 4]) /\
  m_vstack dev (fresh [2] [1; 2]) (Tuple [of_vec dev [3; 4]; of_vec2 dev []]) = Panic.
Proof. repeat split. Qed.
