(** * C72: the operators lift the laws of the elements *)
From Verif Require Import Base Spec ShapeModel TensorModel AxisModel MapModel NumModel FloatModel MathModel
  AlgSpec AlgProofs.

(** ** C72 *)

(** Commutativity: if the element operation commutes so does the operator, whatever the
    two shapes are, and also when it panics.  With two different operations this also
    covers pairs such as [<] and [>]. *)
Theorem C72_comm {T U V} c (ta : tensor T) (tb : tensor U) da db xs ys
    (op : T -> U -> outcome V) (op' : U -> T -> outcome V) :
  repr ta da xs -> repr tb db ys -> (forall x y, op x y = op' y x) ->
  binop_tt c ta tb op = binop_tt c tb ta op'.
Proof. exact (@c72_comm T U V c ta tb da db xs ys op op'). Qed.
Print Assumptions C72_comm.

(** Associativity, for any three shapes: broadcasting succeeds on one side exactly if it
    does on the other.  With different operations it also covers [(a - b) - c = a - (b + c)]
    and the like. *)
Theorem C72_assoc {A B D E F G} c (ta : tensor A) (tb : tensor B) (td : tensor D) da db dd xs ys zs
    (f1 : A -> B -> E) (f2 : E -> D -> G) (g1 : B -> D -> F) (g2 : A -> F -> G) :
  repr ta da xs -> repr tb db ys -> repr td dd zs ->
  (forall x y z, f2 (f1 x y) z = g2 x (g1 y z)) ->
  (let* ab := binop_tt c ta tb (ok2 f1) in binop_tt c ab td (ok2 f2))
  = (let* bd := binop_tt c tb td (ok2 g1) in binop_tt c ta bd (ok2 g2)).
Proof. exact (@c72_assoc A B D E F G c ta tb td da db dd xs ys zs f1 f2 g1 g2). Qed.
Print Assumptions C72_assoc.

(** Distributivity, for any three shapes. *)
Theorem C72_distrib {A B D E F G H} c (ta : tensor A) (tb : tensor B) (td : tensor D) da db dd xs ys zs
    (add : B -> D -> E) (mul : A -> E -> F) (mulb : A -> B -> G) (muld : A -> D -> H) (add' : G -> H -> F) :
  repr ta da xs -> repr tb db ys -> repr td dd zs ->
  (forall x y z, mul x (add y z) = add' (mulb x y) (muld x z)) ->
  (let* bd := binop_tt c tb td (ok2 add) in binop_tt c ta bd (ok2 mul))
  = (let* ab := binop_tt c ta tb (ok2 mulb) in
     let* ad := binop_tt c ta td (ok2 muld) in binop_tt c ab ad (ok2 add')).
Proof. exact (@c72_distrib A B D E F G H c ta tb td da db dd xs ys zs add mul mulb muld add'). Qed.
Print Assumptions C72_distrib.

(** Neutral elements: an operand of neutral elements that is broadcast to the other
    changes nothing. *)
Theorem C72_unit {T U} c (ta : tensor T) (tb : tensor U) da db xs ys (f : T -> U -> T) :
  repr ta da xs -> repr tb db ys -> xs <> [] -> ys <> [] -> suffix db da ->
  (forall x y, In y ys -> f x y = x) ->
  binop_tt c ta tb (ok2 f) = Ok (fresh da xs).
Proof. exact (@c72_unit T U c ta tb da db xs ys f). Qed.
Print Assumptions C72_unit.

(** Inverses. *)
Theorem C72_inverse {T U V} c (t : tensor T) ds xs (f : T -> U -> V) (n : T -> U) e :
  repr t ds xs -> xs <> [] -> (forall x, f x (n x) = e) ->
  (let* u := unop c t (ok1 n) in binop_tt c t u (ok2 f)) = Ok (fresh ds (repeat e (prod ds))).
Proof. exact (@c72_inverse T U V c t ds xs f n e). Qed.
Print Assumptions C72_inverse.

(** A tensor combined with itself: idempotence, and [a * a = a.square()]. *)
Theorem C72_self {T V} c (t : tensor T) ds xs (f : T -> T -> V) :
  repr t ds xs -> xs <> [] -> binop_tt c t t (ok2 f) = unop c t (ok1 (fun x => f x x)).
Proof. exact (@c72_self T V c t ds xs f). Qed.
Print Assumptions C72_self.

(** Element functions compose. *)
Theorem C72_fusion {T U V} c (t : tensor T) ds xs (f : T -> U) (g : U -> V) :
  repr t ds xs -> can_alloc c (length xs) ->
  (let* r := unop c t (ok1 f) in unop c r (ok1 g)) = unop c t (ok1 (fun x => g (f x))).
Proof. exact (@c72_fusion T U V c t ds xs f g). Qed.
Print Assumptions C72_fusion.

(** Homomorphisms: [- (a + b) = (-a) + (-b)], [exp (a + b) = exp a * exp b],
    [(a + b) * s = a * s + b * s] for a number [s], and so on. *)
Theorem C72_homomorphism {A B D A' B' D'} c (ta : tensor A) (tb : tensor B) da db xs ys
    (f : A -> B -> D) (g : A' -> B' -> D') (ha : A -> A') (hb : B -> B') (h : D -> D') :
  repr ta da xs -> repr tb db ys -> can_alloc c (length xs) -> can_alloc c (length ys) ->
  (forall x y, h (f x y) = g (ha x) (hb y)) ->
  (let* r := binop_tt c ta tb (ok2 f) in unop c r (ok1 h))
  = (let* a := unop c ta (ok1 ha) in let* b := unop c tb (ok1 hb) in binop_tt c a b (ok2 g)).
Proof. exact (@c72_homomorphism A B D A' B' D' c ta tb da db xs ys f g ha hb h). Qed.
Print Assumptions C72_homomorphism.

(** Reductions with an associative and commutative operation: of a combination of two
    tensors of the same dimensions, ... *)
Theorem C72_reduce {T} c (ta tb : tensor T) ds xs ys (f : T -> T -> T) :
  (forall x y z, f (f x y) z = f x (f y z)) -> (forall x y, f x y = f y x) ->
  repr ta ds xs -> repr tb ds ys ->
  (let* r := binop_tt c ta tb (ok2 f) in reduce_sum c (ok2 f) r)
  = (let* p := reduce_sum c (ok2 f) ta in
     let* q := reduce_sum c (ok2 f) tb in binop_tt c p q (ok2 f)).
Proof. exact (@c72_reduce T c ta tb ds xs ys f). Qed.
Print Assumptions C72_reduce.

(** ... along an axis, ... *)
Theorem C72_reduce_axis {T} c (ta tb : tensor T) a d1 d d2 xs ys (f : T -> T -> T) :
  (forall x y z, f (f x y) z = f x (f y z)) -> (forall x y, f x y = f y x) ->
  repr ta (d1 ++ d :: d2) xs -> repr tb (d1 ++ d :: d2) ys ->
  names_axis a (length d1) (length (d1 ++ d :: d2)) ->
  (let* r := binop_tt c ta tb (ok2 f) in reduce_sum_axis c (ok2 f) r (Some a))
  = (let* p := reduce_sum_axis c (ok2 f) ta (Some a) in
     let* q := reduce_sum_axis c (ok2 f) tb (Some a) in binop_tt c p q (ok2 f)).
Proof. exact (@c72_reduce_axis T c ta tb a d1 d d2 xs ys f). Qed.
Print Assumptions C72_reduce_axis.

(** ... along two axes in either order, ... *)
Theorem C72_reduce_order {T} c (t : tensor T) a b a' b' d1 m d2 n d3 xs (f : T -> T -> T) :
  (forall x y z, f (f x y) z = f x (f y z)) -> (forall x y, f x y = f y x) ->
  repr t (d1 ++ m :: d2 ++ n :: d3) xs ->
  names_axis a (length d1) (length (d1 ++ m :: d2 ++ n :: d3)) ->
  names_axis b (length (d1 ++ m :: d2)) (length (d1 ++ m :: d2 ++ n :: d3)) ->
  names_axis a' (length d1) (length (d1 ++ m :: d2 ++ d3)) ->
  names_axis b' (length (d1 ++ d2)) (length (d1 ++ d2 ++ n :: d3)) ->
  (let* r := reduce_sum_axis c (ok2 f) t (Some a) in reduce_sum_axis c (ok2 f) r (Some b'))
  = (let* r := reduce_sum_axis c (ok2 f) t (Some b) in reduce_sum_axis c (ok2 f) r (Some a')).
Proof. exact (@c72_reduce_order T c t a b a' b' d1 m d2 n d3 xs f). Qed.
Print Assumptions C72_reduce_order.

(** ... and along an axis and then over the rest. *)
Theorem C72_reduce_total {T} c (t : tensor T) a d1 d d2 xs (f : T -> T -> T) :
  (forall x y z, f (f x y) z = f x (f y z)) -> (forall x y, f x y = f y x) ->
  repr t (d1 ++ d :: d2) xs -> names_axis a (length d1) (length (d1 ++ d :: d2)) ->
  (let* r := reduce_sum_axis c (ok2 f) t (Some a) in reduce_sum c (ok2 f) r)
  = reduce_sum c (ok2 f) t.
Proof. exact (@c72_reduce_total T c t a d1 d d2 xs f). Qed.
Print Assumptions C72_reduce_total.

(** The products, minima and maxima are the same reductions. *)
Theorem C72_same {F} (o : fops F) c (t : tensor F) axis (f : F -> F -> F) :
  reduce_product c (ok2 f) t = reduce_sum c (ok2 f) t /\
  reduce_product_axis c (ok2 f) t axis = reduce_sum_axis c (ok2 f) t axis /\
  reduce_min o c t = reduce_sum c (ok2 (fmin o)) t /\
  reduce_min_axis o c t axis = reduce_sum_axis c (ok2 (fmin o)) t axis /\
  reduce_max o c t = reduce_sum c (ok2 (fmax o)) t /\
  reduce_max_axis o c t axis = reduce_sum_axis c (ok2 (fmax o)) t axis.
Proof. exact (@c72_same F o c t axis f). Qed.
Print Assumptions C72_same.

(** A matrix, a row and a number; a matrix and an incompatible row. *)
Example C72_example :
  let m := fresh [2; 2] [1; 2; 3; 4] in
  let r := fresh [2] [10; 20] in
  let s := fresh [] [7] in
  (let* mr := binop_tt dev m r (ok2 Nat.add) in binop_tt dev mr s (ok2 Nat.mul))
    = Ok (fresh [2; 2] [77; 154; 91; 168]) /\
  (let* ms := binop_tt dev m s (ok2 Nat.mul) in
   let* rs := binop_tt dev r s (ok2 Nat.mul) in binop_tt dev ms rs (ok2 Nat.add))
    = Ok (fresh [2; 2] [77; 154; 91; 168]) /\
  binop_tt dev m (fresh [3] [1; 2; 3]) (ok2 Nat.add) = Panic /\
  binop_tt dev (fresh [3] [1; 2; 3]) m (ok2 Nat.add) = Panic /\
  (let* u := reduce_sum_axis dev (ok2 Nat.add) m (Some 0%Z) in reduce_sum dev (ok2 Nat.add) u)
    = Ok (fresh [] [10]).
Proof. repeat split. Qed.
