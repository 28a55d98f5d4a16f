(** * C79: operations compose *)
From Verif Require Import Base ShapeModel TensorModel AxisModel MapModel ArrayModel Spec ShapeSpec MapSpec ComposeSpec ComposeProofs.

(** Reshaping twice is reshaping once. *)
Theorem C79_reshape_reshape {A} c (t : tensor A) s1 s2 :
  (let* u := reshape c t s1 in reshape c u s2) = (let* _ := reshape c t s1 in reshape c t s2).
Proof. exact (@c79_reshape_reshape A c t s1 s2). Qed.
Print Assumptions C79_reshape_reshape.

(** A map of a map is the map of the composition; the second function may be stateful and may panic. *)
Theorem C79_map_map {S U V W} c (t : tensor U) ds xs (f : U -> V) (g : S -> V -> outcome (S * W)) st :
  repr t ds xs -> can_alloc c (length xs) ->
  (let* '(_, u) := map_ c t (pure1 f) tt in map_ c u g st) = map_ c t (fun st x => g st (f x)) st.
Proof. exact (@c79_map_map S U V W c t ds xs f g st). Qed.
Print Assumptions C79_map_map.

(** So are maps of the arguments of a binary operation, *)
Theorem C79_map2_map {S T U V W Y} c (ta : tensor T) (tb : tensor U) da db xs ys (f : T -> V) (g : U -> W)
    (h : S -> V -> W -> outcome (S * Y)) st :
  repr ta da xs -> repr tb db ys -> xs <> [] -> ys <> [] ->
  (let* '(_, u) := map_ c ta (pure1 f) tt in let* '(_, v) := map_ c tb (pure1 g) tt in map2 c u v h st)
  = map2 c ta tb (fun st x y => h st (f x) (g y)) st.
Proof. exact (@c79_map2_map S T U V W Y c ta tb da db xs ys f g h st). Qed.
Print Assumptions C79_map2_map.

(** and the fold of a map. *)
Theorem C79_fold_map {S U V R W} c (t : tensor U) ds xs (f : U -> V) (ini : R) (into : R -> W)
    (g : S -> R -> V -> outcome (S * R)) st :
  repr t ds xs -> can_alloc c (length xs) ->
  (let* '(_, u) := map_ c t (pure1 f) tt in fold_ c u ini into g st) = fold_ c t ini into (fun st r x => g st r (f x)) st.
Proof. exact (@c79_fold_map S U V R W c t ds xs f ini into g st). Qed.
Print Assumptions C79_fold_map.

(** Joining groups and then the results joins all: grouping does not matter. *)
Theorem C79_concatenate_groups {A} c ax d1 d2 (tss : list (list (tensor A))) pss :
  pss <> [] -> Forall (fun ps => ps <> [] /\ can_alloc c (prod (d1 ++ list_sum (map fst ps) :: d2))) pss ->
  Forall2 (Forall2 (fun t p => repr t (d1 ++ fst p :: d2) (snd p))) tss pss ->
  selects ax (length d1) (length d1 + 1 + length d2) -> length d2 < 5 ->
  supported (d1 ++ list_sum (map fst (concat pss)) :: d2) ->
  can_alloc c (prod (d1 ++ list_sum (map fst (concat pss)) :: d2)) ->
  (let* us := map_out (concatenate_axis c ax) tss in concatenate_axis c ax us)
  = concatenate_axis c ax (concat tss).
Proof. exact (@c79_concatenate_groups A c ax d1 d2 tss pss). Qed.
Print Assumptions C79_concatenate_groups.

(** Splitting a joined tensor where the parts meet gives the parts back. (C36 is the other direction.) *)
Theorem C79_split_joints {A} c ax d1 d2 (ts : list (tensor A)) parts :
  parts <> [] -> Forall2 (fun t p => repr t (d1 ++ fst p :: d2) (snd p)) ts parts ->
  Forall (fun p => 0 < fst p) parts -> 0 < prod (d1 ++ d2) ->
  selects ax (length d1) (length d1 + 1 + length d2) -> length d2 < 5 ->
  supported (d1 ++ list_sum (map fst parts) :: d2) ->
  exists u ps, concatenate_axis c ax ts = Ok u /\ split_axis c ax u (SplitCuts (joints 0 (map fst parts))) = Ok ps /\
    Forall2 (fun t p => repr t (d1 ++ fst p :: d2) (snd p)) ps parts.
Proof. exact (@c79_split_joints A c ax d1 d2 ts parts). Qed.
Print Assumptions C79_split_joints.

(** A slice of a joined tensor where one part lies shows that part, *)
Theorem C79_subslice_concatenate {A} c ax ds (ts : list (tensor A)) parts q m xs :
  Forall2 (fun t p => repr t (fst p :: ds) (snd p)) ts parts ->
  selects ax 0 (1 + length ds) -> length ds < 5 -> supported (list_sum (map fst parts) :: ds) ->
  positive ds -> nth_error parts q = Some (m, xs) -> 0 < m ->
  exists u v, concatenate_axis c ax ts = Ok u /\
    subslice c u (list_sum (firstn q (map fst parts))) m = Ok v /\ repr v (m :: ds) xs.
Proof. exact (@c79_subslice_concatenate A c ax ds ts parts q m xs). Qed.
Print Assumptions C79_subslice_concatenate.

(** and a slice of a stack shows the tensor at that place. *)
Theorem C79_subslice_stack {A} c ax ds (ts : list (tensor A)) xss q xs :
  Forall2 (fun t xs => repr t ds xs) ts xss -> selects ax 0 (length ds + 1) ->
  0 < prod ds -> length ds < 5 -> supported (length xss :: ds) -> nth_error xss q = Some xs ->
  exists u v w, stack_axis c ax ts = Ok u /\ subslice c u q 1 = Ok v /\ repr v (1 :: ds) xs /\
    reshape c v (canon ds) = Ok w /\ repr w ds xs.
Proof. exact (@c79_subslice_stack A c ax ds ts xss q xs). Qed.
Print Assumptions C79_subslice_stack.

(** Reducing with an associative operation: the parts may be reduced first. *)
Theorem C79_reduce_append {T} c (t u : tensor T) d d' ds xs ys (f : T -> T -> T) :
  (forall x y z, f x (f y z) = f (f x y) z) ->
  repr t (d :: ds) xs -> repr u (d' :: ds) ys -> xs <> [] -> ys <> [] ->
  (Z.of_nat ((d + d') * prod ds) < 4294967296)%Z ->
  (let* w := append c t u in reduce c w (pure2 f) tt)
  = (let* '(_, p) := reduce c t (pure2 f) tt in let* '(_, q) := reduce c u (pure2 f) tt in map2 c p q (pure2 f) tt).
Proof. exact (@c79_reduce_append T c t u d d' ds xs ys f). Qed.
Print Assumptions C79_reduce_append.

(** The same along any axis. *)
Theorem C79_reduce_axis_concatenate {T} c a (t u : tensor T) d1 m n d2 xs ys (f : T -> T -> T) :
  (forall x y z, f x (f y z) = f (f x y) z) ->
  repr t (d1 ++ m :: d2) xs -> repr u (d1 ++ n :: d2) ys -> xs <> [] -> ys <> [] ->
  names_axis a (length d1) (length d1 + 1 + length d2) -> length d2 < 5 -> supported (d1 ++ (m + n) :: d2) ->
  (let* w := concatenate_axis c (Some a) [t; u] in reduce_axis c w (Some a) (pure2 f) tt)
  = (let* '(_, p) := reduce_axis c t (Some a) (pure2 f) tt in
     let* '(_, q) := reduce_axis c u (Some a) (pure2 f) tt in map2 c p q (pure2 f) tt).
Proof. exact (@c79_reduce_axis_concatenate T c a t u d1 m n d2 xs ys f). Qed.
Print Assumptions C79_reduce_axis_concatenate.

(** Joining matrices by columns and transposing is transposing and joining by rows. *)
Theorem C79_transpose_concatenate {A} c ds r (ts : list (tensor A)) parts :
  parts <> [] -> Forall2 (fun t p => repr t (ds ++ [r; fst p]) (snd p)) ts parts ->
  Forall (fun p => snd p <> []) parts -> supported (ds ++ [r; list_sum (map fst parts)]) ->
  (let* u := concatenate_axis c (Some (-1)%Z) ts in transpose c u)
  = (let* us := map_out (transpose c) ts in concatenate_axis c (Some (-2)%Z) us).
Proof. exact (@c79_transpose_concatenate A c ds r ts parts). Qed.
Print Assumptions C79_transpose_concatenate.

(** Tiling twice multiplies the multiples. *)
Theorem C79_tile_tile {A} c (t : tensor A) ds xs mt ms nt ns pt :
  repr t ds xs -> repr mt [length ms] ms -> repr nt [length ns] ns -> length ns = length ms ->
  repr pt [length ms] (zip_with Nat.mul ms ns) -> 0 < prod ds -> 0 < prod ms -> 0 < prod ns ->
  0 < length ds + length ms ->
  (let r := Nat.max (length ds) (length ms) in supported (zip_with Nat.mul (pad_to r ds) (pad_to r (zip_with Nat.mul ms ns)))) ->
  (let* u := tile c t mt in tile c u nt) = tile c t pt.
Proof. exact (@c79_tile_tile A c t ds xs mt ms nt ns pt). Qed.
Print Assumptions C79_tile_tile.

(** Broadcasting an argument is tiling it first. *)
Theorem C79_broadcast_tile {S T U V} c (ta : tensor T) (tb : tensor U) dp db xs ys mt (f : S -> T -> U -> outcome (S * V)) st :
  repr ta (dp ++ db) xs -> repr tb db ys -> xs <> [] -> ys <> [] -> 0 < length (dp ++ db) ->
  repr mt [length (dp ++ db)] (dp ++ repeat 1 (length db)) ->
  (let* tb' := tile c tb mt in map2 c ta tb' f st) = map2 c ta tb f st /\
  (let* tb' := tile c tb mt in map2 c tb' ta (fun st y x => f st x y) st) = map2 c tb ta (fun st y x => f st x y) st.
Proof. exact (@c79_broadcast_tile S T U V c ta tb dp db xs ys mt f st). Qed.
Print Assumptions C79_broadcast_tile.

Example C79_example :
  let a := fresh [1; 2] [1; 2] in let b := fresh [2; 2] [3; 4; 5; 6] in let d := fresh [1; 2] [7; 8] in
  (let* us := map_out (concatenate_axis dev None) [[a; b]; [d]] in concatenate_axis dev None us)
    = Ok (fresh [4; 2] [1; 2; 3; 4; 5; 6; 7; 8]) /\
  joints 0 [1; 2; 1] = [1; 3] /\
  split_axis dev None (fresh [4; 2] [1; 2; 3; 4; 5; 6; 7; 8]) (SplitCuts [1; 3])
    = Ok [mkTensor (canon [1; 2]) 0 2 [1; 2; 3; 4; 5; 6; 7; 8];
          mkTensor (canon [2; 2]) 2 4 [1; 2; 3; 4; 5; 6; 7; 8];
          mkTensor (canon [1; 2]) 6 2 [1; 2; 3; 4; 5; 6; 7; 8]] /\
  (let* u := tile dev a (fresh [1] [2]) in tile dev u (fresh [1] [3])) = tile dev a (fresh [1] [6]) /\
  (let* u := concatenate_axis dev (Some (-1)%Z) [b; b] in transpose dev u)
    = Ok (fresh [4; 2] [3; 5; 4; 6; 3; 5; 4; 6]) /\
  (* subtraction is not associative *)
  (let* w := append dev (fresh [2; 2] [3; 4; 5; 6]%Z) (fresh [1; 2] [1; 2]%Z) in reduce dev w (pure2 Z.sub) tt) = Ok (tt, fresh [] [3 - 4 - 5 - 6 - 1 - 2]%Z) /\
  map2 dev (fresh [] [3 - 4 - 5 - 6]%Z) (fresh [] [1 - 2]%Z) (pure2 Z.sub) tt
    = Ok (tt, fresh [] [3 - 4 - 5 - 6 - (1 - 2)]%Z).
Proof. vm_compute. repeat split; reflexivity. Qed.
