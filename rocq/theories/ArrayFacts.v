(** * Lemmas about the array functions *)
From Coq Require Import ZifyBool ZifyNat ZifyN.
From Verif Require Import Base ShapeModel TensorModel AxisModel MapModel ArrayModel Spec BaseFacts
  ShapeFacts ShapeFacts2 CoordFacts TensorFacts TensorFacts2 MapFacts SafeFacts.

Ltac Zify.zify_post_hook ::= Z.div_mod_to_equations.

(** A loop that copies [xs[src i]] to position [pos i]. *)
Lemma loop_writes {A} M (body : nat -> buf A -> outcome (buf A)) (xs : list A)
      (src pos : nat -> nat) (b : buf A) :
  (forall i b, i < M -> body i b = let* v := aget xs (src i) in write b (pos i) v) ->
  (forall i, i < M -> pos i < length b) ->
  (forall i j, i < M -> j < M -> pos i = pos j -> i = j) ->
  (forall i, i < M -> src i < length xs) ->
  exists b', for_ M body b = Ok b' /\ length b' = length b /\
    (forall i, i < M -> exists v, nth_error xs (src i) = Some v /\ nth_error b' (pos i) = Some (Some v)) /\
    (forall p, (forall i, i < M -> pos i <> p) -> nth_error b' p = nth_error b p).
Proof.
  intros Hb Hp Hinj Hs.
  set (P := fun k (b' : buf A) => length b' = length b /\
    (forall i, i < k -> exists v, nth_error xs (src i) = Some v /\ nth_error b' (pos i) = Some (Some v)) /\
    (forall p, (forall i, i < k -> pos i <> p) -> nth_error b' p = nth_error b p)).
  destruct (for_inv P M body b) as (b' & E & HP).
  - intros k b1 Hk (Hl & Hv & Hu). rewrite Hb by auto.
    destruct (nth_error_lt_ex xs (src k) (Hs k Hk)) as [v Ev].
    rewrite (aget_ok _ _ _ Ev). cbn [bind]. rewrite write_ok by (rewrite Hl; auto).
    eexists. split; [reflexivity|]. split; [now rewrite set_nth_length|]. split.
    + intros i Hi. destruct (Nat.eq_dec i k) as [->|Hne].
      * exists v. split; auto. apply nth_error_set_nth_eq. rewrite Hl; auto.
      * destruct (Hv i ltac:(lia)) as (w & E1 & E2). exists w. split; auto.
        rewrite nth_error_set_nth_neq; auto. intros C. apply Hne. symmetry. apply Hinj; auto; lia.
    + intros p Hp'. rewrite nth_error_set_nth_neq; [|apply Hp'; lia].
      apply Hu. intros i Hi. apply Hp'. lia.
  - split; auto. split; [intros; lia|auto].
  - exists b'. destruct HP as (H1 & H2 & H3). auto.
Qed.

(** A fully initialised buffer of the right length becomes a tensor. *)
Lemma unsafe_init_total {A} c n ds (f : buf A -> outcome (buf A)) b :
  can_alloc c n -> supported ds -> n = prod ds ->
  f (repeat None n) = Ok b -> length b = n ->
  (forall p, p < n -> exists v, nth_error b p = Some (Some v)) ->
  exists ys, unsafe_init_ c n (canon ds) f = Ok (fresh ds ys) /\ length ys = n /\
    forall p v, nth_error b p = Some (Some v) -> nth_error ys p = Some v.
Proof.
  intros Hc Hs Hn Hf Hl Hi.
  destruct (assume_init_full b) as [ys ->]; [rewrite Hl; auto|].
  rewrite map_length in Hl.
  exists ys. split; [|split]; auto.
  - unfold unsafe_init_, unsafe_init. rewrite alloc_ok by (auto; subst n; now apply supported_prod).
    cbn [bind]. rewrite Hf. cbn [bind]. rewrite assume_init_some. cbn [bind].
    rewrite tensor_new_ok; auto. congruence.
  - intros p v. rewrite nth_error_map. destruct (nth_error ys p); cbn; congruence.
Qed.

(** A loop that copies every element of the result once. *)
Lemma unsafe_init_scatter {A} c n ds (body : nat -> buf A -> outcome (buf A)) (xs : list A)
      (src pos : nat -> nat) (f : buf A -> outcome (buf A)) :
  can_alloc c n -> supported ds -> n = prod ds ->
  (forall o, f o = for_ n body o) ->
  (forall i b, i < n -> body i b = let* v := aget xs (src i) in write b (pos i) v) ->
  (forall i, i < n -> pos i < n) ->
  (forall i j, i < n -> j < n -> pos i = pos j -> i = j) ->
  (forall p, p < n -> exists i, i < n /\ pos i = p) ->
  (forall i, i < n -> src i < length xs) ->
  exists ys, unsafe_init_ c n (canon ds) f = Ok (fresh ds ys) /\ length ys = n /\
    forall i, i < n -> nth_error ys (pos i) = nth_error xs (src i).
Proof.
  intros Hc Hs Hn Hf Hb Hp Hinj Hsur Hsrc.
  destruct (loop_writes n body xs src pos (repeat None n)) as (b & E & Hl & Hv & _); auto.
  { intros i Hi. rewrite repeat_length. auto. }
  rewrite repeat_length in Hl.
  destruct (unsafe_init_total c n ds f b) as (ys & E1 & E2 & E3); auto.
  { rewrite Hf. exact E. }
  { intros p Hlt. destruct (Hsur p Hlt) as (i & Hi & <-). destruct (Hv i Hi) as (v & _ & Ev). eauto. }
  exists ys. split; [|split]; auto.
  intros i Hi. destruct (Hv i Hi) as (v & -> & Ev). auto.
Qed.

Lemma div_mod_l a b : a / b * b + a mod b = a.
Proof. rewrite Nat.mul_comm. symmetry. apply Nat.div_mod_eq. Qed.

(** Three nested loops as one. *)
Lemma for_nest3 {S} a b d (body : nat -> nat -> nat -> S -> outcome S) s :
  for_ a (fun x s => for_ b (fun y s => for_ d (fun z s => body x y z s) s) s) s
  = for_ (a * (b * d)) (fun p s => body (p / (b * d)) (p mod (b * d) / d) ((p mod (b * d)) mod d) s) s.
Proof.
  rewrite <- (for_nest a (b * d) (fun x p s => body x (p / d) (p mod d) s)).
  apply for_ext. intros k s' _. exact (for_nest b d (body k) s').
Qed.

(** ** Transpose *)

Lemma last2 (ds : list nat) r k : last (ds ++ [r; k]) 0 = k /\ last (removelast (ds ++ [r; k])) 0 = r.
Proof.
  replace (ds ++ [r; k]) with ((ds ++ [r]) ++ [k]) by now rewrite <- app_assoc.
  rewrite removelast_last, !last_last. auto.
Qed.

Lemma transpose_repr {A} c (t : tensor A) ds r k xs :
  repr t (ds ++ [r; k]) xs -> 0 < r -> 0 < k -> can_alloc c (length xs) ->
  exists ys, transpose c t = Ok (fresh (ds ++ [k; r]) ys) /\ length ys = prod (ds ++ [k; r]) /\
    forall i1 j i, in_shape ds i1 -> j < r -> i < k ->
      elem (ds ++ [k; r]) ys (i1 ++ [i; j]) = elem (ds ++ [r; k]) xs (i1 ++ [j; i]).
Proof.
  intros H Hr Hk Hc. pose proof (repr_supported _ _ _ H) as Hsup. pose proof (repr_len _ _ _ H) as Hlen.
  assert (Hl6 : length (ds ++ [r; k]) <= 6) by apply Hsup.
  destruct (last2 ds r k) as [Lk Lr].
  assert (Hk32 : (Z.of_nat k < two32)%Z) by (eapply supported_in; [exact Hsup|apply in_or_app; right; cbn; auto]).
  assert (Hr32 : (Z.of_nat r < two32)%Z) by (eapply supported_in; [exact Hsup|apply in_or_app; right; cbn; auto]).
  assert (Hsup' : supported (ds ++ [k; r])).
  { destruct Hsup as [S1 S2]. split.
    - rewrite app_length in *. cbn in *. lia.
    - rewrite map_app in *. rewrite prod_app in *. cbn [map prod] in *.
      replace (Nat.max 1 k * (Nat.max 1 r * 1)) with (Nat.max 1 r * (Nat.max 1 k * 1)) by lia. auto. }
  assert (Hn : prod (ds ++ [r; k]) = prod ds * (r * k)) by (rewrite prod_app; cbn; lia).
  assert (Hn' : prod (ds ++ [k; r]) = prod ds * (r * k)) by (rewrite prod_app; cbn; lia).
  unfold transpose. rewrite (repr_shape _ _ _ H).
  rewrite cols_canon, rows_canon by auto. cbn [bind]. rewrite Lk, Lr.
  replace (Nat.max k 1) with k by lia. replace (Nat.max r 1) with r by lia.
  rewrite size_canon by auto. cbn [bind].
  rewrite udiv_ok by nia. cbn [bind].
  change (rank (canon (ds ++ [r; k]))) with (length (ds ++ [r; k])).
  replace (length (ds ++ [r; k]) =? 1) with false by (rewrite app_length; cbn [length]; lia).
  replace (ds ++ [r; k]) with ((ds ++ [r]) ++ [k]) by now rewrite <- app_assoc.
  rewrite with_cols_canon by (rewrite <- app_assoc; cbn [app]; auto).
  cbn [bind]. rewrite <- !app_assoc. cbn [app].
  rewrite with_rows_canon by (rewrite app_length in *; cbn [length] in *; lia).
  cbn [bind]. rewrite !as_u32_small by auto.
  rewrite Hn. replace (prod ds * (r * k) / (k * r)) with (prod ds)
    by (rewrite (Nat.mul_comm r k), Nat.div_mul by nia; reflexivity).
  destruct (unsafe_init_scatter c (prod ds * (r * k)) (ds ++ [k; r])
    (fun p o => let* v := aget xs (p / (r * k) * (k * r) + (p mod (r * k)) / k * k + (p mod (r * k)) mod k) in
       write o (p / (r * k) * (k * r) + (p mod (r * k)) mod k * r + (p mod (r * k)) / k) v)
    xs (fun p => p / (r * k) * (k * r) + (p mod (r * k)) / k * k + (p mod (r * k)) mod k)
    (fun p => p / (r * k) * (k * r) + (p mod (r * k)) mod k * r + (p mod (r * k)) / k)
    (fun o =>
      let* x := as_slice t in
      for_ (prod ds) (fun n o =>
        for_ r (fun j o =>
          for_ k (fun i o =>
            let* v := aget x (n * (k * r) + j * k + i) in
            write o (n * (k * r) + i * r + j) v) o) o) o)) as (ys & E & El & Ev).
  - congruence.
  - auto.
  - auto.
  - intros o. rewrite (repr_as_slice _ _ _ H). cbn [bind].
    exact (for_nest3 (prod ds) r k (fun n j i o =>
            let* v := aget xs (n * (k * r) + j * k + i) in
            write o (n * (k * r) + i * r + j) v) o).
  - auto.
  - intros p Hp. set (m := r * k) in *.
    assert (p / m < prod ds) by (apply Nat.div_lt_upper_bound; nia).
    assert (Hm : p mod m < m) by (apply Nat.mod_upper_bound; nia).
    assert (p mod m / k < r) by (apply Nat.div_lt_upper_bound; subst m; nia).
    assert ((p mod m) mod k < k) by (apply Nat.mod_upper_bound; lia).
    replace (k * r) with m by (subst m; lia). 
    assert ((p mod m) mod k * r + p mod m / k < m) by (subst m; nia). nia.
  - intros p q Hp Hq Heq. set (m := r * k) in *. replace (k * r) with m in Heq by (subst m; lia).
    assert (Hmp : p mod m < m) by (apply Nat.mod_upper_bound; nia).
    assert (Hmq : q mod m < m) by (apply Nat.mod_upper_bound; nia).
    assert (p mod m / k < r) by (apply Nat.div_lt_upper_bound; subst m; nia).
    assert (q mod m / k < r) by (apply Nat.div_lt_upper_bound; subst m; nia).
    assert ((p mod m) mod k < k) by (apply Nat.mod_upper_bound; lia).
    assert ((q mod m) mod k < k) by (apply Nat.mod_upper_bound; lia).
    rewrite <- !Nat.add_assoc in Heq.
    apply radix_inj in Heq; [|subst m; nia|subst m; nia]. destruct Heq as [E1 E2].
    apply radix_inj in E2; auto. destruct E2 as [E2 E3].
    rewrite (Nat.div_mod_eq p m), (Nat.div_mod_eq q m), E1. f_equal.
    rewrite (Nat.div_mod_eq (p mod m) k), (Nat.div_mod_eq (q mod m) k). congruence.
  - intros p Hp. set (m := r * k) in *. replace (k * r) with m by (subst m; lia).
    assert (Hm : p mod m < m) by (apply Nat.mod_upper_bound; nia).
    assert (p mod m / r < k) by (apply Nat.div_lt_upper_bound; subst m; nia).
    assert ((p mod m) mod r < r) by (apply Nat.mod_upper_bound; lia).
    assert (p / m < prod ds) by (apply Nat.div_lt_upper_bound; nia).
    set (y := (p mod m) mod r * k + p mod m / r).
    assert (Hy : y < m) by (subst y m; nia).
    exists (p / m * m + y). split; [nia|].
    rewrite Nat.div_add_l by nia. rewrite (Nat.div_small y m) by auto.
    rewrite (Nat.add_comm (p / m * m) y), Nat.mod_add by nia. rewrite (Nat.mod_small y m) by auto.
    subst y. rewrite Nat.div_add_l by lia. rewrite (Nat.div_small (p mod m / r) k) by auto.
    rewrite (Nat.add_comm (_ * k)), Nat.mod_add by lia. rewrite (Nat.mod_small (p mod m / r) k) by auto.
    rewrite !Nat.add_0_r. rewrite <- Nat.add_assoc.
    rewrite (Nat.mul_comm (p mod m / r) r), <- Nat.div_mod_eq, (Nat.mul_comm (p / m) m).
    symmetry. apply Nat.div_mod_eq.
  - intros p Hp. rewrite Hlen, Hn. set (m := r * k) in *. replace (k * r) with m by (subst m; lia).
    rewrite <- Nat.add_assoc, (Nat.mul_comm (p mod m / k) k), <- Nat.div_mod_eq,
      (Nat.mul_comm (p / m)), <- Nat.div_mod_eq. auto.
  - exists ys. split; [exact E|]. split; [congruence|].
    intros i1 j i Hi1 Hj Hi. unfold elem.
    rewrite !ravel_app by now apply in_shape_length. cbn [ravel prod].
    pose proof (ravel_lt _ _ Hi1) as Hb. set (n := ravel ds i1) in *.
    assert (Hy : j * k + i < r * k) by nia.
    specialize (Ev (n * (r * k) + (j * k + i)) ltac:(nia)).
    rewrite Nat.div_add_l in Ev by nia. rewrite (Nat.div_small (j * k + i)) in Ev by auto.
    rewrite (Nat.add_comm (n * (r * k))), Nat.mod_add in Ev by nia.
    rewrite (Nat.mod_small (j * k + i)) in Ev by auto.
    rewrite Nat.div_add_l in Ev by lia. rewrite (Nat.div_small i k) in Ev by auto.
    rewrite (Nat.add_comm (j * k)), Nat.mod_add in Ev by lia. rewrite (Nat.mod_small i k) in Ev by auto.
    rewrite !Nat.add_0_r in Ev.
    etransitivity; [|etransitivity; [exact Ev|]]; f_equal; lia.
Qed.

Lemma transpose_vector {A} c (t : tensor A) k xs :
  repr t [k] xs -> can_alloc c k -> transpose c t = Ok (fresh [k; 1] xs).
Proof.
  intros H Hc. pose proof (repr_supported _ _ _ H) as Hsup. pose proof (repr_len _ _ _ H) as Hlen.
  assert (Hk : (Z.of_nat k < two32)%Z) by (eapply supported_in; [exact Hsup|cbn; auto]).
  cbn [prod] in Hlen. rewrite Nat.mul_1_r in Hlen.
  assert (Hsup' : supported [k; 1]).
  { destruct Hsup as [S1 S2]. split; [cbn [length]; lia|]. cbn [map prod] in *. rewrite !Nat.mul_1_r in *. exact S2. }
  unfold transpose. rewrite (repr_shape _ _ _ H).
  rewrite cols_canon, rows_canon by (cbn [length]; lia). cbn [bind last removelast].
  rewrite size_canon by auto. cbn [bind prod]. rewrite Nat.mul_1_r.
  replace (Nat.max 0 1) with 1 by lia. rewrite Nat.mul_1_r.
  rewrite udiv_ok by lia. cbn [bind].
  change (rank (canon [k])) with 1. change (1 =? 1) with true. cbn iota.
  rewrite rinsert_canon by (cbn [length]; lia). cbn [bind].
  change (insert_at (length [k] - 0) (as_u32 1) [k]) with [k; as_u32 1].
  rewrite as_u32_small by (unfold two32; lia).
  destruct (unsafe_init_scatter c k [k; 1]
    (fun p o => let* v := aget xs p in write o p v) xs (fun p => p) (fun p => p)
    (fun o =>
      let* x := as_slice t in
      for_ (k / Nat.max k 1) (fun n o =>
        for_ 1 (fun j o =>
          for_ (Nat.max k 1) (fun i o =>
            let* v := aget x (n * Nat.max k 1 + j * Nat.max k 1 + i) in
            write o (n * Nat.max k 1 + i * 1 + j) v) o) o) o)) as (ys & E & El & Ev); auto.
  - cbn. lia.
  - intros o. rewrite (repr_as_slice _ _ _ H). cbn [bind].
    destruct (Nat.eq_dec k 0) as [->|Hk0].
    + reflexivity.
    + replace (Nat.max k 1) with k by lia. rewrite Nat.div_same by auto.
      unfold for_ at 1 2. cbn [for_from]. rewrite !bind_ret.
      apply for_ext. intros p b Hp. rewrite Nat.mul_1_r. cbn [Nat.mul Nat.add]. now rewrite Nat.add_0_r.
  - intros p Hp. exists p. auto.
  - intros p Hp. lia.
  - rewrite E. do 2 f_equal. apply nth_error_ext. intros i.
    destruct (Nat.lt_ge_cases i k) as [Hi|Hi]; [apply Ev; auto|].
    rewrite !(proj2 (nth_error_None _ _)); auto; lia.
Qed.

Lemma transpose_scalar {A} c (t : tensor A) xs : repr t [] xs -> transpose c t = Panic.
Proof.
  intros H. unfold transpose. rewrite (repr_shape _ _ _ H). rewrite size_canon by apply supported_nil.
  reflexivity.
Qed.

(** ** Concatenation *)

Lemma for_from_id {S} (body : nat -> S -> outcome S) i n s :
  (forall k s, i <= k < i + n -> body k s = Ok s) -> for_from i n body s = Ok s.
Proof.
  revert i s. induction n as [|n IH]; intros i s H; [reflexivity|].
  rewrite for_from_S, H by lia. cbn [bind]. apply IH. intros k s' Hk. apply H. lia.
Qed.

Lemma nth_mid d1 m (d2 : list nat) : nth (length d1) (d1 ++ m :: d2) 0 = m.
Proof. rewrite app_nth2 by lia. now rewrite Nat.sub_diag. Qed.

Lemma nth_other d1 m m' (d2 : list nat) i :
  i <> length d1 -> nth i (d1 ++ m :: d2) 0 = nth i (d1 ++ m' :: d2) 0.
Proof.
  intros Hi. destruct (Nat.lt_ge_cases i (length d1)).
  - now rewrite !app_nth1 by auto.
  - rewrite !app_nth2 by auto. destruct (i - length d1) eqn:E; [lia|reflexivity].
Qed.

Lemma mid_length {A} (d1 : list A) m d2 : length (d1 ++ m :: d2) = length d1 + (1 + length d2).
Proof. rewrite app_length. reflexivity. Qed.

Lemma remove_mid {A} (d1 : list A) m d2 : remove_at (length d1) (d1 ++ m :: d2) = d1 ++ d2.
Proof.
  unfold remove_at. rewrite firstn_app_exact. f_equal.
  change (S (length d1)) with (1 + length d1). rewrite <- skipn_skipn, skipn_app_exact. reflexivity.
Qed.

Lemma insert_mid {A} (d1 : list A) m d2 : insert_at (length d1) m (d1 ++ d2) = d1 ++ m :: d2.
Proof. unfold insert_at. now rewrite firstn_app_exact, skipn_app_exact. Qed.

(** What the argument list of a concatenation looks like from outside: per tensor the
    axis length and the elements. *)
Definition joinable {A} (d1 d2 : list nat) (ts : list (tensor A)) (parts : list (nat * list A)) :=
  Forall2 (fun t p => repr t (d1 ++ fst p :: d2) (snd p)) ts parts.

Lemma validate_step {A} c d1 d2 m0 (t : tensor A) m xs acc :
  length (d1 ++ m0 :: d2) <= 6 ->
  repr t (d1 ++ m :: d2) xs -> (Z.of_nat (acc + m) < two64)%Z ->
  (assert! (rank (canon (d1 ++ m0 :: d2)) =? rank (tshape t)) in
   for_ (rank (canon (d1 ++ m0 :: d2))) (fun i axis_len =>
      if i =? length d1 then
        let* d := dim c (tshape t) (length d1) in
        uadd c axis_len d
      else
        let* a := dim c (tshape t) i in
        let* b := dim c (canon (d1 ++ m0 :: d2)) i in
        assert! (a =? b) in
        Ok axis_len) acc) = Ok (acc + m).
Proof.
  intros Hl H Hb. rewrite (repr_shape _ _ _ H). cbn [rank canon].
  rewrite mid_length in Hl. rewrite !mid_length, Nat.eqb_refl. cbn [assert_ bind].
  unfold for_. rewrite for_from_app. rewrite for_from_id.
  2:{ intros k s Hk. destruct (Nat.eqb_spec k (length d1)); [lia|].
      rewrite !dim_canon by (rewrite mid_length; lia). cbn [bind].
      rewrite (nth_other d1 m m0) by auto. now rewrite Nat.eqb_refl. }
  cbn [bind]. rewrite Nat.add_0_l, for_from_app, for_from_S. cbn [for_from].
  rewrite Nat.eqb_refl, dim_canon by (rewrite mid_length; lia). cbn [bind].
  rewrite nth_mid, uadd_ok by lia. cbn [bind].
  rewrite for_from_id; auto.
  intros k s Hk. destruct (Nat.eqb_spec k (length d1)); [lia|].
  rewrite !dim_canon by (rewrite mid_length; lia). cbn [bind].
  rewrite (nth_other d1 m m0) by auto. now rewrite Nat.eqb_refl.
Qed.

Lemma validate_loop {A} c d1 d2 m0 (ts : list (tensor A)) parts acc :
  length (d1 ++ m0 :: d2) <= 6 -> joinable d1 d2 ts parts ->
  (Z.of_nat (acc + list_sum (map fst parts)) < two64)%Z ->
  for_each ts (fun x axis_len =>
    assert! (rank (canon (d1 ++ m0 :: d2)) =? rank (tshape x)) in
    for_ (rank (canon (d1 ++ m0 :: d2))) (fun i axis_len =>
      if i =? length d1 then
        let* d := dim c (tshape x) (length d1) in
        uadd c axis_len d
      else
        let* a := dim c (tshape x) i in
        let* b := dim c (canon (d1 ++ m0 :: d2)) i in
        assert! (a =? b) in
        Ok axis_len) axis_len) acc = Ok (acc + list_sum (map fst parts)).
Proof.
  intros Hl J. revert acc. induction J as [|t [m xs] ts parts H J IH]; intros acc Hb.
  - cbn. now rewrite Nat.add_0_r.
  - cbn [for_each]. cbn [map fst snd] in *.
    change (list_sum (m :: map fst parts)) with (m + list_sum (map fst parts)) in *.
    rewrite (validate_step c d1 d2 m0 t m xs acc) by (auto; lia). cbn [bind].
    rewrite IH by lia. f_equal. lia.
Qed.

Lemma validate_ok {A} c d1 d2 (ts : list (tensor A)) parts :
  parts <> [] -> joinable d1 d2 ts parts ->
  (Z.of_nat (list_sum (map fst parts)) < two64)%Z ->
  validate_concat c ts (length d1) = Ok (list_sum (map fst parts)).
Proof.
  intros Hne J Hb. destruct J as [|t [m xs] ts parts H J]; [congruence|].
  unfold validate_concat. cbn [aget nth_error bind]. cbn [fst snd] in H.
  rewrite (repr_shape _ _ _ H).
  apply (validate_loop c d1 d2 m (t :: ts) ((m, xs) :: parts) 0); auto.
  - apply (repr_supported _ _ _ H).
  - constructor; auto.
Qed.

Lemma sum_find (ms : list nat) x :
  x < list_sum ms ->
  exists q m, nth_error ms q = Some m /\ list_sum (firstn q ms) <= x < list_sum (firstn q ms) + m.
Proof.
  revert x. induction ms as [|m ms IH]; intros x H.
  - cbn in H. lia.
  - change (list_sum (m :: ms)) with (m + list_sum ms) in H.
    destruct (Nat.lt_ge_cases x m).
    + exists 0, m. cbn. split; auto. lia.
    + destruct (IH (x - m) ltac:(lia)) as (q & m' & E & B).
      exists (S q), m'. split; auto.
      cbn [firstn]. change (list_sum (m :: firstn q ms)) with (m + list_sum (firstn q ms)). lia.
Qed.

Lemma sum_firstn_le (ms : list nat) q m :
  nth_error ms q = Some m -> list_sum (firstn q ms) + m <= list_sum ms.
Proof.
  revert q. induction ms as [|a ms IH]; intros [|q] E; cbn in E; try discriminate.
  - injection E as ->. cbn. lia.
  - specialize (IH q E). cbn [firstn].
    change (list_sum (a :: firstn q ms)) with (a + list_sum (firstn q ms)).
    change (list_sum (a :: ms)) with (a + list_sum ms). lia.
Qed.

Section ConcatLoop.
Context {A : Type} (c : cfg) (d1 d2 : list nat) (L : nat).

Let no := prod d1.
Let ni := prod d2.
Let J := ni * L.

Lemma concat_loop (ts : list (tensor A)) parts s (o : buf A) :
  joinable d1 d2 ts parts -> s + list_sum (map fst parts) <= L -> length o = no * J ->
  exists o',
    for_each ts (fun t '(o, off) =>
      let* n_axis := dim c (tshape t) (length d1) in
      let* x := as_slice t in
      let* o := for_ no (fun j o =>
        for_ n_axis (fun k o =>
          for_ ni (fun i o =>
            let* v := aget x (j * n_axis * ni + k * ni + i) in
            write o (j * J + off + k * ni + i) v) o) o) o in
      Ok (o, off + n_axis * ni)) (o, s * ni) = Ok (o', (s + list_sum (map fst parts)) * ni) /\
    length o' = length o /\
    (forall q m xs, nth_error parts q = Some (m, xs) -> forall j r, j < no -> r < m * ni ->
       exists v, nth_error xs (j * (m * ni) + r) = Some v /\
         nth_error o' (j * J + (s + list_sum (firstn q (map fst parts))) * ni + r) = Some (Some v)) /\
    (forall j r, j < no -> r < s * ni -> nth_error o' (j * J + r) = nth_error o (j * J + r)).
Proof.
  intros Hj. revert s o. induction Hj as [|t [m xs] ts parts H Hj IH]; intros s o Hs Hlo.
  - exists o. cbn [for_each map list_sum fold_right]. rewrite Nat.add_0_r.
    split; [auto|]. split; [auto|]. split; [|auto]. intros q m xs E. destruct q; discriminate E.
  - cbn [map fst snd] in *.
    change (list_sum (m :: map fst parts)) with (m + list_sum (map fst parts)) in *.
    pose proof (repr_supported _ _ _ H) as Hsup. pose proof (repr_len _ _ _ H) as Hlen.
    assert (Hlx : length xs = no * (m * ni)) by (rewrite Hlen, prod_app; cbn [prod]; reflexivity).
    cbn [for_each]. rewrite (repr_shape _ _ _ H).
    rewrite dim_canon by (try apply Hsup; rewrite mid_length; lia). cbn [bind]. rewrite nth_mid.
    rewrite (repr_as_slice _ _ _ H). cbn [bind].
    rewrite (for_nest3 no m ni (fun j k i o =>
       let* v := aget xs (j * m * ni + k * ni + i) in write o (j * J + s * ni + k * ni + i) v)).
    assert (Hdm : forall p, m * ni <> 0 -> p / (m * ni) * m * ni + p mod (m * ni) / ni * ni
              + (p mod (m * ni)) mod ni = p).
    { intros p Hmn. now rewrite <- Nat.add_assoc, div_mod_l, <- Nat.mul_assoc, div_mod_l. }
    destruct (loop_writes (no * (m * ni))
      (fun p o => let* v := aget xs (p / (m * ni) * m * ni + p mod (m * ni) / ni * ni
              + (p mod (m * ni)) mod ni) in
          write o (p / (m * ni) * J + s * ni + p mod (m * ni) / ni * ni + (p mod (m * ni)) mod ni) v)
      xs (fun p => p) (fun p => p / (m * ni) * J + s * ni + p mod (m * ni)) o) as (o1 & E1 & L1 & V1 & U1).
    + intros p b Hp. rewrite Hdm by nia. apply bind_ext. intros v _. f_equal.
      now rewrite <- Nat.add_assoc, div_mod_l.
    + intros p Hp. rewrite Hlo.
      assert (p / (m * ni) < no) by (apply Nat.div_lt_upper_bound; nia).
      assert (p mod (m * ni) < m * ni) by (apply Nat.mod_upper_bound; nia).
      assert (s * ni + p mod (m * ni) < J) by (unfold J; nia). nia.
    + intros p q Hp Hq E.
      assert (p mod (m * ni) < m * ni) by (apply Nat.mod_upper_bound; nia).
      assert (q mod (m * ni) < m * ni) by (apply Nat.mod_upper_bound; nia).
      rewrite <- !Nat.add_assoc in E. apply radix_inj in E; [|unfold J; nia|unfold J; nia].
      destruct E as [E1 E2]. rewrite (Nat.div_mod_eq p (m * ni)), (Nat.div_mod_eq q (m * ni)), E1. lia.
    + intros p Hp. lia.
    + rewrite E1. cbn [bind].
      replace (s * ni + m * ni) with ((s + m) * ni) by lia.
      destruct (IH (s + m) o1 ltac:(lia) ltac:(congruence)) as (o2 & E2 & L2 & V2 & U2).
      exists o2. split; [|split; [|split]].
      * rewrite E2. do 2 f_equal. lia.
      * congruence.
      * intros [|q] m' xs' Eq j r Hjn Hr.
        -- cbn in Eq. injection Eq as <- <-. cbn [firstn list_sum fold_right]. rewrite Nat.add_0_r.
           assert (Hmn : m * ni <> 0) by nia.
           destruct (V1 (j * (m * ni) + r) ltac:(nia)) as (v & Ev & Ew).
           exists v. split; [auto|].
           rewrite Nat.div_add_l in Ew by auto. rewrite (Nat.div_small r) in Ew by auto.
           rewrite (Nat.add_comm (j * (m * ni))), Nat.mod_add in Ew by auto.
           rewrite (Nat.mod_small r) in Ew by auto. rewrite Nat.add_0_r in Ew.
           rewrite <- Nat.add_assoc in Ew |- *. rewrite U2 by (auto; nia). exact Ew.
        -- cbn [nth_error] in Eq. destruct (V2 q m' xs' Eq j r Hjn Hr) as (v & Ev & Ew).
           exists v. split; [auto|]. rewrite <- Ew. f_equal. cbn [map fst firstn].
           change (list_sum (m :: firstn q (map fst parts))) with (m + list_sum (firstn q (map fst parts))).
           lia.
      * intros j r Hjn Hr. rewrite U2 by (auto; nia). apply U1.
        intros p Hp E.
        assert (p mod (m * ni) < m * ni) by (apply Nat.mod_upper_bound; nia).
        rewrite <- Nat.add_assoc in E. apply radix_inj in E; [|unfold J; nia|unfold J; nia]. lia.
Qed.

End ConcatLoop.

Lemma concat_axis_repr {A} c d1 d2 (ts : list (tensor A)) parts :
  parts <> [] -> joinable d1 d2 ts parts -> length d2 < 5 ->
  supported (d1 ++ list_sum (map fst parts) :: d2) ->
  can_alloc c (prod (d1 ++ list_sum (map fst parts) :: d2)) ->
  exists ys, concat_axis c (length d1) ts = Ok (fresh (d1 ++ list_sum (map fst parts) :: d2) ys) /\
    length ys = prod (d1 ++ list_sum (map fst parts) :: d2) /\
    forall q m xs, nth_error parts q = Some (m, xs) ->
      forall i1 k i2, in_shape d1 i1 -> k < m -> in_shape d2 i2 ->
        elem (d1 ++ list_sum (map fst parts) :: d2) ys
             (i1 ++ (list_sum (firstn q (map fst parts)) + k) :: i2)
        = elem (d1 ++ m :: d2) xs (i1 ++ k :: i2).
Proof.
  intros Hne Hj Hd2 Hsup Hc. set (L := list_sum (map fst parts)) in *.
  assert (HL : (Z.of_nat L < two32)%Z).
  { eapply supported_in; [exact Hsup|]. apply in_or_app. right. left. reflexivity. }
  assert (Hin : supported (d1 ++ d2)) by (eapply supported_drop; exact Hsup).
  assert (Hl6 : length (d1 ++ L :: d2) <= 6) by apply Hsup. rewrite mid_length in Hl6.
  assert (Hlen12 : length (d1 ++ d2) = length d1 + length d2) by apply app_length.
  assert (Ht0 : exists t0 m0 xs0, aget ts 0 = Ok t0 /\ repr t0 (d1 ++ m0 :: d2) xs0).
  { destruct Hj as [|t [m xs] ts' parts' H Hj]; [congruence|]. exists t, m, xs. split; auto. }
  destruct Ht0 as (t0 & m0 & xs0 & Et0 & Hr0).
  assert (Hsizes : sum64 c 0 (map tsize ts) = Ok (prod d1 * (prod d2 * L))).
  { assert (E : list_sum (map tsize ts) = prod d1 * (prod d2 * L)).
    { subst L. clear - Hj. induction Hj as [|t [m xs] ts parts H Hj IH]; [cbn; lia|].
      cbn [map fst snd] in *. change (list_sum (?a :: ?l)) with (a + list_sum l).
      change (list_sum (tsize t :: map tsize ts)) with (tsize t + list_sum (map tsize ts)).
      change (list_sum (m :: map fst parts)) with (m + list_sum (map fst parts)).
      rewrite IH, (repr_size_prod _ _ _ H), prod_app. cbn [prod]. lia. }
    pose proof (supported_prod _ Hsup) as Hp. rewrite prod_app in Hp. cbn [prod] in Hp.
    rewrite sum64_ok; [f_equal; lia|]. rewrite E.
    replace (0 + prod d1 * (prod d2 * L)) with (prod d1 * (L * prod d2)) by lia.
    unfold two32, two64 in *. lia. }
  assert (Hprod : prod (d1 ++ L :: d2) = prod d1 * (prod d2 * L)) by (rewrite prod_app; cbn [prod]; lia).
  assert (Hbody : exists o', 
    (let* '(o, _) := for_each ts (fun t '(o, off) =>
      let* n_axis := dim c (tshape t) (length d1) in
      let* x := as_slice t in
      let* o := for_ (prod d1) (fun j o =>
        for_ n_axis (fun k o =>
          for_ (prod d2) (fun i o =>
            let* v := aget x (j * n_axis * prod d2 + k * prod d2 + i) in
            write o (j * (prod d2 * L) + off + k * prod d2 + i) v) o) o) o in
      Ok (o, off + n_axis * prod d2)) (repeat None (prod d1 * (prod d2 * L)), 0) in Ok o) = Ok o' /\
    length o' = prod d1 * (prod d2 * L) /\
    (forall q m xs, nth_error parts q = Some (m, xs) -> forall j r, j < prod d1 -> r < m * prod d2 ->
       exists v, nth_error xs (j * (m * prod d2) + r) = Some v /\
         nth_error o' (j * (prod d2 * L) + list_sum (firstn q (map fst parts)) * prod d2 + r) = Some (Some v))).
  { destruct (concat_loop c d1 d2 L ts parts 0 (repeat None (prod d1 * (prod d2 * L)))) as (o' & E & El & Ev & _).
    - auto.
    - subst L. lia.
    - now rewrite repeat_length.
    - exists o'. rewrite Nat.mul_0_l in E. rewrite E. cbn [bind]. rewrite repeat_length in El. auto. }
  destruct Hbody as (o' & Eo & Elo & Evo).
  destruct (unsafe_init_total c (prod d1 * (prod d2 * L)) (d1 ++ L :: d2)
    (fun o => let* '(o, _) := for_each ts (fun t '(o, off) =>
      let* n_axis := dim c (tshape t) (length d1) in
      let* x := as_slice t in
      let* o := for_ (prod d1) (fun j o =>
        for_ n_axis (fun k o =>
          for_ (prod d2) (fun i o =>
            let* v := aget x (j * n_axis * prod d2 + k * prod d2 + i) in
            write o (j * (prod d2 * L) + off + k * prod d2 + i) v) o) o) o in
      Ok (o, off + n_axis * prod d2)) (o, 0) in Ok o) o') as (ys & Ey & Ely & Evy); auto.
  - congruence.
  - intros p Hp. set (J := prod d2 * L) in *.
    assert (HJ : J <> 0) by nia.
    assert (Hd2' : prod d2 <> 0) by (subst J; nia).
    assert (Hj' : p / J < prod d1) by (apply Nat.div_lt_upper_bound; lia).
    assert (Hr : p mod J < J) by (apply Nat.mod_upper_bound; auto).
    set (r := p mod J) in *.
    assert (Hx : r / prod d2 < L) by (apply Nat.div_lt_upper_bound; subst J; lia).
    destruct (sum_find (map fst parts) _ Hx) as (q & m & Eq & Bq).
    rewrite nth_error_map in Eq. destruct (nth_error parts q) as [[m' xs]|] eqn:Ep; cbn in Eq; [|discriminate].
    injection Eq as ->.
    pose proof (div_mod_l r (prod d2)) as Hrd.
    assert (Hrm : r mod prod d2 < prod d2) by (apply Nat.mod_upper_bound; auto).
    set (x := r / prod d2) in *. set (S0 := list_sum (firstn q (map fst parts))) in *.
    destruct (Evo q m xs Ep (p / J) ((x - S0) * prod d2 + r mod prod d2) Hj' ltac:(nia)) as (v & _ & Ev).
    exists v. rewrite <- Ev. f_equal. fold S0.
    pose proof (div_mod_l p J) as Hpd. fold r in Hpd. nia.
  - exists ys. split; [|split; [congruence|]].
    + unfold concat_axis. rewrite Et0. cbn [bind].
      rewrite (validate_ok c d1 d2 ts parts) by (auto; unfold two32, two64 in *; subst L; lia). cbn [bind].
      fold L. rewrite (repr_shape _ _ _ Hr0).
      rewrite remove_canon by (try apply Hr0; rewrite mid_length; pose proof (supported_len _ (repr_supported _ _ _ Hr0)) as Q; rewrite mid_length in Q; lia).
      cbn [bind]. rewrite remove_mid, Hsizes. cbn [bind].
      rewrite sublen_canon by (auto; lia). cbn [bind].
      rewrite Nat.sub_0_r. cbn [skipn]. rewrite firstn_app_exact.
      cbn [rank canon].
      replace (if length d1 <? length (d1 ++ d2) then sublen c (canon (d1 ++ d2)) (length d1) (length (d1 ++ d2)) else Ok 1)
        with (Ok (prod d2)).
      2:{ destruct (Nat.ltb_spec (length d1) (length (d1 ++ d2))) as [Hlt|Hge].
          - rewrite sublen_canon by (auto; lia). rewrite skipn_app_exact.
            rewrite firstn_all2 by lia. reflexivity.
          - destruct d2; [reflexivity|]. rewrite app_length in Hge. cbn [length] in Hge. lia. }
      cbn [bind]. rewrite insert_canon by lia. cbn [bind].
      rewrite as_u32_small by auto. rewrite insert_mid. exact Ey.
    + intros q m xs Ep i1 k i2 H1 Hk H2. unfold elem.
      pose proof (ravel_lt _ _ H1) as B1. pose proof (ravel_lt _ _ H2) as B2.
      rewrite !ravel_app by now apply in_shape_length. cbn [ravel prod].
      destruct (Evo q m xs Ep (ravel d1 i1) (k * prod d2 + ravel d2 i2) B1 ltac:(nia)) as (v & Ev1 & Ev2).
      rewrite Ev1. rewrite <- (Evy _ _ Ev2). f_equal. lia.
Qed.

Lemma concatenate_axis_repr {A} c a d1 d2 (ts : list (tensor A)) parts :
  parts <> [] -> joinable d1 d2 ts parts ->
  names_axis a (length d1) (length d1 + 1 + length d2) ->
  concatenate_axis c (Some a) ts = concat_axis c (length d1) ts.
Proof.
  intros Hne Hj Ha. destruct Hj as [|t [m xs] ts parts H Hj]; [congruence|].
  unfold concatenate_axis. cbn [fst snd] in H. pose proof (supported_len _ (repr_supported _ _ _ H)) as Hl.
  rewrite (repr_shape _ _ _ H). cbn [rank canon]. rewrite mid_length in *.
  rewrite (axis_from_rank_named c a (length d1)); [reflexivity|lia|].
  now rewrite Nat.add_assoc.
Qed.

Lemma Forall2_in_r {X Y} (R : X -> Y -> Prop) l r y :
  Forall2 R l r -> In y r -> exists x, In x l /\ R x y.
Proof.
  induction 1 as [|x y' l r H F IH]; intros Hin; [destruct Hin|].
  destruct Hin as [->|Hin]; [exists x; cbn; auto|].
  destruct (IH Hin) as (x' & H1 & H2). exists x'. cbn. auto.
Qed.

(** Tensors whose rank or dimensions outside the axis differ are rejected. *)
Lemma concat_axis_rejects {A} c p (ts : list (tensor A)) parts ds0 xs0 ds xs :
  Forall2 (fun t p => repr t (fst p) (snd p)) ts parts ->
  nth_error parts 0 = Some (ds0, xs0) -> In (ds, xs) parts ->
  (length ds <> length ds0 \/ exists i, i < length ds0 /\ i <> p /\ nth i ds 0 <> nth i ds0 0) ->
  concat_axis c p ts = Panic.
Proof.
  intros F E0 Hin Hbad. unfold concat_axis.
  destruct F as [|t0 p0 ts parts H0 F]; [destruct Hin|]. cbn in E0. injection E0 as ->. cbn [fst snd] in H0.
  cbn [aget nth_error bind].
  assert (E : validate_concat c (t0 :: ts) p = Panic); [|now rewrite E].
  unfold validate_concat. cbn [aget nth_error bind].
  pose proof (Forall2_cons (R := fun t p => repr t (fst p) (snd p)) t0 (ds0, xs0) H0 F) as F'.
  destruct (Forall2_in_r _ _ _ _ F' Hin) as (t & Ht & H). cbn [fst snd] in H.
  pose proof (supported_len _ (repr_supported _ _ _ H0)) as L0.
  pose proof (supported_len _ (repr_supported _ _ _ H)) as L1.
  apply (for_each_panic _ _ _ t); auto.
  - intros s. rewrite (repr_shape _ _ _ H), (repr_shape _ _ _ H0). cbn [rank canon].
    destruct (Nat.eqb_spec (length ds0) (length ds)) as [El|El]; [|reflexivity]. cbn [assert_ bind].
    destruct Hbad as [Hb|(i & Hi & Hip & Hn)]; [lia|].
    apply (for_panic_at _ _ i); auto.
    + intros s'. destruct (Nat.eqb_spec i p); [lia|].
      rewrite !dim_canon by lia. cbn [bind].
      destruct (Nat.eqb_spec (nth i ds 0) (nth i ds0 0)); [lia|reflexivity].
    + intros k s' _. change (safe (if k =? p then
         let* d := dim c (canon ds) p in uadd c s' d
         else let* a := dim c (canon ds) k in let* b := dim c (canon ds0) k in
              assert! (a =? b) in Ok s')). safe.
  - intros y s _. safe.
Qed.

(** ** Stacking *)

(** The same elements seen with an axis of length one inserted. *)
Definition with_unit {A} (d1 d2 : list nat) (t : tensor A) : tensor A :=
  mkTensor (canon (d1 ++ 1 :: d2)) (toffset t) (tsize t) (tdata t).

Lemma supported_unit d1 d2 : supported (d1 ++ d2) -> length (d1 ++ d2) < 6 -> supported (d1 ++ 1 :: d2).
Proof.
  intros [_ H] Hl. split.
  - rewrite mid_length. rewrite app_length in Hl. lia.
  - rewrite map_app, prod_app in *. cbn [map prod]. lia.
Qed.

Lemma with_unit_repr {A} d1 d2 (t : tensor A) xs :
  repr t (d1 ++ d2) xs -> length (d1 ++ d2) < 6 -> repr (with_unit d1 d2 t) (d1 ++ 1 :: d2) xs.
Proof.
  intros [H1 H2 H3 H4 H5 H6] Hl. constructor; cbn [with_unit tshape toffset tsize tdata]; auto.
  - now apply supported_unit.
  - rewrite H4, !prod_app. cbn [prod]. lia.
Qed.

Lemma stackable {A} d1 d2 (ts : list (tensor A)) xss :
  Forall2 (fun t xs => repr t (d1 ++ d2) xs) ts xss -> length (d1 ++ d2) < 6 ->
  joinable d1 d2 (map (with_unit d1 d2) ts) (map (fun xs => (1, xs)) xss).
Proof.
  intros F Hl. induction F; cbn; constructor; auto. cbn [fst snd]. now apply with_unit_repr.
Qed.

Lemma sum_ones {A} (l : list A) : list_sum (map fst (map (fun x => (1, x)) l)) = length l.
Proof. induction l; cbn; auto. Qed.

Lemma sum_ones_firstn {A} (l : list A) q :
  q <= length l -> list_sum (firstn q (map fst (map (fun x => (1, x)) l))) = q.
Proof.
  revert q. induction l as [|x l IH]; intros [|q] Hq; cbn in *; auto; try lia.
  rewrite IH by lia. reflexivity.
Qed.

Lemma stack_loop {A} c d1 d2 n (ts : list (tensor A)) xss j (o : buf A) :
  Forall2 (fun t xs => repr t (d1 ++ d2) xs) ts xss -> length (d1 ++ d2) < 6 ->
  (let* '(o, _) := for_each ts (fun t '(o, j) =>
      assert! (prod (d1 ++ d2) =? tsize t) in
      let* xs := as_slice t in
      let* o := for_ (prod d1) (fun k o =>
        for_ (prod d2) (fun i o =>
          let* v := aget xs (k * prod d2 + i) in
          write o ((k * n + j) * prod d2 + i) v) o) o in
      Ok (o, j + 1)) (o, j) in Ok o)
  = (let* '(o, _) := for_each (map (with_unit d1 d2) ts) (fun t '(o, off) =>
      let* n_axis := dim c (tshape t) (length d1) in
      let* x := as_slice t in
      let* o := for_ (prod d1) (fun j o =>
        for_ n_axis (fun k o =>
          for_ (prod d2) (fun i o =>
            let* v := aget x (j * n_axis * prod d2 + k * prod d2 + i) in
            write o (j * (prod d2 * n) + off + k * prod d2 + i) v) o) o) o in
      Ok (o, off + n_axis * prod d2)) (o, j * prod d2) in Ok o).
Proof.
  intros F Hl. revert j o. induction F as [|t xs ts xss H F IH]; intros j o; [reflexivity|].
  cbn [map for_each]. rewrite (repr_size_prod _ _ _ H), Nat.eqb_refl. cbn [assert_ bind].
  pose proof (with_unit_repr _ _ _ _ H Hl) as Hu.
  rewrite (repr_as_slice _ _ _ H), (repr_as_slice _ _ _ Hu). cbn [bind].
  cbn [with_unit tshape]. rewrite dim_canon by (rewrite mid_length; rewrite app_length in Hl; lia).
  cbn [bind]. rewrite nth_mid.
  match goal with |- bind (bind (bind ?l1 _) _) _ = bind (bind (bind ?l2 _) _) _ => assert (E : l1 = l2) end.
  { apply for_ext. intros k b Hk. symmetry. unfold for_ at 1. cbn [for_from]. rewrite bind_ret.
    apply for_ext. intros i b' Hi. rewrite Nat.mul_1_r, Nat.mul_0_l, !Nat.add_0_r.
    apply bind_ext. intros v _. f_equal. lia. }
  rewrite E. match goal with |- bind (bind (bind ?l2 _) _) _ = _ => destruct l2 as [o1| |] end; cbn [bind]; auto.
  rewrite IH. replace (j * prod d2 + 1 * prod d2) with ((j + 1) * prod d2) by lia. reflexivity.
Qed.

Lemma stack_same_shape {A} ds (ts : list (tensor A)) xss s :
  Forall2 (fun t xs => repr t ds xs) ts xss ->
  (s = None \/ s = Some (canon ds)) ->
  exists s', for_each ts (fun t prev =>
    match prev with
    | None => Ok (Some (tshape t))
    | Some s => assert! (shape_eqb s (tshape t)) in Ok (Some s)
    end) s = Ok s'.
Proof.
  intros F. revert s. induction F as [|t xs ts xss H F IH]; intros s Hs; cbn [for_each]; eauto.
  destruct Hs as [->| ->]; cbn [bind]; rewrite (repr_shape _ _ _ H).
  - apply IH. auto.
  - replace (shape_eqb (canon ds) (canon ds)) with true by (symmetry; now apply shape_eqb_canon).
    cbn [assert_ bind]. apply IH. auto.
Qed.

Lemma stack_vec_repr {A} c ax d1 d2 (ts : list (tensor A)) xss :
  xss <> [] -> Forall2 (fun t xs => repr t (d1 ++ d2) xs) ts xss ->
  axis_from_rank c ax (length (d1 ++ d2) + 1) = Ok (length d1) ->
  0 < prod d2 -> length d2 < 5 -> supported (d1 ++ length xss :: d2) ->
  can_alloc c (prod (d1 ++ length xss :: d2)) ->
  exists ys, stack_vec c ax ts = Ok (fresh (d1 ++ length xss :: d2) ys) /\
    length ys = prod (d1 ++ length xss :: d2) /\
    forall q xs, nth_error xss q = Some xs ->
      forall i1 i2, in_shape d1 i1 -> in_shape d2 i2 ->
        elem (d1 ++ length xss :: d2) ys (i1 ++ q :: i2) = elem (d1 ++ d2) xs (i1 ++ i2).
Proof.
  intros Hne F Hax Hp2 Hd2 Hsup Hc.
  assert (Hl : length (d1 ++ d2) < 6).
  { pose proof (supported_len _ Hsup) as L. rewrite mid_length in L. rewrite app_length. lia. }
  pose proof (stackable _ _ _ _ F Hl) as Hj.
  assert (Hlts : length ts = length xss) by (clear -F; induction F; cbn; congruence).
  assert (Hn : 0 < length xss) by (destruct xss; [congruence|cbn; lia]).
  destruct (concat_axis_repr c d1 d2 (map (with_unit d1 d2) ts) (map (fun xs => (1, xs)) xss)) as (ys & E & El & Ev).
  - destruct xss; [congruence|discriminate].
  - auto.
  - auto.
  - now rewrite sum_ones.
  - now rewrite sum_ones.
  - rewrite sum_ones in *. exists ys. split; [|split; auto].
    + rewrite <- E.
      assert (Ht0 : exists t0 xs0 ts0 xss0, ts = t0 :: ts0 /\ xss = xs0 :: xss0 /\ repr t0 (d1 ++ d2) xs0).
      { destruct F; [congruence|]. eexists _, _, _, _. split; [reflexivity|]. split; [reflexivity|auto]. }
      destruct Ht0 as (t0 & xs0 & ts0 & xss0 & Et & Ex & H0).
      unfold stack_vec.
      destruct (stack_same_shape (d1 ++ d2) ts xss None F (or_introl eq_refl)) as (s' & Es). rewrite Es. cbn [bind].
      unfold concat_axis. rewrite (validate_ok c d1 d2 _ (map (fun xs => (1, xs)) xss)).
      2:{ destruct xss; [congruence|discriminate]. }
      2: auto.
      2:{ rewrite sum_ones. assert (Q : In (length xss) (d1 ++ length xss :: d2)) by (apply in_or_app; right; left; auto).
          pose proof (supported_in _ _ Hsup Q). unfold two32, two64 in *. lia. }
      rewrite sum_ones. replace (map tsize (map (with_unit d1 d2) ts)) with (map tsize ts) by (rewrite map_map; reflexivity).
      assert (Ea : aget ts 0 = Ok t0) by now rewrite Et.
      assert (Ea' : aget (map (with_unit d1 d2) ts) 0 = Ok (with_unit d1 d2 t0)) by now rewrite Et.
      rewrite Ea, Ea'. cbn [bind]. rewrite (repr_shape _ _ _ H0). cbn [with_unit tshape].
      change (rank (canon (d1 ++ d2))) with (length (d1 ++ d2)). rewrite Hax. cbn [bind].
      pose proof (repr_supported _ _ _ H0) as Hs0.
      assert (L12 : length (d1 ++ d2) = length d1 + length d2) by apply app_length.
      rewrite size_canon by auto. cbn [bind].
      rewrite sublen_canon by (auto; lia). cbn [bind]. rewrite skipn_app_exact, firstn_all2 by lia.
      rewrite udiv_ok by lia. cbn [bind].
      rewrite remove_canon by (rewrite mid_length; lia). cbn [bind]. rewrite remove_mid.
      rewrite sublen_canon by (auto; lia). cbn [bind]. rewrite Nat.sub_0_r. cbn [skipn]. rewrite firstn_app_exact.
      change (rank (canon (d1 ++ d2))) with (length (d1 ++ d2)).
      replace (if length d1 <? length (d1 ++ d2) then sublen c (canon (d1 ++ d2)) (length d1) (length (d1 ++ d2)) else Ok 1)
        with (Ok (prod d2)).
      2:{ destruct (Nat.ltb_spec (length d1) (length (d1 ++ d2))) as [Hlt|Hge].
          - rewrite sublen_canon by (auto; lia). rewrite skipn_app_exact.
            rewrite firstn_all2 by lia. reflexivity.
          - destruct d2; [reflexivity|]. rewrite app_length in Hge. cbn [length] in Hge. lia. }
      cbn [bind]. rewrite Hlts.
      assert (Hq : prod (d1 ++ d2) / prod d2 = prod d1) by (rewrite prod_app; apply Nat.div_mul; lia).
      rewrite Hq.
      apply bind_ext. intros ol _. apply bind_ext. intros os _.
      unfold unsafe_init_, unsafe_init. apply f_equal2; [|reflexivity]. apply bind_ext. intros b _.
      rewrite (stack_loop c d1 d2 (length xss) ts xss 0 b F Hl). rewrite Nat.mul_0_l. reflexivity.
    + intros q xs Eq i1 i2 H1 H2.
      assert (Hq : q < length xss) by (apply nth_error_Some; congruence).
      specialize (Ev q 1 xs). rewrite nth_error_map, Eq in Ev. specialize (Ev eq_refl i1 0 i2 H1 ltac:(lia) H2).
      rewrite sum_ones_firstn, Nat.add_0_r in Ev by lia. rewrite Ev. unfold elem. f_equal.
      rewrite !ravel_app by now apply in_shape_length. cbn [ravel prod]. lia.
Qed.
