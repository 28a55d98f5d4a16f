(** * Lemmas about operators on whole tensors *)
From Verif Require Import Base ShapeModel TensorModel AxisModel MapModel NumModel Spec MapSpec AlgSpec
  BaseFacts CoordFacts ShapeFacts ShapeProofs TensorFacts MapFacts MapProofs.

(** The common dimensions of two broadcast operands. *)
Definition join (da db : list nat) : option (list nat) :=
  if suffix_dec db da then Some da else if suffix_dec da db then Some db else None.

Lemma join_some da db dl :
  join da db = Some dl -> (suffix db da /\ dl = da) \/ (suffix da db /\ dl = db).
Proof. unfold join. destruct (suffix_dec db da), (suffix_dec da db); intros [= <-]; auto. Qed.

Lemma join_none da db : join da db = None -> ~ suffix da db /\ ~ suffix db da.
Proof. unfold join. destruct (suffix_dec db da), (suffix_dec da db); try discriminate; auto. Qed.

Lemma join_suffix da db dl : join da db = Some dl -> suffix da dl /\ suffix db dl.
Proof. intros H. apply join_some in H. destruct H as [[? ->]|[? ->]]; split; auto; apply suffix_self. Qed.

Lemma join_comm da db : join da db = join db da.
Proof.
  unfold join. destruct (suffix_dec db da), (suffix_dec da db); auto. f_equal. now apply suffix_antisym'.
Qed.

Lemma join_self da : join da da = Some da.
Proof. unfold join. destruct (suffix_dec da da) as [|n]; auto. destruct n. apply suffix_self. Qed.

Lemma join_of da db : suffix db da -> join da db = Some da.
Proof. intros. unfold join. now destruct (suffix_dec db da). Qed.

Definition join_opt (a b : option (list nat)) : option (list nat) :=
  match a, b with Some a, Some b => join a b | _, _ => None end.

Lemma join_assoc da db dd :
  join_opt (join da db) (Some dd) = join_opt (Some da) (join db dd).
Proof.
  unfold join.
  destruct (suffix_dec db da) as [Hba|Hba], (suffix_dec dd db) as [Hdb|Hdb];
    try destruct (suffix_dec da db) as [Hab|Hab]; try destruct (suffix_dec db dd) as [Hbd|Hbd];
    cbn [join_opt]; unfold join;
    repeat match goal with |- context [suffix_dec ?x ?y] => destruct (suffix_dec x y) end;
    auto; exfalso; eauto using suffix_trans;
    try (match goal with
         | H1 : suffix ?x ?z, H2 : suffix ?y ?z |- _ =>
           destruct (suffix_both _ _ _ H1 H2); now eauto using suffix_trans
         end).
Qed.

Lemma join_distrib da db dd :
  join_opt (Some da) (join db dd) = join_opt (join da db) (join da dd).
Proof.
  rewrite <- join_assoc. destruct (join da db) as [l|] eqn:E; auto. cbn [join_opt].
  pose proof (join_suffix _ _ _ E) as [Sa Sb].
  assert (X : join_opt (join l da) (Some dd) = join_opt (Some l) (join da dd)) by apply join_assoc.
  rewrite (join_of l da Sa) in X. exact X.
Qed.

(** The elements of a broadcast operand by position. *)
Definition at_ {A} (d : A) (xs : list A) (k : nat) : A := nth (k mod length xs) xs d.

Definition bz {T U V} (f : T -> U -> V) dx dy (xs : list T) (ys : list U) (n : nat) : list V :=
  map (fun k => f (at_ dx xs k) (at_ dy ys k)) (seq 0 n).

Lemma cyc_combine {T U} (dx : T) (dy : U) xs ys n :
  xs <> [] -> ys <> [] -> Nat.divide (length xs) n -> Nat.divide (length ys) n ->
  combine (cyc n xs) (cyc n ys) = map (fun k => (at_ dx xs k, at_ dy ys k)) (seq 0 n).
Proof.
  intros Hx Hy Dx Dy.
  assert (Hx0 : length xs <> 0) by (destruct xs; cbn; congruence).
  assert (Hy0 : length ys <> 0) by (destruct ys; cbn; congruence).
  apply nth_error_ext. intros k. rewrite combine_nth_error. destruct (Nat.lt_ge_cases k n) as [L|L].
  - rewrite !cyc_nth by auto. rewrite nth_error_map_seq by auto. unfold at_. cbn [Nat.add].
    rewrite !(nth_error_nth' _ (n := _ mod _)) with (d := dx) by now apply Nat.mod_upper_bound.
    rewrite (nth_error_nth' ys dy) by now apply Nat.mod_upper_bound. reflexivity.
  - rewrite (proj2 (nth_error_None (cyc n xs) k)) by (rewrite cyc_length; auto).
    symmetry. apply nth_error_None. now rewrite map_length, seq_length.
Qed.

Lemma traverse_all {X Y} (h : X -> Y) (f : unit -> X -> outcome (unit * Y)) l :
  (forall x, f tt x = Ok (tt, h x)) -> traverse f tt l = Ok (tt, map h l).
Proof. intros H. induction l as [|x l IH]; auto. cbn [traverse map]. rewrite H. cbn [bind]. now rewrite IH. Qed.

Lemma binop_tt_join {T U V} c (ta : tensor T) (tb : tensor U) da db dl xs ys (f : T -> U -> V) dx dy :
  repr ta da xs -> repr tb db ys -> xs <> [] -> ys <> [] -> join da db = Some dl ->
  binop_tt c ta tb (ok2 f) = Ok (fresh dl (bz f dx dy xs ys (prod dl))).
Proof.
  intros Ha Hb Hx Hy Hj. unfold binop_tt.
  rewrite (map2_repr c ta tb da db dl xs ys _ _ Ha Hb Hx Hy (join_some _ _ _ Hj)).
  pose proof (join_suffix _ _ _ Hj) as [Sa Sb].
  rewrite (cyc_combine dx dy) by (auto; rewrite ?(repr_len _ _ _ Ha), ?(repr_len _ _ _ Hb); now apply suffix_divide).
  rewrite (traverse_all (fun p => f (fst p) (snd p))) by now intros [x y].
  cbn [bind]. unfold bz. now rewrite map_map.
Qed.

Lemma binop_tt_panic {T U V} c (ta : tensor T) (tb : tensor U) da db xs ys (op : T -> U -> outcome V) :
  repr ta da xs -> repr tb db ys -> join da db = None \/ xs = [] \/ ys = [] ->
  binop_tt c ta tb op = Panic.
Proof.
  intros Ha Hb Hj. unfold binop_tt. rewrite (c27_map2_rejects c ta tb da db xs ys); auto.
  destruct Hj as [H|H]; auto. left. now apply join_none.
Qed.

Lemma bz_length {T U V} (f : T -> U -> V) dx dy xs ys n : length (bz f dx dy xs ys n) = n.
Proof. unfold bz. now rewrite map_length, seq_length. Qed.

Lemma bz_repr {T U V} (f : T -> U -> V) dx dy xs ys dl :
  supported dl -> repr (fresh dl (bz f dx dy xs ys (prod dl))) dl (bz f dx dy xs ys (prod dl)).
Proof. intros. apply repr_fresh; auto. apply bz_length. Qed.

Lemma at_bz {T U V} (f : T -> U -> V) dx dy dv xs ys n k :
  n <> 0 -> at_ dv (bz f dx dy xs ys n) k = f (at_ dx xs (k mod n)) (at_ dy ys (k mod n)).
Proof.
  intros Hn. unfold at_ at 1. rewrite bz_length. unfold bz.
  pose proof (Nat.mod_upper_bound k n Hn).
  rewrite (nth_indep _ dv (f (at_ dx xs 0) (at_ dy ys 0))) by now rewrite map_length, seq_length.
  rewrite (map_nth (fun k => f (at_ dx xs k) (at_ dy ys k))). now rewrite seq_nth.
Qed.

Lemma at_mod {A} (d : A) xs n k : n <> 0 -> Nat.divide (length xs) n -> at_ d xs (k mod n) = at_ d xs k.
Proof.
  intros Hn [q ->]. unfold at_. f_equal. assert (length xs <> 0) by lia.
  rewrite Nat.mul_comm. rewrite Nat.mod_mul_r by lia.
  rewrite Nat.add_mod, (Nat.mul_comm (length xs)), Nat.mod_mul, Nat.add_0_r by lia.
  now rewrite !Nat.mod_mod by lia.
Qed.

Lemma join_supported da db dl : supported da -> supported db -> join da db = Some dl -> supported dl.
Proof. intros. apply join_some in H1. destruct H1 as [[? ->]|[? ->]]; auto. Qed.

Lemma repr_nonempty {A} (t : tensor A) ds xs : repr t ds xs -> xs <> [] -> prod ds <> 0.
Proof. intros H Hx. rewrite <- (repr_len _ _ _ H). destruct xs; cbn; congruence. Qed.

Lemma list_nil_dec {A} (l : list A) : {l = []} + {l <> []}.
Proof. destruct l; [now left|right; discriminate]. Qed.

Lemma join_prod da db dl : join da db = Some dl -> prod da <> 0 -> prod db <> 0 -> prod dl <> 0.
Proof. intros H. apply join_some in H. destruct H as [[? ->]|[? ->]]; auto. Qed.

Lemma bz_nonempty {T U V} (f : T -> U -> V) dx dy xs ys n : n <> 0 -> bz f dx dy xs ys n <> [].
Proof. intros Hn E. apply Hn. rewrite <- (bz_length f dx dy xs ys n), E. reflexivity. Qed.

Lemma bz_ext {T U V} (g : nat -> V) (f : T -> U -> V) dx dy xs ys n :
  (forall k, k < n -> f (at_ dx xs k) (at_ dy ys k) = g k) -> bz f dx dy xs ys n = map g (seq 0 n).
Proof. intros H. apply map_ext_in. intros k Hk. apply in_seq in Hk. apply H. lia. Qed.

(** ** Sums in a commutative semigroup *)

Section Semigroup.
  Context {T : Type} (f : T -> T -> T).
  Context (fA : forall x y z, f (f x y) z = f x (f y z)).
  Context (fC : forall x y, f x y = f y x).

  (** The semigroup with a neutral element added. *)
  Definition oadd (a b : option T) : option T :=
    match a, b with
    | Some x, Some y => Some (f x y)
    | None, b => b
    | a, None => a
    end.

  Lemma oadd_assoc a b d : oadd (oadd a b) d = oadd a (oadd b d).
  Proof. destruct a, b, d; cbn; auto. now rewrite fA. Qed.
  Lemma oadd_comm a b : oadd a b = oadd b a.
  Proof. destruct a, b; cbn; auto. now rewrite fC. Qed.
  Lemma oadd_none a : oadd a None = a.
  Proof. now destruct a. Qed.
  Lemma oadd_swap a b d e : oadd (oadd a b) (oadd d e) = oadd (oadd a d) (oadd b e).
  Proof. rewrite !oadd_assoc. f_equal. rewrite <- !oadd_assoc. f_equal. apply oadd_comm. Qed.

  Fixpoint bsum (n : nat) (g : nat -> option T) : option T :=
    match n with
    | 0 => None
    | S n => oadd (bsum n g) (g n)
    end.

  Lemma bsum_ext n g h : (forall k, k < n -> g k = h k) -> bsum n g = bsum n h.
  Proof. clear fA fC. induction n as [|n IH]; intros H; auto. cbn. now rewrite IH, H by auto. Qed.

  Lemma bsum_none n : bsum n (fun _ => None) = None.
  Proof. clear fA fC. induction n as [|n IH]; auto. cbn. now rewrite IH. Qed.

  Lemma bsum_add n g h : bsum n (fun k => oadd (g k) (h k)) = oadd (bsum n g) (bsum n h).
  Proof. induction n as [|n IH]; auto. cbn. now rewrite IH, oadd_swap. Qed.

  Lemma bsum_swap m n (g : nat -> nat -> option T) :
    bsum m (fun k => bsum n (g k)) = bsum n (fun j => bsum m (fun k => g k j)).
  Proof.
    induction m as [|m IH]; cbn; [now rewrite bsum_none|]. now rewrite bsum_add, IH.
  Qed.

  Lemma bsum_app m n g : bsum (m + n) g = oadd (bsum m g) (bsum n (fun k => g (m + k))).
  Proof.
    induction n as [|n IH]; cbn; [now rewrite Nat.add_0_r, oadd_none|].
    rewrite Nat.add_succ_r. cbn. now rewrite IH, oadd_assoc.
  Qed.

  Lemma bsum_mul n m g : bsum (n * m) g = bsum n (fun i => bsum m (fun j => g (i * m + j))).
  Proof.
    induction n as [|n IH]; auto. cbn [Nat.mul]. rewrite Nat.add_comm, bsum_app, IH. reflexivity.
  Qed.

  Lemma bsum_some n g : 0 < n -> (forall k, k < n -> g k <> None) -> bsum n g <> None.
  Proof. clear fA fC.
    destruct n as [|n]; [lia|]. intros _ H. cbn. specialize (H n (Nat.lt_succ_diag_r n)).
    destruct (bsum n g), (g n); cbn; congruence.
  Qed.

  Lemma fold_bsum x l : Some (fold_left f l x) = bsum (S (length l)) (nth_error (x :: l)).
  Proof. clear fA fC.
    induction l as [|y l IH] using rev_ind; auto.
    rewrite fold_left_app, app_length. cbn [fold_left length]. rewrite Nat.add_1_r.
    cbn [bsum] in *. change (oadd (bsum (length l) (nth_error (x :: l ++ [y]))) (nth_error (x :: l ++ [y]) (length l)))
      with (bsum (S (length l)) (nth_error (x :: l ++ [y]))).
    rewrite (bsum_ext _ _ (nth_error (x :: l))).
    - cbn [bsum]. rewrite <- IH. change (x :: l ++ [y]) with ((x :: l) ++ [y]).
      rewrite nth_error_app2 by (cbn; lia). cbn [length]. now rewrite Nat.sub_diag.
    - intros k Hk. change (x :: l ++ [y]) with ((x :: l) ++ [y]). apply nth_error_app1. cbn. lia.
  Qed.
End Semigroup.
