(** * Lemmas about the run-time vocabulary *)
From Coq Require Import ZifyBool ZifyNat ZifyN.
From Verif Require Import Base ShapeModel TensorModel Spec.

Ltac Zify.zify_post_hook ::= Z.div_mod_to_equations.

#[global] Arguments Nat.sub : simpl never.
#[global] Arguments Nat.max : simpl never.
#[global] Arguments Nat.min : simpl never.
#[global] Arguments Nat.ltb : simpl never.
#[global] Arguments Nat.leb : simpl never.
#[global] Arguments Nat.eqb : simpl never.
#[global] Arguments Nat.div : simpl never.
#[global] Arguments Nat.modulo : simpl never.
#[global] Arguments Z.of_nat : simpl never.
#[global] Arguments Z.to_nat : simpl never.
#[global] Arguments as_u32 : simpl never.
#[global] Arguments as_usize : simpl never.

(** ** Arithmetic *)

Lemma arith_ok c m v : (0 <= v < m)%Z -> arith c m v = Ok (Z.to_nat v).
Proof.
  intros H. unfold arith.
  replace ((0 <=? v)%Z && (v <? m)%Z) with true; [reflexivity | lia].
Qed.

Lemma arith_panic c m v :
  ~ (0 <= v < m)%Z -> overflow_checks c = true -> arith c m v = Panic.
Proof.
  intros H Hc. unfold arith.
  replace ((0 <=? v)%Z && (v <? m)%Z) with false by lia. now rewrite Hc.
Qed.

Lemma arith_wrap c m v :
  ~ (0 <= v < m)%Z -> overflow_checks c = false -> arith c m v = Ok (Z.to_nat (v mod m)).
Proof.
  intros H Hc. unfold arith.
  replace ((0 <=? v)%Z && (v <? m)%Z) with false by lia. now rewrite Hc.
Qed.

Lemma uadd_ok c a b : (Z.of_nat a + Z.of_nat b < two64)%Z -> uadd c a b = Ok (a + b).
Proof. intros H. unfold uadd. rewrite arith_ok by lia. f_equal; lia. Qed.

Lemma umul_ok c a b : (Z.of_nat a * Z.of_nat b < two64)%Z -> umul c a b = Ok (a * b).
Proof. intros H. unfold umul. rewrite arith_ok by nia. f_equal; nia. Qed.

Lemma mul32_ok c a b : (Z.of_nat a * Z.of_nat b < two32)%Z -> mul32 c a b = Ok (a * b).
Proof. intros H. unfold mul32. rewrite arith_ok by nia. f_equal; nia. Qed.

Lemma usub_ok c a b : b <= a -> (Z.of_nat a < two64)%Z -> usub c a b = Ok (a - b).
Proof. intros H H'. unfold usub. rewrite arith_ok by lia. f_equal; lia. Qed.

(** A subtraction that underflows panics, or yields a number no array index can reach. *)
Lemma usub_under c a b :
  a < b -> (Z.of_nat b < two63)%Z ->
  usub c a b = Panic \/ exists k, usub c a b = Ok k /\ (two63 <= Z.of_nat k)%Z.
Proof.
  intros H Hb. unfold usub. unfold two63 in *.
  destruct (overflow_checks c) eqn:E.
  - left. apply arith_panic; [lia | assumption].
  - right. rewrite arith_wrap by (try assumption; lia).
    eexists; split; [reflexivity|].
    unfold two64. lia.
Qed.

Lemma as_u32_small n : (Z.of_nat n < two32)%Z -> as_u32 n = n.
Proof. unfold as_u32, two32. intros. rewrite Z.mod_small; lia. Qed.

Lemma as_u32_lt n : (Z.of_nat (as_u32 n) < two32)%Z.
Proof. unfold as_u32, two32. lia. Qed.

Lemma as_usize_small z : (0 <= z < two64)%Z -> as_usize z = Z.to_nat z.
Proof. unfold as_usize, two64. intros. rewrite Z.mod_small; lia. Qed.

Lemma iadd_ok c a b : (- two63 <= a + b < two63)%Z -> iadd c a b = Ok (a + b)%Z.
Proof.
  intros H. unfold iadd, isize_ok.
  replace ((- two63 <=? a + b)%Z && (a + b <? two63)%Z) with true; [reflexivity | lia].
Qed.

Lemma udiv_ok a b : b <> 0 -> udiv a b = Ok (a / b).
Proof. intros. unfold udiv. destruct (Nat.eqb_spec b 0); congruence. Qed.
Lemma urem_ok a b : b <> 0 -> urem a b = Ok (a mod b).
Proof. intros. unfold urem. destruct (Nat.eqb_spec b 0); congruence. Qed.

(** ** Lists *)

Lemma set_nth_length {A} (l : list A) i v : length (set_nth l i v) = length l.
Proof. revert i; induction l; intros [|i]; cbn; auto. Qed.

Lemma nth_error_set_nth_eq {A} (l : list A) i v :
  i < length l -> nth_error (set_nth l i v) i = Some v.
Proof. revert i; induction l; intros [|i] H; cbn in *; auto; try lia. apply IHl. lia. Qed.

Lemma nth_error_set_nth_neq {A} (l : list A) i j v :
  i <> j -> nth_error (set_nth l i v) j = nth_error l j.
Proof.
  revert i j; induction l; intros [|i] [|j] H; cbn in *; auto; try lia.
Qed.

Lemma set_nth_app_r {A} (l r : list A) i v :
  length l <= i -> set_nth (l ++ r) i v = l ++ set_nth r (i - length l) v.
Proof.
  revert i; induction l; intros i H; cbn in *.
  - now rewrite Nat.sub_0_r.
  - destruct i; [lia|]. cbn. now rewrite IHl by lia.
Qed.

Lemma set_nth_app_l {A} (l r : list A) i v :
  i < length l -> set_nth (l ++ r) i v = set_nth l i v ++ r.
Proof.
  revert i; induction l; intros [|i] H; cbn in *; auto; try lia. now rewrite IHl by lia.
Qed.

Lemma set_nth_middle {A} (l r : list A) x v :
  set_nth (l ++ x :: r) (length l) v = l ++ v :: r.
Proof. rewrite set_nth_app_r by lia. now rewrite Nat.sub_diag. Qed.

Lemma set_nth_replace_at {A} (l : list A) i v :
  set_nth l i v = replace_at i v l.
Proof.
  unfold replace_at. revert i; induction l; intros [|i]; cbn; auto. f_equal. apply IHl.
Qed.

Lemma aget_ok {A} (l : list A) i v : nth_error l i = Some v -> aget l i = Ok v.
Proof. unfold aget. now intros ->. Qed.

Lemma aget_nth {A} (l : list A) i d : i < length l -> aget l i = Ok (nth i l d).
Proof. intros H. apply aget_ok. now apply nth_error_nth'. Qed.

Lemma aget_none {A} (l : list A) i : length l <= i -> aget l i = Panic.
Proof. unfold aget. intros H. now rewrite (proj2 (nth_error_None l i) H). Qed.

Lemma aget_app_mid {A} (l r : list A) x : aget (l ++ x :: r) (length l) = Ok x.
Proof. unfold aget. rewrite nth_error_app2 by lia. now rewrite Nat.sub_diag. Qed.

Lemma aset_ok {A} (l : list A) i v : i < length l -> aset l i v = Ok (set_nth l i v).
Proof. intros H. unfold aset. destruct (Nat.ltb_spec i (length l)); [auto | lia]. Qed.

Lemma aset_none {A} (l : list A) i v : length l <= i -> aset l i v = Panic.
Proof. intros H. unfold aset. destruct (Nat.ltb_spec i (length l)); [lia | auto]. Qed.

Lemma aslice_ok {A} (l : list A) a b :
  a <= b -> b <= length l -> aslice l a b = Ok (firstn (b - a) (skipn a l)).
Proof.
  intros. unfold aslice.
  destruct (Nat.leb_spec a b), (Nat.leb_spec b (length l)); cbn; auto; lia.
Qed.

Lemma assert_true b : b = true -> assert_ b = Ok tt.
Proof. now intros ->. Qed.
Lemma assert_false b : b = false -> assert_ b = Panic.
Proof. now intros ->. Qed.

Lemma skipn_app_exact {A} (l r : list A) : skipn (length l) (l ++ r) = r.
Proof. induction l; cbn; auto. Qed.
Lemma firstn_app_exact {A} (l r : list A) : firstn (length l) (l ++ r) = l.
Proof. induction l; cbn; auto. now f_equal. Qed.

Lemma nth_error_ext {A} (a b : list A) :
  (forall i, nth_error a i = nth_error b i) -> a = b.
Proof.
  revert b; induction a; intros [|y b] H; auto.
  - specialize (H 0); discriminate.
  - specialize (H 0); discriminate.
  - pose proof (H 0) as H0; cbn in H0. injection H0 as ->.
    f_equal. apply IHa. intros i. apply (H (S i)).
Qed.

Lemma nth_error_seq a n i : i < n -> nth_error (seq a n) i = Some (a + i).
Proof.
  revert a i; induction n; intros a i H; [lia|].
  destruct i; cbn; [f_equal; lia|]. rewrite IHn by lia. f_equal; lia.
Qed.

Lemma nth_error_map_seq {A} (f : nat -> A) a n i :
  i < n -> nth_error (map f (seq a n)) i = Some (f (a + i)).
Proof. intros. now rewrite nth_error_map, nth_error_seq. Qed.

Lemma nth_error_Some_lt {A} (l : list A) i v : nth_error l i = Some v -> i < length l.
Proof. intros H. apply nth_error_Some. congruence. Qed.

Lemma nth_error_lt_ex {A} (l : list A) i : i < length l -> exists v, nth_error l i = Some v.
Proof. intros H. destruct (nth_error l i) eqn:E; eauto. apply nth_error_None in E. lia. Qed.

Lemma nth_error_firstn {A} (l : list A) n i :
  nth_error (firstn n l) i = if i <? n then nth_error l i else None.
Proof.
  revert l i; induction n; intros l i.
  - destruct i; reflexivity.
  - destruct l, i; cbn [firstn nth_error]; auto.
    + now destruct (S i <? S n).
    + rewrite IHn. reflexivity.
Qed.

Lemma nth_error_skipn {A} (l : list A) n i : nth_error (skipn n l) i = nth_error l (n + i).
Proof. revert l; induction n; intros [|x l]; cbn; auto. destruct i; auto. Qed.

Lemma nth_error_repeat' {A} (x : A) n i :
  nth_error (repeat x n) i = if i <? n then Some x else None.
Proof.
  destruct (Nat.ltb_spec i n).
  - now apply nth_error_repeat.
  - apply nth_error_None. now rewrite repeat_length.
Qed.

(** ** Loops *)

Lemma for_from_0 {S} i (body : nat -> S -> outcome S) s : for_from i 0 body s = Ok s.
Proof. reflexivity. Qed.

Lemma for_from_S {S} i n (body : nat -> S -> outcome S) s :
  for_from i (Datatypes.S n) body s = let* s' := body i s in for_from (Datatypes.S i) n body s'.
Proof. reflexivity. Qed.

Lemma bind_ret {A} (x : outcome A) : (let* a := x in Ok a) = x.
Proof. destruct x; reflexivity. Qed.

Lemma bind_assoc {A B C} (x : outcome A) (f : A -> outcome B) (g : B -> outcome C) :
  bind (bind x f) g = bind x (fun a => bind (f a) g).
Proof. destruct x; reflexivity. Qed.

Lemma bind_ext {A B} (x : outcome A) (f g : A -> outcome B) :
  (forall a, x = Ok a -> f a = g a) -> bind x f = bind x g.
Proof. destruct x; cbn; auto. Qed.

Lemma for_from_ext {S} i n (b1 b2 : nat -> S -> outcome S) s :
  (forall k s, i <= k < i + n -> b1 k s = b2 k s) -> for_from i n b1 s = for_from i n b2 s.
Proof.
  revert i s; induction n; intros i s H; auto.
  rewrite !for_from_S, H by lia. apply bind_ext. intros s' _.
  apply IHn. intros. apply H. lia.
Qed.

Lemma for_ext {S} n (b1 b2 : nat -> S -> outcome S) s :
  (forall k s, k < n -> b1 k s = b2 k s) -> for_ n b1 s = for_ n b2 s.
Proof. intros. apply for_from_ext. intros. apply H. lia. Qed.

(** Invariant rule: the loop finishes and the invariant holds at the end. *)
Lemma for_from_inv {S} (P : nat -> S -> Prop) i n (body : nat -> S -> outcome S) s :
  (forall k s, i <= k < i + n -> P k s -> exists s', body k s = Ok s' /\ P (Datatypes.S k) s') ->
  P i s -> exists s', for_from i n body s = Ok s' /\ P (i + n) s'.
Proof.
  revert i s; induction n; intros i s H Hi.
  - exists s. rewrite Nat.add_0_r. auto.
  - rewrite for_from_S. destruct (H i s) as (s' & E & Hs'); [lia | auto |]. rewrite E. cbn.
    destruct (IHn (Datatypes.S i) s') as (s'' & E' & H'').
    + intros. apply H; auto; lia.
    + auto.
    + exists s''. split; auto. now replace (i + Datatypes.S n) with (Datatypes.S i + n) by lia.
Qed.

Lemma for_inv {S} (P : nat -> S -> Prop) n (body : nat -> S -> outcome S) s :
  (forall k s, k < n -> P k s -> exists s', body k s = Ok s' /\ P (Datatypes.S k) s') ->
  P 0 s -> exists s', for_ n body s = Ok s' /\ P n s'.
Proof. intros H H0. apply (for_from_inv P 0 n); auto. intros. apply H; auto; lia. Qed.

Lemma for_from_app {S} i n m (body : nat -> S -> outcome S) s :
  for_from i (n + m) body s = let* s' := for_from i n body s in for_from (i + n) m body s'.
Proof.
  revert i s; induction n; intros i s; cbn.
  - now rewrite Nat.add_0_r.
  - rewrite bind_assoc. apply bind_ext. intros a _. rewrite IHn. cbn.
    now replace (i + Datatypes.S n) with (Datatypes.S (i + n)) by lia.
Qed.

(** Shifting the loop variable. *)
Lemma for_from_shift {S} a j n (body : nat -> S -> outcome S) s :
  for_from (a + j) n body s = for_from j n (fun k => body (a + k)) s.
Proof.
  revert j s; induction n; intros j s; cbn; auto. apply bind_ext. intros s' _.
  rewrite <- IHn. f_equal. lia.
Qed.

Lemma for_range_shift {S} a b (body : nat -> S -> outcome S) s :
  for_range a b body s = for_ (b - a) (fun k => body (a + k)) s.
Proof.
  unfold for_range, for_. rewrite <- for_from_shift. now rewrite Nat.add_0_r.
Qed.

(** Two nested counting loops are one loop over the product. *)
Lemma for_nest {S} n m (body : nat -> nat -> S -> outcome S) s :
  for_ n (fun i => for_ m (body i)) s
  = for_ (n * m) (fun p => body (p / m) (p mod m)) s.
Proof.
  unfold for_. destruct (Nat.eq_dec m 0) as [->|Hm].
  { rewrite Nat.mul_0_r. cbn. generalize 0. induction n; intros; cbn; auto. }
  assert (G : forall a s, for_from a n (fun i => for_from 0 m (body i)) s
    = for_from (a * m) (n * m) (fun p => body (p / m) (p mod m)) s).
  { induction n; intros a s'; auto.
    rewrite for_from_S. cbn [Nat.mul]. rewrite for_from_app.
    replace (for_from (a * m) m (fun p => body (p / m) (p mod m)) s')
      with (for_from 0 m (body a) s').
    - apply bind_ext. intros. rewrite IHn. f_equal; lia.
    - rewrite <- (Nat.add_0_r (a * m)) at 1. rewrite for_from_shift.
      apply for_from_ext. intros k s'' Hk.
      assert ((a * m + k) / m = a) as ->.
      { rewrite Nat.div_add_l by auto. rewrite Nat.div_small; lia. }
      assert ((a * m + k) mod m = k) as ->.
      { rewrite Nat.add_comm, Nat.mod_add by auto. apply Nat.mod_small; lia. }
      reflexivity. }
  exact (G 0 s).
Qed.

Lemma for_each_app {A S} (l r : list A) (body : A -> S -> outcome S) s :
  for_each (l ++ r) body s = let* s' := for_each l body s in for_each r body s'.
Proof.
  revert s; induction l; intros s; cbn; auto. rewrite bind_assoc. now apply bind_ext.
Qed.

(** ** Buffers *)

Lemma write_ok {A} (b : buf A) i v : i < length b -> write b i v = Ok (set_nth b i (Some v)).
Proof. intros. unfold write. destruct (Nat.ltb_spec i (length b)); [auto | lia]. Qed.

Lemma write_next {A} (done : list A) n v :
  write (map Some done ++ repeat None (S n)) (length done) v
  = Ok (map Some (done ++ [v]) ++ repeat None n).
Proof.
  rewrite write_ok by (rewrite app_length, map_length, repeat_length; lia).
  cbn [repeat]. rewrite <- (map_length Some done) at 1. rewrite set_nth_middle.
  now rewrite map_app, <- app_assoc.
Qed.

Lemma assume_init_some {A} (l : list A) : assume_init (map Some l) = Ok l.
Proof. induction l; cbn; auto. now rewrite IHl. Qed.

Lemma alloc_ok {A} c n :
  can_alloc c n -> (Z.of_nat n < 4294967296)%Z -> alloc (A := A) c n = Ok (repeat None n).
Proof.
  unfold alloc. intros H Hn.
  destruct (Z.leb_spec two63 (Z.of_nat n)) as [L|_]; [unfold two63 in L; lia|].
  destruct H as [H|H].
  - destruct (Nat.eqb_spec n 0); [lia | auto].
  - rewrite H. now rewrite andb_comm.
Qed.

Lemma traverse_length {S X Y} (f : S -> X -> outcome (S * Y)) s l s' ys :
  traverse f s l = Ok (s', ys) -> length ys = length l.
Proof.
  revert s s' ys; induction l as [|x l IH]; intros s s' ys; cbn.
  - intros [= _ <-]. reflexivity.
  - destruct (f s x) as [[s1 y]| |]; cbn; try discriminate.
    destruct (traverse f s1 l) as [[s2 ys']| |] eqn:E; cbn; try discriminate.
    intros [= _ <-]. cbn. f_equal. eapply IH; eauto.
Qed.

Lemma traverse_app {S X Y} (f : S -> X -> outcome (S * Y)) s l r :
  traverse f s (l ++ r) =
  let* '(s, ys) := traverse f s l in
  let* '(s, zs) := traverse f s r in Ok (s, ys ++ zs).
Proof.
  revert s; induction l as [|x l IH]; intros s; cbn.
  - destruct (traverse f s r) as [[? ?]| |]; auto.
  - destruct (f s x) as [[s1 y]| |]; cbn; auto. rewrite IH.
    destruct (traverse f s1 l) as [[s2 ys']| |]; cbn; auto.
    destruct (traverse f s2 r) as [[s3 zs]| |]; cbn; auto.
Qed.

Lemma traverse_ext {S X Y} (f g : S -> X -> outcome (S * Y)) s l :
  (forall s x, In x l -> f s x = g s x) -> traverse f s l = traverse g s l.
Proof.
  revert s; induction l as [|x l IH]; intros s H; cbn; auto.
  rewrite H by (left; auto). destruct (g s x) as [[s1 y]| |]; cbn; auto.
  rewrite IH; auto. intros. apply H. now right.
Qed.

Lemma traverse_map {S X X' Y} (h : X' -> X) (f : S -> X -> outcome (S * Y)) s l :
  traverse f s (map h l) = traverse (fun s x => f s (h x)) s l.
Proof.
  revert s; induction l as [|x l IH]; intros s; cbn; auto.
  destruct (f s (h x)) as [[s1 y]| |]; cbn; auto. now rewrite IH.
Qed.

Lemma traverse_pure {X Y} (f : X -> Y) (l : list X) (s : unit) :
  traverse (fun s x => Ok (s, f x)) s l = Ok (s, map f l).
Proof. induction l as [|x l IH]; cbn; auto. now rewrite IH. Qed.

Lemma foldM_pure {X R} (f : R -> X -> R) (l : list X) (s : unit) r :
  foldM (fun s r x => Ok (s, f r x)) s r l = Ok (s, fold_left f l r).
Proof. revert r; induction l as [|x l IH]; intros r; cbn; auto. Qed.

(** A loop that writes cell [i] at iteration [i] fills the buffer with the results of
    the body, in order. *)
Lemma seq_write_from {S V} (g : S -> nat -> outcome (S * V)) k (done : list V) st :
  for_from (length done) k (fun i '(st, o) =>
      let* '(st, v) := g st i in
      let* o := write o i v in
      Ok (st, o)) (st, map Some done ++ repeat None k)
  = let* '(st, vs) := traverse g st (seq (length done) k) in
    Ok (st, map Some (done ++ vs)).
Proof.
  revert done st; induction k; intros done st; cbn [repeat].
  - cbn. now rewrite !app_nil_r.
  - rewrite for_from_S. cbn [seq traverse].
    destruct (g st (length done)) as [[st1 v]| |]; cbn [bind]; auto.
    change (None :: repeat None k) with (repeat (@None V) (Datatypes.S k)).
    rewrite write_next. cbn [bind].
    specialize (IHk (done ++ [v]) st1).
    rewrite app_length in IHk; cbn in IHk; rewrite Nat.add_1_r in IHk.
    rewrite IHk.
    destruct (traverse g st1 (seq (Datatypes.S (length done)) k)) as [[s2 vs]| |]; cbn; auto.
    now rewrite <- app_assoc.
Qed.

Lemma seq_write {S V} (g : S -> nat -> outcome (S * V)) n st :
  for_ n (fun i '(st, o) =>
      let* '(st, v) := g st i in
      let* o := write o i v in
      Ok (st, o)) (st, repeat None n)
  = let* '(st, vs) := traverse g st (seq 0 n) in
    Ok (st, map Some vs).
Proof. exact (seq_write_from g n [] st). Qed.

(** Traversing indices that look items up in a list is traversing the list. *)
Lemma traverse_index {S X Y} (f : S -> X -> outcome (S * Y)) (l : list X) st :
  traverse (fun st i => let* x := aget l i in f st x) st (seq 0 (length l)) = traverse f st l.
Proof.
  assert (G : forall pre l st,
    traverse (fun st i => let* x := aget (pre ++ l) i in f st x) st (seq (length pre) (length l))
    = traverse f st l).
  { clear. intros pre l; revert pre; induction l as [|x l IH]; intros pre st; auto.
    cbn [length seq traverse]. rewrite aget_app_mid. cbn [bind].
    destruct (f st x) as [[s1 y]| |]; cbn [bind]; auto.
    specialize (IH (pre ++ [x]) s1).
    rewrite app_length in IH; cbn in IH; rewrite Nat.add_1_r in IH.
    rewrite <- app_assoc in IH; cbn in IH. now rewrite IH. }
  exact (G [] l st).
Qed.

Lemma fold_index_from {S X R} (f : S -> R -> X -> outcome (S * R)) (pre l : list X) st r :
  for_from (length pre) (length l) (fun i '(st, r) =>
    let* x := aget (pre ++ l) i in f st r x) (st, r) = foldM f st r l.
Proof.
  revert pre st r; induction l as [|x l IH]; intros pre st r; auto.
  cbn [length]. rewrite for_from_S, aget_app_mid. cbn [bind foldM].
  destruct (f st r x) as [[s1 r1]| |]; cbn [bind]; auto.
  specialize (IH (pre ++ [x]) s1 r1).
  rewrite app_length in IH; cbn in IH; rewrite Nat.add_1_r in IH.
  rewrite <- app_assoc in IH; cbn in IH. exact IH.
Qed.

Lemma fold_index {S X R} (f : S -> R -> X -> outcome (S * R)) (l : list X) st r :
  for_ (length l) (fun i '(st, r) => let* x := aget l i in f st r x) (st, r) = foldM f st r l.
Proof. exact (fold_index_from f [] l st r). Qed.

Lemma fold_gen_from {S X R} (f : S -> R -> X -> outcome (S * R)) (g : nat -> outcome X)
      (l : list X) i st r :
  (forall k, k < length l -> g (i + k) = aget l k) ->
  for_from i (length l) (fun i '(st, r) => let* x := g i in f st r x) (st, r) = foldM f st r l.
Proof.
  revert i st r; induction l as [|x l IH]; intros i st r H; auto.
  cbn [length]. rewrite for_from_S.
  rewrite <- (Nat.add_0_r i), H by (cbn; lia). cbn [aget nth_error bind foldM].
  destruct (f st r x) as [[s1 r1]| |]; cbn [bind]; auto.
  rewrite Nat.add_0_r. apply IH. intros k Hk.
  replace (Datatypes.S i + k) with (i + Datatypes.S k) by lia. apply H. cbn; lia.
Qed.

Lemma fold_gen {S X R} (f : S -> R -> X -> outcome (S * R)) (g : nat -> outcome X)
      (l : list X) n st r :
  n = length l ->
  (forall k, k < length l -> g k = aget l k) ->
  for_ n (fun i '(st, r) => let* x := g i in f st r x) (st, r) = foldM f st r l.
Proof. intros -> H. now apply (fold_gen_from f g l 0). Qed.

(** ** Writes in arbitrary order *)

(** Perform a list of writes. *)
Fixpoint run_writes {A} (l : list (nat * A)) (b : buf A) : outcome (buf A) :=
  match l with
  | [] => Ok b
  | (p, v) :: l' => let* b' := write b p v in run_writes l' b'
  end.

Lemma run_writes_app {A} (l r : list (nat * A)) b :
  run_writes (l ++ r) b = let* b' := run_writes l b in run_writes r b'.
Proof.
  revert b; induction l as [|[p v] l IH]; intros b; cbn; auto.
  rewrite bind_assoc. apply bind_ext. intros. apply IH.
Qed.

Lemma for_writes {A} n (body : nat -> buf A -> outcome (buf A)) (w : nat -> list (nat * A)) b :
  (forall i b, i < n -> body i b = run_writes (w i) b) ->
  for_ n body b = run_writes (flat_map w (seq 0 n)) b.
Proof.
  unfold for_. intros H.
  assert (G : forall k i b, i + k <= n -> for_from i k body b = run_writes (flat_map w (seq i k)) b).
  { induction k; intros i b' Hi; auto.
    rewrite for_from_S. cbn [seq flat_map]. rewrite run_writes_app, H by lia.
    apply bind_ext. intros. apply IHk. lia. }
  apply G. lia.
Qed.

Lemma run_writes_spec {A} (l : list (nat * A)) (b : buf A) :
  NoDup (map fst l) -> (forall p, In p (map fst l) -> p < length b) ->
  exists b', run_writes l b = Ok b' /\ length b' = length b /\
    (forall p v, In (p, v) l -> nth_error b' p = Some (Some v)) /\
    (forall p, ~ In p (map fst l) -> nth_error b' p = nth_error b p).
Proof.
  revert b; induction l as [|[p v] l IH]; intros b Hnd Hlt; cbn.
  - exists b. intuition.
  - cbn in *. inversion Hnd as [|? ? Hni Hnd']; subst.
    rewrite write_ok by (apply Hlt; auto). cbn.
    destruct (IH (set_nth b p (Some v))) as (b' & E & Hlen & Hin & Hout); auto.
    { intros. rewrite set_nth_length. apply Hlt. auto. }
    exists b'. rewrite set_nth_length in Hlen. repeat split; auto.
    + intros q w [[= -> ->]|Hq]; auto.
      rewrite Hout by auto. apply nth_error_set_nth_eq. apply Hlt; auto.
    + intros q Hq. rewrite Hout by auto. apply nth_error_set_nth_neq. intuition.
Qed.

Lemma assume_init_full {A} (b : buf A) :
  (forall i, i < length b -> exists v, nth_error b i = Some (Some v)) ->
  exists l, b = map Some l.
Proof.
  induction b as [|x b IH]; intros H.
  - now exists [].
  - destruct (H 0) as [v Hv]; [cbn; lia|]. cbn in Hv. injection Hv as ->.
    destruct IH as [l ->].
    + intros i Hi. apply (H (S i)). cbn; lia.
    + exists (v :: l). reflexivity.
Qed.

(** Distinct in-range positions, as many as cells: the buffer ends up fully initialised
    with the written values. *)
Lemma run_writes_full {A} (l : list (nat * A)) n :
  NoDup (map fst l) -> (forall p, In p (map fst l) -> p < n) -> length l = n ->
  exists out, run_writes l (repeat None n) = Ok (map Some out) /\ length out = n /\
    forall p v, In (p, v) l -> nth_error out p = Some v.
Proof.
  intros Hnd Hlt Hlen.
  destruct (run_writes_spec l (repeat None n)) as (b' & E & Hl & Hin & Hout); auto.
  { now rewrite repeat_length. }
  rewrite repeat_length in Hl.
  assert (Hall : forall i, i < n -> In i (map fst l)).
  { intros i Hi.
    assert (incl (seq 0 n) (map fst l)) as Hincl.
    { apply NoDup_length_incl.
      - exact Hnd.
      - rewrite map_length, seq_length. lia.
      - intros p Hp. apply in_seq. specialize (Hlt p Hp). lia. }
    apply Hincl. apply in_seq. lia. }
  destruct (assume_init_full b') as [out ->].
  { intros i Hi. rewrite Hl in Hi. apply Hall in Hi.
    apply in_map_iff in Hi. destruct Hi as ((p & v) & <- & Hv). exists v. now apply Hin. }
  exists out. rewrite map_length in Hl. repeat split; auto.
  intros p v Hv. specialize (Hin p v Hv). rewrite nth_error_map in Hin.
  destruct (nth_error out p); cbn in Hin; congruence.
Qed.
