(** * Dependence of calls on the allocator

    A call that allocates its result asks for as many elements as the result has: as long
    as no result is empty, nothing depends on what the allocator does for zero bytes. *)
From Verif Require Import Base BaseFacts ShapeModel TensorModel AxisModel MapModel ArrayModel
  NumModel FloatModel InitModel LinalgModel SignalModel.

(** Two configurations that differ in nothing but the allocator. *)
Definition strict (b : bool) : cfg := mkCfg b false.
Definition lenient (b : bool) : cfg := mkCfg b true.

(** [y] returns whatever non-empty result [x] returns; [m] is the size of the result. *)
Definition sim {R} (m : R -> nat) (x y : outcome R) : Prop :=
  forall r, x = Ok r -> m r <> 0 -> y = Ok r.
(** Every result of [x] has measure [n]. *)
Definition keeps {R} (m : R -> nat) (x : outcome R) (n : nat) : Prop :=
  forall r, x = Ok r -> m r = n.

Lemma product32_strict b l a : product32 (strict b) a l = product32 (lenient b) a l.
Proof.
  revert a. induction l as [|d l IH]; intros a; [reflexivity|]. cbn [product32].
  change (mul32 (strict b) a d) with (mul32 (lenient b) a d).
  destruct (mul32 (lenient b) a d); [|reflexivity|reflexivity]. apply IH.
Qed.
Lemma product64_strict b l a : product64 (strict b) a l = product64 (lenient b) a l.
Proof.
  revert a. induction l as [|d l IH]; intros a; [reflexivity|]. cbn [product64].
  change (umul (strict b) a d) with (umul (lenient b) a d).
  destruct (umul (lenient b) a d); [|reflexivity|reflexivity]. apply IH.
Qed.
Lemma sum64_strict b l a : sum64 (strict b) a l = sum64 (lenient b) a l.
Proof.
  revert a. induction l as [|d l IH]; intros a; [reflexivity|]. cbn [sum64].
  change (uadd (strict b) a d) with (uadd (lenient b) a d).
  destruct (uadd (lenient b) a d); [|reflexivity|reflexivity]. apply IH.
Qed.
Lemma size_strict b s : size (strict b) s = size (lenient b) s.
Proof. unfold size. destruct (aslice _ _ _); [|reflexivity|reflexivity]. apply product32_strict. Qed.
Lemma tensor_new_strict {A} b (v : list A) s : tensor_new (strict b) v s = tensor_new (lenient b) v s.
Proof. unfold tensor_new. now rewrite size_strict. Qed.

Lemma sim_refl {R} (m : R -> nat) x : sim m x x.
Proof. intros r H _. exact H. Qed.
Lemma sim_eq {R} (m : R -> nat) x y : y = x -> sim m x y.
Proof. intros ->. apply sim_refl. Qed.
Lemma sim_bind {A R} (m : R -> nat) (x y : outcome A) k l :
  y = x -> (forall v, sim m (k v) (l v)) -> sim m (bind x k) (bind y l).
Proof. intros -> H r. destruct x as [v| |]; cbn [bind]; [apply H|discriminate|discriminate]. Qed.
Lemma sim_last {A R} (m : A -> nat) (n : R -> nat) (x y : outcome A) k :
  sim m x y -> (forall v r, k v = Ok r -> n r = m v) -> sim n (bind x k) (bind y k).
Proof.
  intros H K r E N. destruct x as [v| |]; cbn [bind] in E; try discriminate.
  rewrite (H v eq_refl); [exact E|]. now rewrite <- (K v r E).
Qed.

Lemma keeps_ok {R} (m : R -> nat) r n : m r = n -> keeps m (Ok r) n.
Proof. intros H r' E. injection E as <-. exact H. Qed.
Lemma keeps_bind {A R} (m : R -> nat) (x : outcome A) k n :
  (forall v, keeps m (k v) n) -> keeps m (bind x k) n.
Proof. intros H r. destruct x as [v| |]; cbn [bind]; [apply H|discriminate|discriminate]. Qed.
Lemma keeps_bind2 {A R} (p : A -> nat) (m : R -> nat) (x : outcome A) k n :
  keeps p x n -> (forall v, p v = n -> keeps m (k v) n) -> keeps m (bind x k) n.
Proof.
  intros Hx H r. destruct x as [v| |]; cbn [bind]; [apply H; now apply Hx|discriminate|discriminate].
Qed.
Lemma keeps_from {S} (m : S -> nat) k body n : (forall i s, m s = n -> keeps m (body i s) n) ->
  forall a s, m s = n -> keeps m (for_from a k body s) n.
Proof.
  intros H. induction k as [|k IH]; intros a s E; cbn [for_from]; [now apply keeps_ok|].
  apply (keeps_bind2 m); [now apply H|]. intros v. apply IH.
Qed.
Lemma keeps_for {S} (m : S -> nat) k body s n :
  (forall i s, m s = n -> keeps m (body i s) n) -> m s = n -> keeps m (for_ k body s) n.
Proof. intros H. now apply keeps_from. Qed.
Lemma keeps_range {S} (m : S -> nat) a k body s n :
  (forall i s, m s = n -> keeps m (body i s) n) -> m s = n -> keeps m (for_range a k body s) n.
Proof. intros H. now apply keeps_from. Qed.
Lemma keeps_each {A S} (m : S -> nat) (l : list A) body n :
  (forall x s, m s = n -> keeps m (body x s) n) -> forall s, m s = n -> keeps m (for_each l body s) n.
Proof.
  intros H. induction l as [|x l IH]; intros s E; cbn [for_each]; [now apply keeps_ok|].
  apply (keeps_bind2 m); [now apply H|]. intros v. apply IH.
Qed.
Lemma keeps_write {A} (o : buf A) i v n : length o = n -> keeps (@length _) (write o i v) n.
Proof.
  intros <- r. unfold write. destruct (_ <? _); [|discriminate]. intros E. injection E as <-.
  apply set_nth_length.
Qed.

Definition bsnd {S A} (p : S * buf A) : nat := length (snd p).
Definition bfst {A B} (p : buf A * B) : nat := length (fst p).
Definition bmid {S A B} (p : S * buf A * B) : nat := length (snd (fst p)).
Definition tsnd {S A} (p : S * tensor A) : nat := tsize (snd p).

Lemma assume_init_length' {A} (b : buf A) l : assume_init b = Ok l -> length l = length b.
Proof.
  revert l. induction b as [|[x|] b IH]; intros l; cbn [assume_init].
  - intros E. injection E as <-. reflexivity.
  - destruct (assume_init b) as [k| |]; cbn [bind]; try discriminate. intros E. injection E as <-.
    cbn [length]. now rewrite (IH k).
  - discriminate.
Qed.
Lemma alloc_strict {A} b n : n <> 0 -> @alloc A (strict b) n = alloc (lenient b) n.
Proof. intros H. unfold alloc. destruct n as [|n]; [now destruct H|reflexivity]. Qed.
Lemma unsafe_init_strict {A S} b n s (init : S * buf A -> outcome (S * buf A)) st :
  n <> 0 -> unsafe_init (strict b) n s init st = unsafe_init (lenient b) n s init st.
Proof.
  intros H. unfold unsafe_init. rewrite alloc_strict by exact H.
  destruct (alloc _ _) as [o| |]; [|reflexivity|reflexivity]. cbn [bind].
  destruct (init _) as [[s1 o1]| |]; [|reflexivity|reflexivity]. cbn [bind].
  destruct (assume_init o1); [|reflexivity|reflexivity]. cbn [bind]. now rewrite tensor_new_strict.
Qed.
Lemma sim_init {A S} b n s (init init' : S * buf A -> outcome (S * buf A)) st :
  (forall p, init' p = init p) -> (forall p, keeps bsnd (init p) (bsnd p)) ->
  sim tsnd (unsafe_init (lenient b) n s init st) (unsafe_init (strict b) n s init' st).
Proof.
  intros E K [st' r] H N. unfold unsafe_init in *. destruct (alloc (lenient b) n) as [o| |] eqn:Eo; cbn [bind] in H; try discriminate.
  destruct (init (st, o)) as [[s1 o1]| |] eqn:Ei; cbn [bind] in H; try discriminate.
  destruct (assume_init o1) as [l| |] eqn:El; cbn [bind] in H; try discriminate.
  destruct (tensor_new (lenient b) l s) as [t| |] eqn:Et; cbn [bind] in H; try discriminate.
  injection H as <- <-.
  assert (Ho : length o = n).
  { unfold alloc in Eo. destruct (_ <=? _)%Z; [discriminate|]. destruct (_ && _); [discriminate|].
    injection Eo as <-. apply repeat_length. }
  assert (Hn : n <> 0).
  { intros ->. apply N. unfold tensor_new in Et. destruct (size _ _); cbn [bind] in Et; try discriminate.
    destruct (_ =? _); cbn [assert_ bind] in Et; try discriminate. injection Et as <-. unfold tsnd. cbn [snd tsize].
    rewrite (assume_init_length' _ _ El). pose proof (K (st, o) _ Ei) as K1. unfold bsnd in K1. cbn [snd] in K1. congruence. }
  rewrite alloc_strict, Eo by exact Hn. cbn [bind]. rewrite E, Ei. cbn [bind]. rewrite El. cbn [bind].
  now rewrite tensor_new_strict, Et.
Qed.
Lemma sim_init_ {A} b n s (init init' : buf A -> outcome (buf A)) :
  (forall o, init' o = init o) -> (forall o, keeps (@length _) (init o) (length o)) ->
  sim (@tsize A) (unsafe_init_ (lenient b) n s init) (unsafe_init_ (strict b) n s init').
Proof.
  intros E K. unfold unsafe_init_. apply (sim_last tsnd).
  - apply sim_init.
    + intros [u o]. now rewrite E.
    + intros [u o]. apply (keeps_bind2 (@length _)); [apply K|]. intros v Hv. apply keeps_ok. exact Hv.
  - intros [u t] r H. injection H as <-. reflexivity.
Qed.

Lemma axis_reduce_strict b ax s : axis_reduce (strict b) ax s = axis_reduce (lenient b) ax s.
Proof. unfold axis_reduce. rewrite size_strict. reflexivity. Qed.
Lemma axis_reduce_row_strict b ax s n : axis_reduce_row (strict b) ax s n = axis_reduce_row (lenient b) ax s n.
Proof. unfold axis_reduce_row. rewrite size_strict. reflexivity. Qed.

(** Steps over everything that precedes the allocation. *)
Ltac same := first [ reflexivity | apply size_strict | apply product64_strict | apply sum64_strict
  | apply axis_reduce_strict | apply axis_reduce_row_strict ].
Ltac bsim := repeat (match goal with
  | |- sim _ (bind _ _) (bind _ _) => apply sim_bind; [same|]; let v := fresh "v" in intros v
  | |- sim _ (let '(_, _) := ?p in _) _ => destruct p
  | |- sim _ (if ?b then _ else _) _ => destruct b
  end).
Ltac kbind := apply keeps_bind; intros ?; repeat match goal with |- keeps _ (let '(_, _) := ?p in _) _ => destruct p end.
Ltac kwrite := apply keeps_write; assumption.

Section Calls.
  Context (b : bool) {S : Type}.
  Implicit Type st : S.

  Lemma init_sim {V} s (f : S -> outcome (S * V)) st : sim tsnd (init (lenient b) s f st) (init (strict b) s f st).
  Proof.
    unfold init. bsim. apply sim_init; [reflexivity|]. intros p. apply keeps_for; [|reflexivity].
    intros i [s1 o] E. kbind. apply (keeps_bind2 (@length _)); [now apply keeps_write|]. intros o1 H1. now apply keeps_ok.
  Qed.
  Lemma init_rindexed_sim {V} s (f : S -> list nat -> outcome (S * V)) st :
    sim tsnd (init_rindexed (lenient b) s f st) (init_rindexed (strict b) s f st).
  Proof.
    unfold init_rindexed. bsim. apply sim_init; [reflexivity|]. intros [s0 o0]. apply (keeps_bind2 bmid).
    - apply keeps_for; [|reflexivity]. intros i [[s1 o] ix] E. kbind.
      apply (keeps_bind2 (@length _)); [now apply keeps_write|]. intros o1 H1. kbind. now apply keeps_ok.
    - intros [[s1 o] ix] E. now apply keeps_ok.
  Qed.
  Lemma map_sim {U V} (t : tensor U) (f : S -> U -> outcome (S * V)) st :
    sim tsnd (map_ (lenient b) t f st) (map_ (strict b) t f st).
  Proof.
    unfold map_. apply sim_init; [reflexivity|]. intros p. kbind. apply keeps_for; [|reflexivity].
    intros i [s1 o] E. kbind. kbind. apply (keeps_bind2 (@length _)); [now apply keeps_write|]. intros o1 H1. now apply keeps_ok.
  Qed.
  Lemma write_row_keeps {V} (o : buf V) p vs n : length o = n -> keeps (@length _) (write_row o p vs) n.
  Proof. intros H. unfold write_row. apply keeps_for; [|exact H]. intros i o1 E. kbind. kwrite. Qed.
  Lemma map_row_sim {U V} N (t : tensor U) (f : S -> list U -> outcome (S * list V)) st :
    sim tsnd (map_row (lenient b) N t f st) (map_row (strict b) N t f st).
  Proof.
    unfold map_row. bsim. apply sim_init; [reflexivity|]. intros p. apply keeps_for; [|reflexivity].
    intros i [s1 o] E. kbind. kbind. apply (keeps_bind2 (@length _)); [now apply write_row_keeps|]. intros o1 H1. now apply keeps_ok.
  Qed.
  Lemma map_expand_sim {U V} N (t : tensor U) (f : S -> U -> outcome (S * list V)) st :
    sim tsnd (map_expand (lenient b) N t f st) (map_expand (strict b) N t f st).
  Proof.
    unfold map_expand. bsim. apply sim_init; [reflexivity|]. intros p. kbind. apply keeps_for; [|reflexivity].
    intros i [s1 o] E. kbind. kbind. apply (keeps_bind2 (@length _)); [now apply write_row_keeps|]. intros o1 H1. now apply keeps_ok.
  Qed.
  Lemma map2_strict {T U V} (t : tensor T) (u : tensor U) (f : S -> T -> U -> outcome (S * V)) st :
    map2 (strict b) t u f st = map2 (lenient b) t u f st.
  Proof.
    unfold map2. destruct (broadcast_to (tshape t) (tshape u)) as [s| |]; [|reflexivity|reflexivity]. cbn [bind].
    unfold udiv. destruct (Nat.eqb_spec (Nat.min (tsize t) (tsize u)) 0) as [E|E]; [reflexivity|]. cbn [bind].
    destruct (_ =? _); [|reflexivity]. cbn [assert_ bind]. rewrite unsafe_init_strict by lia. reflexivity.
  Qed.
  Lemma map3_strict {T U V W} (t : tensor T) (u : tensor U) (v : tensor V) (f : S -> T -> U -> V -> outcome (S * W)) st :
    map3 (strict b) t u v f st = map3 (lenient b) t u v f st.
  Proof.
    unfold map3. destruct (broadcast_to (tshape t) (tshape u)) as [s| |]; [|reflexivity|reflexivity]. cbn [bind].
    destruct (broadcast_to s (tshape v)) as [s'| |]; [|reflexivity|reflexivity]. cbn [bind].
    unfold udiv. destruct (Nat.eqb_spec (Nat.min (Nat.min (tsize t) (tsize u)) (tsize v)) 0) as [E|E]; [reflexivity|]. cbn [bind].
    destruct (_ =? _); [|reflexivity]. cbn [assert_ bind]. rewrite unsafe_init_strict by lia. reflexivity.
  Qed.
  Lemma fold_axis_sim {T R V} (t : tensor T) ax (ini : R) (into : R -> V) (f : S -> R -> T -> outcome (S * R)) st :
    sim tsnd (fold_axis (lenient b) t ax ini into f st) (fold_axis (strict b) t ax ini into f st).
  Proof.
    unfold fold_axis. bsim. apply sim_init; [reflexivity|]. intros q. kbind.
    apply keeps_for; [|reflexivity]. intros i q1 E. apply keeps_for; [|exact E].
    intros j [s1 o] E1. kbind. apply (keeps_bind2 (@length _)); [now apply keeps_write|]. intros o1 H1. now apply keeps_ok.
  Qed.
  Lemma fold_row_sim {T R V} N (t : tensor T) ax (ini : R) (into : R -> list V) (f : S -> R -> list T -> outcome (S * R)) st :
    sim tsnd (fold_row (lenient b) N t ax ini into f st) (fold_row (strict b) N t ax ini into f st).
  Proof.
    unfold fold_row. bsim. apply sim_init; [reflexivity|]. intros q.
    apply keeps_for; [|reflexivity]. intros i q1 E. apply keeps_for; [|exact E].
    intros j [s1 o] E1. kbind. apply (keeps_bind2 (@length _)); [now apply write_row_keeps|]. intros o1 H1. now apply keeps_ok.
  Qed.
  Lemma reduce_axis_sim {T} (t : tensor T) ax (f : S -> T -> T -> outcome (S * T)) st :
    sim tsnd (reduce_axis (lenient b) t ax f st) (reduce_axis (strict b) t ax f st).
  Proof.
    unfold reduce_axis. bsim. apply sim_init; [reflexivity|]. intros q. kbind.
    apply keeps_for; [|reflexivity]. intros i q1 E. apply keeps_for; [|exact E].
    intros j [s1 o] E1. kbind. kbind. apply (keeps_bind2 (@length _)); [now apply keeps_write|]. intros o1 H1. now apply keeps_ok.
  Qed.
  Lemma normalize_sim {T R R1 V} (t : tensor T) ax (ini : R) (accum : S -> R -> T -> outcome (S * R))
    (complete : S -> R -> outcome (S * R1)) (norm : S -> R1 -> T -> outcome (S * V)) st :
    sim tsnd (normalize (lenient b) t ax ini accum complete norm st) (normalize (strict b) t ax ini accum complete norm st).
  Proof.
    unfold normalize. bsim. apply sim_init; [reflexivity|]. intros q. kbind.
    apply keeps_for; [|reflexivity]. intros i q1 E. apply keeps_for; [|exact E].
    intros j [s1 o] E1. kbind. kbind.
    apply keeps_for; [|exact E1]. intros k [s4 o1] E2. kbind. kbind.
    apply (keeps_bind2 (@length _)); [now apply keeps_write|]. intros o2 H1. now apply keeps_ok.
  Qed.
End Calls.

Section Calls2.
  Context (b : bool) {A : Type}.
  Implicit Type t : tensor A.

  Lemma from_slice_sim (l : list A) : sim (@tsize A) (from_slice (lenient b) l) (from_slice (strict b) l).
  Proof.
    unfold from_slice. bsim. apply sim_init_; [reflexivity|]. intros o. apply keeps_for; [|reflexivity].
    intros i o1 E. kbind. kwrite.
  Qed.
  Lemma transpose_sim t : sim (@tsize A) (transpose (lenient b) t) (transpose (strict b) t).
  Proof.
    unfold transpose. bsim. apply sim_init_; [reflexivity|]. intros o. kbind.
    apply keeps_for; [|reflexivity]. intros i o1 E. apply keeps_for; [|exact E]. intros j o2 E1.
    apply keeps_for; [|exact E1]. intros k o3 E2. kbind. kwrite.
  Qed.
  Lemma split_piece_sim t ax no ni al x prev cut :
    sim (@tsize A) (split_piece (lenient b) t ax no ni al x prev cut) (split_piece (strict b) t ax no ni al x prev cut).
  Proof.
    unfold split_piece. bsim. apply sim_init_; [reflexivity|]. intros o.
    apply keeps_for; [|reflexivity]. intros i o1 E. apply keeps_range; [|exact E]. intros j o2 E1.
    apply keeps_for; [|exact E1]. intros k o3 E2. kbind. kwrite.
  Qed.
  Lemma concat_axis_sim ax (l : list (tensor A)) : sim (@tsize A) (concat_axis (lenient b) ax l) (concat_axis (strict b) ax l).
  Proof.
    unfold concat_axis. bsim. apply sim_init_; [reflexivity|]. intros o. apply (keeps_bind2 bfst).
    - apply keeps_each; [|reflexivity]. intros t [o1 off] E. kbind. kbind. apply (keeps_bind2 (@length _)).
      + apply keeps_for; [|exact E]. intros i o2 E1. apply keeps_for; [|exact E1]. intros j o3 E2.
        apply keeps_for; [|exact E2]. intros k o4 E3. kbind. kwrite.
      + intros o2 E1. now apply keeps_ok.
    - intros [o1 off] E. now apply keeps_ok.
  Qed.
  Lemma concatenate_axis_sim ax (l : list (tensor A)) :
    sim (@tsize A) (concatenate_axis (lenient b) ax l) (concatenate_axis (strict b) ax l).
  Proof. unfold concatenate_axis. bsim. apply concat_axis_sim. Qed.
  Lemma stack_vec_sim ax (l : list (tensor A)) : sim (@tsize A) (stack_vec (lenient b) ax l) (stack_vec (strict b) ax l).
  Proof.
    unfold stack_vec. bsim. apply sim_init_; [reflexivity|]. intros o. apply (keeps_bind2 bfst).
    - apply keeps_each; [|reflexivity]. intros t [o1 off] E. kbind. kbind. apply (keeps_bind2 (@length _)).
      + apply keeps_for; [|exact E]. intros i o2 E1. apply keeps_for; [|exact E1]. intros j o3 E2. kbind. kwrite.
      + intros o2 E1. now apply keeps_ok.
    - intros [o1 off] E. now apply keeps_ok.
  Qed.

  Lemma for_from_ext {S} (f g : nat -> S -> outcome S) k : (forall i s, f i s = g i s) ->
    forall a s, for_from a k f s = for_from a k g s.
  Proof.
    intros H. induction k as [|k IH]; intros a s; [reflexivity|]. cbn [for_from]. rewrite H.
    destruct (g a s); [apply IH|reflexivity|reflexivity].
  Qed.
  Lemma tile_rec_strict (x : list A) sr mr j : forall off xl st,
    tile_rec (strict b) x off xl sr mr j st = tile_rec (lenient b) x off xl sr mr j st.
  Proof.
    induction j as [|j IH]; intros off xl st; [reflexivity|]. cbn [tile_rec]. apply for_from_ext. intros i [o p].
    destruct (nth_error sr (Datatypes.S j)); [|apply IH]. rewrite product64_strict.
    destruct (product64 _ _ _); [|reflexivity|reflexivity]. cbn [bind]. apply for_from_ext. intros k st'. apply IH.
  Qed.
  Lemma tile_rec_keeps (x : list A) sr mr j n : forall off xl st, bfst st = n ->
    keeps bfst (tile_rec (lenient b) x off xl sr mr j st) n.
  Proof.
    induction j as [|j IH]; intros off xl st E; cbn [tile_rec]; (apply keeps_for; [|exact E]); intros i [o p] E1.
    - apply (keeps_bind2 (@length _)); [|intros o1 H; now apply keeps_ok].
      apply keeps_for; [|exact E1]. intros k o1 H. kbind. kwrite.
    - destruct (nth_error sr (Datatypes.S j)); [|now apply IH]. kbind. apply keeps_for; [|exact E1]. intros k s1 H. now apply IH.
  Qed.
  Lemma tile_sim t m : sim (@tsize A) (tile (lenient b) t m) (tile (strict b) t m).
  Proof.
    unfold tile. bsim. apply sim_init_.
    - intros o. change (usub (strict b)) with (usub (lenient b)). destruct (usub _ _ _); [|reflexivity|reflexivity]. cbn [bind].
      now rewrite tile_rec_strict.
    - intros o. kbind. apply (keeps_bind2 bfst); [now apply tile_rec_keeps|]. intros [o1 p] E. now apply keeps_ok.
  Qed.
  Lemma tri_mask_sim keep z t : sim (@tsize A) (tri_mask (lenient b) keep z t) (tri_mask (strict b) keep z t).
  Proof.
    unfold tri_mask. bsim. apply sim_init_; [reflexivity|]. intros o. do 4 kbind.
    apply keeps_for; [|reflexivity]. intros i o1 E. apply keeps_for; [|exact E]. intros j o2 E1.
    apply keeps_for; [|exact E1]. intros k o3 E2. kbind. kwrite.
  Qed.
  Lemma meshgrid_axis_sim t s k : sim (@tsize A) (build_meshgrid_axis (lenient b) t s k) (build_meshgrid_axis (strict b) t s k).
  Proof.
    unfold build_meshgrid_axis. bsim. apply sim_init_; [reflexivity|]. intros o. do 3 kbind.
    apply keeps_for; [|reflexivity]. intros i o1 E. apply keeps_for; [|exact E]. intros j o2 E1.
    apply keeps_for; [|exact E1]. intros k' o3 E2. kbind. kwrite.
  Qed.

  Context (F : fops A).
  Lemma space_keeps pre po (s e : tensor A) batch ln o : keeps (@length _) (space_loop F pre po s e batch ln o) (length o).
  Proof.
    unfold space_loop. apply keeps_for; [|reflexivity]. intros i o1 E. do 3 kbind. apply keeps_for; [|exact E]. intros j o2 E1. kwrite.
  Qed.
  Lemma linspace_sim (s e : tensor A) n : sim (@tsize A) (linspace F (lenient b) s e n) (linspace F (strict b) s e n).
  Proof. unfold linspace. bsim. apply sim_init_; [reflexivity|]. intros o. apply space_keeps. Qed.
  Lemma geomspace_sim (s e : tensor A) n : sim (@tsize A) (geomspace F (lenient b) s e n) (geomspace F (strict b) s e n).
  Proof. unfold geomspace. bsim. apply sim_init_; [reflexivity|]. intros o. apply space_keeps. Qed.
  Lemma logspace_sim (s e : tensor A) n base : sim (@tsize A) (logspace F (lenient b) s e n base) (logspace F (strict b) s e n base).
  Proof. unfold logspace. bsim. apply sim_init_; [reflexivity|]. intros o. apply space_keeps. Qed.
  Lemma sgemm_keeps m k n al a pa rsa csa x px rsx csx be pc rsc csc o l : length o = l ->
    keeps (@length _) (sgemm F m k n al a pa rsa csa x px rsx csx be pc rsc csc o) l.
  Proof.
    intros H. unfold sgemm. kbind. apply keeps_for; [|exact H]. intros i o1 E. apply keeps_for; [|exact E]. intros j o2 E1. kbind. kwrite.
  Qed.
  Lemma matmul_sim (s e : tensor A) tr : sim (@tsize A) (matmul_t F (lenient b) s e tr) (matmul_t F (strict b) s e tr).
  Proof.
    unfold matmul_t. bsim. apply sim_init_; [reflexivity|]. intros o. apply keeps_for; [|reflexivity]. intros i o1 E.
    do 5 kbind. unfold matmul_sgemm. do 4 kbind. destruct tr; now apply sgemm_keeps.
  Qed.
  Lemma matvec_sim (s e : tensor A) tr : sim (@tsize A) (matvec_t F (lenient b) s e tr) (matvec_t F (strict b) s e tr).
  Proof.
    unfold matvec_t. bsim. apply sim_init_; [reflexivity|]. intros o. apply keeps_for; [|reflexivity]. intros i o1 E.
    do 5 kbind. unfold matvec_sgemm. do 2 kbind. destruct tr; try (now apply sgemm_keeps); intros r; discriminate.
  Qed.
End Calls2.

(** Calls that do not use the allocation of [unsafe_init]. *)
Section Views.
  Context (b : bool) {A : Type}.
  Lemma from_merge_strict (l : list (tensor A)) s : from_merge (strict b) l s = from_merge (lenient b) l s.
  Proof.
    unfold from_merge, from_vec. rewrite sum64_strict, size_strict. destruct (sum64 _ _ _); [|reflexivity|reflexivity]. cbn [bind].
    destruct (size _ _); [|reflexivity|reflexivity]. cbn [bind]. destruct (_ =? _); [|reflexivity]. cbn [assert_ bind].
    destruct (map_out _ _); [|reflexivity|reflexivity]. cbn [bind]. apply tensor_new_strict.
  Qed.
  Lemma reshape_strict (t : tensor A) s : reshape (strict b) t s = reshape (lenient b) t s.
  Proof. unfold reshape. rewrite size_strict. reflexivity. Qed.
  Lemma subslice_flat_strict (t : tensor A) o n s : subslice_flat (strict b) t o n s = subslice_flat (lenient b) t o n s.
  Proof.
    unfold subslice_flat. destruct (o <=? _); [|reflexivity]. cbn [assert_ bind].
    change (uadd (strict b)) with (uadd (lenient b)). destruct (uadd _ o n); [|reflexivity|reflexivity]. cbn [bind].
    destruct (_ <=? _); [|reflexivity]. cbn [assert_ bind]. destruct s; [|reflexivity|reflexivity]. cbn [bind].
    now rewrite size_strict.
  Qed.
  Lemma subslice_strict (t : tensor A) o n : subslice (strict b) t o n = subslice (lenient b) t o n.
  Proof.
    unfold subslice. change (dim (strict b)) with (dim (lenient b)). destruct (dim _ _ _); [|reflexivity|reflexivity]. cbn [bind].
    change (uadd (strict b)) with (uadd (lenient b)). destruct (uadd _ _ _); [|reflexivity|reflexivity]. cbn [bind].
    destruct (_ <=? _); [|reflexivity]. cbn [assert_ bind].
    change (as_vec (strict b)) with (as_vec (lenient b)). destruct (as_vec _ _); [|reflexivity|reflexivity]. cbn [bind].
    destruct (aslice _ _ _); [|reflexivity|reflexivity]. cbn [bind]. rewrite product64_strict.
    destruct (product64 _ _ _); [|reflexivity|reflexivity]. cbn [bind]. destruct (aset _ _ _); [|reflexivity|reflexivity]. cbn [bind].
    change (umul (strict b)) with (umul (lenient b)). destruct (umul _ o _); [|reflexivity|reflexivity]. cbn [bind].
    destruct (umul _ n _); [|reflexivity|reflexivity]. cbn [bind]. apply subslice_flat_strict.
  Qed.
  Lemma from_scalar_strict (v : A) : from_scalar (strict b) v = from_scalar (lenient b) v.
  Proof. unfold from_scalar. apply tensor_new_strict. Qed.
End Views.
