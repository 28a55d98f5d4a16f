(** * Every function of the model is parametric in the element type *)
From Coq Require Import String.
From Verif Require Import Base ShapeModel TensorModel AxisModel MapModel ArrayModel NumModel
  FromModel ArgModel FloatModel InitModel MathModel LinalgModel SignalModel FmtModel WrapModel ParamSpec.
Import TensorModel.
Set Warnings "-notation-overridden".

Section Basic.
Context {A A' B B' : Type} (RA : A -> A' -> Prop) (RB : B -> B' -> Prop).

Lemma par_bind x x' (f : A -> outcome B) (f' : A' -> outcome B') :
  outR RA x x' -> (forall a a', RA a a' -> outR RB (f a) (f' a')) -> outR RB (bind x f) (bind x' f').
Proof. intros [a b H| |] Hf; cbn; [auto|constructor|constructor]. Qed.

Lemma par_nth_error l l' i : Forall2 RA l l' -> optR RA (nth_error l i) (nth_error l' i).
Proof. intros H. revert i. induction H; intros [|i]; cbn; try constructor; auto. Qed.
Lemma par_firstn n l l' : Forall2 RA l l' -> Forall2 RA (firstn n l) (firstn n l').
Proof. intros H. revert n. induction H; intros [|n]; cbn; constructor; auto. Qed.
Lemma par_skipn n l l' : Forall2 RA l l' -> Forall2 RA (skipn n l) (skipn n l').
Proof. intros H. revert n. induction H; intros [|n]; cbn; auto. Qed.
Lemma par_app l l' m m' : Forall2 RA l l' -> Forall2 RA m m' -> Forall2 RA (l ++ m) (l' ++ m').
Proof. apply Forall2_app. Qed.
Lemma par_rev l l' : Forall2 RA l l' -> Forall2 RA (rev l) (rev l').
Proof. induction 1; cbn; [constructor|]. apply Forall2_app; auto. Qed.
Lemma par_concat l l' : Forall2 (Forall2 RA) l l' -> Forall2 RA (concat l) (concat l').
Proof. induction 1; cbn; [constructor|]. apply Forall2_app; auto. Qed.
Lemma par_repeat x x' n : RA x x' -> Forall2 RA (repeat x n) (repeat x' n).
Proof. intros H. induction n; cbn; constructor; auto. Qed.
Lemma par_map (f : A -> B) (f' : A' -> B') l l' :
  Forall2 RA l l' -> (forall x x', RA x x' -> RB (f x) (f' x')) -> Forall2 RB (map f l) (map f' l').
Proof. intros H Hf. induction H; cbn; constructor; auto. Qed.
Lemma par_length l l' : Forall2 RA l l' -> length l = length l'.
Proof. induction 1; cbn; congruence. Qed.
Lemma par_set_nth l l' i v v' : Forall2 RA l l' -> RA v v' -> Forall2 RA (set_nth l i v) (set_nth l' i v').
Proof. intros H Hv. revert i. induction H; intros [|i]; cbn; constructor; auto. Qed.
Lemma par_cons x x' l l' : RA x x' -> Forall2 RA l l' -> Forall2 RA (x :: l) (x' :: l').
Proof. now constructor. Qed.
Lemma par_nil : Forall2 RA [] [].
Proof. constructor. Qed.
Lemma par_pair x x' y y' : RA x x' -> RB y y' -> prodR RA RB (x, y) (x', y').
Proof. now split. Qed.
Lemma par_fst p p' : prodR RA RB p p' -> RA (fst p) (fst p').
Proof. intros H. apply H. Qed.
Lemma par_snd p p' : prodR RA RB p p' -> RB (snd p) (snd p').
Proof. intros H. apply H. Qed.
Lemma par_map_tsize (l : list (tensor A)) (l' : list (tensor A')) : Forall2 (tR RA) l l' -> map tsize l = map tsize l'.
Proof. induction 1 as [|x y l l' H _ IH]; cbn; [reflexivity|]. destruct H as (_ & _ & E & _). now rewrite E, IH. Qed.
Lemma par_mkTensor s o n d d' : Forall2 RA d d' -> tR RA (mkTensor s o n d) (mkTensor s o n d').
Proof. intros. repeat split; auto. Qed.
Lemma par_tdata t t' : tR RA t t' -> Forall2 RA (tdata t) (tdata t').
Proof. intros (_ & _ & _ & H). exact H. Qed.
Lemma par_tshape t t' : tR RA t t' -> tshape t = tshape t'.
Proof. intros (H & _). exact H. Qed.
Lemma par_toffset t t' : tR RA t t' -> toffset t = toffset t'.
Proof. intros (_ & H & _). exact H. Qed.
Lemma par_tsize t t' : tR RA t t' -> tsize t = tsize t'.
Proof. intros (_ & _ & H & _). exact H. Qed.
Lemma outR_same (x : outcome A) : outR eq x x.
Proof. destruct x; now constructor. Qed.
Lemma par_for_from i n (b : nat -> A -> outcome A) (b' : nat -> A' -> outcome A') s s' :
  (forall i s s', RA s s' -> outR RA (b i s) (b' i s')) -> RA s s' -> outR RA (for_from i n b s) (for_from i n b' s').
Proof.
  intros Hb. revert i s s'. induction n as [|n IH]; intros i s s' H; cbn; [now constructor|].
  destruct (Hb i _ _ H); cbn; [auto|constructor|constructor].
Qed.
Lemma par_for_ n (b : nat -> A -> outcome A) (b' : nat -> A' -> outcome A') s s' :
  (forall i s s', RA s s' -> outR RA (b i s) (b' i s')) -> RA s s' -> outR RA (for_ n b s) (for_ n b' s').
Proof. apply par_for_from. Qed.
Lemma par_for_range x y (b : nat -> A -> outcome A) (b' : nat -> A' -> outcome A') s s' :
  (forall i s s', RA s s' -> outR RA (b i s) (b' i s')) -> RA s s' -> outR RA (for_range x y b s) (for_range x y b' s').
Proof. apply par_for_from. Qed.
Lemma par_for_each (l : list B) l' (b : B -> A -> outcome A) (b' : B' -> A' -> outcome A') s s' :
  Forall2 RB l l' -> (forall i i' s s', RB i i' -> RA s s' -> outR RA (b i s) (b' i' s')) -> RA s s' ->
  outR RA (for_each l b s) (for_each l' b' s').
Proof.
  intros Hl Hb. revert s s'. induction Hl as [|x y l l' H _ IH]; intros s s' Hs; cbn; [now constructor|].
  destruct (Hb _ _ _ _ H Hs); cbn; [auto|constructor|constructor].
Qed.
Lemma par_map_out (f : A -> outcome B) (f' : A' -> outcome B') l l' :
  (forall a a', RA a a' -> outR RB (f a) (f' a')) -> Forall2 RA l l' -> outR (Forall2 RB) (map_out f l) (map_out f' l').
Proof.
  intros Hf. induction 1 as [|x y l l' H _ IH]; cbn; [now repeat constructor|].
  destruct (Hf _ _ H); cbn; [|constructor|constructor]. destruct IH; cbn; [|constructor|constructor].
  now repeat constructor.
Qed.
Lemma par_assume_init (b : buf A) (b' : buf A') : Forall2 (optR RA) b b' -> outR (Forall2 RA) (assume_init b) (assume_init b').
Proof.
  induction 1 as [|x y l l' H _ IH]; cbn; [now repeat constructor|].
  destruct H; cbn; [|constructor]. destruct IH; cbn; [|constructor|constructor]. now repeat constructor.
Qed.
End Basic.

Lemma par_assert_ b b' : b = b' -> outR eq (assert_ b) (assert_ b').
Proof. intros ->. apply outR_same. Qed.
Lemma forall2_eq {A} (l : list A) : Forall2 eq l l.
Proof. induction l; auto. Qed.
Lemma forall2_eq_inv {A} (l l' : list A) : Forall2 eq l l' -> l = l'.
Proof. induction 1; congruence. Qed.

(** The relation for two types. *)
Ltac relof A B :=
  match constr:((A, B)) with
  | (?X, ?X) => constr:(@eq X)
  | _ => match goal with R : A -> B -> Prop |- _ => constr:(R) end
  | (list ?X, list ?Y) => let r := relof X Y in constr:(Forall2 r)
  | (option ?X, option ?Y) => let r := relof X Y in constr:(optR r)
  | (prod ?X ?X1, prod ?Y ?Y1) => let r := relof X Y in let r1 := relof X1 Y1 in constr:(prodR r r1)
  | (outcome ?X, outcome ?Y) => let r := relof X Y in constr:(outR r)
  | (tensor ?X, tensor ?Y) => let r := relof X Y in constr:(tR r)
  | (tensor_list ?X, tensor_list ?Y) => let r := relof X Y in constr:(tlR r)
  | (fops ?X, fops ?Y) => let r := relof X Y in constr:(ringR r)
  | (piece ?X, piece ?Y) => let r := relof X Y in constr:(pieceR r)
  end.

Ltac head x := lazymatch x with ?f _ => head f | _ => x end.

(** Rewrites what related arguments have in common. *)
Ltac same :=
  repeat match goal with
  | H : tR _ ?t ?u |- context [tshape ?t] => rewrite (par_tshape _ t u H)
  | H : tR _ ?t ?u |- context [toffset ?t] => rewrite (par_toffset _ t u H)
  | H : tR _ ?t ?u |- context [tsize ?t] => rewrite (par_tsize _ t u H)
  | H : tR _ ?t ?u |- context [length (tdata ?t)] => rewrite (par_length _ _ _ (par_tdata _ t u H))
  | H : Forall2 _ ?l ?l' |- context [length ?l] => rewrite (par_length _ l l' H)
  | H : Forall2 (tR _) ?l ?l' |- context [map tsize ?l] => rewrite (par_map_tsize _ l l' H)
  | H : Forall2 (tR _) ?l ?l' |- context [map tsize (rev ?l)] => rewrite (par_map_tsize _ _ _ (par_rev _ l l' H))
  | H : Forall2 (Forall2 _) ?l ?l' |- context [length (concat ?l)] => rewrite (par_length _ _ _ (par_concat _ l l' H))
  end.

Ltac intro_rel :=
  let H := fresh "H" in intro H;
  lazymatch type of H with
  | @eq _ ?x ?y => first [subst x | subst y | idtac]
  | prodR _ _ ?x ?y =>
      destruct x, y; destruct H as [?H ?H]; cbn [fst snd] in *;
      repeat match goal with
      | K : @eq _ ?x ?y |- _ => is_var x; subst x
      | K : prodR _ _ ?x ?y |- _ => destruct x, y; destruct K as [?K ?K]; cbn [fst snd] in *
      end
  | _ => idtac
  end.

Ltac pa_0 h :=
  lazymatch h with
  | @nth_error => eapply par_nth_error
  | @firstn => eapply par_firstn
  | @skipn => eapply par_skipn
  | @app => eapply par_app
  | @rev => eapply par_rev
  | @concat => eapply par_concat
  | @repeat => eapply par_repeat
  | @map => eapply par_map
  | @set_nth => eapply par_set_nth
  | @cons => eapply par_cons
  | @nil => eapply par_nil
  | @pair => eapply par_pair
  | @fst => eapply par_fst
  | @snd => eapply par_snd
  | @Some => apply optR_some
  | @None => apply optR_none
  | @Ok => apply outR_ok
  | @Panic => apply outR_panic
  | @Ub => apply outR_ub
  | @Lit => apply pieceR_lit
  | @Elem => apply pieceR_elem
  | @Tensors => apply tlR_tensors
  | @mkTensor => apply par_mkTensor
  | @tdata => eapply par_tdata
  | @for_from => eapply par_for_from
  | @for_ => eapply par_for_
  | @for_range => eapply par_for_range
  | @for_each => eapply par_for_each
  | @map_out => eapply par_map_out
  | @assume_init => eapply par_assume_init
  | @pure1 => unfold pure1
  | @pure2 => unfold pure2
  | @pure3 => unfold pure3
  | @lift1 => unfold lift1
  | @lift2 => unfold lift2
  | @assert_ => eapply par_assert_
  | @fzero => eapply ring_zero
  | @fone => eapply ring_one
  | @fadd => eapply ring_add
  | @fmul => eapply ring_mul
  | @feq => first [eapply ring_eq; [eassumption| |] | eapply ord_eq; [eassumption| |]]
  | @flt => eapply ord_lt; [eassumption| |]
  | @fmin => unfold fmin
  | @fmax => unfold fmax
  end.
Ltac pa_api h := pa_0 h.

Ltac apply_hyp := match goal with H : forall _, _ |- _ => solve [eapply H; eassumption] | H : forall _, _ |- _ => eapply H end.

Ltac pa1 :=
  lazymatch goal with
  | |- ?A -> ?B -> Prop => let r := relof A B in exact r
  | |- forall _, _ => first [intro_rel | intro]
  | |- _ => first [assumption | reflexivity | apply outR_same | apply forall2_eq
                  | progress same | progress cbv beta zeta | pa2]
  end
with pa2 :=
  lazymatch goal with
  | |- ?Q (bind (A:=?A) ?x ?f) (bind (A:=?B) ?y ?g) =>
      let r := relof A B in apply (par_bind r)
  | |- ?Q (match ?x with _ => _ end) (match ?y with _ => _ end) =>
      first [constr_eq x y; destruct x
            | let A := type of x in let B := type of y in let r := relof A B in
              let K := fresh "K" in assert (K : r x y); [solve [repeat pa1]|];
              first [rewrite K; destruct y | destruct K]]
  | |- ?Q ?x ?y => let h := head x in first [unshelve pa_api h | unshelve apply_hyp | fail 2 "no rule for" h]
  end.
Ltac pa := repeat pa1.
Lemma par_aget {A A'} (RA : A -> A' -> Prop) (l : list A) (l' : (list A')) (i : nat) :
  (Forall2 RA) l l' -> (outR RA) (aget l i) (aget l' i).
Proof. intros; unfold aget; pa. Qed.
Ltac pa_1 h := lazymatch h with @aget => eapply par_aget | _ => pa_0 h end.
Ltac pa_api h ::= pa_1 h.
Lemma par_aset {A A'} (RA : A -> A' -> Prop) (l : list A) (l' : (list A')) (i : nat) (v : A) (v' : A') :
  (Forall2 RA) l l' -> RA v v' -> (outR (Forall2 RA)) (aset l i v) (aset l' i v').
Proof. intros; unfold aset; pa. Qed.
Ltac pa_2 h := lazymatch h with @aset => eapply par_aset | _ => pa_1 h end.
Ltac pa_api h ::= pa_2 h.
Lemma par_aslice {A A'} (RA : A -> A' -> Prop) (l : list A) (l' : (list A')) (a : nat) (b : nat) :
  (Forall2 RA) l l' -> (outR (Forall2 RA)) (aslice l a b) (aslice l' a b).
Proof. intros; unfold aslice; pa. Qed.
Ltac pa_3 h := lazymatch h with @aslice => eapply par_aslice | _ => pa_2 h end.
Ltac pa_api h ::= pa_3 h.
Lemma par_write {A A'} (RA : A -> A' -> Prop) (b : buf A) (b' : (buf A')) (i : nat) (v : A) (v' : A') :
  (Forall2 (optR RA)) b b' -> RA v v' -> (outR (Forall2 (optR RA))) (write b i v) (write b' i v').
Proof. intros; unfold write; pa. Qed.
Ltac pa_4 h := lazymatch h with @write => eapply par_write | _ => pa_3 h end.
Ltac pa_api h ::= pa_4 h.
Lemma par_alloc {A A'} (RA : A -> A' -> Prop) (c : cfg) (len : nat) :
  (outR (Forall2 (optR RA))) (alloc c len) (alloc c len).
Proof. intros; unfold alloc; pa. Qed.
Ltac pa_5 h := lazymatch h with @alloc => eapply par_alloc | _ => pa_4 h end.
Ltac pa_api h ::= pa_5 h.
Lemma par_tensor_new {A A'} (RA : A -> A' -> Prop) (c : cfg) (data : list A) (data' : (list A')) (s : shape) :
  (Forall2 RA) data data' -> (outR (tR RA)) (tensor_new c data s) (tensor_new c data' s).
Proof. intros; unfold tensor_new; pa. Qed.
Ltac pa_6 h := lazymatch h with @tensor_new => eapply par_tensor_new | _ => pa_5 h end.
Ltac pa_api h ::= pa_6 h.
Lemma par_from_vec {A A'} (RA : A -> A' -> Prop) (c : cfg) (v : list A) (v' : (list A')) (s : shape) :
  (Forall2 RA) v v' -> (outR (tR RA)) (from_vec c v s) (from_vec c v' s).
Proof. intros; unfold from_vec; pa. Qed.
Ltac pa_7 h := lazymatch h with @from_vec => eapply par_from_vec | _ => pa_6 h end.
Ltac pa_api h ::= pa_7 h.
Lemma par_from_scalar {A A'} (RA : A -> A' -> Prop) (c : cfg) (v : A) (v' : A') :
  RA v v' -> (outR (tR RA)) (from_scalar c v) (from_scalar c v').
Proof. intros; unfold from_scalar; pa. Qed.
Ltac pa_8 h := lazymatch h with @from_scalar => eapply par_from_scalar | _ => pa_7 h end.
Ltac pa_api h ::= pa_8 h.
Lemma par_unsafe_init {A A'} {S S'} (RA : A -> A' -> Prop) (RS : S -> S' -> Prop) (c : cfg) (len : nat) (s : shape) (init : S * buf A -> outcome (S * buf A)) (init' : ((S' * (buf A')) -> (outcome (S' * (buf A'))))) (st : S) (st' : S') :
  (forall x0 x0', (prodR RS (Forall2 (optR RA))) x0 x0' -> (outR (prodR RS (Forall2 (optR RA)))) (init x0) (init' x0')) -> RS st st' -> (outR (prodR RS (tR RA))) (unsafe_init c len s init st) (unsafe_init c len s init' st').
Proof. intros; unfold unsafe_init; pa. Qed.
Ltac pa_9 h := lazymatch h with @unsafe_init => eapply par_unsafe_init | _ => pa_8 h end.
Ltac pa_api h ::= pa_9 h.
Lemma par_unsafe_init_ {A A'} (RA : A -> A' -> Prop) (c : cfg) (len : nat) (s : shape) (init : buf A -> outcome (buf A)) (init' : ((buf A') -> (outcome (buf A')))) :
  (forall x0 x0', (Forall2 (optR RA)) x0 x0' -> (outR (Forall2 (optR RA))) (init x0) (init' x0')) -> (outR (tR RA)) (unsafe_init_ c len s init) (unsafe_init_ c len s init').
Proof. intros; unfold unsafe_init_; pa. Qed.
Ltac pa_10 h := lazymatch h with @unsafe_init_ => eapply par_unsafe_init_ | _ => pa_9 h end.
Ltac pa_api h ::= pa_10 h.
Lemma par_raw_slice {A A'} (RA : A -> A' -> Prop) (d : list A) (d' : (list A')) (p : nat) (n : nat) :
  (Forall2 RA) d d' -> (outR (Forall2 RA)) (raw_slice d p n) (raw_slice d' p n).
Proof. intros; unfold raw_slice; pa. Qed.
Ltac pa_11 h := lazymatch h with @raw_slice => eapply par_raw_slice | _ => pa_10 h end.
Ltac pa_api h ::= pa_11 h.
Lemma par_raw_get {A A'} (RA : A -> A' -> Prop) (d : list A) (d' : (list A')) (p : nat) :
  (Forall2 RA) d d' -> (outR RA) (raw_get d p) (raw_get d' p).
Proof. intros; unfold raw_get; pa. Qed.
Ltac pa_12 h := lazymatch h with @raw_get => eapply par_raw_get | _ => pa_11 h end.
Ltac pa_api h ::= pa_12 h.
Lemma par_get {A A'} (RA : A -> A' -> Prop) (c : cfg) (t : tensor A) (t' : (tensor A')) (offset : nat) :
  (tR RA) t t' -> (outR (optR RA)) (get c t offset) (get c t' offset).
Proof. intros; unfold get; pa. Qed.
Ltac pa_13 h := lazymatch h with @get => eapply par_get | _ => pa_12 h end.
Ltac pa_api h ::= pa_13 h.
Lemma par_as_slice {A A'} (RA : A -> A' -> Prop) (t : tensor A) (t' : (tensor A')) :
  (tR RA) t t' -> (outR (Forall2 RA)) (as_slice t) (as_slice t').
Proof. intros; unfold as_slice; pa. Qed.
Ltac pa_14 h := lazymatch h with @as_slice => eapply par_as_slice | _ => pa_13 h end.
Ltac pa_api h ::= pa_14 h.
Lemma par_wrap_pos {A A'} (RA : A -> A' -> Prop) (t : tensor A) (t' : (tensor A')) (offset : nat) :
  (tR RA) t t' -> (outR eq) (wrap_pos t offset) (wrap_pos t' offset).
Proof. intros; unfold wrap_pos; pa. Qed.
Ltac pa_15 h := lazymatch h with @wrap_pos => eapply par_wrap_pos | _ => pa_14 h end.
Ltac pa_api h ::= pa_15 h.
Lemma par_as_wrap_slice {A A'} (RA : A -> A' -> Prop) (t : tensor A) (t' : (tensor A')) (offset : nat) :
  (tR RA) t t' -> (outR (Forall2 RA)) (as_wrap_slice t offset) (as_wrap_slice t' offset).
Proof. intros; unfold as_wrap_slice; pa. Qed.
Ltac pa_16 h := lazymatch h with @as_wrap_slice => eapply par_as_wrap_slice | _ => pa_15 h end.
Ltac pa_api h ::= pa_16 h.
Lemma par_as_wrap_slice_n {A A'} (RA : A -> A' -> Prop) (c : cfg) (t : tensor A) (t' : (tensor A')) (offset : nat) (len : nat) :
  (tR RA) t t' -> (outR (Forall2 RA)) (as_wrap_slice_n c t offset len) (as_wrap_slice_n c t' offset len).
Proof. intros; unfold as_wrap_slice_n; pa. Qed.
Ltac pa_17 h := lazymatch h with @as_wrap_slice_n => eapply par_as_wrap_slice_n | _ => pa_16 h end.
Ltac pa_api h ::= pa_17 h.
Lemma par_as_wrap_ptr {A A'} (RA : A -> A' -> Prop) (t : tensor A) (t' : (tensor A')) (offset : nat) :
  (tR RA) t t' -> (outR eq) (as_wrap_ptr t offset) (as_wrap_ptr t' offset).
Proof. intros; unfold as_wrap_ptr; pa. Qed.
Ltac pa_18 h := lazymatch h with @as_wrap_ptr => eapply par_as_wrap_ptr | _ => pa_17 h end.
Ltac pa_api h ::= pa_18 h.
Lemma par_subslice_flat {A A'} (RA : A -> A' -> Prop) (c : cfg) (t : tensor A) (t' : (tensor A')) (offset : nat) (len : nat) (s : outcome shape) :
  (tR RA) t t' -> (outR (tR RA)) (subslice_flat c t offset len s) (subslice_flat c t' offset len s).
Proof. intros; unfold subslice_flat; pa. Qed.
Ltac pa_19 h := lazymatch h with @subslice_flat => eapply par_subslice_flat | _ => pa_18 h end.
Ltac pa_api h ::= pa_19 h.
Lemma par_subslice {A A'} (RA : A -> A' -> Prop) (c : cfg) (t : tensor A) (t' : (tensor A')) (offset : nat) (len : nat) :
  (tR RA) t t' -> (outR (tR RA)) (subslice c t offset len) (subslice c t' offset len).
Proof. intros; unfold subslice; pa. Qed.
Ltac pa_20 h := lazymatch h with @subslice => eapply par_subslice | _ => pa_19 h end.
Ltac pa_api h ::= pa_20 h.
Lemma par_chunks_fuel {A A'} (RA : A -> A' -> Prop) (fuel : nat) (n : nat) (l : list A) (l' : (list A')) :
  (Forall2 RA) l l' -> (Forall2 (Forall2 RA)) (chunks_fuel fuel n l) (chunks_fuel fuel n l').
Proof. revert l l'. induction fuel as [|fuel IH]; intros l l' H; cbn [chunks_fuel]; pa. Qed.
Ltac pa_21 h := lazymatch h with @chunks_fuel => eapply par_chunks_fuel | _ => pa_20 h end.
Ltac pa_api h ::= pa_21 h.
Lemma par_chunks_exact {A A'} (RA : A -> A' -> Prop) (n : nat) (l : list A) (l' : (list A')) :
  (Forall2 RA) l l' -> (outR (Forall2 (Forall2 RA))) (chunks_exact n l) (chunks_exact n l').
Proof. intros; unfold chunks_exact; pa. Qed.
Ltac pa_22 h := lazymatch h with @chunks_exact => eapply par_chunks_exact | _ => pa_21 h end.
Ltac pa_api h ::= pa_22 h.
Lemma par_iter_row {A A'} (RA : A -> A' -> Prop) (t : tensor A) (t' : (tensor A')) :
  (tR RA) t t' -> (outR (Forall2 (Forall2 RA))) (iter_row t) (iter_row t').
Proof. intros; unfold iter_row; pa. Qed.
Ltac pa_23 h := lazymatch h with @iter_row => eapply par_iter_row | _ => pa_22 h end.
Ltac pa_api h ::= pa_23 h.
Lemma par_from_slice {A A'} (RA : A -> A' -> Prop) (c : cfg) (data : list A) (data' : (list A')) :
  (Forall2 RA) data data' -> (outR (tR RA)) (from_slice c data) (from_slice c data').
Proof. intros; unfold from_slice; pa. Qed.
Ltac pa_24 h := lazymatch h with @from_slice => eapply par_from_slice | _ => pa_23 h end.
Ltac pa_api h ::= pa_24 h.
Lemma par_from_merge {A A'} (RA : A -> A' -> Prop) (c : cfg) (ts : list (tensor A)) (ts' : (list (tensor A'))) (s : shape) :
  (Forall2 (tR RA)) ts ts' -> (outR (tR RA)) (from_merge c ts s) (from_merge c ts' s).
Proof. intros; unfold from_merge; pa. Qed.
Ltac pa_25 h := lazymatch h with @from_merge => eapply par_from_merge | _ => pa_24 h end.
Ltac pa_api h ::= pa_25 h.
Lemma par_append {A A'} (RA : A -> A' -> Prop) (c : cfg) (t : tensor A) (t' : (tensor A')) (u : tensor A) (u' : (tensor A')) :
  (tR RA) t t' -> (tR RA) u u' -> (outR (tR RA)) (append c t u) (append c t' u').
Proof. intros; unfold append; pa. Qed.
Ltac pa_26 h := lazymatch h with @append => eapply par_append | _ => pa_25 h end.
Ltac pa_api h ::= pa_26 h.
Lemma par_join_vec {A A'} (RA : A -> A' -> Prop) (c : cfg) (v : list (list A)) (v' : (list (list A'))) :
  (Forall2 (Forall2 RA)) v v' -> (outR (tR RA)) (join_vec c v) (join_vec c v').
Proof. intros; unfold join_vec; pa. Qed.
Ltac pa_27 h := lazymatch h with @join_vec => eapply par_join_vec | _ => pa_26 h end.
Ltac pa_api h ::= pa_27 h.
Lemma par_list_eqb {A A'} (RA : A -> A' -> Prop) (eqb : A -> A -> bool) (eqb' : (A' -> (A' -> bool))) (a : list A) (a' : (list A')) (b : list A) (b' : (list A')) :
  (forall x0 x0', RA x0 x0' -> (forall x1 x1', RA x1 x1' -> eq ((eqb x0) x1) ((eqb' x0') x1'))) -> (Forall2 RA) a a' -> (Forall2 RA) b b' -> eq (list_eqb eqb a b) (list_eqb eqb' a' b').
Proof. intros He Hl Hm. revert b b' Hm. induction Hl; intros ? ? []; cbn [list_eqb]; pa. f_equal; auto. Qed.
Ltac pa_28 h := lazymatch h with @list_eqb => eapply par_list_eqb | _ => pa_27 h end.
Ltac pa_api h ::= pa_28 h.
Lemma par_tensor_eqb {A A'} (RA : A -> A' -> Prop) (eqb : A -> A -> bool) (eqb' : (A' -> (A' -> bool))) (t : tensor A) (t' : (tensor A')) (u : tensor A) (u' : (tensor A')) :
  (forall x0 x0', RA x0 x0' -> (forall x1 x1', RA x1 x1' -> eq ((eqb x0) x1) ((eqb' x0') x1'))) -> (tR RA) t t' -> (tR RA) u u' -> (outR eq) (tensor_eqb eqb t u) (tensor_eqb eqb' t' u').
Proof. intros; unfold tensor_eqb; pa. Qed.
Ltac pa_29 h := lazymatch h with @tensor_eqb => eapply par_tensor_eqb | _ => pa_28 h end.
Ltac pa_api h ::= pa_29 h.
Lemma par_index1 {A A'} (RA : A -> A' -> Prop) (t : tensor A) (t' : (tensor A')) (i : nat) :
  (tR RA) t t' -> (outR RA) (index1 t i) (index1 t' i).
Proof. intros; unfold index1; pa. Qed.
Ltac pa_30 h := lazymatch h with @index1 => eapply par_index1 | _ => pa_29 h end.
Ltac pa_api h ::= pa_30 h.
Lemma par_index3 {A A'} (RA : A -> A' -> Prop) (c : cfg) (t : tensor A) (t' : (tensor A')) (i : nat) (j : nat) (k : nat) :
  (tR RA) t t' -> (outR RA) (index3 c t i j k) (index3 c t' i j k).
Proof. intros; unfold index3; pa. Qed.
Ltac pa_32 h := lazymatch h with @index3 => eapply par_index3 | _ => pa_30 h end.
Ltac pa_api h ::= pa_32 h.
Lemma par_index4 {A A'} (RA : A -> A' -> Prop) (c : cfg) (t : tensor A) (t' : (tensor A')) (h : nat) (i : nat) (j : nat) (k : nat) :
  (tR RA) t t' -> (outR RA) (index4 c t h i j k) (index4 c t' h i j k).
Proof. intros; unfold index4; pa. Qed.
Ltac pa_33 h := lazymatch h with @index4 => eapply par_index4 | _ => pa_32 h end.
Ltac pa_api h ::= pa_33 h.
Lemma par_index5 {A A'} (RA : A -> A' -> Prop) (c : cfg) (t : tensor A) (t' : (tensor A')) (g : nat) (h : nat) (i : nat) (j : nat) (k : nat) :
  (tR RA) t t' -> (outR RA) (index5 c t g h i j k) (index5 c t' g h i j k).
Proof. intros; unfold index5; pa. Qed.
Ltac pa_34 h := lazymatch h with @index5 => eapply par_index5 | _ => pa_33 h end.
Ltac pa_api h ::= pa_34 h.
Lemma par_reshape {A A'} (RA : A -> A' -> Prop) (c : cfg) (t : tensor A) (t' : (tensor A')) (s : shape) :
  (tR RA) t t' -> (outR (tR RA)) (reshape c t s) (reshape c t' s).
Proof. intros; unfold reshape; pa. Qed.
Ltac pa_35 h := lazymatch h with @reshape => eapply par_reshape | _ => pa_34 h end.
Ltac pa_api h ::= pa_35 h.
Lemma par_t_expand_dims {A A'} (RA : A -> A' -> Prop) (c : cfg) (t : tensor A) (t' : (tensor A')) (axis : option Z) :
  (tR RA) t t' -> (outR (tR RA)) (t_expand_dims c t axis) (t_expand_dims c t' axis).
Proof. intros; unfold t_expand_dims; pa. Qed.
Ltac pa_36 h := lazymatch h with @t_expand_dims => eapply par_t_expand_dims | _ => pa_35 h end.
Ltac pa_api h ::= pa_36 h.
Lemma par_flatten {A A'} (RA : A -> A' -> Prop) (c : cfg) (t : tensor A) (t' : (tensor A')) :
  (tR RA) t t' -> (outR (tR RA)) (flatten c t) (flatten c t').
Proof. intros; unfold flatten; pa. Qed.
Ltac pa_37 h := lazymatch h with @flatten => eapply par_flatten | _ => pa_36 h end.
Ltac pa_api h ::= pa_37 h.
Lemma par_t_squeeze {A A'} (RA : A -> A' -> Prop) (c : cfg) (t : tensor A) (t' : (tensor A')) :
  (tR RA) t t' -> (outR (tR RA)) (t_squeeze c t) (t_squeeze c t').
Proof. intros; unfold t_squeeze; pa. Qed.
Ltac pa_38 h := lazymatch h with @t_squeeze => eapply par_t_squeeze | _ => pa_37 h end.
Ltac pa_api h ::= pa_38 h.
Lemma par_squeeze_axis {A A'} (RA : A -> A' -> Prop) (c : cfg) (t : tensor A) (t' : (tensor A')) (axis : option Z) :
  (tR RA) t t' -> (outR (tR RA)) (squeeze_axis c t axis) (squeeze_axis c t' axis).
Proof. intros; unfold squeeze_axis; pa. Qed.
Ltac pa_39 h := lazymatch h with @squeeze_axis => eapply par_squeeze_axis | _ => pa_38 h end.
Ltac pa_api h ::= pa_39 h.
Lemma par_of_value {A A'} (RA : A -> A' -> Prop) (c : cfg) (v : A) (v' : A') :
  RA v v' -> (outR (tR RA)) (of_value c v) (of_value c v').
Proof. intros; unfold of_value; pa. Qed.
Ltac pa_40 h := lazymatch h with @of_value => eapply par_of_value | _ => pa_39 h end.
Ltac pa_api h ::= pa_40 h.
Lemma par_of_option {A A'} (RA : A -> A' -> Prop) (c : cfg) (v : option A) (v' : (option A')) :
  (optR RA) v v' -> (outR (tR RA)) (of_option c v) (of_option c v').
Proof. intros; unfold of_option; pa. Qed.
Ltac pa_41 h := lazymatch h with @of_option => eapply par_of_option | _ => pa_40 h end.
Ltac pa_api h ::= pa_41 h.
Lemma par_of_vec {A A'} (RA : A -> A' -> Prop) (c : cfg) (v : list A) (v' : (list A')) :
  (Forall2 RA) v v' -> (outR (tR RA)) (of_vec c v) (of_vec c v').
Proof. intros; unfold of_vec; pa. Qed.
Ltac pa_42 h := lazymatch h with @of_vec => eapply par_of_vec | _ => pa_41 h end.
Ltac pa_api h ::= pa_42 h.
Lemma par_of_rows {A A'} (RA : A -> A' -> Prop) (c : cfg) (n : nat) (v : list (list A)) (v' : (list (list A'))) :
  (Forall2 (Forall2 RA)) v v' -> (outR (tR RA)) (of_rows c n v) (of_rows c n v').
Proof. intros; unfold of_rows; pa. Qed.
Ltac pa_43 h := lazymatch h with @of_rows => eapply par_of_rows | _ => pa_42 h end.
Ltac pa_api h ::= pa_43 h.
Lemma par_of_rows2 {A A'} (RA : A -> A' -> Prop) (c : cfg) (m : nat) (n : nat) (v : list (list (list A))) (v' : (list (list (list A')))) :
  (Forall2 (Forall2 (Forall2 RA))) v v' -> (outR (tR RA)) (of_rows2 c m n v) (of_rows2 c m n v').
Proof. intros; unfold of_rows2; pa. Qed.
Ltac pa_44 h := lazymatch h with @of_rows2 => eapply par_of_rows2 | _ => pa_43 h end.
Ltac pa_api h ::= pa_44 h.
Lemma par_of_vec2 {A A'} (RA : A -> A' -> Prop) (c : cfg) (v : list (list A)) (v' : (list (list A'))) :
  (Forall2 (Forall2 RA)) v v' -> (outR (tR RA)) (of_vec2 c v) (of_vec2 c v').
Proof. intros; unfold of_vec2; pa. Qed.
Ltac pa_45 h := lazymatch h with @of_vec2 => eapply par_of_vec2 | _ => pa_44 h end.
Ltac pa_api h ::= pa_45 h.
Lemma par_of_vec3 {A A'} (RA : A -> A' -> Prop) (c : cfg) (v : list (list (list A))) (v' : (list (list (list A')))) :
  (Forall2 (Forall2 (Forall2 RA))) v v' -> (outR (tR RA)) (of_vec3 c v) (of_vec3 c v').
Proof. intros; unfold of_vec3; pa. Qed.
Ltac pa_46 h := lazymatch h with @of_vec3 => eapply par_of_vec3 | _ => pa_45 h end.
Ltac pa_api h ::= pa_46 h.
Lemma par_of_vec4 {A A'} (RA : A -> A' -> Prop) (c : cfg) (v : list (list (list (list A)))) (v' : (list (list (list (list A'))))) :
  (Forall2 (Forall2 (Forall2 (Forall2 RA)))) v v' -> (outR (tR RA)) (of_vec4 c v) (of_vec4 c v').
Proof. intros; unfold of_vec4; pa. Qed.
Ltac pa_47 h := lazymatch h with @of_vec4 => eapply par_of_vec4 | _ => pa_46 h end.
Ltac pa_api h ::= pa_47 h.
Lemma par_of_tensors {A A'} (RA : A -> A' -> Prop) (c : cfg) (ts : list (tensor A)) (ts' : (list (tensor A'))) :
  (Forall2 (tR RA)) ts ts' -> (outR (tR RA)) (of_tensors c ts) (of_tensors c ts').
Proof. intros; unfold of_tensors; pa. Qed.
Ltac pa_48 h := lazymatch h with @of_tensors => eapply par_of_tensors | _ => pa_47 h end.
Ltac pa_api h ::= pa_48 h.
Lemma par_init {S S'} {V V'} (RS : S -> S' -> Prop) (RV : V -> V' -> Prop) (c : cfg) (s : shape) (f : S -> outcome (S * V)) (f' : (S' -> (outcome (S' * V')))) (st : S) (st' : S') :
  (forall x0 x0', RS x0 x0' -> (outR (prodR RS RV)) (f x0) (f' x0')) -> RS st st' -> (outR (prodR RS (tR RV))) (init c s f st) (init c s f' st').
Proof. intros; unfold init; pa. Qed.
Ltac pa_49 h := lazymatch h with @init => eapply par_init | _ => pa_48 h end.
Ltac pa_api h ::= pa_49 h.
Lemma par_init_rindexed {S S'} {V V'} (RS : S -> S' -> Prop) (RV : V -> V' -> Prop) (c : cfg) (s : shape) (f : S -> list nat -> outcome (S * V)) (f' : (S' -> ((list nat) -> (outcome (S' * V'))))) (st : S) (st' : S') :
  (forall x0 x0', RS x0 x0' -> (forall x1, (outR (prodR RS RV)) ((f x0) x1) ((f' x0') x1))) -> RS st st' -> (outR (prodR RS (tR RV))) (init_rindexed c s f st) (init_rindexed c s f' st').
Proof. intros; unfold init_rindexed; pa. Qed.
Ltac pa_50 h := lazymatch h with @init_rindexed => eapply par_init_rindexed | _ => pa_49 h end.
Ltac pa_api h ::= pa_50 h.
Lemma par_map_ {S S'} {U U'} {V V'} (RS : S -> S' -> Prop) (RU : U -> U' -> Prop) (RV : V -> V' -> Prop) (c : cfg) (a : tensor U) (a' : (tensor U')) (f : S -> U -> outcome (S * V)) (f' : (S' -> (U' -> (outcome (S' * V'))))) (st : S) (st' : S') :
  (tR RU) a a' -> (forall x0 x0', RS x0 x0' -> (forall x1 x1', RU x1 x1' -> (outR (prodR RS RV)) ((f x0) x1) ((f' x0') x1'))) -> RS st st' -> (outR (prodR RS (tR RV))) (map_ c a f st) (map_ c a' f' st').
Proof. intros; unfold map_; pa. Qed.
Ltac pa_51 h := lazymatch h with @map_ => eapply par_map_ | _ => pa_50 h end.
Ltac pa_api h ::= pa_51 h.
Lemma par_write_row {V V'} (RV : V -> V' -> Prop) (o : buf V) (o' : (buf V')) (p : nat) (vs : list V) (vs' : (list V')) :
  (Forall2 (optR RV)) o o' -> (Forall2 RV) vs vs' -> (outR (Forall2 (optR RV))) (write_row o p vs) (write_row o' p vs').
Proof. intros; unfold write_row; pa. Qed.
Ltac pa_52 h := lazymatch h with @write_row => eapply par_write_row | _ => pa_51 h end.
Ltac pa_api h ::= pa_52 h.
Lemma par_map_row {S S'} {U U'} {V V'} (RS : S -> S' -> Prop) (RU : U -> U' -> Prop) (RV : V -> V' -> Prop) (c : cfg) (N : nat) (a : tensor U) (a' : (tensor U')) (f : S -> list U -> outcome (S * list V)) (f' : (S' -> ((list U') -> (outcome (S' * (list V')))))) (st : S) (st' : S') :
  (tR RU) a a' -> (forall x0 x0', RS x0 x0' -> (forall x1 x1', (Forall2 RU) x1 x1' -> (outR (prodR RS (Forall2 RV))) ((f x0) x1) ((f' x0') x1'))) -> RS st st' -> (outR (prodR RS (tR RV))) (map_row c N a f st) (map_row c N a' f' st').
Proof. intros; unfold map_row; pa. Qed.
Ltac pa_53 h := lazymatch h with @map_row => eapply par_map_row | _ => pa_52 h end.
Ltac pa_api h ::= pa_53 h.
Lemma par_map_expand {S S'} {U U'} {V V'} (RS : S -> S' -> Prop) (RU : U -> U' -> Prop) (RV : V -> V' -> Prop) (c : cfg) (N : nat) (a : tensor U) (a' : (tensor U')) (f : S -> U -> outcome (S * list V)) (f' : (S' -> (U' -> (outcome (S' * (list V')))))) (st : S) (st' : S') :
  (tR RU) a a' -> (forall x0 x0', RS x0 x0' -> (forall x1 x1', RU x1 x1' -> (outR (prodR RS (Forall2 RV))) ((f x0) x1) ((f' x0') x1'))) -> RS st st' -> (outR (prodR RS (tR RV))) (map_expand c N a f st) (map_expand c N a' f' st').
Proof. intros; unfold map_expand; pa. Qed.
Ltac pa_54 h := lazymatch h with @map_expand => eapply par_map_expand | _ => pa_53 h end.
Ltac pa_api h ::= pa_54 h.
Lemma par_map2 {S S'} {T T'} {U U'} {V V'} (RS : S -> S' -> Prop) (RT : T -> T' -> Prop) (RU : U -> U' -> Prop) (RV : V -> V' -> Prop) (c : cfg) (a : tensor T) (a' : (tensor T')) (b : tensor U) (b' : (tensor U')) (f : S -> T -> U -> outcome (S * V)) (f' : (S' -> (T' -> (U' -> (outcome (S' * V')))))) (st : S) (st' : S') :
  (tR RT) a a' -> (tR RU) b b' -> (forall x0 x0', RS x0 x0' -> (forall x1 x1', RT x1 x1' -> (forall x2 x2', RU x2 x2' -> (outR (prodR RS RV)) (((f x0) x1) x2) (((f' x0') x1') x2')))) -> RS st st' -> (outR (prodR RS (tR RV))) (map2 c a b f st) (map2 c a' b' f' st').
Proof. intros; unfold map2; pa. Qed.
Ltac pa_55 h := lazymatch h with @map2 => eapply par_map2 | _ => pa_54 h end.
Ltac pa_api h ::= pa_55 h.
Lemma par_map2_row {V V'} (RV : V -> V' -> Prop)  :
  (outR (tR RV)) (map2_row ) (map2_row ).
Proof. intros; unfold map2_row; pa. Qed.
Ltac pa_56 h := lazymatch h with @map2_row => eapply par_map2_row | _ => pa_55 h end.
Ltac pa_api h ::= pa_56 h.
Lemma par_map2_expand {V V'} (RV : V -> V' -> Prop)  :
  (outR (tR RV)) (map2_expand ) (map2_expand ).
Proof. intros; unfold map2_expand; pa. Qed.
Ltac pa_57 h := lazymatch h with @map2_expand => eapply par_map2_expand | _ => pa_56 h end.
Ltac pa_api h ::= pa_57 h.
Lemma par_map3 {S S'} {T T'} {U U'} {V V'} {W W'} (RS : S -> S' -> Prop) (RT : T -> T' -> Prop) (RU : U -> U' -> Prop) (RV : V -> V' -> Prop) (RW : W -> W' -> Prop) (c : cfg) (ta : tensor T) (ta' : (tensor T')) (tb : tensor U) (tb' : (tensor U')) (tc : tensor V) (tc' : (tensor V')) (f : S -> T -> U -> V -> outcome (S * W)) (f' : (S' -> (T' -> (U' -> (V' -> (outcome (S' * W'))))))) (st : S) (st' : S') :
  (tR RT) ta ta' -> (tR RU) tb tb' -> (tR RV) tc tc' -> (forall x0 x0', RS x0 x0' -> (forall x1 x1', RT x1 x1' -> (forall x2 x2', RU x2 x2' -> (forall x3 x3', RV x3 x3' -> (outR (prodR RS RW)) ((((f x0) x1) x2) x3) ((((f' x0') x1') x2') x3'))))) -> RS st st' -> (outR (prodR RS (tR RW))) (map3 c ta tb tc f st) (map3 c ta' tb' tc' f' st').
Proof. intros; unfold map3; pa. Qed.
Ltac pa_58 h := lazymatch h with @map3 => eapply par_map3 | _ => pa_57 h end.
Ltac pa_api h ::= pa_58 h.
Lemma par_fold_ {S S'} {U U'} {R R'} {V V'} (RS : S -> S' -> Prop) (RU : U -> U' -> Prop) (RR : R -> R' -> Prop) (RV : V -> V' -> Prop) (c : cfg) (t : tensor U) (t' : (tensor U')) (ini : R) (ini' : R') (into : R -> V) (into' : (R' -> V')) (f : S -> R -> U -> outcome (S * R)) (f' : (S' -> (R' -> (U' -> (outcome (S' * R')))))) (st : S) (st' : S') :
  (tR RU) t t' -> RR ini ini' -> (forall x0 x0', RR x0 x0' -> RV (into x0) (into' x0')) -> (forall x0 x0', RS x0 x0' -> (forall x1 x1', RR x1 x1' -> (forall x2 x2', RU x2 x2' -> (outR (prodR RS RR)) (((f x0) x1) x2) (((f' x0') x1') x2')))) -> RS st st' -> (outR (prodR RS (tR RV))) (fold_ c t ini into f st) (fold_ c t' ini' into' f' st').
Proof. intros; unfold fold_; pa. Qed.
Ltac pa_59 h := lazymatch h with @fold_ => eapply par_fold_ | _ => pa_58 h end.
Ltac pa_api h ::= pa_59 h.
Lemma par_fold_axis {S S'} {T T'} {R R'} {V V'} (RS : S -> S' -> Prop) (RT : T -> T' -> Prop) (RR : R -> R' -> Prop) (RV : V -> V' -> Prop) (c : cfg) (t : tensor T) (t' : (tensor T')) (axis : option Z) (ini : R) (ini' : R') (into : R -> V) (into' : (R' -> V')) (f : S -> R -> T -> outcome (S * R)) (f' : (S' -> (R' -> (T' -> (outcome (S' * R')))))) (st : S) (st' : S') :
  (tR RT) t t' -> RR ini ini' -> (forall x0 x0', RR x0 x0' -> RV (into x0) (into' x0')) -> (forall x0 x0', RS x0 x0' -> (forall x1 x1', RR x1 x1' -> (forall x2 x2', RT x2 x2' -> (outR (prodR RS RR)) (((f x0) x1) x2) (((f' x0') x1') x2')))) -> RS st st' -> (outR (prodR RS (tR RV))) (fold_axis c t axis ini into f st) (fold_axis c t' axis ini' into' f' st').
Proof. intros; unfold fold_axis; pa. Qed.
Ltac pa_60 h := lazymatch h with @fold_axis => eapply par_fold_axis | _ => pa_59 h end.
Ltac pa_api h ::= pa_60 h.
Lemma par_fold_row {S S'} {T T'} {R R'} {V V'} (RS : S -> S' -> Prop) (RT : T -> T' -> Prop) (RR : R -> R' -> Prop) (RV : V -> V' -> Prop) (c : cfg) (N : nat) (t : tensor T) (t' : (tensor T')) (axis : option Z) (ini : R) (ini' : R') (into : R -> list V) (into' : (R' -> (list V'))) (f : S -> R -> list T -> outcome (S * R)) (f' : (S' -> (R' -> ((list T') -> (outcome (S' * R')))))) (st : S) (st' : S') :
  (tR RT) t t' -> RR ini ini' -> (forall x0 x0', RR x0 x0' -> (Forall2 RV) (into x0) (into' x0')) -> (forall x0 x0', RS x0 x0' -> (forall x1 x1', RR x1 x1' -> (forall x2 x2', (Forall2 RT) x2 x2' -> (outR (prodR RS RR)) (((f x0) x1) x2) (((f' x0') x1') x2')))) -> RS st st' -> (outR (prodR RS (tR RV))) (fold_row c N t axis ini into f st) (fold_row c N t' axis ini' into' f' st').
Proof. intros; unfold fold_row; pa. Qed.
Ltac pa_61 h := lazymatch h with @fold_row => eapply par_fold_row | _ => pa_60 h end.
Ltac pa_api h ::= pa_61 h.
Lemma par_reduce {S S'} {T T'} (RS : S -> S' -> Prop) (RT : T -> T' -> Prop) (c : cfg) (t : tensor T) (t' : (tensor T')) (f : S -> T -> T -> outcome (S * T)) (f' : (S' -> (T' -> (T' -> (outcome (S' * T')))))) (st : S) (st' : S') :
  (tR RT) t t' -> (forall x0 x0', RS x0 x0' -> (forall x1 x1', RT x1 x1' -> (forall x2 x2', RT x2 x2' -> (outR (prodR RS RT)) (((f x0) x1) x2) (((f' x0') x1') x2')))) -> RS st st' -> (outR (prodR RS (tR RT))) (reduce c t f st) (reduce c t' f' st').
Proof. intros; unfold reduce; pa. Qed.
Ltac pa_62 h := lazymatch h with @reduce => eapply par_reduce | _ => pa_61 h end.
Ltac pa_api h ::= pa_62 h.
Lemma par_reduce_axis {S S'} {T T'} (RS : S -> S' -> Prop) (RT : T -> T' -> Prop) (c : cfg) (t : tensor T) (t' : (tensor T')) (axis : option Z) (f : S -> T -> T -> outcome (S * T)) (f' : (S' -> (T' -> (T' -> (outcome (S' * T')))))) (st : S) (st' : S') :
  (tR RT) t t' -> (forall x0 x0', RS x0 x0' -> (forall x1 x1', RT x1 x1' -> (forall x2 x2', RT x2 x2' -> (outR (prodR RS RT)) (((f x0) x1) x2) (((f' x0') x1') x2')))) -> RS st st' -> (outR (prodR RS (tR RT))) (reduce_axis c t axis f st) (reduce_axis c t' axis f' st').
Proof. intros; unfold reduce_axis; pa. Qed.
Ltac pa_63 h := lazymatch h with @reduce_axis => eapply par_reduce_axis | _ => pa_62 h end.
Ltac pa_api h ::= pa_63 h.
Lemma par_normalize {S S'} {T T'} {R R'} {R1 R1'} {V V'} (RS : S -> S' -> Prop) (RT : T -> T' -> Prop) (RR : R -> R' -> Prop) (RR1 : R1 -> R1' -> Prop) (RV : V -> V' -> Prop) (c : cfg) (t : tensor T) (t' : (tensor T')) (axis : option Z) (ini : R) (ini' : R') (accum : S -> R -> T -> outcome (S * R)) (accum' : (S' -> (R' -> (T' -> (outcome (S' * R')))))) (complete : S -> R -> outcome (S * R1)) (complete' : (S' -> (R' -> (outcome (S' * R1'))))) (norm : S -> R1 -> T -> outcome (S * V)) (norm' : (S' -> (R1' -> (T' -> (outcome (S' * V')))))) (st : S) (st' : S') :
  (tR RT) t t' -> RR ini ini' -> (forall x0 x0', RS x0 x0' -> (forall x1 x1', RR x1 x1' -> (forall x2 x2', RT x2 x2' -> (outR (prodR RS RR)) (((accum x0) x1) x2) (((accum' x0') x1') x2')))) -> (forall x0 x0', RS x0 x0' -> (forall x1 x1', RR x1 x1' -> (outR (prodR RS RR1)) ((complete x0) x1) ((complete' x0') x1'))) -> (forall x0 x0', RS x0 x0' -> (forall x1 x1', RR1 x1 x1' -> (forall x2 x2', RT x2 x2' -> (outR (prodR RS RV)) (((norm x0) x1) x2) (((norm' x0') x1') x2')))) -> RS st st' -> (outR (prodR RS (tR RV))) (normalize c t axis ini accum complete norm st) (normalize c t' axis ini' accum' complete' norm' st').
Proof. intros; unfold normalize; pa. Qed.
Ltac pa_64 h := lazymatch h with @normalize => eapply par_normalize | _ => pa_63 h end.
Ltac pa_api h ::= pa_64 h.
Lemma par_transpose {A A'} (RA : A -> A' -> Prop) (c : cfg) (t : tensor A) (t' : (tensor A')) :
  (tR RA) t t' -> (outR (tR RA)) (transpose c t) (transpose c t').
Proof. intros; unfold transpose; pa. Qed.
Ltac pa_65 h := lazymatch h with @transpose => eapply par_transpose | _ => pa_64 h end.
Ltac pa_api h ::= pa_65 h.
Lemma par_split_piece {A A'} (RA : A -> A' -> Prop) (c : cfg) (t : tensor A) (t' : (tensor A')) (axis : nat) (n_outer : nat) (n_inner : nat) (axis_len : nat) (x : list A) (x' : (list A')) (prev : nat) (cut : nat) :
  (tR RA) t t' -> (Forall2 RA) x x' -> (outR (tR RA)) (split_piece c t axis n_outer n_inner axis_len x prev cut) (split_piece c t' axis n_outer n_inner axis_len x' prev cut).
Proof. intros; unfold split_piece; pa. Qed.
Ltac pa_66 h := lazymatch h with @split_piece => eapply par_split_piece | _ => pa_65 h end.
Ltac pa_api h ::= pa_66 h.
Lemma par_split_by_axis {A A'} (RA : A -> A' -> Prop) (c : cfg) (t : tensor A) (t' : (tensor A')) (axis : nat) (cuts : list nat) :
  (tR RA) t t' -> (outR (Forall2 (tR RA))) (split_by_axis c t axis cuts) (split_by_axis c t' axis cuts).
Proof. intros; unfold split_by_axis; pa. Qed.
Ltac pa_67 h := lazymatch h with @split_by_axis => eapply par_split_by_axis | _ => pa_66 h end.
Ltac pa_api h ::= pa_67 h.
Lemma par_cut_rows {A A'} (RA : A -> A' -> Prop) (c : cfg) (t : tensor A) (t' : (tensor A')) (cuts : list nat) :
  (tR RA) t t' -> (outR (Forall2 (tR RA))) (cut_rows c t cuts) (cut_rows c t' cuts).
Proof. intros; unfold cut_rows; pa. Qed.
Ltac pa_68 h := lazymatch h with @cut_rows => eapply par_cut_rows | _ => pa_67 h end.
Ltac pa_api h ::= pa_68 h.
Lemma par_split_axis {A A'} (RA : A -> A' -> Prop) (c : cfg) (axis : option Z) (t : tensor A) (t' : (tensor A')) (s : sections) :
  (tR RA) t t' -> (outR (Forall2 (tR RA))) (split_axis c axis t s) (split_axis c axis t' s).
Proof. intros; unfold split_axis; pa. Qed.
Ltac pa_69 h := lazymatch h with @split_axis => eapply par_split_axis | _ => pa_68 h end.
Ltac pa_api h ::= pa_69 h.
Lemma par_split {A A'} (RA : A -> A' -> Prop) (c : cfg) (t : tensor A) (t' : (tensor A')) (s : sections) :
  (tR RA) t t' -> (outR (Forall2 (tR RA))) (split c t s) (split c t' s).
Proof. intros; unfold split; pa. Qed.
Ltac pa_70 h := lazymatch h with @split => eapply par_split | _ => pa_69 h end.
Ltac pa_api h ::= pa_70 h.
Lemma par_vsplit {A A'} (RA : A -> A' -> Prop) (c : cfg) (t : tensor A) (t' : (tensor A')) (s : sections) :
  (tR RA) t t' -> (outR (Forall2 (tR RA))) (vsplit c t s) (vsplit c t' s).
Proof. intros; unfold vsplit; pa. Qed.
Ltac pa_71 h := lazymatch h with @vsplit => eapply par_vsplit | _ => pa_70 h end.
Ltac pa_api h ::= pa_71 h.
Lemma par_hsplit {A A'} (RA : A -> A' -> Prop) (c : cfg) (t : tensor A) (t' : (tensor A')) (s : sections) :
  (tR RA) t t' -> (outR (Forall2 (tR RA))) (hsplit c t s) (hsplit c t' s).
Proof. intros; unfold hsplit; pa. Qed.
Ltac pa_72 h := lazymatch h with @hsplit => eapply par_hsplit | _ => pa_71 h end.
Ltac pa_api h ::= pa_72 h.
Lemma par_dsplit {A A'} (RA : A -> A' -> Prop) (c : cfg) (t : tensor A) (t' : (tensor A')) (s : sections) :
  (tR RA) t t' -> (outR (Forall2 (tR RA))) (dsplit c t s) (dsplit c t' s).
Proof. intros; unfold dsplit; pa. Qed.
Ltac pa_73 h := lazymatch h with @dsplit => eapply par_dsplit | _ => pa_72 h end.
Ltac pa_api h ::= pa_73 h.
Lemma par_validate_concat {A A'} (RA : A -> A' -> Prop) (c : cfg) (args : list (tensor A)) (args' : (list (tensor A'))) (axis : nat) :
  (Forall2 (tR RA)) args args' -> (outR eq) (validate_concat c args axis) (validate_concat c args' axis).
Proof. intros; unfold validate_concat; pa. Qed.
Ltac pa_74 h := lazymatch h with @validate_concat => eapply par_validate_concat | _ => pa_73 h end.
Ltac pa_api h ::= pa_74 h.
Lemma par_concat_axis {A A'} (RA : A -> A' -> Prop) (c : cfg) (axis : nat) (args : list (tensor A)) (args' : (list (tensor A'))) :
  (Forall2 (tR RA)) args args' -> (outR (tR RA)) (concat_axis c axis args) (concat_axis c axis args').
Proof. intros; unfold concat_axis; pa. Qed.
Ltac pa_75 h := lazymatch h with @concat_axis => eapply par_concat_axis | _ => pa_74 h end.
Ltac pa_api h ::= pa_75 h.
Lemma par_concatenate {A A'} (RA : A -> A' -> Prop) (c : cfg) (args : list (tensor A)) (args' : (list (tensor A'))) :
  (Forall2 (tR RA)) args args' -> (outR (tR RA)) (concatenate c args) (concatenate c args').
Proof. intros; unfold concatenate; pa. Qed.
Ltac pa_76 h := lazymatch h with @concatenate => eapply par_concatenate | _ => pa_75 h end.
Ltac pa_api h ::= pa_76 h.
Lemma par_concatenate_axis {A A'} (RA : A -> A' -> Prop) (c : cfg) (axis : option Z) (args : list (tensor A)) (args' : (list (tensor A'))) :
  (Forall2 (tR RA)) args args' -> (outR (tR RA)) (concatenate_axis c axis args) (concatenate_axis c axis args').
Proof. intros; unfold concatenate_axis; pa. Qed.
Ltac pa_77 h := lazymatch h with @concatenate_axis => eapply par_concatenate_axis | _ => pa_76 h end.
Ltac pa_api h ::= pa_77 h.
Lemma par_stack_vec {A A'} (RA : A -> A' -> Prop) (c : cfg) (axis : option Z) (x : list (tensor A)) (x' : (list (tensor A'))) :
  (Forall2 (tR RA)) x x' -> (outR (tR RA)) (stack_vec c axis x) (stack_vec c axis x').
Proof. intros; unfold stack_vec; pa. Qed.
Ltac pa_78 h := lazymatch h with @stack_vec => eapply par_stack_vec | _ => pa_77 h end.
Ltac pa_api h ::= pa_78 h.
Lemma par_stack {A A'} (RA : A -> A' -> Prop) (c : cfg) (x : list (tensor A)) (x' : (list (tensor A'))) :
  (Forall2 (tR RA)) x x' -> (outR (tR RA)) (stack c x) (stack c x').
Proof. intros; unfold stack; pa. Qed.
Ltac pa_79 h := lazymatch h with @stack => eapply par_stack | _ => pa_78 h end.
Ltac pa_api h ::= pa_79 h.
Lemma par_stack_axis {A A'} (RA : A -> A' -> Prop) (c : cfg) (axis : option Z) (x : list (tensor A)) (x' : (list (tensor A'))) :
  (Forall2 (tR RA)) x x' -> (outR (tR RA)) (stack_axis c axis x) (stack_axis c axis x').
Proof. intros; unfold stack_axis; pa. Qed.
Ltac pa_80 h := lazymatch h with @stack_axis => eapply par_stack_axis | _ => pa_79 h end.
Ltac pa_api h ::= pa_80 h.
Lemma par_dstack {A A'} (RA : A -> A' -> Prop) (c : cfg) (x : list (tensor A)) (x' : (list (tensor A'))) :
  (Forall2 (tR RA)) x x' -> (outR (tR RA)) (dstack c x) (dstack c x').
Proof. intros; unfold dstack; pa. Qed.
Ltac pa_81 h := lazymatch h with @dstack => eapply par_dstack | _ => pa_80 h end.
Ltac pa_api h ::= pa_81 h.
Lemma par_hstack {A A'} (RA : A -> A' -> Prop) (c : cfg) (x : list (tensor A)) (x' : (list (tensor A'))) :
  (Forall2 (tR RA)) x x' -> (outR (tR RA)) (hstack c x) (hstack c x').
Proof. intros; unfold hstack; pa. Qed.
Ltac pa_82 h := lazymatch h with @hstack => eapply par_hstack | _ => pa_81 h end.
Ltac pa_api h ::= pa_82 h.
Lemma par_vstack {A A'} (RA : A -> A' -> Prop) (c : cfg) (x : list (tensor A)) (x' : (list (tensor A'))) :
  (Forall2 (tR RA)) x x' -> (outR (tR RA)) (vstack c x) (vstack c x').
Proof. intros; unfold vstack; pa. Qed.
Ltac pa_83 h := lazymatch h with @vstack => eapply par_vstack | _ => pa_82 h end.
Ltac pa_api h ::= pa_83 h.
Lemma par_unstack {A A'} (RA : A -> A' -> Prop) (c : cfg) (axis : option Z) (t : tensor A) (t' : (tensor A')) :
  (tR RA) t t' -> (outR (Forall2 (tR RA))) (unstack c axis t) (unstack c axis t').
Proof. intros; unfold unstack; pa. Qed.
Ltac pa_84 h := lazymatch h with @unstack => eapply par_unstack | _ => pa_83 h end.
Ltac pa_api h ::= pa_84 h.
Lemma par_tile_rec {A A'} (RA : A -> A' -> Prop) (c : cfg) (x : list A) (x' : (list A')) (x_off : nat) (x_len : nat) (x_shape_r : list nat) (mult_r : list nat) (j : nat) (st : buf A * nat) (st' : ((buf A') * nat)) :
  (Forall2 RA) x x' -> (prodR (Forall2 (optR RA)) eq) st st' -> (outR (prodR (Forall2 (optR RA)) eq)) (tile_rec c x x_off x_len x_shape_r mult_r j st) (tile_rec c x' x_off x_len x_shape_r mult_r j st').
Proof. revert x_off x_len st st'. induction j as [|j IH]; intros x_off x_len st st' Hx Hst; cbn [tile_rec]; pa. Qed.
Ltac pa_85 h := lazymatch h with @tile_rec => eapply par_tile_rec | _ => pa_84 h end.
Ltac pa_api h ::= pa_85 h.
Lemma par_tile {A A'} (RA : A -> A' -> Prop) (c : cfg) (t : tensor A) (t' : (tensor A')) (multiples : tensor nat) :
  (tR RA) t t' -> (outR (tR RA)) (tile c t multiples) (tile c t' multiples).
Proof. intros; unfold tile; pa. Qed.
Ltac pa_86 h := lazymatch h with @tile => eapply par_tile | _ => pa_85 h end.
Ltac pa_api h ::= pa_86 h.
Lemma par_unop {T T'} {V V'} (RT : T -> T' -> Prop) (RV : V -> V' -> Prop) (c : cfg) (t : tensor T) (t' : (tensor T')) (op : T -> outcome V) (op' : (T' -> (outcome V'))) :
  (tR RT) t t' -> (forall x0 x0', RT x0 x0' -> (outR RV) (op x0) (op' x0')) -> (outR (tR RV)) (unop c t op) (unop c t' op').
Proof. intros; unfold unop; pa. Qed.
Ltac pa_87 h := lazymatch h with @unop => eapply par_unop | _ => pa_86 h end.
Ltac pa_api h ::= pa_87 h.
Lemma par_binop_tt {T T'} {U U'} {V V'} (RT : T -> T' -> Prop) (RU : U -> U' -> Prop) (RV : V -> V' -> Prop) (c : cfg) (a : tensor T) (a' : (tensor T')) (b : tensor U) (b' : (tensor U')) (op : T -> U -> outcome V) (op' : (T' -> (U' -> (outcome V')))) :
  (tR RT) a a' -> (tR RU) b b' -> (forall x0 x0', RT x0 x0' -> (forall x1 x1', RU x1 x1' -> (outR RV) ((op x0) x1) ((op' x0') x1'))) -> (outR (tR RV)) (binop_tt c a b op) (binop_tt c a' b' op').
Proof. intros; unfold binop_tt; pa. Qed.
Ltac pa_88 h := lazymatch h with @binop_tt => eapply par_binop_tt | _ => pa_87 h end.
Ltac pa_api h ::= pa_88 h.
Lemma par_binop_ts {T T'} {U U'} {V V'} (RT : T -> T' -> Prop) (RU : U -> U' -> Prop) (RV : V -> V' -> Prop) (c : cfg) (t : tensor T) (t' : (tensor T')) (y : U) (y' : U') (op : T -> U -> outcome V) (op' : (T' -> (U' -> (outcome V')))) :
  (tR RT) t t' -> RU y y' -> (forall x0 x0', RT x0 x0' -> (forall x1 x1', RU x1 x1' -> (outR RV) ((op x0) x1) ((op' x0') x1'))) -> (outR (tR RV)) (binop_ts c t y op) (binop_ts c t' y' op').
Proof. intros; unfold binop_ts; pa. Qed.
Ltac pa_89 h := lazymatch h with @binop_ts => eapply par_binop_ts | _ => pa_88 h end.
Ltac pa_api h ::= pa_89 h.
Lemma par_binop_st {T T'} {U U'} {V V'} (RT : T -> T' -> Prop) (RU : U -> U' -> Prop) (RV : V -> V' -> Prop) (c : cfg) (x : T) (x' : T') (t : tensor U) (t' : (tensor U')) (op : T -> U -> outcome V) (op' : (T' -> (U' -> (outcome V')))) :
  RT x x' -> (tR RU) t t' -> (forall x0 x0', RT x0 x0' -> (forall x1 x1', RU x1 x1' -> (outR RV) ((op x0) x1) ((op' x0') x1'))) -> (outR (tR RV)) (binop_st c x t op) (binop_st c x' t' op').
Proof. intros; unfold binop_st; pa. Qed.
Ltac pa_90 h := lazymatch h with @binop_st => eapply par_binop_st | _ => pa_89 h end.
Ltac pa_api h ::= pa_90 h.
Lemma par_list_partial_cmp {A A'} (RA : A -> A' -> Prop) (cmp : A -> A -> option comparison) (cmp' : (A' -> (A' -> (option comparison)))) (a : list A) (a' : (list A')) (b : list A) (b' : (list A')) :
  (forall x0 x0', RA x0 x0' -> (forall x1 x1', RA x1 x1' -> eq ((cmp x0) x1) ((cmp' x0') x1'))) -> (Forall2 RA) a a' -> (Forall2 RA) b b' -> eq (list_partial_cmp cmp a b) (list_partial_cmp cmp' a' b').
Proof. intros He Hl Hm. revert b b' Hm. induction Hl; intros ? ? []; cbn [list_partial_cmp]; pa. Qed.
Ltac pa_91 h := lazymatch h with @list_partial_cmp => eapply par_list_partial_cmp | _ => pa_90 h end.
Ltac pa_api h ::= pa_91 h.
Lemma par_tensor_partial_cmp {A A'} (RA : A -> A' -> Prop) (cmp : A -> A -> option comparison) (cmp' : (A' -> (A' -> (option comparison)))) (t : tensor A) (t' : (tensor A')) (u : tensor A) (u' : (tensor A')) :
  (forall x0 x0', RA x0 x0' -> (forall x1 x1', RA x1 x1' -> eq ((cmp x0) x1) ((cmp' x0') x1'))) -> (tR RA) t t' -> (tR RA) u u' -> (outR eq) (tensor_partial_cmp cmp t u) (tensor_partial_cmp cmp' t' u').
Proof. intros; unfold tensor_partial_cmp; pa. Qed.
Ltac pa_92 h := lazymatch h with @tensor_partial_cmp => eapply par_tensor_partial_cmp | _ => pa_91 h end.
Ltac pa_api h ::= pa_92 h.
Lemma par_of_vec_rows {A A'} (RA : A -> A' -> Prop) (c : cfg) (n : nat) (v : list (list (list A))) (v' : (list (list (list A')))) :
  (Forall2 (Forall2 (Forall2 RA))) v v' -> (outR (tR RA)) (of_vec_rows c n v) (of_vec_rows c n v').
Proof. intros; unfold of_vec_rows; pa. Qed.
Ltac pa_93 h := lazymatch h with @of_vec_rows => eapply par_of_vec_rows | _ => pa_92 h end.
Ltac pa_api h ::= pa_93 h.
Lemma par_of_vec5 {A A'} (RA : A -> A' -> Prop) (c : cfg) (v : list (list (list (list (list A))))) (v' : (list (list (list (list (list A')))))) :
  (Forall2 (Forall2 (Forall2 (Forall2 (Forall2 RA))))) v v' -> (outR (tR RA)) (of_vec5 c v) (of_vec5 c v').
Proof. intros; unfold of_vec5; pa. Qed.
Ltac pa_94 h := lazymatch h with @of_vec5 => eapply par_of_vec5 | _ => pa_93 h end.
Ltac pa_api h ::= pa_94 h.
Lemma par_of_rows3 {A A'} (RA : A -> A' -> Prop) (c : cfg) (l : nat) (m : nat) (n : nat) (v : list (list (list (list A)))) (v' : (list (list (list (list A'))))) :
  (Forall2 (Forall2 (Forall2 (Forall2 RA)))) v v' -> (outR (tR RA)) (of_rows3 c l m n v) (of_rows3 c l m n v').
Proof. intros; unfold of_rows3; pa. Qed.
Ltac pa_95 h := lazymatch h with @of_rows3 => eapply par_of_rows3 | _ => pa_94 h end.
Ltac pa_api h ::= pa_95 h.
Lemma par_of_str {A A'} (RA : A -> A' -> Prop) (c : cfg) (text : A) (text' : A') :
  RA text text' -> (outR (tR RA)) (of_str c text) (of_str c text').
Proof. intros; unfold of_str; pa. Qed.
Ltac pa_96 h := lazymatch h with @of_str => eapply par_of_str | _ => pa_95 h end.
Ltac pa_api h ::= pa_96 h.
Lemma par_of_tensor_vec {A A'} (RA : A -> A' -> Prop) (c : cfg) (ts : list (tensor A)) (ts' : (list (tensor A'))) :
  (Forall2 (tR RA)) ts ts' -> (outR (tR RA)) (of_tensor_vec c ts) (of_tensor_vec c ts').
Proof. intros; unfold of_tensor_vec; pa. Qed.
Ltac pa_97 h := lazymatch h with @of_tensor_vec => eapply par_of_tensor_vec | _ => pa_96 h end.
Ltac pa_api h ::= pa_97 h.
Lemma par_into_list {A A'} (RA : A -> A' -> Prop) (c : cfg) (x : tensor_list A) (x' : (tensor_list A')) (vec : list (tensor A)) (vec' : (list (tensor A'))) :
  (tlR RA) x x' -> (Forall2 (tR RA)) vec vec' -> (outR (Forall2 (tR RA))) (into_list c x vec) (into_list c x' vec').
Proof. intros; unfold into_list; pa. Qed.
Ltac pa_98 h := lazymatch h with @into_list => eapply par_into_list | _ => pa_97 h end.
Ltac pa_api h ::= pa_98 h.
Lemma par_concatenate_args {A A'} (RA : A -> A' -> Prop) (c : cfg) (x : tensor_list A) (x' : (tensor_list A')) :
  (tlR RA) x x' -> (outR (tR RA)) (concatenate_args c x) (concatenate_args c x').
Proof. intros; unfold concatenate_args; pa. Qed.
Ltac pa_99 h := lazymatch h with @concatenate_args => eapply par_concatenate_args | _ => pa_98 h end.
Ltac pa_api h ::= pa_99 h.
Lemma par_concatenate_axis_args {A A'} (RA : A -> A' -> Prop) (c : cfg) (axis : option Z) (x : tensor_list A) (x' : (tensor_list A')) :
  (tlR RA) x x' -> (outR (tR RA)) (concatenate_axis_args c axis x) (concatenate_axis_args c axis x').
Proof. intros; unfold concatenate_axis_args; pa. Qed.
Ltac pa_100 h := lazymatch h with @concatenate_axis_args => eapply par_concatenate_axis_args | _ => pa_99 h end.
Ltac pa_api h ::= pa_100 h.
Lemma par_stack_args {A A'} (RA : A -> A' -> Prop) (c : cfg) (x : tensor_list A) (x' : (tensor_list A')) :
  (tlR RA) x x' -> (outR (tR RA)) (stack_args c x) (stack_args c x').
Proof. intros; unfold stack_args; pa. Qed.
Ltac pa_101 h := lazymatch h with @stack_args => eapply par_stack_args | _ => pa_100 h end.
Ltac pa_api h ::= pa_101 h.
Lemma par_stack_axis_args {A A'} (RA : A -> A' -> Prop) (c : cfg) (axis : option Z) (x : tensor_list A) (x' : (tensor_list A')) :
  (tlR RA) x x' -> (outR (tR RA)) (stack_axis_args c axis x) (stack_axis_args c axis x').
Proof. intros; unfold stack_axis_args; pa. Qed.
Ltac pa_102 h := lazymatch h with @stack_axis_args => eapply par_stack_axis_args | _ => pa_101 h end.
Ltac pa_api h ::= pa_102 h.
Lemma par_dstack_args {A A'} (RA : A -> A' -> Prop) (c : cfg) (x : tensor_list A) (x' : (tensor_list A')) :
  (tlR RA) x x' -> (outR (tR RA)) (dstack_args c x) (dstack_args c x').
Proof. intros; unfold dstack_args; pa. Qed.
Ltac pa_103 h := lazymatch h with @dstack_args => eapply par_dstack_args | _ => pa_102 h end.
Ltac pa_api h ::= pa_103 h.
Lemma par_hstack_args {A A'} (RA : A -> A' -> Prop) (c : cfg) (x : tensor_list A) (x' : (tensor_list A')) :
  (tlR RA) x x' -> (outR (tR RA)) (hstack_args c x) (hstack_args c x').
Proof. intros; unfold hstack_args; pa. Qed.
Ltac pa_104 h := lazymatch h with @hstack_args => eapply par_hstack_args | _ => pa_103 h end.
Ltac pa_api h ::= pa_104 h.
Lemma par_vstack_args {A A'} (RA : A -> A' -> Prop) (c : cfg) (x : tensor_list A) (x' : (tensor_list A')) :
  (tlR RA) x x' -> (outR (tR RA)) (vstack_args c x) (vstack_args c x').
Proof. intros; unfold vstack_args; pa. Qed.
Ltac pa_105 h := lazymatch h with @vstack_args => eapply par_vstack_args | _ => pa_104 h end.
Ltac pa_api h ::= pa_105 h.
Lemma par_m_concatenate {A A'} (RA : A -> A' -> Prop) (c : cfg) (t : tensor A) (t' : (tensor A')) (others : tensor_list A) (others' : (tensor_list A')) :
  (tR RA) t t' -> (tlR RA) others others' -> (outR (tR RA)) (m_concatenate c t others) (m_concatenate c t' others').
Proof. intros; unfold m_concatenate; pa. Qed.
Ltac pa_106 h := lazymatch h with @m_concatenate => eapply par_m_concatenate | _ => pa_105 h end.
Ltac pa_api h ::= pa_106 h.
Lemma par_m_concatenate_axis {A A'} (RA : A -> A' -> Prop) (c : cfg) (t : tensor A) (t' : (tensor A')) (axis : option Z) (others : tensor_list A) (others' : (tensor_list A')) :
  (tR RA) t t' -> (tlR RA) others others' -> (outR (tR RA)) (m_concatenate_axis c t axis others) (m_concatenate_axis c t' axis others').
Proof. intros; unfold m_concatenate_axis; pa. Qed.
Ltac pa_107 h := lazymatch h with @m_concatenate_axis => eapply par_m_concatenate_axis | _ => pa_106 h end.
Ltac pa_api h ::= pa_107 h.
Lemma par_m_stack {A A'} (RA : A -> A' -> Prop) (c : cfg) (t : tensor A) (t' : (tensor A')) (others : tensor_list A) (others' : (tensor_list A')) (axis : option Z) :
  (tR RA) t t' -> (tlR RA) others others' -> (outR (tR RA)) (m_stack c t others axis) (m_stack c t' others' axis).
Proof. intros; unfold m_stack; pa. Qed.
Ltac pa_108 h := lazymatch h with @m_stack => eapply par_m_stack | _ => pa_107 h end.
Ltac pa_api h ::= pa_108 h.
Lemma par_m_dstack {A A'} (RA : A -> A' -> Prop) (c : cfg) (t : tensor A) (t' : (tensor A')) (others : tensor_list A) (others' : (tensor_list A')) :
  (tR RA) t t' -> (tlR RA) others others' -> (outR (tR RA)) (m_dstack c t others) (m_dstack c t' others').
Proof. intros; unfold m_dstack; pa. Qed.
Ltac pa_109 h := lazymatch h with @m_dstack => eapply par_m_dstack | _ => pa_108 h end.
Ltac pa_api h ::= pa_109 h.
Lemma par_m_vstack {A A'} (RA : A -> A' -> Prop) (c : cfg) (t : tensor A) (t' : (tensor A')) (others : tensor_list A) (others' : (tensor_list A')) :
  (tR RA) t t' -> (tlR RA) others others' -> (outR (tR RA)) (m_vstack c t others) (m_vstack c t' others').
Proof. intros; unfold m_vstack; pa. Qed.
Ltac pa_110 h := lazymatch h with @m_vstack => eapply par_m_vstack | _ => pa_109 h end.
Ltac pa_api h ::= pa_110 h.
Lemma par_eye {T T'} (RT : T -> T' -> Prop) (c : cfg) (zero : T) (zero' : T') (one : T) (one' : T') (n : nat) :
  RT zero zero' -> RT one one' -> (outR (tR RT)) (eye c zero one n) (eye c zero' one' n).
Proof. intros; unfold eye; pa. Qed.
Ltac pa_111 h := lazymatch h with @eye => eapply par_eye | _ => pa_110 h end.
Ltac pa_api h ::= pa_111 h.
Lemma par_diagflat {T T'} (RT : T -> T' -> Prop) (c : cfg) (zero : T) (zero' : T') (diag : tensor T) (diag' : (tensor T')) :
  RT zero zero' -> (tR RT) diag diag' -> (outR (tR RT)) (diagflat c zero diag) (diagflat c zero' diag').
Proof. intros; unfold diagflat; pa. Qed.
Ltac pa_112 h := lazymatch h with @diagflat => eapply par_diagflat | _ => pa_111 h end.
Ltac pa_api h ::= pa_112 h.
Lemma par_tri {T T'} (RT : T -> T' -> Prop) (c : cfg) (zero : T) (zero' : T') (one : T) (one' : T') (n : nat) :
  RT zero zero' -> RT one one' -> (outR (tR RT)) (tri c zero one n) (tri c zero' one' n).
Proof. intros; unfold tri; pa. Qed.
Ltac pa_113 h := lazymatch h with @tri => eapply par_tri | _ => pa_112 h end.
Ltac pa_api h ::= pa_113 h.
Lemma par_tri_mask {T T'} (RT : T -> T' -> Prop) (c : cfg) (keep : nat -> nat -> bool) (zero : T) (zero' : T') (t : tensor T) (t' : (tensor T')) :
  RT zero zero' -> (tR RT) t t' -> (outR (tR RT)) (tri_mask c keep zero t) (tri_mask c keep zero' t').
Proof. intros; unfold tri_mask; pa. Qed.
Ltac pa_114 h := lazymatch h with @tri_mask => eapply par_tri_mask | _ => pa_113 h end.
Ltac pa_api h ::= pa_114 h.
Lemma par_tril {T T'} (RT : T -> T' -> Prop) (c : cfg) (zero : T) (zero' : T') (t : tensor T) (t' : (tensor T')) :
  RT zero zero' -> (tR RT) t t' -> (outR (tR RT)) (tril c zero t) (tril c zero' t').
Proof. intros; unfold tril; pa. Qed.
Ltac pa_115 h := lazymatch h with @tril => eapply par_tril | _ => pa_114 h end.
Ltac pa_api h ::= pa_115 h.
Lemma par_triu {T T'} (RT : T -> T' -> Prop) (c : cfg) (zero : T) (zero' : T') (t : tensor T) (t' : (tensor T')) :
  RT zero zero' -> (tR RT) t t' -> (outR (tR RT)) (triu c zero t) (triu c zero' t').
Proof. intros; unfold triu; pa. Qed.
Ltac pa_116 h := lazymatch h with @triu => eapply par_triu | _ => pa_115 h end.
Ltac pa_api h ::= pa_116 h.
Lemma par_build_meshgrid_axis {T T'} (RT : T -> T' -> Prop) (c : cfg) (x : tensor T) (x' : (tensor T')) (s : shape) (k_s : nat) :
  (tR RT) x x' -> (outR (tR RT)) (build_meshgrid_axis c x s k_s) (build_meshgrid_axis c x' s k_s).
Proof. intros; unfold build_meshgrid_axis; pa. Qed.
Ltac pa_117 h := lazymatch h with @build_meshgrid_axis => eapply par_build_meshgrid_axis | _ => pa_116 h end.
Ltac pa_api h ::= pa_117 h.
Lemma par_build_meshgrid {T T'} (RT : T -> T' -> Prop) (c : cfg) (axes : list (tensor T)) (axes' : (list (tensor T'))) (ord : order) :
  (Forall2 (tR RT)) axes axes' -> (outR (Forall2 (tR RT))) (build_meshgrid c axes ord) (build_meshgrid c axes' ord).
Proof. intros; unfold build_meshgrid; destruct ord; pa. Qed.
Ltac pa_118 h := lazymatch h with @build_meshgrid => eapply par_build_meshgrid | _ => pa_117 h end.
Ltac pa_api h ::= pa_118 h.
Lemma par_meshgrid {T T'} (RT : T -> T' -> Prop) (c : cfg) (axes : list (tensor T)) (axes' : (list (tensor T'))) :
  (Forall2 (tR RT)) axes axes' -> (outR (Forall2 (tR RT))) (meshgrid c axes) (meshgrid c axes').
Proof. intros; unfold meshgrid; pa. Qed.
Ltac pa_119 h := lazymatch h with @meshgrid => eapply par_meshgrid | _ => pa_118 h end.
Ltac pa_api h ::= pa_119 h.
Lemma par_meshgrid_ij {T T'} (RT : T -> T' -> Prop) (c : cfg) (axes : list (tensor T)) (axes' : (list (tensor T'))) :
  (Forall2 (tR RT)) axes axes' -> (outR (Forall2 (tR RT))) (meshgrid_ij c axes) (meshgrid_ij c axes').
Proof. intros; unfold meshgrid_ij; pa. Qed.
Ltac pa_120 h := lazymatch h with @meshgrid_ij => eapply par_meshgrid_ij | _ => pa_119 h end.
Ltac pa_api h ::= pa_120 h.
Lemma par_reduce_min {F F'} (RF : F -> F' -> Prop) (o : fops F) (o' : (fops F')) (c : cfg) (t : tensor F) (t' : (tensor F')) :
  (ordR RF) o o' -> (tR RF) t t' -> (outR (tR RF)) (reduce_min o c t) (reduce_min o' c t').
Proof. intros; unfold reduce_min; pa. Qed.
Ltac pa_121 h := lazymatch h with @reduce_min => eapply par_reduce_min | _ => pa_120 h end.
Ltac pa_api h ::= pa_121 h.
Lemma par_reduce_min_axis {F F'} (RF : F -> F' -> Prop) (o : fops F) (o' : (fops F')) (c : cfg) (t : tensor F) (t' : (tensor F')) (axis : option Z) :
  (ordR RF) o o' -> (tR RF) t t' -> (outR (tR RF)) (reduce_min_axis o c t axis) (reduce_min_axis o' c t' axis).
Proof. intros; unfold reduce_min_axis; pa. Qed.
Ltac pa_122 h := lazymatch h with @reduce_min_axis => eapply par_reduce_min_axis | _ => pa_121 h end.
Ltac pa_api h ::= pa_122 h.
Lemma par_reduce_max {F F'} (RF : F -> F' -> Prop) (o : fops F) (o' : (fops F')) (c : cfg) (t : tensor F) (t' : (tensor F')) :
  (ordR RF) o o' -> (tR RF) t t' -> (outR (tR RF)) (reduce_max o c t) (reduce_max o' c t').
Proof. intros; unfold reduce_max; pa. Qed.
Ltac pa_123 h := lazymatch h with @reduce_max => eapply par_reduce_max | _ => pa_122 h end.
Ltac pa_api h ::= pa_123 h.
Lemma par_reduce_max_axis {F F'} (RF : F -> F' -> Prop) (o : fops F) (o' : (fops F')) (c : cfg) (t : tensor F) (t' : (tensor F')) (axis : option Z) :
  (ordR RF) o o' -> (tR RF) t t' -> (outR (tR RF)) (reduce_max_axis o c t axis) (reduce_max_axis o' c t' axis).
Proof. intros; unfold reduce_max_axis; pa. Qed.
Ltac pa_124 h := lazymatch h with @reduce_max_axis => eapply par_reduce_max_axis | _ => pa_123 h end.
Ltac pa_api h ::= pa_124 h.
Lemma par_reduce_sum {T T'} (RT : T -> T' -> Prop) (c : cfg) (add : T -> T -> outcome T) (add' : (T' -> (T' -> (outcome T')))) (t : tensor T) (t' : (tensor T')) :
  (forall x0 x0', RT x0 x0' -> (forall x1 x1', RT x1 x1' -> (outR RT) ((add x0) x1) ((add' x0') x1'))) -> (tR RT) t t' -> (outR (tR RT)) (reduce_sum c add t) (reduce_sum c add' t').
Proof. intros; unfold reduce_sum; pa. Qed.
Ltac pa_125 h := lazymatch h with @reduce_sum => eapply par_reduce_sum | _ => pa_124 h end.
Ltac pa_api h ::= pa_125 h.
Lemma par_reduce_sum_axis {T T'} (RT : T -> T' -> Prop) (c : cfg) (add : T -> T -> outcome T) (add' : (T' -> (T' -> (outcome T')))) (t : tensor T) (t' : (tensor T')) (axis : option Z) :
  (forall x0 x0', RT x0 x0' -> (forall x1 x1', RT x1 x1' -> (outR RT) ((add x0) x1) ((add' x0') x1'))) -> (tR RT) t t' -> (outR (tR RT)) (reduce_sum_axis c add t axis) (reduce_sum_axis c add' t' axis).
Proof. intros; unfold reduce_sum_axis; pa. Qed.
Ltac pa_126 h := lazymatch h with @reduce_sum_axis => eapply par_reduce_sum_axis | _ => pa_125 h end.
Ltac pa_api h ::= pa_126 h.
Lemma par_reduce_product {T T'} (RT : T -> T' -> Prop) (c : cfg) (mul : T -> T -> outcome T) (mul' : (T' -> (T' -> (outcome T')))) (t : tensor T) (t' : (tensor T')) :
  (forall x0 x0', RT x0 x0' -> (forall x1 x1', RT x1 x1' -> (outR RT) ((mul x0) x1) ((mul' x0') x1'))) -> (tR RT) t t' -> (outR (tR RT)) (reduce_product c mul t) (reduce_product c mul' t').
Proof. intros; unfold reduce_product; pa. Qed.
Ltac pa_127 h := lazymatch h with @reduce_product => eapply par_reduce_product | _ => pa_126 h end.
Ltac pa_api h ::= pa_127 h.
Lemma par_reduce_product_axis {T T'} (RT : T -> T' -> Prop) (c : cfg) (mul : T -> T -> outcome T) (mul' : (T' -> (T' -> (outcome T')))) (t : tensor T) (t' : (tensor T')) (axis : option Z) :
  (forall x0 x0', RT x0 x0' -> (forall x1 x1', RT x1 x1' -> (outR RT) ((mul x0) x1) ((mul' x0') x1'))) -> (tR RT) t t' -> (outR (tR RT)) (reduce_product_axis c mul t axis) (reduce_product_axis c mul' t' axis).
Proof. intros; unfold reduce_product_axis; pa. Qed.
Ltac pa_128 h := lazymatch h with @reduce_product_axis => eapply par_reduce_product_axis | _ => pa_127 h end.
Ltac pa_api h ::= pa_128 h.
Lemma par_float_map {T T'} {V V'} (RT : T -> T' -> Prop) (RV : V -> V' -> Prop) (c : cfg) (t : tensor T) (t' : (tensor T')) (f : T -> V) (f' : (T' -> V')) :
  (tR RT) t t' -> (forall x0 x0', RT x0 x0' -> RV (f x0) (f' x0')) -> (outR (tR RV)) (float_map c t f) (float_map c t' f').
Proof. intros; unfold float_map; pa. Qed.
Ltac pa_129 h := lazymatch h with @float_map => eapply par_float_map | _ => pa_128 h end.
Ltac pa_api h ::= pa_129 h.
Lemma par_float_map2 {T T'} {U U'} {V V'} (RT : T -> T' -> Prop) (RU : U -> U' -> Prop) (RV : V -> V' -> Prop) (c : cfg) (a : tensor T) (a' : (tensor T')) (b : tensor U) (b' : (tensor U')) (f : T -> U -> V) (f' : (T' -> (U' -> V'))) :
  (tR RT) a a' -> (tR RU) b b' -> (forall x0 x0', RT x0 x0' -> (forall x1 x1', RU x1 x1' -> RV ((f x0) x1) ((f' x0') x1'))) -> (outR (tR RV)) (float_map2 c a b f) (float_map2 c a' b' f').
Proof. intros; unfold float_map2; pa. Qed.
Ltac pa_130 h := lazymatch h with @float_map2 => eapply par_float_map2 | _ => pa_129 h end.
Ltac pa_api h ::= pa_130 h.
Lemma par_float_map3 {T T'} {U U'} {V V'} {W W'} (RT : T -> T' -> Prop) (RU : U -> U' -> Prop) (RV : V -> V' -> Prop) (RW : W -> W' -> Prop) (c : cfg) (ta : tensor T) (ta' : (tensor T')) (tb : tensor U) (tb' : (tensor U')) (tc : tensor V) (tc' : (tensor V')) (f : T -> U -> V -> W) (f' : (T' -> (U' -> (V' -> W')))) :
  (tR RT) ta ta' -> (tR RU) tb tb' -> (tR RV) tc tc' -> (forall x0 x0', RT x0 x0' -> (forall x1 x1', RU x1 x1' -> (forall x2 x2', RV x2 x2' -> RW (((f x0) x1) x2) (((f' x0') x1') x2')))) -> (outR (tR RW)) (float_map3 c ta tb tc f) (float_map3 c ta' tb' tc' f').
Proof. intros; unfold float_map3; pa. Qed.
Ltac pa_131 h := lazymatch h with @float_map3 => eapply par_float_map3 | _ => pa_130 h end.
Ltac pa_api h ::= pa_131 h.
Lemma par_ptr_add {A A'} (RA : A -> A' -> Prop) (d : list A) (d' : (list A')) (p : nat) (n : nat) :
  (Forall2 RA) d d' -> (outR eq) (ptr_add d p n) (ptr_add d' p n).
Proof. intros; unfold ptr_add; pa. Qed.
Ltac pa_132 h := lazymatch h with @ptr_add => eapply par_ptr_add | _ => pa_131 h end.
Ltac pa_api h ::= pa_132 h.
Lemma par_sgemm {F F'} (RF : F -> F' -> Prop) (o : fops F) (o' : (fops F')) (m : nat) (k : nat) (n : nat) (alpha : F) (alpha' : F') (a : list F) (a' : (list F')) (pa : nat) (rsa : nat) (csa : nat) (b : list F) (b' : (list F')) (pb : nat) (rsb : nat) (csb : nat) (beta : F) (beta' : F') (pc : nat) (rsc : nat) (csc : nat) (c : buf F) (c' : (buf F')) :
  (ringR RF) o o' -> RF alpha alpha' -> (Forall2 RF) a a' -> (Forall2 RF) b b' -> RF beta beta' -> (Forall2 (optR RF)) c c' -> (outR (Forall2 (optR RF))) (sgemm o m k n alpha a pa rsa csa b pb rsb csb beta pc rsc csc c) (sgemm o' m k n alpha' a' pa rsa csa b' pb rsb csb beta' pc rsc csc c').
Proof. intros; unfold sgemm; pa. Qed.
Ltac pa_133 h := lazymatch h with @sgemm => eapply par_sgemm | _ => pa_132 h end.
Ltac pa_api h ::= pa_133 h.
Lemma par_mkn {F F'} (RF : F -> F' -> Prop) (tr : trans) (a : tensor F) (a' : (tensor F')) (b : tensor F) (b' : (tensor F')) :
  (tR RF) a a' -> (tR RF) b b' -> (outR eq) (mkn tr a b) (mkn tr a' b').
Proof. intros; unfold mkn; pa. Qed.
Ltac pa_134 h := lazymatch h with @mkn => eapply par_mkn | _ => pa_133 h end.
Ltac pa_api h ::= pa_134 h.
Lemma par_matmul_sgemm {F F'} (RF : F -> F' -> Prop) (o : fops F) (o' : (fops F')) (tr : trans) (a : tensor F) (a' : (tensor F')) (b : tensor F) (b' : (tensor F')) (pa : nat) (pb : nat) (pc : nat) (c : buf F) (c' : (buf F')) :
  (ringR RF) o o' -> (tR RF) a a' -> (tR RF) b b' -> (Forall2 (optR RF)) c c' -> (outR (Forall2 (optR RF))) (matmul_sgemm o tr a b pa pb pc c) (matmul_sgemm o' tr a' b' pa pb pc c').
Proof. intros; unfold matmul_sgemm; pa. Qed.
Ltac pa_135 h := lazymatch h with @matmul_sgemm => eapply par_matmul_sgemm | _ => pa_134 h end.
Ltac pa_api h ::= pa_135 h.
Lemma par_matmul_t {F F'} (RF : F -> F' -> Prop) (o : fops F) (o' : (fops F')) (c : cfg) (a : tensor F) (a' : (tensor F')) (b : tensor F) (b' : (tensor F')) (tr : trans) :
  (ringR RF) o o' -> (tR RF) a a' -> (tR RF) b b' -> (outR (tR RF)) (matmul_t o c a b tr) (matmul_t o' c a' b' tr).
Proof. intros; unfold matmul_t; pa. Qed.
Ltac pa_136 h := lazymatch h with @matmul_t => eapply par_matmul_t | _ => pa_135 h end.
Ltac pa_api h ::= pa_136 h.
Lemma par_matmul {F F'} (RF : F -> F' -> Prop) (o : fops F) (o' : (fops F')) (c : cfg) (a : tensor F) (a' : (tensor F')) (b : tensor F) (b' : (tensor F')) :
  (ringR RF) o o' -> (tR RF) a a' -> (tR RF) b b' -> (outR (tR RF)) (matmul o c a b) (matmul o' c a' b').
Proof. intros; unfold matmul; pa. Qed.
Ltac pa_137 h := lazymatch h with @matmul => eapply par_matmul | _ => pa_136 h end.
Ltac pa_api h ::= pa_137 h.
Lemma par_matvec_o_size {F F'} (RF : F -> F' -> Prop) (tr : trans) (a : tensor F) (a' : (tensor F')) (x : tensor F) (x' : (tensor F')) :
  (tR RF) a a' -> (tR RF) x x' -> (outR eq) (matvec_o_size tr a x) (matvec_o_size tr a' x').
Proof. intros; unfold matvec_o_size; pa. Qed.
Ltac pa_138 h := lazymatch h with @matvec_o_size => eapply par_matvec_o_size | _ => pa_137 h end.
Ltac pa_api h ::= pa_138 h.
Lemma par_matvec_sgemm {F F'} (RF : F -> F' -> Prop) (o : fops F) (o' : (fops F')) (tr : trans) (a : tensor F) (a' : (tensor F')) (x : tensor F) (x' : (tensor F')) (o_cols : nat) (o_rows : nat) (pa : nat) (px : nat) (po : nat) (out : buf F) (out' : (buf F')) :
  (ringR RF) o o' -> (tR RF) a a' -> (tR RF) x x' -> (Forall2 (optR RF)) out out' -> (outR (Forall2 (optR RF))) (matvec_sgemm o tr a x o_cols o_rows pa px po out) (matvec_sgemm o' tr a' x' o_cols o_rows pa px po out').
Proof. intros; unfold matvec_sgemm; pa. Qed.
Ltac pa_139 h := lazymatch h with @matvec_sgemm => eapply par_matvec_sgemm | _ => pa_138 h end.
Ltac pa_api h ::= pa_139 h.
Lemma par_matvec_t {F F'} (RF : F -> F' -> Prop) (o : fops F) (o' : (fops F')) (c : cfg) (a : tensor F) (a' : (tensor F')) (x : tensor F) (x' : (tensor F')) (tr : trans) :
  (ringR RF) o o' -> (tR RF) a a' -> (tR RF) x x' -> (outR (tR RF)) (matvec_t o c a x tr) (matvec_t o' c a' x' tr).
Proof. intros; unfold matvec_t; pa. Qed.
Ltac pa_140 h := lazymatch h with @matvec_t => eapply par_matvec_t | _ => pa_139 h end.
Ltac pa_api h ::= pa_140 h.
Lemma par_matvec {F F'} (RF : F -> F' -> Prop) (o : fops F) (o' : (fops F')) (c : cfg) (a : tensor F) (a' : (tensor F')) (x : tensor F) (x' : (tensor F')) :
  (ringR RF) o o' -> (tR RF) a a' -> (tR RF) x x' -> (outR (tR RF)) (matvec o c a x) (matvec o' c a' x').
Proof. intros; unfold matvec; pa. Qed.
Ltac pa_141 h := lazymatch h with @matvec => eapply par_matvec | _ => pa_140 h end.
Ltac pa_api h ::= pa_141 h.
Lemma par_frame {A A'} (RA : A -> A' -> Prop) (c : cfg) (x : tensor A) (x' : (tensor A')) (len : nat) (step : nat) :
  (tR RA) x x' -> (outR (tR RA)) (frame c x len step) (frame c x' len step).
Proof. intros; unfold frame; pa. Qed.
Ltac pa_142 h := lazymatch h with @frame => eapply par_frame | _ => pa_141 h end.
Ltac pa_api h ::= pa_142 h.
Lemma par_slice_usize {A A'} (RA : A -> A' -> Prop) (c : cfg) (t : tensor A) (t' : (tensor A')) (i : nat) :
  (tR RA) t t' -> (outR (tR RA)) (slice_usize c t i) (slice_usize c t' i).
Proof. intros; unfold slice_usize; pa. Qed.
Ltac pa_143 h := lazymatch h with @slice_usize => eapply par_slice_usize | _ => pa_142 h end.
Ltac pa_api h ::= pa_143 h.
Lemma par_slice_pair {A A'} (RA : A -> A' -> Prop) (c : cfg) (t : tensor A) (t' : (tensor A')) (i : nat) (j : nat) :
  (tR RA) t t' -> (outR (tR RA)) (slice_pair c t i j) (slice_pair c t' i j).
Proof. intros; unfold slice_pair; pa. Qed.
Ltac pa_144 h := lazymatch h with @slice_pair => eapply par_slice_pair | _ => pa_143 h end.
Ltac pa_api h ::= pa_144 h.
Lemma par_separated {A A'} (RA : A -> A' -> Prop) (n : nat) (sep : String.string) (body : nat -> outcome (list (piece A))) (body' : (nat -> (outcome (list (piece A'))))) (out : list (piece A)) (out' : (list (piece A'))) :
  (forall x0, (outR (Forall2 (pieceR RA))) (body x0) (body' x0)) -> (Forall2 (pieceR RA)) out out' -> (outR (Forall2 (pieceR RA))) (separated n sep body out) (separated n sep body' out').
Proof. intros; unfold separated; pa. Qed.
Ltac pa_145 h := lazymatch h with @separated => eapply par_separated | _ => pa_144 h end.
Ltac pa_api h ::= pa_145 h.
Lemma par_fmt_tensor_rec {A A'} (RA : A -> A' -> Prop) (c : cfg) (t : tensor A) (t' : (tensor A')) (rank : nat) (offset : nat) :
  (tR RA) t t' -> (outR (Forall2 (pieceR RA))) (fmt_tensor_rec c t rank offset) (fmt_tensor_rec c t' rank offset).
Proof. intros H. revert offset. induction rank as [|rank IH]; intros; cbn [fmt_tensor_rec]; pa. Qed.
Ltac pa_146 h := lazymatch h with @fmt_tensor_rec => eapply par_fmt_tensor_rec | _ => pa_145 h end.
Ltac pa_api h ::= pa_146 h.
Lemma par_fmt_tensor {A A'} (RA : A -> A' -> Prop) (c : cfg) (name : String.string) (t : tensor A) (t' : (tensor A')) :
  (tR RA) t t' -> (outR (Forall2 (pieceR RA))) (fmt_tensor c name t) (fmt_tensor c name t').
Proof. intros; unfold fmt_tensor; pa. Qed.
Ltac pa_147 h := lazymatch h with @fmt_tensor => eapply par_fmt_tensor | _ => pa_146 h end.
Ltac pa_api h ::= pa_147 h.
Lemma par_assert_shown {A A'} (RA : A -> A' -> Prop) (c : cfg) (b : bool) (t : tensor A) (t' : (tensor A')) :
  (tR RA) t t' -> (outR eq) (assert_shown c b t) (assert_shown c b t').
Proof. intros; unfold assert_shown; pa. Qed.
Ltac pa_147a h := lazymatch h with @assert_shown => eapply par_assert_shown | _ => pa_147 h end.
Ltac pa_api h ::= pa_147a h.
Lemma par_index2 {A A'} (RA : A -> A' -> Prop) (c : cfg) (t : tensor A) (t' : (tensor A')) (i : nat) (j : nat) :
  (tR RA) t t' -> (outR RA) (index2 c t i j) (index2 c t' i j).
Proof. intros; unfold index2; pa. Qed.
Ltac pa_147b h := lazymatch h with @index2 => eapply par_index2 | _ => pa_147a h end.
Ltac pa_api h ::= pa_147b h.
Lemma par_fill {T T'} (RT : T -> T' -> Prop) (c : cfg) (s : shape) (v : T) (v' : T') :
  RT v v' -> (outR (tR RT)) (fill c s v) (fill c s v').
Proof. intros; unfold fill; pa. Qed.
Ltac pa_148 h := lazymatch h with @fill => eapply par_fill | _ => pa_147b h end.
Ltac pa_api h ::= pa_148 h.
Lemma par_ones {T T'} (RT : T -> T' -> Prop) (c : cfg) (one : T) (one' : T') (s : shape) :
  RT one one' -> (outR (tR RT)) (ones c one s) (ones c one' s).
Proof. intros; unfold ones; pa. Qed.
Ltac pa_149 h := lazymatch h with @ones => eapply par_ones | _ => pa_148 h end.
Ltac pa_api h ::= pa_149 h.
Lemma par_zeros {T T'} (RT : T -> T' -> Prop) (c : cfg) (zero : T) (zero' : T') (s : shape) :
  RT zero zero' -> (outR (tR RT)) (zeros c zero s) (zeros c zero' s).
Proof. intros; unfold zeros; pa. Qed.
Ltac pa_150 h := lazymatch h with @zeros => eapply par_zeros | _ => pa_149 h end.
Ltac pa_api h ::= pa_150 h.
Lemma par_init_default {T T'} (RT : T -> T' -> Prop) (c : cfg) (default : T) (default' : T') (s : shape) :
  RT default default' -> (outR (tR RT)) (init_default c default s) (init_default c default' s).
Proof. intros; unfold init_default; pa. Qed.
Ltac pa_151 h := lazymatch h with @init_default => eapply par_init_default | _ => pa_150 h end.
Ltac pa_api h ::= pa_151 h.
Lemma par_scalar_tensor {T T'} (RT : T -> T' -> Prop) (c : cfg) (v : T) (v' : T') :
  RT v v' -> (outR (tR RT)) (scalar_tensor c v) (scalar_tensor c v').
Proof. intros; unfold scalar_tensor; pa. Qed.
Ltac pa_152 h := lazymatch h with @scalar_tensor => eapply par_scalar_tensor | _ => pa_151 h end.
Ltac pa_api h ::= pa_152 h.
Lemma par_data_len {A A'} (RA : A -> A' -> Prop) (t : tensor A) (t' : (tensor A')) :
  (tR RA) t t' -> eq (data_len t) (data_len t').
Proof. intros; unfold data_len; pa. Qed.
Ltac pa_153 h := lazymatch h with @data_len => eapply par_data_len | _ => pa_152 h end.
Ltac pa_api h ::= pa_153 h.
Lemma par_deref {A A'} (RA : A -> A' -> Prop) (t : tensor A) (t' : (tensor A')) :
  (tR RA) t t' -> (outR (Forall2 RA)) (deref t) (deref t').
Proof. intros; unfold deref; pa. Qed.
Ltac pa_154 h := lazymatch h with @deref => eapply par_deref | _ => pa_153 h end.
Ltac pa_api h ::= pa_154 h.
Lemma par_into_iter {A A'} (RA : A -> A' -> Prop) (t : tensor A) (t' : (tensor A')) :
  (tR RA) t t' -> (outR (Forall2 RA)) (into_iter t) (into_iter t').
Proof. intros; unfold into_iter; pa. Qed.
Ltac pa_155 h := lazymatch h with @into_iter => eapply par_into_iter | _ => pa_154 h end.
Ltac pa_api h ::= pa_155 h.
Lemma par_as_ref_slice {A A'} (RA : A -> A' -> Prop) (t : tensor A) (t' : (tensor A')) :
  (tR RA) t t' -> (outR (Forall2 RA)) (as_ref_slice t) (as_ref_slice t').
Proof. intros; unfold as_ref_slice; pa. Qed.
Ltac pa_156 h := lazymatch h with @as_ref_slice => eapply par_as_ref_slice | _ => pa_155 h end.
Ltac pa_api h ::= pa_156 h.
