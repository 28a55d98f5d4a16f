(** * Every function of the model but a few treats a view like a copy *)
From Coq Require Import String.
From Verif Require Import Base ShapeModel TensorModel AxisModel MapModel ArrayModel NumModel
  FromModel ArgModel FloatModel InitModel MathModel LinalgModel SignalModel FmtModel WrapModel ParamSpec ParamFacts ViewSpec BaseFacts TensorFacts2 SplitFacts.
Import TensorModel.
Set Warnings "-notation-overridden".

Section Basic.
Context {A A' : Type} (RA : A -> A' -> Prop).
Lemma vw_tshape t t' : sameR RA t t' -> tshape t = tshape t'.
Proof. intros (H & _). exact H. Qed.
Lemma vw_tsize t t' : sameR RA t t' -> tsize t = tsize t'.
Proof. intros (_ & H & _). exact H. Qed.
Lemma vw_map_tsize (l : list (tensor A)) (l' : list (tensor A')) : Forall2 (sameR RA) l l' -> map tsize l = map tsize l'.
Proof. induction 1 as [|x y l l' H _ IH]; cbn; [reflexivity|]. destruct H as (_ & E & _). now rewrite E, IH. Qed.
End Basic.

Lemma shown_raw {A} (t : tensor A) xs k n :
  shown t xs -> k + n <= tsize t -> raw_slice (tdata t) (toffset t + k) n = Ok (firstn n (skipn k xs)).
Proof.
  intros (H & Hm & E) Hk. unfold raw_slice. destruct (Nat.leb_spec (toffset t + k + n) (length (tdata t))); [|lia].
  f_equal. rewrite <- E, skipn_firstn_comm, firstn_firstn, skipn_skipn. f_equal; [lia|]. f_equal. lia.
Qed.
Lemma shown_length {A} (t : tensor A) xs : shown t xs -> length xs = tsize t.
Proof. intros (H & Hm & E). rewrite <- E, firstn_length, skipn_length. lia. Qed.
Lemma shown_slice {A} (t : tensor A) xs : shown t xs -> as_slice t = Ok xs.
Proof.
  intros H. unfold as_slice. rewrite <- (Nat.add_0_r (toffset t)). rewrite (shown_raw t xs 0) by (auto; lia).
  cbn [skipn]. rewrite <- (shown_length t xs H). now rewrite firstn_all.
Qed.
Lemma shown_get {A} (t : tensor A) xs k :
  shown t xs -> k < tsize t -> raw_get (tdata t) (toffset t + k) = match nth_error xs k with Some v => Ok v | None => Ub end.
Proof.
  intros (H & Hm & E) Hk. unfold raw_get. rewrite <- E.
  rewrite nth_error_firstn. destruct (Nat.ltb_spec k (tsize t)); [|lia]. now rewrite nth_error_skipn.
Qed.

(** The relation for two types. *)
Ltac vrelof A B :=
  match constr:((A, B)) with
  | (?X, ?X) => constr:(@eq X)
  | _ => match goal with R : A -> B -> Prop |- _ => constr:(R) end
  | (list ?X, list ?Y) => let r := vrelof X Y in constr:(Forall2 r)
  | (option ?X, option ?Y) => let r := vrelof X Y in constr:(optR r)
  | (prod ?X ?X1, prod ?Y ?Y1) => let r := vrelof X Y in let r1 := vrelof X1 Y1 in constr:(prodR r r1)
  | (outcome ?X, outcome ?Y) => let r := vrelof X Y in constr:(outR r)
  | (tensor ?X, tensor ?Y) => let r := vrelof X Y in constr:(sameR r)
  | (tensor_list ?X, tensor_list ?Y) => let r := vrelof X Y in constr:(slR r)
  | (fops ?X, fops ?Y) => let r := vrelof X Y in constr:(ringR r)
  | (piece ?X, piece ?Y) => let r := vrelof X Y in constr:(pieceR r)
  end.

Ltac vhead x := lazymatch x with ?f _ => vhead f | _ => x end.

(** Rewrites what related arguments have in common. *)
Ltac vsame :=
  repeat match goal with
  | H : sameR _ ?t ?u |- context [tshape ?t] => rewrite (vw_tshape _ t u H)
  | H : sameR _ ?t ?u |- context [tsize ?t] => rewrite (vw_tsize _ t u H)
  | H : Forall2 _ ?l ?l' |- context [length ?l] => rewrite (par_length _ l l' H)
  | H : Forall2 (sameR _) ?l ?l' |- context [map tsize ?l] => rewrite (vw_map_tsize _ l l' H)
  | H : Forall2 (sameR _) ?l ?l' |- context [map tsize (rev ?l)] => rewrite (vw_map_tsize _ _ _ (par_rev _ l l' H))
  | H : Forall2 (Forall2 _) ?l ?l' |- context [length (concat ?l)] => rewrite (par_length _ _ _ (par_concat _ l l' H))
  end.

Ltac vintro :=
  let H := fresh "H" in intro H;
  lazymatch type of H with
  | @eq _ ?x ?y => first [subst x | subst y | idtac]
  | prodR _ _ ?x ?y =>
      destruct x, y; destruct H as [?H ?H]; cbn [fst snd] in *;
      repeat match goal with
      | K : @eq _ ?x ?y |- _ => is_var x; subst x
      | K : prodR _ _ ?x ?y |- _ => destruct x, y; destruct K as [?K ?K]; cbn [fst snd] in *
      end
  | _ => idtac
  end.

Ltac vw_0 h :=
  lazymatch h with
  | @nth_error => eapply par_nth_error
  | @firstn => eapply par_firstn
  | @skipn => eapply par_skipn
  | @app => eapply par_app
  | @rev => eapply par_rev
  | @concat => eapply par_concat
  | @repeat => eapply par_repeat
  | @map => eapply par_map
  | @set_nth => eapply par_set_nth
  | @cons => eapply par_cons
  | @nil => eapply par_nil
  | @pair => eapply par_pair
  | @fst => eapply par_fst
  | @snd => eapply par_snd
  | @Some => apply optR_some
  | @None => apply optR_none
  | @Ok => apply outR_ok
  | @Panic => apply outR_panic
  | @Ub => apply outR_ub
  | @Lit => apply pieceR_lit
  | @Elem => apply pieceR_elem
  | @Tensors => apply slR_tensors
  | @for_from => eapply par_for_from
  | @for_ => eapply par_for_
  | @for_range => eapply par_for_range
  | @for_each => eapply par_for_each
  | @map_out => eapply par_map_out
  | @assume_init => eapply par_assume_init
  | @pure1 => unfold pure1
  | @pure2 => unfold pure2
  | @pure3 => unfold pure3
  | @lift1 => unfold lift1
  | @lift2 => unfold lift2
  | @assert_ => eapply par_assert_
  | @fzero => eapply ring_zero
  | @fone => eapply ring_one
  | @fadd => eapply ring_add
  | @fmul => eapply ring_mul
  | @feq => first [eapply ring_eq; [eassumption| |] | eapply ord_eq; [eassumption| |]]
  | @flt => eapply ord_lt; [eassumption| |]
  | @fmin => unfold fmin
  | @fmax => unfold fmax
  end.
Ltac vw_api h := vw_0 h.

Ltac vapply := match goal with H : forall _, _ |- _ => solve [eapply H; eassumption] | H : forall _, _ |- _ => eapply H end.

Ltac vw1 :=
  lazymatch goal with
  | |- ?A -> ?B -> Prop => let r := vrelof A B in exact r
  | |- forall _, _ => first [vintro | intro]
  | |- _ => first [assumption | reflexivity | apply outR_same | apply forall2_eq
                  | progress vsame | progress cbv beta zeta | vw2]
  end
with vw2 :=
  lazymatch goal with
  | |- ?Q (bind (A:=?A) ?x ?f) (bind (A:=?B) ?y ?g) =>
      let r := vrelof A B in apply (par_bind r)
  | |- ?Q (match ?x with _ => _ end) (match ?y with _ => _ end) =>
      first [constr_eq x y; destruct x
            | let A := type of x in let B := type of y in let r := vrelof A B in
              let K := fresh "K" in assert (K : r x y); [solve [repeat vw1]|];
              first [rewrite K; destruct y | destruct K]]
  | |- ?Q ?x ?y => let h := vhead x in first [unshelve vw_api h | unshelve vapply | fail 2 "no rule for" h]
  end.
Ltac vw := repeat vw1.
Lemma par_for_lt {A A'} (RA : A -> A' -> Prop) n (b : nat -> A -> outcome A) (b' : nat -> A' -> outcome A') s s' :
  (forall i s s', i < n -> RA s s' -> outR RA (b i s) (b' i s')) -> RA s s' -> outR RA (for_ n b s) (for_ n b' s').
Proof.
  unfold for_. intros Hb. assert (K : forall m i s s', i + m <= n -> RA s s' -> outR RA (for_from i m b s) (for_from i m b' s')).
  { induction m as [|m IH]; intros i u u' Hi H; cbn; [now constructor|].
    destruct (Hb i _ _ ltac:(lia) H); cbn; [apply IH; [lia|assumption]|constructor|constructor]. }
  apply K. lia.
Qed.
Ltac vw_1 h := lazymatch h with @aget => eapply par_aget | _ => vw_0 h end.
Ltac vw_api h ::= vw_1 h.
Ltac vw_2 h := lazymatch h with @aset => eapply par_aset | _ => vw_1 h end.
Ltac vw_api h ::= vw_2 h.
Ltac vw_3 h := lazymatch h with @aslice => eapply par_aslice | _ => vw_2 h end.
Ltac vw_api h ::= vw_3 h.
Ltac vw_4 h := lazymatch h with @write => eapply par_write | _ => vw_3 h end.
Ltac vw_api h ::= vw_4 h.
Ltac vw_5 h := lazymatch h with @alloc => eapply par_alloc | _ => vw_4 h end.
Ltac vw_api h ::= vw_5 h.
Lemma vw_tensor_new {A A'} (RA : A -> A' -> Prop) (c : cfg) (data : list A) (data' : (list A')) (s : shape) :
  (Forall2 RA) data data' -> (outR (sameR RA)) (tensor_new c data s) (tensor_new c data' s).
Proof.
  intros H. unfold tensor_new. rewrite <- (par_length _ _ _ H). destruct (size c s) as [n| |] eqn:En; cbn [bind]; [|constructor|constructor].
  apply size_lt in En. destruct (Nat.eqb_spec n (length data)) as [->|]; cbn; [|constructor]. constructor.
  split; [reflexivity|]. split; [reflexivity|]. exists data, data'. unfold shown. cbn.
  pose proof (par_length _ _ _ H) as E. unfold two32 in En. rewrite firstn_all.
  replace (firstn (length data) data') with data' by (rewrite E; now rewrite firstn_all). repeat split; auto; lia.
Qed.
Ltac vw_6 h := lazymatch h with @tensor_new => eapply vw_tensor_new | _ => vw_5 h end.
Ltac vw_api h ::= vw_6 h.
Lemma vw_from_vec {A A'} (RA : A -> A' -> Prop) (c : cfg) (v : list A) (v' : (list A')) (s : shape) :
  (Forall2 RA) v v' -> (outR (sameR RA)) (from_vec c v s) (from_vec c v' s).
Proof. intros; unfold from_vec; vw. Qed.
Ltac vw_7 h := lazymatch h with @from_vec => eapply vw_from_vec | _ => vw_6 h end.
Ltac vw_api h ::= vw_7 h.
Lemma vw_from_scalar {A A'} (RA : A -> A' -> Prop) (c : cfg) (v : A) (v' : A') :
  RA v v' -> (outR (sameR RA)) (from_scalar c v) (from_scalar c v').
Proof. intros; unfold from_scalar; vw. Qed.
Ltac vw_8 h := lazymatch h with @from_scalar => eapply vw_from_scalar | _ => vw_7 h end.
Ltac vw_api h ::= vw_8 h.
Lemma vw_unsafe_init {A A'} {S S'} (RA : A -> A' -> Prop) (RS : S -> S' -> Prop) (c : cfg) (len : nat) (s : shape) (init : S * buf A -> outcome (S * buf A)) (init' : ((S' * (buf A')) -> (outcome (S' * (buf A'))))) (st : S) (st' : S') :
  (forall x0 x0', (prodR RS (Forall2 (optR RA))) x0 x0' -> (outR (prodR RS (Forall2 (optR RA)))) (init x0) (init' x0')) -> RS st st' -> (outR (prodR RS (sameR RA))) (unsafe_init c len s init st) (unsafe_init c len s init' st').
Proof. intros; unfold unsafe_init; vw. Qed.
Ltac vw_9 h := lazymatch h with @unsafe_init => eapply vw_unsafe_init | _ => vw_8 h end.
Ltac vw_api h ::= vw_9 h.
Lemma vw_unsafe_init_ {A A'} (RA : A -> A' -> Prop) (c : cfg) (len : nat) (s : shape) (init : buf A -> outcome (buf A)) (init' : ((buf A') -> (outcome (buf A')))) :
  (forall x0 x0', (Forall2 (optR RA)) x0 x0' -> (outR (Forall2 (optR RA))) (init x0) (init' x0')) -> (outR (sameR RA)) (unsafe_init_ c len s init) (unsafe_init_ c len s init').
Proof. intros; unfold unsafe_init_; vw. Qed.
Ltac vw_10 h := lazymatch h with @unsafe_init_ => eapply vw_unsafe_init_ | _ => vw_9 h end.
Ltac vw_api h ::= vw_10 h.
Lemma vw_as_slice {A A'} (RA : A -> A' -> Prop) (t : tensor A) (t' : (tensor A')) :
  (sameR RA) t t' -> (outR (Forall2 RA)) (as_slice t) (as_slice t').
Proof. intros (Hs & Hn & xs & ys & Hx & Hy & H). rewrite (shown_slice _ _ Hx), (shown_slice _ _ Hy). now constructor. Qed.
Ltac vw_11 h := lazymatch h with @as_slice => eapply vw_as_slice | _ => vw_10 h end.
Ltac vw_api h ::= vw_11 h.
Lemma vw_wrap_pos {A A'} (RA : A -> A' -> Prop) (t : tensor A) (t' : (tensor A')) (offset : nat) :
  (sameR RA) t t' -> (outR eq) (wrap_pos t offset) (wrap_pos t' offset).
Proof. intros; unfold wrap_pos; vw. Qed.
Ltac vw_12 h := lazymatch h with @wrap_pos => eapply vw_wrap_pos | _ => vw_11 h end.
Ltac vw_api h ::= vw_12 h.
Lemma vw_as_wrap_slice {A A'} (RA : A -> A' -> Prop) (t : tensor A) (t' : (tensor A')) (offset : nat) :
  (sameR RA) t t' -> (outR (Forall2 RA)) (as_wrap_slice t offset) (as_wrap_slice t' offset).
Proof.
  intros (Hs & Hn & xs & ys & Hx & Hy & H). unfold as_wrap_slice, wrap_pos, urem. rewrite Hn.
  assert (K : forall k, k <= tsize t' -> outR (Forall2 RA) (raw_slice (tdata t) (toffset t + k) (tsize t' - k)) (raw_slice (tdata t') (toffset t' + k) (tsize t' - k))).
  { intros k Hk. rewrite (shown_raw t xs), (shown_raw t' ys) by (auto; lia). constructor. now apply par_firstn, par_skipn. }
  destruct (Nat.ltb_spec offset (tsize t')); cbn [bind]; [apply K; lia|].
  destruct (Nat.eqb_spec (tsize t') 0); cbn [bind]; [constructor|]. apply K. pose proof (Nat.mod_upper_bound offset (tsize t') ltac:(lia)). lia.
Qed.
Ltac vw_13 h := lazymatch h with @as_wrap_slice => eapply vw_as_wrap_slice | _ => vw_12 h end.
Ltac vw_api h ::= vw_13 h.
Lemma vw_subslice_flat {A A'} (RA : A -> A' -> Prop) (c : cfg) (t : tensor A) (t' : (tensor A')) (offset : nat) (len : nat) (s : outcome shape) :
  (sameR RA) t t' -> (outR (sameR RA)) (subslice_flat c t offset len s) (subslice_flat c t' offset len s).
Proof.
  intros (Hs & Hn & xs & ys & Hx & Hy & H). unfold subslice_flat. rewrite Hn.
  destruct (Nat.leb_spec offset (tsize t')) as [Ho|]; cbn [assert_ bind]; [|constructor].
  destruct (uadd c offset len) as [e| |] eqn:Ee; cbn [bind]; [|constructor|constructor].
  destruct (Nat.leb_spec e (tsize t')) as [He|]; cbn [assert_ bind]; [|constructor].
  destruct s as [s| |]; cbn [bind]; [|constructor|constructor].
  destruct (size c s) as [n| |] eqn:En; cbn [bind]; [|constructor|constructor]. apply size_lt in En.
  destruct ((n =? len) || ((n =? 0) && (len =? 1))) eqn:El; cbn [assert_ bind]; [|constructor].
  assert (Hl : (Z.of_nat len < two32)%Z).
  { apply Bool.orb_true_iff in El. destruct El as [El|El]; [apply Nat.eqb_eq in El; now subst|].
    apply Bool.andb_true_iff in El. destruct El as [_ El]. apply Nat.eqb_eq in El. subst. reflexivity. }
  destruct Hx as (Hx1 & Hx2 & Hx3), Hy as (Hy1 & Hy2 & Hy3). unfold two32 in *.
  rewrite uadd_ok in Ee by (unfold two64; lia). injection Ee as <-.
  rewrite !uadd_ok by (unfold two64; lia). cbn [bind]. constructor.
  split; [reflexivity|]. split; [reflexivity|].
  exists (firstn len (skipn offset xs)), (firstn len (skipn offset ys)). unfold shown; cbn [tsize toffset tdata].
  repeat split; try lia.
  - rewrite <- Hx3, skipn_firstn_comm, firstn_firstn, skipn_skipn. f_equal; [lia|]. f_equal. lia.
  - rewrite <- Hy3, skipn_firstn_comm, firstn_firstn, skipn_skipn. f_equal; [lia|]. f_equal. lia.
  - now apply par_firstn, par_skipn.
Qed.
Ltac vw_14 h := lazymatch h with @subslice_flat => eapply vw_subslice_flat | _ => vw_13 h end.
Ltac vw_api h ::= vw_14 h.
Lemma vw_subslice {A A'} (RA : A -> A' -> Prop) (c : cfg) (t : tensor A) (t' : (tensor A')) (offset : nat) (len : nat) :
  (sameR RA) t t' -> (outR (sameR RA)) (subslice c t offset len) (subslice c t' offset len).
Proof. intros; unfold subslice; vw. Qed.
Ltac vw_15 h := lazymatch h with @subslice => eapply vw_subslice | _ => vw_14 h end.
Ltac vw_api h ::= vw_15 h.
Ltac vw_16 h := lazymatch h with @chunks_fuel => eapply par_chunks_fuel | _ => vw_15 h end.
Ltac vw_api h ::= vw_16 h.
Ltac vw_17 h := lazymatch h with @chunks_exact => eapply par_chunks_exact | _ => vw_16 h end.
Ltac vw_api h ::= vw_17 h.
Lemma vw_iter_row {A A'} (RA : A -> A' -> Prop) (t : tensor A) (t' : (tensor A')) :
  (sameR RA) t t' -> (outR (Forall2 (Forall2 RA))) (iter_row t) (iter_row t').
Proof. intros; unfold iter_row; vw. Qed.
Ltac vw_18 h := lazymatch h with @iter_row => eapply vw_iter_row | _ => vw_17 h end.
Ltac vw_api h ::= vw_18 h.
Lemma vw_from_slice {A A'} (RA : A -> A' -> Prop) (c : cfg) (data : list A) (data' : (list A')) :
  (Forall2 RA) data data' -> (outR (sameR RA)) (from_slice c data) (from_slice c data').
Proof. intros; unfold from_slice; vw. Qed.
Ltac vw_19 h := lazymatch h with @from_slice => eapply vw_from_slice | _ => vw_18 h end.
Ltac vw_api h ::= vw_19 h.
Lemma vw_from_merge {A A'} (RA : A -> A' -> Prop) (c : cfg) (ts : list (tensor A)) (ts' : (list (tensor A'))) (s : shape) :
  (Forall2 (sameR RA)) ts ts' -> (outR (sameR RA)) (from_merge c ts s) (from_merge c ts' s).
Proof. intros; unfold from_merge; vw. Qed.
Ltac vw_20 h := lazymatch h with @from_merge => eapply vw_from_merge | _ => vw_19 h end.
Ltac vw_api h ::= vw_20 h.
Lemma vw_append {A A'} (RA : A -> A' -> Prop) (c : cfg) (t : tensor A) (t' : (tensor A')) (u : tensor A) (u' : (tensor A')) :
  (sameR RA) t t' -> (sameR RA) u u' -> (outR (sameR RA)) (append c t u) (append c t' u').
Proof. intros; unfold append; vw. Qed.
Ltac vw_21 h := lazymatch h with @append => eapply vw_append | _ => vw_20 h end.
Ltac vw_api h ::= vw_21 h.
Lemma vw_join_vec {A A'} (RA : A -> A' -> Prop) (c : cfg) (v : list (list A)) (v' : (list (list A'))) :
  (Forall2 (Forall2 RA)) v v' -> (outR (sameR RA)) (join_vec c v) (join_vec c v').
Proof. intros; unfold join_vec; vw. Qed.
Ltac vw_22 h := lazymatch h with @join_vec => eapply vw_join_vec | _ => vw_21 h end.
Ltac vw_api h ::= vw_22 h.
Ltac vw_23 h := lazymatch h with @list_eqb => eapply par_list_eqb | _ => vw_22 h end.
Ltac vw_api h ::= vw_23 h.
Lemma vw_tensor_eqb {A A'} (RA : A -> A' -> Prop) (eqb : A -> A -> bool) (eqb' : (A' -> (A' -> bool))) (t : tensor A) (t' : (tensor A')) (u : tensor A) (u' : (tensor A')) :
  (forall x0 x0', RA x0 x0' -> (forall x1 x1', RA x1 x1' -> eq ((eqb x0) x1) ((eqb' x0') x1'))) -> (sameR RA) t t' -> (sameR RA) u u' -> (outR eq) (tensor_eqb eqb t u) (tensor_eqb eqb' t' u').
Proof. intros; unfold tensor_eqb; vw. Qed.
Ltac vw_24 h := lazymatch h with @tensor_eqb => eapply vw_tensor_eqb | _ => vw_23 h end.
Ltac vw_api h ::= vw_24 h.
Lemma vw_index1 {A A'} (RA : A -> A' -> Prop) (t : tensor A) (t' : (tensor A')) (i : nat) :
  (sameR RA) t t' -> (outR RA) (index1 t i) (index1 t' i).
Proof.
  intros (Hs & Hn & xs & ys & Hx & Hy & H). unfold index1. rewrite Hn.
  destruct (Nat.ltb_spec i (tsize t')); cbn [assert_ bind]; [|constructor].
  rewrite (shown_get _ _ _ Hx), (shown_get _ _ _ Hy) by lia.
  destruct (par_nth_error _ _ _ i H); now constructor.
Qed.
Ltac vw_25 h := lazymatch h with @index1 => eapply vw_index1 | _ => vw_24 h end.
Ltac vw_api h ::= vw_25 h.
Lemma vw_index3 {A A'} (RA : A -> A' -> Prop) (c : cfg) (t : tensor A) (t' : (tensor A')) (i : nat) (j : nat) (k : nat) :
  (sameR RA) t t' -> (outR RA) (index3 c t i j k) (index3 c t' i j k).
Proof. intros; unfold index3; vw. Qed.
Ltac vw_26 h := lazymatch h with @index3 => eapply vw_index3 | _ => vw_25 h end.
Ltac vw_api h ::= vw_26 h.
Lemma vw_index4 {A A'} (RA : A -> A' -> Prop) (c : cfg) (t : tensor A) (t' : (tensor A')) (h : nat) (i : nat) (j : nat) (k : nat) :
  (sameR RA) t t' -> (outR RA) (index4 c t h i j k) (index4 c t' h i j k).
Proof. intros; unfold index4; vw. Qed.
Ltac vw_27 h := lazymatch h with @index4 => eapply vw_index4 | _ => vw_26 h end.
Ltac vw_api h ::= vw_27 h.
Lemma vw_index5 {A A'} (RA : A -> A' -> Prop) (c : cfg) (t : tensor A) (t' : (tensor A')) (g : nat) (h : nat) (i : nat) (j : nat) (k : nat) :
  (sameR RA) t t' -> (outR RA) (index5 c t g h i j k) (index5 c t' g h i j k).
Proof. intros; unfold index5; vw. Qed.
Ltac vw_28 h := lazymatch h with @index5 => eapply vw_index5 | _ => vw_27 h end.
Ltac vw_api h ::= vw_28 h.
Lemma vw_reshape {A A'} (RA : A -> A' -> Prop) (c : cfg) (t : tensor A) (t' : (tensor A')) (s : shape) :
  (sameR RA) t t' -> (outR (sameR RA)) (reshape c t s) (reshape c t' s).
Proof.
  intros (Hs & Hn & xs & ys & Hx & Hy & H). unfold reshape. rewrite Hn.
  destruct (size c s) as [n| |]; cbn [bind]; [|constructor|constructor].
  destruct (n =? tsize t'); cbn [assert_ bind]; [|constructor]. constructor.
  split; [reflexivity|]. split; [reflexivity|]. exists xs, ys. unfold shown in *. cbn [tsize toffset tdata]. now rewrite Hn in Hx.
Qed.
Ltac vw_29 h := lazymatch h with @reshape => eapply vw_reshape | _ => vw_28 h end.
Ltac vw_api h ::= vw_29 h.
Lemma vw_t_expand_dims {A A'} (RA : A -> A' -> Prop) (c : cfg) (t : tensor A) (t' : (tensor A')) (axis : option Z) :
  (sameR RA) t t' -> (outR (sameR RA)) (t_expand_dims c t axis) (t_expand_dims c t' axis).
Proof. intros; unfold t_expand_dims; vw. Qed.
Ltac vw_30 h := lazymatch h with @t_expand_dims => eapply vw_t_expand_dims | _ => vw_29 h end.
Ltac vw_api h ::= vw_30 h.
Lemma vw_flatten {A A'} (RA : A -> A' -> Prop) (c : cfg) (t : tensor A) (t' : (tensor A')) :
  (sameR RA) t t' -> (outR (sameR RA)) (flatten c t) (flatten c t').
Proof. intros; unfold flatten; vw. Qed.
Ltac vw_31 h := lazymatch h with @flatten => eapply vw_flatten | _ => vw_30 h end.
Ltac vw_api h ::= vw_31 h.
Lemma vw_t_squeeze {A A'} (RA : A -> A' -> Prop) (c : cfg) (t : tensor A) (t' : (tensor A')) :
  (sameR RA) t t' -> (outR (sameR RA)) (t_squeeze c t) (t_squeeze c t').
Proof. intros; unfold t_squeeze; vw. Qed.
Ltac vw_32 h := lazymatch h with @t_squeeze => eapply vw_t_squeeze | _ => vw_31 h end.
Ltac vw_api h ::= vw_32 h.
Lemma vw_squeeze_axis {A A'} (RA : A -> A' -> Prop) (c : cfg) (t : tensor A) (t' : (tensor A')) (axis : option Z) :
  (sameR RA) t t' -> (outR (sameR RA)) (squeeze_axis c t axis) (squeeze_axis c t' axis).
Proof. intros; unfold squeeze_axis; vw. Qed.
Ltac vw_33 h := lazymatch h with @squeeze_axis => eapply vw_squeeze_axis | _ => vw_32 h end.
Ltac vw_api h ::= vw_33 h.
Lemma vw_of_value {A A'} (RA : A -> A' -> Prop) (c : cfg) (v : A) (v' : A') :
  RA v v' -> (outR (sameR RA)) (of_value c v) (of_value c v').
Proof. intros; unfold of_value; vw. Qed.
Ltac vw_34 h := lazymatch h with @of_value => eapply vw_of_value | _ => vw_33 h end.
Ltac vw_api h ::= vw_34 h.
Lemma vw_of_option {A A'} (RA : A -> A' -> Prop) (c : cfg) (v : option A) (v' : (option A')) :
  (optR RA) v v' -> (outR (sameR RA)) (of_option c v) (of_option c v').
Proof. intros; unfold of_option; vw. Qed.
Ltac vw_35 h := lazymatch h with @of_option => eapply vw_of_option | _ => vw_34 h end.
Ltac vw_api h ::= vw_35 h.
Lemma vw_of_vec {A A'} (RA : A -> A' -> Prop) (c : cfg) (v : list A) (v' : (list A')) :
  (Forall2 RA) v v' -> (outR (sameR RA)) (of_vec c v) (of_vec c v').
Proof. intros; unfold of_vec; vw. Qed.
Ltac vw_36 h := lazymatch h with @of_vec => eapply vw_of_vec | _ => vw_35 h end.
Ltac vw_api h ::= vw_36 h.
Lemma vw_of_rows {A A'} (RA : A -> A' -> Prop) (c : cfg) (n : nat) (v : list (list A)) (v' : (list (list A'))) :
  (Forall2 (Forall2 RA)) v v' -> (outR (sameR RA)) (of_rows c n v) (of_rows c n v').
Proof. intros; unfold of_rows; vw. Qed.
Ltac vw_37 h := lazymatch h with @of_rows => eapply vw_of_rows | _ => vw_36 h end.
Ltac vw_api h ::= vw_37 h.
Lemma vw_of_rows2 {A A'} (RA : A -> A' -> Prop) (c : cfg) (m : nat) (n : nat) (v : list (list (list A))) (v' : (list (list (list A')))) :
  (Forall2 (Forall2 (Forall2 RA))) v v' -> (outR (sameR RA)) (of_rows2 c m n v) (of_rows2 c m n v').
Proof. intros; unfold of_rows2; vw. Qed.
Ltac vw_38 h := lazymatch h with @of_rows2 => eapply vw_of_rows2 | _ => vw_37 h end.
Ltac vw_api h ::= vw_38 h.
Lemma vw_of_vec2 {A A'} (RA : A -> A' -> Prop) (c : cfg) (v : list (list A)) (v' : (list (list A'))) :
  (Forall2 (Forall2 RA)) v v' -> (outR (sameR RA)) (of_vec2 c v) (of_vec2 c v').
Proof. intros; unfold of_vec2; vw. Qed.
Ltac vw_39 h := lazymatch h with @of_vec2 => eapply vw_of_vec2 | _ => vw_38 h end.
Ltac vw_api h ::= vw_39 h.
Lemma vw_of_vec3 {A A'} (RA : A -> A' -> Prop) (c : cfg) (v : list (list (list A))) (v' : (list (list (list A')))) :
  (Forall2 (Forall2 (Forall2 RA))) v v' -> (outR (sameR RA)) (of_vec3 c v) (of_vec3 c v').
Proof. intros; unfold of_vec3; vw. Qed.
Ltac vw_40 h := lazymatch h with @of_vec3 => eapply vw_of_vec3 | _ => vw_39 h end.
Ltac vw_api h ::= vw_40 h.
Lemma vw_of_vec4 {A A'} (RA : A -> A' -> Prop) (c : cfg) (v : list (list (list (list A)))) (v' : (list (list (list (list A'))))) :
  (Forall2 (Forall2 (Forall2 (Forall2 RA)))) v v' -> (outR (sameR RA)) (of_vec4 c v) (of_vec4 c v').
Proof. intros; unfold of_vec4; vw. Qed.
Ltac vw_41 h := lazymatch h with @of_vec4 => eapply vw_of_vec4 | _ => vw_40 h end.
Ltac vw_api h ::= vw_41 h.
Lemma vw_of_tensors {A A'} (RA : A -> A' -> Prop) (c : cfg) (ts : list (tensor A)) (ts' : (list (tensor A'))) :
  (Forall2 (sameR RA)) ts ts' -> (outR (sameR RA)) (of_tensors c ts) (of_tensors c ts').
Proof. intros; unfold of_tensors; vw. Qed.
Ltac vw_42 h := lazymatch h with @of_tensors => eapply vw_of_tensors | _ => vw_41 h end.
Ltac vw_api h ::= vw_42 h.
Lemma vw_init {S S'} {V V'} (RS : S -> S' -> Prop) (RV : V -> V' -> Prop) (c : cfg) (s : shape) (f : S -> outcome (S * V)) (f' : (S' -> (outcome (S' * V')))) (st : S) (st' : S') :
  (forall x0 x0', RS x0 x0' -> (outR (prodR RS RV)) (f x0) (f' x0')) -> RS st st' -> (outR (prodR RS (sameR RV))) (init c s f st) (init c s f' st').
Proof. intros; unfold init; vw. Qed.
Ltac vw_43 h := lazymatch h with @init => eapply vw_init | _ => vw_42 h end.
Ltac vw_api h ::= vw_43 h.
Lemma vw_init_rindexed {S S'} {V V'} (RS : S -> S' -> Prop) (RV : V -> V' -> Prop) (c : cfg) (s : shape) (f : S -> list nat -> outcome (S * V)) (f' : (S' -> ((list nat) -> (outcome (S' * V'))))) (st : S) (st' : S') :
  (forall x0 x0', RS x0 x0' -> (forall x1, (outR (prodR RS RV)) ((f x0) x1) ((f' x0') x1))) -> RS st st' -> (outR (prodR RS (sameR RV))) (init_rindexed c s f st) (init_rindexed c s f' st').
Proof. intros; unfold init_rindexed; vw. Qed.
Ltac vw_44 h := lazymatch h with @init_rindexed => eapply vw_init_rindexed | _ => vw_43 h end.
Ltac vw_api h ::= vw_44 h.
Lemma vw_map_ {S S'} {U U'} {V V'} (RS : S -> S' -> Prop) (RU : U -> U' -> Prop) (RV : V -> V' -> Prop) (c : cfg) (a : tensor U) (a' : (tensor U')) (f : S -> U -> outcome (S * V)) (f' : (S' -> (U' -> (outcome (S' * V'))))) (st : S) (st' : S') :
  (sameR RU) a a' -> (forall x0 x0', RS x0 x0' -> (forall x1 x1', RU x1 x1' -> (outR (prodR RS RV)) ((f x0) x1) ((f' x0') x1'))) -> RS st st' -> (outR (prodR RS (sameR RV))) (map_ c a f st) (map_ c a' f' st').
Proof. intros; unfold map_; vw. Qed.
Ltac vw_45 h := lazymatch h with @map_ => eapply vw_map_ | _ => vw_44 h end.
Ltac vw_api h ::= vw_45 h.
Ltac vw_46 h := lazymatch h with @write_row => eapply par_write_row | _ => vw_45 h end.
Ltac vw_api h ::= vw_46 h.
Lemma vw_map_row {S S'} {U U'} {V V'} (RS : S -> S' -> Prop) (RU : U -> U' -> Prop) (RV : V -> V' -> Prop) (c : cfg) (N : nat) (a : tensor U) (a' : (tensor U')) (f : S -> list U -> outcome (S * list V)) (f' : (S' -> ((list U') -> (outcome (S' * (list V')))))) (st : S) (st' : S') :
  (sameR RU) a a' -> (forall x0 x0', RS x0 x0' -> (forall x1 x1', (Forall2 RU) x1 x1' -> (outR (prodR RS (Forall2 RV))) ((f x0) x1) ((f' x0') x1'))) -> RS st st' -> (outR (prodR RS (sameR RV))) (map_row c N a f st) (map_row c N a' f' st').
Proof.
  intros Ht Hf Hst. unfold map_row. rewrite (vw_tshape _ _ _ Ht), (vw_tsize _ _ _ Ht).
  apply (par_bind eq); [apply outR_same|]. intros s ? <-. apply (par_bind eq); [apply outR_same|]. intros cs ? <-.
  unfold udiv. destruct (Nat.eqb_spec cs 0); cbn [bind]; [constructor|].
  apply vw_unsafe_init; [|assumption]. intros sb sb' Hsb. apply (par_for_lt (prodR RS (Forall2 (optR RV)))); [|assumption].
  intros i [st1 o] [st1' o'] Hi [H1 H2]. cbn [fst snd] in *.
  destruct Ht as (_ & Hn & xs & ys & Hx & Hy & H).
  assert (Hb : i * cs + cs <= tsize a').
  { pose proof (Nat.mul_div_le (tsize a') cs ltac:(lia)). assert ((i + 1) * cs <= tsize a' / cs * cs) by (apply Nat.mul_le_mono_r; lia). lia. }
  rewrite (shown_raw a xs), (shown_raw a' ys) by (auto; lia). cbn [bind].
  assert (Hr : Forall2 RU (firstn cs (skipn (i * cs) xs)) (firstn cs (skipn (i * cs) ys))) by now apply par_firstn, par_skipn.
  vw.
Qed.
Ltac vw_47 h := lazymatch h with @map_row => eapply vw_map_row | _ => vw_46 h end.
Ltac vw_api h ::= vw_47 h.
Lemma vw_map_expand {S S'} {U U'} {V V'} (RS : S -> S' -> Prop) (RU : U -> U' -> Prop) (RV : V -> V' -> Prop) (c : cfg) (N : nat) (a : tensor U) (a' : (tensor U')) (f : S -> U -> outcome (S * list V)) (f' : (S' -> (U' -> (outcome (S' * (list V')))))) (st : S) (st' : S') :
  (sameR RU) a a' -> (forall x0 x0', RS x0 x0' -> (forall x1 x1', RU x1 x1' -> (outR (prodR RS (Forall2 RV))) ((f x0) x1) ((f' x0') x1'))) -> RS st st' -> (outR (prodR RS (sameR RV))) (map_expand c N a f st) (map_expand c N a' f' st').
Proof. intros; unfold map_expand; vw. Qed.
Ltac vw_48 h := lazymatch h with @map_expand => eapply vw_map_expand | _ => vw_47 h end.
Ltac vw_api h ::= vw_48 h.
Lemma vw_map2 {S S'} {T T'} {U U'} {V V'} (RS : S -> S' -> Prop) (RT : T -> T' -> Prop) (RU : U -> U' -> Prop) (RV : V -> V' -> Prop) (c : cfg) (a : tensor T) (a' : (tensor T')) (b : tensor U) (b' : (tensor U')) (f : S -> T -> U -> outcome (S * V)) (f' : (S' -> (T' -> (U' -> (outcome (S' * V')))))) (st : S) (st' : S') :
  (sameR RT) a a' -> (sameR RU) b b' -> (forall x0 x0', RS x0 x0' -> (forall x1 x1', RT x1 x1' -> (forall x2 x2', RU x2 x2' -> (outR (prodR RS RV)) (((f x0) x1) x2) (((f' x0') x1') x2')))) -> RS st st' -> (outR (prodR RS (sameR RV))) (map2 c a b f st) (map2 c a' b' f' st').
Proof. intros; unfold map2; vw. Qed.
Ltac vw_49 h := lazymatch h with @map2 => eapply vw_map2 | _ => vw_48 h end.
Ltac vw_api h ::= vw_49 h.
Lemma vw_map2_row {V V'} (RV : V -> V' -> Prop)  :
  (outR (sameR RV)) (map2_row ) (map2_row ).
Proof. intros; unfold map2_row; vw. Qed.
Ltac vw_50 h := lazymatch h with @map2_row => eapply vw_map2_row | _ => vw_49 h end.
Ltac vw_api h ::= vw_50 h.
Lemma vw_map2_expand {V V'} (RV : V -> V' -> Prop)  :
  (outR (sameR RV)) (map2_expand ) (map2_expand ).
Proof. intros; unfold map2_expand; vw. Qed.
Ltac vw_51 h := lazymatch h with @map2_expand => eapply vw_map2_expand | _ => vw_50 h end.
Ltac vw_api h ::= vw_51 h.
Lemma vw_map3 {S S'} {T T'} {U U'} {V V'} {W W'} (RS : S -> S' -> Prop) (RT : T -> T' -> Prop) (RU : U -> U' -> Prop) (RV : V -> V' -> Prop) (RW : W -> W' -> Prop) (c : cfg) (ta : tensor T) (ta' : (tensor T')) (tb : tensor U) (tb' : (tensor U')) (tc : tensor V) (tc' : (tensor V')) (f : S -> T -> U -> V -> outcome (S * W)) (f' : (S' -> (T' -> (U' -> (V' -> (outcome (S' * W'))))))) (st : S) (st' : S') :
  (sameR RT) ta ta' -> (sameR RU) tb tb' -> (sameR RV) tc tc' -> (forall x0 x0', RS x0 x0' -> (forall x1 x1', RT x1 x1' -> (forall x2 x2', RU x2 x2' -> (forall x3 x3', RV x3 x3' -> (outR (prodR RS RW)) ((((f x0) x1) x2) x3) ((((f' x0') x1') x2') x3'))))) -> RS st st' -> (outR (prodR RS (sameR RW))) (map3 c ta tb tc f st) (map3 c ta' tb' tc' f' st').
Proof. intros; unfold map3; vw. Qed.
Ltac vw_52 h := lazymatch h with @map3 => eapply vw_map3 | _ => vw_51 h end.
Ltac vw_api h ::= vw_52 h.
Lemma vw_fold_ {S S'} {U U'} {R R'} {V V'} (RS : S -> S' -> Prop) (RU : U -> U' -> Prop) (RR : R -> R' -> Prop) (RV : V -> V' -> Prop) (c : cfg) (t : tensor U) (t' : (tensor U')) (ini : R) (ini' : R') (into : R -> V) (into' : (R' -> V')) (f : S -> R -> U -> outcome (S * R)) (f' : (S' -> (R' -> (U' -> (outcome (S' * R')))))) (st : S) (st' : S') :
  (sameR RU) t t' -> RR ini ini' -> (forall x0 x0', RR x0 x0' -> RV (into x0) (into' x0')) -> (forall x0 x0', RS x0 x0' -> (forall x1 x1', RR x1 x1' -> (forall x2 x2', RU x2 x2' -> (outR (prodR RS RR)) (((f x0) x1) x2) (((f' x0') x1') x2')))) -> RS st st' -> (outR (prodR RS (sameR RV))) (fold_ c t ini into f st) (fold_ c t' ini' into' f' st').
Proof. intros; unfold fold_; vw. Qed.
Ltac vw_53 h := lazymatch h with @fold_ => eapply vw_fold_ | _ => vw_52 h end.
Ltac vw_api h ::= vw_53 h.
Lemma vw_fold_axis {S S'} {T T'} {R R'} {V V'} (RS : S -> S' -> Prop) (RT : T -> T' -> Prop) (RR : R -> R' -> Prop) (RV : V -> V' -> Prop) (c : cfg) (t : tensor T) (t' : (tensor T')) (axis : option Z) (ini : R) (ini' : R') (into : R -> V) (into' : (R' -> V')) (f : S -> R -> T -> outcome (S * R)) (f' : (S' -> (R' -> (T' -> (outcome (S' * R')))))) (st : S) (st' : S') :
  (sameR RT) t t' -> RR ini ini' -> (forall x0 x0', RR x0 x0' -> RV (into x0) (into' x0')) -> (forall x0 x0', RS x0 x0' -> (forall x1 x1', RR x1 x1' -> (forall x2 x2', RT x2 x2' -> (outR (prodR RS RR)) (((f x0) x1) x2) (((f' x0') x1') x2')))) -> RS st st' -> (outR (prodR RS (sameR RV))) (fold_axis c t axis ini into f st) (fold_axis c t' axis ini' into' f' st').
Proof. intros; unfold fold_axis; vw. Qed.
Ltac vw_54 h := lazymatch h with @fold_axis => eapply vw_fold_axis | _ => vw_53 h end.
Ltac vw_api h ::= vw_54 h.
Lemma vw_reduce {S S'} {T T'} (RS : S -> S' -> Prop) (RT : T -> T' -> Prop) (c : cfg) (t : tensor T) (t' : (tensor T')) (f : S -> T -> T -> outcome (S * T)) (f' : (S' -> (T' -> (T' -> (outcome (S' * T')))))) (st : S) (st' : S') :
  (sameR RT) t t' -> (forall x0 x0', RS x0 x0' -> (forall x1 x1', RT x1 x1' -> (forall x2 x2', RT x2 x2' -> (outR (prodR RS RT)) (((f x0) x1) x2) (((f' x0') x1') x2')))) -> RS st st' -> (outR (prodR RS (sameR RT))) (reduce c t f st) (reduce c t' f' st').
Proof. intros; unfold reduce; vw. Qed.
Ltac vw_55 h := lazymatch h with @reduce => eapply vw_reduce | _ => vw_54 h end.
Ltac vw_api h ::= vw_55 h.
Lemma vw_reduce_axis {S S'} {T T'} (RS : S -> S' -> Prop) (RT : T -> T' -> Prop) (c : cfg) (t : tensor T) (t' : (tensor T')) (axis : option Z) (f : S -> T -> T -> outcome (S * T)) (f' : (S' -> (T' -> (T' -> (outcome (S' * T')))))) (st : S) (st' : S') :
  (sameR RT) t t' -> (forall x0 x0', RS x0 x0' -> (forall x1 x1', RT x1 x1' -> (forall x2 x2', RT x2 x2' -> (outR (prodR RS RT)) (((f x0) x1) x2) (((f' x0') x1') x2')))) -> RS st st' -> (outR (prodR RS (sameR RT))) (reduce_axis c t axis f st) (reduce_axis c t' axis f' st').
Proof. intros; unfold reduce_axis; vw. Qed.
Ltac vw_56 h := lazymatch h with @reduce_axis => eapply vw_reduce_axis | _ => vw_55 h end.
Ltac vw_api h ::= vw_56 h.
Lemma vw_normalize {S S'} {T T'} {R R'} {R1 R1'} {V V'} (RS : S -> S' -> Prop) (RT : T -> T' -> Prop) (RR : R -> R' -> Prop) (RR1 : R1 -> R1' -> Prop) (RV : V -> V' -> Prop) (c : cfg) (t : tensor T) (t' : (tensor T')) (axis : option Z) (ini : R) (ini' : R') (accum : S -> R -> T -> outcome (S * R)) (accum' : (S' -> (R' -> (T' -> (outcome (S' * R')))))) (complete : S -> R -> outcome (S * R1)) (complete' : (S' -> (R' -> (outcome (S' * R1'))))) (norm : S -> R1 -> T -> outcome (S * V)) (norm' : (S' -> (R1' -> (T' -> (outcome (S' * V')))))) (st : S) (st' : S') :
  (sameR RT) t t' -> RR ini ini' -> (forall x0 x0', RS x0 x0' -> (forall x1 x1', RR x1 x1' -> (forall x2 x2', RT x2 x2' -> (outR (prodR RS RR)) (((accum x0) x1) x2) (((accum' x0') x1') x2')))) -> (forall x0 x0', RS x0 x0' -> (forall x1 x1', RR x1 x1' -> (outR (prodR RS RR1)) ((complete x0) x1) ((complete' x0') x1'))) -> (forall x0 x0', RS x0 x0' -> (forall x1 x1', RR1 x1 x1' -> (forall x2 x2', RT x2 x2' -> (outR (prodR RS RV)) (((norm x0) x1) x2) (((norm' x0') x1') x2')))) -> RS st st' -> (outR (prodR RS (sameR RV))) (normalize c t axis ini accum complete norm st) (normalize c t' axis ini' accum' complete' norm' st').
Proof. intros; unfold normalize; vw. Qed.
Ltac vw_57 h := lazymatch h with @normalize => eapply vw_normalize | _ => vw_56 h end.
Ltac vw_api h ::= vw_57 h.
Lemma vw_transpose {A A'} (RA : A -> A' -> Prop) (c : cfg) (t : tensor A) (t' : (tensor A')) :
  (sameR RA) t t' -> (outR (sameR RA)) (transpose c t) (transpose c t').
Proof. intros; unfold transpose; vw. Qed.
Ltac vw_58 h := lazymatch h with @transpose => eapply vw_transpose | _ => vw_57 h end.
Ltac vw_api h ::= vw_58 h.
Lemma vw_split_piece {A A'} (RA : A -> A' -> Prop) (c : cfg) (t : tensor A) (t' : (tensor A')) (axis : nat) (n_outer : nat) (n_inner : nat) (axis_len : nat) (x : list A) (x' : (list A')) (prev : nat) (cut : nat) :
  (sameR RA) t t' -> (Forall2 RA) x x' -> (outR (sameR RA)) (split_piece c t axis n_outer n_inner axis_len x prev cut) (split_piece c t' axis n_outer n_inner axis_len x' prev cut).
Proof. intros; unfold split_piece; vw. Qed.
Ltac vw_59 h := lazymatch h with @split_piece => eapply vw_split_piece | _ => vw_58 h end.
Ltac vw_api h ::= vw_59 h.
Lemma vw_split_by_axis {A A'} (RA : A -> A' -> Prop) (c : cfg) (t : tensor A) (t' : (tensor A')) (axis : nat) (cuts : list nat) :
  (sameR RA) t t' -> (outR (Forall2 (sameR RA))) (split_by_axis c t axis cuts) (split_by_axis c t' axis cuts).
Proof. intros; unfold split_by_axis; vw. Qed.
Ltac vw_60 h := lazymatch h with @split_by_axis => eapply vw_split_by_axis | _ => vw_59 h end.
Ltac vw_api h ::= vw_60 h.
Lemma vw_cut_rows {A A'} (RA : A -> A' -> Prop) (c : cfg) (t : tensor A) (t' : (tensor A')) (cuts : list nat) :
  (sameR RA) t t' -> (outR (Forall2 (sameR RA))) (cut_rows c t cuts) (cut_rows c t' cuts).
Proof. intros; unfold cut_rows; vw. Qed.
Ltac vw_61 h := lazymatch h with @cut_rows => eapply vw_cut_rows | _ => vw_60 h end.
Ltac vw_api h ::= vw_61 h.
Lemma vw_split_axis {A A'} (RA : A -> A' -> Prop) (c : cfg) (axis : option Z) (t : tensor A) (t' : (tensor A')) (s : sections) :
  (sameR RA) t t' -> (outR (Forall2 (sameR RA))) (split_axis c axis t s) (split_axis c axis t' s).
Proof. intros; unfold split_axis; vw. Qed.
Ltac vw_62 h := lazymatch h with @split_axis => eapply vw_split_axis | _ => vw_61 h end.
Ltac vw_api h ::= vw_62 h.
Lemma vw_split {A A'} (RA : A -> A' -> Prop) (c : cfg) (t : tensor A) (t' : (tensor A')) (s : sections) :
  (sameR RA) t t' -> (outR (Forall2 (sameR RA))) (split c t s) (split c t' s).
Proof. intros; unfold split; vw. Qed.
Ltac vw_63 h := lazymatch h with @split => eapply vw_split | _ => vw_62 h end.
Ltac vw_api h ::= vw_63 h.
Lemma vw_vsplit {A A'} (RA : A -> A' -> Prop) (c : cfg) (t : tensor A) (t' : (tensor A')) (s : sections) :
  (sameR RA) t t' -> (outR (Forall2 (sameR RA))) (vsplit c t s) (vsplit c t' s).
Proof. intros; unfold vsplit; vw. Qed.
Ltac vw_64 h := lazymatch h with @vsplit => eapply vw_vsplit | _ => vw_63 h end.
Ltac vw_api h ::= vw_64 h.
Lemma vw_hsplit {A A'} (RA : A -> A' -> Prop) (c : cfg) (t : tensor A) (t' : (tensor A')) (s : sections) :
  (sameR RA) t t' -> (outR (Forall2 (sameR RA))) (hsplit c t s) (hsplit c t' s).
Proof. intros; unfold hsplit; vw. Qed.
Ltac vw_65 h := lazymatch h with @hsplit => eapply vw_hsplit | _ => vw_64 h end.
Ltac vw_api h ::= vw_65 h.
Lemma vw_dsplit {A A'} (RA : A -> A' -> Prop) (c : cfg) (t : tensor A) (t' : (tensor A')) (s : sections) :
  (sameR RA) t t' -> (outR (Forall2 (sameR RA))) (dsplit c t s) (dsplit c t' s).
Proof. intros; unfold dsplit; vw. Qed.
Ltac vw_66 h := lazymatch h with @dsplit => eapply vw_dsplit | _ => vw_65 h end.
Ltac vw_api h ::= vw_66 h.
Lemma vw_validate_concat {A A'} (RA : A -> A' -> Prop) (c : cfg) (args : list (tensor A)) (args' : (list (tensor A'))) (axis : nat) :
  (Forall2 (sameR RA)) args args' -> (outR eq) (validate_concat c args axis) (validate_concat c args' axis).
Proof. intros; unfold validate_concat; vw. Qed.
Ltac vw_67 h := lazymatch h with @validate_concat => eapply vw_validate_concat | _ => vw_66 h end.
Ltac vw_api h ::= vw_67 h.
Lemma vw_concat_axis {A A'} (RA : A -> A' -> Prop) (c : cfg) (axis : nat) (args : list (tensor A)) (args' : (list (tensor A'))) :
  (Forall2 (sameR RA)) args args' -> (outR (sameR RA)) (concat_axis c axis args) (concat_axis c axis args').
Proof. intros; unfold concat_axis; vw. Qed.
Ltac vw_68 h := lazymatch h with @concat_axis => eapply vw_concat_axis | _ => vw_67 h end.
Ltac vw_api h ::= vw_68 h.
Lemma vw_concatenate {A A'} (RA : A -> A' -> Prop) (c : cfg) (args : list (tensor A)) (args' : (list (tensor A'))) :
  (Forall2 (sameR RA)) args args' -> (outR (sameR RA)) (concatenate c args) (concatenate c args').
Proof. intros; unfold concatenate; vw. Qed.
Ltac vw_69 h := lazymatch h with @concatenate => eapply vw_concatenate | _ => vw_68 h end.
Ltac vw_api h ::= vw_69 h.
Lemma vw_concatenate_axis {A A'} (RA : A -> A' -> Prop) (c : cfg) (axis : option Z) (args : list (tensor A)) (args' : (list (tensor A'))) :
  (Forall2 (sameR RA)) args args' -> (outR (sameR RA)) (concatenate_axis c axis args) (concatenate_axis c axis args').
Proof. intros; unfold concatenate_axis; vw. Qed.
Ltac vw_70 h := lazymatch h with @concatenate_axis => eapply vw_concatenate_axis | _ => vw_69 h end.
Ltac vw_api h ::= vw_70 h.
Lemma vw_stack_vec {A A'} (RA : A -> A' -> Prop) (c : cfg) (axis : option Z) (x : list (tensor A)) (x' : (list (tensor A'))) :
  (Forall2 (sameR RA)) x x' -> (outR (sameR RA)) (stack_vec c axis x) (stack_vec c axis x').
Proof. intros; unfold stack_vec; vw. Qed.
Ltac vw_71 h := lazymatch h with @stack_vec => eapply vw_stack_vec | _ => vw_70 h end.
Ltac vw_api h ::= vw_71 h.
Lemma vw_stack {A A'} (RA : A -> A' -> Prop) (c : cfg) (x : list (tensor A)) (x' : (list (tensor A'))) :
  (Forall2 (sameR RA)) x x' -> (outR (sameR RA)) (stack c x) (stack c x').
Proof. intros; unfold stack; vw. Qed.
Ltac vw_72 h := lazymatch h with @stack => eapply vw_stack | _ => vw_71 h end.
Ltac vw_api h ::= vw_72 h.
Lemma vw_stack_axis {A A'} (RA : A -> A' -> Prop) (c : cfg) (axis : option Z) (x : list (tensor A)) (x' : (list (tensor A'))) :
  (Forall2 (sameR RA)) x x' -> (outR (sameR RA)) (stack_axis c axis x) (stack_axis c axis x').
Proof. intros; unfold stack_axis; vw. Qed.
Ltac vw_73 h := lazymatch h with @stack_axis => eapply vw_stack_axis | _ => vw_72 h end.
Ltac vw_api h ::= vw_73 h.
Lemma vw_dstack {A A'} (RA : A -> A' -> Prop) (c : cfg) (x : list (tensor A)) (x' : (list (tensor A'))) :
  (Forall2 (sameR RA)) x x' -> (outR (sameR RA)) (dstack c x) (dstack c x').
Proof. intros; unfold dstack; vw. Qed.
Ltac vw_74 h := lazymatch h with @dstack => eapply vw_dstack | _ => vw_73 h end.
Ltac vw_api h ::= vw_74 h.
Lemma vw_hstack {A A'} (RA : A -> A' -> Prop) (c : cfg) (x : list (tensor A)) (x' : (list (tensor A'))) :
  (Forall2 (sameR RA)) x x' -> (outR (sameR RA)) (hstack c x) (hstack c x').
Proof. intros; unfold hstack; vw. Qed.
Ltac vw_75 h := lazymatch h with @hstack => eapply vw_hstack | _ => vw_74 h end.
Ltac vw_api h ::= vw_75 h.
Lemma vw_vstack {A A'} (RA : A -> A' -> Prop) (c : cfg) (x : list (tensor A)) (x' : (list (tensor A'))) :
  (Forall2 (sameR RA)) x x' -> (outR (sameR RA)) (vstack c x) (vstack c x').
Proof. intros; unfold vstack; vw. Qed.
Ltac vw_76 h := lazymatch h with @vstack => eapply vw_vstack | _ => vw_75 h end.
Ltac vw_api h ::= vw_76 h.
Lemma vw_unstack {A A'} (RA : A -> A' -> Prop) (c : cfg) (axis : option Z) (t : tensor A) (t' : (tensor A')) :
  (sameR RA) t t' -> (outR (Forall2 (sameR RA))) (unstack c axis t) (unstack c axis t').
Proof. intros; unfold unstack; vw. Qed.
Ltac vw_77 h := lazymatch h with @unstack => eapply vw_unstack | _ => vw_76 h end.
Ltac vw_api h ::= vw_77 h.
Ltac vw_78 h := lazymatch h with @tile_rec => eapply par_tile_rec | _ => vw_77 h end.
Ltac vw_api h ::= vw_78 h.
Lemma vw_tile {A A'} (RA : A -> A' -> Prop) (c : cfg) (t : tensor A) (t' : (tensor A')) (multiples : tensor nat) :
  (sameR RA) t t' -> (outR (sameR RA)) (tile c t multiples) (tile c t' multiples).
Proof. intros; unfold tile; vw. Qed.
Ltac vw_79 h := lazymatch h with @tile => eapply vw_tile | _ => vw_78 h end.
Ltac vw_api h ::= vw_79 h.
Lemma vw_unop {T T'} {V V'} (RT : T -> T' -> Prop) (RV : V -> V' -> Prop) (c : cfg) (t : tensor T) (t' : (tensor T')) (op : T -> outcome V) (op' : (T' -> (outcome V'))) :
  (sameR RT) t t' -> (forall x0 x0', RT x0 x0' -> (outR RV) (op x0) (op' x0')) -> (outR (sameR RV)) (unop c t op) (unop c t' op').
Proof. intros; unfold unop; vw. Qed.
Ltac vw_80 h := lazymatch h with @unop => eapply vw_unop | _ => vw_79 h end.
Ltac vw_api h ::= vw_80 h.
Lemma vw_binop_tt {T T'} {U U'} {V V'} (RT : T -> T' -> Prop) (RU : U -> U' -> Prop) (RV : V -> V' -> Prop) (c : cfg) (a : tensor T) (a' : (tensor T')) (b : tensor U) (b' : (tensor U')) (op : T -> U -> outcome V) (op' : (T' -> (U' -> (outcome V')))) :
  (sameR RT) a a' -> (sameR RU) b b' -> (forall x0 x0', RT x0 x0' -> (forall x1 x1', RU x1 x1' -> (outR RV) ((op x0) x1) ((op' x0') x1'))) -> (outR (sameR RV)) (binop_tt c a b op) (binop_tt c a' b' op').
Proof. intros; unfold binop_tt; vw. Qed.
Ltac vw_81 h := lazymatch h with @binop_tt => eapply vw_binop_tt | _ => vw_80 h end.
Ltac vw_api h ::= vw_81 h.
Lemma vw_binop_ts {T T'} {U U'} {V V'} (RT : T -> T' -> Prop) (RU : U -> U' -> Prop) (RV : V -> V' -> Prop) (c : cfg) (t : tensor T) (t' : (tensor T')) (y : U) (y' : U') (op : T -> U -> outcome V) (op' : (T' -> (U' -> (outcome V')))) :
  (sameR RT) t t' -> RU y y' -> (forall x0 x0', RT x0 x0' -> (forall x1 x1', RU x1 x1' -> (outR RV) ((op x0) x1) ((op' x0') x1'))) -> (outR (sameR RV)) (binop_ts c t y op) (binop_ts c t' y' op').
Proof. intros; unfold binop_ts; vw. Qed.
Ltac vw_82 h := lazymatch h with @binop_ts => eapply vw_binop_ts | _ => vw_81 h end.
Ltac vw_api h ::= vw_82 h.
Lemma vw_binop_st {T T'} {U U'} {V V'} (RT : T -> T' -> Prop) (RU : U -> U' -> Prop) (RV : V -> V' -> Prop) (c : cfg) (x : T) (x' : T') (t : tensor U) (t' : (tensor U')) (op : T -> U -> outcome V) (op' : (T' -> (U' -> (outcome V')))) :
  RT x x' -> (sameR RU) t t' -> (forall x0 x0', RT x0 x0' -> (forall x1 x1', RU x1 x1' -> (outR RV) ((op x0) x1) ((op' x0') x1'))) -> (outR (sameR RV)) (binop_st c x t op) (binop_st c x' t' op').
Proof. intros; unfold binop_st; vw. Qed.
Ltac vw_83 h := lazymatch h with @binop_st => eapply vw_binop_st | _ => vw_82 h end.
Ltac vw_api h ::= vw_83 h.
Ltac vw_84 h := lazymatch h with @list_partial_cmp => eapply par_list_partial_cmp | _ => vw_83 h end.
Ltac vw_api h ::= vw_84 h.
Lemma vw_tensor_partial_cmp {A A'} (RA : A -> A' -> Prop) (cmp : A -> A -> option comparison) (cmp' : (A' -> (A' -> (option comparison)))) (t : tensor A) (t' : (tensor A')) (u : tensor A) (u' : (tensor A')) :
  (forall x0 x0', RA x0 x0' -> (forall x1 x1', RA x1 x1' -> eq ((cmp x0) x1) ((cmp' x0') x1'))) -> (sameR RA) t t' -> (sameR RA) u u' -> (outR eq) (tensor_partial_cmp cmp t u) (tensor_partial_cmp cmp' t' u').
Proof. intros; unfold tensor_partial_cmp; vw. Qed.
Ltac vw_85 h := lazymatch h with @tensor_partial_cmp => eapply vw_tensor_partial_cmp | _ => vw_84 h end.
Ltac vw_api h ::= vw_85 h.
Lemma vw_of_vec_rows {A A'} (RA : A -> A' -> Prop) (c : cfg) (n : nat) (v : list (list (list A))) (v' : (list (list (list A')))) :
  (Forall2 (Forall2 (Forall2 RA))) v v' -> (outR (sameR RA)) (of_vec_rows c n v) (of_vec_rows c n v').
Proof. intros; unfold of_vec_rows; vw. Qed.
Ltac vw_86 h := lazymatch h with @of_vec_rows => eapply vw_of_vec_rows | _ => vw_85 h end.
Ltac vw_api h ::= vw_86 h.
Lemma vw_of_vec5 {A A'} (RA : A -> A' -> Prop) (c : cfg) (v : list (list (list (list (list A))))) (v' : (list (list (list (list (list A')))))) :
  (Forall2 (Forall2 (Forall2 (Forall2 (Forall2 RA))))) v v' -> (outR (sameR RA)) (of_vec5 c v) (of_vec5 c v').
Proof. intros; unfold of_vec5; vw. Qed.
Ltac vw_87 h := lazymatch h with @of_vec5 => eapply vw_of_vec5 | _ => vw_86 h end.
Ltac vw_api h ::= vw_87 h.
Lemma vw_of_rows3 {A A'} (RA : A -> A' -> Prop) (c : cfg) (l : nat) (m : nat) (n : nat) (v : list (list (list (list A)))) (v' : (list (list (list (list A'))))) :
  (Forall2 (Forall2 (Forall2 (Forall2 RA)))) v v' -> (outR (sameR RA)) (of_rows3 c l m n v) (of_rows3 c l m n v').
Proof. intros; unfold of_rows3; vw. Qed.
Ltac vw_88 h := lazymatch h with @of_rows3 => eapply vw_of_rows3 | _ => vw_87 h end.
Ltac vw_api h ::= vw_88 h.
Lemma vw_of_str {A A'} (RA : A -> A' -> Prop) (c : cfg) (text : A) (text' : A') :
  RA text text' -> (outR (sameR RA)) (of_str c text) (of_str c text').
Proof. intros; unfold of_str; vw. Qed.
Ltac vw_89 h := lazymatch h with @of_str => eapply vw_of_str | _ => vw_88 h end.
Ltac vw_api h ::= vw_89 h.
Lemma vw_of_tensor_vec {A A'} (RA : A -> A' -> Prop) (c : cfg) (ts : list (tensor A)) (ts' : (list (tensor A'))) :
  (Forall2 (sameR RA)) ts ts' -> (outR (sameR RA)) (of_tensor_vec c ts) (of_tensor_vec c ts').
Proof. intros; unfold of_tensor_vec; vw. Qed.
Ltac vw_90 h := lazymatch h with @of_tensor_vec => eapply vw_of_tensor_vec | _ => vw_89 h end.
Ltac vw_api h ::= vw_90 h.
Lemma vw_into_list {A A'} (RA : A -> A' -> Prop) (c : cfg) (x : tensor_list A) (x' : (tensor_list A')) (vec : list (tensor A)) (vec' : (list (tensor A'))) :
  (slR RA) x x' -> (Forall2 (sameR RA)) vec vec' -> (outR (Forall2 (sameR RA))) (into_list c x vec) (into_list c x' vec').
Proof. intros; unfold into_list; vw. Qed.
Ltac vw_91 h := lazymatch h with @into_list => eapply vw_into_list | _ => vw_90 h end.
Ltac vw_api h ::= vw_91 h.
Lemma vw_concatenate_args {A A'} (RA : A -> A' -> Prop) (c : cfg) (x : tensor_list A) (x' : (tensor_list A')) :
  (slR RA) x x' -> (outR (sameR RA)) (concatenate_args c x) (concatenate_args c x').
Proof. intros; unfold concatenate_args; vw. Qed.
Ltac vw_92 h := lazymatch h with @concatenate_args => eapply vw_concatenate_args | _ => vw_91 h end.
Ltac vw_api h ::= vw_92 h.
Lemma vw_concatenate_axis_args {A A'} (RA : A -> A' -> Prop) (c : cfg) (axis : option Z) (x : tensor_list A) (x' : (tensor_list A')) :
  (slR RA) x x' -> (outR (sameR RA)) (concatenate_axis_args c axis x) (concatenate_axis_args c axis x').
Proof. intros; unfold concatenate_axis_args; vw. Qed.
Ltac vw_93 h := lazymatch h with @concatenate_axis_args => eapply vw_concatenate_axis_args | _ => vw_92 h end.
Ltac vw_api h ::= vw_93 h.
Lemma vw_stack_args {A A'} (RA : A -> A' -> Prop) (c : cfg) (x : tensor_list A) (x' : (tensor_list A')) :
  (slR RA) x x' -> (outR (sameR RA)) (stack_args c x) (stack_args c x').
Proof. intros; unfold stack_args; vw. Qed.
Ltac vw_94 h := lazymatch h with @stack_args => eapply vw_stack_args | _ => vw_93 h end.
Ltac vw_api h ::= vw_94 h.
Lemma vw_stack_axis_args {A A'} (RA : A -> A' -> Prop) (c : cfg) (axis : option Z) (x : tensor_list A) (x' : (tensor_list A')) :
  (slR RA) x x' -> (outR (sameR RA)) (stack_axis_args c axis x) (stack_axis_args c axis x').
Proof. intros; unfold stack_axis_args; vw. Qed.
Ltac vw_95 h := lazymatch h with @stack_axis_args => eapply vw_stack_axis_args | _ => vw_94 h end.
Ltac vw_api h ::= vw_95 h.
Lemma vw_dstack_args {A A'} (RA : A -> A' -> Prop) (c : cfg) (x : tensor_list A) (x' : (tensor_list A')) :
  (slR RA) x x' -> (outR (sameR RA)) (dstack_args c x) (dstack_args c x').
Proof. intros; unfold dstack_args; vw. Qed.
Ltac vw_96 h := lazymatch h with @dstack_args => eapply vw_dstack_args | _ => vw_95 h end.
Ltac vw_api h ::= vw_96 h.
Lemma vw_hstack_args {A A'} (RA : A -> A' -> Prop) (c : cfg) (x : tensor_list A) (x' : (tensor_list A')) :
  (slR RA) x x' -> (outR (sameR RA)) (hstack_args c x) (hstack_args c x').
Proof. intros; unfold hstack_args; vw. Qed.
Ltac vw_97 h := lazymatch h with @hstack_args => eapply vw_hstack_args | _ => vw_96 h end.
Ltac vw_api h ::= vw_97 h.
Lemma vw_vstack_args {A A'} (RA : A -> A' -> Prop) (c : cfg) (x : tensor_list A) (x' : (tensor_list A')) :
  (slR RA) x x' -> (outR (sameR RA)) (vstack_args c x) (vstack_args c x').
Proof. intros; unfold vstack_args; vw. Qed.
Ltac vw_98 h := lazymatch h with @vstack_args => eapply vw_vstack_args | _ => vw_97 h end.
Ltac vw_api h ::= vw_98 h.
Lemma vw_m_concatenate {A A'} (RA : A -> A' -> Prop) (c : cfg) (t : tensor A) (t' : (tensor A')) (others : tensor_list A) (others' : (tensor_list A')) :
  (sameR RA) t t' -> (slR RA) others others' -> (outR (sameR RA)) (m_concatenate c t others) (m_concatenate c t' others').
Proof. intros; unfold m_concatenate; vw. Qed.
Ltac vw_99 h := lazymatch h with @m_concatenate => eapply vw_m_concatenate | _ => vw_98 h end.
Ltac vw_api h ::= vw_99 h.
Lemma vw_m_concatenate_axis {A A'} (RA : A -> A' -> Prop) (c : cfg) (t : tensor A) (t' : (tensor A')) (axis : option Z) (others : tensor_list A) (others' : (tensor_list A')) :
  (sameR RA) t t' -> (slR RA) others others' -> (outR (sameR RA)) (m_concatenate_axis c t axis others) (m_concatenate_axis c t' axis others').
Proof. intros; unfold m_concatenate_axis; vw. Qed.
Ltac vw_100 h := lazymatch h with @m_concatenate_axis => eapply vw_m_concatenate_axis | _ => vw_99 h end.
Ltac vw_api h ::= vw_100 h.
Lemma vw_m_stack {A A'} (RA : A -> A' -> Prop) (c : cfg) (t : tensor A) (t' : (tensor A')) (others : tensor_list A) (others' : (tensor_list A')) (axis : option Z) :
  (sameR RA) t t' -> (slR RA) others others' -> (outR (sameR RA)) (m_stack c t others axis) (m_stack c t' others' axis).
Proof. intros; unfold m_stack; vw. Qed.
Ltac vw_101 h := lazymatch h with @m_stack => eapply vw_m_stack | _ => vw_100 h end.
Ltac vw_api h ::= vw_101 h.
Lemma vw_m_dstack {A A'} (RA : A -> A' -> Prop) (c : cfg) (t : tensor A) (t' : (tensor A')) (others : tensor_list A) (others' : (tensor_list A')) :
  (sameR RA) t t' -> (slR RA) others others' -> (outR (sameR RA)) (m_dstack c t others) (m_dstack c t' others').
Proof. intros; unfold m_dstack; vw. Qed.
Ltac vw_102 h := lazymatch h with @m_dstack => eapply vw_m_dstack | _ => vw_101 h end.
Ltac vw_api h ::= vw_102 h.
Lemma vw_m_vstack {A A'} (RA : A -> A' -> Prop) (c : cfg) (t : tensor A) (t' : (tensor A')) (others : tensor_list A) (others' : (tensor_list A')) :
  (sameR RA) t t' -> (slR RA) others others' -> (outR (sameR RA)) (m_vstack c t others) (m_vstack c t' others').
Proof. intros; unfold m_vstack; vw. Qed.
Ltac vw_103 h := lazymatch h with @m_vstack => eapply vw_m_vstack | _ => vw_102 h end.
Ltac vw_api h ::= vw_103 h.
Lemma vw_eye {T T'} (RT : T -> T' -> Prop) (c : cfg) (zero : T) (zero' : T') (one : T) (one' : T') (n : nat) :
  RT zero zero' -> RT one one' -> (outR (sameR RT)) (eye c zero one n) (eye c zero' one' n).
Proof. intros; unfold eye; vw. Qed.
Ltac vw_104 h := lazymatch h with @eye => eapply vw_eye | _ => vw_103 h end.
Ltac vw_api h ::= vw_104 h.
Lemma vw_diagflat {T T'} (RT : T -> T' -> Prop) (c : cfg) (zero : T) (zero' : T') (diag : tensor T) (diag' : (tensor T')) :
  RT zero zero' -> (sameR RT) diag diag' -> (outR (sameR RT)) (diagflat c zero diag) (diagflat c zero' diag').
Proof. intros; unfold diagflat; vw. Qed.
Ltac vw_105 h := lazymatch h with @diagflat => eapply vw_diagflat | _ => vw_104 h end.
Ltac vw_api h ::= vw_105 h.
Lemma vw_tri {T T'} (RT : T -> T' -> Prop) (c : cfg) (zero : T) (zero' : T') (one : T) (one' : T') (n : nat) :
  RT zero zero' -> RT one one' -> (outR (sameR RT)) (tri c zero one n) (tri c zero' one' n).
Proof. intros; unfold tri; vw. Qed.
Ltac vw_106 h := lazymatch h with @tri => eapply vw_tri | _ => vw_105 h end.
Ltac vw_api h ::= vw_106 h.
Lemma vw_tri_mask {T T'} (RT : T -> T' -> Prop) (c : cfg) (keep : nat -> nat -> bool) (zero : T) (zero' : T') (t : tensor T) (t' : (tensor T')) :
  RT zero zero' -> (sameR RT) t t' -> (outR (sameR RT)) (tri_mask c keep zero t) (tri_mask c keep zero' t').
Proof. intros; unfold tri_mask; vw. Qed.
Ltac vw_107 h := lazymatch h with @tri_mask => eapply vw_tri_mask | _ => vw_106 h end.
Ltac vw_api h ::= vw_107 h.
Lemma vw_tril {T T'} (RT : T -> T' -> Prop) (c : cfg) (zero : T) (zero' : T') (t : tensor T) (t' : (tensor T')) :
  RT zero zero' -> (sameR RT) t t' -> (outR (sameR RT)) (tril c zero t) (tril c zero' t').
Proof. intros; unfold tril; vw. Qed.
Ltac vw_108 h := lazymatch h with @tril => eapply vw_tril | _ => vw_107 h end.
Ltac vw_api h ::= vw_108 h.
Lemma vw_triu {T T'} (RT : T -> T' -> Prop) (c : cfg) (zero : T) (zero' : T') (t : tensor T) (t' : (tensor T')) :
  RT zero zero' -> (sameR RT) t t' -> (outR (sameR RT)) (triu c zero t) (triu c zero' t').
Proof. intros; unfold triu; vw. Qed.
Ltac vw_109 h := lazymatch h with @triu => eapply vw_triu | _ => vw_108 h end.
Ltac vw_api h ::= vw_109 h.
Lemma vw_build_meshgrid_axis {T T'} (RT : T -> T' -> Prop) (c : cfg) (x : tensor T) (x' : (tensor T')) (s : shape) (k_s : nat) :
  (sameR RT) x x' -> (outR (sameR RT)) (build_meshgrid_axis c x s k_s) (build_meshgrid_axis c x' s k_s).
Proof. intros; unfold build_meshgrid_axis; vw. Qed.
Ltac vw_110 h := lazymatch h with @build_meshgrid_axis => eapply vw_build_meshgrid_axis | _ => vw_109 h end.
Ltac vw_api h ::= vw_110 h.
Lemma vw_build_meshgrid {T T'} (RT : T -> T' -> Prop) (c : cfg) (axes : list (tensor T)) (axes' : (list (tensor T'))) (ord : order) :
  (Forall2 (sameR RT)) axes axes' -> (outR (Forall2 (sameR RT))) (build_meshgrid c axes ord) (build_meshgrid c axes' ord).
Proof. intros; unfold build_meshgrid; destruct ord; vw. Qed.
Ltac vw_111 h := lazymatch h with @build_meshgrid => eapply vw_build_meshgrid | _ => vw_110 h end.
Ltac vw_api h ::= vw_111 h.
Lemma vw_meshgrid {T T'} (RT : T -> T' -> Prop) (c : cfg) (axes : list (tensor T)) (axes' : (list (tensor T'))) :
  (Forall2 (sameR RT)) axes axes' -> (outR (Forall2 (sameR RT))) (meshgrid c axes) (meshgrid c axes').
Proof. intros; unfold meshgrid; vw. Qed.
Ltac vw_112 h := lazymatch h with @meshgrid => eapply vw_meshgrid | _ => vw_111 h end.
Ltac vw_api h ::= vw_112 h.
Lemma vw_meshgrid_ij {T T'} (RT : T -> T' -> Prop) (c : cfg) (axes : list (tensor T)) (axes' : (list (tensor T'))) :
  (Forall2 (sameR RT)) axes axes' -> (outR (Forall2 (sameR RT))) (meshgrid_ij c axes) (meshgrid_ij c axes').
Proof. intros; unfold meshgrid_ij; vw. Qed.
Ltac vw_113 h := lazymatch h with @meshgrid_ij => eapply vw_meshgrid_ij | _ => vw_112 h end.
Ltac vw_api h ::= vw_113 h.
Lemma vw_reduce_min {F F'} (RF : F -> F' -> Prop) (o : fops F) (o' : (fops F')) (c : cfg) (t : tensor F) (t' : (tensor F')) :
  (ordR RF) o o' -> (sameR RF) t t' -> (outR (sameR RF)) (reduce_min o c t) (reduce_min o' c t').
Proof. intros; unfold reduce_min; vw. Qed.
Ltac vw_114 h := lazymatch h with @reduce_min => eapply vw_reduce_min | _ => vw_113 h end.
Ltac vw_api h ::= vw_114 h.
Lemma vw_reduce_min_axis {F F'} (RF : F -> F' -> Prop) (o : fops F) (o' : (fops F')) (c : cfg) (t : tensor F) (t' : (tensor F')) (axis : option Z) :
  (ordR RF) o o' -> (sameR RF) t t' -> (outR (sameR RF)) (reduce_min_axis o c t axis) (reduce_min_axis o' c t' axis).
Proof. intros; unfold reduce_min_axis; vw. Qed.
Ltac vw_115 h := lazymatch h with @reduce_min_axis => eapply vw_reduce_min_axis | _ => vw_114 h end.
Ltac vw_api h ::= vw_115 h.
Lemma vw_reduce_max {F F'} (RF : F -> F' -> Prop) (o : fops F) (o' : (fops F')) (c : cfg) (t : tensor F) (t' : (tensor F')) :
  (ordR RF) o o' -> (sameR RF) t t' -> (outR (sameR RF)) (reduce_max o c t) (reduce_max o' c t').
Proof. intros; unfold reduce_max; vw. Qed.
Ltac vw_116 h := lazymatch h with @reduce_max => eapply vw_reduce_max | _ => vw_115 h end.
Ltac vw_api h ::= vw_116 h.
Lemma vw_reduce_max_axis {F F'} (RF : F -> F' -> Prop) (o : fops F) (o' : (fops F')) (c : cfg) (t : tensor F) (t' : (tensor F')) (axis : option Z) :
  (ordR RF) o o' -> (sameR RF) t t' -> (outR (sameR RF)) (reduce_max_axis o c t axis) (reduce_max_axis o' c t' axis).
Proof. intros; unfold reduce_max_axis; vw. Qed.
Ltac vw_117 h := lazymatch h with @reduce_max_axis => eapply vw_reduce_max_axis | _ => vw_116 h end.
Ltac vw_api h ::= vw_117 h.
Lemma vw_reduce_sum {T T'} (RT : T -> T' -> Prop) (c : cfg) (add : T -> T -> outcome T) (add' : (T' -> (T' -> (outcome T')))) (t : tensor T) (t' : (tensor T')) :
  (forall x0 x0', RT x0 x0' -> (forall x1 x1', RT x1 x1' -> (outR RT) ((add x0) x1) ((add' x0') x1'))) -> (sameR RT) t t' -> (outR (sameR RT)) (reduce_sum c add t) (reduce_sum c add' t').
Proof. intros; unfold reduce_sum; vw. Qed.
Ltac vw_118 h := lazymatch h with @reduce_sum => eapply vw_reduce_sum | _ => vw_117 h end.
Ltac vw_api h ::= vw_118 h.
Lemma vw_reduce_sum_axis {T T'} (RT : T -> T' -> Prop) (c : cfg) (add : T -> T -> outcome T) (add' : (T' -> (T' -> (outcome T')))) (t : tensor T) (t' : (tensor T')) (axis : option Z) :
  (forall x0 x0', RT x0 x0' -> (forall x1 x1', RT x1 x1' -> (outR RT) ((add x0) x1) ((add' x0') x1'))) -> (sameR RT) t t' -> (outR (sameR RT)) (reduce_sum_axis c add t axis) (reduce_sum_axis c add' t' axis).
Proof. intros; unfold reduce_sum_axis; vw. Qed.
Ltac vw_119 h := lazymatch h with @reduce_sum_axis => eapply vw_reduce_sum_axis | _ => vw_118 h end.
Ltac vw_api h ::= vw_119 h.
Lemma vw_reduce_product {T T'} (RT : T -> T' -> Prop) (c : cfg) (mul : T -> T -> outcome T) (mul' : (T' -> (T' -> (outcome T')))) (t : tensor T) (t' : (tensor T')) :
  (forall x0 x0', RT x0 x0' -> (forall x1 x1', RT x1 x1' -> (outR RT) ((mul x0) x1) ((mul' x0') x1'))) -> (sameR RT) t t' -> (outR (sameR RT)) (reduce_product c mul t) (reduce_product c mul' t').
Proof. intros; unfold reduce_product; vw. Qed.
Ltac vw_120 h := lazymatch h with @reduce_product => eapply vw_reduce_product | _ => vw_119 h end.
Ltac vw_api h ::= vw_120 h.
Lemma vw_reduce_product_axis {T T'} (RT : T -> T' -> Prop) (c : cfg) (mul : T -> T -> outcome T) (mul' : (T' -> (T' -> (outcome T')))) (t : tensor T) (t' : (tensor T')) (axis : option Z) :
  (forall x0 x0', RT x0 x0' -> (forall x1 x1', RT x1 x1' -> (outR RT) ((mul x0) x1) ((mul' x0') x1'))) -> (sameR RT) t t' -> (outR (sameR RT)) (reduce_product_axis c mul t axis) (reduce_product_axis c mul' t' axis).
Proof. intros; unfold reduce_product_axis; vw. Qed.
Ltac vw_121 h := lazymatch h with @reduce_product_axis => eapply vw_reduce_product_axis | _ => vw_120 h end.
Ltac vw_api h ::= vw_121 h.
Lemma vw_float_map {T T'} {V V'} (RT : T -> T' -> Prop) (RV : V -> V' -> Prop) (c : cfg) (t : tensor T) (t' : (tensor T')) (f : T -> V) (f' : (T' -> V')) :
  (sameR RT) t t' -> (forall x0 x0', RT x0 x0' -> RV (f x0) (f' x0')) -> (outR (sameR RV)) (float_map c t f) (float_map c t' f').
Proof. intros; unfold float_map; vw. Qed.
Ltac vw_122 h := lazymatch h with @float_map => eapply vw_float_map | _ => vw_121 h end.
Ltac vw_api h ::= vw_122 h.
Lemma vw_float_map2 {T T'} {U U'} {V V'} (RT : T -> T' -> Prop) (RU : U -> U' -> Prop) (RV : V -> V' -> Prop) (c : cfg) (a : tensor T) (a' : (tensor T')) (b : tensor U) (b' : (tensor U')) (f : T -> U -> V) (f' : (T' -> (U' -> V'))) :
  (sameR RT) a a' -> (sameR RU) b b' -> (forall x0 x0', RT x0 x0' -> (forall x1 x1', RU x1 x1' -> RV ((f x0) x1) ((f' x0') x1'))) -> (outR (sameR RV)) (float_map2 c a b f) (float_map2 c a' b' f').
Proof. intros; unfold float_map2; vw. Qed.
Ltac vw_123 h := lazymatch h with @float_map2 => eapply vw_float_map2 | _ => vw_122 h end.
Ltac vw_api h ::= vw_123 h.
Lemma vw_float_map3 {T T'} {U U'} {V V'} {W W'} (RT : T -> T' -> Prop) (RU : U -> U' -> Prop) (RV : V -> V' -> Prop) (RW : W -> W' -> Prop) (c : cfg) (ta : tensor T) (ta' : (tensor T')) (tb : tensor U) (tb' : (tensor U')) (tc : tensor V) (tc' : (tensor V')) (f : T -> U -> V -> W) (f' : (T' -> (U' -> (V' -> W')))) :
  (sameR RT) ta ta' -> (sameR RU) tb tb' -> (sameR RV) tc tc' -> (forall x0 x0', RT x0 x0' -> (forall x1 x1', RU x1 x1' -> (forall x2 x2', RV x2 x2' -> RW (((f x0) x1) x2) (((f' x0') x1') x2')))) -> (outR (sameR RW)) (float_map3 c ta tb tc f) (float_map3 c ta' tb' tc' f').
Proof. intros; unfold float_map3; vw. Qed.
Ltac vw_124 h := lazymatch h with @float_map3 => eapply vw_float_map3 | _ => vw_123 h end.
Ltac vw_api h ::= vw_124 h.
Lemma vw_frame {A A'} (RA : A -> A' -> Prop) (c : cfg) (x : tensor A) (x' : (tensor A')) (len : nat) (step : nat) :
  (sameR RA) x x' -> (outR (sameR RA)) (frame c x len step) (frame c x' len step).
Proof. intros; unfold frame; vw. Qed.
Ltac vw_125 h := lazymatch h with @frame => eapply vw_frame | _ => vw_124 h end.
Ltac vw_api h ::= vw_125 h.
Lemma vw_slice_usize {A A'} (RA : A -> A' -> Prop) (c : cfg) (t : tensor A) (t' : (tensor A')) (i : nat) :
  (sameR RA) t t' -> (outR (sameR RA)) (slice_usize c t i) (slice_usize c t' i).
Proof. intros; unfold slice_usize; vw. Qed.
Ltac vw_126 h := lazymatch h with @slice_usize => eapply vw_slice_usize | _ => vw_125 h end.
Ltac vw_api h ::= vw_126 h.
Lemma vw_slice_pair {A A'} (RA : A -> A' -> Prop) (c : cfg) (t : tensor A) (t' : (tensor A')) (i : nat) (j : nat) :
  (sameR RA) t t' -> (outR (sameR RA)) (slice_pair c t i j) (slice_pair c t' i j).
Proof. intros; unfold slice_pair; vw. Qed.
Ltac vw_127 h := lazymatch h with @slice_pair => eapply vw_slice_pair | _ => vw_126 h end.
Ltac vw_api h ::= vw_127 h.
Lemma vw_fill {T T'} (RT : T -> T' -> Prop) (c : cfg) (s : shape) (v : T) (v' : T') :
  RT v v' -> (outR (sameR RT)) (fill c s v) (fill c s v').
Proof. intros; unfold fill; vw. Qed.
Ltac vw_128 h := lazymatch h with @fill => eapply vw_fill | _ => vw_127 h end.
Ltac vw_api h ::= vw_128 h.
Lemma vw_ones {T T'} (RT : T -> T' -> Prop) (c : cfg) (one : T) (one' : T') (s : shape) :
  RT one one' -> (outR (sameR RT)) (ones c one s) (ones c one' s).
Proof. intros; unfold ones; vw. Qed.
Ltac vw_129 h := lazymatch h with @ones => eapply vw_ones | _ => vw_128 h end.
Ltac vw_api h ::= vw_129 h.
Lemma vw_zeros {T T'} (RT : T -> T' -> Prop) (c : cfg) (zero : T) (zero' : T') (s : shape) :
  RT zero zero' -> (outR (sameR RT)) (zeros c zero s) (zeros c zero' s).
Proof. intros; unfold zeros; vw. Qed.
Ltac vw_130 h := lazymatch h with @zeros => eapply vw_zeros | _ => vw_129 h end.
Ltac vw_api h ::= vw_130 h.
Lemma vw_init_default {T T'} (RT : T -> T' -> Prop) (c : cfg) (default : T) (default' : T') (s : shape) :
  RT default default' -> (outR (sameR RT)) (init_default c default s) (init_default c default' s).
Proof. intros; unfold init_default; vw. Qed.
Ltac vw_131 h := lazymatch h with @init_default => eapply vw_init_default | _ => vw_130 h end.
Ltac vw_api h ::= vw_131 h.
Lemma vw_scalar_tensor {T T'} (RT : T -> T' -> Prop) (c : cfg) (v : T) (v' : T') :
  RT v v' -> (outR (sameR RT)) (scalar_tensor c v) (scalar_tensor c v').
Proof. intros; unfold scalar_tensor; vw. Qed.
Ltac vw_132 h := lazymatch h with @scalar_tensor => eapply vw_scalar_tensor | _ => vw_131 h end.
Ltac vw_api h ::= vw_132 h.
Lemma vw_deref {A A'} (RA : A -> A' -> Prop) (t : tensor A) (t' : (tensor A')) :
  (sameR RA) t t' -> (outR (Forall2 RA)) (deref t) (deref t').
Proof. intros; unfold deref; vw. Qed.
Ltac vw_133 h := lazymatch h with @deref => eapply vw_deref | _ => vw_132 h end.
Ltac vw_api h ::= vw_133 h.
Lemma vw_into_iter {A A'} (RA : A -> A' -> Prop) (t : tensor A) (t' : (tensor A')) :
  (sameR RA) t t' -> (outR (Forall2 RA)) (into_iter t) (into_iter t').
Proof. intros; unfold into_iter; vw. Qed.
Ltac vw_134 h := lazymatch h with @into_iter => eapply vw_into_iter | _ => vw_133 h end.
Ltac vw_api h ::= vw_134 h.
Lemma vw_as_ref_slice {A A'} (RA : A -> A' -> Prop) (t : tensor A) (t' : (tensor A')) :
  (sameR RA) t t' -> (outR (Forall2 RA)) (as_ref_slice t) (as_ref_slice t').
Proof. intros; unfold as_ref_slice; vw. Qed.
Ltac vw_135 h := lazymatch h with @as_ref_slice => eapply vw_as_ref_slice | _ => vw_134 h end.
Ltac vw_api h ::= vw_135 h.
