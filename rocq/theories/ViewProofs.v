(** * C78: a view behaves like a copy *)
From Coq Require Import String.
From Verif Require Import Base ShapeModel TensorModel AxisModel MapModel ArrayModel NumModel
  FromModel ArgModel FloatModel InitModel MathModel LinalgModel SignalModel RandomModel IoModel WrapModel FmtModel
  ParamSpec Spec LinalgSpec ViewSpec BaseFacts SplitFacts ParamFacts ViewFacts.
Import TensorModel.

Lemma same_R {A} (t u : tensor A) : same t u -> sameR eq t u.
Proof. intros (H1 & H2 & xs & H3 & H4). split; [exact H1|]. split; [exact H2|]. exists xs, xs. auto using forall2_eq. Qed.
Lemma R_same {A} (t u : tensor A) : sameR eq t u -> same t u.
Proof. intros (H1 & H2 & xs & ys & H3 & H4 & H5). apply forall2_eq_inv in H5. subst. split; [exact H1|]. split; [exact H2|]. eauto. Qed.
Lemma outR_impl {A B} (R Q : A -> B -> Prop) x y : (forall a b, R a b -> Q a b) -> outR R x y -> outR Q x y.
Proof. intros H [a b K| |]; constructor; auto. Qed.
Lemma sames_R {A} (l m : list (tensor A)) : Forall2 same l m -> Forall2 (sameR eq) l m.
Proof. induction 1; constructor; auto using same_R. Qed.
Lemma R_sames {A} (l m : list (tensor A)) : Forall2 (sameR eq) l m -> Forall2 same l m.
Proof. induction 1; constructor; auto using R_same. Qed.
Lemma sameL_R {A} (x y : tensor_list A) : sameL x y -> slR eq x y.
Proof.
  intros [a b H|a|a b H]; constructor.
  - now apply sames_R.
  - induction a; constructor; auto using forall2_eq.
  - induction H; constructor; auto. eapply outR_impl; [|eassumption]. auto using same_R.
Qed.
Lemma out_same {A} (x y : outcome (tensor A)) : outR (sameR eq) x y -> outR same x y.
Proof. apply outR_impl. auto using R_same. Qed.
Lemma out_sames {A} (x y : outcome (list (tensor A))) : outR (Forall2 (sameR eq)) x y -> outR (Forall2 same) x y.
Proof. apply outR_impl. auto using R_sames. Qed.
Lemma out_pair {S A} (x y : outcome (S * tensor A)) : outR (prodR eq (sameR eq)) x y -> outR (prodR eq same) x y.
Proof. apply outR_impl. intros a b [H K]. split; auto using R_same. Qed.
Lemma out_eq {A} (x y : outcome A) : outR eq x y -> x = y.
Proof. intros [a b <-| |]; reflexivity. Qed.
Lemma out_list {A} (x y : outcome (list A)) : outR (Forall2 eq) x y -> x = y.
Proof. intros [a b H| |]; try reflexivity. apply forall2_eq_inv in H. now subst. Qed.
Lemma out_lists {A} (x y : outcome (list (list A))) : outR (Forall2 (Forall2 eq)) x y -> x = y.
Proof.
  intros [a b H| |]; try reflexivity. f_equal. induction H as [|u v ? ? E]; [reflexivity|]. apply forall2_eq_inv in E. congruence.
Qed.

Lemma ring_eq_refl {F} (o : fops F) : ringR eq o o.
Proof. constructor; intros; subst; reflexivity. Qed.
Lemma ord_eq_refl {F} (o : fops F) : ordR eq o o.
Proof. constructor; intros; subst; reflexivity. Qed.

(** Closures are related to themselves. *)
Ltac rf :=
  intros; repeat match goal with H : Forall2 eq _ _ |- _ => apply forall2_eq_inv in H end; subst;
  match goal with
  | |- outR _ ?x ?x => destruct x as [[]| |] || destruct x; constructor; repeat split; try reflexivity; try apply forall2_eq
  | |- _ => first [reflexivity | apply forall2_eq]
  end.
Ltac side := first [assumption | apply same_R; assumption | apply sames_R; assumption | apply sameL_R; assumption
  | apply ord_eq_refl | apply ring_eq_refl | reflexivity | apply forall2_eq | rf].
Ltac sideT := first [apply same_R; assumption | apply sames_R; assumption | apply sameL_R; assumption].
Ltac hv lem :=
  intros;
  first
  [ match goal with |- outR same _ _ => apply out_same | |- outR (Forall2 same) _ _ => apply out_sames | |- outR (prodR eq same) _ _ => apply out_pair end;
    eapply lem; try sideT; side
  | apply out_eq; eapply lem; try sideT; side
  | apply out_list; eapply lem; try sideT; side
  | apply out_lists; eapply lem; try sideT; side ].
(** What depends on the shape and the size only. *)
Ltac hu f := intros; let H1 := fresh in let H2 := fresh in match goal with H : same _ _ |- _ => pose proof H as (H1 & H2 & _) end; unfold f; first [now rewrite ?H1, ?H2 | assumption].

Ltac fold_like :=
  apply out_same; apply (par_bind (prodR eq (sameR eq))); [|intros [u r] [u' r'] [_ K]; now constructor].

Section Numbers.
Context {F : Type} (o : fops F) (c : cfg).
Lemma hv_reduce_hypot t t' : same t t' -> outR same (reduce_hypot o c t) (reduce_hypot o c t').
Proof. intros H. fold_like. eapply vw_fold_; side. Qed.
Lemma hv_reduce_mean t t' : same t t' -> outR same (reduce_mean o c t) (reduce_mean o c t').
Proof. intros H. fold_like. eapply vw_fold_; side. Qed.
Lemma hv_reduce_mean_axis t t' axis : same t t' -> outR same (reduce_mean_axis o c t axis) (reduce_mean_axis o c t' axis).
Proof. intros H. fold_like. eapply vw_fold_axis; side. Qed.
Lemma hv_reduce_std t t' : same t t' -> outR same (reduce_std o c t) (reduce_std o c t').
Proof. intros H. fold_like. eapply vw_fold_; side. Qed.
Lemma hv_reduce_std_axis t t' axis : same t t' -> outR same (reduce_std_axis o c t axis) (reduce_std_axis o c t' axis).
Proof. intros H. fold_like. eapply vw_fold_axis; side. Qed.
Lemma hv_reduce_variance t t' : same t t' -> outR same (reduce_variance o c t) (reduce_variance o c t').
Proof. intros H. fold_like. eapply vw_fold_; side. Qed.
Lemma hv_reduce_variance_axis t t' axis : same t t' -> outR same (reduce_variance_axis o c t axis) (reduce_variance_axis o c t' axis).
Proof. intros H. fold_like. eapply vw_fold_axis; side. Qed.
Lemma hv_normalize_unit t t' : same t t' -> outR same (normalize_unit o c t) (normalize_unit o c t').
Proof. intros H. fold_like. eapply vw_normalize; side. Qed.
End Numbers.

Lemma hv_tile {A} (c : cfg) (t t' : tensor A) m m' : same t t' -> same m m' -> outR same (tile c t m) (tile c t' m').
Proof.
  intros H K. replace (tile c t' m') with (tile c t' m); [hv (@vw_tile)|].
  assert (E : as_slice m = as_slice m') by hv (@vw_as_slice). destruct K as (E1 & E2 & _).
  unfold tile. now rewrite E, E1.
Qed.

Lemma out_buf {V} (x : outcome (buf V)) : outR (Forall2 (optR eq)) x x.
Proof. destruct x as [b| |]; constructor. induction b as [|[v|] b IH]; repeat constructor; auto. Qed.
Lemma out_state {S V} (x : outcome (S * buf V)) : outR (prodR eq (Forall2 (optR eq))) x x.
Proof. destruct x as [[s b]| |]; constructor. split; [reflexivity|]. cbn. induction b as [|[v|] b IH]; repeat constructor; auto. Qed.
Lemma bind_eq {A B} (x y : outcome A) (f g : A -> outcome B) : x = y -> (forall a, f a = g a) -> bind x f = bind y g.
Proof. intros <- H. destruct x; cbn; auto. Qed.

(** One step that is the same on both sides. *)
Ltac st := match goal with
  | |- outR _ (bind ?x _) (bind ?x _) =>
    lazymatch type of x with outcome (tensor _) => fail | _ => idtac end; apply (par_bind eq); [apply outR_same|intros ? ? <-]
  | |- outR _ (if ?b then _ else Panic) (if ?b then _ else Panic) => destruct b; [|constructor]
  | |- outR _ (let '(_, _) := ?p in _) _ => destruct p
  end.

Section Spaces.
Context {F : Type} (o : fops F) (c : cfg).
Lemma out_init_ n s (f f' : buf F -> outcome (buf F)) :
  (forall b, f b = f' b) -> outR same (unsafe_init_ c n s f) (unsafe_init_ c n s f').
Proof.
  intros H. apply out_same, vw_unsafe_init_. intros x y Hx.
  assert (x = y) as <-. { induction Hx as [|? ? ? ? [? ? ->|] _ IH]; congruence. }
  rewrite H. apply out_buf.
Qed.
Lemma space_same pre post s s' e e' b n buf : same s s' -> same e e' -> space_loop o pre post s e b n buf = space_loop o pre post s' e' b n buf.
Proof.
  intros H K. unfold space_loop. apply for_ext. intros i bf _.
  replace (index1 s i) with (index1 s' i) by (symmetry; hv (@vw_index1)).
  replace (index1 e i) with (index1 e' i) by (symmetry; hv (@vw_index1)). reflexivity.
Qed.
Lemma hv_linspace s s' e e' n : same s s' -> same e e' -> outR same (linspace o c s e n) (linspace o c s' e' n).
Proof.
  intros H K. unfold linspace. pose proof H as (E1 & E2 & _). pose proof K as (E3 & E4 & _). rewrite E1, E2, E3.
  repeat st. apply out_init_. intros b. now apply space_same.
Qed.
Lemma hv_geomspace s s' e e' n : same s s' -> same e e' -> outR same (geomspace o c s e n) (geomspace o c s' e' n).
Proof.
  intros H K. unfold geomspace. pose proof H as (E1 & E2 & _). pose proof K as (E3 & E4 & _). rewrite E1, E2, E3.
  repeat st. apply out_init_. intros b. now apply space_same.
Qed.
Lemma hv_logspace s s' e e' n base : same s s' -> same e e' -> outR same (logspace o c s e n base) (logspace o c s' e' n base).
Proof.
  intros H K. unfold logspace. pose proof H as (E1 & E2 & _). pose proof K as (E3 & E4 & _). rewrite E1, E2, E3.
  repeat st. apply out_init_. intros b. now apply space_same.
Qed.

Lemma same_refl_of_value (v : F) : outR same (of_value c v) (of_value c v).
Proof. apply out_same. eapply vw_of_value; reflexivity. Qed.
Lemma hv_histogram t t' n : same t t' -> outR (prodR same same) (histogram o c t n) (histogram o c t' n).
Proof.
  intros H. unfold histogram. pose proof H as (E1 & E2 & _). rewrite E1.
  repeat st.
  apply (par_bind same); [hv (@vw_reduce_min)|]. intros mn mn' Hmn.
  replace (index1 mn 0) with (index1 mn' 0) by (symmetry; hv (@vw_index1)).
  apply (par_bind eq); [apply outR_same|intros x ? <-].
  apply (par_bind same); [hv (@vw_reduce_max)|]. intros mx mx' Hmx.
  replace (index1 mx 0) with (index1 mx' 0) by (symmetry; hv (@vw_index1)).
  apply (par_bind eq); [apply outR_same|intros y ? <-]. cbv zeta. repeat st.
  apply (par_bind same); [apply same_refl_of_value|]. intros s s' Hs.
  apply (par_bind same); [apply same_refl_of_value|]. intros e e' He.
  apply (par_bind same); [now apply hv_linspace|]. intros l l' Hl.
  replace (as_slice t) with (as_slice t') by (symmetry; hv (@vw_as_slice)).
  repeat st.
  apply (par_bind same); [apply out_same; eapply vw_of_vec, forall2_eq|]. intros r r' Hr. constructor. now split.
Qed.
Lemma hv_histogram2d t t' n : same t t' -> outR (prodR (prodR same same) same) (histogram2d o c t n) (histogram2d o c t' n).
Proof.
  intros H. unfold histogram2d. pose proof H as (E1 & E2 & _). rewrite E1.
  repeat st.
  apply (par_bind same); [hv (@vw_reduce_min)|]. intros mn mn' Hmn.
  apply (par_bind same); [hv (@vw_reduce_max)|]. intros mx mx' Hmx.
  replace (index1 mn 0) with (index1 mn' 0) by (symmetry; hv (@vw_index1)).
  replace (index1 mn 1) with (index1 mn' 1) by (symmetry; hv (@vw_index1)).
  replace (index1 mx 0) with (index1 mx' 0) by (symmetry; hv (@vw_index1)).
  replace (index1 mx 1) with (index1 mx' 1) by (symmetry; hv (@vw_index1)).
  repeat st. cbv zeta. repeat st.
  apply (par_bind same); [apply same_refl_of_value|]. intros s s' Hs.
  apply (par_bind same); [apply same_refl_of_value|]. intros e e' He.
  apply (par_bind same); [now apply hv_linspace|]. intros l l' Hl.
  apply (par_bind same); [apply same_refl_of_value|]. intros u u' Hu.
  apply (par_bind same); [apply same_refl_of_value|]. intros v v' Hv.
  apply (par_bind same); [now apply hv_linspace|]. intros k k' Hk.
  replace (iter_row t) with (iter_row t') by (symmetry; hv (@vw_iter_row)).
  repeat st.
  apply (par_bind same); [apply out_same; eapply vw_of_vec, forall2_eq|]. intros r r' Hr.
  apply (par_bind eq); [apply outR_same|intros sh ? <-].
  apply (par_bind same); [hv (@vw_reshape)|]. intros q q' Hq. constructor. repeat split; apply Hq || apply Hl || apply Hk.
Qed.
End Spaces.

Lemma hv_rfft_norm {F C} (o : sigops F C) c t t' n : same t t' -> outR same (rfft_norm o c t n) (rfft_norm o c t' n).
Proof.
  intros H. unfold rfft_norm. pose proof H as (E1 & E2 & _). rewrite E1. cbv zeta.
  repeat st. apply (par_bind eq); [apply outR_same|intros w ? <-]. repeat st.
  apply (par_bind (prodR eq same)).
  2:{ intros [u r] [u' r'] [_ K]. now constructor. }
  apply out_pair. eapply vw_unsafe_init; [|reflexivity]. intros [x b] [y b'] [Hx Hb]. cbn [fst snd] in *.
  assert (b = b') as <-. { induction Hb as [|? ? ? ? [? ? ->|] _ IH]; congruence. }
  subst y. match goal with |- outR _ ?p ?q => replace q with p; [apply out_state|] end.
  apply for_ext. intros i [bf out] _. apply bind_eq; [reflexivity|]. intros p.
  replace (as_wrap_slice t p) with (as_wrap_slice t' p) by (symmetry; hv (@vw_as_wrap_slice)). reflexivity.
Qed.

Lemma hv_decode_wav {F} (o : rops F) c t t' : same t t' -> outR (prodR same same) (decode_wav o c t) (decode_wav o c t').
Proof.
  intros H. unfold decode_wav. replace (as_slice t) with (as_slice t') by (symmetry; hv (@vw_as_slice)).
  do 8 st. repeat st.
  apply (par_bind same); [apply out_same; eapply vw_from_vec, forall2_eq|]. intros r r' Hr.
  apply (par_bind same); [apply out_same; eapply vw_of_value; reflexivity|]. intros q q' Hq. constructor. now split.
Qed.

Lemma c78_reads (c : cfg) :
  (forall (A : Type) (t t' : tensor A),
    same t t' -> as_slice t = as_slice t') /\
  (forall (A : Type) (t t' : tensor A),
    same t t' -> deref t = deref t') /\
  (forall (A : Type) (t t' : tensor A),
    same t t' -> into_iter t = into_iter t') /\
  (forall (A : Type) (t t' : tensor A),
    same t t' -> as_ref_slice t = as_ref_slice t') /\
  (forall (A : Type) (t t' : tensor A),
    same t t' -> iter_row t = iter_row t') /\
  (forall (A : Type) (t t' : tensor A) (offset : nat),
    same t t' -> as_wrap_slice t offset = as_wrap_slice t' offset) /\
  (forall (A : Type) (t t' : tensor A) (i : nat),
    same t t' -> index1 t i = index1 t' i) /\
  (forall (A : Type) (t t' : tensor A) (i : nat) (j : nat) (k : nat),
    same t t' -> index3 c t i j k = index3 c t' i j k) /\
  (forall (A : Type) (t t' : tensor A) (h : nat) (i : nat) (j : nat) (k : nat),
    same t t' -> index4 c t h i j k = index4 c t' h i j k) /\
  (forall (A : Type) (t t' : tensor A) (g : nat) (h : nat) (i : nat) (j : nat) (k : nat),
    same t t' -> index5 c t g h i j k = index5 c t' g h i j k) /\
  (forall (A : Type) (eqb : A -> A -> bool) (t t' : tensor A) (u u' : tensor A),
    same t t' -> same u u' -> tensor_eqb eqb t u = tensor_eqb eqb t' u') /\
  (forall (A : Type) (cmp : A -> A -> option comparison) (t t' : tensor A) (u u' : tensor A),
    same t t' -> same u u' -> tensor_partial_cmp cmp t u = tensor_partial_cmp cmp t' u') /\
  (forall (A : Type) (t t' : tensor A),
    same t t' -> t_rank t = t_rank t') /\
  (forall (A : Type) (t t' : tensor A),
    same t t' -> t_len c t = t_len c t') /\
  (forall (A : Type) (t t' : tensor A) (i : nat),
    same t t' -> t_dim c t i = t_dim c t' i) /\
  (forall (A : Type) (t t' : tensor A) (i : nat),
    same t t' -> t_rdim t i = t_rdim t' i) /\
  (forall (A : Type) (t t' : tensor A),
    same t t' -> t_cols t = t_cols t') /\
  (forall (A : Type) (t t' : tensor A),
    same t t' -> t_rows t = t_rows t') /\
  (forall (A : Type) (t t' : tensor A),
    same t t' -> t_size t = t_size t') /\
  (forall (A : Type) (t t' : tensor A),
    same t t' -> t_shape t = t_shape t').
Proof.
  repeat match goal with |- _ /\ _ => split end.
  - hv (@vw_as_slice).
  - hv (@vw_deref).
  - hv (@vw_into_iter).
  - hv (@vw_as_ref_slice).
  - hv (@vw_iter_row).
  - hv (@vw_as_wrap_slice).
  - hv (@vw_index1).
  - hv (@vw_index3).
  - hv (@vw_index4).
  - hv (@vw_index5).
  - hv (@vw_tensor_eqb).
  - hv (@vw_tensor_partial_cmp).
  - hu @t_rank.
  - hu @t_len.
  - hu @t_dim.
  - hu @t_rdim.
  - hu @t_cols.
  - hu @t_rows.
  - hu @t_size.
  - hu @t_shape.
Qed.

Lemma c78_views (c : cfg) :
  (forall (A : Type) (t t' : tensor A) (s : shape),
    same t t' -> outR same (reshape c t s) (reshape c t' s)) /\
  (forall (A : Type) (t t' : tensor A) (axis : option Z),
    same t t' -> outR same (t_expand_dims c t axis) (t_expand_dims c t' axis)) /\
  (forall (A : Type) (t t' : tensor A),
    same t t' -> outR same (flatten c t) (flatten c t')) /\
  (forall (A : Type) (t t' : tensor A),
    same t t' -> outR same (t_squeeze c t) (t_squeeze c t')) /\
  (forall (A : Type) (t t' : tensor A) (axis : option Z),
    same t t' -> outR same (squeeze_axis c t axis) (squeeze_axis c t' axis)) /\
  (forall (A : Type) (t t' : tensor A) (offset : nat) (len : nat) (s : outcome shape),
    same t t' -> outR same (subslice_flat c t offset len s) (subslice_flat c t' offset len s)) /\
  (forall (A : Type) (t t' : tensor A) (offset : nat) (len : nat),
    same t t' -> outR same (subslice c t offset len) (subslice c t' offset len)) /\
  (forall (A : Type) (t t' : tensor A),
    same t t' -> same (as_ref_tensor t) (as_ref_tensor t')).
Proof.
  repeat match goal with |- _ /\ _ => split end.
  - hv (@vw_reshape).
  - hv (@vw_t_expand_dims).
  - hv (@vw_flatten).
  - hv (@vw_t_squeeze).
  - hv (@vw_squeeze_axis).
  - hv (@vw_subslice_flat).
  - hv (@vw_subslice).
  - hu @as_ref_tensor.
Qed.

Lemma c78_arrays (c : cfg) :
  (forall (A : Type) (t t' : tensor A),
    same t t' -> outR same (transpose c t) (transpose c t')) /\
  (forall (A : Type) (axis : option Z) (t t' : tensor A) (s : sections),
    same t t' -> outR (Forall2 same) (split_axis c axis t s) (split_axis c axis t' s)) /\
  (forall (A : Type) (t t' : tensor A) (s : sections),
    same t t' -> outR (Forall2 same) (split c t s) (split c t' s)) /\
  (forall (A : Type) (t t' : tensor A) (s : sections),
    same t t' -> outR (Forall2 same) (vsplit c t s) (vsplit c t' s)) /\
  (forall (A : Type) (t t' : tensor A) (s : sections),
    same t t' -> outR (Forall2 same) (hsplit c t s) (hsplit c t' s)) /\
  (forall (A : Type) (t t' : tensor A) (s : sections),
    same t t' -> outR (Forall2 same) (dsplit c t s) (dsplit c t' s)) /\
  (forall (A : Type) (axis : option Z) (t t' : tensor A),
    same t t' -> outR (Forall2 same) (unstack c axis t) (unstack c axis t')) /\
  (forall (A : Type) (t t' : tensor A) (u u' : tensor A),
    same t t' -> same u u' -> outR same (append c t u) (append c t' u')) /\
  (forall (A : Type) (ts ts' : list (tensor A)) (s : shape),
    Forall2 same ts ts' -> outR same (from_merge c ts s) (from_merge c ts' s)) /\
  (forall (A : Type) (args args' : list (tensor A)),
    Forall2 same args args' -> outR same (concatenate c args) (concatenate c args')) /\
  (forall (A : Type) (axis : option Z) (args args' : list (tensor A)),
    Forall2 same args args' -> outR same (concatenate_axis c axis args) (concatenate_axis c axis args')) /\
  (forall (A : Type) (x x' : list (tensor A)),
    Forall2 same x x' -> outR same (stack c x) (stack c x')) /\
  (forall (A : Type) (axis : option Z) (x x' : list (tensor A)),
    Forall2 same x x' -> outR same (stack_axis c axis x) (stack_axis c axis x')) /\
  (forall (A : Type) (x x' : list (tensor A)),
    Forall2 same x x' -> outR same (dstack c x) (dstack c x')) /\
  (forall (A : Type) (x x' : list (tensor A)),
    Forall2 same x x' -> outR same (hstack c x) (hstack c x')) /\
  (forall (A : Type) (x x' : list (tensor A)),
    Forall2 same x x' -> outR same (vstack c x) (vstack c x')) /\
  (forall (A : Type) (t t' : tensor A) (multiples multiples' : tensor nat),
    same t t' -> same multiples multiples' -> outR same (tile c t multiples) (tile c t' multiples')) /\
  (forall (A : Type) (ts ts' : list (tensor A)),
    Forall2 same ts ts' -> outR same (of_tensors c ts) (of_tensors c ts')).
Proof.
  repeat match goal with |- _ /\ _ => split end.
  - hv (@vw_transpose).
  - hv (@vw_split_axis).
  - hv (@vw_split).
  - hv (@vw_vsplit).
  - hv (@vw_hsplit).
  - hv (@vw_dsplit).
  - hv (@vw_unstack).
  - hv (@vw_append).
  - hv (@vw_from_merge).
  - hv (@vw_concatenate).
  - hv (@vw_concatenate_axis).
  - hv (@vw_stack).
  - hv (@vw_stack_axis).
  - hv (@vw_dstack).
  - hv (@vw_hstack).
  - hv (@vw_vstack).
  - intros; eapply hv_tile; eassumption.
  - hv (@vw_of_tensors).
Qed.

Lemma c78_arguments (c : cfg) :
  (forall (A : Type) (x x' : tensor_list A) (vec vec' : list (tensor A)),
    sameL x x' -> Forall2 same vec vec' -> outR (Forall2 same) (into_list c x vec) (into_list c x' vec')) /\
  (forall (A : Type) (x x' : tensor_list A),
    sameL x x' -> outR same (concatenate_args c x) (concatenate_args c x')) /\
  (forall (A : Type) (axis : option Z) (x x' : tensor_list A),
    sameL x x' -> outR same (concatenate_axis_args c axis x) (concatenate_axis_args c axis x')) /\
  (forall (A : Type) (x x' : tensor_list A),
    sameL x x' -> outR same (stack_args c x) (stack_args c x')) /\
  (forall (A : Type) (axis : option Z) (x x' : tensor_list A),
    sameL x x' -> outR same (stack_axis_args c axis x) (stack_axis_args c axis x')) /\
  (forall (A : Type) (x x' : tensor_list A),
    sameL x x' -> outR same (dstack_args c x) (dstack_args c x')) /\
  (forall (A : Type) (x x' : tensor_list A),
    sameL x x' -> outR same (hstack_args c x) (hstack_args c x')) /\
  (forall (A : Type) (x x' : tensor_list A),
    sameL x x' -> outR same (vstack_args c x) (vstack_args c x')) /\
  (forall (A : Type) (t t' : tensor A) (others others' : tensor_list A),
    same t t' -> sameL others others' -> outR same (m_concatenate c t others) (m_concatenate c t' others')) /\
  (forall (A : Type) (t t' : tensor A) (axis : option Z) (others others' : tensor_list A),
    same t t' -> sameL others others' -> outR same (m_concatenate_axis c t axis others) (m_concatenate_axis c t' axis others')) /\
  (forall (A : Type) (t t' : tensor A) (others others' : tensor_list A) (axis : option Z),
    same t t' -> sameL others others' -> outR same (m_stack c t others axis) (m_stack c t' others' axis)) /\
  (forall (A : Type) (t t' : tensor A) (others others' : tensor_list A),
    same t t' -> sameL others others' -> outR same (m_dstack c t others) (m_dstack c t' others')) /\
  (forall (A : Type) (t t' : tensor A) (others others' : tensor_list A),
    same t t' -> sameL others others' -> outR same (m_vstack c t others) (m_vstack c t' others')).
Proof.
  repeat match goal with |- _ /\ _ => split end.
  - hv (@vw_into_list).
  - hv (@vw_concatenate_args).
  - hv (@vw_concatenate_axis_args).
  - hv (@vw_stack_args).
  - hv (@vw_stack_axis_args).
  - hv (@vw_dstack_args).
  - hv (@vw_hstack_args).
  - hv (@vw_vstack_args).
  - hv (@vw_m_concatenate).
  - hv (@vw_m_concatenate_axis).
  - hv (@vw_m_stack).
  - hv (@vw_m_dstack).
  - hv (@vw_m_vstack).
Qed.

Lemma c78_closures (c : cfg) :
  (forall (S U V : Type) (a a' : tensor U) (f : S -> U -> outcome (S * V)) (st : S),
    same a a' -> outR (prodR eq same) (map_ c a f st) (map_ c a' f st)) /\
  (forall (S U V : Type) (N : nat) (a a' : tensor U) (f : S -> list U -> outcome (S * list V)) (st : S),
    same a a' -> outR (prodR eq same) (map_row c N a f st) (map_row c N a' f st)) /\
  (forall (S U V : Type) (N : nat) (a a' : tensor U) (f : S -> U -> outcome (S * list V)) (st : S),
    same a a' -> outR (prodR eq same) (map_expand c N a f st) (map_expand c N a' f st)) /\
  (forall (S T U V : Type) (a a' : tensor T) (b b' : tensor U) (f : S -> T -> U -> outcome (S * V)) (st : S),
    same a a' -> same b b' -> outR (prodR eq same) (map2 c a b f st) (map2 c a' b' f st)) /\
  (forall (S T U V W : Type) (ta ta' : tensor T) (tb tb' : tensor U) (tc tc' : tensor V) (f : S -> T -> U -> V -> outcome (S * W)) (st : S),
    same ta ta' -> same tb tb' -> same tc tc' -> outR (prodR eq same) (map3 c ta tb tc f st) (map3 c ta' tb' tc' f st)) /\
  (forall (S U R V : Type) (t t' : tensor U) (ini : R) (into : R -> V) (f : S -> R -> U -> outcome (S * R)) (st : S),
    same t t' -> outR (prodR eq same) (fold_ c t ini into f st) (fold_ c t' ini into f st)) /\
  (forall (S T R V : Type) (t t' : tensor T) (axis : option Z) (ini : R) (into : R -> V) (f : S -> R -> T -> outcome (S * R)) (st : S),
    same t t' -> outR (prodR eq same) (fold_axis c t axis ini into f st) (fold_axis c t' axis ini into f st)) /\
  (forall (S T : Type) (t t' : tensor T) (f : S -> T -> T -> outcome (S * T)) (st : S),
    same t t' -> outR (prodR eq same) (reduce c t f st) (reduce c t' f st)) /\
  (forall (S T : Type) (t t' : tensor T) (axis : option Z) (f : S -> T -> T -> outcome (S * T)) (st : S),
    same t t' -> outR (prodR eq same) (reduce_axis c t axis f st) (reduce_axis c t' axis f st)) /\
  (forall (S T R R1 V : Type) (t t' : tensor T) (axis : option Z) (ini : R) (accum : S -> R -> T -> outcome (S * R)) (complete : S -> R -> outcome (S * R1)) (norm : S -> R1 -> T -> outcome (S * V)) (st : S),
    same t t' -> outR (prodR eq same) (normalize c t axis ini accum complete norm st) (normalize c t' axis ini accum complete norm st)).
Proof.
  repeat match goal with |- _ /\ _ => split end.
  - hv (@vw_map_).
  - hv (@vw_map_row).
  - hv (@vw_map_expand).
  - hv (@vw_map2).
  - hv (@vw_map3).
  - hv (@vw_fold_).
  - hv (@vw_fold_axis).
  - hv (@vw_reduce).
  - hv (@vw_reduce_axis).
  - hv (@vw_normalize).
Qed.

Lemma c78_operators (c : cfg) :
  (forall (T V : Type) (t t' : tensor T) (op : T -> outcome V),
    same t t' -> outR same (unop c t op) (unop c t' op)) /\
  (forall (T U V : Type) (a a' : tensor T) (b b' : tensor U) (op : T -> U -> outcome V),
    same a a' -> same b b' -> outR same (binop_tt c a b op) (binop_tt c a' b' op)) /\
  (forall (T U V : Type) (t t' : tensor T) (y : U) (op : T -> U -> outcome V),
    same t t' -> outR same (binop_ts c t y op) (binop_ts c t' y op)) /\
  (forall (T U V : Type) (x : T) (t t' : tensor U) (op : T -> U -> outcome V),
    same t t' -> outR same (binop_st c x t op) (binop_st c x t' op)) /\
  (forall (T V : Type) (t t' : tensor T) (f : T -> V),
    same t t' -> outR same (float_map c t f) (float_map c t' f)) /\
  (forall (T U V : Type) (a a' : tensor T) (b b' : tensor U) (f : T -> U -> V),
    same a a' -> same b b' -> outR same (float_map2 c a b f) (float_map2 c a' b' f)) /\
  (forall (T U V W : Type) (ta ta' : tensor T) (tb tb' : tensor U) (tc tc' : tensor V) (f : T -> U -> V -> W),
    same ta ta' -> same tb tb' -> same tc tc' -> outR same (float_map3 c ta tb tc f) (float_map3 c ta' tb' tc' f)).
Proof.
  repeat match goal with |- _ /\ _ => split end.
  - hv (@vw_unop).
  - hv (@vw_binop_tt).
  - hv (@vw_binop_ts).
  - hv (@vw_binop_st).
  - hv (@vw_float_map).
  - hv (@vw_float_map2).
  - hv (@vw_float_map3).
Qed.

Lemma c78_matrices (c : cfg) :
  (forall (T : Type) (zero : T) (diag diag' : tensor T),
    same diag diag' -> outR same (diagflat c zero diag) (diagflat c zero diag')) /\
  (forall (T : Type) (zero : T) (t t' : tensor T),
    same t t' -> outR same (tril c zero t) (tril c zero t')) /\
  (forall (T : Type) (zero : T) (t t' : tensor T),
    same t t' -> outR same (triu c zero t) (triu c zero t')) /\
  (forall (T : Type) (axes axes' : list (tensor T)),
    Forall2 same axes axes' -> outR (Forall2 same) (meshgrid c axes) (meshgrid c axes')) /\
  (forall (T : Type) (axes axes' : list (tensor T)),
    Forall2 same axes axes' -> outR (Forall2 same) (meshgrid_ij c axes) (meshgrid_ij c axes')) /\
  (forall (F : Type) (o : fops F) (start start' : tensor F) (end_ end_' : tensor F) (len : nat),
    same start start' -> same end_ end_' -> outR same (linspace o c start end_ len) (linspace o c start' end_' len)) /\
  (forall (F : Type) (o : fops F) (start start' : tensor F) (end_ end_' : tensor F) (len : nat),
    same start start' -> same end_ end_' -> outR same (geomspace o c start end_ len) (geomspace o c start' end_' len)) /\
  (forall (F : Type) (o : fops F) (start start' : tensor F) (end_ end_' : tensor F) (len : nat) (base : option F),
    same start start' -> same end_ end_' -> outR same (logspace o c start end_ len base) (logspace o c start' end_' len base)).
Proof.
  repeat match goal with |- _ /\ _ => split end.
  - hv (@vw_diagflat).
  - hv (@vw_tril).
  - hv (@vw_triu).
  - hv (@vw_meshgrid).
  - hv (@vw_meshgrid_ij).
  - intros; eapply hv_linspace; eassumption.
  - intros; eapply hv_geomspace; eassumption.
  - intros; eapply hv_logspace; eassumption.
Qed.

Lemma c78_numbers (c : cfg) :
  (forall (F : Type) (o : fops F) (t t' : tensor F),
    same t t' -> outR same (reduce_min o c t) (reduce_min o c t')) /\
  (forall (F : Type) (o : fops F) (t t' : tensor F) (axis : option Z),
    same t t' -> outR same (reduce_min_axis o c t axis) (reduce_min_axis o c t' axis)) /\
  (forall (F : Type) (o : fops F) (t t' : tensor F),
    same t t' -> outR same (reduce_max o c t) (reduce_max o c t')) /\
  (forall (F : Type) (o : fops F) (t t' : tensor F) (axis : option Z),
    same t t' -> outR same (reduce_max_axis o c t axis) (reduce_max_axis o c t' axis)) /\
  (forall (F : Type) (o : fops F) (t t' : tensor F),
    same t t' -> outR same (reduce_hypot o c t) (reduce_hypot o c t')) /\
  (forall (F : Type) (o : fops F) (t t' : tensor F),
    same t t' -> outR same (reduce_mean o c t) (reduce_mean o c t')) /\
  (forall (F : Type) (o : fops F) (t t' : tensor F) (axis : option Z),
    same t t' -> outR same (reduce_mean_axis o c t axis) (reduce_mean_axis o c t' axis)) /\
  (forall (F : Type) (o : fops F) (t t' : tensor F),
    same t t' -> outR same (reduce_std o c t) (reduce_std o c t')) /\
  (forall (F : Type) (o : fops F) (t t' : tensor F) (axis : option Z),
    same t t' -> outR same (reduce_std_axis o c t axis) (reduce_std_axis o c t' axis)) /\
  (forall (F : Type) (o : fops F) (t t' : tensor F),
    same t t' -> outR same (reduce_variance o c t) (reduce_variance o c t')) /\
  (forall (F : Type) (o : fops F) (t t' : tensor F) (axis : option Z),
    same t t' -> outR same (reduce_variance_axis o c t axis) (reduce_variance_axis o c t' axis)) /\
  (forall (T : Type) (add : T -> T -> outcome T) (t t' : tensor T),
    same t t' -> outR same (reduce_sum c add t) (reduce_sum c add t')) /\
  (forall (T : Type) (add : T -> T -> outcome T) (t t' : tensor T) (axis : option Z),
    same t t' -> outR same (reduce_sum_axis c add t axis) (reduce_sum_axis c add t' axis)) /\
  (forall (T : Type) (mul : T -> T -> outcome T) (t t' : tensor T),
    same t t' -> outR same (reduce_product c mul t) (reduce_product c mul t')) /\
  (forall (T : Type) (mul : T -> T -> outcome T) (t t' : tensor T) (axis : option Z),
    same t t' -> outR same (reduce_product_axis c mul t axis) (reduce_product_axis c mul t' axis)) /\
  (forall (F : Type) (o : fops F) (t t' : tensor F),
    same t t' -> outR same (normalize_unit o c t) (normalize_unit o c t')) /\
  (forall (F : Type) (o : fops F) (data data' : tensor F) (n_bins : option nat),
    same data data' -> outR (prodR same same) (histogram o c data n_bins) (histogram o c data' n_bins)) /\
  (forall (F : Type) (o : fops F) (data data' : tensor F) (n_bins : option nat),
    same data data' -> outR (prodR (prodR same same) same) (histogram2d o c data n_bins) (histogram2d o c data' n_bins)) /\
  (forall (F C : Type) (o : sigops F C) (t t' : tensor F) (fft_length : option nat),
    same t t' -> outR same (rfft_norm o c t fft_length) (rfft_norm o c t' fft_length)) /\
  (forall (F : Type) (o : rops F) (contents contents' : tensor Z),
    same contents contents' -> outR (prodR same same) (decode_wav o c contents) (decode_wav o c contents')).
Proof.
  repeat match goal with |- _ /\ _ => split end.
  - hv (@vw_reduce_min).
  - hv (@vw_reduce_min_axis).
  - hv (@vw_reduce_max).
  - hv (@vw_reduce_max_axis).
  - intros; eapply hv_reduce_hypot; eassumption.
  - intros; eapply hv_reduce_mean; eassumption.
  - intros; eapply hv_reduce_mean_axis; eassumption.
  - intros; eapply hv_reduce_std; eassumption.
  - intros; eapply hv_reduce_std_axis; eassumption.
  - intros; eapply hv_reduce_variance; eassumption.
  - intros; eapply hv_reduce_variance_axis; eassumption.
  - hv (@vw_reduce_sum).
  - hv (@vw_reduce_sum_axis).
  - hv (@vw_reduce_product).
  - hv (@vw_reduce_product_axis).
  - intros; eapply hv_normalize_unit; eassumption.
  - intros; eapply hv_histogram; eassumption.
  - intros; eapply hv_histogram2d; eassumption.
  - intros; eapply hv_rfft_norm; eassumption.
  - intros; eapply hv_decode_wav; eassumption.
Qed.

(** ** Copies *)

Lemma c78_copy {A} (t : tensor A) xs : shown t xs -> same t (copy t xs).
Proof.
  intros (H1 & H2 & H3). split; [reflexivity|]. split; [reflexivity|]. exists xs. split; [now repeat split|].
  assert (L : length xs = tsize t) by (rewrite <- H3, firstn_length, skipn_length; lia).
  unfold shown, copy; cbn [toffset tsize tdata]. rewrite L. split; [lia|]. split; [lia|].
  rewrite <- L. cbn [skipn]. apply firstn_all.
Qed.

(** ** The products of matrices: the view may do more than the copy *)

Definition le {A} (x y : outcome A) : Prop := x = Ub \/ x = y.
Lemma le_refl {A} (x : outcome A) : le x x.
Proof. now right. Qed.
Lemma le_bind {A B} (x y : outcome A) (f g : A -> outcome B) : le x y -> (forall a, le (f a) (g a)) -> le (bind x f) (bind y g).
Proof. intros [->| ->] H; [now left|]. destruct y; cbn; auto using le_refl. Qed.
Lemma le_for {S} n (f g : nat -> S -> outcome S) s : (forall i s, le (f i s) (g i s)) -> le (for_ n f s) (for_ n g s).
Proof.
  intros H. unfold for_. generalize 0. revert s. induction n as [|n IH]; intros s i; [apply le_refl|].
  cbn [for_from]. apply le_bind; auto.
Qed.
Lemma le_init {A} c n s (f g : buf A -> outcome (buf A)) : (forall b, le (f b) (g b)) -> le (unsafe_init_ c n s f) (unsafe_init_ c n s g).
Proof.
  intros H. unfold unsafe_init_, unsafe_init. apply le_bind; [|intros; apply le_refl].
  apply le_bind; [apply le_refl|]. intros b. apply le_bind; [|intros; apply le_refl].
  apply le_bind; [apply H|intros; apply le_refl].
Qed.

Lemma le_raw {A} (t : tensor A) xs p q : shown t xs -> q = toffset t + p -> le (raw_get xs p) (raw_get (tdata t) q).
Proof.
  intros (H1 & H2 & H3) ->. unfold raw_get. destruct (nth_error xs p) as [v|] eqn:E; [|now left]. right.
  rewrite <- H3 in E. assert (Hp : p < tsize t).
  { assert (p < length (firstn (tsize t) (skipn (toffset t) (tdata t)))) by (apply nth_error_Some; congruence). rewrite firstn_length in *. lia. }
  rewrite nth_error_firstn in E. apply Nat.ltb_lt in Hp. rewrite Hp, nth_error_skipn in E. now rewrite E.
Qed.

Lemma le_sgemm {F} (o : fops F) (a b : tensor F) xs ys m k n al pa rsa csa pb rsb csb be pc rsc csc out :
  shown a xs -> shown b ys ->
  le (sgemm o m k n al xs pa rsa csa ys pb rsb csb be pc rsc csc out)
     (sgemm o m k n al (tdata a) (toffset a + pa) rsa csa (tdata b) (toffset b + pb) rsb csb be pc rsc csc out).
Proof.
  intros Ha Hb. unfold sgemm. apply le_bind; [apply le_refl|]. intros _. apply le_for. intros i c0. apply le_for. intros j c1.
  apply le_bind; [|intros; apply le_refl]. apply le_for. intros p v.
  apply le_bind; [apply le_raw; [assumption|lia]|]. intros x.
  apply le_bind; [apply le_raw; [assumption|lia]|]. intros y. apply le_refl.
Qed.

Lemma le_ptr {F B} (t : tensor F) xs k (f g : nat -> outcome B) :
  shown t xs -> (forall p, le (f p) (g (toffset t + p))) ->
  le (bind (ptr_add xs 0 k) f) (bind (ptr_add (tdata t) (toffset t) k) g).
Proof.
  intros (H1 & H2 & H3) H. unfold ptr_add. cbn [Nat.add].
  assert (L : length xs = tsize t) by (rewrite <- H3, firstn_length, skipn_length; lia).
  destruct (Nat.leb_spec k (length xs)); [|now left]. cbn [bind].
  destruct (Nat.leb_spec (toffset t + k) (length (tdata t))); [apply H|lia].
Qed.

Lemma le_wrap {F B} (t u : tensor F) k (f g : nat -> outcome B) :
  tsize u = tsize t -> (forall p, le (f p) (g (toffset t + p))) ->
  le (let* p := (let* k := wrap_pos u k in Ok (0 + k)) in f p) (let* p := (let* k := wrap_pos t k in Ok (toffset t + k)) in g p).
Proof.
  intros E H. unfold wrap_pos. rewrite E. destruct (k <? tsize t); cbn [bind]; [apply H|].
  destruct (urem k (tsize t)); cbn [bind]; [apply H|apply le_refl..].
Qed.

Ltac lb := apply le_bind; [apply le_refl|intros].

Lemma le_matmul {F} (o : fops F) c (a b : tensor F) xs ys tr :
  shown a xs -> shown b ys -> le (matmul_t o c (copy a xs) (copy b ys) tr) (matmul_t o c a b tr).
Proof.
  intros Ha Hb. unfold matmul_t, mkn, copy. cbn [tshape tdata toffset tsize].
  lb. apply le_bind; [apply le_refl|intros [[m k] n]]. do 11 lb. apply le_init. intros out. apply le_for. intros i s.
  lb. eapply le_ptr; [eassumption|]. intros p. lb. eapply le_ptr; [eassumption|]. intros q. lb.
  unfold matmul_sgemm. cbn [tshape tdata]. do 4 lb. destruct tr; now apply le_sgemm.
Qed.

Lemma le_matvec {F} (o : fops F) c (a b : tensor F) xs ys tr :
  shown a xs -> shown b ys -> le (matvec_t o c (copy a xs) (copy b ys) tr) (matvec_t o c a b tr).
Proof.
  intros Ha Hb. unfold matvec_t, matvec_o_size, copy, as_wrap_ptr. cbn [tshape tdata toffset tsize].
  do 8 lb. apply le_bind; [apply le_refl|intros [m n]]. do 3 lb. apply le_init. intros out. apply le_for. intros i s.
  lb. eapply le_wrap; [reflexivity|]. intros p. lb. eapply le_wrap; [reflexivity|]. intros q. lb.
  unfold matvec_sgemm. cbn [tshape tdata]. do 2 lb. destruct tr; try apply le_refl; now apply le_sgemm.
Qed.

Lemma c78_products {F} (o : fops F) c (a b : tensor F) xs ys tr :
  shown a xs -> shown b ys ->
  (matmul_t o c (copy a xs) (copy b ys) tr <> Ub -> matmul_t o c a b tr = matmul_t o c (copy a xs) (copy b ys) tr) /\
  (matvec_t o c (copy a xs) (copy b ys) tr <> Ub -> matvec_t o c a b tr = matvec_t o c (copy a xs) (copy b ys) tr).
Proof.
  intros Ha Hb. split; intros H.
  - destruct (le_matmul o c a b xs ys tr Ha Hb); congruence.
  - destruct (le_matvec o c a b xs ys tr Ha Hb); congruence.
Qed.

(** ** Tensors at the beginning of their buffers *)

Section Zero.
Context {A : Type} (c : cfg) (t t' : tensor A).
Hypothesis (H : same t t') (Z1 : toffset t = 0) (Z2 : toffset t' = 0).

Lemma zero_get i : get c t i = get c t' i.
Proof.
  destruct H as (H1 & H2 & xs & (X1 & X2 & X3) & (Y1 & Y2 & Y3)). unfold get. rewrite Z1, Z2, H2.
  destruct (Nat.ltb_spec i (tsize t')) as [Hi|]; [|reflexivity].
  destruct (uadd c i 0) as [k| |] eqn:E; cbn [bind]; try reflexivity.
  rewrite uadd_ok in E by (rewrite ?Nat.add_0_r; unfold two64; lia). injection E as <-.
  rewrite Z1 in X3. rewrite Z2 in Y3. cbn [skipn] in X3, Y3.
  assert (K : nth_error (tdata t) i = nth_error (tdata t') i).
  { rewrite <- Y3, H2 in X3. pose proof (f_equal (fun l => nth_error l i) X3) as K. cbn beta in K.
    rewrite !nth_error_firstn in K. apply Nat.ltb_lt in Hi. now rewrite Hi in K. }
  unfold raw_get. cbn [Nat.add]. rewrite Nat.add_0_r. now rewrite K.
Qed.

Lemma zero_slice i n : as_wrap_slice_n c t i n = as_wrap_slice_n c t' i n.
Proof.
  destruct H as (H1 & H2 & xs & (X1 & X2 & X3) & (Y1 & Y2 & Y3)). unfold as_wrap_slice_n. rewrite Z1, Z2.
  rewrite Z1 in X3. rewrite Z2 in Y3. cbn [skipn] in X3, Y3.
  assert (W : wrap_pos t i = wrap_pos t' i) by (unfold wrap_pos; now rewrite H2). rewrite W, H2.
  destruct (wrap_pos t' i) as [k| |] eqn:Ek; cbn [bind]; try reflexivity.
  assert (Hk : k < tsize t').
  { unfold wrap_pos, urem in Ek. destruct (Nat.ltb_spec i (tsize t')); [congruence|].
    destruct (Nat.eqb_spec (tsize t') 0); [discriminate|]. injection Ek as <-. now apply Nat.mod_upper_bound. }
  rewrite uadd_ok by (unfold two64; lia). cbn [bind Nat.add].
  destruct (uadd c k n) as [e| |] eqn:E; cbn [bind]; try reflexivity.
  destruct (Nat.leb_spec e (tsize t')) as [He|]; [|reflexivity]. cbn [assert_ bind].
  unfold raw_slice. destruct (le_lt_dec (k + n) (tsize t')) as [Hn|Hn].
  - destruct (Nat.leb_spec (k + n) (length (tdata t))); [|lia]. destruct (Nat.leb_spec (k + n) (length (tdata t'))); [|lia]. f_equal.
    assert (X : forall l : list A, firstn n (skipn k l) = firstn n (skipn k (firstn (tsize t') l))).
    { intros l. rewrite skipn_firstn_comm, firstn_firstn. f_equal. lia. }
    rewrite (X (tdata t)), (X (tdata t')). rewrite <- H2 at 1. now rewrite X3, Y3.
  - assert (B : (two64 <= Z.of_nat k + Z.of_nat n)%Z).
    { destruct (Z.ltb_spec (Z.of_nat k + Z.of_nat n) two64) as [B|B]; [|exact B]. rewrite uadd_ok in E by exact B. injection E as <-. lia. }
    unfold two64 in B. destruct (Nat.leb_spec (k + n) (length (tdata t))); [lia|]. destruct (Nat.leb_spec (k + n) (length (tdata t'))); [lia|]. reflexivity.
Qed.

Lemma sep_eq n s (f g : nat -> outcome (list (piece A))) out : (forall j, f j = g j) -> separated n s f out = separated n s g out.
Proof. intros E. unfold separated. apply for_ext. intros j l _. now rewrite E. Qed.

Lemma zero_rec r : forall off, fmt_tensor_rec c t r off = fmt_tensor_rec c t' r off.
Proof.
  pose proof H as (H1 & _). induction r as [|r IH]; intros off; cbn [fmt_tensor_rec].
  - now rewrite zero_get.
  - rewrite H1. destruct r as [|[|r]].
    + apply bind_eq; [reflexivity|]. intros n. apply bind_eq; [|reflexivity]. apply sep_eq. intros j. apply bind_eq; [reflexivity|]. intros; apply IH.
    + do 2 (apply bind_eq; [reflexivity|intros]). apply bind_eq; [|reflexivity]. apply sep_eq. intros j. do 2 (apply bind_eq; [reflexivity|intros]). apply IH.
    + do 2 (apply bind_eq; [reflexivity|intros]). apply bind_eq; [|reflexivity]. apply sep_eq. intros j. do 2 (apply bind_eq; [reflexivity|intros]). apply IH.
Qed.
Lemma zero_fmt name : fmt_tensor c name t = fmt_tensor c name t'.
Proof. pose proof H as (H1 & _). unfold fmt_tensor. now rewrite zero_rec, H1. Qed.
Lemma zero_index2 i j : index2 c t i j = index2 c t' i j.
Proof.
  pose proof H as (H1 & H2 & _). unfold index2, assert_shown. rewrite H1, H2, zero_fmt.
  do 5 (apply bind_eq; [reflexivity|intros]). apply bind_eq; [reflexivity|]. intros. hv (@vw_index1).
Qed.
End Zero.

Lemma c78_zero {A} c (t t' : tensor A) :
  same t t' -> toffset t = 0 -> toffset t' = 0 ->
  (forall i, get c t i = get c t' i) /\
  (forall i n, as_wrap_slice_n c t i n = as_wrap_slice_n c t' i n) /\
  (forall name, fmt_tensor c name t = fmt_tensor c name t') /\
  (forall i j, index2 c t i j = index2 c t' i j) /\
  (forall (S R V : Type) N axis (ini : R) (into : R -> list V) (f : S -> R -> list A -> outcome (S * R)) st,
    fold_row c N t axis ini into f st = fold_row c N t' axis ini into f st).
Proof.
  intros H Z1 Z2. split; [intros; now apply zero_get|]. split; [intros; now apply zero_slice|].
  split; [intros; now apply zero_fmt|]. split; [intros; now apply zero_index2|].
  intros. pose proof H as (H1 & _). unfold fold_row. rewrite H1. apply bind_eq; [reflexivity|]. intros [[[os b] al] inner].
  do 2 (apply bind_eq; [reflexivity|intros]). unfold unsafe_init. apply bind_eq; [reflexivity|]. intros bf.
  apply bind_eq; [|reflexivity]. apply for_ext. intros i sb _. apply for_ext. intros j [s o] _. apply bind_eq; [|reflexivity].
  apply for_ext. intros k [s1 s2] _. cbv zeta. apply bind_eq; [now apply zero_slice|reflexivity].
Qed.

Lemma c78_exceptions_refuted : exists t u : tensor nat,
  subslice dev (fresh [3; 2] [10; 20; 30; 40; 50; 60]) 1 2 = Ok t /\
  same t u /\ as_slice t = Ok [30; 40; 50; 60] /\
  get dev t 0 = Ok (Some 50) /\ get dev u 0 = Ok (Some 30) /\
  as_wrap_slice_n dev t 0 4 = Panic /\ as_wrap_slice_n dev u 0 4 = Ok [30; 40; 50; 60] /\
  fold_row dev 1 t None 0 (fun r => [r]) (pure2 (fun r row => r + list_sum row)) tt = Panic /\
  fold_row dev 1 u None 0 (fun r => [r]) (pure2 (fun r row => r + list_sum row)) tt
    = Ok (tt, fresh [1] [180]) /\
  fmt_tensor dev "usize"%string t = Ub /\ fmt_tensor dev "usize"%string u <> Ub /\
  index2 dev t 0 2 = Ub /\ index2 dev u 0 2 = Panic.
Proof.
  exists (mkTensor (mkShape [2; 2; 0; 0; 0; 0] 2) 2 4 [10; 20; 30; 40; 50; 60]), (mkTensor (mkShape [2; 2; 0; 0; 0; 0] 2) 0 4 [30; 40; 50; 60]).
  split; [vm_compute; reflexivity|]. split.
  { split; [reflexivity|]. split; [reflexivity|]. exists [30; 40; 50; 60]. split; (split; [cbn; lia|]; split; [cbn; lia|reflexivity]). }
  repeat split; try (vm_compute; reflexivity). vm_compute. discriminate.
Qed.

Lemma c78_products_refuted : exists a b : tensor Z,
  subslice dev (fresh [2; 1] [5; 6]%Z) 0 1 = Ok b /\
  shown a [3; 4]%Z /\ shown b [5]%Z /\
  matmul_t Z_ops dev a b TNone = Panic /\
  matmul_t Z_ops dev (copy a [3; 4]%Z) (copy b [5]%Z) TNone = Ub.
Proof.
  exists (fresh [2; 1; 1] [3; 4]%Z), (mkTensor (mkShape [1; 1; 0; 0; 0; 0] 2) 0 1 [5; 6]%Z).
  split; [vm_compute; reflexivity|]. split; [split; [cbn; lia|]; split; [cbn; lia|reflexivity]|].
  split; [split; [cbn; lia|]; split; [cbn; lia|reflexivity]|].
  split; vm_compute; reflexivity.
Qed.
