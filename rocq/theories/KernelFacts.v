(** * Facts about products by a kernel (C82) *)
From Verif Require Import Base ShapeModel TensorModel FloatModel LinalgModel KernelModel KernelSpec Spec FloatSpec
  BaseFacts ParamSpec LinalgFacts.

(** Outcomes of the same kind with related values, or undefined behaviour on the left. *)
Inductive outU {A B} (R : A -> B -> Prop) : outcome A -> outcome B -> Prop :=
| outU_ok a b : R a b -> outU R (Ok a) (Ok b)
| outU_panic : outU R Panic Panic
| outU_ub y : outU R Ub y.

Lemma outU_bind {A B A' B'} (R : A -> A' -> Prop) (Q : B -> B' -> Prop) x x' f f' :
  outU R x x' -> (forall a a', R a a' -> outU Q (f a) (f' a')) -> outU Q (bind x f) (bind x' f').
Proof. intros [a a' H| |y] K; cbn; [auto|constructor|constructor]. Qed.
Lemma outU_same {A} (x : outcome A) : outU eq x x.
Proof. destruct x; constructor. reflexivity. Qed.
Lemma outU_bind_same {A B B'} (Q : B -> B' -> Prop) (x : outcome A) f f' :
  (forall a, outU Q (f a) (f' a)) -> outU Q (bind x f) (bind x f').
Proof. intros K. eapply outU_bind; [apply outU_same|]. intros a a' <-. apply K. Qed.
Lemma outU_assert {B B'} (Q : B -> B' -> Prop) (b : bool) k k' :
  outU Q k k' -> outU Q (assert! b in k) (assert! b in k').
Proof. intros H. destruct b; cbn; [assumption|constructor]. Qed.
Lemma outU_for {A B} (R : A -> B -> Prop) n f f' s s' :
  (forall i a b, i < n -> R a b -> outU R (f i a) (f' i b)) -> R s s' -> outU R (for_ n f s) (for_ n f' s').
Proof.
  intros H. unfold for_.
  assert (G : forall d i s s', i + d = n -> R s s' -> outU R (for_from i d f s) (for_from i d f' s')).
  { induction d as [|d IH]; intros i u u' E Hu; cbn [for_from]; [now constructor|].
    eapply outU_bind; [apply H; [lia|exact Hu]|]. intros a b Hab. apply IH; [lia|assumption]. }
  apply G. lia.
Qed.
(** What holds at the end of a loop that returns. *)
Lemma for_ok_inv {S} (I : nat -> S -> Prop) n (body : nat -> S -> outcome S) s s' :
  for_ n body s = Ok s' -> (forall i a b, i < n -> I i a -> body i a = Ok b -> I (Datatypes.S i) b) -> I 0 s -> I n s'.
Proof.
  unfold for_. intros E H H0.
  assert (G : forall d i s, i + d = n -> for_from i d body s = Ok s' -> I i s -> I n s').
  { induction d as [|d IH]; intros i u Ed Eu Hu; cbn [for_from] in Eu.
    - injection Eu as <-. now replace n with i by lia.
    - destruct (body i u) as [v| |] eqn:Ev; cbn [bind] in Eu; try discriminate.
      eapply (IH (Datatypes.S i)); [lia|exact Eu|]. eapply H; eauto. lia. }
  eapply (G n 0); eauto.
Qed.
Lemma for_no_panic {S} n (body : nat -> S -> outcome S) s :
  (forall i a, body i a <> Panic) -> for_ n body s <> Panic.
Proof.
  intros H. unfold for_. generalize 0. revert s. induction n as [|n IH]; intros s i; cbn [for_from]; [discriminate|].
  destruct (body i s) as [v| |] eqn:Ev; cbn [bind]; [apply IH|exfalso; eapply H; eauto|discriminate].
Qed.

(** ** The naive kernel, if it returns *)

Section Naive.
  Context {F : Type} (o : fops F).
  Hypothesis Hzero : feq o (fzero o) (fzero o) = true.

  (** The sum of the products of pairs, from the left. *)
  Definition lsum (ps : list (F * F)) : F :=
    fold_left (fun v '(x, y) => fadd o v (fmul o x y)) ps (fzero o).

  Lemma write_inv (b b' : buf F) i v : write b i v = Ok b' ->
    i < length b /\ length b' = length b /\ nth_error b' i = Some (Some v) /\
    forall q, q <> i -> nth_error b' q = nth_error b q.
  Proof.
    unfold write. destruct (Nat.ltb_spec i (length b)) as [L|L]; [|discriminate]. intros E. injection E as <-.
    split; [assumption|]. split; [apply set_nth_length|]. split.
    - now apply nth_error_set_nth_eq.
    - intros q Hq. apply nth_error_set_nth_neq. congruence.
  Qed.

  Section Call.
    Context (m k n : nat) (a : list F) (pa rsa csa : nat) (b : list F) (pb rsb csb pc rsc csc : nat) (out : buf F).
    Hypothesis Hinj : forall i j i' j', i < m -> j < n -> i' < m -> j' < n ->
      rsc * i + csc * j = rsc * i' + csc * j' -> i = i' /\ j = j'.

    Definition pairs i j := map (fun p => (nth (pa + (rsa * i + csa * p)) a (fzero o), nth (pb + (rsb * p + csb * j)) b (fzero o)))
      (seq 0 k).
    Definition inside i j := forall p, p < k ->
      pa + (rsa * i + csa * p) < length a /\ pb + (rsb * p + csb * j) < length b.

    Lemma naive_entry i j v :
      for_ k (fun p v =>
        let* x := raw_get a (pa + (rsa * i + csa * p)) in
        let* y := raw_get b (pb + (rsb * p + csb * j)) in
        Ok (fadd o v (fmul o x y))) (fzero o) = Ok v ->
      v = lsum (pairs i j) /\ inside i j.
    Proof.
      intros E.
      apply (for_ok_inv (fun q v => v = lsum (map (fun p => (nth (pa + (rsa * i + csa * p)) a (fzero o),
          nth (pb + (rsb * p + csb * j)) b (fzero o))) (seq 0 q)) /\
        forall p, p < q -> pa + (rsa * i + csa * p) < length a /\ pb + (rsb * p + csb * j) < length b)) in E;
        [exact E| |split; [reflexivity|lia]].
      intros q u w Hq [-> Hin]. unfold raw_get.
      destruct (nth_error a _) as [x|] eqn:Ex; [|discriminate]. destruct (nth_error b _) as [y|] eqn:Ey; [|discriminate].
      cbn [bind]. intros Ew. injection Ew as <-. rewrite seq_S, map_app. unfold lsum. rewrite fold_left_app. cbn [map fold_left Nat.add].
      rewrite (nth_error_nth _ _ _ Ex), (nth_error_nth _ _ _ Ey). split; [reflexivity|].
      intros p Hp. destruct (Nat.eq_dec p q) as [->|N]; [|apply Hin; lia].
      split; [apply (proj1 (nth_error_Some _ _)); congruence|apply (proj1 (nth_error_Some _ _)); congruence].
    Qed.

    Lemma naive_ok d :
      sgemm o m k n (fone o) a pa rsa csa b pb rsb csb (fzero o) pc rsc csc out = Ok d ->
      length d = length out /\
      (forall i j, i < m -> j < n -> inside i j /\ pc + (rsc * i + csc * j) < length out /\
         nth_error d (pc + (rsc * i + csc * j)) = Some (Some (fmul o (fone o) (lsum (pairs i j))))) /\
      (forall q, (forall i j, i < m -> j < n -> q <> pc + (rsc * i + csc * j)) -> nth_error d q = nth_error out q).
    Proof.
      unfold sgemm. rewrite Hzero. cbn [assert_ bind]. intros E.
      set (D := fun (i0 j0 i j : nat) => i < i0 \/ (i = i0 /\ j < j0)).
      set (I := fun i0 j0 (c : buf F) => length c = length out /\
        (forall i j, i < m -> j < n -> D i0 j0 i j -> inside i j /\ pc + (rsc * i + csc * j) < length out /\
           nth_error c (pc + (rsc * i + csc * j)) = Some (Some (fmul o (fone o) (lsum (pairs i j))))) /\
        (forall q, (forall i j, i < m -> j < n -> D i0 j0 i j -> q <> pc + (rsc * i + csc * j)) -> nth_error c q = nth_error out q)).
      assert (G : I m 0 d).
      { refine (for_ok_inv (fun i c => I i 0 c) m _ out d E _ _).
        - intros i c c1 Hi HI Ec.
          assert (G : I i n c1).
          { refine (for_ok_inv (fun j c => I i j c) n _ c c1 Ec _ HI).
            intros j c2 c3 Hj (L & Hd & Hu) E3.
            destruct (for_ k _ (fzero o)) as [v| |] eqn:Ev; cbn [bind] in E3; try discriminate.
            apply naive_entry in Ev. destruct Ev as [-> Hin].
            destruct (write_inv _ _ _ _ E3) as (W1 & W2 & W3 & W4).
            split; [congruence|]. split.
            - intros i' j' Hi' Hj' HD. destruct (Nat.eq_dec i' i) as [->|Ni]; [destruct (Nat.eq_dec j' j) as [->|Nj]|].
              + split; [assumption|]. split; [lia|assumption].
              + rewrite W4; [apply Hd; auto; unfold D in *; lia|]. intros Q. destruct (Hinj i j' i j); auto; lia.
              + rewrite W4; [apply Hd; auto; unfold D in *; lia|]. intros Q. destruct (Hinj i' j' i j); auto; lia.
            - intros q Hq. rewrite W4; [apply Hu|].
              + intros i' j' Hi' Hj' HD. apply Hq; auto. unfold D in *. lia.
              + apply Hq; auto. unfold D. lia. }
          destruct G as (L & Hd & Hu). split; [assumption|]. split.
          + intros i' j' Hi' Hj' HD. apply Hd; auto. unfold D in *. lia.
          + intros q Hq. apply Hu. intros i' j' Hi' Hj' HD. apply Hq; auto. unfold D in *. lia.
        - split; [reflexivity|]. split; [unfold D; lia|reflexivity]. }
      destruct G as (L & Hd & Hu). split; [assumption|]. split.
      - intros i j Hi Hj. apply Hd; auto. unfold D. lia.
      - intros q Hq. apply Hu. intros i j Hi Hj _. now apply Hq.
    Qed.

    Lemma naive_no_panic :
      sgemm o m k n (fone o) a pa rsa csa b pb rsb csb (fzero o) pc rsc csc out <> Panic.
    Proof.
      unfold sgemm. rewrite Hzero. cbn [assert_ bind]. apply for_no_panic. intros i c. apply for_no_panic. intros j c'.
      destruct (for_ k _ (fzero o)) as [v| |] eqn:Ev; cbn [bind]; [|exfalso; revert Ev; apply for_no_panic|discriminate].
      - unfold write. destruct (_ <? _); discriminate.
      - intros p v. unfold raw_get. destruct (nth_error a _); [|discriminate]. destruct (nth_error b _); discriminate.
    Qed.
  End Call.
End Naive.

(** ** A kernel follows the naive one *)

Definition kernel_sim {G F} (og : fops G) (of : fops F) (h : F -> G) (R : G -> F -> Prop) (K1 : kernel G) (K2 : kernel F) : Prop :=
  forall m k n a pa rsa csa b pb rsb csb pc rsc csc out out',
  (forall i j i' j', i < m -> j < n -> i' < m -> j' < n ->
     rsc * i + csc * j = rsc * i' + csc * j' -> i = i' /\ j = j') ->
  Forall2 (optR R) out out' ->
  outU (Forall2 (optR R)) (K1 m k n (fone og) (map h a) pa rsa csa (map h b) pb rsb csb (fzero og) pc rsc csc out)
    (K2 m k n (fone of) a pa rsa csa b pb rsb csb (fzero of) pc rsc csc out').

Lemma Forall2_nth {A B} (R : A -> B -> Prop) l l' : length l = length l' ->
  (forall i x y, nth_error l i = Some x -> nth_error l' i = Some y -> R x y) -> Forall2 R l l'.
Proof.
  revert l'. induction l as [|x l IH]; intros [|y l'] L H; cbn in L; try discriminate; constructor.
  - now apply (H 0).
  - apply IH; [lia|]. intros i. apply (H (Datatypes.S i)).
Qed.
Lemma Forall2_nth_inv {A B} (R : A -> B -> Prop) l l' : Forall2 R l l' ->
  forall i x y, nth_error l i = Some x -> nth_error l' i = Some y -> R x y.
Proof.
  induction 1 as [|x y l l' H _ IH]; intros [|i] u v E E'; cbn in *; try discriminate; [congruence|eauto].
Qed.
Lemma Forall2_len {A B} (R : A -> B -> Prop) l l' : Forall2 R l l' -> length l = length l'.
Proof. induction 1; cbn; congruence. Qed.

Lemma naive_sim {G F} (og : fops G) (of : fops F) (h : F -> G) (E : list (F * F) -> F -> Prop) (R : G -> F -> Prop) K :
  feq og (fzero og) (fzero og) = true -> computes of E K ->
  (forall ps z, E ps z -> R (fmul og (fone og) (lsum og (map (fun '(x, y) => (h x, h y)) ps))) z) ->
  kernel_sim og of h R (sgemm og) K.
Proof.
  intros Hz HK HR m k n a pa rsa csa b pb rsb csb pc rsc csc out out' Hinj Hout.
  pose proof (Forall2_len _ _ _ Hout) as Lo.
  destruct (sgemm og _ _ _ _ _ _ _ _ _ _ _ _ _ _ _ _ _) as [d| |] eqn:Ed; [|exfalso; eapply naive_no_panic; eauto|constructor].
  destruct (naive_ok og Hz m k n _ _ _ _ _ _ _ _ _ _ _ _ Hinj d Ed) as (Ld & Hd & Hu).
  unfold inside in Hd. rewrite !map_length in Hd.
  destruct (HK m k n a pa rsa csa b pb rsb csb pc rsc csc out') as (d' & Ed' & Ld' & Hd' & Hu').
  - intros i p j Hi Hp Hj. now apply (Hd i j Hi Hj).
  - intros i j Hi Hj. rewrite <- Lo. now apply (Hd i j Hi Hj).
  - exact Hinj.
  - rewrite Ed'. constructor. apply Forall2_nth; [congruence|]. intros q x y Ex Ey.
    destruct (in_dec Nat.eq_dec q (flat_map (fun i => map (fun j => pc + (rsc * i + csc * j)) (seq 0 n)) (seq 0 m))) as [I|I].
    + apply in_flat_map in I. destruct I as (i & Hi & I). apply in_map_iff in I. destruct I as (j & <- & Hj).
      apply in_seq in Hi, Hj. destruct (Hd i j ltac:(lia) ltac:(lia)) as (Hin & _ & E1).
      destruct (Hd' i j ltac:(lia) ltac:(lia)) as (z & E2 & HE).
      rewrite E1 in Ex. rewrite E2 in Ey. injection Ex as <-. injection Ey as <-. constructor.
      apply HR in HE. rewrite map_map in HE. unfold pairs.
      erewrite map_ext_in; [exact HE|]. intros p Hp. apply in_seq in Hp. destruct (Hin p ltac:(lia)) as [P1 P2].
      cbn beta. f_equal.
      * rewrite (nth_indep _ (fzero og) (h (fzero of))) by (now rewrite map_length). apply map_nth.
      * rewrite (nth_indep _ (fzero og) (h (fzero of))) by (now rewrite map_length). apply map_nth.
    + assert (Hq : forall i j, i < m -> j < n -> q <> pc + (rsc * i + csc * j)).
      { intros i j Hi Hj ->. apply I. apply in_flat_map. exists i. split; [apply in_seq; lia|].
        apply in_map_iff. exists j. split; [reflexivity|apply in_seq; lia]. }
      rewrite Hu in Ex by assumption. rewrite Hu' in Ey by assumption.
      eapply (Forall2_nth_inv _ _ _ Hout); eauto.
Qed.

(** ** Products by related kernels *)

Lemma assume_init_sim {A B} (R : A -> B -> Prop) b b' :
  Forall2 (optR R) b b' -> outU (Forall2 R) (assume_init b) (assume_init b').
Proof.
  induction 1 as [|x y b b' H _ IH]; cbn; [repeat constructor|].
  destruct H as [x y H|]; [|constructor]. eapply outU_bind; [exact IH|]. intros l l' Hl. repeat constructor; assumption.
Qed.

Lemma unsafe_init_sim {A B} (R : A -> B -> Prop) c n s f f' :
  (forall b b', Forall2 (optR R) b b' -> outU (Forall2 (optR R)) (f b) (f' b')) ->
  outU (tR R) (unsafe_init_ c n s f) (unsafe_init_ c n s f').
Proof.
  intros H. unfold unsafe_init_, unsafe_init, alloc. destruct (_ <=? _)%Z; [constructor|]. destruct (_ && _); [constructor|].
  cbn [bind]. rewrite !bind_assoc. eapply (outU_bind (Forall2 (optR R))).
  - apply H. induction n; cbn; repeat constructor; assumption.
  - intros b b' Hb. cbn [bind]. rewrite ?bind_assoc. eapply (outU_bind (Forall2 R)); [apply assume_init_sim; assumption|]. intros l l' Hl.
    rewrite !bind_assoc. unfold tensor_new. rewrite !bind_assoc. apply outU_bind_same. intros q.
    rewrite (Forall2_len _ _ _ Hl). destruct (q =? length l'); cbn; [|constructor]. constructor.
    split; [reflexivity|]. split; [reflexivity|]. split; [reflexivity|exact Hl].
Qed.

Section By.
  Context {G F : Type} (og : fops G) (of : fops F) (h : F -> G) (R : G -> F -> Prop) (K1 : kernel G) (K2 : kernel F).
  Hypothesis HK : kernel_sim og of h R K1 K2.

  Lemma inj_rows m n i j i' j' : i < m -> j < n -> i' < m -> j' < n -> n * i + 1 * j = n * i' + 1 * j' -> i = i' /\ j = j'.
  Proof.
    intros _ Hj _ Hj' E. assert (i = i').
    { destruct (Nat.lt_trichotomy i i') as [L|[L|L]]; [exfalso; nia|assumption|exfalso; nia]. }
    subst. split; [reflexivity|lia].
  Qed.

  Lemma ptr_add_tmap (t : tensor F) p q : ptr_add (tdata (tmap h t)) p q = ptr_add (tdata t) p q.
  Proof. unfold ptr_add. cbn [tmap tdata]. now rewrite map_length. Qed.

  Lemma matmul_by_sim c a b tr :
    outU (tR R) (matmul_by og K1 c (tmap h a) (tmap h b) tr) (matmul_by of K2 c a b tr).
  Proof.
    unfold matmul_by. cbn [tmap tshape toffset]. apply outU_assert.
    change (mkn tr (tmap h a) (tmap h b)) with (mkn tr a b).
    apply outU_bind_same. intros [[m k] n].
    do 11 (apply outU_bind_same; intros ?).
    apply unsafe_init_sim. intros out out' Hout. apply outU_for; [|assumption]. intros i u u' Hi Hu.
    apply outU_bind_same. intros ka. rewrite ptr_add_tmap. apply outU_bind_same. intros pa.
    apply outU_bind_same. intros kb. rewrite ptr_add_tmap. apply outU_bind_same. intros pb.
    apply outU_bind_same. intros pc. unfold matmul_sgemm_by. cbn [tmap tshape tdata].
    do 4 (apply outU_bind_same; intros ?).
    destruct tr; apply HK; try assumption; apply inj_rows.
  Qed.

  Lemma matvec_by_sim c a x tr :
    outU (tR R) (matvec_by og K1 c (tmap h a) (tmap h x) tr) (matvec_by of K2 c a x tr).
  Proof.
    unfold matvec_by. cbn [tmap tshape]. apply outU_assert.
    do 6 (apply outU_bind_same; intros ?).
    apply outU_bind_same. intros ?.
    change (matvec_o_size tr (tmap h a) (tmap h x)) with (matvec_o_size tr a x).
    apply outU_bind_same. intros [oc orr].
    do 3 (apply outU_bind_same; intros ?).
    apply unsafe_init_sim. intros out out' Hout. apply outU_for; [|assumption]. intros i u u' Hi Hu.
    apply outU_bind_same. intros ka.
    change (as_wrap_ptr (tmap h a) ka) with (as_wrap_ptr a ka). apply outU_bind_same. intros pa.
    apply outU_bind_same. intros kx.
    change (as_wrap_ptr (tmap h x) kx) with (as_wrap_ptr x kx). apply outU_bind_same. intros px.
    apply outU_bind_same. intros po. unfold matvec_sgemm_by. cbn [tmap tshape tdata].
    do 2 (apply outU_bind_same; intros ?).
    destruct tr; try constructor; apply HK; try assumption; apply inj_rows.
  Qed.
End By.
