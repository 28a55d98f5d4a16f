(** * A small program logic for safety: results satisfy a condition, nothing is undefined *)
From Coq Require Import ZifyBool ZifyNat ZifyN.
From Verif Require Import Base ShapeModel TensorModel AxisModel Spec BaseFacts SafeFacts ShapeFacts SplitFacts.

(** The call is not undefined, and a value it returns satisfies [P]. *)
Definition post {A} (x : outcome A) (P : A -> Prop) : Prop :=
  match x with Ok a => P a | Panic => True | Ub => False end.

Lemma post_ok {A} (a : A) (P : A -> Prop) : P a -> post (Ok a) P.
Proof. auto. Qed.
Lemma post_bind {A B} (x : outcome A) (f : A -> outcome B) (Q : A -> Prop) P :
  post x Q -> (forall a, Q a -> post (f a) P) -> post (bind x f) P.
Proof. destruct x; cbn; auto. Qed.
Lemma post_safe {A} (x : outcome A) : safe x -> post x (fun a => x = Ok a).
Proof. destruct x; cbn; auto. Qed.
Lemma post_bind_safe {A B} (x : outcome A) (f : A -> outcome B) P :
  safe x -> (forall a, x = Ok a -> post (f a) P) -> post (bind x f) P.
Proof. intros H. apply post_bind. now apply post_safe. Qed.
Lemma post_assert {B} b (k : outcome B) P : (b = true -> post k P) -> post (bind (assert_ b) (fun _ => k)) P.
Proof. destruct b; cbn; auto. Qed.
Lemma post_weaken {A} (x : outcome A) (P Q : A -> Prop) : post x P -> (forall a, P a -> Q a) -> post x Q.
Proof. destruct x; cbn; auto. Qed.
Lemma post_not_ub {A} (x : outcome A) P : post x P -> safe x.
Proof. destruct x; cbn; intros H; [discriminate|discriminate|destruct H]. Qed.
Lemma post_value {A} (x : outcome A) P a : post x P -> x = Ok a -> P a.
Proof. intros H ->. exact H. Qed.

Lemma post_for_from {St} (Inv : nat -> St -> Prop) i n (body : nat -> St -> outcome St) s :
  Inv i s -> (forall k s, i <= k < i + n -> Inv k s -> post (body k s) (Inv (S k))) ->
  post (for_from i n body s) (Inv (i + n)).
Proof.
  revert i s. induction n as [|n IH]; intros i s H0 Hs; cbn [for_from].
  - rewrite Nat.add_0_r. exact H0.
  - apply post_bind with (Q := Inv (S i)); [apply Hs; [lia|exact H0]|]. intros s' H'.
    replace (i + S n) with (S i + n) by lia. apply IH; [exact H'|]. intros. apply Hs; [lia|assumption].
Qed.
Lemma post_for {St} (Inv : nat -> St -> Prop) n (body : nat -> St -> outcome St) s :
  Inv 0 s -> (forall k s, k < n -> Inv k s -> post (body k s) (Inv (S k))) -> post (for_ n body s) (Inv n).
Proof. intros H0 Hs. apply (post_for_from Inv 0 n); [exact H0|]. intros. apply Hs; [lia|assumption]. Qed.
Lemma post_for_range {St} (Inv : nat -> St -> Prop) a b (body : nat -> St -> outcome St) s :
  a <= b -> Inv a s -> (forall k s, a <= k < b -> Inv k s -> post (body k s) (Inv (S k))) -> post (for_range a b body s) (Inv b).
Proof.
  intros Hab H0 Hs. unfold for_range. replace b with (a + (b - a)) at 2 by lia.
  apply post_for_from; [exact H0|]. intros. apply Hs; [lia|assumption].
Qed.
(** A loop that maintains a condition. *)
Lemma post_for_keep {St} (I : St -> Prop) n (body : nat -> St -> outcome St) s :
  I s -> (forall k s, k < n -> I s -> post (body k s) I) -> post (for_ n body s) I.
Proof. intros. now apply (post_for (fun _ => I)). Qed.
Lemma post_for_range_keep {St} (I : St -> Prop) a b (body : nat -> St -> outcome St) s :
  I s -> (forall k s, a <= k < b -> I s -> post (body k s) I) -> post (for_range a b body s) I.
Proof.
  intros H0 Hs. unfold for_range. apply (post_for_from (fun _ => I)); [exact H0|]. intros. apply Hs; [lia|assumption].
Qed.
(** A loop over a list; the invariant sees the items done and the items left. *)
Lemma post_for_each {X St} (Inv : list X -> St -> Prop) (l : list X) (body : X -> St -> outcome St) s :
  Inv [] s ->
  (forall done x left s, l = done ++ x :: left -> Inv done s -> post (body x s) (Inv (done ++ [x]))) ->
  post (for_each l body s) (Inv l).
Proof.
  intros H0 Hs.
  assert (G : forall left done s, l = done ++ left -> Inv done s -> post (for_each left body s) (Inv l)).
  { induction left as [|x left IH]; intros done s' E H; cbn [for_each].
    - rewrite app_nil_r in E. subst l. exact H.
    - apply post_bind with (Q := Inv (done ++ [x])); [eapply Hs; eauto|]. intros s2 H2.
      apply (IH (done ++ [x])); [now rewrite <- app_assoc|exact H2]. }
  apply (G l [] s); auto.
Qed.
Lemma post_map_out {X Y} (f : X -> outcome Y) l (P : Y -> Prop) :
  (forall x, In x l -> post (f x) P) -> post (map_out f l) (fun ys => length ys = length l /\ Forall P ys).
Proof.
  induction l as [|x l IH]; intros H; cbn [map_out]; [split; constructor|].
  apply post_bind with (Q := P); [apply H; now left|]. intros y Hy.
  apply post_bind with (Q := fun ys => length ys = length l /\ Forall P ys); [apply IH; intros; apply H; now right|].
  intros ys [Hl Hf]. split; cbn; [lia|now constructor].
Qed.

(** ** Buffers being initialised *)

Definition written {A} (b : buf A) (p : nat) : Prop := exists v, nth_error b p = Some (Some v).
(** A buffer of [L] cells of which at least those in [W] are initialised. *)
Definition has {A} (L : nat) (W : nat -> Prop) (b : buf A) : Prop :=
  length b = L /\ forall p, W p -> written b p.

Lemma has_weaken {A} L (W W' : nat -> Prop) (b : buf A) : has L W b -> (forall p, W' p -> W p) -> has L W' b.
Proof. intros [Hl Hw] H. split; auto. Qed.
Lemma has_alloc {A} L : @has A L (fun _ => False) (repeat None L).
Proof. split; [apply repeat_length|easy]. Qed.
Lemma write_post {A} L W (b : buf A) i v : has L W b -> i < L -> post (write b i v) (has L (fun p => W p \/ p = i)).
Proof.
  intros [Hl Hw] Hi. unfold write. replace (i <? length b) with true by lia. cbn. split; [now rewrite set_nth_length|].
  intros p [H| ->]; [|exists v; apply nth_error_set_nth_eq; lia].
  destruct (Nat.eq_dec p i) as [->|N]; [exists v; apply nth_error_set_nth_eq; lia|].
  destruct (Hw p H) as [w E]. exists w. rewrite nth_error_set_nth_neq; auto.
Qed.
Lemma assume_init_post {A} L (b : buf A) : has L (fun p => p < L) b -> post (assume_init b) (fun d => length d = L).
Proof.
  intros [Hl Hw]. revert L Hl Hw. induction b as [|o b IH]; intros L Hl Hw; cbn [assume_init]; [exact Hl|].
  destruct L as [|L]; [discriminate|]. destruct (Hw 0) as [v E]; [lia|]. cbn in E. injection E as ->.
  apply post_bind with (Q := fun d => length d = L).
  - apply IH; [cbn in Hl; lia|]. intros p Hp. destruct (Hw (S p)) as [w E]; [lia|]. exists w. exact E.
  - intros d Hd. cbn. lia.
Qed.

(** [body] initialises the cells in [P]; [b] extracts the buffer from the loop state. *)
Definition adds {A St} (L : nat) (buf_of : St -> buf A) (body : St -> outcome St) (P : nat -> Prop) : Prop :=
  forall W s, has L W (buf_of s) -> post (body s) (fun s' => has L (fun p => W p \/ P p) (buf_of s')).

Lemma adds_weaken {A St} L (b : St -> buf A) body (P Q : nat -> Prop) : adds L b body P -> (forall p, Q p -> P p) -> adds L b body Q.
Proof. intros H HQ W s Hs. eapply post_weaken; [apply H, Hs|]. intros s' H'. eapply has_weaken; [exact H'|]. intuition. Qed.
Lemma adds_for_from {A St} L (b : St -> buf A) i n (body : nat -> St -> outcome St) (P : nat -> nat -> Prop) :
  (forall k, i <= k < i + n -> adds L b (body k) (P k)) -> adds L b (for_from i n body) (fun p => exists k, i <= k < i + n /\ P k p).
Proof.
  revert i. induction n as [|n IH]; intros i H W s Hs; cbn [for_from].
  - cbn. eapply has_weaken; [exact Hs|]. intros p [Hp|(k & Hk & _)]; [exact Hp|lia].
  - eapply post_bind; [apply (H i ltac:(lia)), Hs|]. intros s' H'. cbn beta in H'.
    eapply post_weaken; [apply IH; [|exact H']; intros; apply H; lia|]. intros s2 H2. eapply has_weaken; [exact H2|].
    intros p [Hp|(k & Hk & Hp)]; [auto|]. destruct (Nat.eq_dec k i) as [->|]; [auto|]. right. exists k. split; [lia|exact Hp].
Qed.
Lemma adds_for {A St} L (b : St -> buf A) n (body : nat -> St -> outcome St) (P : nat -> nat -> Prop) :
  (forall k, k < n -> adds L b (body k) (P k)) -> adds L b (for_ n body) (fun p => exists k, k < n /\ P k p).
Proof.
  intros H. eapply adds_weaken; [apply (adds_for_from L b 0 n body P); intros; apply H; lia|].
  intros p (k & Hk & Hp). exists k. split; [lia|exact Hp].
Qed.
Lemma adds_for_range {A St} L (b : St -> buf A) x y (body : nat -> St -> outcome St) (P : nat -> nat -> Prop) :
  (forall k, x <= k < y -> adds L b (body k) (P k)) -> adds L b (for_range x y body) (fun p => exists k, x <= k < y /\ P k p).
Proof.
  intros H. eapply adds_weaken; [apply (adds_for_from L b x (y - x) body P); intros; apply H; lia|].
  intros p (k & Hk & Hp). exists k. split; [lia|exact Hp].
Qed.

(** ** Values of the types of the crate *)

(** A value of the struct [Shape]: an array of six [u32] (and any rank). *)
Definition a_shape (s : shape) : Prop := length (dims s) = 6 /\ Forall (fun d => Z.of_nat d < two32)%Z (dims s).

(** The tensor shows exactly as many elements as its shape says, all inside its buffer. *)
Definition inside {A} (c : cfg) (t : tensor A) : Prop :=
  a_shape (tshape t) /\ size c (tshape t) = Ok (tsize t) /\ toffset t + tsize t <= length (tdata t).

(** The dimensions of a shape, outermost first. *)
Definition dlist (s : shape) : list nat := rev (firstn (rank s) (dims s)).

Lemma dlist_length s : a_shape s -> rank s <= 6 -> length (dlist s) = rank s.
Proof. intros [Hl _] H. unfold dlist. rewrite rev_length, firstn_length. lia. Qed.
Lemma dlist_small s : a_shape s -> Forall (fun d => Z.of_nat d < two32)%Z (dlist s).
Proof.
  intros [_ Hf]. unfold dlist. apply Forall_rev. rewrite Forall_forall in *. intros d Hd. apply Hf.
  rewrite <- (firstn_skipn (rank s) (dims s)). apply in_or_app. auto.
Qed.

Lemma firstn_S_skip {X} (l : list X) a n d : nth_error l (a + n) = Some d ->
  firstn (S n) (skipn a l) = firstn n (skipn a l) ++ [d].
Proof.
  intros E. rewrite <- nth_error_skipn in E. revert E. generalize (skipn a l). clear. induction n as [|n IH]; intros [|x l] E; cbn in *; try discriminate.
  - now injection E as ->.
  - f_equal. now apply IH.
Qed.

Section Checked.
  Context (c : cfg) (Hc : overflow_checks c = true).

  Lemma arith_value m v n : arith c m v = Ok n -> Z.of_nat n = v.
  Proof.
    unfold arith. rewrite Hc. destruct (_ && _)%bool eqn:E; [|discriminate]. intros H. apply Ok_inj in H. subst n. lia.
  Qed.
  Lemma uadd_value a b n : uadd c a b = Ok n -> n = a + b.
  Proof. intros H. apply arith_value in H. lia. Qed.
  Lemma usub_value a b n : usub c a b = Ok n -> b <= a /\ n = a - b.
  Proof. intros H. apply arith_value in H. lia. Qed.
  Lemma umul_val a b n : umul c a b = Ok n -> n = a * b.
  Proof. intros H. apply arith_value in H. lia. Qed.
  Lemma mul32_value a b n : mul32 c a b = Ok n -> n = a * b.
  Proof. intros H. apply arith_value in H. lia. Qed.
  Lemma product32_value l : forall acc n, product32 c acc l = Ok n -> n = acc * prod l.
  Proof.
    induction l as [|d l IH]; intros acc n H; cbn [product32 prod] in *; [apply Ok_inj in H; lia|].
    destruct (mul32 c acc d) as [a| |] eqn:E; try discriminate. apply mul32_value in E. apply IH in H. subst. now rewrite Nat.mul_assoc.
  Qed.
  Lemma product64_value l : forall acc n, product64 c acc l = Ok n -> n = acc * prod l.
  Proof.
    induction l as [|d l IH]; intros acc n H; cbn [product64 prod] in *; [apply Ok_inj in H; lia|].
    destruct (umul c acc d) as [a| |] eqn:E; try discriminate. apply umul_val in E. apply IH in H. subst. now rewrite Nat.mul_assoc.
  Qed.
  Lemma sum64_value l : forall acc n, sum64 c acc l = Ok n -> n = acc + list_sum l.
  Proof.
    induction l as [|d l IH]; intros acc n H; cbn [sum64] in *; [apply Ok_inj in H; cbn; lia|].
    destruct (uadd c acc d) as [a| |] eqn:E; try discriminate. apply uadd_value in E. apply IH in H. change (list_sum (d :: l)) with (d + list_sum l). lia.
  Qed.

  Lemma size_value s n : a_shape s -> size c s = Ok n -> rank s <= 6 /\ n = prod (dlist s).
  Proof.
    intros [Hl _] H. unfold size, aslice in H. destruct (_ && _)%bool eqn:E; [|discriminate]. cbn [bind skipn] in H.
    apply product32_value in H. rewrite Nat.sub_0_r in H. unfold dlist. rewrite prod_rev. lia.
  Qed.
  Lemma dim_value s i d : a_shape s -> rank s <= 6 -> dim c s i = Ok d -> i < rank s /\ nth_error (dlist s) i = Some d.
  Proof.
    intros Ha Hr H. unfold dim in H. destruct (usub c (rank s) 1) as [a| |] eqn:E1; try discriminate. apply usub_value in E1.
    cbn [bind] in H. destruct (usub c a i) as [k| |] eqn:E2; try discriminate. apply usub_value in E2. cbn [bind] in H.
    unfold aget in H. destruct (nth_error (dims s) k) as [v|] eqn:E3; [|discriminate]. apply Ok_inj in H. subst v.
    split; [lia|]. unfold dlist. destruct Ha as [Hl _].
    rewrite (nth_error_nth' (rev (firstn (rank s) (dims s))) 0) by (rewrite rev_length, firstn_length; lia).
    rewrite rev_nth by (rewrite firstn_length; lia). f_equal. rewrite firstn_length.
    replace (Nat.min (rank s) (length (dims s)) - S i) with k by lia.
    apply nth_error_nth. rewrite nth_error_firstn. replace (k <? rank s) with true by lia. exact E3.
  Qed.

  Lemma collect_dims_value s a b vec v p : a_shape s -> rank s <= 6 -> a <= b ->
    collect_dims c s a b vec = Ok (v, p) ->
    v = vec ++ firstn (b - a) (skipn a (dlist s)) /\ p = prod (firstn (b - a) (skipn a (dlist s))).
  Proof.
    intros Ha Hr Hab H. unfold collect_dims in H.
    pose (Inv := fun k (st : list nat * nat) => fst st = vec ++ firstn (k - a) (skipn a (dlist s)) /\ snd st = prod (firstn (k - a) (skipn a (dlist s)))).
    assert (G : post (for_range a b (fun i '(vec, p) => let* d := dim c s i in let* p' := umul c p d in Ok (vec ++ [d], p')) (vec, 1)) (Inv b)).
    { apply post_for_range; [exact Hab| |].
      - unfold Inv. rewrite Nat.sub_diag. cbn. rewrite app_nil_r. auto.
      - intros k [w q] Hk [H1 H2]. cbn [fst snd] in *. apply post_bind_safe; [auto with safe|]. intros d Ed.
        apply (dim_value s k d Ha Hr) in Ed. apply post_bind_safe; [auto with safe|]. intros q' Eq. apply umul_val in Eq.
        cbn. unfold Inv. replace (S k - a) with (S (k - a)) by lia. rewrite (firstn_S_skip _ a (k - a) d) by (replace (a + (k - a)) with k by lia; apply Ed).
        cbn [fst snd]. rewrite H1, <- app_assoc. split; [reflexivity|]. rewrite prod_app. cbn [prod]. subst. lia. }
    rewrite H in G. exact G.
  Qed.
  Lemma push_dims_value s a b vec v : a_shape s -> rank s <= 6 -> a <= b ->
    for_range a b (fun i vec => let* d := dim c s i in Ok (vec ++ [d])) vec = Ok v ->
    v = vec ++ firstn (b - a) (skipn a (dlist s)).
  Proof.
    intros Ha Hr Hab H.
    pose (Inv := fun k (st : list nat) => st = vec ++ firstn (k - a) (skipn a (dlist s))).
    assert (G : post (for_range a b (fun i vec => let* d := dim c s i in Ok (vec ++ [d])) vec) (Inv b)).
    { apply post_for_range; [exact Hab| |].
      - unfold Inv. rewrite Nat.sub_diag. cbn. now rewrite app_nil_r.
      - intros k w Hk H1. apply post_bind_safe; [auto with safe|]. intros d Ed.
        apply (dim_value s k d Ha Hr) in Ed. cbn. unfold Inv. replace (S k - a) with (S (k - a)) by lia.
        rewrite (firstn_S_skip _ a (k - a) d) by (replace (a + (k - a)) with k by lia; apply Ed).
        rewrite H1, <- app_assoc. reflexivity. }
    rewrite H in G. exact G.
  Qed.
  Lemma as_vec_value s v : a_shape s -> rank s <= 6 -> as_vec c s = Ok v -> v = dlist s.
  Proof.
    intros Ha Hr H. unfold as_vec in H.
    assert (E : for_range 0 (rank s) (fun i vec => let* d := dim c s i in Ok (vec ++ [d])) [] = Ok v) by (unfold for_range; rewrite Nat.sub_0_r; exact H).
    apply push_dims_value in E; auto; [|lia]. cbn in E. rewrite Nat.sub_0_r, firstn_all2 in E by (rewrite dlist_length; auto). exact E.
  Qed.
  Lemma prod_firstn_step (l : list nat) a n d : nth_error l (a + n) = Some d ->
    prod (firstn (S n) (skipn a l)) = prod (firstn n (skipn a l)) * d.
  Proof. intros E. rewrite (firstn_S_skip _ _ _ _ E), prod_app. cbn [prod]. lia. Qed.
  Lemma range_dims_value (l : list nat) a b n : a <= b ->
    for_range a b (fun i size => let* d := aget l i in mul32 c size d) 1 = Ok n ->
    n = prod (firstn (b - a) (skipn a l)).
  Proof.
    intros Hab H.
    pose (Inv := fun k (p : nat) => p = prod (firstn (k - a) (skipn a l))).
    assert (G : post (for_range a b (fun i size => let* d := aget l i in mul32 c size d) 1) (Inv b)).
    { apply post_for_range; [exact Hab| |].
      - unfold Inv. now rewrite Nat.sub_diag.
      - intros k w Hk H1. apply post_bind_safe; [auto with safe|]. intros d Ed. unfold aget in Ed.
        destruct (nth_error l k) as [x|] eqn:Ex; [|discriminate]. apply Ok_inj in Ed. subst x.
        eapply post_weaken; [apply post_safe; auto with safe|]. intros q Eq. cbn beta in Eq. apply mul32_value in Eq.
        unfold Inv in *. replace (S k - a) with (S (k - a)) by lia.
        rewrite (prod_firstn_step _ a (k - a) d) by (replace (a + (k - a)) with k by lia; exact Ex). now subst. }
    rewrite H in G. exact G.
  Qed.

  Lemma sublen_value s a b n : a_shape s -> rank s <= 6 -> a <= b -> sublen c s a b = Ok n ->
    b <= rank s /\ n = prod (firstn (b - a) (skipn a (dlist s))).
  Proof.
    intros Ha Hr Hab H. unfold sublen in H.
    destruct (usub c (rank s) b) as [x| |] eqn:E1; try discriminate. apply usub_value in E1. cbn [bind] in H.
    destruct (usub c (rank s) a) as [y| |] eqn:E2; try discriminate. apply usub_value in E2. cbn [bind] in H.
    apply range_dims_value in H; [|lia]. split; [lia|]. subst n. unfold dlist.
    set (u := firstn (rank s) (dims s)). assert (Hu : length u = rank s) by (unfold u; rewrite firstn_length; destruct Ha; lia).
    rewrite skipn_rev, firstn_rev, prod_rev, firstn_length.
    replace (firstn (y - x) (skipn x (dims s))) with (skipn (Nat.min (length u - a) (length u) - (b - a)) (firstn (length u - a) u)); [reflexivity|].
    replace (Nat.min (length u - a) (length u) - (b - a)) with x by lia.
    rewrite Hu. replace (rank s - a) with y by lia. unfold u. rewrite firstn_firstn.
    replace (Nat.min y (rank s)) with y by lia. rewrite firstn_skipn_comm. f_equal. f_equal. lia.
  Qed.
End Checked.
