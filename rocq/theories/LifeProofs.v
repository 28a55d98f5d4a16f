(** * Lifetime of the buffers (C62): proofs *)
From Coq Require Import Permutation ZifyBool ZifyNat ZifyN.
From Verif Require Import Base ShapeModel TensorModel LifeModel Spec BaseFacts SafeFacts SplitFacts.
From Verif Require Import LifeSpec.

(** ** Views stay inside *)

Lemma subslice_flat_inside {A} c (t : tensor A) o n s v :
  toffset t + tsize t <= length (tdata t) -> (Z.of_nat (length (tdata t)) < two32)%Z ->
  subslice_flat c t o n s = Ok v ->
  tdata v = tdata t /\ toffset t <= toffset v /\ toffset v + tsize v <= toffset t + tsize t.
Proof.
  intros Hin Hlt E. unfold subslice_flat in E.
  destruct (Nat.leb_spec o (tsize t)) as [Ho|Ho]; cbn in E; [|discriminate].
  destruct (uadd c o n) as [e| |] eqn:Ee; cbn [bind] in E; try discriminate.
  destruct (Nat.leb_spec e (tsize t)) as [He|He]; cbn in E; [|discriminate].
  destruct s as [s| |]; cbn [bind] in E; try discriminate.
  destruct (size c s) as [m| |] eqn:Em; cbn [bind] in E; try discriminate. apply size_lt in Em.
  destruct ((m =? n) || (m =? 0) && (n =? 1)) eqn:Emn; cbn [assert_ bind] in E; [|discriminate].
  assert (Hn : (Z.of_nat n < two32)%Z) by (unfold two32 in *; lia).
  rewrite uadd_ok in Ee by (unfold two64, two32 in *; lia). apply Ok_inj in Ee. subst e.
  rewrite uadd_ok in E by (unfold two64, two32 in *; lia). cbn [bind] in E. apply Ok_inj in E. subst v. cbn. repeat split; lia.
Qed.

Lemma subslice_inside {A} c (t : tensor A) o n v :
  toffset t + tsize t <= length (tdata t) -> (Z.of_nat (length (tdata t)) < two32)%Z ->
  subslice c t o n = Ok v ->
  tdata v = tdata t /\ toffset t <= toffset v /\ toffset v + tsize v <= toffset t + tsize t.
Proof.
  intros Hin Hlt E. unfold subslice in E.
  destruct (dim c (tshape t) 0); cbn [bind] in E; try discriminate.
  destruct (uadd c o n); cbn [bind] in E; try discriminate.
  destruct (_ <=? _); cbn [assert_ bind] in E; try discriminate.
  destruct (as_vec c (tshape t)); cbn [bind] in E; try discriminate.
  destruct (aslice _ _ _); cbn [bind] in E; try discriminate.
  destruct (product64 _ _ _); cbn [bind] in E; try discriminate.
  destruct (aset _ _ _); cbn [bind] in E; try discriminate.
  destruct (umul c o _); cbn [bind] in E; try discriminate.
  destruct (umul c n _); cbn [bind] in E; try discriminate.
  eapply subslice_flat_inside; eauto.
Qed.

(** ** Counting *)

Lemma filter_length_app {X} (f : X -> bool) l x :
  length (filter f (l ++ [x])) = length (filter f l) + if f x then 1 else 0.
Proof. rewrite filter_app, app_length. cbn. now destruct (f x). Qed.

Lemma filter_length_set {X} (f : X -> bool) l i x y :
  nth_error l i = Some x ->
  length (filter f (set_nth l i y)) + (if f x then 1 else 0) = length (filter f l) + if f y then 1 else 0.
Proof.
  intros E. apply nth_error_split in E. destruct E as (l1 & l2 & -> & <-). rewrite set_nth_middle.
  rewrite !filter_app, !app_length. cbn [filter]. destruct (f x), (f y); cbn [length]; lia.
Qed.

Lemma nth_error_incr {A} (st : heap A) a k :
  nth_error (incr st a) k =
  match nth_error (blocks st) k with
  | Some b => Some (if k =? a then mkBlock (bdata b) (S (strong b)) (bphase b) else b)
  | None => None
  end.
Proof.
  unfold incr. destruct (nth_error (blocks st) a) as [b|] eqn:E.
  - destruct (Nat.eqb_spec k a) as [->|N].
    + rewrite E. apply nth_error_set_nth_eq. eapply nth_error_Some_lt; eauto.
    + rewrite nth_error_set_nth_neq by auto. now destruct (nth_error (blocks st) k).
  - destruct (Nat.eqb_spec k a) as [->|N]; [now rewrite E|]. now destruct (nth_error (blocks st) k).
Qed.

Lemma nth_error_decr {A} (st : heap A) a k :
  nth_error (decr st a) k =
  match nth_error (blocks st) k with
  | Some b => Some (if k =? a then mkBlock (bdata b) (strong b - 1) (if strong b =? 1 then Dying else bphase b) else b)
  | None => None
  end.
Proof.
  unfold decr. destruct (nth_error (blocks st) a) as [b|] eqn:E.
  - destruct (Nat.eqb_spec k a) as [->|N].
    + rewrite E. apply nth_error_set_nth_eq. eapply nth_error_Some_lt; eauto.
    + rewrite nth_error_set_nth_neq by auto. now destruct (nth_error (blocks st) k).
  - destruct (Nat.eqb_spec k a) as [->|N]; [now rewrite E|]. now destruct (nth_error (blocks st) k).
Qed.

(** ** The invariant *)

Lemma owners_pos {A} (st : heap A) i h : live st i = Some h -> 0 < owners st (haddr h).
Proof.
  unfold live, owners. destruct (nth_error (tensors st) i) as [x|] eqn:E; [|discriminate]. intros ->.
  apply nth_error_split in E. destruct E as (l1 & l2 & -> & _). rewrite filter_app, app_length. cbn [filter on].
  rewrite Nat.eqb_refl. cbn [length]. lia.
Qed.

(** The block of a live tensor. *)
Lemma inv_held {A} (st : heap A) i h : inv st -> live st i = Some h ->
  exists b, nth_error (blocks st) (haddr h) = Some b /\ bphase b = Held /\
    hoffset h + hsize h <= length (bdata b) /\ (Z.of_nat (length (bdata b)) < two32)%Z.
Proof.
  intros H Hl. destruct (inv_tensor _ H _ _ Hl) as (b & E & Hb). destruct (inv_block _ H _ _ E) as (_ & Hp & Hz).
  pose proof (owners_pos _ _ _ Hl). exists b. repeat split; auto; try (apply Hz); now apply Hp.
Qed.

Lemma live_lt {A} (st : heap A) i h : live st i = Some h -> i < length (tensors st).
Proof. unfold live. destruct (nth_error (tensors st) i) eqn:E; [|discriminate]. intros _. eapply nth_error_Some_lt; eauto. Qed.

Lemma live_nth {A} (st : heap A) i h : live st i = Some h <-> nth_error (tensors st) i = Some (Some h).
Proof.
  unfold live. destruct (nth_error (tensors st) i) as [x|]; split; intros E; try discriminate; [now subst|]. now injection E as ->.
Qed.

Lemma inv_empty {A} : inv (@empty_heap A).
Proof. split; intros a b E; cbn in *; destruct a; discriminate. Qed.

(** A new handle on a held block, or a clone. *)
Lemma inv_share {A} (st : heap A) i h h' : inv st -> live st i = Some h -> haddr h' = haddr h ->
  (forall b, nth_error (blocks st) (haddr h) = Some b -> hoffset h' + hsize h' <= length (bdata b)) ->
  inv (mkHeap (incr st (haddr h)) (tensors st ++ [Some h']) (dropped st)).
Proof.
  intros H Hl Ha Hb. pose proof (owners_pos _ _ _ Hl) as Hpos. split; cbn [blocks tensors].
  - intros a b E. rewrite nth_error_incr in E. unfold owners in *. cbn [tensors] in *. rewrite filter_length_app. cbn [on]. rewrite Ha.
    destruct (nth_error (blocks st) a) as [b0|] eqn:E0; [|discriminate]. injection E as <-.
    destruct (inv_block _ H _ _ E0) as (Hs & Hp & Hz). unfold owners in *.
    destruct (Nat.eqb_spec (haddr h) a) as [<-|N].
    + rewrite Nat.eqb_refl. cbn. repeat split; auto; try lia. intros _. apply Hp. lia.
    + replace (a =? haddr h) with false by lia. rewrite Nat.add_0_r. auto.
  - intros j k Hj. apply live_nth in Hj. cbn [tensors] in Hj. rewrite nth_error_incr.
    assert (Hk : live st j = Some k \/ k = h').
    { destruct (Nat.lt_ge_cases j (length (tensors st))) as [L|L].
      - rewrite nth_error_app1 in Hj by auto. left. now apply live_nth.
      - rewrite nth_error_app2 in Hj by auto. destruct (j - length (tensors st)) as [|[|?]]; cbn in Hj; try discriminate.
        right. now injection Hj as ->. }
    destruct Hk as [Hk| ->].
    + destruct (inv_tensor _ H _ _ Hk) as (b & E & Hi). rewrite E. eexists. split; [reflexivity|]. now destruct (haddr k =? haddr h).
    + rewrite Ha. destruct (inv_tensor _ H _ _ Hl) as (b & E & Hi). rewrite E. eexists. split; [reflexivity|].
      rewrite Nat.eqb_refl. cbn. auto.
Qed.

Lemma inv_drop {A} (st : heap A) i h : inv st -> live st i = Some h ->
  inv (mkHeap (decr st (haddr h)) (set_nth (tensors st) i None) (dropped st)).
Proof.
  intros H Hl. pose proof (owners_pos _ _ _ Hl) as Hpos. pose proof (live_lt _ _ _ Hl) as Hi.
  pose proof (proj1 (live_nth _ _ _) Hl) as Hn. split; cbn [blocks tensors].
  - intros a b E. rewrite nth_error_decr in E. unfold owners in *. cbn [tensors] in *.
    pose proof (filter_length_set (on a) (tensors st) i (Some h) None Hn) as Hf. cbn [on] in Hf.
    destruct (nth_error (blocks st) a) as [b0|] eqn:E0; [|discriminate]. injection E as <-.
    destruct (inv_block _ H _ _ E0) as (Hs & Hp & Hz). unfold owners in *.
    destruct (Nat.eqb_spec (haddr h) a) as [<-|N].
    + rewrite Nat.eqb_refl. cbn [bdata strong bphase]. split; [lia|].
      destruct (Nat.eqb_spec (strong b0) 1) as [E1|E1]; split; try easy; try (split; intros; try discriminate; lia).
      * split; intros; [lia|]. apply Hp. lia.
    + replace (a =? haddr h) with false by lia. rewrite !Nat.add_0_r in Hf. rewrite Hf. auto.
  - intros j k Hj. apply live_nth in Hj. cbn [tensors] in Hj. rewrite nth_error_decr.
    destruct (Nat.eq_dec j i) as [->|N]; [rewrite nth_error_set_nth_eq in Hj by auto; discriminate|].
    rewrite nth_error_set_nth_neq in Hj by auto. apply live_nth in Hj.
    destruct (inv_tensor _ H _ _ Hj) as (b & E & Hb). rewrite E. eexists. split; [reflexivity|]. now destruct (haddr k =? haddr h).
Qed.

Lemma owners_out {A} (st : heap A) a : inv st -> length (blocks st) <= a -> owners st a = 0.
Proof.
  intros H Ha. destruct (Nat.eq_dec (owners st a) 0) as [|N]; auto. exfalso. unfold owners in N.
  destruct (filter (on a) (tensors st)) as [|y l] eqn:Ef; [now apply N|].
  assert (Hy : In y (filter (on a) (tensors st))) by (rewrite Ef; now left). apply filter_In in Hy.
  destruct Hy as [Hy Ho]. destruct y as [h|]; [|discriminate]. cbn in Ho. apply In_nth_error in Hy. destruct Hy as [j Hj].
  apply live_nth in Hj. destruct (inv_tensor _ H _ _ Hj) as (b & Eb & _). apply nth_error_Some_lt in Eb. lia.
Qed.

(** A block that never had an owner. *)
Lemma inv_dead {A} (st : heap A) xs p d : inv st -> p <> Held ->
  inv (mkHeap (blocks st ++ [mkBlock xs 0 p]) (tensors st) d).
Proof.
  intros H Hp. split; cbn [blocks tensors].
  - intros a b Eb. change (owners (mkHeap (blocks st ++ [mkBlock xs 0 p]) (tensors st) d) a) with (owners st a).
    destruct (Nat.lt_ge_cases a (length (blocks st))) as [L|L].
    + rewrite nth_error_app1 in Eb by auto. now apply (inv_block _ H).
    + pose proof (owners_out _ a H L) as H0. rewrite nth_error_app2 in Eb by auto.
      destruct (a - length (blocks st)) as [|[|?]] eqn:Ea; cbn in Eb; try discriminate. injection Eb as <-.
      rewrite H0. cbn. repeat split; try easy.
  - intros j k Hj. destruct (inv_tensor _ H j k Hj) as (b & Eb & Hb). exists b. split; auto.
    rewrite nth_error_app1; auto. eapply nth_error_Some_lt; eauto.
Qed.

Lemma inv_step {A} c (st st' : heap A) x : inv st -> step c st x = Some st' -> inv st'.
Proof.
  intros H E. destruct x as [xs s|xs|i|i o n s|i o n|i s|i|a]; cbn [step] in E.
  - destruct (tensor_new c xs s) as [t| |] eqn:Et; injection E as <-.
    + unfold tensor_new in Et. destruct (size c s) as [m| |] eqn:Em; cbn [bind] in Et; try discriminate.
      destruct (Nat.eqb_spec m (length xs)) as [->|]; cbn [assert_ bind] in Et; [|discriminate]. apply Ok_inj in Et. subst t.
      apply size_lt in Em. split; cbn [blocks tensors].
      * intros a b Eb. unfold owners in *. cbn [tensors]. rewrite filter_length_app. cbn [on handle_of haddr].
        destruct (Nat.lt_ge_cases a (length (blocks st))) as [L|L].
        -- rewrite nth_error_app1 in Eb by auto. replace (length (blocks st) =? a) with false by lia. rewrite Nat.add_0_r.
           now apply (inv_block _ H).
        -- pose proof (owners_out _ a H L) as H0. unfold owners in H0. rewrite nth_error_app2 in Eb by auto.
           destruct (a - length (blocks st)) as [|[|?]] eqn:Ea; cbn in Eb; try discriminate. injection Eb as <-.
           replace (length (blocks st) =? a) with true by lia. rewrite H0. cbn. repeat split; auto.
      * intros j k Hj. apply live_nth in Hj. cbn [tensors] in Hj.
        destruct (Nat.lt_ge_cases j (length (tensors st))) as [L|L].
        -- rewrite nth_error_app1 in Hj by auto. apply live_nth in Hj. destruct (inv_tensor _ H _ _ Hj) as (b & Eb & Hb).
           exists b. split; auto. rewrite nth_error_app1; auto. eapply nth_error_Some_lt; eauto.
        -- rewrite nth_error_app2 in Hj by auto. destruct (j - length (tensors st)) as [|[|?]]; cbn in Hj; try discriminate.
           injection Hj as <-. cbn [haddr]. rewrite nth_error_app2, Nat.sub_diag by auto. cbn. eexists. split; [reflexivity|]. cbn. lia.
    + now apply inv_dead.
    + now apply inv_dead.
  - injection E as <-. now apply inv_dead.
  - destruct (live st i) as [h|] eqn:El; [|discriminate]. injection E as <-. eapply inv_share; eauto.
    intros b Eb. destruct (inv_tensor _ H _ _ El) as (b' & Eb' & Hb'). congruence.
  - destruct (live st i) as [h|] eqn:El; [|discriminate]. unfold deref in E.
    destruct (inv_held _ _ _ H El) as (b & Eb & _ & Hin & Hz). rewrite Eb in E.
    destruct (subslice_flat c _ o n (Ok s)) as [v| |] eqn:Ev; injection E as <-; auto.
    apply subslice_flat_inside in Ev; cbn [tdata toffset tsize] in *; auto. destruct Ev as (Ed & Hv).
    eapply inv_share; eauto. intros b' Eb'. cbn [handle_of hoffset hsize]. assert (b' = b) by congruence. subst b'. lia.
  - destruct (live st i) as [h|] eqn:El; [|discriminate]. unfold deref in E.
    destruct (inv_held _ _ _ H El) as (b & Eb & _ & Hin & Hz). rewrite Eb in E.
    destruct (subslice c _ o n) as [v| |] eqn:Ev; injection E as <-; auto.
    apply subslice_inside in Ev; cbn [tdata toffset tsize] in *; auto. destruct Ev as (Ed & Hv).
    eapply inv_share; eauto. intros b' Eb'. cbn [handle_of hoffset hsize]. assert (b' = b) by congruence. subst b'. lia.
  - destruct (live st i) as [h|] eqn:El; [|discriminate]. unfold deref in E.
    destruct (inv_held _ _ _ H El) as (b & Eb & _ & Hin & Hz). rewrite Eb in E.
    destruct (reshape c _ s) as [v| |] eqn:Ev; injection E as <-; [|now apply inv_drop..].
    pose proof (proj1 (live_nth _ _ _) El) as Hn. pose proof (live_lt _ _ _ El) as Hi.
    unfold reshape in Ev. destruct (size c s) as [m| |]; cbn [bind] in Ev; try discriminate.
    destruct (m =? _); cbn [assert_ bind] in Ev; [|discriminate]. apply Ok_inj in Ev. subst v. cbn [handle_of tshape toffset tsize].
    split; cbn [blocks tensors].
    + intros a b' Ea. unfold owners. cbn [tensors].
      pose proof (filter_length_set (on a) (tensors st) i (Some h) (Some (mkHandle (haddr h) s (hoffset h) (hsize h))) Hn) as Hf.
      cbn [on haddr] in Hf. apply Nat.add_cancel_r in Hf. unfold handle_of. cbn [tshape toffset tsize]. rewrite Hf.
      now apply (inv_block _ H).
    + intros j k Hj. apply live_nth in Hj. cbn [tensors] in Hj.
      destruct (Nat.eq_dec j i) as [->|N].
      * rewrite nth_error_set_nth_eq in Hj by auto. injection Hj as <-. cbn. eauto.
      * rewrite nth_error_set_nth_neq in Hj by auto. apply live_nth in Hj. now apply (inv_tensor _ H _ _ Hj).
  - destruct (live st i) as [h|] eqn:El; [|discriminate]. injection E as <-. now apply inv_drop.
  - destruct (nth_error (blocks st) a) as [b|] eqn:Eb; [|discriminate].
    destruct (bphase b) eqn:Ep; try discriminate. injection E as <-.
    destruct (inv_block _ H _ _ Eb) as (Hs & Hp & _).
    split; cbn [blocks tensors].
    + intros a' b' Ea. change (owners _ a') with (owners st a').
      destruct (Nat.eq_dec a' a) as [->|N].
      * rewrite nth_error_set_nth_eq in Ea by (eapply nth_error_Some_lt; eauto). injection Ea as <-. cbn.
        rewrite Ep in Hp. repeat split; auto; try easy. intros Hx. now apply Hp in Hx.
      * rewrite nth_error_set_nth_neq in Ea by auto. now apply (inv_block _ H).
    + intros j k Hj. change (live st j = Some k) in Hj. destruct (inv_held _ _ _ H Hj) as (b' & Eb' & Hh & Hb' & _).
      exists b'. split; auto. rewrite nth_error_set_nth_neq; auto. intros ->. congruence.
Qed.

Lemma inv_run {A} c l : forall (st st' : heap A), inv st -> run c st l = Some st' -> inv st'.
Proof.
  induction l as [|x l IH]; intros st st' H E; cbn [run] in E; [now injection E as <-|].
  destruct (step c st x) as [st1|] eqn:E1; [|discriminate]. eapply IH; [|exact E]. eapply inv_step; eauto.
Qed.

(** ** C62 *)

(** Nothing is lost and nothing is dropped twice: after any history, in any build mode,
    the elements created are those dropped so far, those in buffers not yet dropped, and
    those abandoned by panicking initialisers, with multiplicity. *)
Lemma concat_map_set {X Y} (f : X -> list Y) l i x y : nth_error l i = Some x -> f x = f y ->
  concat (map f (set_nth l i y)) = concat (map f l).
Proof.
  intros E Hf. apply nth_error_split in E. destruct E as (l1 & l2 & -> & <-). rewrite set_nth_middle.
  rewrite !map_app. cbn [map]. now rewrite Hf.
Qed.

Lemma in_use_incr {A} (st : heap A) a : concat (map in_use (incr st a)) = held st.
Proof.
  unfold incr, held. destruct (nth_error (blocks st) a) as [b|] eqn:E; [|reflexivity].
  apply concat_map_set with (x := b); auto.
Qed.

Lemma abandoned_incr {A} (st : heap A) a : concat (map abandoned (incr st a)) = leaked st.
Proof.
  unfold incr, leaked. destruct (nth_error (blocks st) a) as [b|] eqn:E; [|reflexivity].
  apply concat_map_set with (x := b); auto.
Qed.

Lemma in_use_decr {A} (st : heap A) i h : inv st -> live st i = Some h ->
  concat (map in_use (decr st (haddr h))) = held st /\ concat (map abandoned (decr st (haddr h))) = leaked st.
Proof.
  intros H Hl. destruct (inv_held _ _ _ H Hl) as (b & E & Hp & _). unfold decr, held, leaked. rewrite E.
  split; apply concat_map_set with (x := b); auto; unfold in_use, abandoned; cbn; rewrite Hp; destruct (strong b =? 1); reflexivity.
Qed.

Lemma conserve_step {A} c (st st' : heap A) x : inv st -> step c st x = Some st' ->
  Permutation (made x ++ dropped st ++ held st ++ leaked st) (dropped st' ++ held st' ++ leaked st').
Proof.
  intros H E. destruct x as [xs s|xs|i|i o n s|i o n|i s|i|a]; cbn [step made app] in *.
  - destruct (tensor_new c xs s); injection E as <-; unfold held, leaked; cbn [blocks dropped];
      rewrite !map_app, !concat_app; cbn [map concat bphase bdata]; rewrite !app_nil_r.
    + rewrite <- !app_assoc. rewrite Permutation_app_comm, <- !app_assoc.
      do 2 apply Permutation_app_head. apply Permutation_app_comm.
    + rewrite <- app_assoc. apply Permutation_app_swap_app.
    + rewrite <- app_assoc. apply Permutation_app_swap_app.
  - injection E as <-. unfold held, leaked; cbn [blocks dropped].
    rewrite !map_app, !concat_app; cbn [map concat bphase bdata]; rewrite !app_nil_r.
    rewrite Permutation_app_comm, <- !app_assoc. reflexivity.
  - destruct (live st i) as [h|] eqn:El; [|discriminate]. injection E as <-.
    unfold held at 2, leaked at 2. cbn [blocks dropped]. fold (@in_use A) (@abandoned A). rewrite in_use_incr, abandoned_incr. reflexivity.
  - destruct (live st i) as [h|] eqn:El; [|discriminate]. destruct (deref st h); [|discriminate].
    destruct (subslice_flat _ _ _ _ _); injection E as <-; try reflexivity.
    unfold held at 2, leaked at 2. cbn [blocks dropped]. fold (@in_use A) (@abandoned A). rewrite in_use_incr, abandoned_incr. reflexivity.
  - destruct (live st i) as [h|] eqn:El; [|discriminate]. destruct (deref st h); [|discriminate].
    destruct (subslice _ _ _ _); injection E as <-; try reflexivity.
    unfold held at 2, leaked at 2. cbn [blocks dropped]. fold (@in_use A) (@abandoned A). rewrite in_use_incr, abandoned_incr. reflexivity.
  - destruct (live st i) as [h|] eqn:El; [|discriminate]. destruct (deref st h); [|discriminate].
    destruct (reshape _ _ _); injection E as <-; try reflexivity;
    unfold held at 2, leaked at 2; cbn [blocks dropped]; fold (@in_use A) (@abandoned A);
    destruct (in_use_decr _ _ _ H El) as [-> ->]; reflexivity.
  - destruct (live st i) as [h|] eqn:El; [|discriminate]. injection E as <-.
    unfold held at 2, leaked at 2; cbn [blocks dropped]; fold (@in_use A) (@abandoned A);
    destruct (in_use_decr _ _ _ H El) as [-> ->]; reflexivity.
  - destruct (nth_error (blocks st) a) as [b|] eqn:Eb; [|discriminate].
    destruct (bphase b) eqn:Ep; try discriminate. injection E as <-.
    apply nth_error_split in Eb. destruct Eb as (l1 & l2 & Eb & <-).
    unfold held, leaked. cbn [blocks dropped]. rewrite Eb, set_nth_middle, !map_app, !concat_app. cbn [map concat bphase]. rewrite Ep. cbn [bdata app].
    rewrite <- !app_assoc. apply Permutation_app_head. apply Permutation_app_swap_app.
Qed.

Lemma conserve_run {A} c l : forall (st st' : heap A), inv st -> run c st l = Some st' ->
  Permutation (created l ++ dropped st ++ held st ++ leaked st) (dropped st' ++ held st' ++ leaked st').
Proof.
  induction l as [|x l IH]; intros st st' H E; cbn [run] in E; [now injection E as <-|].
  destruct (step c st x) as [st1|] eqn:E1; [|discriminate].
  pose proof (conserve_step _ _ _ _ H E1) as P1. pose proof (IH _ _ (inv_step _ _ _ _ H E1) E) as P2.
  rewrite <- P2, <- P1. unfold created. cbn [map concat]. rewrite <- !app_assoc. apply Permutation_app_swap_app.
Qed.

Lemma c62_conserve {A} c (l : list (op A)) st : run c empty_heap l = Some st ->
  Permutation (created l) (dropped st ++ held st ++ leaked st).
Proof.
  intros E. pose proof (conserve_run _ _ _ _ inv_empty E) as P. cbn in P. now rewrite app_nil_r in P.
Qed.

(** Only a panicking initialiser abandons elements. *)
Lemma leaked_step {A} c (st st' : heap A) x : inv st -> step c st x = Some st' ->
  leaked st' = leaked st ++ match x with NewPanics xs => xs | _ => [] end.
Proof.
  intros H.
  assert (Hi : forall a ts d, leaked (mkHeap (incr st a) ts d) = leaked st).
  { intros. unfold leaked at 1. cbn [blocks]. fold (@abandoned A). apply abandoned_incr. }
  assert (Hd : forall i h ts d, live st i = Some h -> leaked (mkHeap (decr st (haddr h)) ts d) = leaked st).
  { intros. unfold leaked at 1. cbn [blocks]. fold (@abandoned A). now apply (in_use_decr st i h). }
  intros E. destruct x as [xs s|xs|i|i o n s|i o n|i s|i|a]; cbn [step] in *; rewrite ?app_nil_r.
  - destruct (tensor_new c xs s); injection E as <-; unfold leaked; cbn [blocks];
      rewrite !map_app, !concat_app; cbn [map concat bphase]; now rewrite !app_nil_r.
  - injection E as <-. unfold leaked. cbn [blocks]. rewrite map_app, concat_app. cbn [map concat bphase bdata]. now rewrite app_nil_r.
  - destruct (live st i); [|discriminate]. injection E as <-. apply Hi.
  - destruct (live st i) as [h|]; [|discriminate]. destruct (deref st h); [|discriminate].
    destruct (subslice_flat _ _ _ _ _); injection E as <-; auto.
  - destruct (live st i) as [h|]; [|discriminate]. destruct (deref st h); [|discriminate].
    destruct (subslice _ _ _ _); injection E as <-; auto.
  - destruct (live st i) as [h|] eqn:El; [|discriminate]. destruct (deref st h); [|discriminate].
    destruct (reshape _ _ _); injection E as <-; eauto.
  - destruct (live st i) as [h|] eqn:El; [|discriminate]. injection E as <-. eauto.
  - destruct (nth_error (blocks st) a) as [b|] eqn:Eb; [|discriminate].
    destruct (bphase b) eqn:Ep; try discriminate. injection E as <-. unfold leaked. cbn [blocks].
    apply concat_map_set with (x := b); auto. cbn. now rewrite Ep.
Qed.

Lemma c62_leaks {A} c (l : list (op A)) st : run c empty_heap l = Some st ->
  leaked st = concat (map (fun x => match x with NewPanics xs => xs | _ => [] end) l).
Proof.
  assert (G : forall l (st st' : heap A), inv st -> run c st l = Some st' ->
    leaked st' = leaked st ++ concat (map (fun x => match x with NewPanics xs => xs | _ => [] end) l)).
  { clear. induction l as [|x l IH]; intros st st' H E; cbn [run map concat] in *; [injection E as <-; now rewrite app_nil_r|].
    destruct (step c st x) as [st1|] eqn:E1; [|discriminate].
    rewrite (IH _ _ (inv_step _ _ _ _ H E1) E), (leaked_step _ _ _ _ H E1). now rewrite <- app_assoc. }
  intros E. now rewrite (G _ _ _ inv_empty E).
Qed.

Lemma quiet_held {A} (st : heap A) : inv st -> quiet st -> held st = [].
Proof.
  intros H [Hl Hq]. unfold held.
  assert (G : forall b, In b (blocks st) -> bphase b <> Held /\ bphase b <> Dying).
  { intros b Hb. split; [|rewrite Forall_forall in Hq; auto]. intros Hp. apply In_nth_error in Hb. destruct Hb as [a Ha].
    destruct (inv_block _ H _ _ Ha) as (_ & Hx & _). apply Hx in Hp. unfold owners in Hp.
    destruct (filter (on a) (tensors st)) as [|y ys] eqn:Ef; [cbn in Hp; lia|].
    assert (Hy : In y (filter (on a) (tensors st))) by (rewrite Ef; now left). apply filter_In in Hy. destruct Hy as [Hy Ho].
    destruct y as [h|]; [|discriminate]. apply In_nth_error in Hy. destruct Hy as [j Hj]. apply live_nth in Hj. now rewrite Hl in Hj. }
  induction (blocks st) as [|b bs IH]; [reflexivity|]. cbn [map concat].
  destruct (G b (or_introl eq_refl)) as [G1 G2]. rewrite IH.
  - now destruct (bphase b).
  - now inversion Hq.
  - intros; apply G; now right.
Qed.

Lemma c62_all {A} c (l : list (op A)) st : run c empty_heap l = Some st -> quiet st ->
  (forall xs, ~ In (NewPanics xs) l) -> Permutation (dropped st) (created l).
Proof.
  intros E Hq Hn. rewrite (c62_conserve _ _ _ E), (quiet_held _ (inv_run _ _ _ _ inv_empty E) Hq), (c62_leaks _ _ _ E).
  cbn [app]. replace (concat _) with (@nil A); [now rewrite app_nil_r|].
  clear E. induction l as [|x l IH]; [reflexivity|]. cbn [map concat].
  destruct x; try (apply IH; intros ys Hy; apply (Hn ys); now right). exfalso. apply (Hn xs). now left.
Qed.

(** A live tensor's elements can be read, and are the same as long as it lives (reshaping
    included), whatever happens to the others. *)
Lemma stable_step {A} c (st st' : heap A) x : inv st -> step c st x = Some st' ->
  (forall a b, nth_error (blocks st) a = Some b -> exists b', nth_error (blocks st') a = Some b' /\ bdata b' = bdata b) /\
  (forall i, i < length (tensors st) -> live st' i = None \/
    exists h h', live st i = Some h /\ live st' i = Some h' /\
      haddr h' = haddr h /\ hoffset h' = hoffset h /\ hsize h' = hsize h) /\
  length (tensors st) <= length (tensors st').
Proof.
  intros H E.
  assert (Ki : forall a k b, nth_error (blocks st) k = Some b -> exists b', nth_error (incr st a) k = Some b' /\ bdata b' = bdata b).
  { intros a k b Eb. rewrite nth_error_incr, Eb. eexists. split; [reflexivity|]. now destruct (k =? a). }
  assert (Kd : forall a k b, nth_error (blocks st) k = Some b -> exists b', nth_error (decr st a) k = Some b' /\ bdata b' = bdata b).
  { intros a k b Eb. rewrite nth_error_decr, Eb. eexists. split; [reflexivity|]. now destruct (k =? a). }
  assert (Ka : forall y k b, nth_error (blocks st) k = Some b -> exists b', nth_error (blocks st ++ [y]) k = Some b' /\ bdata b' = bdata b).
  { intros y k b Eb. exists b. split; auto. rewrite nth_error_app1; auto. eapply nth_error_Some_lt; eauto. }
  assert (Tr : forall i (bs : list (block A)) (d : list A), i < length (tensors st) -> live (mkHeap bs (tensors st) d) i = None \/
    exists h h', live st i = Some h /\ live (mkHeap bs (tensors st) d) i = Some h' /\
      haddr h' = haddr h /\ hoffset h' = hoffset h /\ hsize h' = hsize h).
  { intros i bs d Hi. change (live (mkHeap bs (tensors st) d) i) with (live st i). destruct (live st i) as [h|]; [right|now left].
    exists h, h. auto. }
  assert (Ta : forall y i (bs : list (block A)) (d : list A), i < length (tensors st) -> live (mkHeap bs (tensors st ++ [y]) d) i = None \/
    exists h h', live st i = Some h /\ live (mkHeap bs (tensors st ++ [y]) d) i = Some h' /\
      haddr h' = haddr h /\ hoffset h' = hoffset h /\ hsize h' = hsize h).
  { intros y i bs d Hi. replace (live (mkHeap bs (tensors st ++ [y]) d) i) with (live st i); [apply (Tr i bs d Hi)|].
    unfold live. cbn [tensors]. now rewrite nth_error_app1. }
  assert (Ts : forall j h0 y i (bs : list (block A)) (d : list A), live st j = Some h0 ->
    (forall h, y = Some h -> haddr h = haddr h0 /\ hoffset h = hoffset h0 /\ hsize h = hsize h0) ->
    i < length (tensors st) -> live (mkHeap bs (set_nth (tensors st) j y) d) i = None \/
    exists h h', live st i = Some h /\ live (mkHeap bs (set_nth (tensors st) j y) d) i = Some h' /\
      haddr h' = haddr h /\ hoffset h' = hoffset h /\ hsize h' = hsize h).
  { intros j h0 y i bs d Hj Hy Hi. destruct (Nat.eq_dec i j) as [->|N].
    - replace (live (mkHeap bs (set_nth (tensors st) j y) d) j) with y.
      + destruct y as [h|]; [right|now left]. exists h0, h. destruct (Hy h eq_refl). auto.
      + unfold live. cbn [tensors]. rewrite nth_error_set_nth_eq by auto. reflexivity.
    - replace (live (mkHeap bs (set_nth (tensors st) j y) d) i) with (live st i); [apply (Tr i bs d Hi)|].
      unfold live. cbn [tensors]. rewrite nth_error_set_nth_neq by auto. reflexivity. }
  destruct x as [xs s|xs|i|i o n s|i o n|i s|i|a]; cbn [step] in *.
  - destruct (tensor_new c xs s); injection E as <-; cbn [blocks tensors]; rewrite ?app_length; repeat split; auto; lia.
  - injection E as <-; cbn [blocks tensors]; rewrite ?app_length; repeat split; auto; lia.
  - destruct (live st i); [|discriminate]. injection E as <-; cbn [blocks tensors]; rewrite ?app_length; repeat split; auto; lia.
  - destruct (live st i) as [h|]; [|discriminate]. destruct (deref st h); [|discriminate].
    destruct (subslice_flat _ _ _ _ _); injection E as <-; cbn [blocks tensors]; rewrite ?app_length; repeat split; eauto; try lia;
      intros j Hj; apply (Tr j (blocks st) (dropped st) Hj).
  - destruct (live st i) as [h|]; [|discriminate]. destruct (deref st h); [|discriminate].
    destruct (subslice _ _ _ _); injection E as <-; cbn [blocks tensors]; rewrite ?app_length; repeat split; eauto; try lia;
      intros j Hj; apply (Tr j (blocks st) (dropped st) Hj).
  - destruct (live st i) as [h|] eqn:El; [|discriminate]. unfold deref in E. destruct (nth_error (blocks st) (haddr h)); [|discriminate].
    destruct (reshape _ _ _) as [v| |] eqn:Ev; injection E as <-; cbn [blocks tensors]; rewrite ?set_nth_length; repeat split; eauto;
      intros j Hj; eapply Ts; eauto; try discriminate.
    intros h' Eh. injection Eh as <-. unfold reshape in Ev. destruct (size c s); cbn [bind] in Ev; try discriminate.
    destruct (_ =? _); cbn [assert_ bind] in Ev; [|discriminate]. apply Ok_inj in Ev. subst v. cbn. auto.
  - destruct (live st i) as [h|] eqn:El; [|discriminate]. injection E as <-; cbn [blocks tensors]; rewrite ?set_nth_length; repeat split; eauto.
    intros j Hj; eapply Ts; eauto; discriminate.
  - destruct (nth_error (blocks st) a) as [b|] eqn:Eb; [|discriminate].
    destruct (bphase b) eqn:Ep; try discriminate. injection E as <-. cbn [blocks tensors]. repeat split; auto.
    intros k b' Ek. destruct (Nat.eq_dec k a) as [->|N].
    + rewrite nth_error_set_nth_eq by (eapply nth_error_Some_lt; eauto). eexists. split; [reflexivity|]. cbn. congruence.
    + rewrite nth_error_set_nth_neq by auto. eauto.
Qed.

Lemma read_live {A} (st : heap A) i h : inv st -> live st i = Some h ->
  exists b, nth_error (blocks st) (haddr h) = Some b /\ read st i = Ok (firstn (hsize h) (skipn (hoffset h) (bdata b))).
Proof.
  intros H Hl. destruct (inv_held _ _ _ H Hl) as (b & E & Hp & Hin & _). exists b. split; auto.
  unfold read. rewrite Hl, E, Hp. unfold raw_slice. now replace (hoffset h + hsize h <=? length (bdata b)) with true by lia.
Qed.

Lemma stable_run {A} c l : forall (st st' : heap A) i h, inv st -> run c st l = Some st' -> i < length (tensors st) ->
  live st' i = Some h ->
  exists xs, read st i = Ok xs /\ read st' i = Ok xs.
Proof.
  induction l as [|x l IH]; intros st st' i h H E Hi Hl'; cbn [run] in E.
  - injection E as <-. destruct (read_live _ _ _ H Hl') as (b & _ & ->). eauto.
  - destruct (step c st x) as [st1|] eqn:E1; [|discriminate].
    destruct (stable_step _ _ _ _ H E1) as (Hb & Ht & Hlen). pose proof (inv_step _ _ _ _ H E1) as H1.
    destruct (IH st1 st' i h H1 E ltac:(lia) Hl') as (xs & R1 & R2). exists xs. split; auto.
    destruct (Ht i Hi) as [N|(h1 & h2 & L1 & L2 & Ea & Eo & Es)].
    + unfold read in R1. rewrite N in R1. discriminate.
    + destruct (read_live _ _ _ H L1) as (b & Eb & ->). destruct (read_live _ _ _ H1 L2) as (b2 & Eb2 & R).
      destruct (Hb _ _ Eb) as (b' & Eb' & Ed). rewrite Ea in Eb2. assert (b2 = b') by congruence. subst b2.
      rewrite R in R1. rewrite <- R1, Eo, Es, Ed. reflexivity.
Qed.

Lemma c62_alive {A} c (l l' : list (op A)) st st' i h :
  run c empty_heap l = Some st -> i < length (tensors st) ->
  run c st l' = Some st' -> live st' i = Some h ->
  exists xs, read st i = Ok xs /\ read st' i = Ok xs.
Proof. intros E Hi E' Hl. eapply stable_run; eauto. eapply inv_run; eauto. apply inv_empty. Qed.

Lemma shared_owners {A} (st : heap A) i h : live st i = Some h -> shared st i h <-> 1 < owners st (haddr h).
Proof.
  intros Hl. apply live_nth in Hl. unfold owners.
  pose proof (filter_length_set (on (haddr h)) (tensors st) i (Some h) None Hl) as Hf. cbn [on] in Hf. rewrite Nat.eqb_refl in Hf.
  split.
  - intros (j & h' & Hj & Hl' & Ha). apply live_nth in Hl'.
    assert (Hn : nth_error (set_nth (tensors st) i None) j = Some (Some h')) by (rewrite nth_error_set_nth_neq by auto; auto).
    apply nth_error_In in Hn. assert (Hy : In (Some h') (filter (on (haddr h)) (set_nth (tensors st) i None))).
    { apply filter_In. split; auto. cbn. now rewrite Ha, Nat.eqb_refl. }
    destruct (filter (on (haddr h)) (set_nth (tensors st) i None)); [easy|]. cbn [length] in Hf. lia.
  - intros Ho. destruct (filter (on (haddr h)) (set_nth (tensors st) i None)) as [|y ys] eqn:Ef; [cbn in Hf; lia|].
    assert (Hy : In y (filter (on (haddr h)) (set_nth (tensors st) i None))) by (rewrite Ef; now left).
    apply filter_In in Hy. destruct Hy as [Hy Hon]. destruct y as [h'|]; [|discriminate]. cbn in Hon.
    apply In_nth_error in Hy. destruct Hy as [j Hj]. exists j, h'.
    assert (Hji : j <> i). { intros ->. rewrite nth_error_set_nth_eq in Hj by (eapply nth_error_Some_lt; eauto). discriminate. }
    rewrite nth_error_set_nth_neq in Hj by auto. split; [auto|]. split; [now apply live_nth|lia].
Qed.

Lemma c62_drop_shared {A} c (l : list (op A)) st i h :
  run c empty_heap l = Some st -> live st i = Some h -> shared st i h ->
  exists st', step c st (Drop i) = Some st' /\ dropped st' = dropped st /\
    map bphase (blocks st') = map bphase (blocks st) /\ map bdata (blocks st') = map bdata (blocks st).
Proof.
  intros E Hl Hs. pose proof (inv_run _ _ _ _ inv_empty E) as H. cbn [step]. rewrite Hl. eexists. split; [reflexivity|].
  cbn [dropped blocks]. apply (shared_owners _ _ _ Hl) in Hs. split; [reflexivity|].
  destruct (inv_held _ _ _ H Hl) as (b & Eb & Hp & _). destruct (inv_block _ H _ _ Eb) as (Hst & _).
  unfold decr. rewrite Eb. replace (strong b =? 1) with false by lia.
  apply nth_error_split in Eb. destruct Eb as (l1 & l2 & -> & <-). rewrite set_nth_middle, !map_app. split; reflexivity.
Qed.

(** A block without owners is not touched until its [Drop] runs. *)
Lemma dead_step {A} c (st st' : heap A) x a b : inv st -> nth_error (blocks st) a = Some b -> bphase b <> Held ->
  step c st x = Some st' -> x <> Free a -> nth_error (blocks st') a = Some b.
Proof.
  intros H1 E1 P1 Ex N.
  assert (Hno : forall i k, live st i = Some k -> haddr k <> a).
  { intros i k Hk Ea. destruct (inv_held _ _ _ H1 Hk) as (b' & Eb' & Pb' & _). rewrite Ea in Eb'. congruence. }
  assert (Ki : forall a', a' <> a -> nth_error (incr st a') a = Some b).
  { intros a' Na. rewrite nth_error_incr, E1. now replace (a =? a') with false by lia. }
  assert (Kd : forall a', a' <> a -> nth_error (decr st a') a = Some b).
  { intros a' Na. rewrite nth_error_decr, E1. now replace (a =? a') with false by lia. }
  assert (Ka : forall y, nth_error (blocks st ++ [y]) a = Some b).
  { intros y. rewrite nth_error_app1; auto. eapply nth_error_Some_lt; eauto. }
  destruct x as [xs s|xs|i|i o n s|i o n|i s|i|a']; cbn [step] in Ex.
  - destruct (tensor_new c xs s); injection Ex as <-; apply Ka.
  - injection Ex as <-; apply Ka.
  - destruct (live st i) as [k|] eqn:Ek; [|discriminate]. injection Ex as <-. eauto.
  - destruct (live st i) as [k|] eqn:Ek; [|discriminate]. destruct (deref st k); [|discriminate].
    destruct (subslice_flat _ _ _ _ _); injection Ex as <-; cbn [blocks]; eauto.
  - destruct (live st i) as [k|] eqn:Ek; [|discriminate]. destruct (deref st k); [|discriminate].
    destruct (subslice _ _ _ _); injection Ex as <-; cbn [blocks]; eauto.
  - destruct (live st i) as [k|] eqn:Ek; [|discriminate]. destruct (deref st k); [|discriminate].
    destruct (reshape _ _ _); injection Ex as <-; cbn [blocks]; eauto.
  - destruct (live st i) as [k|] eqn:Ek; [|discriminate]. injection Ex as <-. eauto.
  - destruct (nth_error (blocks st) a') as [b'|] eqn:Eb'; [|discriminate].
    destruct (bphase b') eqn:Ep; try discriminate. injection Ex as <-. cbn [blocks].
    rewrite nth_error_set_nth_neq; [auto|]. intros ->. now apply N.
Qed.

Lemma dead_run {A} c l : forall (st st' : heap A) a b, inv st -> nth_error (blocks st) a = Some b -> bphase b <> Held ->
  run c st l = Some st' -> ~ In (Free a) l -> nth_error (blocks st') a = Some b.
Proof.
  induction l as [|x l IH]; intros st st' a b H1 E1 P1 R N; cbn [run] in R; [now injection R as <-|].
  destruct (step c st x) as [st1|] eqn:Ex; [|discriminate].
  eapply IH; [eapply inv_step; eauto| |exact P1|exact R|intros C; apply N; now right].
  eapply dead_step; eauto. intros ->. apply N. now left.
Qed.

Lemma run_app {A} c l1 l2 : forall (st : heap A), run c st (l1 ++ l2) = match run c st l1 with Some st' => run c st' l2 | None => None end.
Proof. induction l1 as [|x l1 IH]; intros st; [reflexivity|]. cbn [app run]. destruct (step c st x); auto. Qed.

Lemma c62_drop_last {A} c (l : list (op A)) st i h :
  run c empty_heap l = Some st -> live st i = Some h -> ~ shared st i h ->
  exists b st1, nth_error (blocks st) (haddr h) = Some b /\ step c st (Drop i) = Some st1 /\ dropped st1 = dropped st /\
    forall l' st2, run c st1 l' = Some st2 -> ~ In (Free (haddr h)) l' ->
      exists st3, step c st2 (Free (haddr h)) = Some st3 /\ dropped st3 = dropped st2 ++ bdata b.
Proof.
  intros E Hl Hs. pose proof (inv_run _ _ _ _ inv_empty E) as H.
  destruct (inv_held _ _ _ H Hl) as (b & Eb & Hp & _). destruct (inv_block _ H _ _ Eb) as (Hst & _).
  assert (Ho : owners st (haddr h) = 1).
  { pose proof (owners_pos _ _ _ Hl). rewrite (shared_owners _ _ _ Hl) in Hs. lia. }
  exists b. cbn [step]. rewrite Hl. eexists. split; [auto|]. split; [reflexivity|]. split; [reflexivity|].
  set (a := haddr h) in *.
  intros l' st2 R N.
  assert (E2 : nth_error (blocks st2) a = Some (mkBlock (bdata b) 0 Dying)).
  { eapply (dead_run c l'); [apply (inv_drop _ _ _ H Hl)| | |exact R|exact N].
    - cbn [blocks]. fold a. rewrite nth_error_decr, Eb, Nat.eqb_refl. replace (strong b =? 1) with true by lia.
      replace (strong b - 1) with 0 by lia. reflexivity.
    - discriminate. }
  cbn [step]. rewrite E2. eexists. split; reflexivity.
Qed.

Lemma c62_free_once {A} c (l1 l2 : list (op A)) st a :
  run c empty_heap (l1 ++ Free a :: l2) = Some st -> ~ In (Free a) l1 /\ ~ In (Free a) l2.
Proof.
  assert (G : forall l (st st' : heap A) b, inv st -> nth_error (blocks st) a = Some b -> bphase b = Gone ->
    run c st l = Some st' -> ~ In (Free a) l).
  { clear l1 l2 st. induction l as [|x l IH]; intros st st' b H Eb P R; [easy|]. cbn [run] in R.
    destruct (step c st x) as [st1|] eqn:Ex; [|discriminate].
    assert (N : x <> Free a). { intros ->. cbn [step] in Ex. rewrite Eb, P in Ex. discriminate. }
    intros [C|C]; [now apply N|]. revert C. eapply IH; [eapply inv_step; eauto| |exact P|exact R].
    eapply dead_step; eauto. congruence. }
  assert (F : forall l (st st' : heap A), inv st -> run c st (Free a :: l) = Some st' -> ~ In (Free a) l).
  { intros l st0 st' H R. cbn [run] in R. destruct (step c st0 (Free a)) as [st1|] eqn:Es; [|discriminate].
    pose proof (inv_step _ _ _ _ H Es) as H1. cbn [step] in Es.
    destruct (nth_error (blocks st0) a) as [b|] eqn:Eb; [|discriminate]. destruct (bphase b) eqn:Ep; try discriminate.
    injection Es as Es. apply (G l st1 st' (mkBlock (bdata b) (strong b) Gone)); auto.
    subst st1. cbn [blocks]. apply nth_error_set_nth_eq. eapply nth_error_Some_lt; eauto. }
  intros R. split.
  - intros C. apply in_split in C. destruct C as (k1 & k2 & ->). rewrite <- app_assoc in R. cbn [app] in R.
    rewrite run_app in R. destruct (run c empty_heap k1) as [st1|] eqn:R1; [|discriminate].
    apply (F (k2 ++ Free a :: l2) st1 st); auto.
    + eapply inv_run; eauto. apply inv_empty.
    + apply in_or_app. right. now left.
  - rewrite run_app in R. destruct (run c empty_heap l1) as [st1|] eqn:R1; [|discriminate].
    apply (F l2 st1 st); auto. eapply inv_run; eauto. apply inv_empty.
Qed.

Lemma c62_free_unused {A} c (l : list (op A)) st st' a :
  run c empty_heap l = Some st -> step c st (Free a) = Some st' -> forall i h, live st i = Some h -> haddr h <> a.
Proof.
  intros E S i h Hl Ha. pose proof (inv_run _ _ _ _ inv_empty E) as H. destruct (inv_held _ _ _ H Hl) as (b & Eb & Hp & _).
  cbn [step] in S. rewrite <- Ha, Eb, Hp in S. discriminate.
Qed.

Lemma c62_panicking_initialiser_leaks {A} c (xs : list A) st :
  run c empty_heap [NewPanics xs] = Some st -> quiet st /\ dropped st = [] /\ leaked st = xs.
Proof.
  intros E. cbn in E. injection E as <-. repeat split.
  - intros i. now destruct i.
  - repeat constructor. discriminate.
  - cbn. apply app_nil_r.
Qed.
