(** * Lemmas about the map/fold model *)
From Coq Require Import ZifyBool ZifyNat ZifyN.
From Verif Require Import Base ShapeModel TensorModel AxisModel MapModel Spec BaseFacts
  ShapeFacts ShapeFacts2 CoordFacts TensorFacts TensorFacts2.

Ltac Zify.zify_post_hook ::= Z.div_mod_to_equations.

(** ** init *)

Lemma traverse_const {S X Y V} (f : S -> outcome (S * V)) (l : list X) (l' : list Y) st :
  length l = length l' ->
  traverse (fun st _ => f st) st l = traverse (fun st _ => f st) st l'.
Proof.
  revert l' st; induction l as [|x l IH]; intros [|y l'] st H; cbn in H; try lia; auto.
  cbn [traverse]. destruct (f st) as [[s1 v]| |]; cbn [bind]; auto. rewrite (IH l') by lia. auto.
Qed.

Lemma init_canon {S V} c ds (f : S -> outcome (S * V)) st :
  supported ds -> can_alloc c (prod ds) ->
  init c (canon ds) f st =
  let* '(st', ys) := traverse (fun st _ => f st) st (coords ds) in Ok (st', fresh ds ys).
Proof.
  intros Hs Hc. unfold init. rewrite size_canon by auto. cbn [bind].
  erewrite unsafe_init_filled; eauto.
  - rewrite (seq_write (fun st _ => f st)).
    rewrite (traverse_const f (seq 0 (prod ds)) (coords ds)); [reflexivity|].
    now rewrite seq_length, coords_length.
  - intros st' vs E. apply traverse_length in E. now rewrite coords_length in E.
Qed.

(** ** next_index *)

(** Little-endian value of an index (innermost position first). *)
Fixpoint lval (rds idx : list nat) : nat :=
  match rds, idx with
  | d :: rds', i :: idx' => i + d * lval rds' idx'
  | _, _ => 0
  end.

Lemma lval_lt rds idx : Forall2 lt idx rds -> lval rds idx < prod rds.
Proof. induction 1; cbn; [lia|]. nia. Qed.

Lemma lval_app rds rds' idx idx' :
  length rds = length idx -> lval (rds ++ rds') (idx ++ idx') = lval rds idx + prod rds * lval rds' idx'.
Proof.
  revert idx; induction rds as [|d rds IH]; intros [|i idx] H; cbn in *; try lia.
  rewrite IH by lia. lia.
Qed.

Lemma lval_rev ds idx : length ds = length idx -> lval (rev ds) (rev idx) = ravel ds idx.
Proof.
  revert idx; induction ds as [|d ds IH]; intros [|i idx] H; cbn in H; try lia; auto.
  cbn [rev ravel]. rewrite lval_app by (rewrite !rev_length; lia).
  rewrite IH by lia. cbn. rewrite prod_rev. lia.
Qed.

Lemma next_index_from_spec s rds idx i :
  (forall j, j < length rds -> aget (dims s) (i + j) = Ok (nth j rds 0)) ->
  Forall2 lt idx rds ->
  exists idx', next_index_from s i idx = Ok idx' /\ Forall2 lt idx' rds /\
    lval rds idx' = (lval rds idx + 1) mod prod rds.
Proof.
  intros Ha H. revert i Ha; induction H as [|x d idx rds Hx H IH]; intros i Ha.
  - exists []. repeat split; auto.
  - cbn [next_index_from]. pose proof (Ha 0 ltac:(cbn; lia)) as H0.
    rewrite Nat.add_0_r in H0. rewrite H0. cbn [bind nth].
    destruct (IH (i + 1)) as (idx' & E & HF & Hv).
    { intros j Hj. specialize (Ha (S j) ltac:(cbn; lia)). cbn [nth] in Ha. rewrite <- Ha.
      f_equal. lia. }
    rewrite Nat.max_l by lia. pose proof (lval_lt _ _ H) as Hlt. cbn [lval prod].
    destruct (Nat.eqb_spec ((x + 1) mod d) 0) as [Z0|Z0].
    + assert (Hxd : x + 1 = d).
      { destruct (Nat.eq_dec (x + 1) d); auto. rewrite Nat.mod_small in Z0 by lia. lia. }
      rewrite E. cbn [bind]. exists ((x + 1) mod d :: idx'). split; [reflexivity|].
      split; [constructor; [lia|auto]|]. cbn [lval]. rewrite Z0, Hv.
      destruct (Nat.eq_dec (lval rds idx + 1) (prod rds)) as [Ep|Ep].
      * rewrite Ep, Nat.mod_same by lia.
        replace (x + d * lval rds idx + 1) with (d * prod rds) by (rewrite <- Ep; lia).
        rewrite Nat.mod_same by nia. lia.
      * rewrite Nat.mod_small by lia. rewrite Nat.mod_small; nia.
    + assert (Hxd : x + 1 < d).
      { destruct (Nat.eq_dec (x + 1) d) as [<-|]; [rewrite Nat.mod_same in Z0; lia|lia]. }
      exists ((x + 1) mod d :: idx). rewrite Nat.mod_small by auto.
      split; [reflexivity|]. split; [constructor; auto|]. cbn [lval].
      rewrite Nat.mod_small by nia. lia.
Qed.

Lemma in_shape_rev ds idx : in_shape ds idx <-> Forall2 lt (rev idx) (rev ds).
Proof.
  assert (G : forall a b : list nat, Forall2 lt a b -> Forall2 lt (rev a) (rev b)).
  { induction 1; cbn; [constructor|]. apply Forall2_app; auto. }
  split; [apply G|]. intros H. apply G in H. now rewrite !rev_involutive in H.
Qed.

(** [next_index] steps from a coordinate (innermost first) to the next one in
    row-major order, and from the last one back to the origin. *)
Lemma next_index_canon ds idx :
  length ds <= 6 -> in_shape ds idx ->
  exists idx', next_index (canon ds) (rev idx) = Ok (rev idx') /\ in_shape ds idx' /\
    ravel ds idx' = (ravel ds idx + 1) mod prod ds.
Proof.
  intros Hl H. pose proof (in_shape_length _ _ H) as Hli.
  destruct (next_index_from_spec (canon ds) (rev ds) (rev idx) 0) as (r & E & HF & Hv).
  - intros j Hj. rewrite rev_length in Hj. cbn [Nat.add]. rewrite aget_canon by auto.
    rewrite rev_nth by auto. do 2 f_equal. lia.
  - exact (proj1 (in_shape_rev ds idx) H).
  - exists (rev r). rewrite rev_involutive. split; [exact E|].
    assert (Hr : in_shape ds (rev r)) by (apply (proj2 (in_shape_rev ds (rev r))); now rewrite rev_involutive).
    split; auto. pose proof (in_shape_length _ _ Hr) as Hlr. rewrite rev_length in Hlr.
    rewrite <- (lval_rev ds (rev r)), rev_involutive by (rewrite rev_length; lia).
    rewrite Hv, lval_rev, prod_rev by auto. reflexivity.
Qed.

Lemma coords_head ds : 0 < prod ds -> nth_error (coords ds) 0 = Some (repeat 0 (length ds)).
Proof.
  intros H.
  assert (Hi : in_shape ds (repeat 0 (length ds)) /\ ravel ds (repeat 0 (length ds)) = 0).
  { induction ds as [|d ds IH]; cbn in *; [split; [constructor|auto]|].
    destruct IH as [I1 I2]; [nia|]. split; [apply in_shape_cons; split; [nia|auto]|]. lia. }
  destruct Hi as [Hi H0]. rewrite <- H0 at 1. now apply coords_nth.
Qed.

Lemma init_rindexed_loop {S V} ds (f : S -> list nat -> outcome (S * V)) :
  length ds <= 6 ->
  forall m k done st idx,
  k + m = prod ds -> length done = k -> in_shape ds idx -> ravel ds idx = k mod prod ds ->
  (let* '(st, o, _) := for_from k m (fun i '(st, o, index) =>
      let* '(st, v) := f st index in
      let* o := write o i v in
      let* index := next_index (canon ds) index in
      Ok (st, o, index)) (st, map Some done ++ repeat None m, rev idx) in
    Ok (st, o))
  = let* '(st, vs) := traverse (fun st idx => f st (rev idx)) st (skipn k (coords ds)) in
    Ok (st, map Some (done ++ vs)).
Proof.
  intros Hl. induction m as [|m IH]; intros k done st idx Hk Hd Hi Hr.
  - rewrite skipn_all2 by (rewrite coords_length; lia). cbn. now rewrite !app_nil_r.
  - rewrite Nat.mod_small in Hr by lia.
    assert (E : skipn k (coords ds) = idx :: skipn (Datatypes.S k) (coords ds)).
    { pose proof (coords_nth _ _ Hi) as Hn. rewrite Hr in Hn.
      clear -Hn. revert k Hn; induction (coords ds) as [|x l IH]; intros [|k] H; cbn in *;
        try discriminate; [congruence|]. now apply IH. }
    rewrite E, for_from_S. cbn [traverse].
    destruct (f st (rev idx)) as [[s1 v]| |]; cbn [bind]; auto.
    rewrite <- Hd, write_next. cbn [bind].
    destruct (next_index_canon ds idx Hl Hi) as (idx' & E' & Hi' & Hr').
    rewrite E'. cbn [bind]. rewrite (IH (Datatypes.S (length done)) (done ++ [v]) s1 idx').
    + destruct (traverse _ s1 _) as [[s2 vs]| |]; cbn [bind]; auto. now rewrite <- app_assoc.
    + lia.
    + rewrite app_length. cbn. lia.
    + auto.
    + rewrite Hr', Hr, Hd. f_equal. lia.
Qed.

Lemma init_rindexed_canon {S V} c ds (f : S -> list nat -> outcome (S * V)) st :
  supported ds -> can_alloc c (prod ds) ->
  init_rindexed c (canon ds) f st =
  let* '(st', ys) := traverse (fun st idx => f st (rev idx)) st (coords ds) in
  Ok (st', fresh ds ys).
Proof.
  intros Hs Hc. unfold init_rindexed. rewrite size_canon by auto. cbn [bind].
  erewrite unsafe_init_filled; eauto.
  - cbn beta iota. destruct (Nat.eq_dec (prod ds) 0) as [Z0|Z0].
    + rewrite Z0. assert (coords ds = []) as ->.
      { apply length_zero_iff_nil. now rewrite coords_length. }
      reflexivity.
    + pose proof (init_rindexed_loop ds f (supported_len _ Hs) (prod ds) 0 [] st
                    (repeat 0 (length ds))) as L.
      cbn [skipn map app] in L.
      assert (rev (repeat 0 (length ds)) = repeat 0 (length ds)) as Er.
      { clear. induction (length ds) as [|n IH]; auto. cbn [repeat rev]. rewrite IH.
        now rewrite <- repeat_cons. }
      rewrite Er in L. unfold for_. change (rank (canon ds)) with (length ds). apply L; auto.
      * apply coords_in. eapply nth_error_In. apply coords_head. lia.
      * rewrite Nat.mod_0_l by auto. pose proof (coords_head ds ltac:(lia)) as Hh.
        apply coords_nth_inv in Hh. tauto.
  - intros st' vs E. apply traverse_length in E. now rewrite coords_length in E.
Qed.

(** ** map *)

Lemma map_repr {S U V} c (t : tensor U) ds xs (f : S -> U -> outcome (S * V)) st :
  repr t ds xs -> can_alloc c (length xs) ->
  map_ c t f st = let* '(st', ys) := traverse f st xs in Ok (st', fresh ds ys).
Proof.
  intros H Hc. unfold map_. rewrite (repr_shape _ _ _ H), (repr_size _ _ _ H).
  erewrite unsafe_init_filled; eauto.
  - apply H.
  - apply H.
  - rewrite (repr_as_slice _ _ _ H). cbn [bind].
    rewrite <- (traverse_index f xs st).
    rewrite <- (seq_write (fun st i => let* x := aget xs i in f st x)).
    apply for_ext. intros k [s o] _. rewrite bind_assoc. reflexivity.
  - intros st' vs E. now apply traverse_length in E.
Qed.

(** ** Rows of outputs *)

Lemma write_row_next {V} (done vs : list V) n :
  write_row (map Some done ++ repeat None (length vs + n)) (length done) vs
  = Ok (map Some (done ++ vs) ++ repeat None n).
Proof.
  unfold write_row.
  assert (G : forall k pre post done,
    vs = pre ++ post -> length post = k ->
    for_from (length pre) k (fun j o => let* v := aget vs j in write o (length done - length pre + j) v)
       (map Some done ++ repeat None (length post + n))
    = Ok (map Some (done ++ post) ++ repeat None n) \/ length done < length pre).
  { induction k as [|k IH]; intros pre post d Ev Hp.
    - left. destruct post; [|discriminate]. cbn. now rewrite app_nil_r.
    - destruct (Nat.lt_ge_cases (length d) (length pre)) as [|Hge]; [now right|]. left.
      destruct post as [|v post]; [discriminate|]. cbn in Hp.
      rewrite for_from_S. rewrite Ev at 1. rewrite aget_app_mid. cbn [bind].
      replace (length d - length pre + length pre) with (length d) by lia.
      cbn [length Nat.add]. rewrite write_next. cbn [bind].
      destruct (IH (pre ++ [v]) post (d ++ [v])) as [IH'|IH'].
      + now rewrite <- app_assoc.
      + lia.
      + rewrite !app_length in IH'. cbn [length] in IH'. rewrite !Nat.add_1_r in IH'.
        rewrite <- app_assoc in IH'. exact IH'.
      + rewrite !app_length in IH'. cbn in IH'. lia. }
  destruct (G (length vs) [] vs done eq_refl eq_refl) as [E|E]; [|cbn in E; lia].
  cbn [length] in E. rewrite Nat.sub_0_r in E. exact E.
Qed.

Lemma block_write_from {S V} (N : nat) (g : S -> nat -> outcome (S * list V)) :
  (forall st i st' vs, g st i = Ok (st', vs) -> length vs = N) ->
  forall k i done st,
  length done = i * N ->
  for_from i k (fun i '(st, o) =>
      let* '(st, vs) := g st i in
      let* o := write_row o (i * N) vs in
      Ok (st, o)) (st, map Some done ++ repeat None (k * N))
  = let* '(st, vss) := traverse g st (seq i k) in
    Ok (st, map Some (done ++ concat vss)).
Proof.
  intros Hg. induction k as [|k IH]; intros i done st Hd; cbn [Nat.mul repeat].
  - cbn. now rewrite !app_nil_r.
  - rewrite for_from_S. cbn [seq traverse].
    destruct (g st i) as [[s1 vs]| |] eqn:E; cbn [bind]; auto.
    pose proof (Hg _ _ _ _ E) as Hl. rewrite <- Hd. rewrite <- Hl at 1.
    rewrite write_row_next. cbn [bind].
    rewrite IH by (rewrite app_length; lia).
    destruct (traverse g s1 _) as [[s2 vss]| |]; cbn [bind concat]; auto.
    now rewrite <- app_assoc.
Qed.

Lemma block_write {S V} (N : nat) (g : S -> nat -> outcome (S * list V)) n st :
  (forall st i st' vs, g st i = Ok (st', vs) -> length vs = N) ->
  for_ n (fun i '(st, o) =>
      let* '(st, vs) := g st i in
      let* o := write_row o (i * N) vs in
      Ok (st, o)) (st, repeat None (n * N))
  = let* '(st, vss) := traverse g st (seq 0 n) in Ok (st, map Some (concat vss)).
Proof. intros Hg. exact (block_write_from N g Hg n 0 [] st eq_refl). Qed.

Lemma traverse_Forall {S X Y} (P : Y -> Prop) (f : S -> X -> outcome (S * Y)) st l st' ys :
  (forall st x st' y, f st x = Ok (st', y) -> P y) ->
  traverse f st l = Ok (st', ys) -> Forall P ys.
Proof.
  intros Hf. revert st st' ys; induction l as [|x l IH]; intros st st' ys; cbn.
  - intros [= _ <-]. constructor.
  - destruct (f st x) as [[s1 y]| |] eqn:E; cbn; try discriminate.
    destruct (traverse f s1 l) as [[s2 ys']| |] eqn:E2; cbn; try discriminate.
    intros [= _ <-]. constructor; eauto.
Qed.

(** Consecutive rows of [k] elements. *)
Definition rows_of {A} (k : nat) (xs : list A) : list (list A) :=
  map (fun i => firstn k (skipn (i * k) xs)) (seq 0 (length xs / k)).

Lemma rows_of_length {A} k n (xs : list A) :
  0 < k -> length xs = n * k -> length (rows_of k xs) = n.
Proof. intros Hk H. unfold rows_of. rewrite map_length, seq_length, H. now apply Nat.div_mul; lia. Qed.

Lemma map_row_repr {S U V} c N (t : tensor U) ds k xs
    (f : S -> list U -> outcome (S * list V)) st ds' :
  repr t (ds ++ [k]) xs -> 0 < k ->
  (forall st r st' vs, f st r = Ok (st', vs) -> length vs = N) ->
  ds' = (if (N =? 1) && (0 <? length ds) then ds else ds ++ [N]) ->
  supported ds' -> can_alloc c (prod ds') ->
  map_row c N t f st =
  let* '(st', yss) := traverse f st (rows_of k xs) in Ok (st', fresh ds' (concat yss)).
Proof.
  intros H Hk Hf Hds Hs Hc. pose proof (repr_supported _ _ _ H) as Hst.
  pose proof (supported_len _ Hst) as Hl. pose proof (repr_len _ _ _ H) as Hlen.
  rewrite prod_app in Hlen. cbn [prod] in Hlen. rewrite Nat.mul_1_r in Hlen.
  unfold map_row. rewrite (repr_shape _ _ _ H).
  change (rank (canon (ds ++ [k]))) with (length (ds ++ [k])).
  assert (E : (if (N =? 1) && (1 <? length (ds ++ [k])) then rremove (canon (ds ++ [k])) 0
               else with_cols (canon (ds ++ [k])) N) = Ok (canon ds')).
  { rewrite app_length in *. cbn [length] in *. subst ds'.
    replace (1 <? length ds + 1) with (0 <? length ds) by lia.
    destruct ((N =? 1) && (0 <? length ds)) eqn:B.
    - rewrite rremove_canon by (rewrite app_length; cbn; lia).
      f_equal. f_equal. unfold remove_at. rewrite app_length. cbn [length].
      replace (length ds + 1 - 1 - 0) with (length ds) by lia.
      rewrite firstn_app_exact, skipn_all2 by (rewrite app_length; cbn; lia). apply app_nil_r.
    - rewrite with_cols_canon by (rewrite app_length; cbn; lia).
      rewrite as_u32_small; auto.
      apply (supported_in _ N Hs). apply in_or_app. right. now left. }
  rewrite E. cbn [bind]. rewrite cols_canon by auto. cbn [bind]. rewrite last_last.
  rewrite (repr_size _ _ _ H), udiv_ok by lia. cbn [bind].
  assert (Hq : length xs / k = prod ds) by (rewrite Hlen; apply Nat.div_mul; lia).
  assert (HN : N * (length xs / k) = prod ds').
  { rewrite Hq. subst ds'. destruct ((N =? 1) && (0 <? length ds)) eqn:B; [lia|].
    rewrite prod_app. cbn. lia. }
  rewrite HN.
  rewrite (unsafe_init_filled _ _ _ _ _
    (let* '(st', yss) := traverse f st (rows_of k xs) in Ok (st', concat yss))); auto.
  - rewrite bind_assoc. apply bind_ext. intros [s vss] _. reflexivity.
  - replace (prod ds') with (length xs / k * N) by lia.
    rewrite (for_ext _ _ (fun i '(st, o) =>
      let* '(st, vs) := f st (firstn k (skipn (i * k) xs)) in
      let* o := write_row o (i * N) vs in Ok (st, o))).
    2: { intros i [s o] Hi. rewrite (raw_slice_data _ _ _ _ _ H) by nia. reflexivity. }
    rewrite (block_write N (fun st i => f st (firstn k (skipn (i * k) xs)))) by eauto.
    unfold rows_of. rewrite traverse_map.
    destruct (traverse _ st _) as [[s vss]| |]; reflexivity.
  - intros st' vs E'.
    destruct (traverse f st (rows_of k xs)) as [[s vss]| |] eqn:E2; cbn in E'; try discriminate.
    injection E' as <- <-. pose proof (traverse_length _ _ _ _ _ E2) as Hvl.
    rewrite (rows_of_length k (prod ds)) in Hvl by auto.
    rewrite (concat_length_const N), Hvl; [lia|].
    eapply traverse_Forall; [|exact E2]. exact Hf.
Qed.

Lemma map_expand_repr {S U V} c N (t : tensor U) ds xs
    (f : S -> U -> outcome (S * list V)) st :
  repr t ds xs -> supported (ds ++ [N]) -> can_alloc c (N * length xs) ->
  (forall st x st' vs, f st x = Ok (st', vs) -> length vs = N) ->
  map_expand c N t f st =
  let* '(st', yss) := traverse f st xs in Ok (st', fresh (ds ++ [N]) (concat yss)).
Proof.
  intros H Hs Hc Hf. pose proof (supported_len _ Hs) as Hl. rewrite app_length in Hl. cbn in Hl.
  unfold map_expand. rewrite (repr_shape _ _ _ H), rinsert_canon by lia.
  rewrite as_u32_small by (apply (supported_in _ N Hs); apply in_or_app; right; now left).
  unfold insert_at. rewrite Nat.sub_0_r, firstn_all, skipn_all. cbn [bind].
  rewrite (repr_size _ _ _ H), (repr_as_slice _ _ _ H). cbn [bind].
  assert (Hp : N * length xs = prod (ds ++ [N])).
  { rewrite prod_app, (repr_len _ _ _ H). cbn. lia. }
  rewrite (unsafe_init_filled _ _ _ _ _
    (let* '(st', yss) := traverse f st xs in Ok (st', concat yss))); auto.
  - rewrite bind_assoc. apply bind_ext. intros [s vss] _. reflexivity.
  - rewrite Nat.mul_comm.
    rewrite (for_ext _ _ (fun i '(st, o) =>
      let* '(st, vs) := (let* x := aget xs i in f st x) in
      let* o := write_row o (i * N) vs in Ok (st, o))).
    2: { intros i [s o] Hi. now rewrite bind_assoc. }
    rewrite (block_write N (fun st i => let* x := aget xs i in f st x)).
    + rewrite traverse_index. destruct (traverse _ st _) as [[s vss]| |]; reflexivity.
    + intros s i s' vs E. destruct (aget xs i); cbn in E; try discriminate. eauto.
  - intros st' vs E'.
    destruct (traverse f st xs) as [[s vss]| |] eqn:E2; cbn in E'; try discriminate.
    injection E' as <- <-. pose proof (traverse_length _ _ _ _ _ E2) as Hvl.
    rewrite (concat_length_const N), Hvl; [lia|].
    eapply traverse_Forall; [|exact E2]. exact Hf.
Qed.

(** ** Broadcasting *)

(** The list [xs] repeated to [n] elements. *)
Definition cyc {A} (n : nat) (xs : list A) : list A := concat (repeat xs (n / length xs)).

Lemma cyc_length {A} n (xs : list A) :
  length xs <> 0 -> (Nat.divide (length xs) n) -> length (cyc n xs) = n.
Proof.
  intros Hl [q ->]. unfold cyc. rewrite Nat.div_mul by auto.
  rewrite (concat_length_const (length xs)); [now rewrite repeat_length|].
  clear. induction q; cbn; auto.
Qed.

Lemma cyc_nth {A} n (xs : list A) k :
  length xs <> 0 -> (Nat.divide (length xs) n) -> k < n -> nth_error (cyc n xs) k = nth_error xs (k mod length xs).
Proof.
  intros Hl [q ->] Hk. unfold cyc. rewrite Nat.div_mul by auto.
  rewrite (Nat.div_mod k (length xs) Hl) at 1. rewrite (Nat.mul_comm (length xs)).
  rewrite (nth_error_concat_blocks _ (length xs)).
  - rewrite nth_error_repeat'. destruct (Nat.ltb_spec (k / length xs) q) as [|C]; auto.
    exfalso.
    assert (k / length xs < q) by (apply Nat.div_lt_upper_bound; lia). lia.
  - intros l Hin. apply repeat_spec in Hin. now subst.
  - now apply Nat.mod_upper_bound.
Qed.

Lemma wrap_pos_mod m L p : m <> 0 -> (Nat.divide m L) -> L <> 0 -> (p / m * m) mod L + p mod m = p mod L.
Proof.
  intros Hm [q ->] HL. assert (q <> 0) by nia.
  rewrite (Nat.mul_comm q m), (Nat.mul_comm (p / m) m).
  rewrite Nat.mul_mod_distr_l by auto. rewrite (Nat.mod_mul_r p m q) by auto. lia.
Qed.

Lemma traverse_gen {S X Y} (f : S -> X -> outcome (S * Y)) (g : S -> nat -> outcome (S * Y)) l n st :
  length l = n -> (forall st k, k < n -> g st k = let* x := aget l k in f st x) ->
  traverse g st (seq 0 n) = traverse f st l.
Proof.
  intros Hl Hg. rewrite <- (traverse_index f l st), Hl. apply traverse_ext.
  intros s k Hk. apply in_seq in Hk. apply Hg. lia.
Qed.

Lemma as_wrap_slice_repr {A} (t : tensor A) ds xs k :
  repr t ds xs -> length xs <> 0 -> as_wrap_slice t k = Ok (skipn (k mod length xs) xs).
Proof.
  intros H Hl.
  assert (E : wrap_pos t k = Ok (k mod length xs)).
  { unfold wrap_pos. rewrite (repr_size _ _ _ H). destruct (Nat.ltb_spec k (length xs)).
    - now rewrite Nat.mod_small.
    - now rewrite urem_ok. }
  unfold as_wrap_slice. rewrite E. cbn [bind]. rewrite (repr_size _ _ _ H).
  pose proof (Nat.mod_upper_bound k _ Hl).
  rewrite (raw_slice_data _ _ _ _ _ H) by lia. f_equal.
  apply firstn_all2. rewrite skipn_length. lia.
Qed.

Lemma wrap_aget {A} m n (xs : list A) p :
  m <> 0 -> length xs <> 0 -> (Nat.divide m (length xs)) -> (Nat.divide (length xs) n) -> p < n ->
  aget (skipn ((p / m * m) mod length xs) xs) (p mod m) = aget (cyc n xs) p.
Proof.
  intros Hm Hl D1 D2 Hp. unfold aget. rewrite nth_error_skipn, wrap_pos_mod by auto.
  now rewrite cyc_nth.
Qed.

Lemma divmod_self p m : m <> 0 -> p / m * m + p mod m = p.
Proof. intros. rewrite Nat.mul_comm. symmetry. now apply Nat.div_mod. Qed.

Lemma suffix_divide a b : suffix a b -> (Nat.divide (prod a) (prod b)).
Proof. intros [p ->]. rewrite prod_app. exists (prod p). reflexivity. Qed.

Lemma combine_nth_error {A B} (a : list A) (b : list B) k :
  nth_error (combine a b) k =
  match nth_error a k, nth_error b k with Some x, Some y => Some (x, y) | _, _ => None end.
Proof.
  revert b k; induction a as [|x a IH]; intros b k; cbn.
  - destruct k; auto.
  - destruct b as [|y b].
    + destruct k; cbn; auto. destruct (nth_error a k); auto.
    + destruct k; cbn; auto.
Qed.

Lemma aget_combine {A B} (a : list A) (b : list B) k :
  length a = length b ->
  aget (combine a b) k = let* x := aget a k in let* y := aget b k in Ok (x, y).
Proof.
  intros Hl. unfold aget. rewrite combine_nth_error.
  destruct (nth_error a k); cbn [bind]; auto. destruct (nth_error b k); auto.
Qed.

Lemma map2_repr {S T U V} c (ta : tensor T) (tb : tensor U) da db dl xs ys
    (f : S -> T -> U -> outcome (S * V)) st :
  repr ta da xs -> repr tb db ys -> xs <> [] -> ys <> [] ->
  (suffix db da /\ dl = da) \/ (suffix da db /\ dl = db) ->
  map2 c ta tb f st =
  let* '(st', vs) := traverse (fun st '(x, y) => f st x y) st
                       (combine (cyc (prod dl) xs) (cyc (prod dl) ys)) in
  Ok (st', fresh dl vs).
Proof.
  intros Ha Hb Hxs Hys Hd.
  assert (Hx0 : length xs <> 0) by (destruct xs; cbn; congruence).
  assert (Hy0 : length ys <> 0) by (destruct ys; cbn; congruence).
  pose proof (repr_len _ _ _ Ha) as La. pose proof (repr_len _ _ _ Hb) as Lb.
  assert (G : broadcast_to (canon da) (canon db) = Ok (canon dl) /\ supported dl /\
      Nat.max (length xs) (length ys) = prod dl /\ (Nat.divide (length xs) (prod dl)) /\ (Nat.divide (length ys) (prod dl)) /\
      (Nat.divide (Nat.min (length xs) (length ys)) (length xs)) /\ (Nat.divide (Nat.min (length xs) (length ys)) (length ys))).
  { pose proof (repr_supported _ _ _ Ha) as Sa. pose proof (repr_supported _ _ _ Hb) as Sb.
    pose proof (supported_len _ Sa). pose proof (supported_len _ Sb).
    destruct Hd as [[Hsuf ->]|[Hsuf ->]].
    - pose proof (suffix_divide _ _ Hsuf) as D. pose proof D as Hle; apply Nat.divide_pos_le in Hle; [|lia].
      split; [now apply broadcast_to_l|]. split; [assumption|]. split; [lia|].
      split; [|split; [|split]].
      + rewrite La. apply Nat.divide_refl.
      + now rewrite Lb.
      + rewrite Nat.min_r by lia. now rewrite La, Lb.
      + rewrite Nat.min_r by lia. apply Nat.divide_refl.
    - pose proof (suffix_divide _ _ Hsuf) as D. pose proof D as Hle; apply Nat.divide_pos_le in Hle; [|lia].
      split; [now apply broadcast_to_r|]. split; [assumption|]. split; [lia|].
      split; [|split; [|split]].
      + now rewrite La.
      + rewrite Lb. apply Nat.divide_refl.
      + rewrite Nat.min_l by lia. apply Nat.divide_refl.
      + rewrite Nat.min_l by lia. now rewrite La, Lb. }
  destruct G as (Eb & Hs & Hm & Dx & Dy & Mx & My).
  unfold map2. rewrite (repr_shape _ _ _ Ha), (repr_shape _ _ _ Hb), Eb. cbn [bind].
  rewrite (repr_size _ _ _ Ha), (repr_size _ _ _ Hb), Hm.
  set (m := Nat.min (length xs) (length ys)) in *. assert (Hm0 : m <> 0) by lia.
  rewrite udiv_ok by auto. cbn [bind].
  assert (Dm : (Nat.divide m (prod dl))) by (eapply Nat.divide_trans; eauto).
  assert (Em : prod dl / m * m = prod dl).
  { destruct Dm as [q Hq]. rewrite Hq. now rewrite Nat.div_mul. }
  rewrite Em, Nat.eqb_refl. cbn [assert_ bind].
  assert (Hp0 : prod dl <> 0) by lia.
  apply unsafe_init_filled; auto.
  - now left.
  - rewrite (for_ext _ _ (fun n => for_ m (fun k '(st, o) =>
      let* x := aget (skipn ((n * m) mod length xs) xs) k in
      let* y := aget (skipn ((n * m) mod length ys) ys) k in
      let* '(st, v) := f st x y in
      let* o := write o (n * m + k) v in Ok (st, o)))).
    2: { intros n [s o] Hn. rewrite (as_wrap_slice_repr _ _ _ _ Ha), (as_wrap_slice_repr _ _ _ _ Hb) by auto.
         reflexivity. }
    rewrite for_nest, Em.
    rewrite (for_ext _ _ (fun p '(st, o) =>
      let* '(st, v) := (let* '(x, y) := aget (combine (cyc (prod dl) xs) (cyc (prod dl) ys)) p in f st x y) in
      let* o := write o p v in Ok (st, o))).
    2: { intros p [s o] Hp. rewrite aget_combine by now rewrite !cyc_length.
         rewrite (wrap_aget _ (prod dl)), (wrap_aget _ (prod dl)) by auto.
         rewrite divmod_self by auto.
         destruct (aget (cyc _ xs) p); cbn [bind]; auto. destruct (aget (cyc _ ys) p); cbn [bind]; auto. }
    rewrite (seq_write (fun st p => let* '(x, y) := aget (combine (cyc (prod dl) xs) (cyc (prod dl) ys)) p in f st x y)).
    rewrite (traverse_gen (fun st '(x, y) => f st x y) _ (combine (cyc (prod dl) xs) (cyc (prod dl) ys))); auto.
    + rewrite combine_length, !cyc_length by auto. lia.
  - intros st' vs E. apply traverse_length in E.
    rewrite combine_length, !cyc_length in E by auto. lia.
Qed.

Lemma elem_cyc {A} d1 d2 (xs : list A) idx :
  length xs = prod d2 -> in_shape (d1 ++ d2) idx ->
  elem (d1 ++ d2) (cyc (prod (d1 ++ d2)) xs) idx = elem d2 xs (skipn (length d1) idx).
Proof.
  intros Hl Hi. unfold elem. pose proof (ravel_lt _ _ Hi) as Hlt. rewrite prod_app in Hlt.
  assert (length xs <> 0) by nia.
  rewrite cyc_nth; auto.
  - rewrite Hl. now rewrite ravel_suffix.
  - rewrite Hl, prod_app. exists (prod d1). reflexivity.
  - now apply ravel_lt.
Qed.

Lemma suffix_self {A} (a : list A) : suffix a a.
Proof. now exists []. Qed.

Lemma suffix_trans3 {A} (a b d : list A) : suffix a b -> suffix b d -> suffix a d.
Proof. intros [p ->] [q ->]. exists (q ++ p). now rewrite app_assoc. Qed.

Lemma map3_repr {S T U V W} c (ta : tensor T) (tb : tensor U) (tc : tensor V) da db dc dl xs ys zs
    (f : S -> T -> U -> V -> outcome (S * W)) st :
  repr ta da xs -> repr tb db ys -> repr tc dc zs -> xs <> [] -> ys <> [] -> zs <> [] ->
  suffix da dl -> suffix db dl -> suffix dc dl -> (dl = da \/ dl = db \/ dl = dc) ->
  map3 c ta tb tc f st =
  let* '(st', vs) := traverse (fun st '(x, (y, z)) => f st x y z) st
                       (combine (cyc (prod dl) xs) (combine (cyc (prod dl) ys) (cyc (prod dl) zs))) in
  Ok (st', fresh dl vs).
Proof.
  intros Ha Hb Hc Hxs Hys Hzs Fa Fb Fc Hdl.
  assert (Hx0 : length xs <> 0) by (destruct xs; cbn; congruence).
  assert (Hy0 : length ys <> 0) by (destruct ys; cbn; congruence).
  assert (Hz0 : length zs <> 0) by (destruct zs; cbn; congruence).
  pose proof (repr_len _ _ _ Ha) as La. pose proof (repr_len _ _ _ Hb) as Lb.
  pose proof (repr_len _ _ _ Hc) as Lc.
  pose proof (repr_supported _ _ _ Ha) as Sa. pose proof (repr_supported _ _ _ Hb) as Sb.
  pose proof (repr_supported _ _ _ Hc) as Sc.
  assert (Sl : supported dl) by (destruct Hdl as [->|[->| ->]]; assumption).
  assert (Pl : prod dl <> 0) by (destruct Hdl as [->|[->| ->]]; lia).
  pose proof (suffix_divide _ _ Fa) as Dx. pose proof (suffix_divide _ _ Fb) as Dy.
  pose proof (suffix_divide _ _ Fc) as Dz. rewrite <- La in Dx. rewrite <- Lb in Dy. rewrite <- Lc in Dz.
  assert (Lex : length xs <= prod dl) by (apply Nat.divide_pos_le; [lia|auto]).
  assert (Ley : length ys <= prod dl) by (apply Nat.divide_pos_le; [lia|auto]).
  assert (Lez : length zs <= prod dl) by (apply Nat.divide_pos_le; [lia|auto]).
  assert (Hmax : Nat.max (Nat.max (length xs) (length ys)) (length zs) = prod dl).
  { destruct Hdl as [->|[->| ->]]; lia. }
  (* any two of the dimension lists are comparable *)
  assert (Cmp : forall u v : list nat, suffix u dl -> suffix v dl -> length u <= length v -> suffix u v).
  { intros u v [p Ep] [q Eq] Hl. rewrite Ep in Eq. clear -Hl Eq.
    revert q Eq; induction p as [|x p IH]; intros q Eq; cbn in Eq.
    - assert (q = []) as ->.
      { apply (f_equal (@length nat)) in Eq. rewrite app_length in Eq. destruct q; auto; cbn in *; lia. }
      exists []. auto.
    - destruct q as [|y q]; cbn in Eq.
      + exists (x :: p). now rewrite <- Eq.
      + injection Eq as _ Eq. eauto. }
  assert (Div : forall u v : list nat, suffix u dl -> suffix v dl ->
            prod u <= prod v -> prod v <> 0 -> Nat.divide (prod u) (prod v)).
  { intros u v Fu Fv Hle Hv. destruct (Nat.le_ge_cases (length u) (length v)) as [Hl|Hl].
    - apply suffix_divide; auto.
    - assert (Hd : Nat.divide (prod v) (prod u)) by (apply suffix_divide; auto).
      assert (prod u <> 0).
      { intros E. apply suffix_divide in Fu. destruct Fu as [q Hq]. rewrite E in Hq. lia. }
      apply Nat.divide_pos_le in Hd; [|lia]. replace (prod u) with (prod v) by lia. apply Nat.divide_refl. }
  set (m := Nat.min (Nat.min (length xs) (length ys)) (length zs)).
  assert (Hm0 : m <> 0) by lia.
  assert (Dm : Nat.divide m (length xs) /\ Nat.divide m (length ys) /\ Nat.divide m (length zs)).
  { assert (Hm : m = length xs \/ m = length ys \/ m = length zs) by lia.
    assert (m <= length xs /\ m <= length ys /\ m <= length zs) by lia.
    rewrite La, Lb, Lc in *. destruct Hm as [Em|[Em|Em]]; rewrite Em; repeat split; apply Div; auto; lia. }
  destruct Dm as (Mx & My & Mz).
  assert (Eb : exists dm, broadcast_to (canon da) (canon db) = Ok (canon dm) /\
                          broadcast_to (canon dm) (canon dc) = Ok (canon dl)).
  { pose proof (supported_len _ Sa). pose proof (supported_len _ Sb). pose proof (supported_len _ Sc).
    assert (Anti : forall u v : list nat, suffix u v -> suffix v u -> u = v).
    { intros u v Hu Hv. apply suffix_antisym; auto. now apply suffix_length in Hv. }
    destruct (Nat.le_ge_cases (length da) (length db)) as [Hl|Hl].
    - exists db. rewrite broadcast_to_r by auto. split; auto.
      destruct (Nat.le_ge_cases (length db) (length dc)) as [Hl2|Hl2].
      + rewrite broadcast_to_r by auto. do 2 f_equal. symmetry. apply Anti; auto.
        destruct Hdl as [->|[->| ->]]; apply Cmp; auto; lia.
      + rewrite broadcast_to_l by auto. do 2 f_equal. symmetry. apply Anti; auto.
        destruct Hdl as [->|[->| ->]]; apply Cmp; auto; lia.
    - exists da. rewrite broadcast_to_l by auto. split; auto.
      destruct (Nat.le_ge_cases (length da) (length dc)) as [Hl2|Hl2].
      + rewrite broadcast_to_r by auto. do 2 f_equal. symmetry. apply Anti; auto.
        destruct Hdl as [->|[->| ->]]; apply Cmp; auto; lia.
      + rewrite broadcast_to_l by auto. do 2 f_equal. symmetry. apply Anti; auto.
        destruct Hdl as [->|[->| ->]]; apply Cmp; auto; lia. }
  destruct Eb as (dm & Eb1 & Eb2).
  unfold map3. rewrite (repr_shape _ _ _ Ha), (repr_shape _ _ _ Hb), (repr_shape _ _ _ Hc), Eb1.
  cbn [bind]. rewrite Eb2. cbn [bind].
  rewrite (repr_size _ _ _ Ha), (repr_size _ _ _ Hb), (repr_size _ _ _ Hc), Hmax. fold m.
  rewrite udiv_ok by auto. cbn [bind].
  assert (Em : prod dl / m * m = prod dl).
  { assert (D : Nat.divide m (prod dl)) by (eapply Nat.divide_trans; eauto).
    destruct D as [q Hq]. rewrite Hq. now rewrite Nat.div_mul. }
  rewrite Em, Nat.eqb_refl. cbn [assert_ bind].
  set (l3 := combine (cyc (prod dl) xs) (combine (cyc (prod dl) ys) (cyc (prod dl) zs))).
  assert (Hl3 : length l3 = prod dl).
  { unfold l3. rewrite !combine_length, !cyc_length by auto. lia. }
  apply unsafe_init_filled; auto.
  - now left.
  - rewrite (for_ext _ _ (fun n => for_ m (fun k '(st, o) =>
      let* x := aget (skipn ((n * m) mod length xs) xs) k in
      let* y := aget (skipn ((n * m) mod length ys) ys) k in
      let* z := aget (skipn ((n * m) mod length zs) zs) k in
      let* '(st, v) := f st x y z in
      let* o := write o (n * m + k) v in Ok (st, o)))).
    2: { intros n [s o] Hn.
         rewrite (as_wrap_slice_repr _ _ _ _ Ha), (as_wrap_slice_repr _ _ _ _ Hb), (as_wrap_slice_repr _ _ _ _ Hc) by auto.
         reflexivity. }
    rewrite for_nest, Em.
    rewrite (for_ext _ _ (fun p '(st, o) =>
      let* '(st, v) := (let* '(x, (y, z)) := aget l3 p in f st x y z) in
      let* o := write o p v in Ok (st, o))).
    2: { intros p [s o] Hp. unfold l3.
         rewrite !aget_combine by (rewrite ?combine_length, !cyc_length by auto; lia).
         rewrite !(wrap_aget _ (prod dl)) by auto.
         rewrite divmod_self by auto.
         destruct (aget (cyc _ xs) p); cbn [bind]; auto. destruct (aget (cyc _ ys) p); cbn [bind]; auto.
         destruct (aget (cyc _ zs) p); cbn [bind]; auto. }
    rewrite (seq_write (fun st p => let* '(x, (y, z)) := aget l3 p in f st x y z)).
    rewrite (traverse_gen (fun st '(x, (y, z)) => f st x y z) _ l3); auto.
  - intros st' vs E. apply traverse_length in E. lia.
Qed.

(** ** Folds *)

Lemma fold_repr {S U R V} c (t : tensor U) ds xs (ini : R) (into : R -> V)
    (f : S -> R -> U -> outcome (S * R)) st :
  repr t ds xs ->
  fold_ c t ini into f st =
  let* '(st', r) := foldM f st ini xs in Ok (st', fresh [] [into r]).
Proof.
  intros H. unfold fold_. rewrite (repr_as_slice _ _ _ H), (repr_size _ _ _ H). cbn [bind].
  rewrite fold_index. destruct (foldM f st ini xs) as [[s r]| |]; reflexivity.
Qed.

Lemma reduce_repr {S T} c (t : tensor T) ds x xs (f : S -> T -> T -> outcome (S * T)) st :
  repr t ds (x :: xs) ->
  reduce c t f st = let* '(st', r) := foldM f st x xs in Ok (st', fresh [] [r]).
Proof.
  intros H. unfold reduce. rewrite (repr_as_slice _ _ _ H), (repr_size _ _ _ H). cbn [bind aget nth_error].
  unfold for_range. cbn [length]. replace (Datatypes.S (length xs) - 1) with (length xs) by lia.
  pose proof (fold_index_from f [x] xs st x) as E. cbn [length app] in E. rewrite E.
  destruct (foldM f st x xs) as [[s r]| |]; reflexivity.
Qed.

(** ** Axes *)

Lemma norm_axis_ok c a r :
  r <> 0 -> r <= 6 -> (- Z.of_nat r <= a < Z.of_nat r)%Z ->
  norm_axis c a r = Ok (Z.to_nat (a mod Z.of_nat r)).
Proof.
  intros Hr H6 Ha. unfold norm_axis. rewrite iadd_ok by (unfold two63; lia). cbn [bind].
  rewrite assert_true by lia. cbn [bind].
  rewrite Z.rem_mod_nonneg by lia.
  replace ((a + Z.of_nat r) mod Z.of_nat r)%Z with (a mod Z.of_nat r)%Z
    by (rewrite <- (Z_mod_plus_full a 1 (Z.of_nat r)); f_equal; lia).
  pose proof (Z.mod_pos_bound a (Z.of_nat r) ltac:(lia)).
  rewrite as_usize_small by (unfold two64; lia).
  rewrite assert_true by lia. reflexivity.
Qed.

Lemma collect_dims_ok c ds a b vec :
  supported ds -> a <= b <= length ds ->
  collect_dims c (canon ds) a b vec
  = Ok (vec ++ firstn (b - a) (skipn a ds), prod (firstn (b - a) (skipn a ds))).
Proof.
  intros Hs Hab. pose proof (supported_len _ Hs) as Hl. unfold collect_dims, for_range.
  destruct (Nat.eq_dec a b) as [->|Hne].
  { rewrite Nat.sub_diag. cbn. now rewrite app_nil_r. }
  assert (G : forall k, a + k <= b ->
    for_from a k (fun i '(vec, p) =>
      let* d := dim c (canon ds) i in let* p' := umul c p d in Ok (vec ++ [d], p')) (vec, 1)
    = Ok (vec ++ firstn k (skipn a ds), prod (firstn k (skipn a ds)))).
  { induction k as [|k IH]; intros Hk.
    - cbn. now rewrite app_nil_r.
    - replace (Datatypes.S k) with (k + 1) by lia. rewrite for_from_app, IH by lia. cbn [bind].
      rewrite for_from_S. cbn [for_from]. rewrite dim_canon by lia. cbn [bind].
      assert (Ek : firstn (k + 1) (skipn a ds) = firstn k (skipn a ds) ++ [nth (a + k) ds 0]).
      { assert (Hn : nth_error ds (a + k) = Some (nth (a + k) ds 0)) by (apply nth_error_nth'; lia).
        rewrite <- nth_error_skipn in Hn. remember (nth (a + k) ds 0) as v. clear -Hn.
        revert k Hn; induction (skipn a ds) as [|y l IH]; intros [|k] H; cbn in *; try discriminate.
        - congruence.
        - f_equal. rewrite IH; auto. }
      rewrite umul_ok.
      + cbn [bind]. rewrite Ek, prod_app. cbn [prod]. rewrite app_assoc, Nat.mul_1_r. reflexivity.
      + assert (Hx : supported (firstn (k + 1) (skipn a ds)))
          by (apply supported_firstn, supported_skipn, Hs).
        apply supported_prod in Hx. rewrite Ek, prod_app in Hx. cbn [prod] in Hx.
        unfold two32 in Hx. unfold two64. lia. }
  rewrite G by lia. reflexivity.
Qed.

Lemma names_axis_norm c a p r : r <= 6 -> names_axis a p r -> norm_axis c a r = Ok p.
Proof.
  intros H6 [Hp Ha]. rewrite norm_axis_ok by lia. f_equal.
  destruct Ha as [->| ->].
  - rewrite Z.mod_small by lia. lia.
  - replace (Z.of_nat p - Z.of_nat r)%Z with (Z.of_nat p + (-1) * Z.of_nat r)%Z by lia.
    rewrite Z_mod_plus_full, Z.mod_small by lia. lia.
Qed.

Lemma axis_from_rank_named c a p r :
  r <= 7 -> names_axis a p r -> axis_from_rank c (Some a) r = Ok p.
Proof.
  intros H6 [Hp Ha]. unfold axis_from_rank. rewrite iadd_ok by (unfold two63; lia). cbn [bind].
  rewrite as_usize_small by (unfold two64; lia). rewrite urem_ok by lia. f_equal.
  destruct Ha as [->| ->].
  - replace (Z.to_nat (Z.of_nat p + Z.of_nat r)) with (p + 1 * r) by lia.
    rewrite Nat.mod_add by lia. apply Nat.mod_small. lia.
  - replace (Z.to_nat (Z.of_nat p - Z.of_nat r + Z.of_nat r)) with p by lia. apply Nat.mod_small. lia.
Qed.

Lemma axis_reduce_canon c a d1 d d2 :
  supported (d1 ++ d :: d2) -> names_axis a (length d1) (length (d1 ++ d :: d2)) ->
  Forall (fun d => 0 < d) (d1 ++ d2) ->
  axis_reduce c (Some a) (canon (d1 ++ d :: d2))
  = Ok (canon (d1 ++ d2), prod d1, d, prod d2).
Proof.
  intros Hs Ha Hpos. pose proof (supported_len _ Hs) as Hl. unfold axis_reduce.
  change (rank (canon (d1 ++ d :: d2))) with (length (d1 ++ d :: d2)).
  rewrite (names_axis_norm _ _ _ _ Hl Ha). cbn [bind].
  rewrite app_length in *. cbn [length] in *.
  destruct (Nat.eqb_spec (length d1 + Datatypes.S (length d2)) 1) as [E|E].
  - destruct d1, d2; cbn in E; try lia. cbn [app] in *. rewrite size_canon by auto. cbn.
    now rewrite Nat.mul_1_r.
  - rewrite collect_dims_ok by (auto; rewrite app_length; lia). cbn [bind].
    rewrite Nat.sub_0_r. change (skipn 0 (d1 ++ d :: d2)) with (d1 ++ d :: d2). rewrite firstn_app_exact.
    rewrite collect_dims_ok by (auto; rewrite app_length; cbn; lia). cbn [bind app].
    replace (skipn (length d1 + 1) (d1 ++ d :: d2)) with d2.
    2: { rewrite skipn_app, skipn_all2 by lia. replace (length d1 + 1 - length d1) with 1 by lia. reflexivity. }
    rewrite firstn_all2 by lia.
    rewrite from_vec_dims_supported; auto.
    + cbn [bind]. rewrite dim_canon by (rewrite app_length; cbn; lia). cbn [bind].
      rewrite nth_middle. reflexivity.
    + pose proof (supported_remove_at (length d1) _ Hs) as Hr. unfold remove_at in Hr.
      rewrite firstn_app_exact in Hr. rewrite skipn_app, skipn_all2 in Hr by lia.
      replace (Datatypes.S (length d1) - length d1) with 1 in Hr by lia. exact Hr.
Qed.

Lemma axis_reduce_zero c a d1 d d2 :
  supported (d1 ++ d :: d2) -> names_axis a (length d1) (length (d1 ++ d :: d2)) ->
  In 0 (d1 ++ d2) ->
  axis_reduce c (Some a) (canon (d1 ++ d :: d2)) = Panic.
Proof.
  intros Hs Ha Hz. pose proof (supported_len _ Hs) as Hl. unfold axis_reduce.
  change (rank (canon (d1 ++ d :: d2))) with (length (d1 ++ d :: d2)).
  rewrite (names_axis_norm _ _ _ _ Hl Ha). cbn [bind].
  rewrite app_length in *. cbn [length] in *.
  destruct (Nat.eqb_spec (length d1 + Datatypes.S (length d2)) 1) as [E|E].
  - destruct d1, d2; cbn in E; try lia. destruct Hz.
  - rewrite collect_dims_ok by (auto; rewrite app_length; lia). cbn [bind].
    rewrite Nat.sub_0_r. change (skipn 0 (d1 ++ d :: d2)) with (d1 ++ d :: d2). rewrite firstn_app_exact.
    rewrite collect_dims_ok by (auto; rewrite app_length; cbn; lia). cbn [bind app].
    replace (skipn (length d1 + 1) (d1 ++ d :: d2)) with d2.
    2: { rewrite skipn_app, skipn_all2 by lia. replace (length d1 + 1 - length d1) with 1 by lia. reflexivity. }
    rewrite firstn_all2 by lia.
    now rewrite from_vec_dims_zero.
Qed.

(** ** Lines along an axis *)

(** The elements at the given positions. *)
Definition pick {A} (xs : list A) (ps : list nat) : list A :=
  flat_map (fun p => match nth_error xs p with Some v => [v] | None => [] end) ps.

Lemma pick_length {A} (xs : list A) ps :
  (forall p, In p ps -> p < length xs) -> length (pick xs ps) = length ps.
Proof.
  induction ps as [|p ps IH]; intros H; auto. cbn. rewrite app_length.
  destruct (nth_error_lt_ex xs p) as [v ->]; [apply H; now left|]. cbn. rewrite <- IH; auto.
  intros q Hq. apply H. now right.
Qed.

Lemma pick_nth {A} (xs : list A) ps k :
  (forall p, In p ps -> p < length xs) ->
  nth_error (pick xs ps) k = match nth_error ps k with Some p => nth_error xs p | None => None end.
Proof.
  revert k; induction ps as [|p ps IH]; intros k H; cbn; [now destruct k|].
  destruct (nth_error_lt_ex xs p) as [v Hv]; [apply H; now left|]. rewrite Hv.
  destruct k; cbn; [now rewrite Hv|]. apply IH. intros q Hq. apply H. now right.
Qed.

(** Line number [q] (counting the kept coordinates in row-major order) along an axis of
    length [L] with [I] elements inside it. *)
Definition line {A} (L I : nat) (xs : list A) (q : nat) : list A :=
  pick xs (map (fun k => (q / I * L + k) * I + q mod I) (seq 0 L)).
Definition lines {A} (B L I : nat) (xs : list A) : list (list A) :=
  map (line L I xs) (seq 0 (B * I)).

Lemma line_pos B L I q k :
  q < B * I -> k < L -> (q / I * L + k) * I + q mod I < B * (L * I).
Proof.
  intros Hq Hk. assert (I <> 0) by nia. pose proof (Nat.mod_upper_bound q I ltac:(lia)).
  assert (q / I < B) by (apply Nat.div_lt_upper_bound; lia). nia.
Qed.

Lemma line_in {A} B L I (xs : list A) q p :
  length xs = B * (L * I) -> q < B * I ->
  In p (map (fun k => (q / I * L + k) * I + q mod I) (seq 0 L)) -> p < length xs.
Proof.
  intros Hl Hq Hp. apply in_map_iff in Hp. destruct Hp as (k & <- & Hk). apply in_seq in Hk.
  rewrite Hl. apply line_pos; lia.
Qed.

Lemma line_length {A} B L I (xs : list A) q :
  length xs = B * (L * I) -> q < B * I -> length (line L I xs q) = L.
Proof.
  intros Hl Hq. unfold line. rewrite pick_length; [now rewrite map_length, seq_length|].
  intros p. now apply (line_in B).
Qed.

Lemma line_nth {A} B L I (xs : list A) q k :
  length xs = B * (L * I) -> q < B * I -> k < L ->
  nth_error (line L I xs q) k = nth_error xs ((q / I * L + k) * I + q mod I).
Proof.
  intros Hl Hq Hk. unfold line. rewrite pick_nth by (intros p; now apply (line_in B)).
  rewrite nth_error_map_seq by auto. reflexivity.
Qed.

Lemma line_aget {A} B L I (xs : list A) q k :
  length xs = B * (L * I) -> q < B * I -> k < L ->
  aget xs ((q / I * L + k) * I + q mod I) = aget (line L I xs q) k.
Proof. intros. unfold aget. now rewrite (line_nth B). Qed.

(** The line at a kept coordinate consists of the elements at the coordinates with [k]
    inserted at the axis. *)
Lemma lines_elem {A} d1 d d2 (xs : list A) i1 i2 :
  length xs = prod (d1 ++ d :: d2) -> in_shape d1 i1 -> in_shape d2 i2 ->
  exists l, elem (d1 ++ d2) (lines (prod d1) d (prod d2) xs) (i1 ++ i2) = Some l /\
    length l = d /\
    forall k, k < d -> nth_error l k = elem (d1 ++ d :: d2) xs (i1 ++ k :: i2).
Proof.
  intros Hl H1 H2. rewrite prod_app in Hl. cbn [prod] in Hl.
  pose proof (ravel_lt _ _ H1) as L1. pose proof (ravel_lt _ _ H2) as L2.
  pose proof (in_shape_length _ _ H1) as N1.
  set (q := ravel d1 i1 * prod d2 + ravel d2 i2).
  assert (Hq : q < prod d1 * prod d2) by (unfold q; nia).
  assert (Eq : q / prod d2 = ravel d1 i1 /\ q mod prod d2 = ravel d2 i2).
  { unfold q. split.
    - rewrite Nat.div_add_l by lia. rewrite Nat.div_small by auto. lia.
    - rewrite Nat.add_comm, Nat.mod_add by lia. now apply Nat.mod_small. }
  exists (line d (prod d2) xs q). split; [|split].
  - unfold elem, lines. rewrite ravel_app by auto. fold q. now rewrite nth_error_map_seq.
  - now apply (line_length (prod d1)).
  - intros k Hk. rewrite (line_nth (prod d1)) by auto. destruct Eq as [-> ->].
    unfold elem. rewrite ravel_app by auto. cbn [ravel prod]. f_equal. lia.
Qed.

Lemma lines_length {A} B L I (xs : list A) : length (lines B L I xs) = B * I.
Proof. unfold lines. now rewrite map_length, seq_length. Qed.

(** A line loop: fold each line, write one result per line. *)
Lemma line_loop {S T V} B L I (xs : list T) (g : S -> list T -> outcome (S * V))
    (h : S -> nat -> nat -> outcome (S * V)) st :
  length xs = B * (L * I) ->
  (forall st q, q < B * I -> h st (q / I) (q mod I) = g st (line L I xs q)) ->
  for_ B (fun n => for_ I (fun i '(st, o) =>
     let* '(st, v) := h st n i in
     let* o := write o (n * I + i) v in
     Ok (st, o))) (st, repeat None (B * I))
  = let* '(st', vs) := traverse g st (lines B L I xs) in Ok (st', map Some vs).
Proof.
  intros Hl Hh.
  rewrite for_nest.
  rewrite (for_ext _ _ (fun q '(st, o) =>
    let* '(st, v) := g st (line L I xs q) in let* o := write o q v in Ok (st, o))).
  - rewrite (seq_write (fun st q => g st (line L I xs q))). unfold lines. now rewrite traverse_map.
  - intros q [s o] Hq. rewrite Hh by auto. rewrite divmod_self by nia. reflexivity.
Qed.

Lemma traverse_post {S X Y Z} (g : S -> X -> outcome (S * Y)) (h : Y -> Z) st l :
  traverse (fun st x => let* '(st, y) := g st x in Ok (st, h y)) st l
  = let* '(st, ys) := traverse g st l in Ok (st, map h ys).
Proof.
  revert st; induction l as [|x l IH]; intros st; auto. cbn [traverse].
  destruct (g st x) as [[s y]| |]; cbn [bind]; auto. rewrite IH.
  destruct (traverse g s l) as [[s' ys]| |]; auto.
Qed.

Lemma supported_drop d1 d d2 : supported (d1 ++ d :: d2) -> supported (d1 ++ d2).
Proof.
  intros Hs. pose proof (supported_remove_at (length d1) _ Hs) as Hr. unfold remove_at in Hr.
  rewrite firstn_app_exact in Hr. rewrite skipn_app, skipn_all2 in Hr by lia.
  replace (Datatypes.S (length d1) - length d1) with 1 in Hr by lia. exact Hr.
Qed.

Lemma fold_axis_repr {S T R V} c (t : tensor T) a d1 d d2 xs (ini : R) (into : R -> V)
    (f : S -> R -> T -> outcome (S * R)) st :
  repr t (d1 ++ d :: d2) xs -> names_axis a (length d1) (length (d1 ++ d :: d2)) ->
  Forall (fun d => 0 < d) (d1 ++ d2) ->
  fold_axis c t (Some a) ini into f st =
  let* '(st', rs) := traverse (fun st l => foldM f st ini l) st (lines (prod d1) d (prod d2) xs) in
  Ok (st', fresh (d1 ++ d2) (map into rs)).
Proof.
  intros H Ha Hpos. pose proof (repr_supported _ _ _ H) as Hs. unfold fold_axis.
  rewrite (repr_shape _ _ _ H), axis_reduce_canon by auto. cbn [bind].
  pose proof (supported_drop _ _ _ Hs) as Hs2. rewrite size_canon by auto. cbn [bind].
  rewrite (repr_as_slice _ _ _ H). cbn [bind].
  pose proof (repr_len _ _ _ H) as Hl. rewrite prod_app in Hl. cbn [prod] in Hl.
  rewrite (unsafe_init_filled _ _ _ _ _
    (traverse (fun st l => let* '(st, r) := foldM f st ini l in Ok (st, into r)) st (lines (prod d1) d (prod d2) xs))); auto.
  - rewrite traverse_post, bind_assoc. apply bind_ext. now intros [s r] _.
  - left. apply prod_pos in Hpos. lia.
  - rewrite prod_app.
    rewrite <- (line_loop _ _ _ xs (fun st l => let* '(st, r) := foldM f st ini l in Ok (st, into r))
                 (fun st n i => let* '(st, r) := for_ d (fun k '(st, state) =>
                     let* v := aget xs ((n * d + k) * prod d2 + i) in f st state v) (st, ini) in Ok (st, into r))); auto.
    + apply for_ext. intros n s _. apply for_ext. intros i [s' o] _. rewrite bind_assoc.
      apply bind_ext. intros [s2 r] _. reflexivity.
    + intros s q Hq. f_equal.
      apply (fold_gen f (fun k => aget xs ((q / prod d2 * d + k) * prod d2 + q mod prod d2))).
      * symmetry. now apply (line_length (prod d1)).
      * rewrite (line_length (prod d1)) by auto. intros k Hk. now apply (line_aget (prod d1)).
  - intros st' vs E. apply traverse_length in E. rewrite lines_length in E. now rewrite prod_app.
Qed.

Lemma fold_axis_none {S T R V} c (t : tensor T) ds xs (ini : R) (into : R -> V)
    (f : S -> R -> T -> outcome (S * R)) st :
  repr t ds xs ->
  fold_axis c t None ini into f st =
  let* '(st', r) := foldM f st ini xs in Ok (st', fresh [] [into r]).
Proof.
  intros H. pose proof (repr_supported _ _ _ H) as Hs. unfold fold_axis.
  rewrite (repr_shape _ _ _ H). cbn [axis_reduce]. rewrite size_canon by auto. cbn [bind].
  rewrite canon_scalar, size_canon by apply supported_nil. cbn [bind prod].
  rewrite (repr_as_slice _ _ _ H). cbn [bind].
  pose proof (repr_len _ _ _ H) as Hl.
  rewrite (unsafe_init_filled _ _ _ _ _ (let* '(st', r) := foldM f st ini xs in Ok (st', [into r]))); auto.
  - rewrite bind_assoc. apply bind_ext. now intros [s r] _.
  - left. lia.
  - apply supported_nil.
  - unfold for_ at 1 2. cbn [for_from].
    rewrite (fold_gen f (fun k => aget xs ((0 * prod ds + k) * 1 + 0)) xs) by
      (auto; intros k _; f_equal; lia).
    destruct (foldM f st ini xs) as [[s r]| |]; reflexivity.
  - intros st' vs E. destruct (foldM f st ini xs) as [[s r]| |]; cbn in E; try discriminate.
    now injection E as _ <-.
Qed.

Lemma reduce_gen {S T} (f : S -> T -> T -> outcome (S * T)) (g : nat -> outcome T) l n st :
  n = length l -> 0 < n -> (forall k, k < n -> g k = aget l k) ->
  (let* s0 := g 0 in
   for_range 1 n (fun k '(st, state) => let* v := g k in f st state v) (st, s0))
  = reduceM f st l.
Proof.
  intros Hn H0 Hg. destruct l as [|x l]; cbn in Hn; [lia|]. rewrite Hg by lia. cbn [aget nth_error bind reduceM].
  unfold for_range. replace (n - 1) with (length l) by lia.
  apply (fold_gen_from f g). intros k Hk. rewrite Hg by lia. reflexivity.
Qed.

Lemma reduce_axis_repr {S T} c (t : tensor T) a d1 d d2 xs (f : S -> T -> T -> outcome (S * T)) st :
  repr t (d1 ++ d :: d2) xs -> names_axis a (length d1) (length (d1 ++ d :: d2)) ->
  Forall (fun d => 0 < d) (d1 ++ d2) ->
  reduce_axis c t (Some a) f st =
  let* '(st', rs) := traverse (reduceM f) st (lines (prod d1) d (prod d2) xs) in
  Ok (st', fresh (d1 ++ d2) rs).
Proof.
  intros H Ha Hpos. pose proof (repr_supported _ _ _ H) as Hs. unfold reduce_axis.
  rewrite (repr_shape _ _ _ H), axis_reduce_canon by auto. cbn [bind].
  pose proof (supported_drop _ _ _ Hs) as Hs2. rewrite size_canon by auto. cbn [bind].
  rewrite (repr_as_slice _ _ _ H). cbn [bind].
  pose proof (repr_len _ _ _ H) as Hl. rewrite prod_app in Hl. cbn [prod] in Hl.
  pose proof (prod_pos _ Hpos) as Hpp. rewrite prod_app in Hpp.
  apply unsafe_init_filled; auto.
  - left. rewrite prod_app. lia.
  - rewrite prod_app.
    rewrite <- (line_loop _ _ _ xs (reduceM f)
                 (fun st n i =>
                    let* s0 := aget xs (n * d * prod d2 + i + 0 * prod d2) in
                    for_range 1 d (fun k '(st, state) =>
                     let* v := aget xs (n * d * prod d2 + i + k * prod d2) in f st state v) (st, s0))); auto.
    + apply for_ext. intros n s _. apply for_ext. intros i [s' o] _. now rewrite bind_assoc.
    + intros s q Hq. destruct (Nat.eq_dec d 0) as [->|Hd].
      * cbn [prod] in Hl. assert (xs = []) as -> by (apply length_zero_iff_nil; lia). cbn.
        destruct (_ + _); reflexivity.
      * apply (reduce_gen f (fun k => aget xs (q / prod d2 * d * prod d2 + q mod prod d2 + k * prod d2))).
        -- symmetry. now apply (line_length (prod d1)).
        -- lia.
        -- intros k Hk. rewrite <- (line_aget (prod d1)) by auto. f_equal. lia.
  - intros st' vs E. apply traverse_length in E. rewrite lines_length in E. now rewrite prod_app.
Qed.

Lemma reduce_axis_none {S T} c (t : tensor T) ds x xs (f : S -> T -> T -> outcome (S * T)) st :
  repr t ds (x :: xs) ->
  reduce_axis c t None f st = let* '(st', r) := foldM f st x xs in Ok (st', fresh [] [r]).
Proof.
  intros H. pose proof (repr_supported _ _ _ H) as Hs. unfold reduce_axis.
  rewrite (repr_shape _ _ _ H). cbn [axis_reduce]. rewrite size_canon by auto. cbn [bind].
  rewrite canon_scalar, size_canon by apply supported_nil. cbn [bind prod].
  rewrite (repr_as_slice _ _ _ H). cbn [bind].
  pose proof (repr_len _ _ _ H) as Hl.
  rewrite (unsafe_init_filled _ _ _ _ _ (let* '(st', r) := foldM f st x xs in Ok (st', [r]))); auto.
  - rewrite bind_assoc. apply bind_ext. now intros [s r] _.
  - left. lia.
  - apply supported_nil.
  - unfold for_. cbn [for_from].
    pose proof (reduce_gen f (fun k => aget (x :: xs) (0 * prod ds * 1 + 0 + k * 1)) (x :: xs) (prod ds) st) as E.
    cbn [reduceM] in E. rewrite <- E; auto.
    + rewrite !bind_assoc.
      destruct (aget (x :: xs) (0 * prod ds * 1 + 0 + 0 * 1)) as [s0| |]; cbn [bind]; auto.
      destruct (for_range 1 (prod ds) _ (st, s0)) as [[s r]| |]; reflexivity.
    + rewrite <- Hl. cbn. lia.
    + intros k _. f_equal. lia.
  - intros st' vs E. destruct (foldM f st x xs) as [[s r]| |]; cbn in E; try discriminate.
    now injection E as _ <-.
Qed.

(** ** Rows along an axis *)

Lemma as_wrap_slice_n_row {A} c (t : tensor A) ds k xs r :
  repr t (ds ++ [k]) xs -> toffset t = 0 -> 0 < k -> r < prod ds ->
  as_wrap_slice_n c t (k * r) k = aget (rows_of k xs) r.
Proof.
  intros H H0 Hk Hr. pose proof (repr_len _ _ _ H) as Hl. rewrite prod_app in Hl. cbn [prod] in Hl.
  rewrite Nat.mul_1_r in Hl. unfold as_wrap_slice_n, wrap_pos. rewrite (repr_size _ _ _ H), H0.
  assert (Hlt : k * r + k <= length xs) by nia.
  destruct (Nat.ltb_spec (k * r) (length xs)); [|lia]. cbn [bind].
  pose proof (repr_offset_bound _ _ _ H) as Hb. rewrite H0 in Hb. unfold two63 in Hb.
  rewrite uadd_ok by (unfold two64; lia). cbn [bind]. rewrite uadd_ok by (unfold two64; lia). cbn [bind].
  rewrite assert_true by lia. cbn [bind].
  pose proof (raw_slice_data _ _ _ (k * r) k H Hlt) as E. rewrite H0 in E. cbn [Nat.add] in *. rewrite E.
  symmetry. apply aget_ok. unfold rows_of. rewrite nth_error_map_seq.
  - now rewrite Nat.mul_comm.
  - rewrite Hl, Nat.div_mul by lia. auto.
Qed.

Lemma rows_of_elem {A} ds k (xs : list A) i j :
  length xs = prod (ds ++ [k]) -> in_shape ds i -> j < k ->
  exists row, elem ds (rows_of k xs) i = Some row /\ length row = k /\
              nth_error row j = elem (ds ++ [k]) xs (i ++ [j]).
Proof.
  intros Hl Hi Hj. rewrite prod_app in Hl. cbn [prod] in Hl. rewrite Nat.mul_1_r in Hl.
  pose proof (ravel_lt _ _ Hi) as Hr.
  exists (firstn k (skipn (ravel ds i * k) xs)). split; [|split].
  - unfold elem, rows_of. rewrite nth_error_map_seq; auto. rewrite Hl, Nat.div_mul by lia. auto.
  - rewrite firstn_length, skipn_length. nia.
  - rewrite nth_error_firstn. destruct (Nat.ltb_spec j k); [|lia].
    rewrite nth_error_skipn. unfold elem. rewrite ravel_app by (now apply in_shape_length).
    cbn. f_equal. lia.
Qed.

Lemma axis_reduce_row_canon c a d1 d d2 k N :
  supported (d1 ++ d :: d2 ++ [k]) -> names_axis a (length d1) (length (d1 ++ d :: d2 ++ [k])) ->
  Forall (fun d => 0 < d) (d1 ++ d2) -> 0 < N -> supported (d1 ++ d2 ++ [N]) ->
  axis_reduce_row c (Some a) (canon (d1 ++ d :: d2 ++ [k])) N
  = Ok (canon (d1 ++ d2 ++ [N]), prod d1, d, prod d2).
Proof.
  intros Hs Ha Hpos HN HsN. pose proof (supported_len _ Hs) as Hl. unfold axis_reduce_row.
  change (rank (canon (d1 ++ d :: d2 ++ [k]))) with (length (d1 ++ d :: d2 ++ [k])).
  rewrite (names_axis_norm _ _ _ _ Hl Ha). cbn [bind].
  rewrite app_length in *. cbn [length] in *. rewrite app_length in *. cbn [length] in *.
  destruct (Nat.eqb_spec (length d1 + Datatypes.S (length d2 + 1)) 1) as [E|E]; [lia|].
  rewrite assert_true by lia. cbn [bind].
  rewrite collect_dims_ok by (auto; rewrite app_length; lia). cbn [bind].
  rewrite Nat.sub_0_r. change (skipn 0 (d1 ++ d :: d2 ++ [k])) with (d1 ++ d :: d2 ++ [k]). rewrite firstn_app_exact.
  rewrite collect_dims_ok by (auto; rewrite app_length; cbn; rewrite app_length; cbn; lia). cbn [bind app].
  replace (skipn (length d1 + 1) (d1 ++ d :: d2 ++ [k])) with (d2 ++ [k]).
  2: { rewrite skipn_app, skipn_all2 by lia. replace (length d1 + 1 - length d1) with 1 by lia. reflexivity. }
  replace (length d1 + Datatypes.S (length d2 + 1) - 1 - (length d1 + 1)) with (length d2) by lia.
  rewrite firstn_app_exact. rewrite <- app_assoc.
  rewrite from_vec_dims_supported; auto.
  - cbn [bind]. rewrite dim_canon by (rewrite app_length; cbn; rewrite app_length; cbn; lia). cbn [bind].
    rewrite nth_middle. reflexivity.
  - rewrite app_assoc. apply Forall_app. split; auto.
Qed.

(** Fold of a list of rows along an axis of the outer dimensions, concatenating the
    per-line outputs. *)
Lemma fold_row_loop {S T R V} c N (t : tensor T) d1 d d2 k xs (ini : R) (into : R -> list V)
    (f : S -> R -> list T -> outcome (S * R)) st :
  repr t (d1 ++ d :: d2 ++ [k]) xs -> toffset t = 0 -> 0 < k ->
  (forall r, length (into r) = N) ->
  for_ (prod d1) (fun b sb =>
      for_ (prod d2) (fun j '(st, o) =>
        let* '(st, state) := for_ d (fun m '(st, state) =>
          let offset := (b * d + m) * prod d2 + j in
          let* v := as_wrap_slice_n c t (k * offset) k in
          f st state v) (st, ini) in
        let* o := write_row o ((b * prod d2 + j) * N) (into state) in
        Ok (st, o)) sb) (st, repeat None (prod d1 * prod d2 * N))
  = let* '(st', rs) := traverse (fun st l => foldM f st ini l) st
                         (lines (prod d1) d (prod d2) (rows_of k xs)) in
    Ok (st', map Some (concat (map into rs))).
Proof.
  intros H H0 Hk Hinto.
  pose proof (repr_len _ _ _ H) as Hl. rewrite prod_app in Hl. cbn [prod] in Hl. rewrite prod_app in Hl.
  cbn [prod] in Hl.
  assert (Hrl : length (rows_of k xs) = prod d1 * (d * prod d2)).
  { apply rows_of_length; auto. rewrite Hl. lia. }
  rewrite (for_nest (prod d1) (prod d2) (fun b j '(st, o) =>
        let* '(st, state) := for_ d (fun m '(st, state) =>
          let offset := (b * d + m) * prod d2 + j in
          let* v := as_wrap_slice_n c t (k * offset) k in
          f st state v) (st, ini) in
        let* o := write_row o ((b * prod d2 + j) * N) (into state) in
        Ok (st, o))).
  rewrite (for_ext _ _ (fun q '(st, o) =>
     let* '(st, vs) := (let* '(st, r) := foldM f st ini (line d (prod d2) (rows_of k xs) q) in Ok (st, into r)) in
     let* o := write_row o (q * N) vs in Ok (st, o))).
  - rewrite (block_write N (fun st q => let* '(st, r) := foldM f st ini (line d (prod d2) (rows_of k xs) q) in Ok (st, into r))).
    + rewrite (traverse_post (fun st q => foldM f st ini (line d (prod d2) (rows_of k xs) q)) into).
      unfold lines. rewrite traverse_map.
      destruct (traverse _ st _) as [[s vss]| |]; reflexivity.
    + intros s i s' vs. destruct (foldM f s ini _) as [[s1 r]| |]; cbn; try discriminate.
      intros [= _ <-]. apply Hinto.
  - intros q [s o] Hq. rewrite divmod_self by nia.
    rewrite (fold_gen f (fun m => as_wrap_slice_n c t (k * ((q / prod d2 * d + m) * prod d2 + q mod prod d2)) k)
               (line d (prod d2) (rows_of k xs) q)).
    + rewrite bind_assoc. apply bind_ext. now intros [s1 r] _.
    + symmetry. now apply (line_length (prod d1)).
    + rewrite (line_length (prod d1)) by auto. intros m Hm.
      assert (E : d1 ++ d :: d2 ++ [k] = (d1 ++ d :: d2) ++ [k]) by now rewrite <- app_assoc.
      rewrite E in H. rewrite (as_wrap_slice_n_row _ _ _ _ _ _ H H0 Hk).
      * now apply (line_aget (prod d1)).
      * rewrite prod_app. cbn [prod]. now apply line_pos.
Qed.

Lemma fold_row_repr {S T R V} c N (t : tensor T) a d1 d d2 k xs (ini : R) (into : R -> list V)
    (f : S -> R -> list T -> outcome (S * R)) st :
  repr t (d1 ++ d :: d2 ++ [k]) xs -> toffset t = 0 -> 0 < k ->
  names_axis a (length d1) (length (d1 ++ d :: d2 ++ [k])) ->
  Forall (fun d => 0 < d) (d1 ++ d2) -> 0 < N -> supported (d1 ++ d2 ++ [N]) ->
  (forall r, length (into r) = N) ->
  fold_row c N t (Some a) ini into f st =
  let* '(st', rs) := traverse (fun st l => foldM f st ini l) st
                       (lines (prod d1) d (prod d2) (rows_of k xs)) in
  Ok (st', fresh (d1 ++ d2 ++ [N]) (concat (map into rs))).
Proof.
  intros H H0 Hk Ha Hpos HN HsN Hinto. unfold fold_row.
  pose proof (repr_supported _ _ _ H) as Hs. pose proof (supported_len _ Hs) as Hl6.
  rewrite (repr_shape _ _ _ H), axis_reduce_row_canon by auto. cbn [bind].
  rewrite cols_canon by auto. cbn [bind].
  replace (last (d1 ++ d :: d2 ++ [k]) 0) with k.
  2: { change (d :: d2 ++ [k]) with ((d :: d2) ++ [k]). rewrite app_assoc. now rewrite last_last. }
  rewrite size_canon by auto. cbn [bind].
  assert (HP : prod (d1 ++ d2 ++ [N]) = prod d1 * prod d2 * N).
  { rewrite !prod_app. cbn [prod]. lia. }
  rewrite (unsafe_init_filled _ _ _ _ _
    (let* '(st', rs) := traverse (fun st l => foldM f st ini l) st (lines (prod d1) d (prod d2) (rows_of k xs)) in
     Ok (st', concat (map into rs)))); auto.
  - rewrite bind_assoc. apply bind_ext. now intros [s r] _.
  - left. apply prod_pos in Hpos. rewrite prod_app in Hpos. rewrite HP. nia.
  - rewrite HP. rewrite (fold_row_loop c N t d1 d d2 k xs) by auto.
    rewrite bind_assoc. apply bind_ext. now intros [s r] _.
  - intros st' vs E.
    destruct (traverse _ st _) as [[s rs]| |] eqn:E2; cbn in E; try discriminate. injection E as _ <-.
    apply traverse_length in E2. rewrite lines_length in E2.
    rewrite (concat_length_const N); [rewrite map_length; lia|].
    apply Forall_forall. intros r Hr. apply in_map_iff in Hr. destruct Hr as (r0 & <- & _). apply Hinto.
Qed.

Lemma fold_row_none {S T R V} c N (t : tensor T) ds k xs (ini : R) (into : R -> list V)
    (f : S -> R -> list T -> outcome (S * R)) st :
  repr t (ds ++ [k]) xs -> toffset t = 0 -> 0 < k ->
  supported [N] -> can_alloc c N ->
  (forall r, length (into r) = N) ->
  fold_row c N t None ini into f st =
  let* '(st', r) := foldM f st ini (rows_of k xs) in Ok (st', fresh [N] (into r)).
Proof.
  intros H H0 Hk HsN Hc Hinto. unfold fold_row.
  pose proof (repr_supported _ _ _ H) as Hs. pose proof (supported_len _ Hs) as Hl6.
  pose proof (repr_len _ _ _ H) as Hl. rewrite prod_app in Hl. cbn [prod] in Hl. rewrite Nat.mul_1_r in Hl.
  rewrite (repr_shape _ _ _ H). cbn [axis_reduce_row].
  rewrite from_slice_dims_supported by auto. cbn [bind]. rewrite size_canon by auto. cbn [bind].
  rewrite cols_canon by auto. cbn [bind]. rewrite last_last. rewrite udiv_ok by lia. cbn [bind].
  rewrite size_canon by auto. cbn [bind prod]. rewrite Nat.mul_1_r.
  rewrite prod_app. cbn [prod]. rewrite Nat.mul_1_r, Nat.div_mul by lia.
  rewrite (unsafe_init_filled _ _ _ _ _ (let* '(st', r) := foldM f st ini (rows_of k xs) in Ok (st', into r))); auto.
  - rewrite bind_assoc. apply bind_ext. now intros [s r] _.
  - cbn. lia.
  - unfold for_ at 1 2. cbn [for_from].
    rewrite (fold_gen f (fun m => as_wrap_slice_n c t (k * ((0 * prod ds + m) * 1 + 0)) k) (rows_of k xs)).
    + destruct (foldM f st ini (rows_of k xs)) as [[s r]| |]; cbn [bind]; auto.
      pose proof (write_row_next [] (into r) 0) as E. cbn [map app length Nat.mul Nat.add] in E.
      rewrite !Nat.add_0_r, !app_nil_r, Hinto in E. cbn [Nat.mul Nat.add]. rewrite E. reflexivity.
    + now rewrite (rows_of_length k (prod ds)).
    + rewrite (rows_of_length k (prod ds)) by auto. intros m Hm.
      rewrite <- (as_wrap_slice_n_row c _ _ _ _ _ H H0 Hk) by auto. do 2 f_equal. lia.
  - intros st' vs E. destruct (foldM f st ini (rows_of k xs)) as [[s r]| |]; cbn in E; try discriminate.
    injection E as _ <-. apply Hinto.
Qed.

(** ** normalize *)

Lemma seq_write_block {S V} (g : S -> nat -> outcome (S * V)) L n (done : list V) st :
  for_ L (fun k '(st, o) =>
      let* '(st, v) := g st k in
      let* o := write o (length done + k) v in
      Ok (st, o)) (st, map Some done ++ repeat None (L + n))
  = let* '(st, vs) := traverse g st (seq 0 L) in
    Ok (st, map Some (done ++ vs) ++ repeat None n).
Proof.
  unfold for_.
  assert (G : forall m j done' st, length done' = length done + j ->
    for_from j m (fun k '(st, o) =>
      let* '(st, v) := g st k in
      let* o := write o (length done + k) v in
      Ok (st, o)) (st, map Some done' ++ repeat None (m + n))
    = let* '(st, vs) := traverse g st (seq j m) in
      Ok (st, map Some (done' ++ vs) ++ repeat None n)).
  { induction m as [|m IH]; intros j done' s Hd.
    - cbn. now rewrite app_nil_r.
    - rewrite for_from_S. cbn [seq traverse].
      destruct (g s j) as [[s1 v]| |]; cbn [bind]; auto.
      rewrite <- Hd. cbn [Nat.add]. rewrite write_next. cbn [bind].
      rewrite IH by (rewrite app_length; cbn; lia).
      destruct (traverse g s1 _) as [[s2 vs]| |]; cbn [bind]; auto. now rewrite <- app_assoc. }
  apply G. lia.
Qed.

Lemma normalize_loop {S T R R1 V} B L I (xs : list T) (ini : R) (accum : S -> R -> T -> outcome (S * R))
    (complete : S -> R -> outcome (S * R1)) (norm : S -> R1 -> T -> outcome (S * V)) st :
  length xs = B * (L * I) ->
  for_ B (fun n => for_ I (fun i '(st, o) =>
        let* '(st, state) := for_ L (fun k '(st, state) =>
          let* v := aget xs ((n * L + k) * I + i) in
          accum st state v) (st, ini) in
        let* '(st, state) := complete st state in
        for_ L (fun k '(st, o) =>
          let* v := aget xs ((n * L + k) * I + i) in
          let* '(st, w) := norm st state v in
          let* o := write o ((n * I + i) * L + k) w in
          Ok (st, o)) (st, o))) (st, repeat None (B * I * L))
  = let* '(st', yss) := traverse (normM ini accum complete norm) st (lines B L I xs) in
    Ok (st', map Some (concat yss)).
Proof.
  intros Hl. rewrite for_nest. unfold lines. rewrite traverse_map.
  set (body := fun p : nat => _). unfold for_.
  assert (G : forall m q done st, q + m = B * I -> length done = q * L ->
     for_from q m body (st, map Some done ++ repeat None (m * L))
     = let* '(st', yss) := traverse (fun s x => normM ini accum complete norm s (line L I xs x)) st (seq q m) in
       Ok (st', map Some (done ++ concat yss))).
  { induction m as [|m IH]; intros q done s Hq Hd.
    - cbn. now rewrite !app_nil_r.
    - rewrite for_from_S. cbn [seq traverse]. unfold normM at 1. unfold body at 1. cbn beta iota.
      rewrite (fold_gen accum (fun k => aget xs ((q / I * L + k) * I + q mod I)) (line L I xs q)).
      2: { symmetry. apply (line_length B); auto. lia. }
      2: { rewrite (line_length B) by (auto; lia). intros k Hk. apply (line_aget B); auto. lia. }
      destruct (foldM accum s ini (line L I xs q)) as [[s1 r]| |]; cbn [bind]; auto.
      destruct (complete s1 r) as [[s2 r1]| |]; cbn [bind]; auto.
      rewrite divmod_self by nia.
      rewrite (for_ext _ _ (fun k '(st, o) =>
         let* '(st, w) := (let* v := aget (line L I xs q) k in norm st r1 v) in
         let* o := write o (length done + k) w in Ok (st, o))).
      2: { intros k [s3 o] Hk. rewrite (line_aget B) by (auto; lia). rewrite Hd, bind_assoc. reflexivity. }
      cbn [Nat.mul].
      rewrite (seq_write_block (fun st k => let* v := aget (line L I xs q) k in norm st r1 v)).
      pose proof (line_length B L I xs q Hl ltac:(lia)) as HlL.
      pose proof (traverse_index (fun st v => norm st r1 v) (line L I xs q) s2) as Ei.
      rewrite HlL in Ei. rewrite Ei.
      destruct (traverse (fun st v => norm st r1 v) s2 (line L I xs q)) as [[s3 vs]| |] eqn:E3; cbn [bind]; auto.
      apply traverse_length in E3. rewrite HlL in E3.
      rewrite IH; [|lia|rewrite app_length; lia].
      destruct (traverse _ s3 _) as [[s4 yss]| |]; cbn [bind concat]; auto. now rewrite <- app_assoc. }
  exact (G (B * I) 0 [] st eq_refl eq_refl).
Qed.

Lemma normM_length {S T R R1 V} (ini : R) (accum : S -> R -> T -> outcome (S * R))
    (complete : S -> R -> outcome (S * R1)) (norm : S -> R1 -> T -> outcome (S * V)) st l st' ys :
  normM ini accum complete norm st l = Ok (st', ys) -> length ys = length l.
Proof.
  unfold normM. destruct (foldM accum st ini l) as [[s1 r]| |]; cbn; try discriminate.
  destruct (complete s1 r) as [[s2 r1]| |]; cbn; try discriminate. intros E. now apply traverse_length in E.
Qed.

Lemma traverse_lengths {S X Y} (g : S -> list X -> outcome (S * list Y)) st ls st' yss n :
  (forall st l st' ys, g st l = Ok (st', ys) -> length ys = length l) ->
  Forall (fun l => length l = n) ls ->
  traverse g st ls = Ok (st', yss) -> Forall (fun l => length l = n) yss /\ length yss = length ls.
Proof.
  intros Hg. revert st st' yss; induction ls as [|l ls IH]; intros st st' yss Hf; cbn.
  - intros [= _ <-]. auto.
  - inversion Hf; subst. destruct (g st l) as [[s1 y]| |] eqn:E; cbn; try discriminate.
    destruct (traverse g s1 ls) as [[s2 ys']| |] eqn:E2; cbn; try discriminate.
    intros [= _ <-]. apply IH in E2; auto. destruct E2. split; [|cbn; lia]. constructor; auto.
    apply Hg in E. congruence.
Qed.

Lemma lines_Forall {A} B L I (xs : list A) :
  length xs = B * (L * I) -> Forall (fun l => length l = L) (lines B L I xs).
Proof.
  intros Hl. apply Forall_forall. intros l Hin. unfold lines in Hin. apply in_map_iff in Hin.
  destruct Hin as (q & <- & Hq). apply in_seq in Hq. apply (line_length B); auto. lia.
Qed.

Lemma normalize_repr {S T R R1 V} c (t : tensor T) a d1 d d2 xs (ini : R)
    (accum : S -> R -> T -> outcome (S * R))
    (complete : S -> R -> outcome (S * R1)) (norm : S -> R1 -> T -> outcome (S * V)) st :
  repr t (d1 ++ d :: d2) xs -> names_axis a (length d1) (length (d1 ++ d :: d2)) ->
  Forall (fun d => 0 < d) (d1 ++ d2) -> can_alloc c (length xs) ->
  normalize c t (Some a) ini accum complete norm st =
  let* '(st', yss) := traverse (normM ini accum complete norm) st (lines (prod d1) d (prod d2) xs) in
  Ok (st', fresh (d1 ++ d :: d2) (concat yss)).
Proof.
  intros H Ha Hpos Hc. pose proof (repr_supported _ _ _ H) as Hs. unfold normalize.
  rewrite (repr_shape _ _ _ H), axis_reduce_canon by auto. cbn [bind].
  rewrite size_canon by auto. cbn [bind]. rewrite (repr_as_slice _ _ _ H). cbn [bind].
  pose proof (repr_len _ _ _ H) as Hl. pose proof Hl as Hl'. rewrite prod_app in Hl'. cbn [prod] in Hl'.
  rewrite (unsafe_init_filled _ _ _ _ _
    (let* '(st', yss) := traverse (normM ini accum complete norm) st (lines (prod d1) d (prod d2) xs) in
     Ok (st', concat yss))); auto.
  - rewrite bind_assoc. apply bind_ext. now intros [s r] _.
  - now rewrite <- Hl.
  - replace (prod (d1 ++ d :: d2)) with (prod d1 * prod d2 * d) by (rewrite <- Hl; lia).
    rewrite normalize_loop by auto. rewrite bind_assoc. apply bind_ext. now intros [s r] _.
  - intros st' vs E.
    destruct (traverse _ st _) as [[s yss]| |] eqn:E2; cbn in E; try discriminate. injection E as _ <-.
    eapply traverse_lengths in E2; [|intros; eapply normM_length; eauto|apply lines_Forall; auto].
    destruct E2 as [E2 E3]. rewrite lines_length in E3. rewrite (concat_length_const d), E3 by auto. lia.
Qed.

Lemma normalize_none {S T R R1 V} c (t : tensor T) ds xs (ini : R)
    (accum : S -> R -> T -> outcome (S * R))
    (complete : S -> R -> outcome (S * R1)) (norm : S -> R1 -> T -> outcome (S * V)) st :
  repr t ds xs -> can_alloc c (length xs) ->
  normalize c t None ini accum complete norm st =
  let* '(st', ys) := normM ini accum complete norm st xs in Ok (st', fresh ds ys).
Proof.
  intros H Hc. pose proof (repr_supported _ _ _ H) as Hs. unfold normalize.
  rewrite (repr_shape _ _ _ H). cbn [axis_reduce]. rewrite size_canon by auto. cbn [bind].
  rewrite (repr_as_slice _ _ _ H). cbn [bind].
  pose proof (repr_len _ _ _ H) as Hl.
  rewrite (unsafe_init_filled _ _ _ _ _ (normM ini accum complete norm st xs)); auto.
  - now rewrite <- Hl.
  - pose proof (normalize_loop 1 (prod ds) 1 xs ini accum complete norm st ltac:(lia)) as E.
    rewrite Nat.mul_1_l in E. unfold for_ at 1 2 in E. unfold for_ at 1 2.
    etransitivity; [exact E|]. clear E.
    assert (Elines : lines 1 (prod ds) 1 xs = [xs]).
    { unfold lines. cbn [Nat.mul Nat.add seq map]. f_equal. apply nth_error_ext. intros k.
      destruct (Nat.lt_ge_cases k (prod ds)) as [Hk|Hk].
      - rewrite (line_nth 1) by lia. f_equal. cbn. lia.
      - rewrite !(proj2 (nth_error_None _ _)); auto; try lia.
        rewrite (line_length 1); lia. }
    rewrite Elines. cbn [traverse]. rewrite !bind_assoc.
    destruct (normM ini accum complete norm st xs) as [[s ys]| |]; cbn [bind]; auto.
    cbn. now rewrite app_nil_r.
  - intros st' vs E. apply normM_length in E. lia.
Qed.
