(** * Properties of map, fold, reduce and normalize (C24-C33): proofs *)
From Coq Require Import ZifyBool ZifyNat ZifyN.
From Verif Require Import Base ShapeModel TensorModel AxisModel MapModel NumModel Spec BaseFacts
  ShapeFacts ShapeFacts2 CoordFacts TensorFacts TensorFacts2 MapFacts.
From Verif Require Import MapSpec.

Ltac Zify.zify_post_hook ::= Z.div_mod_to_equations.

(** ** C24 *)

Lemma c24_init {S V} c ds (f : S -> outcome (S * V)) st :
  supported ds -> can_alloc c (prod ds) ->
  init c (canon ds) f st =
  let* '(st', ys) := traverse (fun st _ => f st) st (coords ds) in Ok (st', fresh ds ys).
Proof. exact (init_canon c ds f st). Qed.

Lemma c24_init_rindexed {S V} c ds (f : S -> list nat -> outcome (S * V)) st :
  supported ds -> can_alloc c (prod ds) ->
  init_rindexed c (canon ds) f st =
  let* '(st', ys) := traverse (fun st idx => f st (rev idx)) st (coords ds) in
  Ok (st', fresh ds ys).
Proof. exact (init_rindexed_canon c ds f st). Qed.

Lemma c24_coords ds idx :
  (In idx (coords ds) <-> in_shape ds idx) /\
  (in_shape ds idx -> nth_error (coords ds) (ravel ds idx) = Some idx) /\
  length (coords ds) = prod ds.
Proof. split; [apply coords_in|]. split; [apply coords_nth|apply coords_length]. Qed.

Lemma c24_init_rindexed_pure {V} c ds (f : list nat -> V) :
  supported ds -> can_alloc c (prod ds) ->
  exists ys, init_rindexed c (canon ds) (pure1 f) tt = Ok (tt, fresh ds ys) /\
    length ys = prod ds /\
    forall idx, in_shape ds idx -> elem ds ys idx = Some (f (rev idx)).
Proof.
  intros Hs Hc. exists (map (fun idx => f (rev idx)) (coords ds)). split; [|split].
  - rewrite init_rindexed_canon by auto.
    now rewrite (traverse_pure (fun idx => f (rev idx))).
  - rewrite map_length. apply coords_length.
  - intros idx Hi. unfold elem. rewrite nth_error_map, coords_nth by auto. reflexivity.
Qed.

(** ** C25 *)

Lemma c25_map {S U V} c (t : tensor U) ds xs (f : S -> U -> outcome (S * V)) st :
  repr t ds xs -> can_alloc c (length xs) ->
  map_ c t f st = let* '(st', ys) := traverse f st xs in Ok (st', fresh ds ys).
Proof. exact (map_repr c t ds xs f st). Qed.

Lemma c25_map_pure {U V} c (t : tensor U) ds xs (f : U -> V) :
  repr t ds xs -> can_alloc c (length xs) ->
  exists ys, map_ c t (pure1 f) tt = Ok (tt, fresh ds ys) /\ repr (fresh ds ys) ds ys /\
    forall idx, elem ds ys idx = option_map f (elem ds xs idx).
Proof.
  intros H Hc. exists (map f xs). split; [|split].
  - rewrite (map_repr _ _ _ _ _ _ H Hc). now rewrite (traverse_pure f).
  - apply repr_fresh; [apply H|]. rewrite map_length. apply H.
  - intros idx. unfold elem. apply nth_error_map.
Qed.

(** ** C26 *)

Lemma c26_map_row {S U V} c N (t : tensor U) ds k xs (f : S -> list U -> outcome (S * list V)) st ds' :
  repr t (ds ++ [k]) xs -> 0 < k ->
  (forall st r st' vs, f st r = Ok (st', vs) -> length vs = N) ->
  ds' = (if (N =? 1) && (0 <? length ds) then ds else ds ++ [N]) ->
  supported ds' -> can_alloc c (prod ds') ->
  exists rows,
    length rows = prod ds /\
    (forall i j, in_shape ds i -> j < k -> exists row, elem ds rows i = Some row /\
       length row = k /\ nth_error row j = elem (ds ++ [k]) xs (i ++ [j])) /\
    map_row c N t f st =
      let* '(st', yss) := traverse f st rows in Ok (st', fresh ds' (concat yss)).
Proof.
  intros H Hk Hf Hd Hs Hc. exists (rows_of k xs). pose proof (repr_len _ _ _ H) as Hl.
  split; [|split].
  - apply rows_of_length; auto. rewrite Hl, prod_app. cbn. lia.
  - intros i j Hi Hj. now apply rows_of_elem.
  - now apply (map_row_repr c N t ds k).
Qed.

Lemma c26_layout {V} N ds (yss : list (list V)) i j :
  Forall (fun r => length r = N) yss -> in_shape ds i -> j < N ->
  elem (ds ++ [N]) (concat yss) (i ++ [j]) =
  match elem ds yss i with Some r => nth_error r j | None => None end.
Proof.
  intros Hf Hi Hj. unfold elem. rewrite ravel_app by now apply in_shape_length. cbn [ravel prod].
  rewrite !Nat.mul_1_r, Nat.add_0_r. apply nth_error_concat_blocks; auto.
  intros l Hl. rewrite Forall_forall in Hf. auto.
Qed.

Lemma c26_map_expand {S U V} c N (t : tensor U) ds xs (f : S -> U -> outcome (S * list V)) st :
  repr t ds xs -> supported (ds ++ [N]) -> can_alloc c (N * length xs) ->
  (forall st x st' vs, f st x = Ok (st', vs) -> length vs = N) ->
  map_expand c N t f st =
  let* '(st', yss) := traverse f st xs in Ok (st', fresh (ds ++ [N]) (concat yss)).
Proof. exact (map_expand_repr c N t ds xs f st). Qed.

Lemma c26_map_row_no_rows {S U V} c N (t : tensor U) ds xs (f : S -> list U -> outcome (S * list V)) st :
  repr t ds xs -> last ds 0 = 0 -> map_row c N t f st = Panic.
Proof.
  intros H H0. pose proof (supported_len _ (repr_supported _ _ _ H)) as Hl.
  unfold map_row. rewrite (repr_shape _ _ _ H).
  change (rank (canon ds)) with (length ds).
  destruct ((N =? 1) && (1 <? length ds)) eqn:B.
  - rewrite rremove_canon by lia. cbn [bind]. rewrite cols_canon by auto. cbn [bind]. now rewrite H0.
  - destruct (with_cols (canon ds) N) as [s| |] eqn:E; cbn [bind]; auto.
    + rewrite cols_canon by auto. cbn [bind]. now rewrite H0.
    + exfalso. unfold with_cols in E. rewrite aset_ok in E by (rewrite canon_dims_length; lia). discriminate.
Qed.

(** ** C27 *)

Lemma c27_map2 {S T U V} c (ta : tensor T) (tb : tensor U) da db dl xs ys :
  repr ta da xs -> repr tb db ys -> xs <> [] -> ys <> [] ->
  (suffix db da /\ dl = da) \/ (suffix da db /\ dl = db) ->
  exists ps : list (T * U),
    length ps = prod dl /\
    (forall idx, in_shape dl idx -> exists x y,
       elem da xs (skipn (length dl - length da) idx) = Some x /\
       elem db ys (skipn (length dl - length db) idx) = Some y /\
       elem dl ps idx = Some (x, y)) /\
    forall (f : S -> T -> U -> outcome (S * V)) st,
      map2 c ta tb f st =
      let* '(st', vs) := traverse (fun st '(x, y) => f st x y) st ps in Ok (st', fresh dl vs).
Proof.
  intros Ha Hb Hx Hy Hd. exists (combine (cyc (prod dl) xs) (cyc (prod dl) ys)).
  pose proof (repr_len _ _ _ Ha) as La. pose proof (repr_len _ _ _ Hb) as Lb.
  assert (Hx0 : length xs <> 0) by (destruct xs; cbn; congruence).
  assert (Hy0 : length ys <> 0) by (destruct ys; cbn; congruence).
  assert (F : suffix da dl /\ suffix db dl).
  { destruct Hd as [[? ->]|[? ->]]; split; auto; apply suffix_self. }
  destruct F as [Fa Fb]. split; [|split].
  - rewrite combine_length, !cyc_length; auto; [lia| |].
    + rewrite Lb. now apply suffix_divide.
    + rewrite La. now apply suffix_divide.
  - intros idx Hi. unfold elem at 3. rewrite combine_nth_error.
    fold (elem dl (cyc (prod dl) xs) idx) (elem dl (cyc (prod dl) ys) idx).
    destruct Fa as [pa Ea]. destruct Fb as [pb Eb].
    assert (Xa : elem dl (cyc (prod dl) xs) idx = elem da xs (skipn (length dl - length da) idx)).
    { rewrite Ea in Hi |- *. rewrite elem_cyc by auto. do 2 f_equal. rewrite app_length. lia. }
    assert (Xb : elem dl (cyc (prod dl) ys) idx = elem db ys (skipn (length dl - length db) idx)).
    { rewrite Eb in Hi |- *. rewrite elem_cyc by auto. do 2 f_equal. rewrite app_length. lia. }
    destruct (elem_some dl (cyc (prod dl) xs) idx) as [x Ex]; auto.
    { rewrite cyc_length; auto. rewrite La, Ea, prod_app. now exists (prod pa). }
    destruct (elem_some dl (cyc (prod dl) ys) idx) as [y Ey]; auto.
    { rewrite cyc_length; auto. rewrite Lb, Eb, prod_app. now exists (prod pb). }
    exists x, y. rewrite <- Xa, <- Xb, Ex, Ey. auto.
  - intros f st. now apply (map2_repr c ta tb da db).
Qed.

Lemma c27_map2_rejects {S T U V} c (ta : tensor T) (tb : tensor U) da db xs ys
    (f : S -> T -> U -> outcome (S * V)) st :
  repr ta da xs -> repr tb db ys ->
  (~ suffix da db /\ ~ suffix db da) \/ xs = [] \/ ys = [] ->
  map2 c ta tb f st = Panic.
Proof.
  intros Ha Hb Hbad.
  pose proof (supported_len _ (repr_supported _ _ _ Ha)). pose proof (supported_len _ (repr_supported _ _ _ Hb)).
  unfold map2. rewrite (repr_shape _ _ _ Ha), (repr_shape _ _ _ Hb), (repr_size _ _ _ Ha), (repr_size _ _ _ Hb).
  destruct Hbad as [[H1 H2]|Hbad].
  - now rewrite broadcast_to_panic.
  - destruct (broadcast_to (canon da) (canon db)) as [s| |] eqn:E; cbn [bind]; auto.
    + replace (Nat.min (length xs) (length ys)) with 0; [reflexivity|].
      destruct Hbad as [->| ->]; cbn [length]; lia.
    + exfalso. unfold broadcast_to in E.
      destruct (check_broadcast_dec da db) as [E'|E']; auto; rewrite E' in E; discriminate.
Qed.

Lemma c27_map3 {S T U V W} c (ta : tensor T) (tb : tensor U) (tc : tensor V) da db dc dl xs ys zs :
  repr ta da xs -> repr tb db ys -> repr tc dc zs -> xs <> [] -> ys <> [] -> zs <> [] ->
  suffix da dl -> suffix db dl -> suffix dc dl -> (dl = da \/ dl = db \/ dl = dc) ->
  exists ps : list (T * (U * V)),
    length ps = prod dl /\
    (forall idx, in_shape dl idx -> exists x y z,
       elem da xs (skipn (length dl - length da) idx) = Some x /\
       elem db ys (skipn (length dl - length db) idx) = Some y /\
       elem dc zs (skipn (length dl - length dc) idx) = Some z /\
       elem dl ps idx = Some (x, (y, z))) /\
    forall (f : S -> T -> U -> V -> outcome (S * W)) st,
      map3 c ta tb tc f st =
      let* '(st', vs) := traverse (fun st '(x, (y, z)) => f st x y z) st ps in Ok (st', fresh dl vs).
Proof.
  intros Ha Hb Hc Hx Hy Hz Fa Fb Fc Hd.
  exists (combine (cyc (prod dl) xs) (combine (cyc (prod dl) ys) (cyc (prod dl) zs))).
  pose proof (repr_len _ _ _ Ha) as La. pose proof (repr_len _ _ _ Hb) as Lb. pose proof (repr_len _ _ _ Hc) as Lc.
  assert (Hx0 : length xs <> 0) by (destruct xs; cbn; congruence).
  assert (Hy0 : length ys <> 0) by (destruct ys; cbn; congruence).
  assert (Hz0 : length zs <> 0) by (destruct zs; cbn; congruence).
  assert (Cx : length (cyc (prod dl) xs) = prod dl)
    by (apply cyc_length; auto; rewrite La; now apply suffix_divide).
  assert (Cy : length (cyc (prod dl) ys) = prod dl)
    by (apply cyc_length; auto; rewrite Lb; now apply suffix_divide).
  assert (Cz : length (cyc (prod dl) zs) = prod dl)
    by (apply cyc_length; auto; rewrite Lc; now apply suffix_divide).
  split; [|split].
  - rewrite !combine_length. lia.
  - intros idx Hi. unfold elem at 4. rewrite !combine_nth_error.
    fold (elem dl (cyc (prod dl) xs) idx) (elem dl (cyc (prod dl) ys) idx) (elem dl (cyc (prod dl) zs) idx).
    destruct Fa as [pa Ea]. destruct Fb as [pb Eb]. destruct Fc as [pc Ec].
    assert (Xa : elem dl (cyc (prod dl) xs) idx = elem da xs (skipn (length dl - length da) idx)).
    { rewrite Ea in Hi |- *. rewrite elem_cyc by auto. do 2 f_equal. rewrite app_length. lia. }
    assert (Xb : elem dl (cyc (prod dl) ys) idx = elem db ys (skipn (length dl - length db) idx)).
    { rewrite Eb in Hi |- *. rewrite elem_cyc by auto. do 2 f_equal. rewrite app_length. lia. }
    assert (Xc : elem dl (cyc (prod dl) zs) idx = elem dc zs (skipn (length dl - length dc) idx)).
    { rewrite Ec in Hi |- *. rewrite elem_cyc by auto. do 2 f_equal. rewrite app_length. lia. }
    destruct (elem_some dl (cyc (prod dl) xs) idx Cx Hi) as [x Ex].
    destruct (elem_some dl (cyc (prod dl) ys) idx Cy Hi) as [y Ey].
    destruct (elem_some dl (cyc (prod dl) zs) idx Cz Hi) as [z Ez].
    exists x, y, z. rewrite <- Xa, <- Xb, <- Xc, Ex, Ey, Ez. auto.
  - intros f st. now apply (map3_repr c ta tb tc da db dc).
Qed.

Lemma c27_map3_rejects {S T U V W} c (ta : tensor T) (tb : tensor U) (tc : tensor V) da db dc xs ys zs
    (f : S -> T -> U -> V -> outcome (S * W)) st :
  repr ta da xs -> repr tb db ys -> repr tc dc zs ->
  (~ exists dl, suffix da dl /\ suffix db dl /\ suffix dc dl /\ (dl = da \/ dl = db \/ dl = dc)) \/
  xs = [] \/ ys = [] \/ zs = [] ->
  map3 c ta tb tc f st = Panic.
Proof.
  intros Ha Hb Hc Hbad.
  pose proof (supported_len _ (repr_supported _ _ _ Ha)) as La.
  pose proof (supported_len _ (repr_supported _ _ _ Hb)) as Lb.
  pose proof (supported_len _ (repr_supported _ _ _ Hc)) as Lc.
  unfold map3. rewrite (repr_shape _ _ _ Ha), (repr_shape _ _ _ Hb), (repr_shape _ _ _ Hc),
    (repr_size _ _ _ Ha), (repr_size _ _ _ Hb), (repr_size _ _ _ Hc).
  assert (P : forall a b, length a <= 6 -> length b <= 6 ->
     broadcast_to (canon a) (canon b) = Panic \/
     exists m, broadcast_to (canon a) (canon b) = Ok (canon m) /\ suffix a m /\ suffix b m /\ (m = a \/ m = b)).
  { intros a b H1 H2. destruct (check_broadcast_dec a b H1 H2) as [E|E].
    - right. apply check_broadcast_iff in E; auto. destruct E as [E|E].
      + exists b. rewrite broadcast_to_r by auto. repeat split; auto. apply suffix_self.
      + exists a. rewrite broadcast_to_l by auto. repeat split; auto. apply suffix_self.
    - left. unfold broadcast_to. now rewrite E. }
  destruct (P da db La Lb) as [->|(m & -> & Fa & Fb & Hm)]; cbn [bind]; auto.
  assert (Lm : length m <= 6) by (destruct Hm as [->| ->]; auto).
  destruct (P m dc Lm Lc) as [->|(n & -> & Fm & Fc & Hn)]; cbn [bind]; auto.
  destruct Hbad as [Hbad|Hbad].
  - exfalso. apply Hbad. exists n.
    split; [eapply suffix_trans3; eauto|]. split; [eapply suffix_trans3; eauto|]. split; auto.
    destruct Hn as [->| ->]; [destruct Hm as [->| ->]|]; auto.
  - replace (Nat.min (Nat.min (length xs) (length ys)) (length zs)) with 0; [reflexivity|].
    destruct Hbad as [->|[->| ->]]; cbn [length]; lia.
Qed.

(** ** C28 *)

Lemma traverse_lift {X Y} (op : X -> outcome Y) l :
  traverse (fun (s : unit) x => let* y := op x in Ok (s, y)) tt l
  = let* ys := map_out op l in Ok (tt, ys).
Proof.
  induction l as [|x l IH]; auto. cbn [traverse map_out].
  destruct (op x); cbn [bind]; auto. rewrite IH. destruct (map_out op l); auto.
Qed.

Lemma map_out_nth {X Y} (op : X -> outcome Y) l ys :
  map_out op l = Ok ys ->
  length ys = length l /\
  forall k x, nth_error l k = Some x -> exists y, op x = Ok y /\ nth_error ys k = Some y.
Proof.
  revert ys; induction l as [|x l IH]; intros ys; cbn.
  - intros [= <-]. split; auto. intros [|k]; discriminate.
  - destruct (op x) as [y| |] eqn:E; cbn; try discriminate.
    destruct (map_out op l) as [ys'| |]; cbn; try discriminate. intros [= <-].
    destruct (IH _ eq_refl) as [Hl Hn]. split; [cbn; lia|]. intros [|k] z; cbn; auto.
    intros [= <-]. eauto.
Qed.

Lemma c28_tensor_tensor {T U V} c (ta : tensor T) (tb : tensor U) da db dl xs ys
    (op : T -> U -> outcome V) r :
  repr ta da xs -> repr tb db ys -> xs <> [] -> ys <> [] ->
  (suffix db da /\ dl = da) \/ (suffix da db /\ dl = db) ->
  binop_tt c ta tb op = Ok r ->
  exists vs, r = fresh dl vs /\ length vs = prod dl /\
    forall idx, in_shape dl idx -> exists x y v,
      elem da xs (skipn (length dl - length da) idx) = Some x /\
      elem db ys (skipn (length dl - length db) idx) = Some y /\
      op x y = Ok v /\ elem dl vs idx = Some v.
Proof.
  intros Ha Hb Hx Hy Hd.
  destruct (c27_map2 (S := unit) (V := V) c ta tb da db dl xs ys Ha Hb Hx Hy Hd) as (ps & Hl & He & Hm).
  unfold binop_tt. rewrite Hm. unfold lift2.
  rewrite (traverse_ext _ (fun (s : unit) (p : T * U) => let* y := (let '(x, y) := p in op x y) in Ok (s, y)))
    by (intros s [x y] _; reflexivity).
  rewrite traverse_lift.
  destruct (map_out (fun p : T * U => let '(x, y) := p in op x y) ps) as [vs| |] eqn:E; cbn [bind]; try discriminate.
  intros [= <-]. apply map_out_nth in E. destruct E as [E1 E2].
  exists vs. split; auto. split; [lia|]. intros idx Hi. destruct (He idx Hi) as (x & y & Ex & Ey & Ep).
  destruct (E2 _ _ Ep) as (v & Ev & Hv). exists x, y, v. auto.
Qed.

Lemma c28_tensor_tensor_total {T U V} c (ta : tensor T) (tb : tensor U) da db dl xs ys
    (op : T -> U -> outcome V) :
  repr ta da xs -> repr tb db ys -> xs <> [] -> ys <> [] ->
  (suffix db da /\ dl = da) \/ (suffix da db /\ dl = db) ->
  (forall x y, In x xs -> In y ys -> exists v, op x y = Ok v) ->
  exists r, binop_tt c ta tb op = Ok r.
Proof.
  intros Ha Hb Hx Hy Hd Ht.
  destruct (c27_map2 (S := unit) (V := V) c ta tb da db dl xs ys Ha Hb Hx Hy Hd) as (ps & Hl & He & Hm).
  unfold binop_tt. rewrite Hm. unfold lift2.
  rewrite (traverse_ext _ (fun (s : unit) (p : T * U) => let* y := (let '(x, y) := p in op x y) in Ok (s, y)))
    by (intros s [x y] _; reflexivity).
  rewrite traverse_lift.
  assert (G : forall l, (forall x y, In (x, y) l -> In x xs /\ In y ys) ->
            exists vs, map_out (fun p : T * U => let '(x, y) := p in op x y) l = Ok vs).
  { induction l as [|[x y] l IH]; intros HI; cbn; [eauto|].
    destruct (HI x y (or_introl eq_refl)) as [H1 H2]. destruct (Ht x y H1 H2) as [v ->]. cbn [bind].
    destruct IH as [vs ->]; [intros; apply HI; now right|]. cbn. eauto. }
  destruct (G ps) as [vs ->].
  - intros x y Hin. apply In_nth_error in Hin. destruct Hin as [k Hk].
    pose proof (nth_error_Some_lt _ _ _ Hk) as Hlt. rewrite Hl in Hlt.
    destruct (unravel dl k Hlt) as (idx & Hi & Hr). destruct (He idx Hi) as (x' & y' & Ex & Ey & Ep).
    unfold elem in Ep. rewrite Hr, Hk in Ep. injection Ep as -> ->.
    split; eapply nth_error_In; eauto.
  - cbn. eauto.
Qed.

Lemma c28_tensor_scalar {T U V} c (t : tensor T) ds xs (y : U) (op : T -> U -> outcome V) :
  repr t ds xs -> can_alloc c (length xs) ->
  binop_ts c t y op = let* vs := map_out (fun x => op x y) xs in Ok (fresh ds vs).
Proof.
  intros H Hc. unfold binop_ts. rewrite (map_repr _ _ _ _ _ _ H Hc). unfold lift1.
  rewrite (traverse_lift (fun x => op x y)). now destruct (map_out _ xs).
Qed.

Lemma c28_scalar_tensor {T U V} c (t : tensor U) ds ys (x : T) (op : T -> U -> outcome V) :
  repr t ds ys -> can_alloc c (length ys) ->
  binop_st c x t op = let* vs := map_out (fun y => op x y) ys in Ok (fresh ds vs).
Proof.
  intros H Hc. unfold binop_st. rewrite (map_repr _ _ _ _ _ _ H Hc). unfold lift1.
  rewrite (traverse_lift (fun y => op x y)). now destruct (map_out _ ys).
Qed.

Lemma c28_unary {T V} c (t : tensor T) ds xs (op : T -> outcome V) :
  repr t ds xs -> can_alloc c (length xs) ->
  unop c t op = let* vs := map_out op xs in Ok (fresh ds vs).
Proof.
  intros H Hc. unfold unop. rewrite (map_repr _ _ _ _ _ _ H Hc). unfold lift1.
  rewrite (traverse_lift op). now destruct (map_out _ xs).
Qed.

Lemma c28_scalar_is_rank_0 {T U V} c (t : tensor T) ds xs (y : U) (op : T -> U -> outcome V) :
  repr t ds xs -> xs <> [] ->
  binop_ts c t y op = binop_tt c t (fresh [] [y]) op.
Proof.
  intros H Hx. assert (Hx0 : length xs <> 0) by (destruct xs; cbn; congruence).
  rewrite (c28_tensor_scalar c t ds xs y op H) by now left.
  unfold binop_tt.
  assert (Hr : repr (fresh [] [y]) [] [y]) by (apply repr_fresh; [apply supported_nil|reflexivity]).
  rewrite (map2_repr c t (fresh [] [y]) ds [] ds xs [y] _ _ H Hr Hx) by
    (try discriminate; left; split; auto; exists ds; now rewrite app_nil_r).
  assert (Ex : cyc (prod ds) xs = xs).
  { unfold cyc. rewrite <- (repr_len _ _ _ H), Nat.div_same by auto. cbn. apply app_nil_r. }
  assert (Ey : cyc (prod ds) [y] = repeat y (length xs)).
  { unfold cyc. cbn [length]. rewrite Nat.div_1_r, <- (repr_len _ _ _ H). clear.
    induction (length xs) as [|n IH]; cbn; auto. now rewrite IH. }
  rewrite Ex, Ey. unfold lift2. clear.
  assert (G : traverse (fun (st : unit) '(x, y0) => let* z := op x y0 in Ok (st, z)) tt
                (combine xs (repeat y (length xs)))
              = let* vs := map_out (fun x => op x y) xs in Ok (tt, vs)).
  { induction xs as [|x xs IH]; auto. cbn [length repeat combine traverse map_out].
    destruct (op x y); cbn [bind]; auto. rewrite IH. destruct (map_out _ xs); auto. }
  rewrite G. now destruct (map_out _ xs).
Qed.

(** ** C29 *)

Lemma c29_fold {S U R V} c (t : tensor U) ds xs (ini : R) (into : R -> V)
    (f : S -> R -> U -> outcome (S * R)) st :
  repr t ds xs ->
  fold_ c t ini into f st =
  let* '(st', r) := foldM f st ini xs in Ok (st', fresh [] [into r]).
Proof. exact (fold_repr c t ds xs ini into f st). Qed.

Lemma c29_reduce {S T} c (t : tensor T) ds x xs (f : S -> T -> T -> outcome (S * T)) st :
  repr t ds (x :: xs) ->
  reduce c t f st = let* '(st', r) := foldM f st x xs in Ok (st', fresh [] [r]).
Proof. exact (reduce_repr c t ds x xs f st). Qed.

Lemma c29_reduce_empty {S T} c (t : tensor T) ds (f : S -> T -> T -> outcome (S * T)) st :
  repr t ds [] -> reduce c t f st = Panic.
Proof. intros H. unfold reduce. now rewrite (repr_as_slice _ _ _ H). Qed.

Lemma c29_fold_pure {U R V} c (t : tensor U) ds xs (ini : R) (into : R -> V) (f : R -> U -> R) :
  repr t ds xs ->
  fold_ c t ini into (pure2 f) tt = Ok (tt, fresh [] [into (fold_left f xs ini)]).
Proof. intros H. rewrite (fold_repr _ _ _ _ _ _ _ _ H). now rewrite (foldM_pure f). Qed.

(** ** C30 *)

Lemma axis_lines_lines {T} d1 d d2 (xs : list T) :
  length xs = prod (d1 ++ d :: d2) -> axis_lines d1 d d2 xs (lines (prod d1) d (prod d2) xs).
Proof.
  intros Hl. split.
  - now rewrite lines_length, prod_app.
  - intros. now apply lines_elem.
Qed.

Lemma c30_lines_unique {T} d1 d d2 (xs : list T) ls ls' :
  axis_lines d1 d d2 xs ls -> axis_lines d1 d d2 xs ls' -> ls = ls'.
Proof.
  intros [L H] [L' H']. apply (elem_ext (d1 ++ d2)); auto. intros idx Hi.
  apply in_shape_app_inv in Hi. destruct Hi as [H1 H2].
  rewrite <- (firstn_skipn (length d1) idx).
  destruct (H _ _ H1 H2) as (l & -> & Hl & Hk). destruct (H' _ _ H1 H2) as (l' & -> & Hl' & Hk').
  f_equal. apply nth_error_ext. intros k. destruct (Nat.lt_ge_cases k d).
  - now rewrite Hk, Hk'.
  - rewrite !(proj2 (nth_error_None _ _)); auto; lia.
Qed.

Lemma c30_fold_axis {S T R V} c (t : tensor T) a d1 d d2 xs (ini : R) (into : R -> V)
    (f : S -> R -> T -> outcome (S * R)) st :
  repr t (d1 ++ d :: d2) xs -> names_axis a (length d1) (length (d1 ++ d :: d2)) ->
  Forall (fun d => 0 < d) (d1 ++ d2) ->
  exists ls, axis_lines d1 d d2 xs ls /\
    fold_axis c t (Some a) ini into f st =
    let* '(st', rs) := traverse (fun st l => foldM f st ini l) st ls in
    Ok (st', fresh (d1 ++ d2) (map into rs)).
Proof.
  intros H Ha Hp. exists (lines (prod d1) d (prod d2) xs). split.
  - apply axis_lines_lines. apply H.
  - now apply fold_axis_repr.
Qed.

Lemma c30_reduce_axis {S T} c (t : tensor T) a d1 d d2 xs (f : S -> T -> T -> outcome (S * T)) st :
  repr t (d1 ++ d :: d2) xs -> names_axis a (length d1) (length (d1 ++ d :: d2)) ->
  Forall (fun d => 0 < d) (d1 ++ d2) ->
  exists ls, axis_lines d1 d d2 xs ls /\
    reduce_axis c t (Some a) f st =
    let* '(st', rs) := traverse (reduceM f) st ls in
    Ok (st', fresh (d1 ++ d2) rs).
Proof.
  intros H Ha Hp. exists (lines (prod d1) d (prod d2) xs). split.
  - apply axis_lines_lines. apply H.
  - now apply reduce_axis_repr.
Qed.

Lemma c30_zero_kept_dim {S T R V} c (t : tensor T) a d1 d d2 xs (ini : R) (into : R -> V)
    (f : S -> R -> T -> outcome (S * R)) (g : S -> T -> T -> outcome (S * T)) st :
  repr t (d1 ++ d :: d2) xs -> names_axis a (length d1) (length (d1 ++ d :: d2)) ->
  In 0 (d1 ++ d2) ->
  fold_axis c t (Some a) ini into f st = Panic /\ reduce_axis c t (Some a) g st = Panic.
Proof.
  intros H Ha Hz. unfold fold_axis, reduce_axis. rewrite (repr_shape _ _ _ H).
  rewrite axis_reduce_zero by (auto; apply H). auto.
Qed.

Lemma c30_fold_axis_none {S T R V} c (t : tensor T) ds xs (ini : R) (into : R -> V)
    (f : S -> R -> T -> outcome (S * R)) st :
  repr t ds xs -> fold_axis c t None ini into f st = fold_ c t ini into f st.
Proof. intros H. rewrite (fold_axis_none _ _ _ _ _ _ _ _ H). now rewrite (fold_repr _ _ _ _ _ _ _ _ H). Qed.

Lemma c30_reduce_axis_none {S T} c (t : tensor T) ds xs (f : S -> T -> T -> outcome (S * T)) st :
  repr t ds xs -> reduce_axis c t None f st = reduce c t f st.
Proof.
  intros H. destruct xs as [|x xs].
  - rewrite (c29_reduce_empty _ _ _ _ _ H). pose proof (repr_supported _ _ _ H) as Hs. unfold reduce_axis.
    rewrite (repr_shape _ _ _ H). cbn [axis_reduce]. rewrite size_canon by auto. cbn [bind].
    rewrite canon_scalar, size_canon by apply supported_nil. cbn [bind prod].
    rewrite (repr_as_slice _ _ _ H). reflexivity.
  - rewrite (reduce_axis_none _ _ _ _ _ _ _ H). now rewrite (reduce_repr _ _ _ _ _ _ _ H).
Qed.

(** ** C31 *)

Lemma c31_actual c a r :
  0 < r <= 6 -> (- two63 <= a)%Z -> (a + Z.of_nat r < two63)%Z ->
  norm_axis c a r =
  if ((- Z.of_nat r <=? a) || (a mod Z.of_nat r =? 0))%Z
  then Ok (Z.to_nat (a mod Z.of_nat r)) else Panic.
Proof.
  intros Hr Hlo Hhi. unfold norm_axis. rewrite iadd_ok by lia. cbn [bind].
  rewrite assert_true by lia. cbn [bind].
  assert (Em : ((a + Z.of_nat r) mod Z.of_nat r)%Z = (a mod Z.of_nat r)%Z)
    by (rewrite <- (Z_mod_plus_full a 1 (Z.of_nat r)); f_equal; lia).
  pose proof (Z.mod_pos_bound a (Z.of_nat r) ltac:(lia)).
  destruct (Z.leb_spec (- Z.of_nat r) a) as [Hle|Hgt]; cbn [orb].
  - rewrite Z.rem_mod_nonneg, Em by lia.
    rewrite as_usize_small by (unfold two64; lia). rewrite assert_true by lia. reflexivity.
  - set (v := (a + Z.of_nat r)%Z) in *.
    assert (Erem : Z.rem v (Z.of_nat r) = (- ((- v) mod Z.of_nat r))%Z).
    { rewrite <- (Z.opp_involutive v) at 1. rewrite Z.rem_opp_l by lia.
      rewrite Z.rem_mod_nonneg by lia. reflexivity. }
    rewrite Erem. pose proof (Z.mod_pos_bound (- v) (Z.of_nat r) ltac:(lia)).
    destruct (Z.eqb_spec (a mod Z.of_nat r) 0) as [E0|E0].
    + assert ((- v) mod Z.of_nat r = 0)%Z as ->.
      { apply Z_mod_zero_opp_full. lia. }
      rewrite E0. cbn. rewrite as_usize_small by (unfold two64; lia). rewrite assert_true by lia. reflexivity.
    + assert ((- v) mod Z.of_nat r <> 0)%Z.
      { intros E. apply Z_mod_zero_opp_full in E. rewrite Z.opp_involutive in E. lia. }
      rewrite assert_false; [reflexivity|]. apply Nat.ltb_ge. unfold as_usize.
      replace (- ((- v) mod Z.of_nat r))%Z with (two64 - (- v) mod Z.of_nat r + (-1) * two64)%Z by lia.
      rewrite Z_mod_plus_full, Z.mod_small by (unfold two64; lia). unfold two64 in *. lia.
Qed.

Lemma c31_scalar_rejects {S T R V} c (t : tensor T) xs a (ini : R) (into : R -> V)
    (f : S -> R -> T -> outcome (S * R)) (g : S -> T -> T -> outcome (S * T)) st :
  repr t [] xs -> (- two63 <= a < two63)%Z ->
  fold_axis c t (Some a) ini into f st = Panic /\ reduce_axis c t (Some a) g st = Panic.
Proof.
  intros H Ha. unfold fold_axis, reduce_axis. rewrite (repr_shape _ _ _ H). cbn [axis_reduce].
  change (rank (canon [])) with 0. unfold norm_axis. rewrite iadd_ok by (change (Z.of_nat 0) with 0%Z; lia). cbn [bind].
  split; reflexivity.
Qed.

Lemma c31_refuted :
  exists (t : tensor nat) a,
    repr t [2; 3] [1; 2; 3; 4; 5; 6] /\ ~ (-2 <= a < 2)%Z /\
    reduce_axis dev t (Some a) (pure2 Nat.add) tt = Ok (tt, fresh [3] [5; 7; 9]).
Proof.
  exists (fresh [2; 3] [1; 2; 3; 4; 5; 6]), 2%Z.
  split; [apply repr_fresh; [split; cbn; lia|reflexivity]|]. split; [lia|reflexivity].
Qed.

Lemma c31_axis_from_rank_valid c a p r :
  r <= 6 -> names_axis a p r -> axis_from_rank c (Some a) r = Ok p.
Proof. intros H. apply axis_from_rank_named. lia. Qed.

Lemma c31_axis_from_rank_refuted :
  axis_from_rank dev (Some (-4)%Z) 3 = Ok 0 /\ axis_from_rank dev (Some (-5)%Z) 3 = Ok 2 /\
  axis_from_rank dev (Some 7%Z) 3 = Ok 1.
Proof.
  assert (G : forall a q, (- two63 <= a + 3 < two63)%Z ->
            (((a + 3) mod two64) mod 3 = Z.of_nat q)%Z -> axis_from_rank dev (Some a) 3 = Ok q).
  { intros a q Ha E. unfold axis_from_rank. rewrite iadd_ok by exact Ha. cbn [bind].
    rewrite urem_ok by lia. f_equal. unfold as_usize. apply Nat2Z.inj.
    rewrite Nat2Z.inj_mod, Z2Nat.id by (apply Z.mod_pos_bound; reflexivity). exact E. }
  split; [|split]; apply G; try reflexivity; unfold two63; lia.
Qed.

(** ** C32 *)

Lemma c32_fold_row_axis_partial {S T R V} c N (t : tensor T) a d1 d d2 k xs (ini : R) (into : R -> list V)
    (f : S -> R -> list T -> outcome (S * R)) st :
  repr t (d1 ++ d :: d2 ++ [k]) xs -> toffset t = 0 -> 0 < k ->
  names_axis a (length d1) (length (d1 ++ d :: d2 ++ [k])) ->
  Forall (fun d => 0 < d) (d1 ++ d2) -> 0 < N -> supported (d1 ++ d2 ++ [N]) ->
  (forall r, length (into r) = N) ->
  exists ls, row_lines d1 d d2 k xs ls /\
    fold_row c N t (Some a) ini into f st =
    let* '(st', rs) := traverse (fun st l => foldM f st ini l) st ls in
    Ok (st', fresh (d1 ++ d2 ++ [N]) (concat (map into rs))).
Proof.
  intros H H0 Hk Ha Hp HN HsN Hi.
  exists (lines (prod d1) d (prod d2) (rows_of k xs)). split; [|now apply fold_row_repr].
  pose proof (repr_len _ _ _ H) as Hl.
  assert (Es : d1 ++ d :: d2 ++ [k] = (d1 ++ d :: d2) ++ [k]) by now rewrite <- app_assoc.
  rewrite Es in Hl.
  assert (Hrl : length (rows_of k xs) = prod (d1 ++ d :: d2)).
  { apply rows_of_length; auto. rewrite Hl, prod_app. cbn. lia. }
  split; [now rewrite lines_length, prod_app|].
  intros i1 i2 H1 H2. destruct (lines_elem d1 d d2 (rows_of k xs) i1 i2 Hrl H1 H2) as (l & El & Ll & Kl).
  exists l. split; auto. split; auto. intros m Hm. rewrite Kl by auto.
  assert (Him : in_shape (d1 ++ d :: d2) (i1 ++ m :: i2)).
  { apply in_shape_app; auto. apply in_shape_cons. auto. }
  destruct (rows_of_elem _ k xs _ 0 Hl Him Hk) as (row & E1 & E2 & _).
  exists row. split; auto. split; auto. intros j Hj.
  destruct (rows_of_elem _ k xs _ j Hl Him Hj) as (row' & E1' & _ & E3).
  assert (row' = row) by congruence. subst row'. rewrite E3, Es. f_equal. now rewrite <- app_assoc.
Qed.

Lemma c32_fold_row_none_partial {S T R V} c N (t : tensor T) ds k xs (ini : R) (into : R -> list V)
    (f : S -> R -> list T -> outcome (S * R)) st :
  repr t (ds ++ [k]) xs -> toffset t = 0 -> 0 < k ->
  supported [N] -> can_alloc c N -> (forall r, length (into r) = N) ->
  exists rows,
    length rows = prod ds /\
    (forall i j, in_shape ds i -> j < k -> exists row, elem ds rows i = Some row /\
       length row = k /\ nth_error row j = elem (ds ++ [k]) xs (i ++ [j])) /\
    fold_row c N t None ini into f st =
    let* '(st', r) := foldM f st ini rows in Ok (st', fresh [N] (into r)).
Proof.
  intros H H0 Hk HsN Hc Hi. exists (rows_of k xs). pose proof (repr_len _ _ _ H) as Hl. split; [|split].
  - apply rows_of_length; auto. rewrite Hl, prod_app. cbn. lia.
  - intros i j Hin Hj. now apply rows_of_elem.
  - now apply (fold_row_none c N t ds k).
Qed.

Lemma c32_rank1_refuted :
  exists t : tensor nat, repr t [3] [1; 2; 3] /\
    fold_row dev 1 t (Some 0%Z) [] (fun r => [r]) (fun calls r row => Ok (calls + 1, r ++ [row])) 0
    = Ok (3, fresh [1] [[[1; 2; 3]; [1; 2; 3]; [1; 2; 3]]]).
Proof.
  exists (fresh [3] [1; 2; 3]). split; [apply repr_fresh; [split; cbn; lia|reflexivity]|]. reflexivity.
Qed.

Lemma c32_view_refuted :
  exists t : tensor nat, subslice dev (fresh [4; 2] [1; 2; 3; 4; 5; 6; 7; 8]) 1 2 = Ok t /\
    repr t [2; 2] [3; 4; 5; 6] /\
    fold_row dev 1 t None 0 (fun r => [r]) (pure2 (fun r row => r + list_sum row)) tt = Panic /\
    fold_row release 1 t (Some 0%Z) 0 (fun r => [r]) (pure2 (fun r row => r + list_sum row)) tt = Panic.
Proof.
  eexists. split; [reflexivity|]. split; [|split; reflexivity].
  constructor; try reflexivity.
  - split; cbn; lia.
  - now exists [1; 2], [7; 8].
Qed.

(** ** C33 *)

Lemma c33_actual {S T R R1 V} c (t : tensor T) a d1 d d2 xs (ini : R)
    (accum : S -> R -> T -> outcome (S * R))
    (complete : S -> R -> outcome (S * R1)) (norm : S -> R1 -> T -> outcome (S * V)) st :
  repr t (d1 ++ d :: d2) xs -> names_axis a (length d1) (length (d1 ++ d :: d2)) ->
  Forall (fun d => 0 < d) (d1 ++ d2) -> can_alloc c (length xs) ->
  exists ls, axis_lines d1 d d2 xs ls /\
    normalize c t (Some a) ini accum complete norm st =
    let* '(st', yss) := traverse (normM ini accum complete norm) st ls in
    Ok (st', fresh (d1 ++ d :: d2) (concat yss)).
Proof.
  intros H Ha Hp Hc. exists (lines (prod d1) d (prod d2) xs). split.
  - apply axis_lines_lines. apply H.
  - now apply normalize_repr.
Qed.

Lemma c33_last_axis_partial {S T R R1 V} c (t : tensor T) a d1 d d2 xs (ini : R)
    (accum : S -> R -> T -> outcome (S * R))
    (complete : S -> R -> outcome (S * R1)) (norm : S -> R1 -> T -> outcome (S * V)) st st' r :
  repr t (d1 ++ d :: d2) xs -> names_axis a (length d1) (length (d1 ++ d :: d2)) ->
  Forall (fun d => 0 < d) (d1 ++ d2) -> can_alloc c (length xs) -> prod d2 = 1 ->
  normalize c t (Some a) ini accum complete norm st = Ok (st', r) ->
  exists ys, r = fresh (d1 ++ d :: d2) ys /\ length ys = length xs /\
  forall i1 i2, in_shape d1 i1 -> in_shape d2 i2 ->
    exists l l' s s', normM ini accum complete norm s l = Ok (s', l') /\
      length l = d /\ length l' = d /\
      forall k, k < d ->
        nth_error l k = elem (d1 ++ d :: d2) xs (i1 ++ k :: i2) /\
        nth_error l' k = elem (d1 ++ d :: d2) ys (i1 ++ k :: i2).
Proof.
  intros H Ha Hp Hc H1 E.
  destruct (c33_actual c t a d1 d d2 xs ini accum complete norm st H Ha Hp Hc) as (ls & [Ll Hls] & En).
  rewrite En in E.
  destruct (traverse (normM ini accum complete norm) st ls) as [[s1 yss]| |] eqn:Et; cbn in E; try discriminate.
  injection E as <- <-. exists (concat yss). split; auto.
  pose proof (repr_len _ _ _ H) as Hl.
  assert (G : forall ls st st' yss, traverse (normM ini accum complete norm) st ls = Ok (st', yss) ->
     forall q l, nth_error ls q = Some l -> exists l' s s', normM ini accum complete norm s l = Ok (s', l') /\
        nth_error yss q = Some l').
  { clear. induction ls as [|l0 ls IH]; intros st st' yss; cbn; [intros _ [|q]; discriminate|].
    destruct (normM ini accum complete norm st l0) as [[s y]| |] eqn:E0; cbn; try discriminate.
    destruct (traverse _ s ls) as [[s' ys]| |] eqn:E1; cbn; try discriminate. intros [= _ <-].
    intros [|q] l; cbn.
    - intros [= <-]. eauto 6.
    - intros Hq. eapply IH; eauto. }
  assert (Hfl : Forall (fun l => length l = d) ls).
  { apply Forall_forall. intros l Hin. apply In_nth_error in Hin. destruct Hin as [q Hq].
    pose proof (nth_error_Some_lt _ _ _ Hq) as Hlt. rewrite Ll in Hlt.
    destruct (unravel _ _ Hlt) as (idx & Hi & Hr). apply in_shape_app_inv in Hi as [I1 I2].
    destruct (Hls _ _ I1 I2) as (l0 & E0 & L0 & _). rewrite firstn_skipn in E0. unfold elem in E0.
    rewrite Hr, Hq in E0. congruence. }
  pose proof (traverse_lengths _ _ _ _ _ d (normM_length ini accum complete norm) Hfl Et) as [Hfy Hyl].
  split.
  { rewrite (concat_length_const d) by auto. rewrite Hyl, Ll, Hl, !prod_app. cbn [prod]. rewrite H1. lia. }
  intros i1 i2 I1 I2. destruct (Hls _ _ I1 I2) as (l & El & Ld & Hk).
  destruct (G _ _ _ _ Et _ _ El) as (l' & s & s' & Enorm & El').
  exists l, l', s, s'. split; auto. split; auto.
  pose proof (normM_length _ _ _ _ _ _ _ _ Enorm) as Hl'. split; [lia|].
  intros k Hkd. split; [now apply Hk|].
  unfold elem. pose proof (in_shape_length _ _ I1) as Li. pose proof (ravel_lt _ _ I2) as Lr.
  assert (R0 : ravel d2 i2 = 0) by lia.
  rewrite ravel_app in El' |- * by auto. cbn [ravel prod]. rewrite H1, R0 in *.
  rewrite !Nat.mul_1_r, !Nat.add_0_r in *.
  rewrite (nth_error_concat_blocks _ d); auto.
  - now rewrite El'.
  - intros y Hy. rewrite Forall_forall in Hfy. auto.
Qed.

Lemma c33_no_axis_partial {S T R R1 V} c (t : tensor T) ds xs (ini : R)
    (accum : S -> R -> T -> outcome (S * R))
    (complete : S -> R -> outcome (S * R1)) (norm : S -> R1 -> T -> outcome (S * V)) st :
  repr t ds xs -> can_alloc c (length xs) ->
  normalize c t None ini accum complete norm st =
  let* '(st', ys) := normM ini accum complete norm st xs in Ok (st', fresh ds ys).
Proof. exact (normalize_none c t ds xs ini accum complete norm st). Qed.

Lemma c33_refuted :
  exists t : tensor nat, repr t [2; 3] [1; 2; 3; 4; 5; 6] /\
    normalize dev t (Some 0%Z) 0 (pure2 (fun _ _ => 0)) (pure1 (fun r => r)) (pure2 (fun _ x => x)) tt
    = Ok (tt, fresh [2; 3] [1; 4; 2; 5; 3; 6]).
Proof.
  exists (fresh [2; 3] [1; 2; 3; 4; 5; 6]).
  split; [apply repr_fresh; [split; cbn; lia|reflexivity]|reflexivity].
Qed.
