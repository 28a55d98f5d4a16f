(** * Debug output (C64): proofs *)
From Coq Require Import String Ascii ZifyBool ZifyNat ZifyN.
From Verif Require Import Base ShapeModel TensorModel FmtModel Spec BaseFacts ShapeFacts TensorFacts SplitFacts TensorSpec TensorProofs.
From Verif Require Import FmtSpec.

Lemma elements_app {A} (a b : list (piece A)) : elements (a ++ b) = elements a ++ elements b.
Proof. apply flat_map_app. Qed.

Lemma elements_join {A} sep (l : list (list (piece A))) : elements (join sep l) = concat (map elements l).
Proof.
  induction l as [|x [|y l] IH]; [reflexivity|cbn; now rewrite app_nil_r|].
  change (join sep (x :: y :: l)) with (x ++ Lit sep :: join sep (y :: l)). rewrite elements_app. cbn [elements flat_map app].
  fold (elements (join sep (y :: l))). now rewrite IH.
Qed.

Lemma skipn_skipn' {A} (l : list A) : forall a b, skipn a (skipn b l) = skipn (b + a) l.
Proof. induction l as [|x l IH]; intros a [|b]; cbn; try reflexivity; [now destruct a|apply IH]. Qed.

Lemma concat_items {A} n d : forall (xs : list A), length xs = d * n -> concat (map (fun k => item n k xs) (seq 0 d)) = xs.
Proof.
  induction d as [|d IH]; intros xs Hl.
  - destruct xs; [reflexivity|cbn in Hl; lia].
  - cbn [seq map concat]. rewrite <- seq_shift, map_map.
    rewrite (map_ext _ (fun k => item n k (skipn n xs))).
    2:{ intros k. unfold item. rewrite skipn_skipn'. do 2 f_equal. }
    rewrite IH by (rewrite skipn_length; lia). unfold item. cbn [Nat.mul skipn]. apply firstn_skipn.
Qed.

(** Each element appears once, in row-major order. *)
Lemma elements_layout {A} ds : forall (xs : list A), length xs = prod ds -> elements (layout ds xs) = xs.
Proof.
  induction ds as [|d ds IH]; intros xs Hl.
  - cbn [layout]. clear. induction xs as [|x xs IH]; [reflexivity|]. cbn. f_equal. exact IH.
  - cbn [layout prod] in *. change (Lit "[" :: ?l) with ([@Lit A "["] ++ l). rewrite !elements_app. cbn [elements flat_map app].
    rewrite app_nil_r, elements_join, map_map. etransitivity; [|apply (concat_items (prod ds) d xs Hl)]. f_equal.
    apply map_ext_in. intros k Hk. apply in_seq in Hk. apply IH. unfold item. rewrite firstn_length, skipn_length. nia.
Qed.

Lemma separated_ok {A} n sep body (g : nat -> list (piece A)) out :
  (forall j, j < n -> body j = Ok (g j)) ->
  separated n sep body out = Ok (out ++ join sep (map g (seq 0 n))).
Proof.
  intros Hb. unfold separated.
  match goal with |- for_ n ?f out = _ =>
    destruct (for_inv (fun i o => o = out ++ join sep (map g (seq 0 i))) n f out) as (b & E & ->) end.
  - intros i b Hi ->. rewrite Hb by auto. eexists. split; [reflexivity|]. rewrite seq_S, map_app. cbn [map Nat.add].
    assert (J : forall l x, join sep (l ++ [x]) = (if 0 <? length l then join sep l ++ [@Lit A sep] else []) ++ x).
    { clear. induction l as [|y [|z l] IH]; intros x; [reflexivity|cbn [app join length]; change (0 <? 1) with true; cbv iota; now rewrite <- app_assoc|].
      change ((y :: z :: l) ++ [x]) with (y :: ((z :: l) ++ [x])). change (join sep (y :: (z :: l) ++ [x])) with (y ++ Lit sep :: join sep ((z :: l) ++ [x])).
      rewrite IH. cbn [length Nat.ltb Nat.leb]. change (0 <? S (length l)) with true. change (0 <? S (S (length l))) with true. cbv iota.
      change (join sep (y :: z :: l)) with (y ++ Lit sep :: join sep (z :: l)). rewrite <- !app_assoc. reflexivity. }
    rewrite J, map_length, seq_length. destruct i as [|i].
    + change (0 <? 0) with false. cbv iota. cbn [seq map join]. now rewrite app_nil_r.
    + change (0 <? S i) with true. cbv iota. now rewrite <- !app_assoc.
  - cbn. now rewrite app_nil_r.
  - exact E.
Qed.

Lemma fmt_rec_2 {A} c (t : tensor A) offset : fmt_tensor_rec c t 2 offset =
  let* stride := cols (tshape t) in
  let* n := rows (tshape t) in
  let* out := separated n ("," ++ newline ++ " ") (fun j =>
    let* p := umul c j stride in
    let* o := uadd c offset p in
    fmt_tensor_rec c t 1 o) [Lit "["] in
  Ok (out ++ [Lit "]"]).
Proof. reflexivity. Qed.

Lemma fmt_rec_3 {A} c (t : tensor A) r offset : fmt_tensor_rec c t (S (S (S r))) offset =
  let* stride := rsublen c (tshape t) 0 (S (S r)) in
  let* n := rdim (tshape t) (S (S r)) in
  let* out := separated n ("," ++ newline ++ newline ++ " ") (fun j =>
    let* p := umul c j stride in
    let* o := uadd c offset p in
    fmt_tensor_rec c t (S (S r)) o) [Lit "["] in
  Ok (out ++ [Lit "]"]).
Proof. reflexivity. Qed.

Lemma separated_ext {A} n sep f g (out : list (piece A)) :
  (forall j, j < n -> f j = g j) -> separated n sep f out = separated n sep g out.
Proof. intros H. unfold separated. apply for_ext. intros k s Hk. cbn zeta. now rewrite H. Qed.

(** One level of brackets. *)
Lemma fmt_rec_step {A} c (t : tensor A) ds :
  supported ds -> tshape t = canon ds ->
  forall inner outer d off, ds = outer ++ d :: inner -> off + prod (d :: inner) <= prod ds ->
  fmt_tensor_rec c t (length (d :: inner)) off =
  let* out := separated d (separator inner) (fun j => fmt_tensor_rec c t (length inner) (off + j * prod inner)) [Lit "["] in
  Ok (out ++ [Lit "]"]).
Proof.
  intros Hs Ht inner outer d off Hds Hoff. pose proof (supported_len _ Hs) as Hl. pose proof (supported_prod _ Hs) as Hp.
  assert (Hin : forall j, j < d -> prod inner * j + prod inner <= prod (d :: inner)) by (cbn [prod]; nia).
  assert (Hstep : forall sep body, separator inner = sep ->
     (forall j, j < d -> body j = fmt_tensor_rec c t (length inner) (off + j * prod inner)) ->
     (let* out := separated d sep body [Lit "["] in Ok (out ++ [Lit "]"])) =
     (let* out := separated d (separator inner) (fun j => fmt_tensor_rec c t (length inner) (off + j * prod inner)) [Lit "["] in Ok (out ++ [Lit "]"]))).
  { intros sep body <- Hb. now rewrite (separated_ext d _ body _ _ Hb). }
  assert (Hnum : forall j, j < d -> umul c j (prod inner) = Ok (j * prod inner) /\ uadd c off (j * prod inner) = Ok (off + j * prod inner)).
  { intros j Hj. specialize (Hin j Hj). unfold two32 in Hp. split; [apply umul_ok|apply uadd_ok]; unfold two64; nia. }
  destruct inner as [|d1 [|d2 inner]].
  + cbn [length fmt_tensor_rec]. rewrite Ht, cols_canon by auto. rewrite Hds, last_last. cbn [bind].
    apply Hstep; [reflexivity|]. intros j Hj. destruct (Hnum j Hj) as [_ E]. cbn [prod] in E |- *. rewrite Nat.mul_1_r in E |- *. rewrite E. reflexivity.
  + change (S (Datatypes.length [d1])) with 2. rewrite fmt_rec_2, Ht, cols_canon, rows_canon by auto. cbn [bind].
    replace (last ds 0) with d1 by (rewrite Hds; change (outer ++ [d; d1]) with (outer ++ [d] ++ [d1]); now rewrite app_assoc, last_last).
    replace (last (removelast ds) 0) with d
      by (rewrite Hds; change (outer ++ [d; d1]) with (outer ++ [d] ++ [d1]); now rewrite app_assoc, removelast_last, last_last).
    apply Hstep; [reflexivity|]. intros j Hj. destruct (Hnum j Hj) as [E1 E2]. cbn [prod] in E1, E2 |- *. rewrite Nat.mul_1_r in E1, E2 |- *.
    rewrite E1. cbn [bind]. rewrite E2. reflexivity.
  + set (r := length (d1 :: d2 :: inner)). assert (Er : r = S (S (length inner))) by reflexivity.
    assert (Hlen : length ds = length outer + S r) by (rewrite Hds, app_length; reflexivity).
    assert (E1 : rsublen c (tshape t) 0 r = Ok (prod (d1 :: d2 :: inner))).
    { rewrite Ht, rsublen_canon by (auto; lia). do 2 f_equal. rewrite Nat.sub_0_r.
      replace (length ds - r) with (length (outer ++ [d])) by (rewrite app_length; cbn; lia).
      rewrite Hds. change (d :: d1 :: d2 :: inner) with ([d] ++ d1 :: d2 :: inner). rewrite app_assoc, skipn_app, skipn_all, Nat.sub_diag.
      cbn [app skipn]. apply firstn_all. }
    assert (E2 : rdim (tshape t) r = Ok d).
    { rewrite Ht, rdim_canon by (auto; lia). f_equal. replace (length ds - 1 - r) with (length outer) by lia. rewrite Hds.
      rewrite app_nth2 by lia. now rewrite Nat.sub_diag. }
    change (length (d :: d1 :: d2 :: inner)) with (S (S (S (length inner)))). rewrite Er in E1, E2. rewrite fmt_rec_3, E1, E2. cbn [bind].
    apply Hstep; [reflexivity|]. intros j Hj. destruct (Hnum j Hj) as [F1 F2].
    rewrite F1. cbn [bind]. rewrite F2. reflexivity.
Qed.

(** What is shown is what [get] returns. *)
Lemma fmt_rec_ok {A} c (t : tensor A) ds ys :
  supported ds -> tshape t = canon ds -> length ys = prod ds ->
  (forall i, i < prod ds -> get c t i = Ok (nth_error ys i)) ->
  forall inner outer off, ds = outer ++ inner -> off + prod inner <= prod ds ->
  fmt_tensor_rec c t (length inner) off = Ok (layout inner (firstn (prod inner) (skipn off ys))).
Proof.
  intros Hs Ht Hy Hg. pose proof (supported_len _ Hs) as Hl. pose proof (supported_prod _ Hs) as Hp.
  induction inner as [|d inner IH]; intros outer off Hds Hoff.
  - cbn [length fmt_tensor_rec prod layout] in *. rewrite Hg by lia. cbn [bind].
    destruct (nth_error ys off) as [v|] eqn:E; [|apply nth_error_None in E; lia].
    do 2 f_equal. apply nth_error_split in E. destruct E as (l1 & l2 & -> & <-). rewrite skipn_app, skipn_all, Nat.sub_diag. reflexivity.
  - assert (Hin : forall j, j < d -> prod inner * j + prod inner <= prod (d :: inner)) by (cbn [prod]; nia).
    assert (IH' : forall j, j < d -> fmt_tensor_rec c t (length inner) (off + j * prod inner) =
       Ok (layout inner (item (prod inner) j (firstn (prod (d :: inner)) (skipn off ys))))).
    { intros j Hj. specialize (Hin j Hj). rewrite (IH (outer ++ [d]) (off + j * prod inner)); [|now rewrite <- app_assoc|nia].
      do 2 f_equal. unfold item. rewrite skipn_firstn_comm, firstn_firstn, skipn_skipn'.
      replace (Nat.min (prod inner) (prod (d :: inner) - j * prod inner)) with (prod inner) by nia. reflexivity. }
    rewrite (fmt_rec_step c t ds Hs Ht inner outer d off Hds Hoff).
    rewrite (separated_ok d _ _ (fun k => layout inner (item (prod inner) k (firstn (prod (d :: inner)) (skipn off ys)))) _ IH').
    cbn [bind app layout]. reflexivity.
Qed.

Lemma fmt_ok {A} c name (t : tensor A) ds xs ys :
  repr t ds xs -> length ys = prod ds -> (forall i, i < prod ds -> get c t i = Ok (nth_error ys i)) ->
  fmt_tensor c name t = Ok (header name ds ++ layout ds ys ++ footer ds).
Proof.
  intros H Hy Hg. pose proof (repr_supported _ _ _ H) as Hs. pose proof (supported_len _ Hs) as Hl.
  unfold fmt_tensor. rewrite (repr_shape _ _ _ H). cbn [canon rank].
  pose proof (fmt_rec_ok c t ds ys Hs (repr_shape _ _ _ H) Hy Hg ds [] 0 eq_refl (Nat.le_refl _)) as E.
  rewrite E. cbn [bind]. rewrite as_vec_canon by auto. cbn [bind skipn]. rewrite firstn_all2 by lia. f_equal.
  unfold header, footer. destruct (1 <? length ds); reflexivity.
Qed.

Lemma c64_debug_partial {A} c name (t : tensor A) ds xs :
  repr t ds xs -> toffset t = 0 ->
  fmt_tensor c name t = Ok (header name ds ++ layout ds xs ++ footer ds).
Proof.
  intros H H0. apply (fmt_ok c name t ds xs xs H); [apply (repr_len _ _ _ H)|]. intros i Hi. eapply c15_get_partial; eauto.
Qed.

Lemma c64_elements_partial {A} c name (t : tensor A) ds xs out :
  repr t ds xs -> toffset t = 0 -> fmt_tensor c name t = Ok out -> elements out = xs.
Proof.
  intros H H0 E. rewrite (c64_debug_partial c name t ds xs H H0) in E. apply Ok_inj in E. subst out.
  rewrite !elements_app, (elements_layout ds xs (repr_len _ _ _ H)). unfold header, footer.
  destruct (1 <? length ds); cbn; now rewrite app_nil_r.
Qed.

Lemma view_inside {A} c name (t : tensor A) ds xs :
  repr t ds xs -> 2 * toffset t + length xs <= length (tdata t) ->
  fmt_tensor c name t =
  Ok (header name ds ++ layout ds (firstn (length xs) (skipn (2 * toffset t) (tdata t))) ++ footer ds).
Proof.
  intros H Hb. apply (fmt_ok c name t ds xs).
  - exact H.
  - rewrite firstn_length, skipn_length, (repr_len _ _ _ H). rewrite (repr_len _ _ _ H) in Hb. lia.
  - intros i Hi. rewrite <- (repr_len _ _ _ H) in Hi. rewrite (c15_get_actual c t ds xs i H Hi).
    rewrite nth_error_firstn, nth_error_skipn. replace (i <? length xs) with true by lia.
    destruct (nth_error (tdata t) (2 * toffset t + i)) eqn:E; [reflexivity|]. apply nth_error_None in E. lia.
Qed.

(** A read outside the buffer. *)
Lemma separated_ub {A} n sep body (out : list (piece A)) :
  (forall j, j < n -> body j <> Panic) -> (exists j, j < n /\ body j = Ub) -> separated n sep body out = Ub.
Proof.
  unfold separated, for_. intros Hp (j & Hj & Hu).
  assert (forall k i out, i <= j -> j < i + k -> i + k <= n -> for_from i k (fun j out =>
    let out := if 0 <? j then out ++ [Lit sep] else out in let* b := body j in Ok (out ++ b)) out = Ub) as G.
  { clear out. induction k as [|k IH]; intros i out H1 H2 H3; [lia|]. cbn [for_from]. cbn zeta.
    destruct (Nat.eq_dec i j) as [->|N]; [now rewrite Hu|].
    specialize (Hp i ltac:(lia)). destruct (body i) as [b| |]; [|congruence|reflexivity]. cbn [bind]. apply IH; lia. }
  apply G; lia.
Qed.

Lemma separated_no_panic {A} n sep body (out : list (piece A)) :
  (forall j, j < n -> body j <> Panic) -> separated n sep body out <> Panic.
Proof.
  unfold separated, for_. intros Hp.
  assert (forall k i out, i + k <= n -> for_from i k (fun j out =>
    let out := if 0 <? j then out ++ [Lit sep] else out in let* b := body j in Ok (out ++ b)) out <> Panic) as G.
  { clear out. induction k as [|k IH]; intros i out H3; [discriminate|]. cbn [for_from]. cbn zeta.
    specialize (Hp i ltac:(lia)). destruct (body i) as [b| |]; [|congruence|discriminate]. cbn [bind]. apply IH; lia. }
  apply G; lia.
Qed.

Lemma fmt_rec_ub {A} c (t : tensor A) ds k :
  supported ds -> tshape t = canon ds ->
  (forall i, i < prod ds -> get c t i <> Panic) -> (forall i, k <= i -> i < prod ds -> get c t i = Ub) ->
  forall inner outer off, ds = outer ++ inner -> off + prod inner <= prod ds -> 0 < prod inner ->
  fmt_tensor_rec c t (length inner) off <> Panic /\
  (k < off + prod inner -> fmt_tensor_rec c t (length inner) off = Ub).
Proof.
  intros Hs Ht Hn Hu. pose proof (supported_len _ Hs) as Hl. pose proof (supported_prod _ Hs) as Hp.
  induction inner as [|d inner IH]; intros outer off Hds Hoff Hpos.
  - cbn [length fmt_tensor_rec prod] in *. specialize (Hn off ltac:(lia)). split.
    + destruct (get c t off); [discriminate|congruence|discriminate].
    + intros Hk. now rewrite Hu by lia.
  - assert (Hd : 0 < d) by (cbn [prod] in Hpos; nia). assert (Hq : 0 < prod inner) by (cbn [prod] in Hpos; nia).
    assert (Hin : forall j, j < d -> off + j * prod inner + prod inner <= prod ds) by (cbn [prod] in Hoff; nia).
    rewrite (fmt_rec_step c t ds Hs Ht inner outer d off Hds Hoff).
    assert (Hb : forall j, j < d -> fmt_tensor_rec c t (length inner) (off + j * prod inner) <> Panic).
    { intros j Hj. apply (IH (outer ++ [d]) (off + j * prod inner)); [now rewrite <- app_assoc|now apply Hin|exact Hq]. }
    split.
    + pose proof (separated_no_panic d (separator inner) _ [Lit "["] Hb) as E.
      destruct (separated _ _ _ _); [discriminate|congruence|discriminate].
    + intros Hk. rewrite separated_ub; [reflexivity|exact Hb|]. exists (d - 1). split; [lia|].
      apply (IH (outer ++ [d]) (off + (d - 1) * prod inner)); [now rewrite <- app_assoc|apply Hin; lia|exact Hq|].
      cbn [prod] in Hk. nia.
Qed.

Lemma c64_view_actual {A} c name (t : tensor A) ds xs :
  repr t ds xs ->
  fmt_tensor c name t =
  if (length xs =? 0) || (2 * toffset t + length xs <=? length (tdata t))
  then Ok (header name ds ++ layout ds (firstn (length xs) (skipn (2 * toffset t) (tdata t))) ++ footer ds)
  else Ub.
Proof.
  intros H. pose proof (repr_len _ _ _ H) as Hl. destruct (Nat.eqb_spec (length xs) 0) as [E0|E0]; cbn [orb].
  - rewrite E0. cbn [firstn]. apply (fmt_ok c name t ds xs); [exact H|cbn; lia|]. intros i Hi. lia.
  - destruct (Nat.leb_spec (2 * toffset t + length xs) (length (tdata t))) as [Hb|Hb]; [now apply view_inside|].
    pose proof (repr_supported _ _ _ H) as Hs. unfold fmt_tensor. rewrite (repr_shape _ _ _ H). cbn [canon rank].
    destruct (fmt_rec_ub c t ds (length (tdata t) - 2 * toffset t) Hs (repr_shape _ _ _ H)) with (inner := ds) (outer := @nil nat) (off := 0) as [_ E].
    + intros i Hi. rewrite (c15_get_actual c t ds xs i H) by lia. destruct (nth_error _ _); discriminate.
    + intros i H1 Hi. rewrite (c15_get_actual c t ds xs i H) by lia.
      destruct (nth_error (tdata t) (2 * toffset t + i)) eqn:E; [|reflexivity]. assert (2 * toffset t + i < length (tdata t)) by (apply nth_error_Some; congruence). lia.
    + reflexivity.
    + lia.
    + lia.
    + rewrite E by lia. reflexivity.
Qed.

(** Indexing with two coordinates (C16). *)
Lemma c16_index2_actual {A} c (t : tensor A) d0 d1 xs i j :
  repr t [d0; d1] xs ->
  index2 c t i j =
  if (i <? d0) && (j <? d1) then match elem [d0; d1] xs [i; j] with Some v => Ok v | None => Ub end
  else if (length xs =? 0) || (2 * toffset t + length xs <=? length (tdata t)) then Panic
  else Ub.
Proof.
  intros H. pose proof (c64_view_actual c "" t [d0; d1] xs H) as Hf.
  assert (Hp : assert_shown c false t = if (length xs =? 0) || (2 * toffset t + length xs <=? length (tdata t)) then Panic else Ub).
  { unfold assert_shown. rewrite Hf. now destruct (_ || _). }
  unfold index2. rewrite (repr_shape _ _ _ H).
  pose proof (repr_len _ _ _ H) as Hl. cbn [prod] in Hl.
  change (rank (canon [d0; d1])) with 2. rewrite assert_true by reflexivity. cbn [bind].
  change (rdim (canon [d0; d1]) 1) with (Ok d0). change (rdim (canon [d0; d1]) 0) with (Ok d1). cbn [bind].
  destruct (Nat.ltb_spec i d0); [|rewrite Hp; cbn [andb]; now destruct (_ || _)]. cbn [andb]. unfold assert_shown at 1. cbn [bind].
  destruct (Nat.ltb_spec j d1); [|rewrite Hp; now destruct (_ || _)]. unfold assert_shown at 1. cbn [bind].
  rewrite assert_true by (rewrite (repr_size _ _ _ H), Hl; nia). cbn [bind].
  rewrite (c16_index1 t [d0; d1] xs) by auto. unfold elem. cbn [ravel prod].
  replace (j + d1 * i) with (i * (d1 * 1) + (j * 1 + 0)) by lia.
  destruct (nth_error_lt_ex xs (i * (d1 * 1) + (j * 1 + 0))) as [v ->]; [nia|reflexivity].
Qed.

Lemma c16_index2_partial {A} c (t : tensor A) d0 d1 xs i j :
  repr t [d0; d1] xs -> toffset t = 0 \/ (i < d0 /\ j < d1) ->
  index2 c t i j = at_or_panic [d0; d1] xs [i; j].
Proof.
  intros H Hc. rewrite (c16_index2_actual c t d0 d1 xs i j H). unfold at_or_panic. cbn [combine forallb fst snd]. rewrite andb_true_r.
  destruct ((i <? d0) && (j <? d1)) eqn:E; [reflexivity|]. destruct Hc as [Hc|Hc]; [|lia].
  destruct (repr_data _ _ _ H) as (pre & post & Hd & _). rewrite Hd, Hc, !app_length.
  replace (2 * 0 + length xs <=? _) with true by lia. now rewrite orb_true_r.
Qed.

Lemma c16_index2_refuted : exists t : tensor nat,
  subslice dev (fresh [3; 2] [1; 2; 3; 4; 5; 6]) 1 2 = Ok t /\ repr t [2; 2] [3; 4; 5; 6] /\ index2 dev t 0 2 = Ub.
Proof.
  eexists. split; [vm_compute; reflexivity|]. split; [|vm_compute; reflexivity].
  constructor; try reflexivity.
  - split; cbn; lia.
  - exists [1; 2], []. split; reflexivity.
Qed.

Lemma c64_refuted : exists t : tensor nat,
  subslice dev (fresh [4] [10; 20; 30; 40]) 1 2 = Ok t /\ repr t [2] [20; 30] /\
  fmt_tensor dev "usize" t = Ok [Lit "Tensor<usize> {"; Lit "["; Elem 30; Lit " "; Elem 40; Lit "]"; Lit ", shape: [2]"; Lit "}"].
Proof.
  eexists. split; [vm_compute; reflexivity|]. split; [|vm_compute; reflexivity].
  constructor; try reflexivity.
  - split; cbn; lia.
  - exists [10], [40]. split; reflexivity.
Qed.

Lemma c64_out_of_bounds_refuted : exists t : tensor nat,
  subslice dev (fresh [4] [10; 20; 30; 40]) 2 2 = Ok t /\ fmt_tensor dev "usize" t = Ub.
Proof. eexists. split; [vm_compute; reflexivity|]. vm_compute. reflexivity. Qed.
