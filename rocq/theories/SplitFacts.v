(** * Lemmas about split *)
From Coq Require Import ZifyBool ZifyNat ZifyN.
From Verif Require Import Base ShapeModel TensorModel AxisModel MapModel ArrayModel Spec BaseFacts
  ShapeFacts ShapeFacts2 CoordFacts TensorFacts TensorFacts2 MapFacts SafeFacts ArrayFacts.

Ltac Zify.zify_post_hook ::= Z.div_mod_to_equations.

Lemma push_dims_canon c ds a b vec :
  length ds <= 6 -> b <= length ds ->
  push_dims c (canon ds) a b vec = Ok (vec ++ firstn (b - a) (skipn a ds)).
Proof.
  intros Hl Hb. unfold push_dims, for_range.
  destruct (Nat.le_gt_cases b a) as [Hab|Hab].
  { replace (b - a) with 0 by lia. cbn. now rewrite app_nil_r. }
  remember (b - a) as n eqn:En. assert (Hn : a + n <= length ds) by lia. clear En Hb Hab b.
  revert a vec Hn. induction n as [|n IH]; intros a vec Hn.
  - cbn. now rewrite app_nil_r.
  - rewrite for_from_S. rewrite dim_canon by lia. cbn [bind]. rewrite IH by lia. f_equal.
    rewrite <- app_assoc. f_equal. cbn [app].
    assert (E : skipn a ds = nth a ds 0 :: skipn (S a) ds).
    { clear -Hn. revert a Hn. induction ds as [|d ds IH]; intros a Hn; [cbn in Hn; lia|].
      destruct a; [reflexivity|]. cbn [skipn nth]. apply IH. cbn in Hn. lia. }
    now rewrite E.
Qed.

Lemma mid_pos d1 m d2 : 0 < prod (d1 ++ m :: d2) -> 0 < prod d1 /\ 0 < m /\ 0 < prod d2.
Proof. rewrite prod_app. cbn [prod]. intros H. nia. Qed.

Lemma piece_supported d1 L d2 w :
  supported (d1 ++ L :: d2) -> w <= L -> supported (d1 ++ w :: d2).
Proof.
  intros [H1 H2] Hw. split.
  - rewrite mid_length in *. lia.
  - rewrite map_app, prod_app in *. cbn [map prod] in *.
    assert (prod (map (Nat.max 1) d1) * (Nat.max 1 w * prod (map (Nat.max 1) d2))
            <= prod (map (Nat.max 1) d1) * (Nat.max 1 L * prod (map (Nat.max 1) d2))); [|lia].
    apply Nat.mul_le_mono_l, Nat.mul_le_mono_r. lia.
Qed.

Lemma split_piece_repr {A} c (t : tensor A) d1 L d2 xs prev cut :
  repr t (d1 ++ L :: d2) xs -> 0 < prod (d1 ++ L :: d2) -> prev < cut -> cut <= L ->
  exists p, split_piece c t (length d1) (prod d1) (prod d2) L xs prev cut = Ok p /\
    range_of d1 L d2 xs p (prev, cut).
Proof.
  intros H Hpos Hlt Hle. destruct (mid_pos _ _ _ Hpos) as (P1 & PL & P2).
  pose proof (repr_supported _ _ _ H) as Hsup. pose proof (repr_len _ _ _ H) as Hlen.
  pose proof (supported_len _ Hsup) as Hl6. rewrite mid_length in Hl6.
  set (w := cut - prev) in *. assert (Hw : 0 < w) by (subst w; lia).
  assert (Hsw : supported (d1 ++ w :: d2)) by (eapply piece_supported; [exact Hsup|subst w; lia]).
  assert (HL : (Z.of_nat L < two32)%Z).
  { eapply supported_in; [exact Hsup|]. apply in_or_app. right. left. reflexivity. }
  pose proof (supported_prod _ Hsw) as Hpw. rewrite prod_app in Hpw, Hlen. cbn [prod] in Hpw, Hlen.
  unfold split_piece. rewrite (repr_shape _ _ _ H). cbn [rank canon].
  rewrite push_dims_canon by (rewrite mid_length; lia). cbn [bind app].
  rewrite Nat.sub_0_r. cbn [skipn]. rewrite firstn_app_exact.
  rewrite usub_ok by (unfold two32, two64 in *; lia). cbn [bind]. fold w.
  rewrite push_dims_canon by (rewrite mid_length; lia). cbn [bind].
  replace (skipn (length d1 + 1) (d1 ++ L :: d2)) with d2.
  2:{ rewrite Nat.add_comm, <- skipn_skipn, skipn_app_exact. reflexivity. }
  rewrite firstn_all2 by (rewrite mid_length; lia). rewrite <- app_assoc. cbn [app].
  rewrite umul_ok by (unfold two32, two64 in *; nia). cbn [bind].
  rewrite umul_ok by (unfold two32, two64 in *; nia). cbn [bind].
  rewrite from_vec_dims_supported.
  2: auto.
  2:{ apply prod_pos_inv. rewrite prod_app. cbn [prod]. nia. }
  cbn [bind].
  assert (Hdm : forall p, p / (w * prod d2) * w * prod d2 + p mod (w * prod d2) / prod d2 * prod d2
              + (p mod (w * prod d2)) mod prod d2 = p).
  { intros p. now rewrite <- Nat.add_assoc, div_mod_l, <- Nat.mul_assoc, div_mod_l. }
  destruct (unsafe_init_scatter c (prod d1 * prod d2 * w) (d1 ++ w :: d2)
    (fun p o => let* v := aget xs (p / (w * prod d2) * L * prod d2
          + (prev + p mod (w * prod d2) / prod d2) * prod d2 + (p mod (w * prod d2)) mod prod d2) in
       write o p v) xs
    (fun p => p / (w * prod d2) * L * prod d2
          + (prev + p mod (w * prod d2) / prod d2) * prod d2 + (p mod (w * prod d2)) mod prod d2)
    (fun p => p)
    (fun o => for_ (prod d1) (fun j o =>
      for_range prev cut (fun k o =>
        for_ (prod d2) (fun i o =>
          let* v := aget xs (j * L * prod d2 + k * prod d2 + i) in
          write o (j * prod d2 * w + (k - prev) * prod d2 + i) v) o) o) o)) as (ys & E & El & Ev).
  - left. nia.
  - auto.
  - rewrite prod_app. cbn [prod]. lia.
  - intros o.
    rewrite (for_ext _ _ (fun j o => for_ w (fun k o => for_ (prod d2) (fun i o =>
          let* v := aget xs (j * L * prod d2 + (prev + k) * prod d2 + i) in
          write o (j * prod d2 * w + k * prod d2 + i) v) o) o)).
    2:{ intros j b _. rewrite for_range_shift. fold w. apply for_ext. intros k b' _.
        replace (prev + k - prev) with k by lia. reflexivity. }
    rewrite (for_nest3 (prod d1) w (prod d2) (fun j k i o =>
          let* v := aget xs (j * L * prod d2 + (prev + k) * prod d2 + i) in
          write o (j * prod d2 * w + k * prod d2 + i) v)).
    replace (prod d1 * prod d2 * w) with (prod d1 * (w * prod d2)) by lia.
    apply for_ext. intros p b Hp. apply bind_ext. intros v _. f_equal.
    rewrite <- (Nat.mul_assoc _ (prod d2) w), (Nat.mul_comm (prod d2) w), Nat.mul_assoc. apply Hdm.
  - auto.
  - auto.
  - auto.
  - intros p Hp. exists p. auto.
  - intros p Hp. rewrite Hlen.
    assert (p / (w * prod d2) < prod d1) by (apply Nat.div_lt_upper_bound; nia).
    assert (Hm : p mod (w * prod d2) < w * prod d2) by (apply Nat.mod_upper_bound; nia).
    assert (Hm2 : p mod (w * prod d2) / prod d2 < w) by (apply Nat.div_lt_upper_bound; nia).
    assert ((p mod (w * prod d2)) mod prod d2 < prod d2) by (apply Nat.mod_upper_bound; nia).
    assert (prev + p mod (w * prod d2) / prod d2 < L) by (subst w; lia).
    set (a := p / (w * prod d2)) in *. set (b := prev + _ / _) in *. set (e := _ mod prod d2) in *.
    assert (b * prod d2 + e < L * prod d2) by nia. nia.
  - fold w in E. exists (fresh (d1 ++ w :: d2) ys). split; [exact E|].
    exists ys. cbn [fst snd]. fold w. split.
    + apply repr_fresh; auto. rewrite prod_app. cbn [prod]. lia.
    + intros i1 k i2 H1 Hk H2. unfold elem.
      rewrite !ravel_app by now apply in_shape_length. cbn [ravel prod].
      pose proof (ravel_lt _ _ H1) as B1. pose proof (ravel_lt _ _ H2) as B2.
      set (j := ravel d1 i1) in *. set (i := ravel d2 i2) in *.
      assert (Hy : k * prod d2 + i < w * prod d2) by nia.
      specialize (Ev (j * (w * prod d2) + (k * prod d2 + i)) ltac:(nia)).
      rewrite Nat.div_add_l in Ev by nia. rewrite (Nat.div_small (k * prod d2 + i)) in Ev by auto.
      rewrite (Nat.add_comm (j * (w * prod d2)) (k * prod d2 + i)) in Ev.
      rewrite Nat.mod_add in Ev by nia. rewrite (Nat.mod_small (k * prod d2 + i)) in Ev by auto.
      rewrite Nat.div_add_l in Ev by lia. rewrite (Nat.div_small i) in Ev by auto.
      rewrite (Nat.add_comm (k * prod d2) i), Nat.mod_add in Ev by lia. rewrite (Nat.mod_small i) in Ev by auto.
      rewrite !Nat.add_0_r in Ev.
      etransitivity; [|etransitivity; [exact Ev|]]; f_equal; lia.
Qed.

(** A range of the outer axis is a view. *)
Lemma subslice_range {A} c (t : tensor A) L d2 xs prev cut :
  repr t (L :: d2) xs -> 0 < prod (L :: d2) -> prev < cut -> cut <= L ->
  exists p, subslice c t prev (cut - prev) = Ok p /\ range_of [] L d2 xs p (prev, cut).
Proof.
  intros H Hpos Hlt Hle. cbn [prod] in Hpos.
  assert (Hd2 : 0 < prod d2) by nia.
  eexists. split.
  - apply subslice_canon with (d := L) (ds := d2) (xs := xs); auto; try lia. now apply prod_pos_inv.
  - pose proof (repr_supported _ _ _ H) as Hsup. pose proof (repr_len _ _ _ H) as Hlen. cbn [prod] in Hlen.
    exists (firstn ((cut - prev) * prod d2) (skipn (prev * prod d2) xs)). cbn [fst snd app]. split.
    + apply (repr_sub t (L :: d2)); auto.
      * nia.
      * eapply (piece_supported [] L); [exact Hsup|lia].
    + intros i1 k i2 H1 Hk H2. inversion H1; subst. cbn [app]. unfold elem. cbn [ravel prod].
      pose proof (ravel_lt _ _ H2) as B2.
      rewrite nth_error_firstn, nth_error_skipn.
      replace (k * prod d2 + ravel d2 i2 <? (cut - prev) * prod d2) with true by (symmetry; apply Nat.ltb_lt; nia).
      f_equal. lia.
Qed.

Lemma ascending_le lo cuts hi : ascending lo cuts hi -> lo <= hi.
Proof. revert lo. induction cuts as [|k cuts IH]; intros lo; cbn; auto. intros [H1 H2]. apply IH in H2. lia. Qed.

Section SplitLoop.
Context {A : Type} (c : cfg) (t : tensor A) (d1 : list nat) (L : nat) (d2 : list nat) (xs : list A).
Hypothesis H : repr t (d1 ++ L :: d2) xs.
Hypothesis Hpos : 0 < prod (d1 ++ L :: d2).

Lemma split_loop cuts prev slices :
  ascending prev cuts L ->
  exists ps last, for_each cuts (fun cut '(slices, prev) =>
    if cut =? prev then Ok (slices, prev)
    else
      let* data := split_piece c t (length d1) (prod d1) (prod d2) L xs prev cut in
      Ok (slices ++ [data], cut)) (slices, prev) = Ok (slices ++ ps, last) /\
    last = List.last cuts prev /\
    Forall2 (range_of d1 L d2 xs) ps (ranges prev cuts).
Proof.
  revert prev slices. induction cuts as [|k cuts IH]; intros prev slices Ha; cbn [for_each ranges].
  - exists [], prev. rewrite app_nil_r. repeat split; auto.
  - destruct Ha as [Hk Ha]. pose proof (ascending_le _ _ _ Ha) as HkL.
    destruct (Nat.eqb_spec k prev) as [->|Hne]; cbn [bind].
    + destruct (IH prev slices Ha) as (ps & last & E & El & F). exists ps, last.
      rewrite Nat.ltb_irrefl. repeat split; auto. rewrite El. destruct cuts; reflexivity.
    + destruct (split_piece_repr c t d1 L d2 xs prev k H Hpos ltac:(lia) HkL) as (p & E & Hp).
      rewrite E. cbn [bind].
      destruct (IH k (slices ++ [p]) Ha) as (ps & last & E' & El & F). exists (p :: ps), last.
      rewrite E', <- app_assoc. replace (prev <? k) with true by (symmetry; apply Nat.ltb_lt; lia).
      split; [reflexivity|]. split; [|constructor; auto].
      rewrite El. destruct cuts as [|x cuts]; [reflexivity|]. cbn. clear. revert x.
      induction cuts; intros x; cbn; auto.
Qed.

End SplitLoop.

Lemma cut_rows_loop {A} c (t : tensor A) L d2 xs cuts prev slices :
  repr t (L :: d2) xs -> 0 < prod (L :: d2) -> ascending prev cuts L ->
  exists ps, for_each cuts (fun i '(slices, prev) =>
    let* slices :=
      (if i =? prev then Ok slices
       else
         let* w := usub c i prev in
         let* piece := subslice c t prev w in
         Ok (slices ++ [piece])) in
    Ok (slices, i)) (slices, prev) = Ok (slices ++ ps, List.last cuts prev) /\
    Forall2 (range_of [] L d2 xs) ps (ranges prev cuts).
Proof.
  intros H Hpos. revert prev slices. induction cuts as [|k cuts IH]; intros prev slices Ha; cbn [for_each ranges].
  - exists []. rewrite app_nil_r. split; auto.
  - destruct Ha as [Hk Ha]. pose proof (ascending_le _ _ _ Ha) as HkL.
    assert (Hlast : List.last cuts k = List.last (k :: cuts) prev).
    { destruct cuts as [|x cuts]; [reflexivity|]. cbn. clear. revert x. induction cuts; intros x; cbn; auto. }
    destruct (Nat.eqb_spec k prev) as [->|Hne]; cbn [bind].
    + destruct (IH prev slices Ha) as (ps & E & F). exists ps.
      rewrite Nat.ltb_irrefl, <- Hlast. split; auto.
    + assert (HL : (Z.of_nat L < two32)%Z).
      { eapply supported_in; [apply (repr_supported _ _ _ H)|]. left. reflexivity. }
      rewrite usub_ok by (unfold two32, two64 in *; lia). cbn [bind].
      destruct (subslice_range c t L d2 xs prev k H Hpos ltac:(lia) HkL) as (p & E & Hp).
      rewrite E. cbn [bind].
      destruct (IH k (slices ++ [p]) Ha) as (ps & E' & F). exists (p :: ps).
      rewrite E', <- app_assoc, <- Hlast. replace (prev <? k) with true by (symmetry; apply Nat.ltb_lt; lia).
      split; [reflexivity|]. constructor; auto.
Qed.

Lemma split_by_axis_unfold {A} c (t : tensor A) d1 L d2 xs cuts :
  repr t (d1 ++ L :: d2) xs ->
  split_by_axis c t (length d1) cuts =
  let* '(slices, _) := for_each cuts (fun cut '(slices, prev) =>
    if cut =? prev then Ok (slices, prev)
    else
      let* data := split_piece c t (length d1) (prod d1) (prod d2) L xs prev cut in
      Ok (slices ++ [data], cut)) ([], 0) in
  Ok slices.
Proof.
  intros H. pose proof (repr_supported _ _ _ H) as Hsup.
  pose proof (supported_len _ Hsup) as Hl6.
  assert (Hm : length (d1 ++ L :: d2) = length d1 + (1 + length d2)) by apply mid_length.
  unfold split_by_axis. rewrite (repr_shape _ _ _ H). cbn [rank canon].
  rewrite sublen_canon by (auto; lia). cbn [bind]. rewrite Nat.sub_0_r. cbn [skipn]. rewrite firstn_app_exact.
  replace (length d1 <? length (d1 ++ L :: d2)) with true by (symmetry; apply Nat.ltb_lt; lia).
  rewrite sublen_canon by (auto; lia). cbn [bind].
  replace (skipn (length d1 + 1) (d1 ++ L :: d2)) with d2.
  2:{ rewrite Nat.add_comm, <- skipn_skipn, skipn_app_exact. reflexivity. }
  rewrite firstn_all2 by lia. rewrite dim_canon by lia. cbn [bind].
  rewrite nth_mid, (repr_as_slice _ _ _ H). reflexivity.
Qed.

(** Splitting at an ascending list of cut points (the axis length itself is the last). *)
Lemma split_cuts_repr {A} c (t : tensor A) d1 L d2 xs ax sec cuts :
  repr t (d1 ++ L :: d2) xs -> 0 < prod (d1 ++ L :: d2) ->
  axis_from_rank c ax (length (d1 ++ L :: d2)) = Ok (length d1) ->
  section_cuts L sec = Ok cuts -> ascending 0 cuts L ->
  exists ps, split_axis c ax t sec = Ok ps /\ Forall2 (range_of d1 L d2 xs) ps (ranges 0 cuts).
Proof.
  intros H Hpos Hax Hsec Ha. pose proof (repr_supported _ _ _ H) as Hsup.
  pose proof (supported_len _ Hsup) as Hl6.
  assert (Hm : length (d1 ++ L :: d2) = length d1 + (1 + length d2)) by apply mid_length.
  unfold split_axis. rewrite (repr_shape _ _ _ H). cbn [rank canon]. rewrite Hax. cbn [bind].
  rewrite dim_canon by lia. cbn [bind]. rewrite nth_mid, Hsec. cbn [bind].
  destruct (Nat.eqb_spec (length d1) 0) as [E0|E0].
  - destruct d1; [|discriminate]. cbn [app] in *.
    destruct (cut_rows_loop c t L d2 xs cuts 0 [] H Hpos Ha) as (ps & E & F).
    exists ps. unfold cut_rows. rewrite E. cbn [bind app]. auto.
  - rewrite (split_by_axis_unfold c t d1 L d2 xs) by auto.
    destruct (split_loop c t d1 L d2 xs H Hpos cuts 0 [] Ha) as (ps & last & E & _ & F).
    exists ps. rewrite E. cbn [bind app]. auto.
Qed.

Lemma ranges_sum lo cuts hi q :
  ascending lo cuts hi ->
  forall r, nth_error (ranges lo cuts) q = Some r ->
  list_sum (firstn q (map (fun r => snd r - fst r) (ranges lo cuts))) + lo = fst r /\
  fst r < snd r /\ snd r <= hi.
Proof.
  revert lo q. induction cuts as [|k cuts IH]; intros lo q Ha r E; cbn in E; [destruct q; discriminate|].
  destruct Ha as [Hk Ha]. cbn [ranges]. destruct (Nat.ltb_spec lo k) as [Hlt|Hge].
  - destruct q as [|q]; cbn in E.
    + injection E as <-. cbn. apply ascending_le in Ha. lia.
    + destruct (IH k q Ha r E) as (H1 & H2 & H3). split; [|auto].
      cbn [map firstn fst snd]. change (list_sum (?a :: ?l)) with (a + list_sum l).
      cbn [list_sum fold_right]. fold (list_sum (firstn q (map (fun r => snd r - fst r) (ranges k cuts)))). lia.
  - replace lo with k by lia. apply IH; auto. 
Qed.

Lemma ranges_total lo cuts hi :
  ascending lo (cuts ++ [hi]) hi ->
  list_sum (map (fun r => snd r - fst r) (ranges lo (cuts ++ [hi]))) + lo = hi.
Proof.
  revert lo. induction cuts as [|k cuts IH]; intros lo Ha; cbn [app ranges ascending] in *.
  - destruct (Nat.ltb_spec lo hi); cbn; lia.
  - destruct Ha as [Hk Ha]. specialize (IH k Ha). destruct (Nat.ltb_spec lo k).
    + cbn [map list_sum fold_right fst snd]. fold (list_sum (map (fun r => snd r - fst r) (ranges k (cuts ++ [hi])))). lia.
    + lia.
Qed.

Lemma in_shape_mid d1 L d2 idx :
  in_shape (d1 ++ L :: d2) idx ->
  exists i1 k i2, idx = i1 ++ k :: i2 /\ in_shape d1 i1 /\ k < L /\ in_shape d2 i2.
Proof.
  intros Hi. destruct (in_shape_app_inv _ _ _ Hi) as [H1 H2].
  remember (skipn (length d1) idx) as tl eqn:E. destruct tl as [|k i2].
  - inversion H2.
  - apply in_shape_cons in H2. exists (firstn (length d1) idx), k, i2.
    split; [rewrite E; symmetry; apply firstn_skipn|]. tauto.
Qed.

(** Joining the pieces again. *)
Lemma join_ranges {A} c d1 L d2 (xs : list A) ps cuts :
  supported (d1 ++ L :: d2) -> length xs = prod (d1 ++ L :: d2) -> 0 < prod (d1 ++ L :: d2) -> length d2 < 5 ->
  ascending 0 (cuts ++ [L]) L ->
  Forall2 (range_of d1 L d2 xs) ps (ranges 0 (cuts ++ [L])) ->
  concat_axis c (length d1) ps = Ok (fresh (d1 ++ L :: d2) xs).
Proof.
  intros Hsup Hlen Hpos Hd2 Ha F. destruct (mid_pos _ _ _ Hpos) as (P1 & PL & P2).
  set (rs := ranges 0 (cuts ++ [L])) in *.
  assert (Hparts : exists parts, joinable d1 d2 ps parts /\
     map fst parts = map (fun r => snd r - fst r) rs /\
     forall q w ys, nth_error parts q = Some (w, ys) -> exists a b, nth_error rs q = Some (a, b) /\ w = b - a /\
       forall i1 k i2, in_shape d1 i1 -> k < w -> in_shape d2 i2 ->
        elem (d1 ++ w :: d2) ys (i1 ++ k :: i2) = elem (d1 ++ L :: d2) xs (i1 ++ (a + k) :: i2)).
  { clear -F. induction F as [|p [a b] ps rs Hp F IH].
    - exists []. split; [constructor|]. split; auto. intros [|q] w ys E; discriminate.
    - destruct IH as (parts & J & M & Q). destruct Hp as (ys & Hr & He). cbn [fst snd] in *.
      exists ((b - a, ys) :: parts). split; [constructor; auto|]. split; [cbn; congruence|].
      intros [|q] w ys' E; cbn in E.
      + injection E as <- <-. exists a, b. auto.
      + apply Q in E. exact E. }
  destruct Hparts as (parts & J & M & Q).
  assert (Hsum : list_sum (map fst parts) = L).
  { rewrite M. pose proof (ranges_total 0 cuts L Ha) as T. fold rs in T. lia. }
  destruct (concat_axis_repr c d1 d2 ps parts) as (ys & E & El & Ev).
  - intros ->. cbn in Hsum. lia.
  - auto.
  - auto.
  - now rewrite Hsum.
  - rewrite Hsum. left. lia.
  - rewrite Hsum in *. rewrite E. do 2 f_equal.
    apply (elem_ext (d1 ++ L :: d2)); auto. intros idx Hi.
    destruct (in_shape_mid _ _ _ _ Hi) as (i1 & k & i2 & -> & H1 & Hk & H2).
    destruct (sum_find (map fst parts) k ltac:(lia)) as (q & w & Eq & B).
    rewrite nth_error_map in Eq. destruct (nth_error parts q) as [[w' zs]|] eqn:Ep; cbn in Eq; [|discriminate].
    injection Eq as ->.
    destruct (Q q w zs Ep) as (a & b & Er & -> & He).
    destruct (ranges_sum 0 (cuts ++ [L]) L q Ha (a, b) Er) as (Hs & _ & _).
    fold rs in Hs. rewrite <- M in Hs. cbn [fst] in Hs.
    specialize (Ev q (b - a) zs Ep i1 (k - list_sum (firstn q (map fst parts))) i2 H1 ltac:(lia) H2).
    replace (list_sum (firstn q (map fst parts)) + (k - list_sum (firstn q (map fst parts)))) with k in Ev by lia.
    rewrite Ev, He by (auto; lia). do 3 f_equal. lia.
Qed.

(** ** Cuts that are rejected *)

(** A loop with an invariant: one step panics, no step is undefined. *)
Lemma for_from_panic_inv {S} (P : S -> Prop) i n (body : nat -> S -> outcome S) s k :
  i <= k < i + n ->
  (forall j s, i <= j < i + n -> P s -> safe (body j s) /\ forall s', body j s = Ok s' -> P s') ->
  (forall s, P s -> body k s = Panic) -> P s ->
  for_from i n body s = Panic.
Proof.
  revert i s. induction n as [|n IH]; intros i s Hk Hb Hp Hs; [lia|]. rewrite for_from_S.
  destruct (Nat.eq_dec i k) as [->|Hne]; [now rewrite Hp|].
  destruct (Hb i s ltac:(lia) Hs) as [Hsafe Hok].
  destruct (body i s) as [s'| |] eqn:E; cbn [bind]; [|reflexivity|now destruct Hsafe].
  apply IH; auto; [lia|]. intros j s0 Hj. apply Hb. lia.
Qed.

Lemma umul_value c a b l :
  umul c a b = Ok l -> (overflow_checks c = true \/ (Z.of_nat a * Z.of_nat b < two64)%Z) -> l = a * b.
Proof.
  unfold umul, arith. intros E H.
  destruct ((0 <=? Z.of_nat a * Z.of_nat b) && (Z.of_nat a * Z.of_nat b <? two64))%Z eqn:B.
  - injection E as <-. nia.
  - destruct H as [H|H]; [rewrite H in E; discriminate|nia].
Qed.

Lemma umul_lt c a b l : umul c a b = Ok l -> (Z.of_nat l < two64)%Z.
Proof.
  unfold umul, arith. 
  destruct ((0 <=? Z.of_nat a * Z.of_nat b) && (Z.of_nat a * Z.of_nat b <? two64))%Z eqn:B.
  - intros [= <-]. nia.
  - destruct (overflow_checks c); [discriminate|]. intros [= <-].
    pose proof (Z.mod_pos_bound (Z.of_nat a * Z.of_nat b) two64 eq_refl). lia.
Qed.

Lemma Ok_inj {A} (a b : A) : Ok a = Ok b -> a = b.
Proof. congruence. Qed.

Lemma push_dims_safe c s a b v : safe (push_dims c s a b v).
Proof. unfold push_dims. safe. Qed.

Lemma split_piece_beyond {A} c (t : tensor A) d1 L d2 xs prev cut :
  repr t (d1 ++ L :: d2) xs -> 0 < prod (d1 ++ L :: d2) -> prev <= L -> L < cut ->
  (Z.of_nat cut < two64)%Z ->
  (overflow_checks c = true \/
   (Z.of_nat (prod d1 * prod d2) * Z.of_nat (cut - prev) < two64)%Z) ->
  split_piece c t (length d1) (prod d1) (prod d2) L xs prev cut = Panic.
Proof.
  intros H Hpos Hle Hlt Hcut Hov. destruct (mid_pos _ _ _ Hpos) as (P1 & PL & P2).
  pose proof (repr_supported _ _ _ H) as Hsup. pose proof (repr_len _ _ _ H) as Hlen.
  rewrite prod_app in Hlen. cbn [prod] in Hlen.
  pose proof (supported_prod _ Hsup) as Hpw. rewrite prod_app in Hpw. cbn [prod] in Hpw.
  unfold split_piece.
  apply bind_panic; [apply push_dims_safe|]. intros vec _.
  rewrite usub_ok by (auto; lia). cbn [bind].
  set (w := cut - prev) in *. assert (Hw : 0 < w) by (subst w; lia).
  apply bind_panic; [apply push_dims_safe|]. intros vec' _.
  rewrite umul_ok by (unfold two32, two64 in *; nia). cbn [bind].
  apply bind_panic; [apply safe_umul|]. intros l El. apply umul_value in El; [|auto].
  apply bind_panic; [apply safe_from_vec_dims|]. intros s _.
  unfold unsafe_init_, unsafe_init, alloc.
  destruct (two63 <=? Z.of_nat l)%Z; [reflexivity|].
  replace ((l =? 0) && negb (zero_alloc_ok c)) with false.
  2:{ symmetry. apply andb_false_iff. left. apply Nat.eqb_neq. nia. }
  cbn [bind].
  match goal with |- context [for_ (prod d1) ?b (repeat None l)] => assert (E : for_ (prod d1) b (repeat None l) = Panic) end.
  2:{ rewrite E. reflexivity. }
  rewrite (for_ext _ _ (fun j o => for_ w (fun k o => for_ (prod d2) (fun i o =>
        let* v := aget xs (j * L * prod d2 + (prev + k) * prod d2 + i) in
        write o (j * prod d2 * w + k * prod d2 + i) v) o) o)).
  2:{ intros j b _. rewrite for_range_shift. fold w. apply for_ext. intros k b' _.
      replace (prev + k - prev) with k by lia. reflexivity. }
  rewrite (for_nest3 (prod d1) w (prod d2) (fun j k i o =>
        let* v := aget xs (j * L * prod d2 + (prev + k) * prod d2 + i) in
        write o (j * prod d2 * w + k * prod d2 + i) v)).
  unfold for_.
  apply (for_from_panic_inv (fun o : buf A => length o = l)) with
    (k := (prod d1 - 1) * (w * prod d2) + (L - prev) * prod d2).
  - assert ((L - prev) * prod d2 < w * prod d2) by (apply Nat.mul_lt_mono_pos_r; lia). nia.
  - intros p o Hp Ho. split.
    + apply safe_bind; [apply safe_aget|]. intros v _. unfold write.
      replace (_ <? length o) with true; [discriminate|]. symmetry. apply Nat.ltb_lt. rewrite Ho, El.
      rewrite <- (Nat.mul_assoc _ (prod d2) w), (Nat.mul_comm (prod d2) w), Nat.mul_assoc.
      rewrite <- Nat.add_assoc, div_mod_l, <- Nat.mul_assoc, div_mod_l. nia.
    + intros o'. destruct (aget xs _); cbn [bind]; try discriminate.
      unfold write. destruct (_ <? length o); [|discriminate]. intros [= <-]. now rewrite set_nth_length.
  - intros o _.
    rewrite Nat.div_add_l by nia.
    assert (Hy : (L - prev) * prod d2 < w * prod d2) by (apply Nat.mul_lt_mono_pos_r; lia).
    rewrite (Nat.div_small ((L - prev) * prod d2)) by auto.
    rewrite (Nat.add_comm (_ * (w * prod d2))), Nat.mod_add by nia.
    rewrite (Nat.mod_small _ _ Hy). rewrite Nat.div_mul by lia. rewrite Nat.mod_mul by lia.
    rewrite aget_none; [reflexivity|]. rewrite Hlen. 
    replace (prev + (L - prev)) with L by lia. nia.
  - apply repeat_length.
Qed.

Lemma split_piece_decreasing {A} c (t : tensor A) d1 L d2 xs prev cut :
  repr t (d1 ++ L :: d2) xs -> 0 < prod (d1 ++ L :: d2) -> prev <= L -> cut < prev ->
  split_piece c t (length d1) (prod d1) (prod d2) L xs prev cut = Panic.
Proof.
  intros H Hpos Hle Hlt. destruct (mid_pos _ _ _ Hpos) as (P1 & PL & P2).
  pose proof (repr_supported _ _ _ H) as Hsup.
  pose proof (supported_prod _ Hsup) as Hpw. rewrite prod_app in Hpw. cbn [prod] in Hpw.
  unfold split_piece.
  apply bind_panic; [apply push_dims_safe|]. intros vec _.
  unfold usub, arith. replace ((0 <=? Z.of_nat cut - Z.of_nat prev)%Z) with false by lia. cbn [andb].
  destruct (overflow_checks c) eqn:Ec; [reflexivity|]. cbn [bind].
  set (w := Z.to_nat ((Z.of_nat cut - Z.of_nat prev) mod two64)).
  assert (HL : (Z.of_nat L < two32)%Z).
  { eapply supported_in; [exact Hsup|]. apply in_or_app. right. left. reflexivity. }
  assert (Hw : (Z.of_nat w = two64 - (Z.of_nat prev - Z.of_nat cut))%Z).
  { subst w. rewrite Z2Nat.id by (apply Z.mod_pos_bound; reflexivity).
    symmetry. apply Z.mod_unique with (q := (-1)%Z); unfold two32, two64 in *; lia. }
  apply bind_panic; [apply push_dims_safe|]. intros vec' _.
  rewrite umul_ok by (unfold two32, two64 in *; nia). cbn [bind].
  apply bind_panic; [apply safe_umul|]. intros l El.
  apply bind_panic; [apply safe_from_vec_dims|]. intros s _.
  assert (Hb : (0 < Z.of_nat (prod d1 * prod d2) * (Z.of_nat prev - Z.of_nat cut) < two32)%Z).
  { split; [nia|]. assert (prod d1 * prod d2 * (prev - cut) <= prod d1 * (L * prod d2)); [|nia].
    rewrite <- Nat.mul_assoc, (Nat.mul_comm (prod d2)). apply Nat.mul_le_mono_l, Nat.mul_le_mono_r. lia. }
  assert (Hl : (Z.of_nat l = two64 - Z.of_nat (prod d1 * prod d2) * (Z.of_nat prev - Z.of_nat cut))%Z).
  { unfold umul, arith in El. rewrite Hw, Ec in El.
    set (N := Z.of_nat (prod d1 * prod d2)) in *. set (D := (Z.of_nat prev - Z.of_nat cut)%Z) in *.
    assert (Hm : ((N * (two64 - D)) mod two64 = two64 - N * D)%Z).
    { symmetry. apply Z.mod_unique with (q := (N - 1)%Z); [unfold two32, two64 in *; lia|]. ring. }
    destruct ((0 <=? N * (two64 - D)) && (N * (two64 - D) <? two64))%Z eqn:B.
    - apply Ok_inj in El. rewrite <- El. clear El. rewrite Z.mod_small in Hm by lia. rewrite Hm. unfold two32, two64 in *. lia.
    - apply Ok_inj in El. rewrite <- El, Hm. unfold two32, two64 in *. lia. }
  unfold unsafe_init_, unsafe_init, alloc.
  replace (two63 <=? Z.of_nat l)%Z with true by (unfold two32, two63, two64 in *; lia). reflexivity.
Qed.

Lemma product32_lt c acc l n :
  product32 c acc l = Ok n -> (Z.of_nat acc < two32)%Z -> (Z.of_nat n < two32)%Z.
Proof.
  revert acc. induction l as [|d l IH]; intros acc; cbn; [intros [= <-]; auto|].
  unfold mul32, arith.
  destruct ((0 <=? Z.of_nat acc * Z.of_nat d) && (Z.of_nat acc * Z.of_nat d <? two32))%Z eqn:B.
  - cbn [bind]. intros E _. apply (IH _ E). nia.
  - destruct (overflow_checks c); [discriminate|]. cbn [bind]. intros E _. apply (IH _ E).
    pose proof (Z.mod_pos_bound (Z.of_nat acc * Z.of_nat d) two32 eq_refl). lia.
Qed.

Lemma size_lt c s n : size c s = Ok n -> (Z.of_nat n < two32)%Z.
Proof.
  unfold size. destruct (aslice _ _ _); cbn [bind]; try discriminate.
  intros E. eapply product32_lt; [exact E|]. reflexivity.
Qed.

Lemma safe_subslice_flat {A} c (t : tensor A) o l s : safe s -> safe (subslice_flat c t o l s).
Proof. intros. unfold subslice_flat. safe. Qed.

(** An outer range with a bad end is rejected. *)
Lemma subslice_bad {A} c (t : tensor A) L d2 xs prev cut :
  repr t (L :: d2) xs -> 0 < prod (L :: d2) -> prev <= L -> cut < prev \/ L < cut ->
  (Z.of_nat cut < two64)%Z ->
  (let* w := usub c cut prev in subslice c t prev w) = Panic.
Proof.
  intros H Hpos Hle Hbad Hcut. pose proof (repr_supported _ _ _ H) as Hsup.
  pose proof (supported_len _ Hsup) as Hl6. pose proof (repr_len _ _ _ H) as Hlen. cbn [prod] in *.
  pose proof (supported_prod _ Hsup) as Hpw. cbn [prod] in *.
  assert (HL : (Z.of_nat L < two32)%Z) by (eapply supported_in; [exact Hsup|left; reflexivity]).
  destruct Hbad as [Hb|Hb].
  - unfold usub, arith. replace ((0 <=? Z.of_nat cut - Z.of_nat prev)%Z) with false by lia. cbn [andb].
    destruct (overflow_checks c) eqn:Ec; [reflexivity|]. cbn [bind].
    set (w := Z.to_nat ((Z.of_nat cut - Z.of_nat prev) mod two64)).
    assert (Hw : (Z.of_nat w = two64 - (Z.of_nat prev - Z.of_nat cut))%Z).
    { subst w. rewrite Z2Nat.id by (apply Z.mod_pos_bound; reflexivity).
      symmetry. apply Z.mod_unique with (q := (-1)%Z); unfold two32, two64 in *; lia. }
    unfold subslice. rewrite (repr_shape _ _ _ H).
    apply bind_panic; [apply safe_dim|]. intros d0 _.
    apply bind_panic; [apply safe_uadd|]. intros e _.
    apply bind_panic; [apply safe_assert|]. intros _ _.
    rewrite as_vec_canon by auto. cbn [bind].
    unfold aslice. cbn [length skipn]. replace ((1 <=? S (length d2)) && (S (length d2) <=? S (length d2))) with true.
    2:{ symmetry. apply andb_true_iff. split; apply Nat.leb_le; lia. }
    cbn [bind]. replace (S (length d2) - 1) with (length d2) by lia. rewrite firstn_all.
    assert (Hd2 : 0 < prod d2) by nia.
    rewrite product64_ok.
    2:{ rewrite prod1_id by auto. unfold two32, two64 in *. nia. }
    cbn [bind]. rewrite Nat.mul_1_l.
    apply bind_panic; [apply safe_aset|]. intros shape _.
    apply bind_panic; [apply safe_umul|]. intros o _.
    apply bind_panic; [apply safe_umul|]. intros l El.
    assert (Hbd : (0 < (Z.of_nat prev - Z.of_nat cut) * Z.of_nat (prod d2) < two32)%Z).
    { split; [nia|]. assert ((prev - cut) * prod d2 <= L * prod d2) by (apply Nat.mul_le_mono_r; lia). nia. }
    assert (Hl : (Z.of_nat l = two64 - (Z.of_nat prev - Z.of_nat cut) * Z.of_nat (prod d2))%Z).
    { unfold umul, arith in El. rewrite Hw, Ec in El.
      set (N := Z.of_nat (prod d2)) in *. set (D := (Z.of_nat prev - Z.of_nat cut)%Z) in *.
      assert (Hm : (((two64 - D) * N) mod two64 = two64 - D * N)%Z).
      { symmetry. apply Z.mod_unique with (q := (N - 1)%Z); [unfold two32, two64 in *; lia|]. ring. }
      destruct ((0 <=? (two64 - D) * N) && ((two64 - D) * N <? two64))%Z eqn:B.
      - apply Ok_inj in El. rewrite <- El. clear El. rewrite Z.mod_small in Hm by lia. rewrite Hm. unfold two32, two64 in *. lia.
      - apply Ok_inj in El. rewrite <- El, Hm. unfold two32, two64 in *. lia. }
    unfold subslice_flat.
    apply bind_panic; [apply safe_assert|]. intros _ _.
    apply bind_panic; [apply safe_uadd|]. intros e' _.
    apply bind_panic; [apply safe_assert|]. intros _ _.
    apply bind_panic; [apply safe_from_vec_dims|]. intros s _.
    apply bind_panic; [apply safe_size|]. intros n En. apply size_lt in En.
    replace ((n =? l) || ((n =? 0) && (l =? 1))) with false; [reflexivity|].
    symmetry. apply orb_false_iff. split; [apply Nat.eqb_neq|apply andb_false_iff; right; apply Nat.eqb_neq];
      unfold two32, two64 in *; lia.
  - rewrite usub_ok by (auto; lia). cbn [bind]. unfold subslice. rewrite (repr_shape _ _ _ H).
    rewrite dim_canon by (cbn [length] in *; lia). cbn [bind nth].
    rewrite uadd_ok by lia. cbn [bind]. rewrite assert_false by lia. reflexivity.
Qed.

Lemma last_ascending lo cuts hi : ascending lo cuts hi -> List.last cuts lo <= hi.
Proof.
  revert lo. induction cuts as [|k cuts IH]; intros lo; cbn [ascending]; [auto|]. intros [_ H].
  apply IH in H. destruct cuts as [|x cuts]; [exact H|].
  cbn [List.last] in *. clear -H. revert x H. induction cuts; intros x H; cbn in *; auto.
Qed.

(** A list of cuts that runs backwards or past the end is rejected.  Without overflow
    checks and on an inner axis, the size of the piece past the end must not wrap. *)
Lemma split_bad_cut {A} c (t : tensor A) d1 L d2 xs ax good bad rest :
  repr t (d1 ++ L :: d2) xs -> 0 < prod (d1 ++ L :: d2) ->
  axis_from_rank c ax (length (d1 ++ L :: d2)) = Ok (length d1) ->
  ascending 0 good L -> bad < List.last good 0 \/ L < bad -> (Z.of_nat bad < two64)%Z ->
  d1 = [] \/ overflow_checks c = true \/
    (Z.of_nat (prod d1 * prod d2) * Z.of_nat (bad - List.last good 0%nat) < two64)%Z ->
  forall sec, section_cuts L sec = Ok (good ++ bad :: rest) ->
  split_axis c ax t sec = Panic.
Proof.
  intros H Hpos Hax Ha Hbad Hu64 Hov sec Hsec.
  pose proof (repr_supported _ _ _ H) as Hsup. pose proof (supported_len _ Hsup) as Hl6.
  assert (Hm : length (d1 ++ L :: d2) = length d1 + (1 + length d2)) by apply mid_length.
  pose proof (last_ascending _ _ _ Ha) as Hlast.
  unfold split_axis. rewrite (repr_shape _ _ _ H). cbn [rank canon]. rewrite Hax. cbn [bind].
  rewrite dim_canon by lia. cbn [bind]. rewrite nth_mid, Hsec. cbn [bind].
  destruct (Nat.eqb_spec (length d1) 0) as [E0|E0].
  - destruct d1; [|discriminate]. cbn [app] in *.
    destruct (cut_rows_loop c t L d2 xs good 0 [] H Hpos Ha) as (ps & E & _).
    unfold cut_rows. rewrite for_each_app. rewrite E. cbn [bind app for_each].
    replace (bad =? List.last good 0) with false by (symmetry; apply Nat.eqb_neq; lia).
    assert (Q : (let* w := usub c bad (List.last good 0) in subslice c t (List.last good 0) w) = Panic).
    { eapply subslice_bad; eauto. }
    destruct (usub c bad (List.last good 0)) as [w| |]; cbn [bind] in *; try congruence. now rewrite Q.
  - rewrite (split_by_axis_unfold c t d1 L d2 xs) by auto.
    destruct (split_loop c t d1 L d2 xs H Hpos good 0 [] Ha) as (ps & last & E & El & _).
    rewrite for_each_app. rewrite E. cbn [bind app for_each]. rewrite El.
    replace (bad =? List.last good 0) with false by (symmetry; apply Nat.eqb_neq; lia).
    assert (Q : split_piece c t (length d1) (prod d1) (prod d2) L xs (List.last good 0) bad = Panic).
    { destruct Hbad as [Hb|Hb]; [now apply split_piece_decreasing|].
      destruct Hov as [->|Hov]; [cbn in E0; lia|]. now apply split_piece_beyond. }
    now rewrite Q.
Qed.

(** ** Equal sections *)

Lemma equal_cuts_spec fuel len step i cuts :
  0 < step -> len - i <= fuel ->
  equal_cuts fuel len step i cuts = cuts ++ map (fun k => i + (k + 1) * step) (seq 0 ((len - i + step - 1) / step)).
Proof.
  intros Hs. revert i cuts. induction fuel as [|fuel IH]; intros i cuts Hf; cbn [equal_cuts].
  - replace ((len - i + step - 1) / step) with 0; [now rewrite app_nil_r|].
    symmetry. apply Nat.div_small. lia.
  - destruct (Nat.ltb_spec i len) as [Hlt|Hge].
    + rewrite IH by lia. rewrite <- app_assoc. f_equal.
      replace ((len - i + step - 1) / step) with (S ((len - (i + step) + step - 1) / step)).
      * cbn [seq map app]. f_equal; [lia|]. rewrite <- seq_shift, map_map. apply map_ext. intros k. lia.
      * destruct (Nat.le_gt_cases (len - i) step) as [Hle|Hgt].
        -- replace (len - (i + step)) with 0 by lia. rewrite (Nat.div_small (0 + step - 1)) by lia.
           apply Nat.div_unique with (r := len - i - 1); lia.
        -- replace (len - i + step - 1) with ((len - (i + step) + step - 1) + 1 * step) by lia.
           rewrite Nat.div_add by lia. lia.
    + replace ((len - i + step - 1) / step) with 0; [now rewrite app_nil_r|].
      symmetry. apply Nat.div_small. lia.
Qed.

Lemma section_cuts_equal L n :
  0 < L / n -> 0 < n ->
  section_cuts L (SplitEqual n) = Ok (map (fun k => (k + 1) * (L / n)) (seq 0 ((L + L / n - 1) / (L / n)))).
Proof.
  intros Hs Hn. unfold section_cuts. rewrite udiv_ok by lia. cbn [bind].
  rewrite assert_true by (apply Nat.ltb_lt; auto). cbn [bind].
  rewrite equal_cuts_spec by (auto; lia). cbn [app]. rewrite Nat.sub_0_r. reflexivity.
Qed.

Lemma ascending_multiples i m step hi :
  (i + m) * step <= hi -> ascending (i * step) (map (fun k => (k + 1) * step) (seq i m)) hi.
Proof.
  revert i. induction m as [|m IH]; intros i H; cbn [seq map ascending]; [nia|].
  split; [nia|]. replace (i + 1) with (S i) by lia. apply IH. nia.
Qed.

Lemma ranges_multiples i m step :
  0 < step ->
  ranges (i * step) (map (fun k => (k + 1) * step) (seq i m)) = map (fun k => (k * step, (k + 1) * step)) (seq i m).
Proof.
  intros Hs. revert i. induction m as [|m IH]; intros i; cbn [seq map ranges]; auto.
  replace (i * step <? (i + 1) * step) with true by (symmetry; apply Nat.ltb_lt; nia).
  f_equal. replace (i + 1) with (S i) by lia. apply IH.
Qed.

(** [step] divides the axis: pieces of that length. *)
Lemma split_equal_repr {A} c (t : tensor A) d1 L d2 xs ax n step count :
  repr t (d1 ++ L :: d2) xs -> 0 < prod (d1 ++ L :: d2) ->
  axis_from_rank c ax (length (d1 ++ L :: d2)) = Ok (length d1) ->
  0 < n -> step = L / n -> 0 < step -> L = count * step ->
  exists ps, split_axis c ax t (SplitEqual n) = Ok ps /\
    Forall2 (range_of d1 L d2 xs) ps (map (fun k => (k * step, (k + 1) * step)) (seq 0 count)).
Proof.
  intros H Hpos Hax Hn Es Hs EL.
  assert (Hc : (L + step - 1) / step = count).
  { symmetry. apply Nat.div_unique with (r := step - 1); lia. }
  pose proof (section_cuts_equal L n ltac:(lia) Hn) as Hsec. rewrite <- Es, Hc in Hsec.
  destruct (split_cuts_repr c t d1 L d2 xs ax (SplitEqual n) _ H Hpos Hax Hsec) as (ps & E & F).
  - apply (ascending_multiples 0). lia.
  - exists ps. split; auto. rewrite <- (ranges_multiples 0) by auto. exact F.
Qed.

(** [step] does not divide the axis: panic. *)
Lemma split_equal_rejects {A} c (t : tensor A) d1 L d2 xs ax n :
  repr t (d1 ++ L :: d2) xs -> 0 < prod (d1 ++ L :: d2) ->
  axis_from_rank c ax (length (d1 ++ L :: d2)) = Ok (length d1) ->
  n = 0 \/ L / n = 0 \/ L mod (L / n) <> 0 ->
  split_axis c ax t (SplitEqual n) = Panic.
Proof.
  intros H Hpos Hax Hbad. destruct (mid_pos _ _ _ Hpos) as (P1 & PL & P2).
  pose proof (repr_supported _ _ _ H) as Hsup. pose proof (supported_len _ Hsup) as Hl6.
  assert (Hm : length (d1 ++ L :: d2) = length d1 + (1 + length d2)) by apply mid_length.
  assert (Hsimple : section_cuts L (SplitEqual n) = Panic -> split_axis c ax t (SplitEqual n) = Panic).
  { intros E. unfold split_axis. rewrite (repr_shape _ _ _ H). cbn [rank canon]. rewrite Hax. cbn [bind].
    rewrite dim_canon by lia. cbn [bind]. rewrite nth_mid, E. reflexivity. }
  destruct (Nat.eq_dec n 0) as [->|Hn]; [apply Hsimple; reflexivity|].
  destruct (Nat.eq_dec (L / n) 0) as [E0|E0].
  { apply Hsimple. unfold section_cuts. rewrite udiv_ok by lia. cbn [bind]. rewrite E0. reflexivity. }
  destruct Hbad as [?|[?|Hmod]]; [lia|lia|].
  set (step := L / n) in *.
  pose proof (section_cuts_equal L n ltac:(lia) ltac:(lia)) as Hsec. fold step in Hsec.
  set (q := L / step) in *.
  assert (HL : L = q * step + L mod step) by (unfold q; now rewrite div_mod_l).
  pose proof (Nat.mod_upper_bound L step E0) as Hr.
  assert (Hc : (L + step - 1) / step = q + 1).
  { symmetry. apply Nat.div_unique with (r := L mod step - 1); lia. }
  rewrite Hc, seq_app, map_app in Hsec. cbn [seq map Nat.add] in Hsec.
  pose proof (supported_prod _ Hsup) as Hpw. rewrite prod_app in Hpw. cbn [prod] in Hpw.
  assert (HLb : (Z.of_nat L < two32)%Z).
  { eapply supported_in; [exact Hsup|]. apply in_or_app. right. left. reflexivity. }
  assert (Hlast : List.last (map (fun k => (k + 1) * step) (seq 0 q)) 0 = q * step).
  { destruct q as [|q']; [reflexivity|]. replace (S q') with (q' + 1) by lia.
    rewrite seq_app, map_app. cbn [seq map Nat.add]. apply last_last. }
  assert (Hstep : step <= L) by (unfold step; apply Nat.div_le_upper_bound; nia).
  eapply split_bad_cut with (good := map (fun k => (k + 1) * step) (seq 0 q)) (bad := (q + 1) * step) (rest := []);
    eauto.
  - apply (ascending_multiples 0). lia.
  - right. lia.
  - unfold two32, two64 in *. nia.
  - right. right. rewrite Hlast. replace ((q + 1) * step - q * step) with step by lia.
    assert (prod d1 * prod d2 * step <= prod d1 * (L * prod d2)); [|unfold two32, two64 in *; nia].
    rewrite <- Nat.mul_assoc, (Nat.mul_comm (prod d2)). apply Nat.mul_le_mono_l, Nat.mul_le_mono_r. exact Hstep.
Qed.
