(** * Properties of transpose, concatenate, split, stack and tile (C34-C40): proofs *)
From Coq Require Import ZifyBool ZifyNat ZifyN.
From Verif Require Import Base ShapeModel TensorModel AxisModel MapModel ArrayModel Spec BaseFacts
  ShapeFacts ShapeFacts2 CoordFacts TensorFacts TensorFacts2 MapFacts SafeFacts ArrayFacts SplitFacts
  StackFacts.

Ltac Zify.zify_post_hook ::= Z.div_mod_to_equations.

Lemma selects_axis c ax p r : r <= 7 -> selects ax p r -> axis_from_rank c ax r = Ok p.
Proof.
  intros Hr Hs. destruct ax as [a|].
  - now apply axis_from_rank_named.
  - destruct Hs as [-> _]. reflexivity.
Qed.

(** ** C34 *)

Lemma c34_transpose {A} c (t : tensor A) ds r k xs :
  repr t (ds ++ [r; k]) xs -> 0 < prod (ds ++ [r; k]) ->
  exists ys, transpose c t = Ok (fresh (ds ++ [k; r]) ys) /\ length ys = prod (ds ++ [k; r]) /\
    forall i1 j i, in_shape ds i1 -> j < r -> i < k ->
      elem (ds ++ [k; r]) ys (i1 ++ [i; j]) = elem (ds ++ [r; k]) xs (i1 ++ [j; i]).
Proof.
  intros H Hp. pose proof (repr_len _ _ _ H) as Hl. rewrite prod_app in Hp. cbn [prod] in Hp.
  apply transpose_repr; auto; try nia. left. rewrite Hl, prod_app. cbn [prod]. lia.
Qed.

Lemma c34_transpose_vector {A} c (t : tensor A) k xs :
  repr t [k] xs -> 0 < k -> transpose c t = Ok (fresh [k; 1] xs).
Proof. intros H Hk. apply transpose_vector; auto. left. lia. Qed.

Lemma c34_transpose_twice {A} c (t : tensor A) ds r k xs :
  repr t (ds ++ [r; k]) xs -> 0 < prod (ds ++ [r; k]) ->
  (let* u := transpose c t in transpose c u) = Ok (fresh (ds ++ [r; k]) xs).
Proof.
  intros H Hp. pose proof (repr_supported _ _ _ H) as Hs. pose proof (repr_len _ _ _ H) as Hl.
  destruct (c34_transpose c t ds r k xs H Hp) as (ys & E & El & Ev). rewrite E. cbn [bind].
  assert (Hp' : prod (ds ++ [k; r]) = prod (ds ++ [r; k])) by (rewrite !prod_app; cbn [prod]; lia).
  assert (Hs' : supported (ds ++ [k; r])).
  { apply (supported_eq (ds ++ [r; k])); auto.
    - rewrite !app_length in *. destruct Hs as [L _]. rewrite app_length in L. exact L.
    - rewrite !prod1_app. unfold prod1. cbn [map prod]. lia. }
  assert (H' : repr (fresh (ds ++ [k; r]) ys) (ds ++ [k; r]) ys) by (apply repr_fresh; auto; lia).
  destruct (c34_transpose c _ ds k r ys H' ltac:(lia)) as (zs & E2 & El2 & Ev2). rewrite E2.
  do 2 f_equal. apply (elem_ext (ds ++ [r; k])); auto. intros idx Hi.
  destruct (in_shape_app_inv _ _ _ Hi) as [H1 H2].
  remember (skipn (length ds) idx) as tl eqn:Et.
  inversion H2 as [|j ? tl' ? Hj H3]; subst. inversion H3 as [|i ? tl2 ? Hi' H4]; subst. inversion H4; subst.
  rewrite <- (firstn_skipn (length ds) idx). rewrite <- H0.
  rewrite Ev2 by auto. now apply Ev.
Qed.

Lemma c34_transpose_scalar {A} c (t : tensor A) xs : repr t [] xs -> transpose c t = Panic.
Proof. apply transpose_scalar. Qed.

(** ** C35 *)

Lemma c35_concatenate {A} c ax d1 d2 (ts : list (tensor A)) parts :
  parts <> [] -> Forall2 (fun t p => repr t (d1 ++ fst p :: d2) (snd p)) ts parts ->
  selects ax (length d1) (length d1 + 1 + length d2) -> length d2 < 5 ->
  supported (d1 ++ list_sum (map fst parts) :: d2) ->
  can_alloc c (prod (d1 ++ list_sum (map fst parts) :: d2)) ->
  exists ys, concatenate_axis c ax ts = Ok (fresh (d1 ++ list_sum (map fst parts) :: d2) ys) /\
    length ys = prod (d1 ++ list_sum (map fst parts) :: d2) /\
    forall q m xs, nth_error parts q = Some (m, xs) ->
      forall i1 k i2, in_shape d1 i1 -> k < m -> in_shape d2 i2 ->
        elem (d1 ++ list_sum (map fst parts) :: d2) ys
          (i1 ++ (list_sum (firstn q (map fst parts)) + k) :: i2)
        = elem (d1 ++ m :: d2) xs (i1 ++ k :: i2).
Proof.
  intros Hne J Hax Hd2 Hs Hc.
  assert (E : concatenate_axis c ax ts = concat_axis c (length d1) ts).
  { destruct J as [|t [m xs] ts parts H J]; [congruence|]. unfold concatenate_axis.
    cbn [fst snd] in H. pose proof (supported_len _ (repr_supported _ _ _ H)) as Hl.
    rewrite (repr_shape _ _ _ H). cbn [rank canon]. rewrite mid_length in *.
    rewrite (selects_axis c ax (length d1)); [reflexivity|lia|].
    replace (length d1 + (1 + length d2)) with (length d1 + 1 + length d2) by lia. auto. }
  rewrite E. now apply concat_axis_repr.
Qed.

Lemma c35_concatenate_first {A} c (ts : list (tensor A)) :
  concatenate c ts = concatenate_axis c None ts.
Proof. unfold concatenate, concatenate_axis. now destruct ts. Qed.

Lemma c35_concatenate_rejects {A} c ax p (ts : list (tensor A)) parts ds0 xs0 ds xs :
  Forall2 (fun t p => repr t (fst p) (snd p)) ts parts ->
  nth_error parts 0 = Some (ds0, xs0) -> selects ax p (length ds0) -> In (ds, xs) parts ->
  (length ds <> length ds0 \/ exists i, i < length ds0 /\ i <> p /\ nth i ds 0 <> nth i ds0 0) ->
  concatenate_axis c ax ts = Panic.
Proof.
  intros F E0 Hax Hin Hbad. rewrite <- (concat_axis_rejects c p ts parts ds0 xs0 ds xs F E0 Hin Hbad).
  destruct F as [|t0 p0 ts parts H0 F]; [destruct Hin|]. cbn in E0. injection E0 as ->. cbn [fst snd] in H0.
  unfold concatenate_axis. rewrite (repr_shape _ _ _ H0). cbn [rank canon].
  pose proof (supported_len _ (repr_supported _ _ _ H0)).
  rewrite (selects_axis c ax p) by (auto; lia). reflexivity.
Qed.

Lemma c35_concatenate_nothing {A} c ax : @concatenate_axis A c ax [] = Panic.
Proof. reflexivity. Qed.

Lemma c35_concatenate_rank6_refuted :
  exists (t : tensor nat) ds xs, repr t ds xs /\ 0 < prod ds /\ length ds = 6 /\
    concatenate dev [t; t] = Panic /\ concatenate release [t; t] = Panic.
Proof.
  exists (fresh [1; 1; 1; 1; 1; 2] [7; 8]), [1; 1; 1; 1; 1; 2], [7; 8].
  split; [apply repr_fresh; [split; [cbn; lia|cbn; lia]|reflexivity]|].
  repeat split; cbn; try lia; reflexivity.
Qed.

(** ** C36 *)

Lemma ascending_end lo cuts hi : ascending lo cuts hi -> ascending lo (cuts ++ [hi]) hi.
Proof. revert lo. induction cuts as [|k cuts IH]; intros lo; cbn; [auto|]. intros [H1 H2]. auto. Qed.

Lemma c36_split_concatenate {A} c ax (t : tensor A) d1 n d2 xs cuts :
  repr t (d1 ++ n :: d2) xs -> 0 < prod (d1 ++ n :: d2) ->
  selects ax (length d1) (length d1 + 1 + length d2) -> ascending 0 cuts n ->
  exists ps, split_axis c ax t (SplitCuts cuts) = Ok ps /\
    Forall2 (range_of d1 n d2 xs) ps (ranges 0 (cuts ++ [n])) /\
    (length d2 < 5 -> concatenate_axis c ax ps = Ok (fresh (d1 ++ n :: d2) xs)).
Proof.
  intros H Hp Hax Ha. pose proof (repr_supported _ _ _ H) as Hs. pose proof (supported_len _ Hs) as Hl.
  rewrite mid_length in Hl.
  assert (Eax : axis_from_rank c ax (length (d1 ++ n :: d2)) = Ok (length d1)).
  { apply selects_axis; rewrite mid_length; [lia|].
    replace (length d1 + (1 + length d2)) with (length d1 + 1 + length d2) by lia. auto. }
  destruct (split_cuts_repr c t d1 n d2 xs ax (SplitCuts cuts) (cuts ++ [n]) H Hp Eax eq_refl (ascending_end _ _ _ Ha))
    as (ps & E & F).
  exists ps. split; [exact E|]. split; [exact F|]. intros Hd2.
  pose proof (join_ranges c d1 n d2 xs ps cuts Hs (repr_len _ _ _ H) Hp Hd2 (ascending_end _ _ _ Ha) F) as Ej.
  rewrite <- Ej. unfold concatenate_axis.
  destruct (mid_pos _ _ _ Hp) as (_ & Pn & _).
  pose proof (ranges_total 0 cuts n (ascending_end _ _ _ Ha)) as Ht.
  destruct F as [|p [a b] ps rs Hr F].
  - cbn in Ht. lia.
  - destruct Hr as (ys & Hy & _). rewrite (repr_shape _ _ _ Hy). cbn [rank canon].
    replace (axis_from_rank c ax (length (d1 ++ (snd (a, b) - fst (a, b)) :: d2))) with (@Ok nat (length d1));
      [reflexivity|].
    rewrite mid_length in *. now rewrite Eax.
Qed.

Lemma c36_bad_cuts_panic {A} c ax (t : tensor A) d1 n d2 xs good bad rest :
  repr t (d1 ++ n :: d2) xs -> 0 < prod (d1 ++ n :: d2) ->
  selects ax (length d1) (length d1 + 1 + length d2) -> ascending 0 good n ->
  bad < List.last good 0 \/ n < bad -> (Z.of_nat bad < 2 ^ 64)%Z ->
  d1 = [] \/ overflow_checks c = true \/ bad <= n \/
    (Z.of_nat (prod d1 * prod d2) * Z.of_nat (bad - List.last good 0%nat) < 2 ^ 64)%Z ->
  split_axis c ax t (SplitCuts (good ++ bad :: rest)) = Panic.
Proof.
  intros H Hp Hax Ha Hbad Hu Hov. pose proof (repr_supported _ _ _ H) as Hs. pose proof (supported_len _ Hs) as Hl.
  rewrite mid_length in Hl.
  assert (Eax : axis_from_rank c ax (length (d1 ++ n :: d2)) = Ok (length d1)).
  { apply selects_axis; rewrite mid_length; [lia|].
    replace (length d1 + (1 + length d2)) with (length d1 + 1 + length d2) by lia. auto. }
  eapply (split_bad_cut c t d1 n d2 xs ax good bad (rest ++ [n])); eauto.
  - destruct Hov as [?|[?|[Hle|?]]]; auto. right. right.
    replace (bad - List.last good 0) with 0 by lia. unfold two64. lia.
  - cbn [section_cuts]. now rewrite <- app_assoc.
Qed.

Lemma c36_release_overflow_refuted :
  exists (t : tensor nat) ds xs cut, repr t ds xs /\ 0 < prod ds /\ (Z.of_nat cut < 2 ^ 64)%Z /\
    nth 1 ds 0 < cut /\ split_axis release (Some 1%Z) t (SplitCuts [cut]) = Ub.
Proof.
  destruct (Z_of_nat_complete (9223372036854775807)) as [o Ho]; [lia|].
  exists (fresh [1; 2; 2] [1; 2; 3; 4]), [1; 2; 2], [1; 2; 3; 4], (S (S o)).
  split; [apply repr_fresh; [split; cbn; lia|reflexivity]|].
  split; [cbn; lia|]. split; [lia|]. split; [cbn; lia|].
  unfold split_axis. cbn [tshape fresh rank canon length].
  rewrite (axis_from_rank_named release 1 1 3) by (try split; lia). cbn [bind].
  fold (canon [1; 2; 2]). rewrite dim_canon by (cbn; lia). cbn [bind nth section_cuts app].
  change (1 =? 0) with false. cbn [bind].
  rewrite (split_by_axis_unfold release (fresh [1; 2; 2] [1; 2; 3; 4]) [1] 2 [2] [1; 2; 3; 4]).
  2:{ apply repr_fresh; [split; cbn; lia|reflexivity]. }
  cbn [for_each]. replace (S (S o) =? 0) with false by reflexivity.
  match goal with |- context [split_piece ?a ?b ?d ?e ?f ?g ?h ?i ?j] =>
    assert (E : split_piece a b d e f g h i j = Ub) end.
  2:{ rewrite E. reflexivity. }
  unfold split_piece. cbn [tshape fresh rank].
  rewrite push_dims_canon by (cbn; lia). cbn [bind length Nat.sub skipn firstn app].
  rewrite usub_ok by (unfold two64; lia). cbn [bind]. rewrite Nat.sub_0_r.
  rewrite push_dims_canon by (cbn; lia). cbn [bind length Nat.sub Nat.add rank canon skipn firstn app prod].
  change (3 - 2) with 1. cbn [firstn].
  rewrite umul_ok by (unfold two64; lia). cbn [bind].
  assert (El : umul release (1 * 1 * (2 * 1)) (S (S o)) = Ok 2).
  { unfold umul. rewrite arith_wrap; [|unfold two64; lia|reflexivity].
    replace (Z.of_nat (1 * 1 * (2 * 1)) * Z.of_nat (S (S o)))%Z with (2 + 1 * two64)%Z by (unfold two64; lia).
    rewrite Z_mod_plus_full. reflexivity. }
  replace (S (S o) - 0) with (S (S o)) by lia.
  rewrite El. cbn [bind].
  rewrite from_vec_dims_canon.
  2:{ cbn; lia. }
  2:{ repeat constructor; lia. }
  cbn [bind]. unfold unsafe_init_, unsafe_init, alloc.
  change (two63 <=? Z.of_nat 2)%Z with false. change ((2 =? 0) && negb (zero_alloc_ok release)) with false.
  cbn [bind repeat]. unfold for_, for_range. cbn [for_from Nat.mul Nat.add]. rewrite Nat.sub_0_r.
  cbn [for_from aget nth_error bind Nat.mul Nat.add].
  change (0 - 0) with 0. change (1 - 0) with 1. cbn [Nat.mul Nat.add].
  unfold write. cbn [length]. change (0 <? 2) with true. cbn [bind set_nth length].
  change (1 <? 2) with true. cbn [bind set_nth length]. change (2 <? 2) with false. reflexivity.
Qed.

Lemma c36_empty_refuted :
  exists (t : tensor nat) ds, repr t ds [] /\ split_axis dev None t (SplitCuts []) = Ok [] /\
    @concatenate_axis nat dev None [] = Panic.
Proof.
  exists (fresh [0] []), [0].
  split; [apply repr_fresh; [split; cbn; lia|reflexivity]|]. split; reflexivity.
Qed.

(** ** C37 *)

Lemma c37_split_equal {A} c ax (t : tensor A) d1 n m d2 xs :
  repr t (d1 ++ (n * m) :: d2) xs -> 0 < prod (d1 ++ (n * m) :: d2) ->
  selects ax (length d1) (length d1 + 1 + length d2) ->
  exists ps, split_axis c ax t (SplitEqual n) = Ok ps /\ length ps = n /\
    Forall2 (range_of d1 (n * m) d2 xs) ps (map (fun i => (i * m, (i + 1) * m)) (seq 0 n)).
Proof.
  intros H Hp Hax. destruct (mid_pos _ _ _ Hp) as (_ & Pn & _).
  pose proof (supported_len _ (repr_supported _ _ _ H)) as Hl. rewrite mid_length in Hl.
  destruct (split_equal_repr c t d1 (n * m) d2 xs ax n m n H Hp) as (ps & E & F); auto; try nia.
  - apply selects_axis; rewrite mid_length; [lia|].
    replace (length d1 + (1 + length d2)) with (length d1 + 1 + length d2) by lia. auto.
  - exists ps. split; auto. split; auto.
    clear -F. remember (map _ _) as l eqn:E. replace n with (length l) by (rewrite E, map_length, seq_length; auto).
    clear E. induction F; cbn; auto.
Qed.

Lemma c37_split_sections {A} c ax (t : tensor A) d1 len d2 xs n :
  repr t (d1 ++ len :: d2) xs -> 0 < prod (d1 ++ len :: d2) ->
  selects ax (length d1) (length d1 + 1 + length d2) ->
  (n = 0 \/ len < n \/ ~ Nat.divide (len / n) len -> split_axis c ax t (SplitEqual n) = Panic) /\
  (forall step count, 0 < n <= len -> step = len / n -> len = count * step ->
    exists ps, split_axis c ax t (SplitEqual n) = Ok ps /\
      Forall2 (range_of d1 len d2 xs) ps (map (fun i => (i * step, (i + 1) * step)) (seq 0 count))).
Proof.
  intros H Hp Hax. pose proof (supported_len _ (repr_supported _ _ _ H)) as Hl. rewrite mid_length in Hl.
  assert (Eax : axis_from_rank c ax (length (d1 ++ len :: d2)) = Ok (length d1)).
  { apply selects_axis; rewrite mid_length; [lia|].
    replace (length d1 + (1 + length d2)) with (length d1 + 1 + length d2) by lia. auto. }
  split.
  - intros Hbad. eapply split_equal_rejects; eauto.
    destruct (Nat.eq_dec n 0) as [|Hn]; [auto|].
    destruct Hbad as [|[Hlt|Hd]]; [lia| |].
    + right. left. now apply Nat.div_small.
    + destruct (Nat.eq_dec (len / n) 0) as [|H0]; [auto|]. right. right. intros Hm. apply Hd.
      now apply Nat.mod_divide.
  - intros step count Hn Es El. eapply split_equal_repr; eauto; [lia|].
    rewrite Es. apply Nat.div_str_pos. lia.
Qed.

Lemma c37_split_equal_refuted :
  exists (t : tensor nat) n ps, split dev t (SplitEqual n) = Ok ps /\ length ps <> n /\
    repr t [6] [1; 2; 3; 4; 5; 6] /\ n = 4.
Proof.
  exists (fresh [6] [1; 2; 3; 4; 5; 6]), 4. eexists. split; [reflexivity|]. split; [discriminate|].
  split; [|reflexivity]. apply repr_fresh; [split; cbn; lia|reflexivity].
Qed.

(** ** C38 *)

Lemma c38_stack {A} c ax d1 d2 (ts : list (tensor A)) xss :
  xss <> [] -> Forall2 (fun t xs => repr t (d1 ++ d2) xs) ts xss ->
  selects ax (length d1) (length d1 + length d2 + 1) ->
  0 < prod (d1 ++ d2) -> length d2 < 5 -> supported (d1 ++ length xss :: d2) ->
  exists ys, stack_axis c ax ts = Ok (fresh (d1 ++ length xss :: d2) ys) /\
    length ys = prod (d1 ++ length xss :: d2) /\
    forall q xs, nth_error xss q = Some xs ->
      forall i1 i2, in_shape d1 i1 -> in_shape d2 i2 ->
        elem (d1 ++ length xss :: d2) ys (i1 ++ q :: i2) = elem (d1 ++ d2) xs (i1 ++ i2).
Proof.
  intros Hne F Hax Hp Hd2 Hs. pose proof (supported_len _ Hs) as Hl. rewrite mid_length in Hl.
  assert (0 < length xss) by (destruct xss; [congruence|cbn; lia]).
  rewrite prod_app in Hp.
  apply stack_vec_repr; auto.
  - apply selects_axis; rewrite app_length; [lia|auto].
  - nia.
  - left. rewrite prod_app. cbn [prod]. nia.
Qed.

Lemma c38_stack_rejects {A} c ax (ts : list (tensor A)) parts ds0 xs0 ds xs :
  Forall2 (fun t p => repr t (fst p) (snd p)) ts parts ->
  nth_error parts 0 = Some (ds0, xs0) -> In (ds, xs) parts -> ds <> ds0 ->
  stack_axis c ax ts = Panic.
Proof. apply stack_rejects. Qed.

Lemma c38_stack_first {A} c (ts : list (tensor A)) : stack c ts = stack_axis c None ts.
Proof. reflexivity. Qed.

Lemma c38_vstack {A} c ds (ts : list (tensor A)) xss :
  xss <> [] -> Forall2 (fun t xs => repr t ds xs) ts xss ->
  0 < prod ds -> length ds < 5 -> supported (length xss :: ds) ->
  vstack c ts = stack_axis c (Some 0%Z) ts /\
  exists ys, vstack c ts = Ok (fresh (length xss :: ds) ys).
Proof.
  intros Hne F Hp Hl Hs.
  assert (0 < length xss) by (destruct xss; [congruence|cbn; lia]).
  destruct (vstack_repr c ds ts xss Hne F Hl Hs) as (ys & E & El & Ev).
  { left. cbn [prod]. nia. }
  destruct (c38_stack c (Some 0%Z) [] ds ts xss Hne F) as (zs & E' & El' & Ev'); auto.
  { cbn. split; lia. }
  split; [|eauto]. cbn [app] in *. rewrite E, E'. do 2 f_equal.
  apply (elem_ext (length xss :: ds)); auto. intros idx Hi.
  inversion Hi as [|q ? i ? Hq Hi']; subst.
  destruct (nth_error_lt_ex xss q Hq) as [xs Ex].
  rewrite (Ev q xs Ex i Hi'). symmetry. exact (Ev' q xs Ex [] i (Forall2_nil _) Hi').
Qed.

Lemma c38_hstack {A} c (t : tensor A) ts ds xs :
  repr t ds xs ->
  hstack c (t :: ts) = concatenate_axis c (Some (if length ds =? 1 then 0%Z else 1%Z)) (t :: ts).
Proof.
  intros H. unfold hstack. cbn [aget nth_error bind]. rewrite (repr_shape _ _ _ H). cbn [rank canon].
  now destruct (length ds =? 1).
Qed.

Lemma c38_dstack_matrix {A} c r k (ts : list (tensor A)) xss :
  xss <> [] -> Forall2 (fun t xs => repr t [r; k] xs) ts xss -> 0 < r -> 0 < k ->
  supported [r; k; length xss] ->
  exists ys, dstack c ts = Ok (fresh [r; k; length xss] ys) /\
    length ys = prod [r; k; length xss] /\
    forall q xs, nth_error xss q = Some xs -> forall i j, i < r -> j < k ->
      elem [r; k; length xss] ys [i; j; q] = elem [r; k] xs [i; j].
Proof.
  intros Hne F Hr Hk Hs.
  assert (0 < length xss) by (destruct xss; [congruence|cbn; lia]).
  destruct (dstack_low_repr c [r; k] [r; k] ts xss Hne F) as (ys & E & El & Ev); auto.
  { right. eauto. }
  { left. cbn [app prod]. nia. }
  exists ys. split; [exact E|]. split; [exact El|]. intros q xs Hq i j Hi Hj.
  apply (Ev q xs Hq [i; j]). repeat constructor; auto.
Qed.

Lemma c38_dstack_vector {A} c k (ts : list (tensor A)) xss :
  xss <> [] -> Forall2 (fun t xs => repr t [k] xs) ts xss -> 0 < k ->
  supported [1; k; length xss] ->
  exists ys, dstack c ts = Ok (fresh [1; k; length xss] ys) /\
    length ys = prod [1; k; length xss] /\
    forall q xs, nth_error xss q = Some xs -> forall j, j < k ->
      elem [1; k; length xss] ys [0; j; q] = nth_error xs j.
Proof.
  intros Hne F Hk Hs.
  assert (0 < length xss) by (destruct xss; [congruence|cbn; lia]).
  destruct (dstack_low_repr c [k] [1; k] ts xss Hne F) as (ys & E & El & Ev); auto.
  { left. eauto. }
  { left. cbn [app prod]. nia. }
  exists ys. split; [exact E|]. split; [exact El|]. intros q xs Hq j Hj.
  transitivity (nth_error xs (ravel [1; k] [0; j])).
  - apply (Ev q xs Hq [0; j]). repeat constructor; auto.
  - f_equal. cbn. lia.
Qed.

Lemma c38_dstack_high {A} c ds (ts : list (tensor A)) xss :
  xss <> [] -> Forall2 (fun t xs => repr t ds xs) ts xss -> 2 < length ds ->
  dstack c ts = concatenate_axis c (Some 2%Z) ts.
Proof.
  intros Hne F Hl. destruct (dstack_list c ds ds ts xss Hne F) as [E _]; auto.
  rewrite E. f_equal. clear E Hne. induction F as [|t xs ts xss H F IH]; cbn [map]; auto.
  rewrite IH. f_equal. unfold reshaped. rewrite <- (repr_shape _ _ _ H). now destruct t.
Qed.

Lemma c38_stack_rank5_refuted :
  exists (t : tensor nat) ds xs, repr t ds xs /\ 0 < prod ds /\ length ds = 5 /\
    stack dev [t; t] = Panic /\ stack release [t; t] = Panic /\ vstack dev [t; t] = Panic.
Proof.
  exists (fresh [1; 1; 1; 1; 2] [7; 8]), [1; 1; 1; 1; 2], [7; 8].
  split; [apply repr_fresh; [split; [cbn; lia|cbn; lia]|reflexivity]|].
  repeat split; cbn; try lia; reflexivity.
Qed.

Lemma c38_stack_empty_refuted :
  exists (t : tensor nat) ds, repr t ds [] /\ stack dev [t; t] = Panic /\
    exists u, vstack dev [t; t] = Ok u.
Proof.
  exists (fresh [0] []), [0].
  split; [apply repr_fresh; [split; [cbn; lia|cbn; lia]|reflexivity]|].
  split; [reflexivity|]. eexists. reflexivity.
Qed.

(** ** C39 *)

Lemma c39_unstack_actual {A} c ax (t : tensor A) d1 n d2 xs :
  repr t (d1 ++ n :: d2) xs -> 0 < prod (d1 ++ n :: d2) ->
  selects ax (length d1) (length d1 + 1 + length d2) ->
  (d1 = [] -> unstack c ax t = Ok []) /\
  (d1 <> [] -> exists u, unstack c ax t = Ok [u] /\ repr u (d1 ++ n :: d2) xs).
Proof.
  intros H Hp Hax. pose proof (repr_supported _ _ _ H) as Hs. pose proof (supported_len _ Hs) as Hl.
  rewrite mid_length in Hl. destruct (mid_pos _ _ _ Hp) as (_ & Pn & _).
  assert (Eax : axis_from_rank c ax (length (d1 ++ n :: d2)) = Ok (length d1)).
  { apply selects_axis; rewrite mid_length; [lia|].
    replace (length d1 + (1 + length d2)) with (length d1 + 1 + length d2) by lia. auto. }
  unfold unstack. rewrite (repr_shape _ _ _ H). cbn [rank canon]. rewrite Eax. cbn [bind]. split.
  - intros ->. reflexivity.
  - intros Hd. assert (E0 : length d1 <> 0) by (destruct d1; [congruence|discriminate]).
    replace (length d1 =? 0) with false by (symmetry; now apply Nat.eqb_neq).
    destruct (c36_split_concatenate c (Some (Z.of_nat (length d1))) t d1 n d2 xs [] H Hp) as (ps & E & F & _).
    + split; [lia|auto].
    + cbn. lia.
    + cbn [app ranges] in F. replace (0 <? n) with true in F by (symmetry; now apply Nat.ltb_lt).
      inversion F as [|u r ps' rs Hu F']; subst. inversion F'; subst. exists u. split; [exact E|].
      destruct Hu as (ys & Hr & He). cbn [fst snd] in *. rewrite Nat.sub_0_r in *.
      replace ys with xs in Hr; [exact Hr|].
      apply (elem_ext (d1 ++ n :: d2)); [apply H|apply Hr|]. intros idx Hi.
      destruct (in_shape_mid _ _ _ _ Hi) as (i1 & k & i2 & -> & H1 & Hk & H2).
      symmetry. rewrite He; auto.
Qed.

Lemma c39_unstack_refuted :
  exists (ts : list (tensor nat)) t, stack dev ts = Ok t /\ unstack dev None t = Ok [] /\ ts <> [].
Proof.
  exists [fresh [2] [1; 2]; fresh [2] [3; 4]], (fresh [2; 2] [1; 2; 3; 4]).
  split; [reflexivity|]. split; [reflexivity|discriminate].
Qed.

(** ** C40 *)

Lemma c40_tile {A} c (t : tensor A) ds xs mt ms r :
  repr t ds xs -> repr mt [length ms] ms -> 0 < prod ds -> 0 < prod ms ->
  r = Nat.max (length ds) (length ms) -> 0 < r ->
  supported (zip_with Nat.mul (pad_to r ds) (pad_to r ms)) ->
  exists ys, tile c t mt = Ok (fresh (zip_with Nat.mul (pad_to r ds) (pad_to r ms)) ys) /\
    length ys = prod (zip_with Nat.mul (pad_to r ds) (pad_to r ms)) /\
    forall idx, in_shape (zip_with Nat.mul (pad_to r ds) (pad_to r ms)) idx ->
      elem (zip_with Nat.mul (pad_to r ds) (pad_to r ms)) ys idx
      = elem ds xs (zip_with Nat.modulo (skipn (r - length ds) idx) ds).
Proof. apply tile_repr. Qed.

Lemma c40_tile_zero_refuted :
  tile dev (fresh [2] [1; 2]) (fresh [1] [0]) = Panic /\
  tile dev (fresh [2] [1; 2]) (fresh [] [2]) = Panic.
Proof. split; reflexivity. Qed.

Lemma c40_tile_matrix_multiples_refuted :
  exists (t : tensor nat) mt, repr t [3] [1; 2; 3] /\ repr mt [1; 2] [2; 2] /\ tile dev t mt = Ub.
Proof.
  exists (fresh [3] [1; 2; 3]), (fresh [1; 2] [2; 2]).
  split; [apply repr_fresh; [split; cbn; lia|reflexivity]|].
  split; [apply repr_fresh; [split; cbn; lia|reflexivity]|]. reflexivity.
Qed.
