(** * C79: operations compose *)
From Verif Require Import Base ShapeModel TensorModel AxisModel MapModel ArrayModel Spec ShapeSpec TensorSpec MapSpec ComposeSpec
  BaseFacts ShapeFacts ShapeProofs CoordFacts TensorFacts MapFacts ArrayFacts SplitFacts StackFacts TensorProofs MapProofs ArrayProofs MathFacts.
Import TensorModel.

(** ** Joining *)

(** [ys] holds the parts side by side. *)
Definition joins {A} (d1 d2 : list nat) (parts : list (nat * list A)) (ys : list A) : Prop :=
  length ys = prod (d1 ++ list_sum (map fst parts) :: d2) /\
  forall q m xs, nth_error parts q = Some (m, xs) ->
    forall i1 k i2, in_shape d1 i1 -> k < m -> in_shape d2 i2 ->
      elem (d1 ++ list_sum (map fst parts) :: d2) ys
        (i1 ++ (list_sum (firstn q (map fst parts)) + k) :: i2)
      = elem (d1 ++ m :: d2) xs (i1 ++ k :: i2).

Lemma joins_unique {A} d1 d2 parts (ys zs : list A) : joins d1 d2 parts ys -> joins d1 d2 parts zs -> ys = zs.
Proof.
  intros [Ly Hy] [Lz Hz]. apply (elem_ext (d1 ++ list_sum (map fst parts) :: d2)); auto. intros idx Hi.
  destruct (in_shape_mid _ _ _ _ Hi) as (i1 & k & i2 & -> & H1 & Hk & H2).
  destruct (sum_find (map fst parts) k Hk) as (q & w & Eq & B).
  rewrite nth_error_map in Eq. destruct (nth_error parts q) as [[w' xs]|] eqn:Ep; cbn in Eq; [|discriminate].
  injection Eq as ->.
  specialize (Hy q w xs Ep i1 (k - list_sum (firstn q (map fst parts))) i2 H1 ltac:(lia) H2).
  specialize (Hz q w xs Ep i1 (k - list_sum (firstn q (map fst parts))) i2 H1 ltac:(lia) H2).
  replace (list_sum (firstn q (map fst parts)) + (k - list_sum (firstn q (map fst parts)))) with k in * by lia.
  congruence.
Qed.

Lemma joins_concat {A} c ax d1 d2 (ts : list (tensor A)) parts :
  parts <> [] -> Forall2 (fun t p => repr t (d1 ++ fst p :: d2) (snd p)) ts parts ->
  selects ax (length d1) (length d1 + 1 + length d2) -> length d2 < 5 ->
  supported (d1 ++ list_sum (map fst parts) :: d2) ->
  can_alloc c (prod (d1 ++ list_sum (map fst parts) :: d2)) ->
  exists ys, concatenate_axis c ax ts = Ok (fresh (d1 ++ list_sum (map fst parts) :: d2) ys) /\ joins d1 d2 parts ys.
Proof.
  intros Hn F Hax Hd Hs Ha. destruct (c35_concatenate c ax d1 d2 ts parts Hn F Hax Hd Hs Ha) as (ys & E & J).
  exists ys. split; [exact E|exact J].
Qed.

Lemma list_sum_app' a b : list_sum (a ++ b) = list_sum a + list_sum b.
Proof. apply list_sum_app. Qed.

(** A member of the flattened list is a member of a group. *)
Lemma concat_find {A} (pss : list (list (nat * A))) q p :
  nth_error (concat pss) q = Some p ->
  exists g q' ps, nth_error pss g = Some ps /\ nth_error ps q' = Some p /\
    list_sum (firstn q (map fst (concat pss)))
    = list_sum (firstn g (map (fun ps => list_sum (map fst ps)) pss)) + list_sum (firstn q' (map fst ps)).
Proof.
  revert q. induction pss as [|ps pss IH]; intros q E; [destruct q; discriminate|].
  cbn [concat] in *. destruct (Nat.lt_ge_cases q (length ps)) as [L|L].
  - rewrite nth_error_app1 in E by auto. exists 0, q, ps. cbn [nth_error firstn]. split; [auto|]. split; [auto|].
    rewrite map_app, firstn_app, map_length. replace (q - length ps) with 0 by lia. cbn [firstn]. now rewrite app_nil_r.
  - rewrite nth_error_app2 in E by auto. destruct (IH _ E) as (g & q' & ps' & E1 & E2 & E3).
    exists (S g), q', ps'. split; [auto|]. split; [auto|].
    rewrite map_app, firstn_app, map_length, list_sum_app', E3.
    rewrite firstn_all2 by (rewrite map_length; lia). cbn [map firstn].
    change (list_sum (?a :: ?l)) with (a + list_sum l). lia.
Qed.

Lemma sum_concat {A} (pss : list (list (nat * A))) :
  list_sum (map fst (concat pss)) = list_sum (map (fun ps => list_sum (map fst ps)) pss).
Proof.
  induction pss as [|ps pss IH]; auto. cbn [concat map]. rewrite map_app, list_sum_app', IH. reflexivity.
Qed.

Lemma joins_groups {A} d1 d2 (pss : list (list (nat * list A))) yss zs :
  Forall2 (joins d1 d2) pss yss ->
  joins d1 d2 (combine (map (fun ps => list_sum (map fst ps)) pss) yss) zs ->
  joins d1 d2 (concat pss) zs.
Proof.
  intros F [Lz Hz].
  assert (Ef : map fst (combine (map (fun ps => list_sum (map fst ps)) pss) yss) = map (fun ps => list_sum (map fst ps)) pss).
  { clear -F. induction F; cbn; auto. now rewrite IHF. }
  rewrite Ef in *. rewrite <- sum_concat in *. split; [exact Lz|].
  intros q m xs E i1 k i2 H1 Hk H2.
  destruct (concat_find pss q (m, xs) E) as (g & q' & ps & E1 & E2 & ->).
  assert (Ey : exists ys, nth_error yss g = Some ys /\ joins d1 d2 ps ys).
  { clear -F E1. revert g E1. induction F; intros [|g] E1; try discriminate; cbn in *.
    - injection E1 as <-. eauto.
    - auto. }
  destruct Ey as (ys & E3 & [Ly Hy]).
  pose proof (sum_firstn_le (map fst ps) q' m) as Hle.
  rewrite nth_error_map, E2 in Hle. specialize (Hle eq_refl).
  specialize (Hz g (list_sum (map fst ps)) ys).
  rewrite MapFacts.combine_nth_error, nth_error_map, E1, E3 in Hz. cbn [option_map] in Hz.
  specialize (Hz eq_refl i1 (list_sum (firstn q' (map fst ps)) + k) i2 H1 ltac:(lia) H2).
  rewrite <- Nat.add_assoc, Hz. now apply (Hy q' m xs).
Qed.

Lemma supported_smaller d1 m n d2 : m <= n -> supported (d1 ++ n :: d2) -> supported (d1 ++ m :: d2).
Proof.
  intros H [L P]. split; [now rewrite app_length in *|].
  rewrite map_app, prod_app in *. cbn [map prod] in *.
  eapply Z.le_lt_trans; [|exact P]. apply Nat2Z.inj_le.
  apply Nat.mul_le_mono_l, Nat.mul_le_mono_r. lia.
Qed.

Lemma c79_concatenate_groups {A} c ax d1 d2 (tss : list (list (tensor A))) pss :
  pss <> [] -> Forall (fun ps => ps <> [] /\ can_alloc c (prod (d1 ++ list_sum (map fst ps) :: d2))) pss ->
  Forall2 (Forall2 (fun t p => repr t (d1 ++ fst p :: d2) (snd p))) tss pss ->
  selects ax (length d1) (length d1 + 1 + length d2) -> length d2 < 5 ->
  supported (d1 ++ list_sum (map fst (concat pss)) :: d2) ->
  can_alloc c (prod (d1 ++ list_sum (map fst (concat pss)) :: d2)) ->
  (let* us := map_out (concatenate_axis c ax) tss in concatenate_axis c ax us)
  = concatenate_axis c ax (concat tss).
Proof.
  intros Hn Hg F Hax Hd Hs Ha.
  assert (Hs1 : Forall (fun ps => supported (d1 ++ list_sum (map fst ps) :: d2)) pss).
  { rewrite Forall_forall. intros ps Hin. revert Hs. apply supported_smaller. rewrite sum_concat.
    clear -Hin. induction pss as [|x pss IH]; [destruct Hin|]. cbn [map]. change (list_sum (?a :: ?l)) with (a + list_sum l).
    destruct Hin as [->|Hin]; [lia|]. specialize (IH Hin). lia. }
  assert (G : exists us yss, map_out (concatenate_axis c ax) tss = Ok us /\ Forall2 (joins d1 d2) pss yss /\
     Forall2 (fun t p => repr t (d1 ++ fst p :: d2) (snd p)) us (combine (map (fun ps => list_sum (map fst ps)) pss) yss)).
  { clear Hn Hs Ha. revert Hg Hs1. induction F as [|ts ps tss pss F1 F IH]; intros Hg Hs1.
    - exists [], []. split; [reflexivity|]. split; constructor.
    - inversion Hg as [|? ? [Hn Ha] Hg']; subst. inversion Hs1 as [|? ? Hs Hs1']; subst.
      destruct (IH Hg' Hs1') as (us & yss & E & J & R).
      destruct (joins_concat c ax d1 d2 ts ps Hn F1 Hax Hd Hs Ha) as (ys & E1 & J1).
      exists (fresh (d1 ++ list_sum (map fst ps) :: d2) ys :: us), (ys :: yss).
      cbn [map_out map combine]. rewrite E1. cbn [bind]. rewrite E. split; [reflexivity|]. split; [now constructor|].
      constructor; auto. cbn [fst snd]. apply repr_fresh; auto. apply J1. }
  destruct G as (us & yss & E & J & R). rewrite E. cbn [bind].
  assert (Ef : map fst (combine (map (fun ps => list_sum (map fst ps)) pss) yss) = map (fun ps => list_sum (map fst ps)) pss).
  { clear -J. induction J; cbn; auto. now rewrite IHJ. }
  destruct (joins_concat c ax d1 d2 us (combine (map (fun ps => list_sum (map fst ps)) pss) yss)) as (zs & E2 & J2); auto.
  - destruct pss; [congruence|]. inversion J; subst. discriminate.
  - now rewrite Ef, <- sum_concat.
  - now rewrite Ef, <- sum_concat.
  - pose proof (joins_groups _ _ _ _ _ J J2) as J3.
    destruct (joins_concat c ax d1 d2 (concat tss) (concat pss)) as (ws & E4 & J4); auto.
    + destruct pss as [|ps pss]; [congruence|]. inversion Hg as [|? ? [Hp _] _]; subst.
      destruct ps; [congruence|discriminate].
    + clear -F. induction F; cbn; auto. now apply Forall2_app.
    + rewrite E2, E4, Ef, <- sum_concat. do 2 f_equal. exact (joins_unique _ _ _ _ _ J3 J4).
Qed.

(** ** Cutting at the joints *)

Lemma nth_error_skipn_cons {A} (l : list A) n x : nth_error l n = Some x -> skipn n l = x :: skipn (S n) l.
Proof.
  revert n. induction l as [|y l IH]; intros [|n] E; try discriminate; cbn in *; [now injection E as ->|auto].
Qed.


Lemma joints_cuts lo m ms : Forall (fun m => 0 < m) (m :: ms) ->
  ascending lo (joints lo (m :: ms)) (lo + list_sum (m :: ms)) /\
  ranges lo (joints lo (m :: ms) ++ [lo + list_sum (m :: ms)])
  = map (fun q => (lo + list_sum (firstn q (m :: ms)), lo + list_sum (firstn q (m :: ms)) + nth q (m :: ms) 0)) (seq 0 (length (m :: ms))).
Proof.
  revert lo m. induction ms as [|n ms IH]; intros lo m F; inversion F as [|? ? Hm F']; subst.
  - cbn. split; [lia|]. replace (lo <? lo + (m + 0)) with true by (symmetry; apply Nat.ltb_lt; lia).
    do 2 f_equal; f_equal; lia.
  - destruct (IH (lo + m) n F') as [Ia Ir]. change (joints lo (m :: n :: ms)) with (lo + m :: joints (lo + m) (n :: ms)).
    change (list_sum (m :: n :: ms)) with (m + list_sum (n :: ms)). rewrite Nat.add_assoc. split.
    + cbn [ascending]. split; [lia|exact Ia].
    + cbn [app ranges]. replace (lo <? lo + m) with true by (symmetry; apply Nat.ltb_lt; lia).
      rewrite Ir. change (length (m :: n :: ms)) with (S (length (n :: ms))). generalize (length (n :: ms)). intros len.
      cbn [seq map]. f_equal; [cbn [firstn nth list_sum fold_right]; f_equal; lia|].
      rewrite <- seq_shift, map_map.
      apply map_ext. intros q. cbn [firstn nth]. change (list_sum (m :: ?l)) with (m + list_sum l). f_equal; lia.
Qed.

Lemma c79_split_joints {A} c ax d1 d2 (ts : list (tensor A)) parts :
  parts <> [] -> Forall2 (fun t p => repr t (d1 ++ fst p :: d2) (snd p)) ts parts ->
  Forall (fun p => 0 < fst p) parts -> 0 < prod (d1 ++ d2) ->
  selects ax (length d1) (length d1 + 1 + length d2) -> length d2 < 5 ->
  supported (d1 ++ list_sum (map fst parts) :: d2) ->
  exists u ps, concatenate_axis c ax ts = Ok u /\ split_axis c ax u (SplitCuts (joints 0 (map fst parts))) = Ok ps /\
    Forall2 (fun t p => repr t (d1 ++ fst p :: d2) (snd p)) ps parts.
Proof.
  intros Hn F Hp Hpos Hax Hd Hs.
  assert (Hsum : 0 < list_sum (map fst parts)).
  { destruct Hp; [congruence|]. cbn [map]. change (list_sum (?a :: ?l)) with (a + list_sum l). lia. }
  assert (Hpw : 0 < prod (d1 ++ list_sum (map fst parts) :: d2)).
  { rewrite prod_app in *. cbn [prod]. destruct (Nat.eq_0_gt_0_cases (prod d1 * (list_sum (map fst parts) * prod d2))); [|auto].
    apply Nat.mul_eq_0 in H as [H|H]; [rewrite H in Hpos; cbn in Hpos; lia|].
    apply Nat.mul_eq_0 in H as [H|H]; [lia|]. rewrite H, Nat.mul_0_r in Hpos. lia. }
  destruct (joins_concat c ax d1 d2 ts parts Hn F Hax Hd Hs) as (ys & E & J); [left; lia|].
  destruct parts as [|[m xs] parts]; [congruence|]. cbn [map fst] in *.
  destruct (joints_cuts 0 m (map fst parts)) as [Ja Jr].
  { change (m :: map fst parts) with (map fst ((m, xs) :: parts)). now apply Forall_map. }
  rewrite Nat.add_0_l in *.
  destruct (c36_split_concatenate c ax (fresh (d1 ++ list_sum (m :: map fst parts) :: d2) ys) d1 (list_sum (m :: map fst parts)) d2 ys
    (joints 0 (m :: map fst parts))) as (ps & E2 & R & _); auto.
  { apply repr_fresh; auto. apply J. }
  eexists. exists ps. split; [exact E|]. split; [exact E2|]. rewrite Jr in R.
  change (m :: map fst parts) with (map fst ((m, xs) :: parts)) in *. rewrite map_length in R.
  set (P := (m, xs) :: parts) in *. destruct J as [Lj Hj].
  assert (Hsm : Forall (fun p => length (snd p) = prod (d1 ++ fst p :: d2)) P).
  { clear -F. induction F as [|? ? ? ? H]; constructor; auto. apply H. }
  clearbody P. clear -R Hj Hsm.
  assert (G : forall n ps, Forall2 (range_of d1 (list_sum (map fst P)) d2 ys) ps
      (map (fun q => (0 + list_sum (firstn q (map fst P)), 0 + list_sum (firstn q (map fst P)) + nth q (map fst P) 0)) (seq n (length P - n))) ->
      Forall2 (fun t p => repr t (d1 ++ fst p :: d2) (snd p)) ps (skipn n P)).
  { intros n. remember (length P - n) as k eqn:Ek. revert n Ek. induction k as [|k IH]; intros n Ek ps' R'.
    - cbn in R'. inversion R'; subst. rewrite skipn_all2 by lia. constructor.
    - cbn [seq map] in R'. inversion R' as [|t r ps'' rs Hr R'']; subst.
      destruct (nth_error P n) as [[m xs]|] eqn:En; [|apply nth_error_None in En; lia].
      rewrite (nth_error_skipn_cons _ _ _ En). constructor.
      + destruct Hr as (zs & Hz & He). cbn [fst snd] in *.
        assert (Em : nth n (map fst P) 0 = m) by (rewrite (nth_error_nth (map fst P) n 0 (x := m)); auto; rewrite nth_error_map, En; reflexivity).
        rewrite Em in *. cbn [Nat.add] in *. replace (list_sum (firstn n (map fst P)) + m - list_sum (firstn n (map fst P))) with m in * by lia.
        replace xs with zs; [exact Hz|].
        apply (elem_ext (d1 ++ m :: d2)); [apply Hz| |].
        * rewrite Forall_forall in Hsm. exact (Hsm (m, xs) (nth_error_In _ _ En)).
        * intros idx Hi. destruct (in_shape_mid _ _ _ _ Hi) as (i1 & j & i2 & -> & H1 & Hk & H2).
          rewrite He by auto. now apply (Hj n m xs).
      + apply (IH (S n)); [lia|]. exact R''. }
  specialize (G 0 ps). rewrite Nat.sub_0_r in G. exact (G R).
Qed.

(** ** Slices of joined and stacked tensors *)

Lemma joins_first {A} ds parts (ys : list A) :
  Forall (fun p => length (snd p) = fst p * prod ds) parts -> joins [] ds parts ys -> ys = concat (map snd parts).
Proof.
  intros F J. apply (joins_unique [] ds parts _ _ J). split.
  - cbn [app prod]. clear J. induction F as [|[m xs] parts H F IH]; auto. cbn [map concat fst snd] in *.
    change (list_sum (m :: ?l)) with (m + list_sum l). rewrite app_length, IH, H. lia.
  - cbn [app]. intros q m xs E i1 k i2 H1 Hk H2. inversion H1; subst. cbn [app].
    unfold elem. cbn [ravel]. clear J. pose proof (ravel_lt _ _ H2) as Hr.
    revert q E. induction F as [|[n zs] parts H F IH]; intros [|q] E; try discriminate; cbn [nth_error] in E.
    + injection E as -> ->. cbn [map concat fst snd firstn list_sum fold_right Nat.add].
      rewrite nth_error_app1; auto. cbn [fst snd] in H. rewrite H.
      assert (S k * prod ds <= m * prod ds) by (apply Nat.mul_le_mono_r; lia). cbn [Nat.mul] in *. lia.
    + cbn [map concat fst snd firstn] in *. change (list_sum (n :: ?l)) with (n + list_sum l).
      rewrite nth_error_app2 by (rewrite H, !Nat.mul_add_distr_r; lia).
      rewrite <- (IH q E). f_equal. rewrite H, !Nat.mul_add_distr_r. lia.
Qed.

Lemma c79_subslice_concatenate {A} c ax ds (ts : list (tensor A)) parts q m xs :
  Forall2 (fun t p => repr t (fst p :: ds) (snd p)) ts parts ->
  selects ax 0 (1 + length ds) -> length ds < 5 -> supported (list_sum (map fst parts) :: ds) ->
  positive ds -> nth_error parts q = Some (m, xs) -> 0 < m ->
  exists u v, concatenate_axis c ax ts = Ok u /\
    subslice c u (list_sum (firstn q (map fst parts))) m = Ok v /\ repr v (m :: ds) xs.
Proof.
  intros F Hax Hd Hs Hp E Hm.
  pose proof (sum_firstn_le (map fst parts) q m) as Hle. rewrite nth_error_map, E in Hle. specialize (Hle eq_refl).
  pose proof (prod_pos _ Hp) as Hpp.
  destruct (joins_concat c ax [] ds ts parts) as (ys & E1 & J); auto.
  { intros ->. destruct q; discriminate. }
  { left. cbn [app prod]. assert (0 < list_sum (map fst parts) * prod ds) by (apply Nat.mul_pos_pos; lia). lia. }
  cbn [app] in E1.
  assert (Hr : repr (fresh (list_sum (map fst parts) :: ds) ys) (list_sum (map fst parts) :: ds) ys) by (apply repr_fresh; auto; apply J).
  destruct (c13_subslice c _ _ _ _ (list_sum (firstn q (map fst parts))) m Hr Hp Hm Hle) as (v & zs & E2 & Hv & _ & He & _).
  eexists. exists v. split; [exact E1|]. split; [exact E2|]. replace xs with zs; [exact Hv|].
  destruct J as [Lj Hj].
  apply (elem_ext (m :: ds)); [apply Hv| |].
  - assert (G : Forall (fun p => length (snd p) = prod (fst p :: ds)) parts).
    { clear -F. induction F as [|? ? ? ? H]; constructor; auto. apply H. }
    rewrite Forall_forall in G. exact (G (m, xs) (nth_error_In _ _ E)).
  - intros idx Hi. apply (in_shape_mid [] m ds) in Hi. destruct Hi as (i1 & k & i2 & -> & H1 & Hk & H2).
    inversion H1; subst. cbn [app]. rewrite He by auto. apply (Hj q m xs E [] k i2); auto.
Qed.

Lemma c79_subslice_stack {A} c ax ds (ts : list (tensor A)) xss q xs :
  Forall2 (fun t xs => repr t ds xs) ts xss -> selects ax 0 (length ds + 1) ->
  0 < prod ds -> length ds < 5 -> supported (length xss :: ds) -> nth_error xss q = Some xs ->
  exists u v w, stack_axis c ax ts = Ok u /\ subslice c u q 1 = Ok v /\ repr v (1 :: ds) xs /\
    reshape c v (canon ds) = Ok w /\ repr w ds xs.
Proof.
  intros F Hax Hp Hd Hs E.
  assert (Hq : q < length xss) by (apply nth_error_Some; congruence).
  destruct (c38_stack c ax [] ds ts xss) as (ys & E1 & Ly & Hy); auto.
  { intros ->. destruct q; discriminate. }
  cbn [app length] in *.
  assert (Hr : repr (fresh (length xss :: ds) ys) (length xss :: ds) ys) by (apply repr_fresh; auto).
  assert (Hpos : positive ds) by now apply prod_pos_inv.
  destruct (c13_subslice c _ _ _ _ q 1 Hr Hpos) as (v & zs & E2 & Hv & _ & He & _); [lia|lia|].
  assert (Lx : length xs = prod ds).
  { clear -F E. revert q E. induction F as [|? ? ? ? H]; intros [|q] E; try discriminate; cbn in E.
    - injection E as <-. apply H.
    - eauto. }
  assert (zs = xs) as ->.
  { apply (elem_ext (1 :: ds)); [apply Hv|cbn [prod]; lia|].
    intros idx Hi. apply (in_shape_mid [] 1 ds) in Hi. destruct Hi as (i1 & k & i2 & -> & H1 & Hk & H2).
    inversion H1; subst. cbn [app]. assert (k = 0) as -> by lia. rewrite He by auto. rewrite Nat.add_0_r.
    pose proof (Hy q xs E [] i2 H1 H2) as Hyq. cbn [app] in Hyq. rewrite Hyq. reflexivity. }
  destruct (c17_reshape c v (1 :: ds) xs ds Hv) as [R _].
  { exact (supported_app_r [length xss] ds Hs). }
  destruct R as (w & Ew & Hw); [cbn [prod]; lia|].
  exists (fresh (length xss :: ds) ys), v, w. auto.
Qed.

Lemma c79_reshape_reshape {A} c (t : tensor A) s1 s2 :
  (let* u := reshape c t s1 in reshape c u s2) = (let* _ := reshape c t s1 in reshape c t s2).
Proof.
  unfold reshape. destruct (size c s1) as [n| |]; auto. cbn [bind].
  destruct (assert_ (n =? tsize t)) as [[]| |]; reflexivity.
Qed.

(** ** Fusion *)

Lemma fresh_map_repr {A B} (f : A -> B) (t : tensor A) ds xs : repr t ds xs -> repr (fresh ds (map f xs)) ds (map f xs).
Proof. intros H. apply repr_fresh; [apply H|]. rewrite map_length. apply H. Qed.

Lemma map_pure_fresh {U V} c (t : tensor U) ds xs (f : U -> V) :
  repr t ds xs -> can_alloc c (length xs) -> map_ c t (pure1 f) tt = Ok (tt, fresh ds (map f xs)).
Proof. intros H Ha. rewrite (c25_map c t ds xs _ _ H Ha). unfold pure1. now rewrite traverse_pure. Qed.

Lemma c79_map_map {S U V W} c (t : tensor U) ds xs (f : U -> V) (g : S -> V -> outcome (S * W)) st :
  repr t ds xs -> can_alloc c (length xs) ->
  (let* '(_, u) := map_ c t (pure1 f) tt in map_ c u g st) = map_ c t (fun st x => g st (f x)) st.
Proof.
  intros H Ha. rewrite (map_pure_fresh c t ds xs f H Ha). cbn [bind].
  rewrite (c25_map c _ ds (map f xs)); [|now apply (fresh_map_repr f t)|now rewrite map_length].
  rewrite (c25_map c t ds xs _ _ H Ha). now rewrite traverse_map.
Qed.

Lemma c79_fold_map {S U V R W} c (t : tensor U) ds xs (f : U -> V) (ini : R) (into : R -> W)
    (g : S -> R -> V -> outcome (S * R)) st :
  repr t ds xs -> can_alloc c (length xs) ->
  (let* '(_, u) := map_ c t (pure1 f) tt in fold_ c u ini into g st) = fold_ c t ini into (fun st r x => g st r (f x)) st.
Proof.
  intros H Ha. rewrite (map_pure_fresh c t ds xs f H Ha). cbn [bind].
  rewrite (c29_fold c _ ds (map f xs)) by now apply (fresh_map_repr f t).
  rewrite (c29_fold c t ds xs _ _ _ _ H). f_equal.
  clear H Ha. revert st ini. induction xs as [|x xs IH]; intros st ini; auto. cbn [map foldM].
  destruct (g st ini (f x)) as [[st' r]| |]; cbn [bind]; auto.
Qed.

Lemma traverse_total2 {X Y} (f : unit -> X -> outcome (unit * Y)) (h : X -> Y) l :
  (forall x, In x l -> f tt x = Ok (tt, h x)) -> traverse f tt l = Ok (tt, map h l).
Proof. apply traverse_total. Qed.

Lemma cyc_map {A B} (f : A -> B) n xs : map f (cyc n xs) = cyc n (map f xs).
Proof.
  unfold cyc. rewrite map_length. generalize (n / length xs). intros k.
  induction k; cbn [repeat concat]; auto. rewrite map_app, IHk. reflexivity.
Qed.

Lemma combine_map {A B X Y} (f : A -> X) (g : B -> Y) a b :
  combine (map f a) (map g b) = map (fun p => (f (fst p), g (snd p))) (combine a b).
Proof. revert b. induction a as [|x a IH]; intros [|y b]; auto. cbn. now rewrite IH. Qed.

Lemma c79_map2_map {S T U V W Y} c (ta : tensor T) (tb : tensor U) da db xs ys (f : T -> V) (g : U -> W)
    (h : S -> V -> W -> outcome (S * Y)) st :
  repr ta da xs -> repr tb db ys -> xs <> [] -> ys <> [] ->
  (let* '(_, u) := map_ c ta (pure1 f) tt in let* '(_, v) := map_ c tb (pure1 g) tt in map2 c u v h st)
  = map2 c ta tb (fun st x y => h st (f x) (g y)) st.
Proof.
  intros Ha Hb Hx Hy.
  rewrite (map_pure_fresh c ta da xs f Ha) by (left; destruct xs; [congruence|discriminate]). cbn [bind].
  rewrite (map_pure_fresh c tb db ys g Hb) by (left; destruct ys; [congruence|discriminate]). cbn [bind].
  pose proof (fresh_map_repr f _ _ _ Ha) as Ha'. pose proof (fresh_map_repr g _ _ _ Hb) as Hb'.
  assert (Hx' : map f xs <> []) by (destruct xs; [congruence|discriminate]).
  assert (Hy' : map g ys <> []) by (destruct ys; [congruence|discriminate]).
  assert (D : (exists dl, (suffix db da /\ dl = da) \/ (suffix da db /\ dl = db)) \/ (~ suffix da db /\ ~ suffix db da)).
  { destruct (suffix_dec da db) as [H|H]; [left; eauto|]. destruct (suffix_dec db da) as [H'|H']; [left; eauto|]. auto. }
  destruct D as [[dl D]|D].
  - rewrite (map2_repr c _ _ da db dl _ _ _ _ Ha' Hb' Hx' Hy' D).
    rewrite (map2_repr c _ _ da db dl _ _ _ _ Ha Hb Hx Hy D).
    rewrite <- !cyc_map, combine_map, traverse_map. f_equal. apply traverse_ext. intros s [x y] _. reflexivity.
  - rewrite (c27_map2_rejects c _ _ da db _ _ _ _ Ha' Hb') by auto.
    symmetry. apply (c27_map2_rejects c _ _ da db _ _ _ _ Ha Hb). auto.
Qed.

(** ** Reducing joined tensors *)

Lemma fold_left_assoc {T} (f : T -> T -> T) x y ys :
  (forall x y z, f x (f y z) = f (f x y) z) -> fold_left f ys (f x y) = f x (fold_left f ys y).
Proof. intros H. revert y. induction ys as [|z ys IH]; intros y; auto. cbn [fold_left]. now rewrite <- H, IH. Qed.

Lemma map2_same {T U V} c (ta : tensor T) (tb : tensor U) ds xs ys (f : T -> U -> V) :
  repr ta ds xs -> repr tb ds ys -> xs <> [] ->
  map2 c ta tb (pure2 f) tt = Ok (tt, fresh ds (zip_with f xs ys)).
Proof.
  intros Ha Hb Hx. pose proof (repr_len _ _ _ Ha) as La. pose proof (repr_len _ _ _ Hb) as Lb.
  assert (L0 : prod ds <> 0) by (rewrite <- La; destruct xs; [congruence|discriminate]).
  assert (Hy : ys <> []) by (intros ->; cbn in Lb; lia).
  rewrite (map2_repr c _ _ ds ds ds _ _ _ _ Ha Hb Hx Hy) by (left; split; [exists []; reflexivity|reflexivity]).
  assert (C : forall (B : Type) (l : list B), length l = prod ds -> cyc (prod ds) l = l).
  { intros B l Hl. unfold cyc. rewrite Hl, Nat.div_same by auto. cbn. apply app_nil_r. }
  rewrite !C by auto.
  rewrite (traverse_total _ (fun p => f (fst p) (snd p))) by (intros [x y] _; reflexivity).
  cbn [bind]. do 3 f_equal. clear. revert ys. induction xs as [|x xs IH]; intros [|y ys]; auto. cbn. now rewrite IH.
Qed.

Lemma c79_reduce_append {T} c (t u : tensor T) d d' ds xs ys (f : T -> T -> T) :
  (forall x y z, f x (f y z) = f (f x y) z) ->
  repr t (d :: ds) xs -> repr u (d' :: ds) ys -> xs <> [] -> ys <> [] ->
  (Z.of_nat ((d + d') * prod ds) < 4294967296)%Z ->
  (let* w := append c t u in reduce c w (pure2 f) tt)
  = (let* '(_, p) := reduce c t (pure2 f) tt in let* '(_, q) := reduce c u (pure2 f) tt in map2 c p q (pure2 f) tt).
Proof.
  intros Hf Ht Hu Hx Hy Hz. pose proof (repr_len _ _ _ Ht) as Lt. cbn [prod] in Lt.
  destruct xs as [|x xs]; [congruence|]. destruct ys as [|y ys]; [congruence|].
  assert (0 < d /\ 0 < prod ds) as [Hd Hp].
  { cbn in Lt. split; [destruct d; cbn in Lt; lia|]. destruct (prod ds); [rewrite Nat.mul_0_r in Lt; lia|lia]. }
  destruct (c20_append c t u d d' ds ds (x :: xs) (y :: ys) Ht Hu) as (r & E & Hr); auto; [now apply prod_pos_inv|lia|].
  rewrite E. cbn [bind app] in *.
  rewrite (c29_reduce c r _ _ _ _ _ Hr), (c29_reduce c t _ _ _ _ _ Ht). rewrite !foldM_pure2. cbn [bind].
  rewrite (c29_reduce c u _ _ _ _ _ Hu), foldM_pure2. cbn [bind].
  rewrite (map2_same c _ _ [] [fold_left f xs x] [fold_left f ys y]); [|apply repr_fresh; [apply supported_nil|reflexivity]|apply repr_fresh; [apply supported_nil|reflexivity]|discriminate].
  cbn [zip_with]. do 4 f_equal. rewrite fold_left_app. cbn [fold_left]. now apply fold_left_assoc.
Qed.

Lemma zip_with_length' {A B C} (f : A -> B -> C) a b : length a = length b -> length (zip_with f a b) = length a.
Proof. revert b. induction a as [|x a IH]; intros [|y b] H; cbn in *; auto; lia. Qed.

Lemma zip_with_nth {A B C} (f : A -> B -> C) a b k x y :
  nth_error a k = Some x -> nth_error b k = Some y -> nth_error (zip_with f a b) k = Some (f x y).
Proof.
  revert b k. induction a as [|x' a IH]; intros [|y' b] [|k] Ha Hb; try discriminate; cbn in *; [congruence|auto].
Qed.

Lemma zip_with_map_nth {A B} (f : A -> A -> A) (g : B -> A) (h : B -> B -> B) la lb :
  (forall x y, In x la -> In y lb -> g (h x y) = f (g x) (g y)) ->
  map g (zip_with h la lb) = zip_with f (map g la) (map g lb).
Proof.
  revert lb. induction la as [|x la IH]; intros [|y lb] H; auto. cbn. rewrite (H x y) by (cbn; auto).
  rewrite IH; [reflexivity|]. intros; apply H; cbn; auto.
Qed.

(** The lines along the axis of two joined tensors are the lines of the one followed by those of the other. *)
Lemma lines_join {T} d1 m n d2 (xs ys zs : list T) la lb :
  length xs = prod (d1 ++ m :: d2) -> length ys = prod (d1 ++ n :: d2) ->
  joins d1 d2 [(m, xs); (n, ys)] zs -> axis_lines d1 m d2 xs la -> axis_lines d1 n d2 ys lb ->
  axis_lines d1 (m + n) d2 zs (zip_with (@app T) la lb).
Proof.
  intros Lx Ly [Lz Hz] [La Ha] [Lb Hb]. cbn [map fst] in *.
  replace (list_sum [m; n]) with (m + n) in * by (cbn; lia). split.
  - rewrite zip_with_length'; congruence.
  - intros i1 i2 H1 H2. destruct (Ha i1 i2 H1 H2) as (l & El & Ll & Hl). destruct (Hb i1 i2 H1 H2) as (l' & El' & Ll' & Hl').
    exists (l ++ l'). split; [unfold elem in *; now apply zip_with_nth|]. split; [rewrite app_length; lia|].
    intros k Hk. destruct (Nat.lt_ge_cases k m) as [L|L].
    + rewrite nth_error_app1 by lia. rewrite Hl by auto. symmetry. exact (Hz 0 m xs eq_refl i1 k i2 H1 L H2).
    + rewrite nth_error_app2 by lia. rewrite Ll, Hl' by lia. symmetry.
      specialize (Hz 1 n ys eq_refl i1 (k - m) i2 H1 ltac:(lia) H2). cbn [firstn] in Hz.
      replace (list_sum [m] + (k - m)) with k in Hz by (cbn; lia). exact Hz.
Qed.

Lemma lines_len {T} d1 d d2 (xs : list T) ls :
  length xs = prod (d1 ++ d :: d2) -> axis_lines d1 d d2 xs ls -> Forall (fun l => length l = d) ls.
Proof.
  intros Hl H. rewrite (c30_lines_unique _ _ _ _ _ _ H (axis_lines_lines d1 d d2 xs Hl)).
  apply lines_Forall. rewrite Hl, prod_app. reflexivity.
Qed.

Definition red {T} (f : T -> T -> T) (x0 : T) (l : list T) : T :=
  match l with [] => x0 | x :: l' => fold_left f l' x end.

Lemma reduce_axis_pure {T} c (t : tensor T) a d1 d d2 xs (f : T -> T -> T) x0 :
  repr t (d1 ++ d :: d2) xs -> names_axis a (length d1) (length (d1 ++ d :: d2)) ->
  0 < prod (d1 ++ d2) -> 0 < d ->
  exists ls, axis_lines d1 d d2 xs ls /\
    reduce_axis c t (Some a) (pure2 f) tt = Ok (tt, fresh (d1 ++ d2) (map (red f x0) ls)).
Proof.
  intros H Ha Hp Hd. destruct (c30_reduce_axis c t a d1 d d2 xs (pure2 f) tt H Ha) as (ls & Hl & E); [now apply prod_pos_inv|].
  exists ls. split; [exact Hl|]. rewrite E. rewrite (traverse_total _ (red f x0)); [reflexivity|].
  intros l Hin. pose proof (lines_len d1 d d2 xs ls (repr_len _ _ _ H) Hl) as F. rewrite Forall_forall in F. specialize (F l Hin).
  destruct l as [|x l]; [cbn in F; lia|]. cbn [reduceM red]. apply foldM_pure2.
Qed.

Lemma c79_reduce_axis_concatenate {T} c a (t u : tensor T) d1 m n d2 xs ys (f : T -> T -> T) :
  (forall x y z, f x (f y z) = f (f x y) z) ->
  repr t (d1 ++ m :: d2) xs -> repr u (d1 ++ n :: d2) ys -> xs <> [] -> ys <> [] ->
  names_axis a (length d1) (length d1 + 1 + length d2) -> length d2 < 5 -> supported (d1 ++ (m + n) :: d2) ->
  (let* w := concatenate_axis c (Some a) [t; u] in reduce_axis c w (Some a) (pure2 f) tt)
  = (let* '(_, p) := reduce_axis c t (Some a) (pure2 f) tt in
     let* '(_, q) := reduce_axis c u (Some a) (pure2 f) tt in map2 c p q (pure2 f) tt).
Proof.
  intros Hf Ht Hu Hx Hy Ha Hd Hs.
  pose proof (repr_len _ _ _ Ht) as Lx. pose proof (repr_len _ _ _ Hu) as Ly.
  assert (Px : 0 < prod (d1 ++ m :: d2)) by (rewrite <- Lx; destruct xs; [congruence|cbn; lia]).
  assert (Py : 0 < prod (d1 ++ n :: d2)) by (rewrite <- Ly; destruct ys; [congruence|cbn; lia]).
  destruct (mid_pos _ _ _ Px) as (P1 & Pm & P2). destruct (mid_pos _ _ _ Py) as (_ & Pn & _).
  assert (Pk : 0 < prod (d1 ++ d2)) by (rewrite prod_app; now apply Nat.mul_pos_pos).
  assert (Pw : 0 < prod (d1 ++ (m + n) :: d2)).
  { rewrite prod_app. cbn [prod]. repeat apply Nat.mul_pos_pos; lia. }
  destruct xs as [|x0 xs']; [congruence|]. remember (x0 :: xs') as xs eqn:Exs.
  assert (Es : list_sum (map fst [(m, xs); (n, ys)]) = m + n) by (cbn; lia).
  destruct (joins_concat c (Some a) d1 d2 [t; u] [(m, xs); (n, ys)]) as (zs & E & J); auto; try discriminate.
  { now rewrite Es. }
  { left. rewrite Es. lia. }
  rewrite Es in E. rewrite E. cbn [bind].
  assert (Hw : repr (fresh (d1 ++ (m + n) :: d2) zs) (d1 ++ (m + n) :: d2) zs).
  { apply repr_fresh; auto. destruct J as [J _]. now rewrite Es in J. }
  assert (Hax : forall k, names_axis a (length d1) (length (d1 ++ k :: d2))).
  { intros k. rewrite mid_length. replace (length d1 + (1 + length d2)) with (length d1 + 1 + length d2) by lia. exact Ha. }
  destruct (reduce_axis_pure c _ a d1 (m + n) d2 zs f x0 Hw (Hax _) Pk ltac:(lia)) as (lw & Hlw & ->).
  destruct (reduce_axis_pure c t a d1 m d2 xs f x0 Ht (Hax _) Pk Pm) as (la & Hla & ->). cbn [bind].
  destruct (reduce_axis_pure c u a d1 n d2 ys f x0 Hu (Hax _) Pk Pn) as (lb & Hlb & ->). cbn [bind].
  assert (Sk : supported (d1 ++ d2)) by (apply (supported_drop _ _ _ Hs)).
  pose proof (proj1 Hla) as Nla. pose proof (proj1 Hlb) as Nlb.
  rewrite (map2_same c _ _ (d1 ++ d2) (map (red f x0) la) (map (red f x0) lb));
    [|apply repr_fresh; auto; now rewrite map_length|apply repr_fresh; auto; now rewrite map_length|
      destruct la; [cbn in Nla; lia|discriminate]].
  do 3 f_equal.
  rewrite (c30_lines_unique _ _ _ _ _ _ Hlw (lines_join d1 m n d2 xs ys zs la lb Lx Ly J Hla Hlb)).
  apply zip_with_map_nth. intros p q Hp Hq.
  pose proof (lines_len _ _ _ _ _ Lx Hla) as Fa. rewrite Forall_forall in Fa. specialize (Fa p Hp).
  pose proof (lines_len _ _ _ _ _ Ly Hlb) as Fb. rewrite Forall_forall in Fb. specialize (Fb q Hq).
  destruct p as [|v p]; [cbn in Fa; lia|]. destruct q as [|w q]; [cbn in Fb; lia|].
  cbn [app red]. rewrite fold_left_app. cbn [fold_left]. now apply fold_left_assoc.
Qed.

(** ** Transposing joined matrices *)

Lemma c79_transpose_concatenate {A} c ds r (ts : list (tensor A)) parts :
  parts <> [] -> Forall2 (fun t p => repr t (ds ++ [r; fst p]) (snd p)) ts parts ->
  Forall (fun p => snd p <> []) parts -> supported (ds ++ [r; list_sum (map fst parts)]) ->
  (let* u := concatenate_axis c (Some (-1)%Z) ts in transpose c u)
  = (let* us := map_out (transpose c) ts in concatenate_axis c (Some (-2)%Z) us).
Proof.
  intros Hn F Hne Hs.
  assert (Hl : length ds <= 4) by (apply supported_len in Hs; rewrite app_length in Hs; cbn in Hs; lia).
  assert (Hpos : Forall (fun p => 0 < prod (ds ++ [r; fst p])) parts).
  { clear -F Hne. induction F as [|t p ts parts H F IH]; constructor; inversion Hne; subst; auto.
    rewrite <- (repr_len _ _ _ H). destruct (snd p); [congruence|cbn; lia]. }
  assert (P0 : 0 < prod ds /\ 0 < r /\ 0 < list_sum (map fst parts)).
  { clear -Hpos Hn. destruct Hpos as [|p parts H _]; [congruence|].
    change [r; fst p] with ([r] ++ [fst p]) in H. rewrite !prod_app in H. cbn [prod] in H. cbn [map].
    change (list_sum (fst p :: ?l)) with (fst p + list_sum l).
    destruct (prod ds); [cbn in H; lia|]. destruct r; [cbn in H; rewrite Nat.mul_0_r in H; lia|].
    destruct (fst p); [cbn in H; rewrite !Nat.mul_0_r in H; lia|]. lia. }
  destruct P0 as (P1 & Pr & Pn).
  set (n := list_sum (map fst parts)) in *.
  assert (Pw : 0 < prod (ds ++ [r; n])).
  { rewrite prod_app. cbn [prod]. repeat apply Nat.mul_pos_pos; lia. }
  assert (Hs' : supported (ds ++ [n; r])).
  { destruct Hs as [L P]. split; [now rewrite app_length in *|]. rewrite map_app, prod_app in *. cbn [map prod] in *.
    rewrite !Nat.mul_1_r in *. now rewrite (Nat.mul_comm (Nat.max 1 n)). }
  destruct (joins_concat c (Some (-1)%Z) (ds ++ [r]) [] ts parts) as (ys & E & J); auto.
  { clear -F. induction F; constructor; auto. now rewrite <- app_assoc. }
  { cbn [selects length]. rewrite app_length. cbn [length]. split; [lia|]. right. lia. }
  { cbn; lia. }
  { now rewrite <- app_assoc. }
  { left. rewrite <- app_assoc. cbn [app]. fold n. lia. }
  rewrite E. cbn [bind]. rewrite <- app_assoc. cbn [app]. fold n.
  assert (Hw : repr (fresh (ds ++ [r; n]) ys) (ds ++ [r; n]) ys).
  { apply repr_fresh; auto. destruct J as [J _]. rewrite <- app_assoc in J. exact J. }
  destruct (c34_transpose c _ ds r n ys Hw Pw) as (zs & Ez & Lz & Hz). rewrite Ez.
  assert (G : exists us parts', map_out (transpose c) ts = Ok us /\ map fst parts' = map fst parts /\
     Forall2 (fun t p => repr t (ds ++ fst p :: [r]) (snd p)) us parts' /\
     forall q m vs, nth_error parts' q = Some (m, vs) -> exists xs, nth_error parts q = Some (m, xs) /\
       forall i1 j i, in_shape ds i1 -> j < r -> i < m ->
         elem (ds ++ [m; r]) vs (i1 ++ [i; j]) = elem (ds ++ [r; m]) xs (i1 ++ [j; i])).
  { clear -F Hpos. revert Hpos. induction F as [|t [m xs] ts parts H F IH]; intros Hpos.
    - exists [], []. repeat split; try constructor. intros [|q] m vs Eq; discriminate.
    - inversion Hpos as [|? ? Hp Hpos']; subst. cbn [fst snd] in *.
      destruct (IH Hpos') as (us & parts' & E & M & F' & Q).
      destruct (c34_transpose c t ds r m xs H Hp) as (vs & Ev & Lv & Hv).
      exists (fresh (ds ++ [m; r]) vs :: us), ((m, vs) :: parts'). cbn [map_out]. rewrite Ev. cbn [bind]. rewrite E.
      split; [reflexivity|]. split; [cbn; congruence|]. split.
      + constructor; auto. cbn [fst snd]. apply repr_fresh; auto.
        pose proof (repr_supported _ _ _ H) as [L P]. split; [now rewrite app_length in *|].
        rewrite map_app, prod_app in *. cbn [map prod] in *. rewrite !Nat.mul_1_r in *.
        now rewrite (Nat.mul_comm (Nat.max 1 m)).
      + intros [|q] m' vs' Eq; cbn in Eq; [injection Eq as <- <-; exists xs; auto|]. apply (Q q m' vs' Eq). }
  destruct G as (us & parts' & -> & M & F' & Q). cbn [bind].
  destruct (joins_concat c (Some (-2)%Z) ds [r] us parts') as (ws & Ew & Jw); auto.
  { intros ->. destruct parts; [congruence|discriminate]. }
  { cbn [selects length]. split; [lia|]. right. lia. }
  { now rewrite M. }
  { left. rewrite M. fold n. change (ds ++ n :: [r]) with (ds ++ [n; r]). rewrite <- Lz. rewrite Lz, prod_app. cbn [prod].
    assert (0 < prod ds * (n * (r * 1))) by (repeat apply Nat.mul_pos_pos; lia). lia. }
  rewrite Ew, M. fold n. do 2 f_equal. rewrite <- (joins_unique ds [r] parts' ws zs Jw); auto.
  split; [rewrite M; exact Lz|]. intros q m vs Eq i1 k i2 H1 Hk H2.
  destruct (Q q m vs Eq) as (xs & Ep & Hx).
  inversion H2 as [|j ? ? ? Hj H3]; subst. inversion H3; subst. rewrite M. fold n.
  pose proof (sum_firstn_le (map fst parts) q m) as Hle. rewrite nth_error_map, Ep in Hle. specialize (Hle eq_refl). fold n in Hle.
  rewrite Hz by (auto; lia). rewrite Hx by auto.
  destruct J as [_ J]. specialize (J q m xs Ep (i1 ++ [j]) k [] ltac:(apply in_shape_app; auto; repeat constructor; auto) Hk ltac:(constructor)).
  rewrite <- !app_assoc in J. cbn [app] in J. exact J.
Qed.

(** ** Tiling *)

Lemma zip_mul_assoc (a b d : list nat) :
  zip_with Nat.mul (zip_with Nat.mul a b) d = zip_with Nat.mul a (zip_with Nat.mul b d).
Proof.
  revert b d. induction a as [|x a IH]; intros [|y b] [|z d]; auto. cbn. now rewrite IH, Nat.mul_assoc.
Qed.

Lemma zip_mul_ones n l : length l = n -> zip_with Nat.mul (repeat 1 n) l = l.
Proof. revert n. induction l as [|x l IH]; intros [|n] H; cbn in *; auto; try lia. rewrite IH by lia. f_equal. lia. Qed.

Lemma zip_mul_ones_r n l : length l = n -> zip_with Nat.mul l (repeat 1 n) = l.
Proof. revert n. induction l as [|x l IH]; intros [|n] H; cbn in *; auto; try lia. rewrite IH by lia. f_equal. lia. Qed.

Lemma zip_with_app {A B C} (f : A -> B -> C) a a' b b' :
  length a = length b -> zip_with f (a ++ a') (b ++ b') = zip_with f a b ++ zip_with f a' b'.
Proof. revert b. induction a as [|x a IH]; intros [|y b] H; cbn in *; auto; try lia. now rewrite IH by lia. Qed.

Lemma pad_zip_mul r (ms ns : list nat) :
  length ns = length ms -> zip_with Nat.mul (pad_to r ms) (pad_to r ns) = pad_to r (zip_with Nat.mul ms ns).
Proof.
  intros H. unfold pad_to. rewrite H. rewrite zip_with_app by reflexivity.
  rewrite zip_mul_ones by apply repeat_length. now rewrite zip_with_length' by congruence.
Qed.

Lemma pad_length r l : length l <= r -> length (pad_to r l) = r.
Proof. intros. unfold pad_to. rewrite app_length, repeat_length. lia. Qed.

Lemma pad_id r l : length l = r -> pad_to r l = l.
Proof. intros <-. unfold pad_to. now rewrite Nat.sub_diag. Qed.

Lemma prod_zip_mul a b : length a = length b -> prod (zip_with Nat.mul a b) = prod a * prod b.
Proof.
  revert b. induction a as [|x a IH]; intros [|y b] H; cbn [zip_with prod length] in *; auto; try lia.
  rewrite IH by lia. rewrite !Nat.mul_assoc. f_equal. rewrite <- !Nat.mul_assoc. f_equal. lia.
Qed.

Lemma prod_pad r l : prod (pad_to r l) = prod l.
Proof. unfold pad_to. rewrite prod_app. induction (r - length l); cbn [repeat prod]; lia. Qed.

Lemma mod_mod_mul x d m : d <> 0 -> m <> 0 -> (x mod (d * m)) mod d = x mod d.
Proof.
  intros Hd Hm. rewrite (Nat.mod_mul_r x d m) by auto. rewrite (Nat.mul_comm d), Nat.mod_add by auto. now apply Nat.mod_mod.
Qed.

(** Wrapping around a multiple first makes no difference. *)
Lemma zip_mod_mod idx ds ms :
  length idx = length ds -> length ms = length ds -> 0 < prod ds -> 0 < prod ms ->
  zip_with Nat.modulo (zip_with Nat.modulo idx (zip_with Nat.mul ds ms)) ds = zip_with Nat.modulo idx ds.
Proof.
  revert ds ms. induction idx as [|x idx IH]; intros [|d ds] [|m ms] H1 H2 Pd Pm; cbn [zip_with length prod] in *; auto; try lia.
  assert (d <> 0 /\ 0 < prod ds) as [Hd Pd'] by (destruct d; [cbn in Pd; lia|]; destruct (prod ds); [rewrite Nat.mul_0_r in Pd|]; lia).
  assert (m <> 0 /\ 0 < prod ms) as [Hm Pm'] by (destruct m; [cbn in Pm; lia|]; destruct (prod ms); [rewrite Nat.mul_0_r in Pm|]; lia).
  rewrite IH by lia. now rewrite mod_mod_mul.
Qed.

Lemma zip_with_skipn {A B C} (f : A -> B -> C) n a b :
  skipn n (zip_with f a b) = zip_with f (skipn n a) (skipn n b).
Proof.
  revert a b. induction n as [|n IH]; intros [|x a] [|y b]; cbn [skipn zip_with]; auto.
  - destruct (skipn n a); reflexivity.
Qed.

Lemma skipn_pad r l : length l <= r -> skipn (r - length l) (pad_to r l) = l.
Proof.
  intros H. unfold pad_to. rewrite skipn_app, repeat_length, Nat.sub_diag. cbn [skipn].
  rewrite skipn_all2 by (rewrite repeat_length; lia). reflexivity.
Qed.

Lemma zip_mod_in_shape ds idx : length idx = length ds -> 0 < prod ds -> in_shape ds (zip_with Nat.modulo idx ds).
Proof.
  revert idx. induction ds as [|d ds IH]; intros [|x idx] H P; cbn in *; try lia; constructor.
  - apply Nat.mod_upper_bound. destruct d; cbn in P; lia.
  - apply IH; [lia|]. destruct (prod ds); [rewrite Nat.mul_0_r in P|]; lia.
Qed.

Lemma zip_mod_small ds idx : in_shape ds idx -> zip_with Nat.modulo idx ds = idx.
Proof. intros H. induction H; auto. cbn. rewrite IHForall2, Nat.mod_small; auto. Qed.

Lemma c79_tile_tile {A} c (t : tensor A) ds xs mt ms nt ns pt :
  repr t ds xs -> repr mt [length ms] ms -> repr nt [length ns] ns -> length ns = length ms ->
  repr pt [length ms] (zip_with Nat.mul ms ns) -> 0 < prod ds -> 0 < prod ms -> 0 < prod ns ->
  0 < length ds + length ms ->
  (let r := Nat.max (length ds) (length ms) in supported (zip_with Nat.mul (pad_to r ds) (pad_to r (zip_with Nat.mul ms ns)))) ->
  (let* u := tile c t mt in tile c u nt) = tile c t pt.
Proof.
  intros Ht Hm Hn Hl Hp Pd Pm Pn Hr Hs. set (r := Nat.max (length ds) (length ms)) in *. cbn zeta in Hs.
  assert (Rd : length (pad_to r ds) = r) by (apply pad_length; lia).
  assert (Rm : length (pad_to r ms) = r) by (apply pad_length; lia).
  assert (Rn : length (pad_to r ns) = r) by (apply pad_length; lia).
  assert (Pmn : 0 < prod (zip_with Nat.mul ms ns)) by (rewrite prod_zip_mul by congruence; now apply Nat.mul_pos_pos).
  rewrite <- pad_zip_mul in Hs by auto.
  set (D := zip_with Nat.mul (pad_to r ds) (pad_to r ms)).
  assert (LD : length D = r) by (unfold D; rewrite zip_with_length' by congruence; auto).
  assert (PD : 0 < prod D) by (unfold D; rewrite prod_zip_mul, !prod_pad by congruence; now apply Nat.mul_pos_pos).
  assert (Hs1 : supported D).
  { apply supported_pos; [rewrite LD; apply supported_len in Hs; now rewrite zip_with_length' in Hs; rewrite ?Rd in *; rewrite ?zip_with_length'; auto; congruence|auto|].
    apply supported_prod in Hs. rewrite <- zip_mul_assoc in Hs. fold D in Hs. rewrite prod_zip_mul, prod_pad in Hs by congruence.
    eapply Z.le_lt_trans; [|exact Hs]. apply Nat2Z.inj_le. rewrite <- (Nat.mul_1_r (prod D)) at 1. apply Nat.mul_le_mono_l. lia. }
  destruct (c40_tile c t ds xs mt ms r Ht Hm Pd Pm eq_refl ltac:(lia) Hs1) as (ys & Ey & Ly & Hy). fold D in Ey, Ly, Hy.
  rewrite Ey. cbn [bind].
  assert (Hu : repr (fresh D ys) D ys) by now apply repr_fresh.
  assert (Er : r = Nat.max (length D) (length ns)) by lia.
  assert (Hs2 : supported (zip_with Nat.mul (pad_to r D) (pad_to r ns))).
  { rewrite pad_id by auto. unfold D. now rewrite zip_mul_assoc. }
  destruct (c40_tile c _ D ys nt ns r Hu Hn PD Pn Er ltac:(lia) Hs2) as (zs & Ez & Lz & Hz). rewrite Ez.
  rewrite pad_zip_mul in Hs by auto.
  assert (Lmn : length (zip_with Nat.mul ms ns) = length ms) by (apply zip_with_length'; congruence).
  destruct (c40_tile c t ds xs pt (zip_with Nat.mul ms ns) r Ht ltac:(now rewrite Lmn) Pd Pmn ltac:(now rewrite Lmn) ltac:(lia) Hs) as (ws & Ew & Lw & Hw).
  rewrite Ew. rewrite (pad_id r D LD) in *.
  assert (ED : zip_with Nat.mul D (pad_to r ns) = zip_with Nat.mul (pad_to r ds) (pad_to r (zip_with Nat.mul ms ns))).
  { unfold D. now rewrite zip_mul_assoc, pad_zip_mul. }
  rewrite ED in *. do 2 f_equal. apply (elem_ext _ _ _ Lz Lw). intros idx Hi. rewrite Hz, Hw by auto.
  assert (Li : length idx = r).
  { apply in_shape_length in Hi. rewrite <- ED in Hi. rewrite zip_with_length' in Hi; congruence. }
  rewrite LD, Nat.sub_diag. cbn [skipn].
  rewrite Hy by (apply zip_mod_in_shape; congruence). f_equal.
  rewrite zip_with_skipn. unfold D. rewrite zip_with_skipn, skipn_pad by lia.
  apply zip_mod_mod; auto.
  - rewrite skipn_length. lia.
  - rewrite skipn_length. lia.
  - unfold pad_to. rewrite skipn_app. rewrite prod_app.
    assert (Hq : forall n k, prod (skipn k (repeat 1 n)) = 1).
    { clear. induction n as [|n IH]; intros [|k]; cbn [repeat skipn prod]; auto. rewrite (IH 0 : prod (repeat 1 n) = 1). reflexivity. }
    rewrite Hq. rewrite Nat.mul_1_l.
    pose proof (prod_pos_inv _ Pm) as F. apply prod_pos. rewrite Forall_forall in *. intros x Hx. apply F.
    rewrite <- (firstn_skipn (r - length ds - length (repeat 1 (r - length ms))) ms). apply in_or_app. now right.
Qed.

(** A missing leading axis acts as if the tensor had been repeated along it. *)
Lemma c79_broadcast_tile {S T U V} c (ta : tensor T) (tb : tensor U) dp db xs ys mt (f : S -> T -> U -> outcome (S * V)) st :
  repr ta (dp ++ db) xs -> repr tb db ys -> xs <> [] -> ys <> [] -> 0 < length (dp ++ db) ->
  repr mt [length (dp ++ db)] (dp ++ repeat 1 (length db)) ->
  (let* tb' := tile c tb mt in map2 c ta tb' f st) = map2 c ta tb f st /\
  (let* tb' := tile c tb mt in map2 c tb' ta (fun st y x => f st x y) st) = map2 c tb ta (fun st y x => f st x y) st.
Proof.
  intros Ha Hb Hx Hy Hl Hm.
  pose proof (repr_len _ _ _ Ha) as La. pose proof (repr_len _ _ _ Hb) as Lb.
  assert (Pa : 0 < prod (dp ++ db)) by (rewrite <- La; destruct xs; [congruence|cbn; lia]).
  assert (Pb : 0 < prod db) by (rewrite <- Lb; destruct ys; [congruence|cbn; lia]).
  assert (Pp : 0 < prod dp) by (rewrite prod_app in Pa; destruct (prod dp); cbn in Pa; lia).
  pose proof (repr_supported _ _ _ Ha) as Hs.
  assert (Lm : length (dp ++ repeat 1 (length db)) = length (dp ++ db)) by now rewrite !app_length, repeat_length.
  assert (Pm : 0 < prod (dp ++ repeat 1 (length db))).
  { rewrite prod_app. replace (prod (repeat 1 (length db))) with 1; [lia|]. clear. induction (length db); cbn [repeat prod]; lia. }
  assert (ED : zip_with Nat.mul (pad_to (length (dp ++ db)) db) (pad_to (length (dp ++ db)) (dp ++ repeat 1 (length db))) = dp ++ db).
  { rewrite (pad_id _ _ Lm). unfold pad_to. rewrite app_length. replace (length dp + length db - length db) with (length dp) by lia.
    rewrite zip_with_app by apply repeat_length. rewrite zip_mul_ones by auto. f_equal. now apply zip_mul_ones_r. }
  destruct (c40_tile c tb db ys mt (dp ++ repeat 1 (length db)) (length (dp ++ db)) Hb) as (zs & Ez & Lz & Hz); auto.
  { now rewrite Lm. }
  { rewrite Lm, app_length. lia. }
  { now rewrite ED. }
  rewrite ED in *. rewrite Ez. cbn [bind].
  assert (Hbz : repr (fresh (dp ++ db) zs) (dp ++ db) zs) by now apply repr_fresh.
  assert (Hz0 : zs <> []) by (intros ->; cbn in Lz; lia).
  assert (Dv : Nat.divide (length ys) (prod (dp ++ db))) by (rewrite Lb, prod_app; exists (prod dp); lia).
  assert (Ly0 : length ys <> 0) by lia.
  assert (Ecy : cyc (prod (dp ++ db)) zs = cyc (prod (dp ++ db)) ys).
  { unfold cyc at 1. rewrite Lz, Nat.div_same by lia. cbn [repeat concat]. rewrite app_nil_r.
    apply (elem_ext (dp ++ db)); [auto|now apply cyc_length|]. intros idx Hi. rewrite Hz by auto.
    replace (length (dp ++ db) - length db) with (length dp) by (rewrite app_length; lia).
    destruct (in_shape_app_inv _ _ _ Hi) as [H1 H2]. rewrite zip_mod_small by auto.
    unfold elem. rewrite cyc_nth; auto; [|now apply ravel_lt]. f_equal. rewrite Lb. symmetry. now apply ravel_suffix. }
  split.
  - rewrite (map2_repr c ta (fresh (dp ++ db) zs) (dp ++ db) (dp ++ db) (dp ++ db) xs zs) by (try (left; split; [exists []; reflexivity|reflexivity]); assumption).
    rewrite (map2_repr c ta tb (dp ++ db) db (dp ++ db) xs ys) by (try (left; split; [exists dp; reflexivity|reflexivity]); assumption).
    now rewrite Ecy.
  - rewrite (map2_repr c (fresh (dp ++ db) zs) ta (dp ++ db) (dp ++ db) (dp ++ db) zs xs) by (try (left; split; [exists []; reflexivity|reflexivity]); assumption).
    rewrite (map2_repr c tb ta db (dp ++ db) (dp ++ db) ys xs) by (try (right; split; [exists dp; reflexivity|reflexivity]); assumption).
    now rewrite Ecy.
Qed.
