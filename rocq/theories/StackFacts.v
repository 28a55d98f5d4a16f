(** * Lemmas about stack, hstack, vstack, dstack and tile *)
From Coq Require Import ZifyBool ZifyNat ZifyN.
From Verif Require Import Base ShapeModel TensorModel AxisModel MapModel ArrayModel Spec BaseFacts
  ShapeFacts ShapeFacts2 CoordFacts TensorFacts TensorFacts2 MapFacts SafeFacts ArrayFacts SplitFacts.

Ltac Zify.zify_post_hook ::= Z.div_mod_to_equations.

(** ** stack *)

Lemma stack_rejects {A} c ax (ts : list (tensor A)) parts ds0 xs0 ds xs :
  Forall2 (fun t p => repr t (fst p) (snd p)) ts parts ->
  nth_error parts 0 = Some (ds0, xs0) -> In (ds, xs) parts -> ds <> ds0 ->
  stack_vec c ax ts = Panic.
Proof.
  intros F E0 Hin Hne. unfold stack_vec.
  destruct F as [|t0 p0 ts parts H0 F]; [destruct Hin|]. cbn in E0. injection E0 as ->. cbn [fst snd] in H0.
  destruct Hin as [E|Hin]; [injection E as -> ->; congruence|].
  destruct (Forall2_in_r _ _ _ _ F Hin) as (t & Ht & Hr). cbn [fst snd] in Hr.
  cbn [for_each bind]. rewrite (repr_shape _ _ _ H0).
  assert (G : forall l, In t l -> for_each l (fun t prev =>
    match prev with
    | None => Ok (Some (tshape t))
    | Some s => assert! (shape_eqb s (tshape t)) in Ok (Some s)
    end) (Some (canon ds0)) = Panic).
  { induction l as [|y l IH]; intros Hy; [destruct Hy|]. cbn [for_each].
    destruct Hy as [->|Hy].
    - rewrite (repr_shape _ _ _ Hr). replace (shape_eqb (canon ds0) (canon ds)) with false; [reflexivity|].
      symmetry. apply not_true_iff_false. rewrite shape_eqb_canon. congruence.
    - destruct (shape_eqb (canon ds0) (tshape y)); cbn [assert_ bind]; [auto|reflexivity]. }
  rewrite G by auto. reflexivity.
Qed.

(** ** vstack *)

Lemma ones_nonempty {A} (l : list A) : l <> [] -> map (fun x => (1, x)) l <> [].
Proof. destruct l; [congruence|discriminate]. Qed.

Lemma vstack_stack {A} c ds (ts : list (tensor A)) xss :
  xss <> [] -> Forall2 (fun t xs => repr t ds xs) ts xss ->
  length ds < 5 ->
  vstack c ts = concat_axis c 0 (map (with_unit [] ds) ts).
Proof.
  intros Hne F Hd. unfold vstack.
  assert (E : map_out (fun t => let* s := insert c (tshape t) 0 1 in reshape c t s) ts = Ok (map (with_unit [] ds) ts)).
  { clear Hne. induction F as [|t xs ts xss H F IH]; cbn [map_out map]; auto.
    rewrite IH. clear IH. rewrite (repr_shape _ _ _ H). rewrite insert_canon by lia. cbn [bind].
    unfold insert_at. cbn [firstn skipn app]. rewrite as_u32_small by reflexivity.
    assert (Hs : supported (1 :: ds)) by (apply (supported_unit [] ds); cbn [app]; [apply H|lia]).
    unfold reshape. rewrite size_canon by auto. cbn [bind].
    rewrite assert_true.
    2:{ apply Nat.eqb_eq. rewrite (repr_size_prod _ _ _ H). cbn [prod]. lia. }
    reflexivity. }
  rewrite E. cbn [bind].
  assert (J : joinable [] ds (map (with_unit [] ds) ts) (map (fun xs => (1, xs)) xss)).
  { apply stackable; cbn [app]; auto; lia. }
  apply (concatenate_axis_repr c 0 [] ds _ _) in J; [exact J| |].
  - destruct xss; [congruence|discriminate].
  - split; cbn; lia.
Qed.

Lemma vstack_repr {A} c ds (ts : list (tensor A)) xss :
  xss <> [] -> Forall2 (fun t xs => repr t ds xs) ts xss ->
  length ds < 5 -> supported (length xss :: ds) -> can_alloc c (prod (length xss :: ds)) ->
  exists ys, vstack c ts = Ok (fresh (length xss :: ds) ys) /\
    length ys = prod (length xss :: ds) /\
    forall q xs, nth_error xss q = Some xs -> forall i, in_shape ds i ->
      elem (length xss :: ds) ys (q :: i) = elem ds xs i.
Proof.
  intros Hne F Hd Hs Hc. rewrite (vstack_stack c ds ts xss) by auto.
  assert (J : joinable [] ds (map (with_unit [] ds) ts) (map (fun xs => (1, xs)) xss)).
  { apply stackable; cbn [app]; auto; lia. }
  destruct (concat_axis_repr c [] ds _ _ (ones_nonempty _ Hne) J) as (ys & E & El & Ev);
    try rewrite sum_ones in *; auto.
  exists ys. split; [exact E|]. split; [exact El|].
  intros q xs Hq i Hi.
  specialize (Ev q 1 xs). rewrite nth_error_map, Hq in Ev. specialize (Ev eq_refl [] 0 i (Forall2_nil _) ltac:(lia) Hi).
  assert (q < length xss) by (apply nth_error_Some; congruence).
  rewrite sum_ones_firstn in Ev by lia. cbn [app] in Ev. rewrite Nat.add_0_r in Ev. rewrite Ev.
  reflexivity.
Qed.

(** ** dstack *)

Definition reshaped {A} (ds : list nat) (t : tensor A) : tensor A :=
  mkTensor (canon ds) (toffset t) (tsize t) (tdata t).

Lemma reshaped_repr {A} (t : tensor A) ds xs ds' :
  repr t ds xs -> supported ds' -> prod ds' = prod ds -> repr (reshaped ds' t) ds' xs.
Proof. intros [H1 H2 H3 H4 H5 H6] Hs Hp. constructor; cbn; auto. congruence. Qed.

Lemma supported_eq a b : supported a -> length b <= 6 -> prod1 b = prod1 a -> supported b.
Proof. intros [_ H] Hl E. split; auto. fold (prod1 b). rewrite E. exact H. Qed.

Lemma dstack_list {A} c ds ds' (ts : list (tensor A)) xss :
  xss <> [] -> Forall2 (fun t xs => repr t ds xs) ts xss ->
  (exists k, ds = [k] /\ ds' = [1; k; 1]) \/ (exists r k, ds = [r; k] /\ ds' = [r; k; 1]) \/ (2 < length ds /\ ds' = ds) ->
  dstack c ts = concatenate_axis c (Some 2%Z) (map (reshaped ds') ts) /\
  Forall2 (fun t xs => repr t ds' xs) (map (reshaped ds') ts) xss.
Proof.
  intros Hne F Hds.
  assert (Hfacts : supported ds -> supported ds' /\ prod ds' = prod ds).
  { intros Hs. destruct Hds as [(k & -> & ->)|[(r & k & -> & ->)|[_ ->]]].
    - split; [|cbn [prod]; lia]. apply (supported_eq [k]); [auto|cbn; lia|]. unfold prod1. cbn [map prod]. lia.
    - split; [|cbn [prod]; lia]. apply (supported_eq [r; k]); [auto|cbn; lia|]. unfold prod1. cbn [map prod]. lia.
    - auto. }
  split.
  2:{ clear Hne. induction F as [|t xs ts xss H F IH]; cbn [map]; constructor; auto.
      apply reshaped_repr with (ds := ds); auto; apply Hfacts; apply H. }
  unfold dstack.
  assert (E0 : exists t0 xs0, aget ts 0 = Ok t0 /\ repr t0 ds xs0).
  { destruct F as [|t xs ts xss H F]; [congruence|]. eexists _, _. split; [reflexivity|eauto]. }
  destruct E0 as (t0 & xs0 & -> & H0). cbn [bind]. rewrite (repr_shape _ _ _ H0).
  match goal with |- context [map_out ?f ts] => assert (E : map_out f ts = Ok (map (reshaped ds') ts)) end.
  2:{ rewrite E. reflexivity. }
  clear Hne. induction F as [|t xs ts xss H F IH]; cbn [map_out map]; auto.
  rewrite IH. rewrite (repr_shape _ _ _ H).
  replace (shape_eqb (canon ds) (canon ds)) with true by (symmetry; now apply shape_eqb_canon).
  cbn [assert_ bind]. destruct (Hfacts (repr_supported _ _ _ H)) as [Hs' Hp'].
  assert (Er : reshape c t (canon ds') = Ok (reshaped ds' t)).
  { unfold reshape. rewrite size_canon by auto. cbn [bind]. rewrite assert_true; [reflexivity|].
    apply Nat.eqb_eq. now rewrite (repr_size_prod _ _ _ H). }
  destruct Hds as [(k & -> & ->)|[(r & k & -> & ->)|[Hl ->]]].
  - cbn [rank canon length]. replace (tsize t) with k.
    2:{ rewrite (repr_size_prod _ _ _ H). cbn [prod]. lia. }
    rewrite from_slice_dims_supported by auto. cbn [bind]. rewrite Er. reflexivity.
  - cbn [rank canon length]. change (rows (canon [r; k])) with (Ok r). change (cols (canon [r; k])) with (Ok k).
    cbn [bind]. rewrite from_slice_dims_supported by auto. cbn [bind]. rewrite Er. reflexivity.
  - cbn [rank canon]. destruct (length ds) as [|[|[|m]]] eqn:El; try lia. cbn [bind].
    do 2 f_equal. unfold reshaped. rewrite <- (repr_shape _ _ _ H). now destruct t.
Qed.

Lemma dstack_scalar {A} c (t : tensor A) ts x : repr t [] x -> dstack c (t :: ts) = Panic.
Proof.
  intros H. unfold dstack. cbn [aget nth_error bind map_out]. rewrite (repr_shape _ _ _ H).
  replace (shape_eqb (canon []) (canon [])) with true by reflexivity. reflexivity.
Qed.

(** Tensors of rank 1 and 2 are stacked along a new last axis (rank 1 also gets a leading
    one). *)
Lemma dstack_low_repr {A} c ds d1 (ts : list (tensor A)) xss :
  xss <> [] -> Forall2 (fun t xs => repr t ds xs) ts xss ->
  (exists k, ds = [k] /\ d1 = [1; k]) \/ (exists r k, ds = [r; k] /\ d1 = [r; k]) ->
  supported (d1 ++ [length xss]) -> can_alloc c (prod (d1 ++ [length xss])) ->
  exists ys, dstack c ts = Ok (fresh (d1 ++ [length xss]) ys) /\
    length ys = prod (d1 ++ [length xss]) /\
    forall q xs, nth_error xss q = Some xs -> forall i, in_shape d1 i ->
      elem (d1 ++ [length xss]) ys (i ++ [q]) = nth_error xs (ravel d1 i).
Proof.
  intros Hne F Hds Hs Hc.
  destruct (dstack_list c ds (d1 ++ [1]) ts xss Hne F) as [E F'].
  { destruct Hds as [(k & -> & ->)|(r & k & -> & ->)]; [left; eauto|right; left; eauto]. }
  assert (J : joinable d1 [] (map (reshaped (d1 ++ [1])) ts) (map (fun xs => (1, xs)) xss)).
  { clear -F'. induction F'; cbn [map]; constructor; auto. }
  assert (L2 : length d1 = 2) by (destruct Hds as [(k & -> & ->)|(r & k & -> & ->)]; reflexivity).
  rewrite E. rewrite (concatenate_axis_repr c 2 d1 [] _ _ (ones_nonempty _ Hne) J).
  2:{ rewrite L2. split; cbn; lia. }
  destruct (concat_axis_repr c d1 [] _ _ (ones_nonempty _ Hne) J) as (ys & E' & El & Ev);
    try rewrite sum_ones in *; auto.
  { cbn; lia. }
  exists ys. split; [exact E'|]. split; [exact El|].
  intros q xs Hq i Hi.
  specialize (Ev q 1 xs). rewrite nth_error_map, Hq in Ev. specialize (Ev eq_refl i 0 [] Hi ltac:(lia) (Forall2_nil _)).
  assert (q < length xss) by (apply nth_error_Some; congruence).
  rewrite sum_ones_firstn in Ev by lia. rewrite Nat.add_0_r in Ev. rewrite Ev.
  unfold elem. rewrite ravel_app by now apply in_shape_length. cbn [ravel prod]. f_equal. lia.
Qed.

(** ** tile *)

(** The positions that a tiling shows, outermost axis first: [(d, m)] is an axis of length
    [d] repeated [m] times. *)
Fixpoint tiles (axes : list (nat * nat)) (off : nat) : list nat :=
  match axes with
  | [] => [off]
  | (d, m) :: rest =>
    concat (repeat (flat_map (fun i => tiles rest (off + i * prod (map fst rest))) (seq 0 d)) m)
  end.

Definition tiled (axes : list (nat * nat)) : list nat := map (fun p => fst p * snd p) axes.

Lemma concat_repeat_length {A} (l : list A) m : length (concat (repeat l m)) = m * length l.
Proof. induction m; cbn; auto. rewrite app_length. lia. Qed.

Lemma flat_map_length_const {A B} (f : A -> list B) l n :
  (forall x, In x l -> length (f x) = n) -> length (flat_map f l) = length l * n.
Proof. induction l; cbn; intros H; auto. rewrite app_length, H, IHl by auto. lia. Qed.

Lemma tiles_length axes off : length (tiles axes off) = prod (tiled axes).
Proof.
  revert off. induction axes as [|[d m] axes IH]; intros off; [reflexivity|].
  cbn [tiles tiled map prod fst snd]. fold (tiled axes).
  rewrite concat_repeat_length. rewrite flat_map_length_const with (n := prod (tiled axes)) by auto.
  rewrite seq_length. lia.
Qed.

Lemma nth_concat_repeat {A} (l : list A) m i :
  i < m * length l -> nth_error (concat (repeat l m)) i = nth_error l (i mod length l).
Proof.
  revert i. induction m as [|m IH]; intros i Hi; cbn [repeat concat]; [lia|].
  assert (Hl : length l <> 0) by lia.
  destruct (Nat.lt_ge_cases i (length l)).
  - rewrite nth_error_app1 by auto. now rewrite Nat.mod_small.
  - rewrite nth_error_app2 by auto. rewrite IH by nia. f_equal.
    replace i with ((i - length l) + 1 * length l) at 2 by lia. now rewrite Nat.mod_add.
Qed.

Lemma nth_flat_map_const {A B} (f : A -> list B) l n k i x :
  (forall x, In x l -> length (f x) = n) -> nth_error l k = Some x -> i < n ->
  nth_error (flat_map f l) (k * n + i) = nth_error (f x) i.
Proof.
  revert k. induction l as [|y l IH]; intros k Hn Hk Hi; [destruct k; discriminate|].
  cbn [flat_map]. destruct k as [|k].
  - injection Hk as ->. rewrite nth_error_app1; [reflexivity|]. rewrite Hn by (left; auto). lia.
  - rewrite nth_error_app2 by (rewrite Hn by (left; auto); lia). rewrite (Hn y) by (left; auto).
    replace (S k * n + i - n) with (k * n + i) by lia. apply IH; auto. intros. apply Hn. right. auto.
Qed.

(** Coordinates taken modulo the axis lengths. *)
Fixpoint wrap_idx (idx ds : list nat) : list nat :=
  match idx, ds with
  | i :: idx', d :: ds' => i mod d :: wrap_idx idx' ds'
  | _, _ => []
  end.

Lemma tiles_elem axes off idx :
  in_shape (tiled axes) idx ->
  nth_error (tiles axes off) (ravel (tiled axes) idx) = Some (off + ravel (map fst axes) (wrap_idx idx (map fst axes))).
Proof.
  revert off idx. induction axes as [|[d m] axes IH]; intros off idx H.
  - inversion H; subst. cbn. now rewrite Nat.add_0_r.
  - cbn [tiled map fst snd] in *. fold (tiled axes) in *.
    inversion H as [|i ? idx' ? Hi H' E1 E2]; subst. cbn [ravel tiles wrap_idx map fst].
    pose proof (ravel_lt _ _ H') as Hr. set (N := prod (tiled axes)) in *.
    assert (Hd : 0 < d) by nia. assert (Hlen : length (flat_map (fun i => tiles axes (off + i * prod (map fst axes))) (seq 0 d)) = d * N).
    { rewrite flat_map_length_const with (n := N) by (intros; apply tiles_length). now rewrite seq_length. }
    rewrite nth_concat_repeat by (rewrite Hlen; nia). rewrite Hlen.
    replace ((i * N + ravel (tiled axes) idx') mod (d * N)) with (i mod d * N + ravel (tiled axes) idx').
    2:{ pose proof (Nat.mod_upper_bound i d ltac:(lia)).
        apply Nat.mod_unique with (q := i / d); [nia|]. rewrite (Nat.div_mod i d) at 1 by lia. nia. }
    pose proof (Nat.mod_upper_bound i d ltac:(lia)) as Hm.
    rewrite nth_flat_map_const with (n := N) (x := i mod d).
    + rewrite IH by auto. f_equal. lia.
    + intros. apply tiles_length.
    + rewrite nth_error_seq; [reflexivity|auto].
    + auto.
Qed.

(** The elements of [xs] at a list of positions. *)
Definition vals {A} (xs : list A) (l : list nat) : list A :=
  flat_map (fun p => match nth_error xs p with Some v => [v] | None => [] end) l.

Lemma vals_app {A} (xs : list A) a b : vals xs (a ++ b) = vals xs a ++ vals xs b.
Proof. apply flat_map_app. Qed.

Lemma vals_flat_map {A B} (xs : list A) (f : B -> list nat) l :
  vals xs (flat_map f l) = flat_map (fun x => vals xs (f x)) l.
Proof. induction l; [reflexivity|]. cbn [flat_map]. now rewrite vals_app, IHl. Qed.

Lemma vals_repeat {A} (xs : list A) l m : vals xs (concat (repeat l m)) = flat_map (fun _ => vals xs l) (seq 0 m).
Proof.
  generalize 0. induction m as [|m IH]; intros n; [reflexivity|].
  cbn [repeat concat seq flat_map]. now rewrite vals_app, (IH (S n)).
Qed.

Lemma vals_spec {A} (xs : list A) l :
  Forall (fun p => p < length xs) l ->
  length (vals xs l) = length l /\
  forall i p, nth_error l i = Some p -> nth_error (vals xs l) i = nth_error xs p.
Proof.
  induction 1 as [|p l Hp H [IH1 IH2]]; [split; [reflexivity|intros [|i]; discriminate]|].
  destruct (nth_error_lt_ex xs p Hp) as [v Ev].
  unfold vals. cbn [flat_map]. fold (vals xs l). rewrite Ev. cbn [app length]. split; [congruence|].
  intros [|i] q E; cbn in E |- *; [congruence|auto].
Qed.

Lemma vals_range {A} (xs : list A) off n :
  off + n <= length xs -> vals xs (seq off n) = firstn n (skipn off xs).
Proof.
  intros H. apply nth_error_ext. intros i.
  destruct (vals_spec xs (seq off n)) as [HL HN].
  { apply Forall_forall. intros p Hp. apply in_seq in Hp. lia. }
  rewrite seq_length in HL.
  destruct (Nat.lt_ge_cases i n).
  - rewrite (HN i (off + i)) by now apply nth_error_seq.
    rewrite nth_error_firstn, nth_error_skipn. replace (i <? n) with true by (symmetry; now apply Nat.ltb_lt).
    reflexivity.
  - transitivity (@None A); [apply nth_error_None; lia|symmetry; apply nth_error_None].
    rewrite firstn_length. lia.
Qed.

Lemma tiles_range axes off :
  Forall (fun p => off <= p < off + prod (map fst axes)) (tiles axes off).
Proof.
  revert off. induction axes as [|[d m] axes IH]; intros off; cbn [tiles map fst prod].
  - constructor; [lia|constructor].
  - apply Forall_forall. intros p Hp. apply in_concat in Hp. destruct Hp as (l & Hl & Hp).
    apply repeat_spec in Hl. subst l. apply in_flat_map in Hp. destruct Hp as (i & Hi & Hp). apply in_seq in Hi.
    pose proof (proj1 (Forall_forall _ _) (IH (off + i * prod (map fst axes))) p Hp) as B. cbn in B.
    assert (i * prod (map fst axes) + prod (map fst axes) <= d * prod (map fst axes)) by nia. lia.
Qed.

Lemma firstn_S_nth {A} (l : list A) i v :
  nth_error l i = Some v -> firstn (S i) l = firstn i l ++ [v].
Proof.
  revert i. induction l as [|x l IH]; intros [|i] E; cbn in E |- *; try discriminate; [congruence|].
  f_equal. now apply IH.
Qed.

Lemma flat_map_range off z d : flat_map (fun i => [off + i * 1]) (seq z d) = seq (off + z) d.
Proof.
  revert z. induction d as [|d IH]; intros z; cbn [seq flat_map app]; auto.
  rewrite IH. f_equal; [lia|f_equal; lia].
Qed.

Definition filled {A} (w : list A) (k : nat) : buf A * nat := (map Some w ++ repeat None k, length w).

Lemma loop_append {A} n N (body : nat -> buf A * nat -> outcome (buf A * nat)) (V : nat -> list A) k :
  (forall i w k, i < n -> body i (filled w (N + k)) = Ok (filled (w ++ V i) k)) ->
  forall w, for_ n body (filled w (n * N + k)) = Ok (filled (w ++ flat_map V (seq 0 n)) k).
Proof.
  intros H w.
  destruct (for_inv (fun i st => st = filled (w ++ flat_map V (seq 0 i)) ((n - i) * N + k)) n body (filled w (n * N + k)))
    as (s' & E & ->).
  - intros i s Hi ->. replace ((n - i) * N + k) with (N + ((n - S i) * N + k)) by nia.
    rewrite H by auto. eexists. split; [reflexivity|]. f_equal. rewrite <- app_assoc. f_equal.
    rewrite seq_S, flat_map_app. cbn. now rewrite app_nil_r.
  - cbn [seq flat_map]. rewrite app_nil_r, Nat.sub_0_r. reflexivity.
  - rewrite E. f_equal. rewrite Nat.sub_diag. reflexivity.
Qed.

(** The axes of a tiling up to reversed position [n], outermost first. *)
Definition axes_r (sr mr : list nat) (n : nat) : list (nat * nat) :=
  map (fun j => (nth j sr 1, nth j mr 1)) (rev (seq 0 n)).

Lemma axes_r_S sr mr n : axes_r sr mr (S n) = (nth n sr 1, nth n mr 1) :: axes_r sr mr n.
Proof. unfold axes_r. rewrite seq_S, rev_app_distr. reflexivity. Qed.

Lemma prod_firstn_S n (l : list nat) : prod (firstn (S n) l) = nth n l 1 * prod (firstn n l).
Proof.
  revert n. induction l as [|x l IH]; intros n; [destruct n; reflexivity|].
  destruct n as [|n]; [cbn; lia|]. cbn [firstn prod nth] in *. rewrite IH. lia.
Qed.

Lemma axes_r_prod sr mr n : prod (map fst (axes_r sr mr n)) = prod (firstn n sr).
Proof.
  induction n as [|n IH]; [reflexivity|]. rewrite axes_r_S, prod_firstn_S. cbn [map fst prod]. now rewrite IH.
Qed.

Lemma tile_rec_spec {A} c (xs : list A) sr mr j :
  (Z.of_nat (prod1 sr) < two32)%Z ->
  forall off w k, off + prod (firstn (S j) sr) <= length xs ->
  tile_rec c xs off (prod (firstn (S j) sr)) sr mr j (filled w (prod (tiled (axes_r sr mr (S j))) + k))
  = Ok (filled (w ++ vals xs (tiles (axes_r sr mr (S j)) off)) k).
Proof.
  intros Hb. induction j as [|j IH]; intros off w k Hoff.
  - rewrite axes_r_S in *. cbn [axes_r seq rev map tiles tiled prod fst snd] in *.
    rewrite prod_firstn_S in *. cbn [firstn prod] in *. rewrite Nat.mul_1_r in *.
    set (d := nth 0 sr 1) in *. cbn [tile_rec].
    replace (match nth_error mr 0 with Some m => m | None => 1 end) with (nth 0 mr 1) by (destruct mr; reflexivity).
    set (m := nth 0 mr 1). rewrite vals_repeat.
    replace (d * m * 1 + k) with (m * d + k) by lia.
    apply (loop_append m d _ (fun _ => vals xs (flat_map (fun i => [off + i * 1]) (seq 0 d)))).
    intros _ w' k' _.
    replace (flat_map (fun i => [off + i * 1]) (seq 0 d)) with (seq off d).
    2:{ rewrite flat_map_range, Nat.add_0_r. reflexivity. }
    rewrite vals_range by auto. unfold filled at 1.
    destruct (for_inv (fun i o => o = map Some (w' ++ firstn i (firstn d (skipn off xs))) ++ repeat None (d - i + k'))
      d (fun i o => let* v := aget xs (off + i) in write o (length w' + i) v)
      (map Some w' ++ repeat None (d + k'))) as (o' & E & ->).
    + intros i o Hi ->. destruct (nth_error_lt_ex xs (off + i) ltac:(lia)) as [v Ev].
      rewrite (aget_ok _ _ _ Ev). cbn [bind].
      replace (d - i + k') with (S (d - S i + k')) by lia.
      set (pre := firstn i (firstn d (skipn off xs))).
      assert (Hl : length pre = i) by (unfold pre; rewrite !firstn_length, skipn_length; lia).
      replace (length w' + i) with (length (w' ++ pre)) by (rewrite app_length; lia).
      rewrite write_next. eexists. split; [reflexivity|]. do 2 f_equal. rewrite <- app_assoc. f_equal.
      unfold pre. symmetry. apply firstn_S_nth. rewrite nth_error_firstn, nth_error_skipn.
      replace (i <? d) with true by (symmetry; now apply Nat.ltb_lt). exact Ev.
    + cbn [firstn]. rewrite app_nil_r, Nat.sub_0_r. reflexivity.
    + rewrite E. cbn [bind]. unfold filled. rewrite Nat.sub_diag. cbn [Nat.add].
      rewrite firstn_firstn, Nat.min_id. do 3 f_equal.
      rewrite app_length, firstn_length, skipn_length. lia.
  - remember (S j) as j1 eqn:Ej. rewrite axes_r_S. cbn [tiled map prod fst snd tiles]. fold (tiled (axes_r sr mr j1)).
    rewrite axes_r_prod. rewrite prod_firstn_S in *. 
    set (d := nth j1 sr 1) in *. set (m := nth j1 mr 1) in *. set (P := prod (firstn j1 sr)) in *.
    set (N := prod (tiled (axes_r sr mr j1))) in *.
    rewrite vals_repeat. replace (d * m * N + k) with (m * (d * N) + k) by lia.
    assert (U : forall x_len st, tile_rec c xs off x_len sr mr j1 st =
      for_ (match nth_error mr j1 with Some m => m | None => 1 end) (fun _ '(o, offset) =>
        match nth_error sr j1 with
        | Some d =>
          let* x_len := product64 c 1 (firstn j1 sr) in
          for_ d (fun i st => tile_rec c xs (off + i * x_len) x_len sr mr j st) (o, offset)
        | None => tile_rec c xs off x_len sr mr j (o, offset)
        end) st) by (intros; rewrite Ej; reflexivity).
    rewrite U. clear U.
    replace (match nth_error mr j1 with Some m => m | None => 1 end) with m.
    2:{ unfold m. clear. revert j1. induction mr; intros [|j1]; cbn; auto. }
    apply (loop_append m (d * N) _ (fun _ => vals xs (flat_map (fun i => tiles (axes_r sr mr j1) (off + i * P)) (seq 0 d)))).
    intros _ w' k' _. unfold filled at 1.
    assert (Hb1 : (Z.of_nat (prod1 (firstn j1 sr)) < two64)%Z).
    { pose proof (prod1_firstn_le j1 sr). unfold two32, two64 in *. lia. }
    destruct (nth_error sr j1) as [d'|] eqn:Ed.
    + assert (d' = d) as -> by (unfold d; symmetry; now apply nth_error_nth).
      rewrite product64_ok by lia. cbn [bind]. rewrite Nat.mul_1_l. fold P.
      rewrite vals_flat_map.
      change (map Some w' ++ repeat None (d * N + k'), length w') with (filled w' (d * N + k')).
      apply (loop_append d N).
      intros i w2 k2 Hi. apply IH. fold P. nia.
    + assert (d = 1) as Hd by (unfold d; apply nth_overflow; now apply nth_error_None).
      rewrite Hd. cbn [seq flat_map]. rewrite app_nil_r, Nat.add_0_r, !Nat.mul_1_l.
      apply IH. fold P. nia.
Qed.

Lemma zip_with_combine {A B C} (f : A -> B -> C) a b :
  zip_with f a b = map (fun p => f (fst p) (snd p)) (combine a b).
Proof. revert b. induction a; intros [|y b]; cbn; auto. now rewrite IHa. Qed.

Lemma wrap_zip idx ds : wrap_idx idx ds = zip_with Nat.modulo idx ds.
Proof. revert ds. induction idx; intros [|d ds]; cbn; auto. now rewrite IHidx. Qed.

Lemma pad_to_length r l : length l <= r -> length (pad_to r l) = r.
Proof. intros. unfold pad_to. rewrite app_length, repeat_length. lia. Qed.

Lemma nth_pad_to r l p : length l <= r -> p < r -> nth p (pad_to r l) 1 = nth (r - 1 - p) (rev l) 1.
Proof.
  intros Hl Hp. unfold pad_to. destruct (Nat.lt_ge_cases p (r - length l)).
  - rewrite app_nth1 by now rewrite repeat_length.
    rewrite nth_repeat. symmetry. apply nth_overflow. rewrite rev_length. lia.
  - rewrite app_nth2 by now rewrite repeat_length. rewrite repeat_length.
    rewrite rev_nth by lia. f_equal. lia.
Qed.

Lemma combine_nth_error {A B} (a : list A) (b : list B) i x y :
  nth_error a i = Some x -> nth_error b i = Some y -> nth_error (combine a b) i = Some (x, y).
Proof.
  revert b i. induction a as [|x' a IH]; intros [|y' b] [|i]; cbn; try discriminate; [congruence|]. apply IH.
Qed.

Lemma axes_r_combine ds ms r :
  length ds <= r -> length ms <= r ->
  axes_r (rev ds) (rev ms) r = combine (pad_to r ds) (pad_to r ms).
Proof.
  intros Hd Hm. apply nth_error_ext. intros p.
  destruct (Nat.lt_ge_cases p r) as [Hp|Hp].
  - unfold axes_r. rewrite nth_error_map.
    replace (nth_error (rev (seq 0 r)) p) with (Some (r - 1 - p)).
    2:{ symmetry. rewrite (nth_error_nth' _ 0) by (rewrite rev_length, seq_length; auto). f_equal.
        rewrite rev_nth by (now rewrite seq_length). rewrite seq_length, seq_nth by lia. lia. }
    cbn [option_map]. rewrite <- !nth_pad_to by auto. symmetry.
    apply combine_nth_error; apply nth_error_nth'; now rewrite pad_to_length.
  - transitivity (@None (nat * nat)); [|symmetry]; apply nth_error_None.
    + unfold axes_r. rewrite map_length, rev_length, seq_length. auto.
    + rewrite combine_length, !pad_to_length by auto. lia.
Qed.

Lemma map_fst_combine {A B} (a : list A) (b : list B) : length a = length b -> map fst (combine a b) = a.
Proof. revert b. induction a; intros [|y b]; cbn; intros E; try lia; auto. now rewrite IHa by lia. Qed.

Lemma prod_repeat1 n : prod (repeat 1 n) = 1.
Proof. induction n; cbn; lia. Qed.

Lemma prod_pad_to r l : prod (pad_to r l) = prod l.
Proof. unfold pad_to. rewrite prod_app, prod_repeat1. lia. Qed.

Lemma prod_zip a b : length a = length b -> prod (zip_with Nat.mul a b) = prod a * prod b.
Proof. revert b. induction a; intros [|y b]; cbn; intros E; try lia. rewrite IHa by lia. lia. Qed.

Lemma ravel_ones n ds idx : ravel (repeat 1 n ++ ds) (wrap_idx idx (repeat 1 n ++ ds)) = ravel ds (wrap_idx (skipn n idx) ds).
Proof.
  revert idx. induction n as [|n IH]; intros idx; cbn [repeat app skipn]; auto.
  destruct idx as [|i idx]; cbn [wrap_idx ravel skipn].
  - destruct ds; reflexivity.
  - rewrite Nat.mod_1_r. cbn [Nat.mul Nat.add]. apply IH.
Qed.

Lemma prod_rev l : prod (rev l) = prod l.
Proof. induction l; cbn; auto. rewrite prod_app. cbn. rewrite IHl. lia. Qed.

Lemma tile_repr {A} c (t : tensor A) ds xs mt ms r :
  repr t ds xs -> repr mt [length ms] ms -> 0 < prod ds -> 0 < prod ms ->
  r = Nat.max (length ds) (length ms) -> 0 < r ->
  supported (zip_with Nat.mul (pad_to r ds) (pad_to r ms)) ->
  exists ys, tile c t mt = Ok (fresh (zip_with Nat.mul (pad_to r ds) (pad_to r ms)) ys) /\
    length ys = prod (zip_with Nat.mul (pad_to r ds) (pad_to r ms)) /\
    forall idx, in_shape (zip_with Nat.mul (pad_to r ds) (pad_to r ms)) idx ->
      elem (zip_with Nat.mul (pad_to r ds) (pad_to r ms)) ys idx
      = elem ds xs (zip_with Nat.modulo (skipn (r - length ds) idx) ds).
Proof.
  intros H Hm Pd Pm Er Hr Hsup.
  set (ax := axes_r (rev ds) (rev ms) r).
  assert (Eax : ax = combine (pad_to r ds) (pad_to r ms)) by (apply axes_r_combine; lia).
  assert (Eod : zip_with Nat.mul (pad_to r ds) (pad_to r ms) = tiled ax) by (rewrite zip_with_combine, Eax; reflexivity).
  assert (Ep : prod (zip_with Nat.mul (pad_to r ds) (pad_to r ms)) = prod ds * prod ms).
  { rewrite prod_zip by (rewrite !pad_to_length; lia). now rewrite !prod_pad_to. }
  pose proof (supported_prod _ Hsup) as Hb. rewrite Ep in Hb.
  pose proof (repr_supported _ _ _ H) as Hds. pose proof (repr_len _ _ _ H) as Hlen.
  assert (Efst : map fst ax = pad_to r ds) by (rewrite Eax; apply map_fst_combine; rewrite !pad_to_length; lia).
  destruct (vals_spec xs (tiles ax 0)) as [VL VN].
  { eapply Forall_impl; [|apply tiles_range]. cbn. intros p B. rewrite Hlen. rewrite Efst, prod_pad_to in B. lia. }
  rewrite tiles_length, <- Eod in VL.
  exists (vals xs (tiles ax 0)). split; [|split; [exact VL|]].
  - unfold tile. rewrite (repr_shape _ _ _ H), as_vec_canon by (now apply supported_len). cbn [bind].
    rewrite (repr_as_slice _ _ _ Hm). cbn [bind]. rewrite size_canon by auto. cbn [bind].
    rewrite product64_ok by (rewrite prod1_id by auto; unfold two32, two64 in *; nia). cbn [bind]. rewrite Nat.mul_1_l.
    rewrite (repr_as_slice _ _ _ H). cbn [bind]. rewrite (repr_shape _ _ _ Hm).
    assert (EL : len c (canon [length ms]) = Ok (length ms)).
    { apply len_canon. cbn [length]. lia. }
    rewrite EL. cbn [bind rank canon]. fold (canon ds). rewrite <- Er.
    destruct (for_inv (fun i os => os = map (fun j => nth j (rev ds) 1 * nth j (rev ms) 1) (seq 0 i)) r
      (fun i os =>
        let* tile_dim := (if i <? length ds then aget (rev ds) i else Ok 1) in
        let* repeat_dim := (if i <? length ms then aget (rev ms) i else Ok 1) in
        let* d := umul c tile_dim repeat_dim in
        Ok (os ++ [d])) []) as (os & Eos & ->).
    { intros i os Hi ->.
      assert (E1 : (if i <? length ds then aget (rev ds) i else Ok 1) = Ok (nth i (rev ds) 1)).
      { destruct (Nat.ltb_spec i (length ds)).
        - apply aget_nth. now rewrite rev_length.
        - rewrite nth_overflow by (now rewrite rev_length). reflexivity. }
      assert (E2 : (if i <? length ms then aget (rev ms) i else Ok 1) = Ok (nth i (rev ms) 1)).
      { destruct (Nat.ltb_spec i (length ms)).
        - apply aget_nth. now rewrite rev_length.
        - rewrite nth_overflow by (now rewrite rev_length). reflexivity. }
      rewrite E1, E2. cbn [bind].
      assert (B1 : nth i (rev ds) 1 <= prod ds).
      { destruct (Nat.lt_ge_cases i (length (rev ds))) as [Hi'|Hi'].
        - rewrite <- (prod1_id ds Pd). apply prod1_in. apply in_rev. now apply nth_In.
        - rewrite nth_overflow by auto. lia. }
      assert (B2 : nth i (rev ms) 1 <= prod ms).
      { destruct (Nat.lt_ge_cases i (length (rev ms))) as [Hi'|Hi'].
        - rewrite <- (prod1_id ms Pm). apply prod1_in. apply in_rev. now apply nth_In.
        - rewrite nth_overflow by auto. lia. }
      rewrite umul_ok by (unfold two32, two64 in *; nia). cbn [bind]. eexists. split; [reflexivity|].
      rewrite seq_S, map_app. reflexivity. }
    { reflexivity. }
    rewrite Eos. cbn [bind]. rewrite umul_ok by (unfold two32, two64 in *; nia). cbn [bind].
    replace (rev (map (fun j => nth j (rev ds) 1 * nth j (rev ms) 1) (seq 0 r))) with (tiled ax).
    2:{ unfold ax, axes_r, tiled. rewrite map_map, map_rev. reflexivity. }
    rewrite <- Eod. rewrite from_vec_dims_supported; [|auto|apply prod_pos_inv; rewrite Ep; nia].
    cbn [bind]. rewrite usub_ok.
    2: lia.
    2:{ pose proof (supported_len _ Hds). pose proof (supported_len _ (repr_supported _ _ _ H)).
        pose proof (supported_len _ Hsup) as L6. rewrite zip_with_combine, map_length, combine_length, !pad_to_length in L6 by lia.
        unfold two64. lia. }
    cbn [bind]. unfold unsafe_init_.
    rewrite (unsafe_init_filled c (prod ms * prod ds) (zip_with Nat.mul (pad_to r ds) (pad_to r ms)) _ tt
      (Ok (tt, vals xs (tiles ax 0)))).
    + reflexivity.
    + left. nia.
    + auto.
    + lia.
    + pose proof (tile_rec_spec c xs (rev ds) (rev ms) (r - 1)) as T.
      replace (S (r - 1)) with r in T by lia. fold ax in T.
      assert (Ef : prod (firstn r (rev ds)) = length xs).
      { rewrite firstn_all2 by (rewrite rev_length; lia). now rewrite prod_rev. }
      rewrite Ef in T.
      specialize (T ltac:(unfold prod1; rewrite map_rev, prod_rev; apply (supported_prod1 _ Hds)) 0 [] 0 ltac:(lia)).
      cbn [app] in T. unfold filled in T. cbn [map app length] in T.
      replace (prod (tiled ax) + 0) with (prod ms * prod ds) in T by (rewrite <- Eod; lia).
      rewrite T. cbn [bind repeat]. rewrite app_nil_r. reflexivity.
    + intros st vs [= _ <-]. lia.
  - intros idx Hi. unfold elem. rewrite Eod in *.
    pose proof (tiles_elem ax 0 idx Hi) as T.
    rewrite (VN _ _ T). f_equal. cbn [Nat.add]. rewrite Efst. unfold pad_to. rewrite ravel_ones, wrap_zip. reflexivity.
Qed.
