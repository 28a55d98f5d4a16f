(** * Facts about the initialisers *)
From Verif Require Import Base ShapeModel TensorModel AxisModel MapModel ArrayModel Spec
  BaseFacts SafeFacts ShapeFacts CoordFacts TensorFacts ShapeFacts2 MapFacts ArrayFacts SplitFacts
  FloatModel InitModel.
Ltac Zify.zify_post_hook ::= Z.div_mod_to_equations.

(** ** Tables *)

Lemma rindexed2 {V} c n m (f : unit -> list nat -> outcome (unit * V)) (v : nat -> nat -> V) :
  supported [n; m] -> can_alloc c (n * m) ->
  (forall i j, i < n -> j < m -> f tt [j; i] = Ok (tt, v i j)) ->
  exists ys, (let* '(_, r) := init_rindexed c (canon [n; m]) f tt in Ok r) = Ok (fresh [n; m] ys) /\
    length ys = n * m /\
    forall i j, i < n -> j < m -> elem [n; m] ys [i; j] = Some (v i j).
Proof.
  intros Hs Ha Hf.
  assert (Hp : prod [n; m] = n * m) by (cbn; lia).
  rewrite init_rindexed_canon by (auto; now rewrite Hp).
  rewrite (traverse_ext _ (fun st idx => Ok (st, v (nth 0 idx 0) (nth 1 idx 0)))).
  2:{ intros [] idx Hi. apply coords_in in Hi.
      inversion Hi as [|i ? ? l Hin Hl]; subst. inversion Hl as [|j ? ? l' Hjm Hn]; subst.
      inversion Hn; subst. cbn. now apply Hf. }
  rewrite traverse_pure. cbn [bind].
  eexists. split; [reflexivity|]. split.
  - now rewrite map_length, coords_length, Hp.
  - intros i j Hi Hj. unfold elem.
    rewrite (map_nth_error _ _ _ (d := [i; j])); [reflexivity|].
    apply coords_nth. repeat constructor; auto.
Qed.

Lemma unsafe_init_table {A} c n ds (f : buf A -> outcome (buf A)) (g : nat -> A) (pos : nat -> nat) :
  can_alloc c n -> supported ds -> n = prod ds ->
  (forall o, f o = for_ n (fun i b => write b (pos i) (g i)) o) ->
  (forall i, i < n -> pos i < n) ->
  (forall i j, i < n -> j < n -> pos i = pos j -> i = j) ->
  (forall p, p < n -> exists i, i < n /\ pos i = p) ->
  exists ys, unsafe_init_ c n (canon ds) f = Ok (fresh ds ys) /\ length ys = n /\
    forall i, i < n -> nth_error ys (pos i) = Some (g i).
Proof.
  intros Ha Hs Hn Hf Hb Hi Hsur.
  destruct (unsafe_init_scatter c n ds (fun i b => let* v := aget (map g (seq 0 n)) i in write b (pos i) v)
              (map g (seq 0 n)) (fun i => i) pos f) as (ys & E & L & Hy); auto.
  - intros o. rewrite Hf. apply for_ext. intros i b Hlt.
    rewrite (aget_ok _ _ (g i)); [reflexivity|]. now rewrite nth_error_map_seq.
  - intros i Hlt. now rewrite map_length, seq_length.
  - exists ys. repeat split; auto. intros i Hlt. rewrite Hy by auto. now rewrite nth_error_map_seq.
Qed.

(** ** Triangles of matrices *)

Lemma tri_mask_repr {T} c keep (zero : T) (t : tensor T) ds r k xs :
  repr t (ds ++ [r; k]) xs -> 0 < r -> 0 < k -> can_alloc c (length xs) ->
  exists ys, tri_mask c keep zero t = Ok (fresh (ds ++ [r; k]) ys) /\
    length ys = prod (ds ++ [r; k]) /\
    forall i1 j i, in_shape ds i1 -> j < r -> i < k ->
      elem (ds ++ [r; k]) ys (i1 ++ [j; i])
      = if keep i j then elem (ds ++ [r; k]) xs (i1 ++ [j; i]) else Some zero.
Proof.
  intros H Hr Hk Ha.
  pose proof (repr_supported _ _ _ H) as Hs. pose proof (supported_len _ Hs) as Hl.
  assert (Hp : prod (ds ++ [r; k]) = prod ds * (r * k)) by (rewrite prod_app; cbn; lia).
  unfold tri_mask. rewrite (repr_shape _ _ _ H).
  replace (2 <=? rank (canon (ds ++ [r; k]))) with true
    by (symmetry; apply Nat.leb_le; cbn [rank canon]; rewrite app_length; cbn; lia).
  cbn [assert_ bind]. rewrite size_canon by auto. cbn [bind].
  pose (v p := if keep (p mod k) (p mod (r * k) / k) then nth p xs zero else zero).
  destruct (unsafe_init_table c (prod (ds ++ [r; k])) (ds ++ [r; k])
     (fun o =>
        let* x := as_slice t in
        let* rows := rows (canon (ds ++ [r; k])) in
        let* cols := cols (canon (ds ++ [r; k])) in
        let* n := udiv (prod (ds ++ [r; k])) (rows * cols) in
        for_ n (fun k o => for_ rows (fun j o => for_ cols (fun i o =>
              let index := k * rows * cols + j * cols + i in
              let* v := (if keep i j then aget x index else Ok zero) in
              write o index v) o) o) o) v (fun p => p)) as (ys & E & L & Hy); auto.
  - rewrite <- (repr_len _ _ _ H). auto.
  - intros o. rewrite (repr_as_slice _ _ _ H). cbn [bind].
    rewrite rows_canon, cols_canon by auto.
    destruct (last2 ds r k) as [-> ->]. cbn [bind].
    rewrite udiv_ok by nia. cbn [bind].
    rewrite Hp, Nat.div_mul by nia.
    rewrite (for_nest3 (prod ds) r k (fun x j i o =>
      let* v := (if keep i j then aget xs (x * r * k + j * k + i) else Ok zero) in
      write o (x * r * k + j * k + i) v)).
    apply for_ext. intros p b Hlt.
    assert (Ep : p / (r * k) * r * k + p mod (r * k) / k * k + (p mod (r * k)) mod k = p).
    { rewrite <- Nat.add_assoc, div_mod_l, <- Nat.mul_assoc, div_mod_l. reflexivity. }
    rewrite Ep. unfold v.
    replace ((p mod (r * k)) mod k) with (p mod k).
    2:{ rewrite (Nat.mul_comm r k), Nat.mod_mul_r by lia.
        rewrite (Nat.mul_comm k (_ mod r)), Nat.mod_add by lia. now rewrite Nat.mod_mod by lia. }
    destruct (keep _ _); cbn [bind]; [|reflexivity].
    rewrite (aget_ok _ _ (nth p xs zero)); [reflexivity|].
    apply nth_error_nth'. rewrite (repr_len _ _ _ H), Hp. auto.
  - eauto.
  - exists ys. split; [exact E|]. split; [exact L|]. intros i1 j i Hi1 Hj Hi.
    assert (Hin : in_shape (ds ++ [r; k]) (i1 ++ [j; i])).
    { apply in_shape_app; auto. repeat constructor; auto. }
    pose proof (ravel_lt _ _ Hin) as Hlt. unfold elem. rewrite Hy by auto.
    assert (Er : ravel (ds ++ [r; k]) (i1 ++ [j; i]) = ravel ds i1 * (r * k) + (j * k + i)).
    { rewrite ravel_app by now apply in_shape_length. cbn. lia. }
    unfold v.
    replace (ravel (ds ++ [r; k]) (i1 ++ [j; i]) mod k) with i.
    2:{ rewrite Er. replace (ravel ds i1 * (r * k) + (j * k + i)) with (i + (ravel ds i1 * r + j) * k) by lia.
        rewrite Nat.mod_add by lia. now rewrite Nat.mod_small by lia. }
    replace (ravel (ds ++ [r; k]) (i1 ++ [j; i]) mod (r * k) / k) with j.
    2:{ rewrite Er, Nat.add_comm, Nat.mod_add by nia. rewrite Nat.mod_small by nia.
        rewrite Nat.div_add_l by lia. rewrite Nat.div_small by lia. lia. }
    destruct (keep i j); [|reflexivity]. symmetry. apply nth_error_nth'.
    now rewrite (repr_len _ _ _ H).
Qed.

Lemma tri_mask_low {T} c keep (zero : T) (t : tensor T) ds xs :
  repr t ds xs -> length ds < 2 -> tri_mask c keep zero t = Panic.
Proof.
  intros H Hl. unfold tri_mask. rewrite (repr_shape _ _ _ H).
  replace (2 <=? rank (canon ds)) with false by (symmetry; apply Nat.leb_gt; cbn; lia).
  reflexivity.
Qed.

Lemma tri_mask_empty {T} c keep (zero : T) (t : tensor T) ds r k xs :
  repr t (ds ++ [r; k]) xs -> r * k = 0 -> zero_alloc_ok c = true -> tri_mask c keep zero t = Panic.
Proof.
  intros H Hz Hza. pose proof (repr_supported _ _ _ H) as Hs. pose proof (supported_len _ Hs) as Hl.
  unfold tri_mask. rewrite (repr_shape _ _ _ H).
  replace (2 <=? rank (canon (ds ++ [r; k]))) with true
    by (symmetry; apply Nat.leb_le; cbn [rank canon]; rewrite app_length; cbn; lia).
  cbn [assert_ bind]. rewrite size_canon by auto. cbn [bind].
  assert (Hp : prod (ds ++ [r; k]) = 0) by (rewrite prod_app; cbn; nia).
  unfold unsafe_init_, unsafe_init. rewrite alloc_ok; [|right; auto|rewrite Hp; cbn; lia].
  cbn [bind]. rewrite (repr_as_slice _ _ _ H). cbn [bind].
  rewrite rows_canon, cols_canon by auto. destruct (last2 ds r k) as [-> ->]. cbn [bind].
  rewrite Hz. reflexivity.
Qed.

(** ** Mesh grids *)

Lemma meshgrid_axis_repr {T} c (x : tensor T) xs d1 d d2 :
  repr x [d] xs -> supported (d1 ++ d :: d2) -> Forall (fun d => 0 < d) (d1 ++ d :: d2) ->
  exists ys, build_meshgrid_axis c x (canon (d1 ++ d :: d2)) (prod d2) = Ok (fresh (d1 ++ d :: d2) ys) /\
    length ys = prod (d1 ++ d :: d2) /\
    forall i1 k i2, in_shape d1 i1 -> k < d -> in_shape d2 i2 ->
      elem (d1 ++ d :: d2) ys (i1 ++ k :: i2) = nth_error xs k.
Proof.
  intros H Hs Hpos.
  apply Forall_app in Hpos. destruct Hpos as [Hp1 Hp2]. inversion Hp2 as [|? ? Hd Hp3]; subst.
  apply prod_pos in Hp1. apply prod_pos in Hp3.
  assert (Hp : prod (d1 ++ d :: d2) = prod d1 * (d * prod d2)) by (rewrite prod_app; reflexivity).
  set (P1 := prod d1) in *. set (P2 := prod d2) in *.
  assert (Ht : tsize x = d) by (rewrite (repr_size_prod _ _ _ H); cbn; lia).
  unfold build_meshgrid_axis. rewrite (repr_shape _ _ _ H). cbn [rank canon length].
  change (1 =? 1) with true. cbn [assert_ bind].
  rewrite size_canon by auto. cbn [bind]. rewrite Ht, Hp.
  rewrite !urem_ok by lia. cbn [bind].
  assert (M1 : (P1 * (d * P2)) mod d = 0).
  { replace (P1 * (d * P2)) with (P1 * P2 * d) by lia. apply Nat.mod_mul. lia. }
  assert (M2 : (P1 * (d * P2)) mod P2 = 0).
  { replace (P1 * (d * P2)) with (P1 * d * P2) by lia. apply Nat.mod_mul. lia. }
  rewrite M1, M2.
  change (0 =? 0) with true. cbn [assert_ bind]. rewrite udiv_ok by lia. cbn [bind].
  replace (P1 * (d * P2) / d) with (P1 * P2).
  2:{ replace (P1 * (d * P2)) with (P1 * P2 * d) by lia. now rewrite Nat.div_mul by lia. }
  rewrite urem_ok by lia. cbn [bind]. rewrite Nat.mod_mul by lia. change (0 =? 0) with true. cbn [assert_ bind].
  destruct (nth_error_lt_ex xs 0) as [x0 _]; [rewrite (repr_len _ _ _ H); cbn; lia|].
  pose (g p := nth (p / (P1 * P2)) xs x0).
  pose (pos p := p / (P1 * P2) * P2 + (p mod (P1 * P2)) / P2 * (d * P2) + (p mod (P1 * P2)) mod P2).
  assert (Hrange : forall p, p < P1 * (d * P2) ->
            p / (P1 * P2) < d /\ (p mod (P1 * P2)) / P2 < P1 /\ (p mod (P1 * P2)) mod P2 < P2).
  { intros p Hlt. repeat split.
    - apply Nat.div_lt_upper_bound; nia.
    - apply Nat.div_lt_upper_bound; [lia|]. pose proof (Nat.mod_upper_bound p (P1 * P2)). nia.
    - apply Nat.mod_upper_bound. lia. }
  assert (Hpos' : forall a b e, a < d -> b < P1 -> e < P2 -> pos ((a * P1 + b) * P2 + e) = b * (d * P2) + (a * P2 + e)
              /\ (a * P1 + b) * P2 + e < P1 * (d * P2) /\ ((a * P1 + b) * P2 + e) / (P1 * P2) = a).
  { intros a b e Hab Hb He.
    assert (E1 : ((a * P1 + b) * P2 + e) = a * (P1 * P2) + (b * P2 + e)) by lia.
    assert (Hbe : b * P2 + e < P1 * P2) by nia.
    assert (E2 : ((a * P1 + b) * P2 + e) / (P1 * P2) = a).
    { rewrite E1, Nat.div_add_l by nia. rewrite Nat.div_small by lia. lia. }
    assert (E3 : ((a * P1 + b) * P2 + e) mod (P1 * P2) = b * P2 + e).
    { rewrite E1, Nat.add_comm, Nat.mod_add by nia. now rewrite Nat.mod_small by lia. }
    split; [|split; [nia|exact E2]].
    unfold pos. rewrite E2, E3. rewrite Nat.div_add_l by lia. rewrite (Nat.div_small e) by lia.
    rewrite (Nat.add_comm (b * P2)), Nat.mod_add by lia. rewrite Nat.mod_small by lia. lia. }
  destruct (unsafe_init_table c (P1 * (d * P2)) (d1 ++ d :: d2)
    (fun o =>
       let* x0 := as_slice x in
       let* j_n := udiv (P1 * P2) P2 in
       let* j_s := udiv (P1 * (d * P2)) j_n in
       for_ d (fun k o => for_ j_n (fun j o => for_ P2 (fun i o =>
          let* v := aget x0 k in write o (k * P2 + j * j_s + i) v) o) o) o) g pos) as (ys & E & L & Hy); auto.
  - left. nia.
  - intros o. rewrite (repr_as_slice _ _ _ H). cbn [bind].
    rewrite udiv_ok by lia. cbn [bind]. rewrite Nat.div_mul by lia.
    rewrite udiv_ok by lia. cbn [bind].
    replace (P1 * (d * P2) / P1) with (d * P2) by (rewrite (Nat.mul_comm P1 (d * P2)), Nat.div_mul; lia).
    rewrite (for_nest3 d P1 P2 (fun k j i o => let* v := aget xs k in write o (k * P2 + j * (d * P2) + i) v)).
    replace (d * (P1 * P2)) with (P1 * (d * P2)) by lia.
    apply for_ext. intros p b Hlt. destruct (Hrange p Hlt) as (Ha & Hb & He).
    rewrite (aget_ok _ _ (g p)); [reflexivity|]. unfold g. apply nth_error_nth'.
    rewrite (repr_len _ _ _ H). cbn. lia.
  - intros p Hlt. destruct (Hrange p Hlt) as (Ha & Hb & He). unfold pos.
    set (a := p / (P1 * P2)) in *. set (b := p mod (P1 * P2) / P2) in *. set (e := (p mod (P1 * P2)) mod P2) in *.
    assert (a * P2 + e < d * P2) by nia. nia.
  - intros p q Hlt Hlq. destruct (Hrange p Hlt) as (Ha & Hb & He).
    destruct (Hrange q Hlq) as (Ha' & Hb' & He'). unfold pos.
    rewrite <- (div_mod_l p (P1 * P2)) at 4. rewrite <- (div_mod_l q (P1 * P2)) at 4.
    rewrite <- (div_mod_l (p mod (P1 * P2)) P2) at 3. rewrite <- (div_mod_l (q mod (P1 * P2)) P2) at 3.
    set (a := p / (P1 * P2)) in *. set (b := p mod (P1 * P2) / P2) in *. set (e := (p mod (P1 * P2)) mod P2) in *.
    set (a' := q / (P1 * P2)) in *. set (b' := q mod (P1 * P2) / P2) in *. set (e' := (q mod (P1 * P2)) mod P2) in *.
    clearbody a b e a' b' e'. clear - Ha Hb He Ha' Hb' He'.
    intros Heq.
    destruct (radix_inj (d * P2) b (a * P2 + e) b' (a' * P2 + e')) as [-> Hr]; [nia|nia|lia|].
    destruct (radix_inj P2 a e a' e') as [-> ->]; lia.
  - intros q Hlt. exists ((q mod (d * P2) / P2 * P1 + q / (d * P2)) * P2 + q mod (d * P2) mod P2).
    assert (A1 : q mod (d * P2) / P2 < d).
    { apply Nat.div_lt_upper_bound; [lia|]. pose proof (Nat.mod_upper_bound q (d * P2)). nia. }
    assert (A2 : q / (d * P2) < P1) by (apply Nat.div_lt_upper_bound; nia).
    assert (A3 : q mod (d * P2) mod P2 < P2) by (apply Nat.mod_upper_bound; lia).
    destruct (Hpos' _ _ _ A1 A2 A3) as (E1 & E2 & _). split; [exact E2|]. rewrite E1.
    now rewrite !div_mod_l.
  - exists ys. split; [exact E|]. split; [now rewrite L|].
    intros i1 k i2 Hi1 Hk Hi2.
    unfold elem. rewrite ravel_app by now apply in_shape_length.
    cbn [prod]. rewrite ravel_cons. fold P2.
    pose proof (ravel_lt _ _ Hi1) as Hl1. pose proof (ravel_lt _ _ Hi2) as Hl2. fold P1 in Hl1. fold P2 in Hl2.
    destruct (Hpos' k (ravel d1 i1) (ravel d2 i2) Hk Hl1 Hl2) as (E1 & E2 & E3).
    rewrite <- E1, Hy by auto. unfold g. rewrite E3. symmetry. apply nth_error_nth'.
    rewrite (repr_len _ _ _ H). cbn. lia.
Qed.

(** [t] spreads the values [xs] along position [p] of the dimensions [ds]. *)
Definition spreads {T} (ds : list nat) (p : nat) (xs : list T) (t : tensor T) : Prop :=
  exists ys, t = fresh ds ys /\ length ys = prod ds /\
    forall idx, in_shape ds idx -> elem ds ys idx = nth_error xs (nth p idx 0).

Definition axes_of {T} (axes : list (tensor T)) (xss : list (list T)) : Prop :=
  Forall2 (fun t xs => repr t [length xs] xs) axes xss.

Lemma axes_sizes {T} (axes : list (tensor T)) xss :
  axes_of axes xss -> map tsize axes = map (@length T) xss.
Proof.
  induction 1 as [|t xs axes xss H _ IH]; [reflexivity|]. cbn. rewrite IH.
  now rewrite (repr_size _ _ _ H).
Qed.

Lemma mesh_loop {T} c (axes : list (tensor T)) xss pre vec :
  axes_of axes xss ->
  supported (rev (pre ++ map (@length T) xss)) ->
  Forall (fun d => 0 < d) (pre ++ map (@length T) xss) ->
  exists ts,
    for_each axes (fun x '(vec, inner) =>
      let* t := build_meshgrid_axis c x (canon (rev (pre ++ map (@length T) xss))) inner in
      let* inner := umul c inner (tsize x) in
      Ok (vec ++ [t], inner)) (vec, prod pre)
    = Ok (vec ++ ts, prod (pre ++ map (@length T) xss)) /\
    length ts = length xss /\
    forall q xs, nth_error xss q = Some xs ->
      exists t, nth_error ts q = Some t /\
        spreads (rev (pre ++ map (@length T) xss)) (length xss - 1 - q) xs t.
Proof.
  intros H. revert pre vec. induction H as [|x xs axes xss Hx Hf IH]; intros pre vec Hs Hp.
  - exists []. cbn. rewrite !app_nil_r. repeat split. intros q xs Hq. destruct q; discriminate.
  - cbn [for_each map] in *.
    assert (E : rev (pre ++ length xs :: map (@length T) xss)
                = rev (map (@length T) xss) ++ length xs :: rev pre).
    { rewrite rev_app_distr. cbn. now rewrite <- app_assoc. }
    destruct (meshgrid_axis_repr c x xs (rev (map (@length T) xss)) (length xs) (rev pre))
      as (ys & E1 & L1 & Hy); auto.
    { now rewrite <- E. }
    { rewrite <- E. now apply Forall_rev. }
    rewrite prod_rev in E1. rewrite <- E in E1, L1, Hy. rewrite E1. cbn [bind].
    assert (Hpre : pre ++ length xs :: map (@length T) xss
                   = (pre ++ [length xs]) ++ map (@length T) xss) by (now rewrite <- app_assoc).
    assert (Hmul : umul c (prod pre) (tsize x) = Ok (prod (pre ++ [length xs]))).
    { rewrite (repr_size _ _ _ Hx), umul_ok.
      - f_equal. rewrite prod_app. cbn. lia.
      - pose proof (supported_prod1 _ Hs) as Hb. rewrite E, prod1_app, prod1_cons in Hb.
        pose proof (prod1_pos (rev (map (@length T) xss))).
        assert (prod pre <= prod1 (rev pre)) by (rewrite <- prod_rev; apply prod_le_prod1).
        assert (prod pre * length xs <= Nat.max 1 (length xs) * prod1 (rev pre)).
        { rewrite Nat.mul_comm. apply Nat.mul_le_mono; [lia|auto]. }
        set (y := Nat.max 1 (length xs) * prod1 (rev pre)) in *.
        assert (y <= prod1 (rev (map (@length T) xss)) * y) by nia.
        unfold two64, two32 in *. lia. }
    rewrite Hmul. cbn [bind].
    destruct (IH (pre ++ [length xs]) (vec ++ [fresh (rev (pre ++ length xs :: map (@length T) xss)) ys]))
      as (ts & E2 & L2 & Ht).
    { now rewrite <- Hpre. }
    { now rewrite <- Hpre. }
    rewrite <- Hpre in E2. rewrite E2.
    eexists (_ :: ts). rewrite <- app_assoc. split; [reflexivity|]. split; [cbn; lia|].
    intros q zs Hq. destruct q as [|q].
    + cbn in Hq. injection Hq as ->. eexists. split; [reflexivity|].
      exists ys. repeat split; auto.
      intros idx Hin. rewrite E in Hin. pose proof (in_shape_length _ _ Hin) as Hlen.
      apply in_shape_app_inv in Hin. destruct Hin as [Hi1 Hi2].
      rewrite rev_length, map_length in *.
      destruct (skipn (length xss) idx) as [|k i2] eqn:Ei; [inversion Hi2|].
      apply in_shape_cons in Hi2. destruct Hi2 as [Hk Hi2].
      rewrite <- (firstn_skipn (length xss) idx), Ei.
      rewrite Hy by auto. f_equal.
      rewrite app_nth2; rewrite firstn_length_le by (rewrite Hlen, app_length, rev_length, map_length; lia).
      * cbn [length]. replace (S (length xss) - 1 - 0 - length xss) with 0 by lia. reflexivity.
      * cbn [length]. lia.
    + cbn in Hq. destruct (Ht q zs Hq) as (t & Hn & Hsp).
      exists t. split; [exact Hn|]. rewrite <- Hpre in Hsp. cbn [length].
      replace (S (length xss) - 1 - S q) with (length xss - 1 - q) by lia. exact Hsp.
Qed.

Lemma nth_error_rev {A} (l : list A) i :
  i < length l -> nth_error (rev l) i = nth_error l (length l - 1 - i).
Proof.
  intros Hi. destruct l as [|d l']; [inversion Hi|]. set (l := d :: l') in *.
  rewrite (nth_error_nth' (rev l) d) by now rewrite rev_length.
  rewrite (nth_error_nth' l d) by lia. f_equal. rewrite rev_nth by auto. f_equal. lia.
Qed.

Lemma axes_rev {T} (axes : list (tensor T)) xss : axes_of axes xss -> axes_of (rev axes) (rev xss).
Proof.
  induction 1 as [|t xs axes xss H _ IH]; [constructor|]. cbn.
  now apply Forall2_app; auto.
Qed.

Lemma meshgrid_xy_repr {T} c (axes : list (tensor T)) xss :
  axes_of axes xss -> supported (map (@length T) xss) ->
  Forall (fun xs => 0 < length xs) xss ->
  exists ts, meshgrid c axes = Ok ts /\ length ts = length xss /\
    forall q xs, nth_error xss q = Some xs ->
      exists t, nth_error ts q = Some t /\ spreads (rev (map (@length T) xss)) (length xss - 1 - q) xs t.
Proof.
  intros H Hs Hp.
  assert (Hp' : Forall (fun d => 0 < d) (map (@length T) xss)) by (rewrite Forall_map; exact Hp).
  assert (Hsr : supported (rev (map (@length T) xss))).
  { destruct Hs as [Hl Hb]. split; [now rewrite rev_length|].
    now rewrite (map_rev (Nat.max 1)), prod_rev. }
  unfold meshgrid, build_meshgrid.
  rewrite map_rev, (axes_sizes _ _ H).
  rewrite from_vec_dims_supported; [|auto|now apply Forall_rev]. cbn [bind].
  rewrite rev_involutive.
  destruct (mesh_loop c axes xss [] [] H) as (ts & E & L & Ht); auto.
  cbn [app prod] in *. rewrite E. cbn [bind]. exists ts. auto.
Qed.

Lemma meshgrid_ij_repr {T} c (axes : list (tensor T)) xss :
  axes_of axes xss -> supported (map (@length T) xss) ->
  Forall (fun xs => 0 < length xs) xss ->
  exists ts, meshgrid_ij c axes = Ok ts /\ length ts = length xss /\
    forall q xs, nth_error xss q = Some xs ->
      exists t, nth_error ts q = Some t /\ spreads (map (@length T) xss) q xs t.
Proof.
  intros H Hs Hp.
  assert (Hp' : Forall (fun d => 0 < d) (map (@length T) xss)) by (rewrite Forall_map; exact Hp).
  unfold meshgrid_ij, build_meshgrid.
  rewrite (axes_sizes _ _ H).
  rewrite from_vec_dims_supported; [|auto|auto]. cbn [bind].
  assert (Em : rev (map (@length T) (rev xss)) = map (@length T) xss) by now rewrite map_rev, rev_involutive.
  destruct (mesh_loop c (rev axes) (rev xss) [] []) as (ts & E & L & Ht).
  { now apply axes_rev. }
  { cbn [app]. now rewrite Em. }
  { cbn [app]. rewrite map_rev. now apply Forall_rev. }
  cbn [app prod] in *. rewrite Em in *. rewrite E. cbn [bind]. exists (rev ts).
  rewrite rev_length in *. split; [reflexivity|]. split; [auto|].
  intros q xs Hq. pose proof (nth_error_Some_lt _ _ _ Hq) as Hlt.
  destruct (Ht (length xss - 1 - q) xs) as (t & Hn & Hsp).
  { rewrite nth_error_rev by lia. rewrite <- Hq. f_equal. lia. }
  exists t. rewrite nth_error_rev by lia. rewrite L. split; [exact Hn|].
  replace (length xss - 1 - (length xss - 1 - q)) with q in Hsp by lia. exact Hsp.
Qed.

(** ** Evenly spaced values *)

(** The value at step [k] between the end points [x] and [y]. *)
Definition space_value {F} (o : fops F) (pre post : F -> F) (len : nat) (x y : F) (k : nat) : F :=
  post (fadd o (pre x) (fmul o (if 1 <? len then fdiv o (fsub o (pre y) (pre x)) (fof o (len - 1))
                                else fzero o) (fof o k))).

Lemma repr_index1 {A} (t : tensor A) ds xs i v :
  repr t ds xs -> nth_error xs i = Some v -> index1 t i = Ok v.
Proof.
  intros H Hv. unfold index1. pose proof (nth_error_Some_lt _ _ _ Hv).
  replace (i <? tsize t) with true by (symmetry; apply Nat.ltb_lt; rewrite (repr_size _ _ _ H); auto).
  cbn. now apply (raw_get_data _ _ _ _ _ H).
Qed.

Lemma space_init {F} (o : fops F) c pre post (s e : tensor F) ds ds' xs ys len :
  repr s ds xs -> repr e ds ys -> 0 < prod ds ->
  supported ds' -> prod ds' = len * prod ds -> can_alloc c (len * prod ds) ->
  (forall i x y, nth_error xs i = Some x -> nth_error ys i = Some y -> fle o (pre x) (pre y) = true) ->
  exists zs,
    unsafe_init_ c (prod ds * len) (canon ds') (fun b => space_loop o pre post s e (prod ds) len b)
    = Ok (fresh ds' zs) /\ length zs = prod ds' /\
    forall k i x y, k < len -> nth_error xs i = Some x -> nth_error ys i = Some y ->
      nth_error zs (k * prod ds + i) = Some (space_value o pre post len x y k).
Proof.
  intros Hx Hy Hpos Hs Hd Ha Hle.
  set (B := prod ds) in *.
  assert (Lx : length xs = B) by apply (repr_len _ _ _ Hx).
  assert (Ly : length ys = B) by apply (repr_len _ _ _ Hy).
  pose (v n k := space_value o pre post len (nth n xs (fzero o)) (nth n ys (fzero o)) k).
  assert (Hnx : forall n, n < B -> nth_error xs n = Some (nth n xs (fzero o))).
  { intros n Hn. apply nth_error_nth'. lia. }
  assert (Hny : forall n, n < B -> nth_error ys n = Some (nth n ys (fzero o))).
  { intros n Hn. apply nth_error_nth'. lia. }
  destruct (Nat.eq_dec len 0) as [->|Hlen].
  { rewrite Nat.mul_0_r.
    destruct (unsafe_init_table c 0 ds' (fun b => space_loop o pre post s e B 0 b) (fun _ => fzero o) (fun p => p))
      as (zs & E & L & _); auto; try (intros; lia).
    - intros b. unfold space_loop. cbn [for_ for_from]. apply for_from_id. intros n b' Hn.
      rewrite (repr_index1 _ _ _ _ _ Hx (Hnx n ltac:(lia))). cbn [bind].
      rewrite (repr_index1 _ _ _ _ _ Hy (Hny n ltac:(lia))). cbn [bind].
      rewrite (Hle n) by (auto; first [apply Hnx|apply Hny]; lia). reflexivity.
    - exists zs. split; [exact E|]. split; [now rewrite L, Hd|]. intros; lia. }
  pose (pos p := (p mod len) * B + p / len).
  assert (Hr : forall p, p < B * len -> p mod len < len /\ p / len < B).
  { intros p Hp. split; [apply Nat.mod_upper_bound; lia|apply Nat.div_lt_upper_bound; lia]. }
  assert (Hpos' : forall n k, n < B -> k < len ->
            pos (n * len + k) = k * B + n /\ n * len + k < B * len
            /\ (n * len + k) / len = n /\ (n * len + k) mod len = k).
  { intros n k Hn Hk.
    assert (E1 : (n * len + k) / len = n) by (rewrite Nat.div_add_l by lia; rewrite Nat.div_small by lia; lia).
    assert (E2 : (n * len + k) mod len = k)
      by (rewrite Nat.add_comm, Nat.mod_add by lia; now rewrite Nat.mod_small by lia).
    unfold pos. rewrite E1, E2. repeat split; nia. }
  destruct (unsafe_init_table c (B * len) ds' (fun b => space_loop o pre post s e B len b)
              (fun p => v (p / len) (p mod len)) pos) as (zs & E & L & Hz); auto.
  - rewrite Nat.mul_comm. exact Ha.
  - lia.
  - intros b. unfold space_loop.
    rewrite (for_ext B _ (fun n b => for_ len (fun k b => write b (k * B + n) (v n k)) b)).
    2:{ intros n b' Hn.
        rewrite (repr_index1 _ _ _ _ _ Hx (Hnx n Hn)). cbn [bind].
        rewrite (repr_index1 _ _ _ _ _ Hy (Hny n Hn)). cbn [bind].
        rewrite (Hle n) by (auto; first [apply Hnx|apply Hny]; lia). reflexivity. }
    rewrite (for_nest B len (fun n k b => write b (k * B + n) (v n k))). reflexivity.
  - intros p Hp. destruct (Hr p Hp). unfold pos. nia.
  - intros p q Hp Hq Heq. destruct (Hr p Hp) as [P1 P2]. destruct (Hr q Hq) as [Q1 Q2].
    destruct (radix_inj B _ _ _ _ P2 Q2 Heq) as [E1 E2].
    rewrite <- (div_mod_l p len), <- (div_mod_l q len). congruence.
  - intros q Hq. exists ((q mod B) * len + q / B).
    assert (q mod B < B) by (apply Nat.mod_upper_bound; lia).
    assert (q / B < len) by (apply Nat.div_lt_upper_bound; lia).
    destruct (Hpos' (q mod B) (q / B)) as (E1 & E2 & _); auto.
    split; [exact E2|]. rewrite E1. apply div_mod_l.
  - exists zs. split; [exact E|]. split; [lia|]. intros k i x y Hk Hxi Hyi.
    pose proof (nth_error_Some_lt _ _ _ Hxi) as Hi. rewrite Lx in Hi.
    destruct (Hpos' i k Hi Hk) as (E1 & E2 & E3 & E4). rewrite <- E1, Hz by auto. rewrite E3, E4.
    unfold v. rewrite (nth_error_nth _ _ _ Hxi), (nth_error_nth _ _ _ Hyi). reflexivity.
Qed.

(** A pair of end points in the wrong order. *)
Lemma space_init_bad {F} (o : fops F) c pre post (s e : tensor F) ds ds' xs ys len i x y :
  repr s ds xs -> repr e ds ys ->
  supported ds' -> prod ds' = len * prod ds -> can_alloc c (len * prod ds) ->
  nth_error xs i = Some x -> nth_error ys i = Some y -> fle o (pre x) (pre y) = false ->
  unsafe_init_ c (prod ds * len) (canon ds') (fun b => space_loop o pre post s e (prod ds) len b) = Panic.
Proof.
  intros Hx Hy Hs Hd Ha Hxi Hyi Hle. unfold unsafe_init_, unsafe_init.
  pose proof (supported_prod _ Hs) as Hb. rewrite Hd in Hb. unfold two32 in Hb.
  rewrite alloc_ok; [|rewrite Nat.mul_comm; exact Ha|rewrite Nat.mul_comm; exact Hb]. cbn [bind].
  replace (space_loop o pre post s e (prod ds) len (repeat None (prod ds * len))) with (@Panic (buf F)); [reflexivity|].
  symmetry. unfold space_loop.
  apply (for_from_panic_inv (fun b : buf F => length b = prod ds * len)) with (k := i).
  - pose proof (nth_error_Some_lt _ _ _ Hxi). rewrite (repr_len _ _ _ Hx) in *. lia.
  - intros n b Hn Hlb.
    assert (Hinner : forall v : nat -> F, exists b',
              for_ len (fun k b => write b (k * prod ds + n) (v k)) b = Ok b' /\ length b' = prod ds * len).
    { intros v. apply (for_inv (fun _ (b : buf F) => length b = prod ds * len)); auto.
      intros k b0 Hk Hb0. exists (set_nth b0 (k * prod ds + n) (Some (v k))).
      rewrite set_nth_length. split; [|auto]. apply write_ok. nia. }
    destruct (nth_error_lt_ex xs n) as [xn Hxn]; [rewrite (repr_len _ _ _ Hx); lia|].
    destruct (nth_error_lt_ex ys n) as [yn Hyn]; [rewrite (repr_len _ _ _ Hy); lia|].
    rewrite (repr_index1 _ _ _ _ _ Hx Hxn). cbn [bind].
    rewrite (repr_index1 _ _ _ _ _ Hy Hyn). cbn [bind].
    destruct (fle o (pre xn) (pre yn)); cbn [assert_ bind].
    + destruct (Hinner (fun k => post (fadd o (pre xn) (fmul o (if 1 <? len then fdiv o (fsub o (pre yn) (pre xn)) (fof o (len - 1)) else fzero o) (fof o k)))))
        as (b' & E & Hb'). rewrite E. split; [discriminate|]. intros b'' [= <-]. auto.
    + split; [discriminate|]. discriminate.
  - intros b _. rewrite (repr_index1 _ _ _ _ _ Hx Hxi). cbn [bind].
    rewrite (repr_index1 _ _ _ _ _ Hy Hyi). cbn [bind]. rewrite Hle. reflexivity.
  - now rewrite repeat_length.
Qed.

Lemma insert0_canon c ds len :
  length ds < 5 -> supported (len :: ds) -> insert c (canon ds) 0 len = Ok (canon (len :: ds)).
Proof.
  intros Hl Hs. rewrite insert_canon by lia.
  rewrite as_u32_small; [reflexivity|]. apply (supported_in _ _ Hs). now left.
Qed.

Lemma space_size c ds len :
  0 < prod ds -> supported (len :: ds) ->
  umul c (Nat.max 1 (prod ds)) len = Ok (prod ds * len).
Proof.
  intros Hp Hs. replace (Nat.max 1 (prod ds)) with (prod ds) by lia. apply umul_ok.
  pose proof (supported_prod _ Hs) as Hb. cbn [prod] in Hb. unfold two32, two64 in *. nia.
Qed.

Lemma shape_eqb_refl s : shape_eqb s s = true.
Proof.
  unfold shape_eqb. destruct s as [d r]. cbn [dims rank].
  rewrite Nat.eqb_refl. destruct (list_eq_dec Nat.eq_dec d d) as [|N]; [reflexivity|now destruct N].
Qed.

Lemma space_elems {F} (o : fops F) pre post ds (xs ys zs : list F) len :
  (forall k i x y, k < len -> nth_error xs i = Some x -> nth_error ys i = Some y ->
      nth_error zs (k * prod ds + i) = Some (space_value o pre post len x y k)) ->
  forall k idx x y, k < len -> elem ds xs idx = Some x -> elem ds ys idx = Some y ->
    elem (len :: ds) zs (k :: idx) = Some (space_value o pre post len x y k).
Proof. intros H k idx x y Hk Hx Hy. unfold elem. rewrite ravel_cons. now apply H. Qed.

Lemma linspace_repr {F} (o : fops F) c (s e : tensor F) ds xs ys len :
  repr s ds xs -> repr e ds ys -> 0 < prod ds -> length ds < 5 -> supported (len :: ds) ->
  can_alloc c (len * prod ds) ->
  (forall i x y, nth_error xs i = Some x -> nth_error ys i = Some y -> fle o x y = true) ->
  exists zs, linspace o c s e len = Ok (fresh (len :: ds) zs) /\ length zs = prod (len :: ds) /\
    forall k idx x y, k < len -> elem ds xs idx = Some x -> elem ds ys idx = Some y ->
      elem (len :: ds) zs (k :: idx) = Some (space_value o (fun x => x) (fun x => x) len x y k).
Proof.
  intros Hx Hy Hp Hl Hs Ha Hle. unfold linspace.
  rewrite (repr_shape _ _ _ Hx), (repr_shape _ _ _ Hy), shape_eqb_refl. cbn [assert_ bind].
  rewrite (repr_size_prod _ _ _ Hx), space_size by auto. cbn [bind].
  rewrite insert0_canon by auto. cbn [bind].
  replace (Nat.max 1 (prod ds)) with (prod ds) by lia.
  destruct (space_init o c (fun x => x) (fun x => x) s e ds (len :: ds) xs ys len) as (zs & E & L & Hz); auto.
  exists zs. split; [exact E|]. split; [exact L|]. now apply space_elems.
Qed.

Lemma logspace_repr {F} (o : fops F) c (s e : tensor F) ds xs ys len base :
  repr s ds xs -> repr e ds ys -> 0 < prod ds -> length ds < 5 -> supported (len :: ds) ->
  can_alloc c (len * prod ds) ->
  (forall i x y, nth_error xs i = Some x -> nth_error ys i = Some y -> fle o x y = true) ->
  exists zs, logspace o c s e len base = Ok (fresh (len :: ds) zs) /\ length zs = prod (len :: ds) /\
    forall k idx x y, k < len -> elem ds xs idx = Some x -> elem ds ys idx = Some y ->
      elem (len :: ds) zs (k :: idx)
      = Some (fpow o (match base with Some b => b | None => fof o 10 end)
                   (space_value o (fun x => x) (fun x => x) len x y k)).
Proof.
  intros Hx Hy Hp Hl Hs Ha Hle. unfold logspace.
  rewrite (repr_shape _ _ _ Hx), (repr_shape _ _ _ Hy), shape_eqb_refl. cbn [assert_ bind].
  rewrite (repr_size_prod _ _ _ Hx), space_size by auto. cbn [bind].
  rewrite insert0_canon by auto. cbn [bind].
  replace (Nat.max 1 (prod ds)) with (prod ds) by lia.
  set (b := match base with Some b => b | None => fof o 10 end).
  destruct (space_init o c (fun x => x) (fpow o b) s e ds (len :: ds) xs ys len) as (zs & E & L & Hz); auto.
  exists zs. split; [exact E|]. split; [exact L|]. intros k idx x y Hk Hxi Hyi.
  now rewrite (space_elems o _ _ ds xs ys zs len Hz k idx x y).
Qed.

(** [geomspace] drops the dimensions of a single end point. *)
Definition geom_dims (len : nat) (ds : list nat) : list nat :=
  if prod ds =? 1 then [len] else len :: ds.

Lemma geomspace_repr {F} (o : fops F) c (s e : tensor F) ds xs ys len :
  repr s ds xs -> repr e ds ys -> 0 < prod ds -> (prod ds = 1 \/ length ds < 5) ->
  supported (len :: ds) \/ (prod ds = 1 /\ supported [len]) ->
  can_alloc c (len * prod ds) ->
  (forall i x y, nth_error xs i = Some x -> nth_error ys i = Some y -> fle o (fln o x) (fln o y) = true) ->
  exists zs, geomspace o c s e len = Ok (fresh (geom_dims len ds) zs) /\ length zs = len * prod ds /\
    forall k i x y, k < len -> nth_error xs i = Some x -> nth_error ys i = Some y ->
      nth_error zs (k * prod ds + i) = Some (space_value o (fln o) (fexp o) len x y k).
Proof.
  intros Hx Hy Hp Hl Hs Ha Hle. unfold geomspace.
  assert (Hg : supported (geom_dims len ds) /\ prod (geom_dims len ds) = len * prod ds).
  { unfold geom_dims. destruct (Nat.eqb_spec (prod ds) 1) as [E|E].
    - split; [|cbn; lia]. destruct Hs as [Hs|[_ Hs]]; [|exact Hs].
      apply (supported_app_l [len] ds) in Hs. exact Hs.
    - split; [|reflexivity]. destruct Hs as [Hs|[? _]]; [exact Hs|lia]. }
  destruct Hg as [Hsg Hpg].
  rewrite (repr_shape _ _ _ Hx), (repr_shape _ _ _ Hy), shape_eqb_refl. cbn [assert_ bind].
  rewrite (repr_size_prod _ _ _ Hx).
  replace (Nat.max 1 (prod ds)) with (prod ds) by lia.
  rewrite umul_ok.
  2:{ pose proof (supported_prod _ Hsg) as Hb. rewrite Hpg in Hb. unfold two32, two64 in *. nia. }
  cbn [bind].
  replace (if prod ds =? 1 then from_slice_dims [len] else insert c (canon ds) 0 len)
    with (Ok (canon (geom_dims len ds))).
  2:{ unfold geom_dims in *. destruct (Nat.eqb_spec (prod ds) 1) as [E|E].
      - now rewrite from_slice_dims_supported.
      - rewrite insert0_canon; auto. lia. }
  cbn [bind].
  destruct (space_init o c (fln o) (fexp o) s e ds (geom_dims len ds) xs ys len) as (zs & E & L & Hz); auto.
  exists zs. split; [exact E|]. split; [lia|exact Hz].
Qed.

(** End points of different shapes, and end points in the wrong order. *)
Lemma shape_mismatch {F} (s e : tensor F) ds ds' xs ys :
  repr s ds xs -> repr e ds' ys -> ds <> ds' -> shape_eqb (tshape s) (tshape e) = false.
Proof.
  intros Hx Hy Hne. rewrite (repr_shape _ _ _ Hx), (repr_shape _ _ _ Hy).
  destruct (shape_eqb (canon ds) (canon ds')) eqn:E; [|reflexivity].
  apply shape_eqb_canon in E. contradiction.
Qed.

Lemma linspace_bad {F} (o : fops F) c (s e : tensor F) ds xs ys len i x y :
  repr s ds xs -> repr e ds ys -> length ds < 5 -> supported (len :: ds) ->
  can_alloc c (len * prod ds) ->
  nth_error xs i = Some x -> nth_error ys i = Some y -> fle o x y = false ->
  linspace o c s e len = Panic.
Proof.
  intros Hx Hy Hl Hs Ha Hxi Hyi Hle. unfold linspace.
  assert (Hp : 0 < prod ds).
  { rewrite <- (repr_len _ _ _ Hx). pose proof (nth_error_Some_lt _ _ _ Hxi). lia. }
  rewrite (repr_shape _ _ _ Hx), (repr_shape _ _ _ Hy), shape_eqb_refl. cbn [assert_ bind].
  rewrite (repr_size_prod _ _ _ Hx), space_size by auto. cbn [bind].
  rewrite insert0_canon by auto. cbn [bind].
  replace (Nat.max 1 (prod ds)) with (prod ds) by lia.
  now apply (space_init_bad o c (fun x => x) (fun x => x) s e ds (len :: ds) xs ys len i x y).
Qed.

Lemma logspace_bad {F} (o : fops F) c (s e : tensor F) ds xs ys len base i x y :
  repr s ds xs -> repr e ds ys -> length ds < 5 -> supported (len :: ds) ->
  can_alloc c (len * prod ds) ->
  nth_error xs i = Some x -> nth_error ys i = Some y -> fle o x y = false ->
  logspace o c s e len base = Panic.
Proof.
  intros Hx Hy Hl Hs Ha Hxi Hyi Hle. unfold logspace.
  assert (Hp : 0 < prod ds).
  { rewrite <- (repr_len _ _ _ Hx). pose proof (nth_error_Some_lt _ _ _ Hxi). lia. }
  rewrite (repr_shape _ _ _ Hx), (repr_shape _ _ _ Hy), shape_eqb_refl. cbn [assert_ bind].
  rewrite (repr_size_prod _ _ _ Hx), space_size by auto. cbn [bind].
  rewrite insert0_canon by auto. cbn [bind].
  replace (Nat.max 1 (prod ds)) with (prod ds) by lia.
  eapply (space_init_bad o c (fun x => x)); eauto.
Qed.

Lemma linspace_deep {F} (o : fops F) c (s e : tensor F) ds xs ys len :
  repr s ds xs -> repr e ds ys -> 5 <= length ds -> 0 < len -> supported [len] ->
  linspace o c s e len <> Ub /\ forall t, linspace o c s e len <> Ok t.
Proof.
  intros Hx Hy Hl Hlen Hs. unfold linspace.
  rewrite (repr_shape _ _ _ Hx), (repr_shape _ _ _ Hy), shape_eqb_refl. cbn [assert_ bind].
  assert (Hi : insert c (canon ds) 0 len = Panic).
  { unfold insert. pose proof (supported_len _ (repr_supported _ _ _ Hx)) as H6.
    cbn [rank canon]. rewrite usub_ok by (unfold two64; lia). cbn [bind]. rewrite Nat.sub_0_r.
    apply rinsert_panic5; auto. cbn. rewrite app_length, rev_length, repeat_length. lia. }
  rewrite Hi. destruct (umul c _ len) eqn:E; cbn [bind]; split; try discriminate; intros; try discriminate.
  exfalso. now apply (safe_umul c (Nat.max 1 (tsize s)) len).
Qed.

(** ** one_hot *)

Lemma one_hot_loop {A} (v : A) (is : list nat) (l : list A) :
  Forall (fun i => i < length l) is ->
  exists l', for_each is (fun i vec => aset vec i v) l = Ok l' /\ length l' = length l /\
    forall k, k < length l -> nth_error l' k = if existsb (Nat.eqb k) is then Some v else nth_error l k.
Proof.
  revert l. induction is as [|i is IH]; intros l H; [exists l; auto|].
  inversion H as [|? ? Hi Hr]; subst. cbn [for_each existsb]. unfold aset at 1.
  replace (i <? length l) with true by (symmetry; now apply Nat.ltb_lt). cbn [bind].
  destruct (IH (set_nth l i v)) as (l' & E & L & Hk); [now rewrite set_nth_length|].
  rewrite set_nth_length in *. exists l'. split; [exact E|]. split; [exact L|].
  intros k Hlt. rewrite Hk by auto. destruct (Nat.eqb_spec k i) as [->|Hne]; cbn [orb].
  - rewrite nth_error_set_nth_eq by auto. now destruct (existsb _ _).
  - now rewrite nth_error_set_nth_neq by auto.
Qed.

Lemma one_hot_loop_bad {A} (v : A) (is : list nat) (l : list A) i :
  In i is -> length l <= i -> for_each is (fun i vec => aset vec i v) l = Panic.
Proof.
  revert l. induction is as [|j is IH]; intros l Hin Hi; [inversion Hin|].
  cbn [for_each]. unfold aset at 1. destruct (j <? length l) eqn:E; [|reflexivity]. cbn [bind].
  destruct Hin as [->|Hin]; [apply Nat.ltb_lt in E; lia|]. apply IH; auto. now rewrite set_nth_length.
Qed.

Lemma of_vec_canon {A} c (l : list A) : supported [length l] -> of_vec c l = Ok (fresh [length l] l).
Proof.
  intros Hs. unfold of_vec. rewrite from_usize_canon. cbn [bind].
  rewrite as_u32_small by (apply (supported_in _ _ Hs); now left).
  apply tensor_new_ok; auto. cbn. lia.
Qed.

Lemma existsb_In k is : existsb (Nat.eqb k) is = true <-> In k is.
Proof.
  rewrite existsb_exists. split; [intros (x & H & E); apply Nat.eqb_eq in E; now subst|].
  intros H. exists k. now rewrite Nat.eqb_refl.
Qed.
