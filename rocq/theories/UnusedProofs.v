(** * Unused functions (C77): proofs *)
From Verif Require Import Base ShapeModel TensorModel AxisModel MapModel FloatModel RandomModel IoModel
  Spec BaseFacts ShapeFacts TensorFacts MapFacts IoSpec UnusedModel UnusedSpec.
From Verif Require Import IoProofs.
Ltac Zify.zify_post_hook ::= idtac.

Lemma wrap_row {A} c (t : tensor A) ds xs k R r i :
  repr t ds xs -> toffset t = 0 -> k <> 0 -> length xs = R * k -> R <> 0 ->
  i = k * r ->
  as_wrap_slice_n c t i k = Ok (row k xs (r mod R)).
Proof.
  intros H H0 Hk Hl HR ->. unfold as_wrap_slice_n.
  assert (Hw : wrap_pos t (k * r) = Ok (r mod R * k)).
  { unfold wrap_pos. rewrite (repr_size _ _ _ H), Hl. destruct (Nat.ltb_spec (k * r) (R * k)) as [L|L].
    - rewrite Nat.mod_small by nia. f_equal. lia.
    - rewrite urem_ok by nia. f_equal. rewrite (Nat.mul_comm R k), Nat.mul_mod_distr_l by auto. lia. }
  rewrite Hw, H0. cbn [bind].
  pose proof (Nat.mod_upper_bound r R HR) as Hr. set (q := r mod R) in *.
  destruct (repr_data _ _ _ H) as (pre & post & Ed & Ep). rewrite H0 in Ep. destruct pre; [|discriminate].
  pose proof (repr_mem _ _ _ H) as Hm. rewrite Ed in Hm. cbn [app] in Hm. rewrite app_length in Hm.
  assert (Hle : q * k + k <= length xs) by nia.
  rewrite uadd_ok by (unfold two64; lia). cbn [bind Nat.add]. rewrite uadd_ok by (unfold two64; lia). cbn [bind].
  rewrite (repr_size _ _ _ H). rewrite assert_true by (apply Nat.leb_le; lia). cbn [bind].
  unfold raw_slice. rewrite Ed. cbn [app]. destruct (Nat.leb_spec (q * k + k) (length (xs ++ post))) as [_|L].
  - f_equal. unfold row. rewrite skipn_app, firstn_app, skipn_length.
    replace (k - (length xs - q * k)) with 0 by lia. cbn [firstn]. now rewrite app_nil_r.
  - rewrite app_length in L. lia.
Qed.

(** The loops of [map2_row_] in one, for operands without offset. *)
Lemma map2_row_loop {S T U V} c N ds (a : tensor T) da xs ac (b : tensor U) db ys bc
    (f : S -> list T -> list U -> outcome (S * list V)) st ra rb :
  repr a da xs -> toffset a = 0 -> repr b db ys -> toffset b = 0 ->
  ac <> 0 -> bc <> 0 -> length xs = ra * ac -> length ys = rb * bc -> ra <> 0 -> rb <> 0 ->
  let R := Nat.max ra rb in
  Nat.divide ra R -> Nat.divide rb R ->
  (Z.of_nat (ac * R) < two64)%Z -> (Z.of_nat (bc * R) < two64)%Z ->
  map2_row_ c N (canon ds) a ac b bc f st =
  unsafe_init c R (canon ds) (fun sb =>
    for_ R (fun p '(st, o) =>
      let* '(st, vs) := f st (row ac xs (p mod ra)) (row bc ys (p mod rb)) in
      let* o := write_row o (p / Nat.min ra rb * Nat.min ra rb + p mod Nat.min ra rb * N) vs in
      Ok (st, o)) sb) st.
Proof.
  intros Ha Oa Hb Ob Hac Hbc Lx Ly Hra Hrb R Da Db Fa Fb. unfold map2_row_.
  rewrite (repr_size _ _ _ Ha), (repr_size _ _ _ Hb), Lx, Ly.
  rewrite !udiv_ok by auto. cbn [bind]. rewrite !Nat.div_mul by auto. rewrite !Nat.eqb_refl. cbn [assert_ bind].
  fold R. set (m := Nat.min ra rb). assert (Hm : m <> 0) by (unfold m; lia).
  rewrite udiv_ok by auto. cbn [bind].
  assert (Dm : Nat.divide m R) by (unfold m; destruct (Nat.min_spec ra rb) as [[_ ->]|[_ ->]]; auto).
  assert (Em : R / m * m = R) by (destruct Dm as [q ->]; now rewrite Nat.div_mul).
  rewrite Em, Nat.eqb_refl. cbn [assert_ bind].
  unfold unsafe_init. destruct (alloc c R) as [o| |]; cbn [bind]; auto. f_equal.
  rewrite (for_nest _ _ (fun n k '(st, o) =>
    let* p := umul c ac (n * m + k) in
    let* xa := as_wrap_slice_n c a p ac in
    let* q := umul c bc (n * m + k) in
    let* xb := as_wrap_slice_n c b q bc in
    let* '(st, vs) := f st xa xb in
    let* o := write_row o (n * m + k * N) vs in
    Ok (st, o))). rewrite Em.
  apply for_ext. intros p [s1 o1] Hp. rewrite divmod_self by auto.
  rewrite umul_ok by nia. cbn [bind]. rewrite (wrap_row c a da xs ac ra p) by auto. cbn [bind].
  rewrite umul_ok by nia. cbn [bind]. rewrite (wrap_row c b db ys bc rb p) by auto. cbn [bind]. reflexivity.
Qed.

Lemma c77_map2_row_one {S T U V} c ds (a : tensor T) da xs ac (b : tensor U) db ys bc
    (f : S -> list T -> list U -> outcome (S * V)) st ra rb :
  repr a da xs -> toffset a = 0 -> repr b db ys -> toffset b = 0 ->
  ac <> 0 -> bc <> 0 -> length xs = ra * ac -> length ys = rb * bc -> ra <> 0 -> rb <> 0 ->
  let R := Nat.max ra rb in
  Nat.divide ra R -> Nat.divide rb R ->
  (Z.of_nat (ac * R) < two64)%Z -> (Z.of_nat (bc * R) < two64)%Z ->
  supported ds -> prod ds = R ->
  map2_row_ c 1 (canon ds) a ac b bc (fun st x y => let* '(st, v) := f st x y in Ok (st, [v])) st =
  let* '(st, vs) := traverse (fun st p => f st (row ac xs (p mod ra)) (row bc ys (p mod rb))) st (seq 0 R) in
  Ok (st, fresh ds vs).
Proof.
  intros Ha Oa Hb Ob Hac Hbc Lx Ly Hra Hrb R Da Db Fa Fb Hs HR.
  rewrite (map2_row_loop c 1 ds a da xs ac b db ys bc _ st ra rb) by auto. fold R.
  set (m := Nat.min ra rb). assert (Hm : m <> 0) by (unfold m; lia).
  apply unsafe_init_filled; auto.
  - left. unfold R. lia.
  - rewrite (for_ext _ _ (fun p '(st, o) =>
      let* '(st, v) := f st (row ac xs (p mod ra)) (row bc ys (p mod rb)) in
      let* o := write o p v in Ok (st, o))).
    + rewrite (seq_write (fun st p => f st (row ac xs (p mod ra)) (row bc ys (p mod rb)))). reflexivity.
    + intros p [s o] Hp. destruct (f s _ _) as [[s' v]| |]; cbn [bind]; auto.
      rewrite Nat.mul_1_r, divmod_self by auto. unfold write_row. cbn [length]. unfold for_. cbn [for_from aget nth_error bind].
      rewrite Nat.add_0_r. destruct (write o p v); reflexivity.
  - intros st' vs E. apply traverse_length in E. now rewrite seq_length in E.
Qed.

(** A row that does not fit the buffer. *)
Lemma write_row_out {V} (o : buf V) p vs :
  vs <> [] -> length o < p + length vs -> write_row o p vs = Ub.
Proof.
  intros Hv Hl. unfold write_row, for_.
  assert (G : forall i k o', i + k = length vs -> 0 < k -> length o' = length o ->
    for_from i k (fun j o => let* v := aget vs j in write o (p + j) v) o' = Ub).
  { intros i k. revert i. induction k as [|k IH]; intros i o' E Hk Ho; [lia|]. cbn [for_from].
    destruct (nth_error vs i) as [v|] eqn:En; [|apply nth_error_None in En; lia].
    unfold aget. rewrite En. cbn [bind]. unfold write. destruct (Nat.ltb_spec (p + i) (length o')) as [L|L]; cbn [bind]; auto.
    destruct k as [|k']; [lia|]. apply IH; [lia|lia|]. now rewrite set_nth_length. }
  apply G; auto. destruct vs; [congruence|cbn; lia].
Qed.

Lemma write_row_in {V} (o : buf V) p vs : p + length vs <= length o ->
  exists o', write_row o p vs = Ok o' /\ length o' = length o.
Proof.
  intros Hl. unfold write_row.
  destruct (for_inv (fun _ o' => length o' = length o) (length vs)
    (fun j o => let* v := aget vs j in write o (p + j) v) o) as (o' & E & L); auto.
  - intros i o' Hi L. destruct (nth_error vs i) as [v|] eqn:En; [|apply nth_error_None in En; lia].
    unfold aget. rewrite En. cbn [bind]. rewrite write_ok by lia. eexists. split; [reflexivity|]. now rewrite set_nth_length.
  - eauto.
Qed.

Lemma c77_map2_row_wide {S T U V} c N ds (a : tensor T) da xs ac (b : tensor U) db ys bc
    (f : S -> list T -> list U -> outcome (S * list V)) st ra rb :
  repr a da xs -> toffset a = 0 -> repr b db ys -> toffset b = 0 ->
  ac <> 0 -> bc <> 0 -> length xs = ra * ac -> length ys = rb * bc -> ra <> 0 -> rb <> 0 ->
  let R := Nat.max ra rb in
  Nat.divide ra R -> Nat.divide rb R ->
  (Z.of_nat (ac * R) < two64)%Z -> (Z.of_nat (bc * R) < two64)%Z ->
  N <> 1 ->
  (forall st x y, exists st' vs, f st x y = Ok (st', vs) /\ length vs = N) ->
  map2_row_ c N (canon ds) a ac b bc f st = Ub.
Proof.
  intros Ha Oa Hb Ob Hac Hbc Lx Ly Hra Hrb R Da Db Fa Fb HN Hf.
  rewrite (map2_row_loop c N ds a da xs ac b db ys bc _ st ra rb) by auto. fold R.
  set (m := Nat.min ra rb). assert (Hm : m <> 0) by (unfold m; lia).
  assert (Dm : Nat.divide m R) by (unfold m; destruct (Nat.min_spec ra rb) as [[_ ->]|[_ ->]]; auto).
  unfold unsafe_init.
  assert (HRZ : (Z.of_nat R < two63)%Z).
  { pose proof (repr_mem _ _ _ Ha) as Ma. pose proof (repr_mem _ _ _ Hb) as Mb.
    destruct (repr_data _ _ _ Ha) as (p1 & q1 & E1 & _). destruct (repr_data _ _ _ Hb) as (p2 & q2 & E2 & _).
    rewrite E1 in Ma. rewrite E2 in Mb. rewrite !app_length in Ma, Mb. unfold two63, R.
    destruct (Nat.max_spec ra rb) as [[_ ->]|[_ ->]]; nia. }
  assert (HR0 : R <> 0) by (unfold R; lia).
  unfold alloc at 1. destruct (Z.leb_spec two63 (Z.of_nat R)) as [C|_]; [lia|].
  rewrite (proj2 (Nat.eqb_neq R 0) HR0). cbn [andb bind].
  set (body := fun p '(st, o) => _).
  destruct (Nat.eq_dec N 0) as [->|HN0].
  - assert (Hbody : forall p s o, exists s', body p (s, o) = Ok (s', o)).
    { intros p s o. destruct (Hf s (row ac xs (p mod ra)) (row bc ys (p mod rb))) as (s' & vs & E & L).
      exists s'. cbn [body]. subst body. cbv beta iota. rewrite E. cbn [bind]. destruct vs; [|discriminate]. reflexivity. }
    destruct (for_inv (fun _ so => snd so = repeat None R) R body (st, repeat None R)) as ([s' o'] & E & L); auto.
    { intros i [s o] Hi L. cbn in L. destruct (Hbody i s o) as (s' & E). rewrite E. eauto. }
    rewrite E. cbn [bind]. cbn in L. subst o'. destruct R; [congruence|]. reflexivity.
  - enough (E : for_ R body (st, repeat None R) = Ub) by now rewrite E.
    assert (Hbody : forall p s o, length o = R ->
      body p (s, o) = Ub \/ exists s' o', body p (s, o) = Ok (s', o') /\ length o' = R).
    { intros p s o Lo. destruct (Hf s (row ac xs (p mod ra)) (row bc ys (p mod rb))) as (s' & vs & E & L).
      subst body. cbv beta iota. rewrite E. cbn [bind]. set (q := p / m * m + p mod m * N).
      destruct (Nat.le_gt_cases (q + length vs) (length o)) as [Le|Gt].
      - destruct (write_row_in o q vs Le) as (o' & E' & L'). rewrite E'. right. cbn [bind]. exists s', o'. split; [reflexivity|lia].
      - left. rewrite write_row_out; auto. destruct vs; [cbn in L; lia|discriminate]. }
    assert (Hlast : forall s o, length o = R -> body (R - 1) (s, o) = Ub).
    { intros s o Lo. destruct (Hf s (row ac xs ((R - 1) mod ra)) (row bc ys ((R - 1) mod rb))) as (s' & vs & E & L).
      subst body. cbv beta iota. rewrite E. cbn [bind]. rewrite write_row_out; auto.
      - destruct vs; [cbn in L; lia|discriminate].
      - rewrite L, Lo. destruct Dm as [q Hq].
        assert (Hq0 : q <> 0) by (intros ->; lia).
        assert (Ed : R - 1 = (q - 1) * m + (m - 1)) by nia.
        rewrite Ed. rewrite Nat.div_add_l, (Nat.div_small (m - 1) m) by lia.
        rewrite (Nat.add_comm ((q - 1) * m) (m - 1)), Nat.mod_add, Nat.mod_small by lia.
        assert (E1 : (m - 1) * N + N = m * N) by (clearbody m; destruct m as [|m']; [lia|]; replace (Datatypes.S m' - 1) with m' by lia; cbn [Nat.mul]; lia).
        assert (E2 : 2 * m <= m * N) by (rewrite (Nat.mul_comm m N); apply Nat.mul_le_mono_r; lia).
        rewrite Nat.add_0_r, <- Nat.add_assoc, E1. rewrite Hq.
        assert (E3 : q * m = (q - 1) * m + m) by (destruct q as [|q']; [lia|]; replace (Datatypes.S q' - 1) with q' by lia; cbn [Nat.mul]; lia).
        rewrite E3. lia. }
    assert (G : forall k i s o, i + k = R -> 0 < k -> length o = R -> for_from i k body (s, o) = Ub).
    { induction k as [|k IH]; intros i s o E Hk Lo; [lia|]. cbn [for_from]. destruct k as [|k'].
      - replace i with (R - 1) by lia. now rewrite Hlast.
      - destruct (Hbody i s o Lo) as [Eb|(s' & o' & Eb & Lo')]; rewrite Eb; cbn [bind]; auto. apply IH; auto; lia. }
    apply G; [lia|lia|]. apply repeat_length.
Qed.

Lemma c77_read_u16 c bs i :
  Forall is_byte bs -> (Z.of_nat i < two63)%Z ->
  read_u16_ c bs i = match nth_error bs i, nth_error bs (i + 1) with
    | Some a, Some b => Ok ((256 * a + b)%Z, i + 2)
    | _, _ => Panic
    end.
Proof.
  intros Hb Hi. unfold read_u16_, read, aget.
  destruct (nth_error bs i) as [a|] eqn:Ea; cbn [bind]; auto.
  rewrite uadd_ok by (unfold two63, two64 in *; lia). cbn [bind].
  pose proof (proj1 (Forall_forall _ _) Hb a (nth_error_In _ _ Ea)) as Ba. unfold is_byte in Ba.
  unfold zarith, u16_mod. replace ((0 <=? 256 * a) && (256 * a <? 65536))%Z with true by (symmetry; apply andb_true_iff; split; lia).
  cbn [bind]. destruct (nth_error bs (i + 1)) as [b|] eqn:Eb; cbn [bind]; auto.
  rewrite uadd_ok by (unfold two63, two64 in *; lia). cbn [bind].
  pose proof (proj1 (Forall_forall _ _) Hb b (nth_error_In _ _ Eb)) as Bb. unfold is_byte in Bb.
  replace ((0 <=? 256 * a + b) && (256 * a + b <? 65536))%Z with true by (symmetry; apply andb_true_iff; split; lia).
  cbn [bind]. now rewrite <- Nat.add_assoc.
Qed.

Lemma c77_read_slice c bs i slice :
  (Z.of_nat (i + length slice) < two64)%Z ->
  read_slice_ c bs i slice =
    if (i + length slice <=? length bs) || (length slice =? 0)
    then Ok (firstn (length slice) (skipn i bs)) else Panic.
Proof.
  intros Hi. unfold read_slice_, for_.
  set (body := fun k slice => _).
  assert (G : forall k done rest, length rest = k -> (Z.of_nat (length done + k + i) < two64)%Z ->
      for_from (length done) k body (done ++ rest)
      = if (i + length done + k <=? length bs) || (k =? 0)
        then Ok (done ++ firstn k (skipn (i + length done) bs)) else Panic).
  { induction k as [|k IH]; intros done rest Hl HZ.
    - destruct rest; [|discriminate]. cbn [Nat.eqb]. rewrite orb_true_r. reflexivity.
    - destruct rest as [|x rest]; [discriminate|]. cbn [length] in Hl. cbn [for_from Nat.eqb]. rewrite orb_false_r.
      unfold body at 1. rewrite uadd_ok by lia. cbn [bind]. rewrite (Nat.add_comm (length done) i).
      unfold aget. destruct (nth_error bs (i + length done)) as [v|] eqn:Ev; cbn [bind].
      + unfold aset. rewrite app_length. cbn [length]. destruct (Nat.ltb_spec (length done) (length done + Datatypes.S (length rest))); [|lia].
        cbn [bind]. replace (set_nth (done ++ x :: rest) (length done) v) with ((done ++ [v]) ++ rest).
        2: { clear. induction done as [|d done IH]; [reflexivity|]. cbn [app length set_nth]. f_equal. exact IH. }
        replace (Datatypes.S (length done)) with (length (done ++ [v])) by (rewrite app_length; cbn; lia).
        rewrite IH; [|lia|rewrite app_length; cbn [length]; lia].
        rewrite app_length. cbn [length]. assert (Hlt : i + length done < length bs) by (apply nth_error_Some; congruence).
        assert (Es : skipn (i + length done) bs = v :: skipn (i + (length done + 1)) bs).
        { replace (i + (length done + 1)) with (Datatypes.S (i + length done)) by lia.
          clear - Ev. revert Ev. generalize (i + length done). induction bs as [|y bs IH]; intros [|n] E; cbn in *; try discriminate; [congruence|now apply IH]. }
        rewrite Es. cbn [firstn]. rewrite <- app_assoc. cbn [app].
        replace (i + (length done + 1) + k) with (i + length done + Datatypes.S k) by lia.
        destruct k as [|k].
        * cbn [Nat.eqb]. rewrite orb_true_r. destruct (Nat.leb_spec (i + length done + 1) (length bs)); [reflexivity|lia].
        * cbn [Nat.eqb]. now rewrite orb_false_r.
      + apply nth_error_None in Ev. destruct (Nat.leb_spec (i + length done + Datatypes.S k) (length bs)); [lia|reflexivity]. }
  specialize (G (length slice) [] slice eq_refl). cbn [length app] in G. rewrite Nat.add_0_r in G. rewrite G by lia. reflexivity.
Qed.
