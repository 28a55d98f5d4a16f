(** * Facts about matrix products *)
From Coq Require Import ZifyBool ZifyNat ZifyN.
From Verif Require Import Base ShapeModel TensorModel AxisModel MapModel FloatModel LinalgModel Spec FloatSpec BaseFacts
  ShapeFacts ShapeFacts2 CoordFacts TensorFacts TensorFacts2 MapFacts SafeFacts ArrayFacts InitFacts.

Ltac Zify.zify_post_hook ::= Z.div_mod_to_equations.

Lemma repr_nth {A} (t : tensor A) ds xs i :
  repr t ds xs -> i < length xs -> nth_error (tdata t) (toffset t + i) = nth_error xs i.
Proof.
  intros H Hi. destruct (repr_data _ _ _ H) as (pre & post & E & L).
  rewrite E, <- L, nth_error_app2 by lia. replace (length pre + i - length pre) with i by lia.
  now rewrite nth_error_app1.
Qed.

Lemma repr_room {A} (t : tensor A) ds xs : repr t ds xs -> toffset t + length xs <= length (tdata t).
Proof.
  intros H. destruct (repr_data _ _ _ H) as (pre & post & E & L). rewrite E, !app_length. lia.
Qed.

(** The sum of products of two finite sequences, added up from the left. *)
Lemma dot_some {F} (o : fops F) k f g :
  (forall p, p < k -> exists x, f p = Some x) -> (forall p, p < k -> exists y, g p = Some y) ->
  exists v, dot o k f g = Some v.
Proof.
  induction k as [|k IH]; intros Hf Hg; cbn [dot]; eauto.
  destruct IH as [v ->]; [auto|auto|]. destruct (Hf k ltac:(lia)) as [x ->]. destruct (Hg k ltac:(lia)) as [y ->].
  eauto.
Qed.

Lemma dot_ext {F} (o : fops F) k f g f' g' :
  (forall p, p < k -> f p = f' p) -> (forall p, p < k -> g p = g' p) -> dot o k f g = dot o k f' g'.
Proof.
  induction k as [|k IH]; intros Hf Hg; cbn [dot]; auto.
  now rewrite IH, Hf, Hg by auto.
Qed.

Lemma for_snoc {S} n (body : nat -> S -> outcome S) s :
  for_ (Datatypes.S n) body s = let* s := for_ n body s in body n s.
Proof.
  unfold for_. replace (Datatypes.S n) with (n + 1) by lia. rewrite for_from_app. cbn [Nat.add].
  destruct (for_from 0 n body s) as [s'| |]; cbn [bind]; auto.
  rewrite for_from_S. destruct (body n s'); cbn [bind]; auto.
Qed.

Lemma dot_loop {F} (o : fops F) k (a b : list F) (f g : nat -> nat) v :
  dot o k (fun p => nth_error a (f p)) (fun p => nth_error b (g p)) = Some v ->
  for_ k (fun p v =>
    let* x := raw_get a (f p) in
    let* y := raw_get b (g p) in
    Ok (fadd o v (fmul o x y))) (fzero o) = Ok v.
Proof.
  revert v. induction k as [|k IH]; intros v E.
  - cbn in E. injection E as <-. reflexivity.
  - rewrite for_snoc. cbn [dot] in E. destruct (dot o k _ _) as [w|] eqn:Ew; [|discriminate].
    rewrite (IH _ eq_refl). cbn [bind]. unfold raw_get.
    destruct (nth_error a (f k)); [|discriminate]. destruct (nth_error b (g k)); [|discriminate].
    injection E as <-. reflexivity.
Qed.

Section Gemm.
  Context {F : Type} (o : fops F) (c : cfg) (a b : list F) (m k n B : nat)
    (rsa csa rsb csb : nat) (pa pb : nat -> nat).
  Hypothesis Hzero : feq o (fzero o) (fzero o) = true.
  Let fa q i p := nth_error a (pa q + (rsa * i + csa * p)).
  Let fb q p j := nth_error b (pb q + (rsb * p + csb * j)).
  Hypothesis Ha : forall q i p, q < B -> i < m -> p < k -> exists x, fa q i p = Some x.
  Hypothesis Hb : forall q p j, q < B -> p < k -> j < n -> exists y, fb q p j = Some y.

  Let val q i j := match dot o k (fa q i) (fun p => fb q p j) with Some v => v | None => fzero o end.

  Lemma gemm_cell q i j : q < B -> i < m -> j < n -> dot o k (fa q i) (fun p => fb q p j) = Some (val q i j).
  Proof.
    intros Hq Hi Hj. unfold val. destruct (dot_some o k (fa q i) (fun p => fb q p j)) as [v E]; auto.
    now rewrite E.
  Qed.

  Lemma gemm_loop out :
    for_ B (fun q out => sgemm o m k n (fone o) a (pa q) rsa csa b (pb q) rsb csb (fzero o) (m * n * q) n 1 out) out
    = for_ (B * (m * n)) (fun p out =>
        write out p (fmul o (fone o) (val (p / (m * n)) (p mod (m * n) / n) ((p mod (m * n)) mod n)))) out.
  Proof.
    transitivity (for_ B (fun q out => for_ m (fun i out => for_ n (fun j out =>
      write out (m * n * q + (n * i + 1 * j)) (fmul o (fone o) (val q i j))) out) out) out).
    - apply for_ext. intros q out' Hq. unfold sgemm. rewrite Hzero. cbn [assert_ bind].
      apply for_ext. intros i out'' Hi. apply for_ext. intros j out''' Hj.
      erewrite dot_loop; [reflexivity|]. now apply gemm_cell.
    - rewrite (for_nest3 B m n (fun q i j out =>
        write out (m * n * q + (n * i + 1 * j)) (fmul o (fone o) (val q i j)))).
      apply for_ext. intros p out' Hp. f_equal.
      pose proof (div_mod_l p (m * n)). pose proof (div_mod_l (p mod (m * n)) n). lia.
  Qed.

  Lemma gemm_init ds :
    can_alloc c (m * n * B) -> supported ds -> m * n * B = prod ds ->
    exists zs,
      unsafe_init_ c (m * n * B) (canon ds) (fun out =>
        for_ B (fun q out =>
          sgemm o m k n (fone o) a (pa q) rsa csa b (pb q) rsb csb (fzero o) (m * n * q) n 1 out) out)
      = Ok (fresh ds zs) /\ length zs = m * n * B /\
      forall q i j, q < B -> i < m -> j < n ->
        nth_error zs (q * (m * n) + (i * n + j))
        = option_map (fmul o (fone o)) (dot o k (fa q i) (fun p => fb q p j)).
  Proof.
    intros Hc Hs Hp.
    destruct (unsafe_init_table c (m * n * B) ds
      (fun out => for_ B (fun q out =>
          sgemm o m k n (fone o) a (pa q) rsa csa b (pb q) rsb csb (fzero o) (m * n * q) n 1 out) out)
      (fun p => fmul o (fone o) (val (p / (m * n)) (p mod (m * n) / n) ((p mod (m * n)) mod n)))
      (fun p => p)) as (zs & E & L & Hy); auto.
    - intros out. rewrite gemm_loop. now rewrite (Nat.mul_comm (m * n) B).
    - eauto.
    - exists zs. split; [exact E|]. split; [exact L|]. intros q i j Hq Hi Hj.
      assert (Hr : i * n + j < m * n) by nia.
      rewrite Hy by nia. rewrite gemm_cell by auto. cbn [option_map]. do 2 f_equal.
      assert (E1 : (q * (m * n) + (i * n + j)) / (m * n) = q)
        by (rewrite Nat.div_add_l by lia; rewrite Nat.div_small by lia; lia).
      assert (E2 : (q * (m * n) + (i * n + j)) mod (m * n) = i * n + j)
        by (rewrite Nat.add_comm, Nat.mod_add by lia; now apply Nat.mod_small).
      rewrite E1, E2. rewrite Nat.div_add_l by lia. rewrite (Nat.div_small j) by lia.
      rewrite (Nat.add_comm (i * n)), Nat.mod_add, Nat.mod_small by lia. now rewrite Nat.add_0_r.
  Qed.
End Gemm.

Lemma fill_loop {A} n (g : nat -> A) :
  exists ys, for_ n (fun i b => write b i (g i)) (repeat None n) = Ok (map Some ys) /\ length ys = n.
Proof.
  rewrite (for_writes n _ (fun i => [(i, g i)])).
  2:{ intros i b _. cbn [run_writes]. destruct (write b i (g i)); reflexivity. }
  assert (E : map fst (flat_map (fun i => [(i, g i)]) (seq 0 n)) = seq 0 n).
  { induction (seq 0 n) as [|x l IH]; cbn; [auto|now rewrite IH]. }
  destruct (run_writes_full (flat_map (fun i => [(i, g i)]) (seq 0 n)) n) as (ys & E1 & L & _).
  - rewrite E. apply seq_NoDup.
  - intros p. rewrite E. rewrite in_seq. lia.
  - rewrite <- (map_length fst), E. apply seq_length.
  - eauto.
Qed.

Lemma assume_init_some {A} (l : list A) : assume_init (map Some l) = Ok l.
Proof. induction l as [|x l IH]; cbn in *; [auto|now rewrite IH]. Qed.

(** A buffer that is filled completely: either it cannot be allocated, or the result is
    decided by the shape check. *)
Lemma unsafe_init_fill {A} c n s (f : buf A -> outcome (buf A)) (g : nat -> A) :
  can_alloc c n -> f (repeat None n) = for_ n (fun i b => write b i (g i)) (repeat None n) ->
  unsafe_init_ c n s f = Panic \/ exists ys, length ys = n /\ unsafe_init_ c n s f = tensor_new c ys s.
Proof.
  intros Hc Hf. unfold unsafe_init_, unsafe_init, alloc.
  destruct (two63 <=? Z.of_nat n)%Z; [auto|].
  assert (E : (n =? 0) && negb (zero_alloc_ok c) = false).
  { destruct Hc as [H|H]; [destruct (Nat.eqb_spec n 0); [lia|auto]|rewrite H; apply andb_false_r]. }
  rewrite E. cbn [bind]. rewrite Hf. destruct (fill_loop n g) as (ys & -> & L). cbn [bind].
  rewrite assume_init_some. cbn [bind]. right. exists ys. split; auto.
  destruct (tensor_new c ys s); reflexivity.
Qed.

(** ** matmul *)

Definition out_rows (tr : trans) (ar ac : nat) := match tr with TNone | TransposeB => ar | _ => ac end.
Definition out_cols (tr : trans) (br bc : nat) := match tr with TNone | TransposeA => bc | _ => br end.
Definition inner_a (tr : trans) (ar ac : nat) := match tr with TNone | TransposeB => ac | _ => ar end.
Definition inner_b (tr : trans) (br bc : nat) := match tr with TNone | TransposeA => br | _ => bc end.
Definition stride_a (tr : trans) (ac : nat) := match tr with TNone | TransposeB => (ac, 1) | _ => (1, ac) end.
Definition stride_b (tr : trans) (bc : nat) := match tr with TNone | TransposeA => (bc, 1) | _ => (1, bc) end.

Lemma rows_app ds r k : length (ds ++ [r; k]) <= 6 -> rows (canon (ds ++ [r; k])) = Ok r.
Proof. intros H. rewrite rows_canon by auto. now destruct (last2 ds r k) as [_ ->]. Qed.
Lemma cols_app ds r k : length (ds ++ [r; k]) <= 6 -> cols (canon (ds ++ [r; k])) = Ok k.
Proof. intros H. rewrite cols_canon by auto. now destruct (last2 ds r k) as [-> _]. Qed.

Lemma supported_last2 ds r k : supported (ds ++ [r; k]) ->
  length ds <= 4 /\ (Z.of_nat r < two32)%Z /\ (Z.of_nat k < two32)%Z /\ (Z.of_nat (r * k) < two32)%Z /\
  (Z.of_nat (prod ds * (r * k)) < two32)%Z /\ (Z.of_nat (prod ds * r) < two32)%Z /\
  (Z.of_nat (prod ds * k) < two32)%Z /\ (Z.of_nat (prod ds) < two32)%Z.
Proof.
  intros H. pose proof (supported_len _ H) as Hl. rewrite app_length in Hl. cbn [length] in Hl.
  pose proof (supported_prod1 _ H) as Hp. rewrite prod1_app in Hp.
  rewrite !prod1_cons in Hp. change (prod1 []) with 1 in Hp. rewrite Nat.mul_1_r in Hp.
  pose proof (prod_le_prod1 ds) as Hd. pose proof (prod1_pos ds) as H1.
  remember (prod1 ds) as P. remember (prod ds) as D. clear HeqP HeqD.
  assert (A1 : r <= Nat.max 1 r * Nat.max 1 k) by nia.
  assert (A2 : k <= Nat.max 1 r * Nat.max 1 k) by nia.
  assert (A3 : r * k <= Nat.max 1 r * Nat.max 1 k) by nia.
  assert (A4 : 1 <= Nat.max 1 r * Nat.max 1 k) by nia.
  remember (Nat.max 1 r * Nat.max 1 k) as M. clear HeqM.
  assert (B1 : M <= P * M) by nia.
  assert (B2 : D * M <= P * M) by (apply Nat.mul_le_mono_r; auto).
  assert (C1 : D * (r * k) <= D * M) by (apply Nat.mul_le_mono_l; auto).
  assert (C2 : D * r <= D * M) by (apply Nat.mul_le_mono_l; auto).
  assert (C3 : D * k <= D * M) by (apply Nat.mul_le_mono_l; auto).
  assert (C4 : D <= D * M) by nia.
  repeat split; lia.
Qed.

Lemma umul_small c a b : (Z.of_nat (a * b) < two64)%Z -> umul c a b = Ok (a * b).
Proof. intros H. apply umul_ok. lia. Qed.

Section Matmul.
  Context {F : Type} (o : fops F) (c : cfg) (a b : tensor F) (da db : list nat) (ar ac br bc : nat)
    (xs ys : list F) (tr : trans).
  Hypothesis Ha : repr a (da ++ [ar; ac]) xs.
  Hypothesis Hb : repr b (db ++ [br; bc]) ys.
  Notation m := (out_rows tr ar ac).
  Notation n := (out_cols tr br bc).
  Notation k := (inner_a tr ar ac).

  Lemma matmul_head :
    matmul_t o c a b tr
    = (assert! (k =? inner_b tr br bc) in
       unsafe_init_ c (m * n * prod da) (canon (db ++ [n; m])) (fun out =>
         for_ (prod da) (fun q out =>
           let* pa := ptr_add (tdata a) (toffset a) (ar * ac * q) in
           let* pb := ptr_add (tdata b) (toffset b) (br * bc * q) in
           sgemm o m k n (fone o) (tdata a) pa (fst (stride_a tr ac)) (snd (stride_a tr ac))
             (tdata b) pb (fst (stride_b tr bc)) (snd (stride_b tr bc)) (fzero o) (m * n * q) n 1 out) out)).
  Proof.
    pose proof (repr_supported _ _ _ Ha) as Hsa. pose proof (repr_supported _ _ _ Hb) as Hsb.
    pose proof (supported_len _ Hsa) as Hla. pose proof (supported_len _ Hsb) as Hlb.
    destruct (supported_last2 _ _ _ Hsa) as (La & Ra & Ca & RCa & Pa & Qa & Qa' & Pda).
    destruct (supported_last2 _ _ _ Hsb) as (Lb & Rb & Cb & RCb & Pb & Qb & Qb' & Pdb).
    assert (Hm : (Z.of_nat m < two32)%Z) by (destruct tr; cbn; auto).
    assert (Hn : (Z.of_nat n < two32)%Z) by (destruct tr; cbn; auto).
    assert (Hmd : (Z.of_nat (prod da * m) < two32)%Z) by (destruct tr; cbn; auto).
    unfold matmul_t, mkn, matmul_sgemm. rewrite (repr_shape _ _ _ Ha), (repr_shape _ _ _ Hb).
    rewrite !rows_app, !cols_app by auto. cbn [bind].
    replace (1 <? rank (canon (da ++ [ar; ac]))) with true
      by (symmetry; apply Nat.ltb_lt; cbn [rank canon]; rewrite app_length; cbn; lia).
    cbn [assert_ bind].
    assert (E : (match tr with
                 | TNone => assert! (ac =? br) in Ok (ar, ac, bc)
                 | TransposeA => assert! (ar =? br) in Ok (ac, ar, bc)
                 | TransposeB => assert! (ac =? bc) in Ok (ar, ar, br)
                 | TransposeAB => assert! (ar =? bc) in Ok (ac, ar, br)
                 end) = (assert! (k =? inner_b tr br bc) in
                         Ok (m, match tr with TNone => ac | _ => ar end, n))) by (destruct tr; reflexivity).
    rewrite E. destruct (k =? inner_b tr br bc); cbn [assert_ bind]; [|reflexivity].
    cbn [rank canon]. rewrite app_length. cbn [length].
    rewrite sublen_canon by (auto; rewrite ?app_length; cbn; lia). cbn [bind skipn].
    replace (length da + 2 - 2 - 0) with (length da) by lia.
    rewrite firstn_app, Nat.sub_diag, firstn_all, firstn_O, app_nil_r.
    rewrite !(umul_small c ar ac), !(umul_small c br bc) by (unfold two64, two32 in *; lia). cbn [bind].
    assert (Hmn : (Z.of_nat (m * n) < two64)%Z).
    { rewrite Nat2Z.inj_mul. unfold two64, two32 in *. nia. }
    assert (Hmnd : forall q, q <= prod da -> (Z.of_nat (m * n * q) < two64)%Z).
    { intros q Hq. replace (m * n * q) with (q * m * n) by lia.
      assert (q * m <= prod da * m) by (apply Nat.mul_le_mono_r; auto).
      rewrite Nat2Z.inj_mul. unfold two64, two32 in *. nia. }
    rewrite (umul_small c m n) by auto. cbn [bind].
    replace (db ++ [br; bc]) with ((db ++ [br]) ++ [bc]) by now rewrite <- app_assoc.
    rewrite with_cols_canon by (rewrite <- app_assoc; auto). cbn [bind].
    rewrite <- app_assoc. cbn [app].
    rewrite with_rows_canon by (rewrite app_length in *; cbn in *; lia). cbn [bind].
    rewrite !as_u32_small by auto.
    rewrite (umul_small c (m * n)) by (apply Hmnd; lia). cbn [bind].
    unfold unsafe_init_, unsafe_init. destruct (alloc c (m * n * prod da)) as [bf| |]; cbn [bind]; auto.
    f_equal. f_equal. f_equal. apply for_ext. intros q out Hq.
    rewrite (umul_small c (ar * ac)).
    2:{ assert (ar * ac * q <= prod da * (ar * ac)) by (rewrite Nat.mul_comm; apply Nat.mul_le_mono_r; lia).
        unfold two64, two32 in *. lia. }
    cbn [bind]. destruct (ptr_add (tdata a) _ _) as [pa| |]; cbn [bind]; auto.
    rewrite (umul_small c (br * bc)).
    2:{ assert (Z.of_nat q < two32)%Z by lia. rewrite Nat2Z.inj_mul. unfold two64, two32 in *. nia. }
    cbn [bind]. destruct (ptr_add (tdata b) _ _) as [pb| |]; cbn [bind]; auto.
    rewrite (umul_small c (m * n)) by (apply Hmnd; lia). cbn [bind].
    destruct tr; reflexivity.
  Qed.

  (** Positions inside the operands. *)
  Notation sa := (stride_a tr ac).
  Notation sb := (stride_b tr bc).
  Lemma pos_a i p : i < m -> p < k -> fst sa * i + snd sa * p < ar * ac.
  Proof. destruct tr; cbn; intros; nia. Qed.
  Lemma pos_b p j : p < inner_b tr br bc -> j < n -> fst sb * p + snd sb * j < br * bc.
  Proof. destruct tr; cbn; intros; nia. Qed.

  Lemma batch_pos q d B r : q < B -> r < d -> q * d + r < B * d.
  Proof. intros. nia. Qed.

  Lemma matmul_repr :
    feq o (fzero o) (fzero o) = true ->
    k = inner_b tr br bc -> prod da = prod db -> supported (db ++ [n; m]) ->
    can_alloc c (prod (db ++ [n; m])) ->
    exists zs, matmul_t o c a b tr = Ok (fresh (db ++ [n; m]) zs) /\ length zs = prod (db ++ [n; m]) /\
      forall q i j, q < prod da -> i < m -> j < n ->
        nth_error zs (q * (m * n) + (i * n + j))
        = option_map (fmul o (fone o))
            (dot o k (fun p => nth_error xs (q * (ar * ac) + (fst sa * i + snd sa * p)))
                     (fun p => nth_error ys (q * (br * bc) + (fst sb * p + snd sb * j)))).
  Proof.
    intros Hz Hk Hd Hs Hc.
    assert (Hp : prod (db ++ [n; m]) = m * n * prod da) by (rewrite prod_app; cbn [prod]; lia).
    pose proof (repr_len _ _ _ Ha) as Lx. pose proof (repr_len _ _ _ Hb) as Ly.
    rewrite prod_app in Lx, Ly. cbn [prod] in Lx, Ly. rewrite Nat.mul_1_r in Lx, Ly.
    assert (Fa : forall q i p, q < prod da -> i < m -> p < k ->
      nth_error (tdata a) (toffset a + ar * ac * q + (fst sa * i + snd sa * p))
      = nth_error xs (q * (ar * ac) + (fst sa * i + snd sa * p))).
    { intros q i p Hq Hi Hpk. rewrite <- (repr_nth a _ xs _ Ha).
      - f_equal. lia.
      - rewrite Lx. apply batch_pos; auto. now apply pos_a. }
    assert (Fb : forall q p j, q < prod da -> p < k -> j < n ->
      nth_error (tdata b) (toffset b + br * bc * q + (fst sb * p + snd sb * j))
      = nth_error ys (q * (br * bc) + (fst sb * p + snd sb * j))).
    { intros q p j Hq Hpk Hj. rewrite <- (repr_nth b _ ys _ Hb).
      - f_equal. lia.
      - rewrite Ly. apply batch_pos; [lia|]. apply pos_b; auto. lia. }
    destruct (gemm_init o c (tdata a) (tdata b) m k n (prod da) (fst sa) (snd sa) (fst sb) (snd sb)
                (fun q => toffset a + ar * ac * q) (fun q => toffset b + br * bc * q) Hz) with (ds := db ++ [n; m])
      as (zs & E & L & Hy); auto.
    - intros q i p Hq Hi Hpk. rewrite Fa by auto.
      destruct (nth_error xs _) eqn:En; eauto. apply nth_error_None in En.
      pose proof (batch_pos q (ar * ac) (prod da) _ Hq (pos_a i p Hi Hpk)). lia.
    - intros q p j Hq Hpk Hj. rewrite Fb by auto.
      destruct (nth_error ys _) eqn:En; eauto. apply nth_error_None in En.
      assert (Hq' : q < prod db) by lia. assert (Hpk' : p < inner_b tr br bc) by lia.
      pose proof (batch_pos q (br * bc) (prod db) _ Hq' (pos_b p j Hpk' Hj)). lia.
    - now rewrite <- Hp.
    - exists zs. split; [|split; [lia|]].
      + rewrite matmul_head, Hk, Nat.eqb_refl. cbn [assert_ bind]. rewrite <- E.
        unfold unsafe_init_, unsafe_init. rewrite <- Hk.
        destruct (alloc c (m * n * prod da)) as [bf| |]; cbn [bind]; auto.
        f_equal. f_equal. f_equal. apply for_ext. intros q out Hq.
        pose proof (repr_room _ _ _ Ha) as Ra. pose proof (repr_room _ _ _ Hb) as Rb. unfold ptr_add.
        assert (ar * ac * q <= prod da * (ar * ac)) by nia.
        assert (br * bc * q <= prod db * (br * bc)) by (rewrite <- Hd; nia).
        replace (toffset a + ar * ac * q <=? length (tdata a)) with true by (symmetry; apply Nat.leb_le; lia).
        replace (toffset b + br * bc * q <=? length (tdata b)) with true by (symmetry; apply Nat.leb_le; lia).
        reflexivity.
      + intros q i j Hq Hi Hj. rewrite Hy by auto. f_equal. apply dot_ext; intros p Hpk; auto.
  Qed.

  Lemma matmul_incompatible : k <> inner_b tr br bc -> matmul_t o c a b tr = Panic.
  Proof.
    intros Hk. rewrite matmul_head. destruct (Nat.eqb_spec k (inner_b tr br bc)); [contradiction|reflexivity].
  Qed.

  Hypothesis Hz : feq o (fzero o) (fzero o) = true.

  (** The loop over batches that exist in both operands. *)
  Lemma matmul_loop B : k = inner_b tr br bc -> B <= prod da -> B <= prod db ->
    exists g, forall out,
      for_ B (fun q out =>
        let* pa := ptr_add (tdata a) (toffset a) (ar * ac * q) in
        let* pb := ptr_add (tdata b) (toffset b) (br * bc * q) in
        sgemm o m k n (fone o) (tdata a) pa (fst sa) (snd sa)
          (tdata b) pb (fst sb) (snd sb) (fzero o) (m * n * q) n 1 out) out
      = for_ (B * (m * n)) (fun p out => write out p (g p)) out.
  Proof.
    intros Hk HBa HBb.
    pose proof (repr_len _ _ _ Ha) as Lx. pose proof (repr_len _ _ _ Hb) as Ly.
    rewrite prod_app in Lx, Ly. cbn [prod] in Lx, Ly. rewrite Nat.mul_1_r in Lx, Ly.
    pose proof (repr_room _ _ _ Ha) as Ra. pose proof (repr_room _ _ _ Hb) as Rb.
    eexists. intros out.
    erewrite <- (gemm_loop o (tdata a) (tdata b) m k n B (fst sa) (snd sa) (fst sb) (snd sb)
                (fun q => toffset a + ar * ac * q) (fun q => toffset b + br * bc * q) Hz).
    - apply for_ext. intros q out' Hq. unfold ptr_add.
      assert (ar * ac * q <= prod da * (ar * ac)) by nia.
      assert (br * bc * q <= prod db * (br * bc)) by nia.
      replace (toffset a + ar * ac * q <=? length (tdata a)) with true by (symmetry; apply Nat.leb_le; lia).
      replace (toffset b + br * bc * q <=? length (tdata b)) with true by (symmetry; apply Nat.leb_le; lia).
      reflexivity.
    - intros q i p Hq Hi Hpk. destruct (nth_error (tdata a) _) eqn:En; eauto. apply nth_error_None in En.
      assert (Hq' : q < prod da) by lia.
      pose proof (batch_pos q (ar * ac) (prod da) _ Hq' (pos_a i p Hi Hpk)). lia.
    - intros q p j Hq Hpk Hj. destruct (nth_error (tdata b) _) eqn:En; eauto. apply nth_error_None in En.
      assert (Hq' : q < prod db) by lia. assert (Hpk' : p < inner_b tr br bc) by lia.
      pose proof (batch_pos q (br * bc) (prod db) _ Hq' (pos_b p j Hpk' Hj)). lia.
  Qed.

  Lemma matmul_enough : prod da <= prod db -> can_alloc c (m * n * prod da) ->
    matmul_t o c a b tr = Panic \/
    exists zs, length zs = m * n * prod da /\ matmul_t o c a b tr = tensor_new c zs (canon (db ++ [n; m])).
  Proof.
    intros Hd Hc. rewrite matmul_head. destruct (Nat.eqb_spec k (inner_b tr br bc)) as [Hk|]; [|auto].
    cbn [assert_ bind]. destruct (matmul_loop (prod da) Hk (le_n _) Hd) as [g Hg].
    apply unsafe_init_fill with (g := g); auto. rewrite Hg. f_equal. lia.
  Qed.

  Lemma matmul_safe : prod da <= prod db -> can_alloc c (m * n * prod da) -> matmul_t o c a b tr <> Ub.
  Proof.
    intros Hd Hc. destruct (matmul_enough Hd Hc) as [->|(zs & _ & ->)]; [discriminate|apply safe_tensor_new].
  Qed.

  Lemma matmul_more : prod da < prod db -> 0 < m -> 0 < n -> can_alloc c (m * n * prod da) ->
    supported (db ++ [n; m]) -> matmul_t o c a b tr = Panic.
  Proof.
    intros Hd Hm Hn Hc Hs.
    destruct (matmul_enough ltac:(lia) Hc) as [->|(zs & L & ->)]; [auto|].
    unfold tensor_new. rewrite size_canon by auto. cbn [bind]. rewrite L, prod_app. cbn [prod].
    destruct (Nat.eqb_spec (prod db * (n * (m * 1))) (m * n * prod da)) as [E|]; [|reflexivity].
    exfalso. assert (Hp : 0 < m * n) by nia. remember (m * n) as mn eqn:Emn.
    replace (n * (m * 1)) with mn in E by lia. nia.
  Qed.

  (** Too few batches in the right operand, which ends where its buffer ends. *)
  Lemma matmul_fewer :
    k = inner_b tr br bc -> prod db < prod da -> 0 < m -> 0 < n -> 0 < k ->
    (Z.of_nat (m * n * prod da) < two63)%Z ->
    toffset b + tsize b = length (tdata b) ->
    matmul_t o c a b tr = Ub.
  Proof.
    intros Hk Hd Hm Hn Hk0 Hmem Hend. rewrite matmul_head, <- Hk, Nat.eqb_refl. cbn [assert_ bind].
    unfold unsafe_init_, unsafe_init, alloc.
    destruct (Z.leb_spec two63 (Z.of_nat (m * n * prod da))); [lia|].
    assert (E0 : (m * n * prod da =? 0) && negb (zero_alloc_ok c) = false).
    { destruct (Nat.eqb_spec (m * n * prod da) 0); auto. assert (0 < m * n) by nia. nia. }
    rewrite E0. cbn [bind].
    pose proof (repr_len _ _ _ Ha) as Lx. pose proof (repr_len _ _ _ Hb) as Ly.
    rewrite prod_app in Lx, Ly. cbn [prod] in Lx, Ly. rewrite Nat.mul_1_r in Lx, Ly.
    pose proof (repr_room _ _ _ Ha) as Ra. pose proof (repr_size _ _ _ Hb) as Sb.
    destruct (matmul_loop (prod db) Hk ltac:(lia) (le_n _)) as [g Hg].
    assert (Esplit : forall (body : nat -> buf F -> outcome (buf F)) s, for_ (prod da) body s
      = let* s := for_ (prod db) body s in for_from (prod db) (S (prod da - prod db - 1)) body s).
    { intros body s. unfold for_.
      replace (for_from 0 (prod da) body s) with (for_from 0 (prod db + S (prod da - prod db - 1)) body s)
        by (f_equal; lia).
      apply for_from_app. }
    rewrite Esplit, Hg.
    (* the writes of the existing batches fit *)
    assert (Hw : exists out, for_ (prod db * (m * n)) (fun p out => write out p (g p)) (repeat None (m * n * prod da))
                 = Ok out).
    { assert (Hle : prod db * (m * n) <= m * n * prod da) by nia.
      rewrite (for_writes _ _ (fun i => [(i, g i)])).
      2:{ intros i b' _. cbn [run_writes]. destruct (write b' i (g i)); reflexivity. }
      assert (E : map fst (flat_map (fun i => [(i, g i)]) (seq 0 (prod db * (m * n)))) = seq 0 (prod db * (m * n))).
      { induction (seq 0 (prod db * (m * n))) as [|x l IH]; cbn; [auto|now rewrite IH]. }
      destruct (run_writes_spec (flat_map (fun i => [(i, g i)]) (seq 0 (prod db * (m * n))))
                  (repeat None (m * n * prod da))) as (b' & E1 & _).
      - rewrite E. apply seq_NoDup.
      - intros p. rewrite E, in_seq, repeat_length. lia.
      - eauto. }
    destruct Hw as [out ->]. cbn [bind]. rewrite for_from_S. unfold ptr_add.
    assert (ar * ac * prod db < prod da * (ar * ac)).
    { assert (0 < ar * ac) by (destruct tr; cbn in *; nia). nia. }
    replace (toffset a + ar * ac * prod db <=? length (tdata a)) with true by (symmetry; apply Nat.leb_le; lia).
    replace (toffset b + br * bc * prod db <=? length (tdata b)) with true by (symmetry; apply Nat.leb_le; lia).
    cbn [bind]. unfold sgemm. rewrite Hz. cbn [assert_ bind].
    destruct m as [|m'] eqn:Em; [lia|]. destruct n as [|n'] eqn:En; [lia|]. destruct k as [|k'] eqn:Ek; [lia|].
    unfold for_. rewrite for_from_S. rewrite for_from_S. rewrite for_from_S.
    assert (Hxa : exists x, raw_get (tdata a) (toffset a + ar * ac * prod db + (fst sa * 0 + snd sa * 0)) = Ok x).
    { unfold raw_get. destruct (nth_error (tdata a) _) eqn:E; eauto. apply nth_error_None in E. lia. }
    destruct Hxa as [x ->]. cbn [bind].
    assert (Hxb : raw_get (tdata b) (toffset b + br * bc * prod db + (fst sb * 0 + snd sb * 0)) = Ub).
    { unfold raw_get. rewrite (proj2 (nth_error_None _ _)); [reflexivity|]. lia. }
    rewrite Hxb. reflexivity.
  Qed.
End Matmul.

(** ** matvec *)

Lemma aget_canon_tail ds ts i :
  i < length ds -> aget (dims (canon (ds ++ ts))) (i + length ts) = rdim (canon ds) i.
Proof.
  intros H. unfold rdim. rewrite !aget_canon by (rewrite ?app_length; lia). f_equal.
  rewrite app_length, app_nth1 by lia. f_equal. lia.
Qed.

Lemma broadcast_min_canon c da ta dx tx :
  supported (da ++ ta) -> supported (dx ++ tx) ->
  broadcast_min c (canon (da ++ ta)) (length ta) (canon (dx ++ tx)) (length tx)
  = (let* _ := check_broadcast (canon da) (canon dx) in
     Ok (if length da <? length dx then prod dx else prod da)).
Proof.
  intros Ha Hx. pose proof (supported_len _ Ha) as La. pose proof (supported_len _ Hx) as Lx.
  assert (Ea : rank (canon (da ++ ta)) = length da + length ta) by apply app_length.
  assert (Ex : rank (canon (dx ++ tx)) = length dx + length tx) by apply app_length.
  rewrite app_length in La, Lx.
  unfold broadcast_min. rewrite Ea, Ex.
  rewrite !usub_ok by (unfold two64; lia). cbn [bind].
  replace (length da + length ta - length ta) with (length da) by lia.
  replace (length dx + length tx - length tx) with (length dx) by lia.
  unfold check_broadcast. change (rank (canon da)) with (length da). change (rank (canon dx)) with (length dx).
  rewrite (for_ext _ _ (fun i _ => let* x := rdim (canon da) i in let* y := rdim (canon dx) i in assert_ (x =? y))).
  2:{ intros i s Hi. now rewrite !aget_canon_tail by lia. }
  destruct (for_ _ _ tt); cbn [bind]; auto.
  destruct (length da <? length dx); rewrite sublen_canon by (auto; rewrite ?app_length; lia);
    rewrite Nat.sub_0_r; cbn [skipn];
    now rewrite firstn_app, Nat.sub_diag, firstn_all, firstn_O, app_nil_r.
Qed.

Lemma check_broadcast_tt a b : length a <= 6 -> length b <= 6 ->
  check_broadcast (canon a) (canon b) = Ok tt \/ check_broadcast (canon a) (canon b) = Panic.
Proof. apply check_broadcast_dec. Qed.

(** The number of rows and columns a trailing dimension list stands for. *)
Definition trow (tx : list nat) := match tx with [r; _] => r | _ => 0 end.
Definition tcol (tx : list nat) := last tx 0.

Lemma trow_canon dx tx : length (dx ++ tx) <= 6 -> length tx = Nat.min 2 (length (dx ++ tx)) ->
  rows (canon (dx ++ tx)) = Ok (trow tx) /\ cols (canon (dx ++ tx)) = Ok (tcol tx).
Proof.
  intros Hl Ht. rewrite app_length in Ht. destruct tx as [|u [|v [|w tx]]]; cbn [length] in Ht; [| | |lia].
  - destruct dx; [|cbn in Ht; lia]. split; reflexivity.
  - destruct dx; [|cbn in Ht; lia]. split; reflexivity.
  - rewrite rows_app, cols_app by auto. split; reflexivity.
Qed.

(** Positions that wrap around the end of an operand. *)
Lemma wrap_ptr_spec {A} (t : tensor A) N d q :
  tsize t = N * d -> 0 < N * d -> as_wrap_ptr t (q * d) = Ok (toffset t + (q mod N) * d).
Proof.
  intros Hs Hp. unfold as_wrap_ptr, wrap_pos. rewrite Hs.
  assert (HN : 0 < N) by nia. assert (Hd : 0 < d) by nia.
  destruct (Nat.ltb_spec (q * d) (N * d)) as [H|H].
  - cbn [bind]. rewrite Nat.mod_small; [reflexivity|nia].
  - unfold urem. destruct (Nat.eqb_spec (N * d) 0); [lia|]. cbn [bind].
    rewrite Nat.mul_mod_distr_r by lia. reflexivity.
Qed.

Lemma wrap_ptr_empty {A} (t : tensor A) p : tsize t = 0 -> as_wrap_ptr t p = Panic.
Proof.
  intros Hs. unfold as_wrap_ptr, wrap_pos. rewrite Hs. destruct (Nat.ltb_spec p 0); [lia|]. reflexivity.
Qed.

Section Matvec.
  Context {F : Type} (o : fops F) (c : cfg) (a x : tensor F) (da dx tx : list nat) (ar ac : nat)
    (xs ys : list F).
  Hypothesis Ha : repr a (da ++ [ar; ac]) xs.
  Hypothesis Hx : repr x (dx ++ tx) ys.
  Hypothesis Htx : length tx = Nat.min 2 (length (dx ++ tx)).
  Notation X := (Nat.max 1 (trow tx)).
  Notation C := (tcol tx).
  Notation B := (if length da <? length dx then prod dx else prod da).

  Definition mv_cols (tr : trans) := match tr with TNone => ar | _ => ac end.
  Definition mv_inner (tr : trans) := match tr with TNone => ac | _ => ar end.
  Definition mv_stride (tr : trans) := match tr with TNone => (1, ac) | _ => (ac, 1) end.

  Lemma trow_bound : (Z.of_nat (prod dx * (X * C)) < two32)%Z /\ (Z.of_nat X < two32)%Z /\
    (Z.of_nat C < two32)%Z /\ (Z.of_nat (prod dx * X) < two32)%Z /\ (Z.of_nat (prod dx) < two32)%Z /\
    (Z.of_nat (X * C) < two32)%Z.
  Proof.
    pose proof (repr_supported _ _ _ Hx) as Hs. rewrite app_length in Htx.
    destruct tx as [|u [|v [|w t]]]; cbn [length] in Htx; [| | |lia].
    - destruct dx; [|cbn in Htx; lia]. cbn. unfold two32. lia.
    - destruct dx; [|cbn in Htx; lia]. unfold tcol. cbn [last trow prod].
      pose proof (supported_prod1 _ Hs) as Hp. cbn [app] in Hp. rewrite prod1_cons in Hp.
      change (prod1 []) with 1 in Hp. change (Nat.max 1 0) with 1. unfold two32 in *. lia.
    - destruct (supported_last2 _ _ _ Hs) as (L & R & K & RK & P & Q & Q' & D). unfold tcol. cbn [last trow].
      destruct u as [|u]; [|rewrite (Nat.max_r 1 (S u)) by lia; repeat split; auto].
      rewrite (Nat.max_l 1 0) by lia. rewrite !Nat.mul_1_l, Nat.mul_1_r. repeat split; auto; unfold two32; lia.
  Qed.

  Lemma matvec_head tr : tr = TNone \/ tr = TransposeA ->
    matvec_t o c a x tr
    = (let* _ := check_broadcast (canon da) (canon dx) in
       assert! (mv_inner tr =? C) in
       let* s := with_cols (canon (dx ++ tx)) (mv_cols tr) in
       unsafe_init_ c (X * mv_cols tr * B) s (fun out =>
         for_ B (fun q out =>
           let* pa := as_wrap_ptr a (q * (ar * ac)) in
           let* px := as_wrap_ptr x (q * (X * C)) in
           sgemm o X C (mv_cols tr) (fone o) (tdata x) px C 1
             (tdata a) pa (fst (mv_stride tr)) (snd (mv_stride tr)) (fzero o)
             (X * mv_cols tr * q) (mv_cols tr) 1 out) out)).
  Proof.
    intros Htr.
    pose proof (repr_supported _ _ _ Ha) as Hsa. pose proof (repr_supported _ _ _ Hx) as Hsx.
    pose proof (supported_len _ Hsa) as Hla. pose proof (supported_len _ Hsx) as Hlx.
    destruct (supported_last2 _ _ _ Hsa) as (La & Ra & Ca & RCa & Pa & Qa & Qa' & Pda).
    destruct trow_bound as (Px & Xb & Cb & PX & Pdx & XC).
    destruct (trow_canon dx tx Hlx Htx) as [Erow Ecol].
    assert (Hda : length da <= 6) by lia. assert (Hdx : length dx <= 6) by (rewrite app_length in Hlx; lia).
    unfold matvec_t. rewrite (repr_shape _ _ _ Ha), (repr_shape _ _ _ Hx).
    replace (2 <=? rank (canon (da ++ [ar; ac]))) with true
      by (symmetry; apply Nat.leb_le; cbn [rank canon]; rewrite app_length; cbn; lia).
    cbn [assert_ bind].
    replace (Nat.min 2 (rank (canon (dx ++ tx)))) with (length tx) by (rewrite Htx; reflexivity).
    change 2 with (length [ar; ac]) at 1. rewrite broadcast_min_canon by auto.
    destruct (check_broadcast_tt da dx Hda Hdx) as [E|E]; rewrite E; cbn [bind]; [|reflexivity].
    rewrite rows_app, cols_app, Erow, Ecol by auto. cbn [bind].
    rewrite (umul_small c ac ar) by (rewrite (Nat.mul_comm ac ar); unfold two64, two32 in *; lia). cbn [bind].
    rewrite (umul_small c C X).
    2:{ rewrite Nat2Z.inj_mul. unfold two64, two32 in *. nia. }
    cbn [bind]. unfold matvec_o_size. rewrite (repr_shape _ _ _ Ha), (repr_shape _ _ _ Hx).
    rewrite rows_app, cols_app, Erow, Ecol by auto. cbn [bind].
    assert (E1 : (match tr with
      | TNone => assert! (ac =? C) in Ok (ar, X)
      | TransposeA => assert! (ar =? C) in Ok (ac, X)
      | TransposeB | TransposeAB => Panic end)
      = (assert! (mv_inner tr =? C) in Ok (mv_cols tr, X))) by (destruct Htr as [-> | ->]; reflexivity).
    rewrite E1. clear E1.
    destruct (mv_inner tr =? C); cbn [assert_ bind]; [|reflexivity].
    assert (HB : (Z.of_nat B < two32)%Z) by (destruct (length da <? length dx); auto).
    assert (Hm : (Z.of_nat (mv_cols tr) < two32)%Z) by (destruct tr; cbn; auto).
    assert (HBX : (Z.of_nat (B * X * mv_cols tr) < two64)%Z).
    { destruct (length da <? length dx).
      - rewrite Nat2Z.inj_mul. unfold two64, two32 in *. nia.
      - replace (prod da * X * mv_cols tr) with (prod da * mv_cols tr * X) by lia.
        assert (Z.of_nat (prod da * mv_cols tr) < two32)%Z by (destruct tr; cbn; auto).
        rewrite Nat2Z.inj_mul. unfold two64, two32 in *. nia. }
    assert (HBq : forall q, q <= B -> (Z.of_nat (mv_cols tr * X * q) < two64)%Z).
    { intros q Hq. assert (mv_cols tr * X * q <= B * X * mv_cols tr) by (rewrite Nat.mul_comm, (Nat.mul_comm (mv_cols tr)), Nat.mul_assoc; apply Nat.mul_le_mono_r, Nat.mul_le_mono_r; auto).
      lia. }
    rewrite (umul_small c (mv_cols tr) X).
    2:{ rewrite Nat2Z.inj_mul. unfold two64, two32 in *. nia. }
    cbn [bind]. destruct (with_cols (canon (dx ++ tx)) (mv_cols tr)) as [s| |]; cbn [bind]; auto.
    rewrite (umul_small c (mv_cols tr * X)) by (apply HBq; lia). cbn [bind].
    rewrite (Nat.mul_comm (mv_cols tr) X).
    unfold unsafe_init_, unsafe_init. destruct (alloc c (X * mv_cols tr * B)) as [bf| |]; cbn [bind]; auto.
    f_equal. f_equal. f_equal. apply for_ext. intros q out Hq.
    assert (Hqb : (Z.of_nat q < two32)%Z) by lia.
    rewrite (umul_small c q).
    2:{ rewrite (Nat.mul_comm ac ar), Nat2Z.inj_mul. unfold two64, two32 in *. nia. }
    rewrite (Nat.mul_comm ac ar). cbn [bind].
    destruct (as_wrap_ptr a (q * (ar * ac))) as [pa| |]; cbn [bind]; auto.
    rewrite (umul_small c q).
    2:{ rewrite (Nat.mul_comm C X), Nat2Z.inj_mul. unfold two64, two32 in *. nia. }
    rewrite (Nat.mul_comm C X). cbn [bind].
    destruct (as_wrap_ptr x (q * (X * C))) as [px| |]; cbn [bind]; auto.
    rewrite (umul_small c q).
    2:{ specialize (HBq q ltac:(lia)). rewrite (Nat.mul_comm q). now rewrite (Nat.mul_comm X). }
    cbn [bind]. unfold matvec_sgemm. rewrite (repr_shape _ _ _ Ha), (repr_shape _ _ _ Hx).
    rewrite cols_app, Ecol by auto. cbn [bind]. rewrite (Nat.mul_comm q).
    destruct Htr as [-> | ->]; reflexivity.
  Qed.

  Hypothesis Hz : feq o (fzero o) (fzero o) = true.

  Lemma mv_pos tr p j : p < mv_inner tr -> j < mv_cols tr ->
    fst (mv_stride tr) * p + snd (mv_stride tr) * j < ar * ac.
  Proof. destruct tr; cbn; intros; nia. Qed.

  (** The dimensions of a nonempty vector operand. *)
  Lemma tx_pos tr : mv_inner tr = C -> 0 < prod (da ++ [ar; ac]) -> 0 < prod (dx ++ tx) ->
    0 < ar /\ 0 < ac /\ 0 < prod da /\ 0 < prod dx /\ 0 < X /\ 0 < C /\ prod tx = X * C /\
    tx = removelast tx ++ [C] /\ prod (removelast tx) = X.
  Proof.
    rewrite !prod_app. cbn [prod]. intros Hk Pa Px.
    assert (ar <> 0) by (intros ->; lia). assert (ac <> 0) by (intros ->; lia).
    assert (prod da <> 0) by (intros E; rewrite E in Pa; lia).
    assert (prod dx <> 0) by (intros E; rewrite E in Px; lia).
    assert (prod tx <> 0) by (intros E; rewrite E in Px; lia).
    assert (C <> 0) by (destruct tr; cbn in Hk; lia).
    rewrite app_length in Htx. unfold tcol in *.
    destruct tx as [|u [|v [|w t]]]; cbn [length] in Htx; [| | |lia]; cbn [last trow prod removelast] in *.
    - lia.
    - repeat split; lia || auto.
    - assert (u <> 0) by (intros ->; lia).
      rewrite (Nat.max_r 1 u) by lia. repeat split; lia || auto.
  Qed.

  Lemma matvec_loop tr n :
    mv_inner tr = C -> 0 < prod (da ++ [ar; ac]) -> 0 < prod (dx ++ tx) ->
    forall out,
      for_ n (fun q out =>
           let* pa := as_wrap_ptr a (q * (ar * ac)) in
           let* px := as_wrap_ptr x (q * (X * C)) in
           sgemm o X C (mv_cols tr) (fone o) (tdata x) px C 1
             (tdata a) pa (fst (mv_stride tr)) (snd (mv_stride tr)) (fzero o)
             (X * mv_cols tr * q) (mv_cols tr) 1 out) out
      = for_ n (fun q out =>
           sgemm o X C (mv_cols tr) (fone o) (tdata x) (toffset x + (q mod prod dx) * (X * C)) C 1
             (tdata a) (toffset a + (q mod prod da) * (ar * ac)) (fst (mv_stride tr)) (snd (mv_stride tr)) (fzero o)
             (X * mv_cols tr * q) (mv_cols tr) 1 out) out.
  Proof.
    intros Hk Pa Px out. destruct (tx_pos tr Hk Pa Px) as (? & ? & ? & ? & ? & ? & Et & _ & _).
    apply for_ext. intros q out' Hq.
    rewrite (wrap_ptr_spec a (prod da)).
    2:{ rewrite (repr_size_prod _ _ _ Ha), prod_app. cbn [prod]. lia. }
    2:{ rewrite prod_app in Pa. cbn [prod] in Pa. lia. }
    rewrite (wrap_ptr_spec x (prod dx)).
    2:{ rewrite (repr_size_prod _ _ _ Hx), prod_app, Et. lia. }
    2:{ rewrite prod_app, Et in Px. lia. }
    reflexivity.
  Qed.

  Notation pa := (fun q => toffset a + (q mod prod da) * (ar * ac)).
  Notation px := (fun q => toffset x + (q mod prod dx) * (X * C)).

  Lemma mv_fx q i p : 0 < prod dx -> prod tx = X * C -> i < X -> p < C ->
    nth_error (tdata x) (px q + (C * i + 1 * p)) = nth_error ys ((q mod prod dx) * (X * C) + (C * i + 1 * p)) /\
    (q mod prod dx) * (X * C) + (C * i + 1 * p) < length ys.
  Proof.
    intros Hd Et Hi Hp. assert (Hq : q mod prod dx < prod dx) by (apply Nat.mod_upper_bound; lia).
    assert (Hr : C * i + 1 * p < X * C) by nia.
    pose proof (batch_pos (q mod prod dx) (X * C) (prod dx) _ Hq Hr) as Hb.
    assert (L : (q mod prod dx) * (X * C) + (C * i + 1 * p) < length ys)
      by (rewrite (repr_len _ _ _ Hx), prod_app, Et; auto).
    split; auto. rewrite <- (repr_nth x _ ys _ Hx) by auto. f_equal. cbv beta. lia.
  Qed.

  Lemma mv_fa tr q p j : 0 < prod da -> p < mv_inner tr -> j < mv_cols tr ->
    nth_error (tdata a) (pa q + (fst (mv_stride tr) * p + snd (mv_stride tr) * j))
    = nth_error xs ((q mod prod da) * (ar * ac) + (fst (mv_stride tr) * p + snd (mv_stride tr) * j)) /\
    (q mod prod da) * (ar * ac) + (fst (mv_stride tr) * p + snd (mv_stride tr) * j) < length xs.
  Proof.
    intros Hd Hp Hj. assert (Hq : q mod prod da < prod da) by (apply Nat.mod_upper_bound; lia).
    pose proof (batch_pos (q mod prod da) (ar * ac) (prod da) _ Hq (mv_pos tr p j Hp Hj)) as Hb.
    assert (L : (q mod prod da) * (ar * ac) + (fst (mv_stride tr) * p + snd (mv_stride tr) * j) < length xs)
      by (rewrite (repr_len _ _ _ Ha), prod_app; cbn [prod]; lia).
    split; auto. rewrite <- (repr_nth a _ xs _ Ha) by auto. f_equal. cbv beta. lia.
  Qed.

  Lemma nth_error_lt {A} (l : list A) i : i < length l -> exists v, nth_error l i = Some v.
  Proof. intros H. destruct (nth_error l i) eqn:E; eauto. apply nth_error_None in E. lia. Qed.

  Lemma matvec_repr tr : tr = TNone \/ tr = TransposeA ->
    mv_inner tr = C -> check_broadcast (canon da) (canon dx) = Ok tt -> B = prod dx ->
    0 < prod (da ++ [ar; ac]) -> 0 < prod (dx ++ tx) ->
    supported (dx ++ removelast tx ++ [mv_cols tr]) ->
    exists zs, matvec_t o c a x tr = Ok (fresh (dx ++ removelast tx ++ [mv_cols tr]) zs) /\
      length zs = prod (dx ++ removelast tx ++ [mv_cols tr]) /\
      forall q i j, q < prod dx -> i < X -> j < mv_cols tr ->
        nth_error zs (q * (X * mv_cols tr) + (i * mv_cols tr + j))
        = option_map (fmul o (fone o))
            (dot o C (fun p => nth_error ys (q * (X * C) + (C * i + 1 * p)))
                     (fun p => nth_error xs ((q mod prod da) * (ar * ac)
                        + (fst (mv_stride tr) * p + snd (mv_stride tr) * j)))).
  Proof.
    intros Htr Hk Hcb HB Pa Px Hs.
    destruct (tx_pos tr Hk Pa Px) as (Hr & Hc & Hda & Hdx & HX & HC & Et & Etx & Er).
    rewrite matvec_head by auto. rewrite Hcb, Hk, Nat.eqb_refl, HB. cbn [assert_ bind].
    pose proof (supported_len _ (repr_supported _ _ _ Hx)) as Hlx.
    assert (Ew : with_cols (canon (dx ++ tx)) (mv_cols tr) = Ok (canon (dx ++ removelast tx ++ [mv_cols tr]))).
    { rewrite Etx at 1. rewrite app_assoc. rewrite with_cols_canon by (rewrite <- app_assoc, <- Etx; auto).
      rewrite <- app_assoc, as_u32_small; auto.
      destruct (supported_last2 _ _ _ (repr_supported _ _ _ Ha)) as (_ & ? & ? & _). destruct tr; auto. }
    rewrite Ew. cbn [bind].
    assert (Hp : X * mv_cols tr * prod dx = prod (dx ++ removelast tx ++ [mv_cols tr])).
    { rewrite !prod_app, Er. cbn [prod]. lia. }
    assert (Hmc : 0 < mv_cols tr) by (destruct tr; auto).
    assert (Hpos : 0 < X * mv_cols tr * prod dx) by nia.
    destruct (gemm_init o c (tdata x) (tdata a) X C (mv_cols tr) (prod dx) C 1
                (fst (mv_stride tr)) (snd (mv_stride tr)) px pa Hz)
      with (ds := dx ++ removelast tx ++ [mv_cols tr]) as (zs & E & L & Hy); auto.
    - intros q i p Hq Hi Hpc. destruct (mv_fx q i p) as [-> Hlt]; auto. now apply nth_error_lt.
    - intros q p j Hq Hpc Hj. destruct (mv_fa tr q p j) as [-> Hlt]; auto; [lia|]. now apply nth_error_lt.
    - left. lia.
    - exists zs. split; [|split; [lia|]].
      + rewrite <- E. unfold unsafe_init_, unsafe_init.
        destruct (alloc c _) as [bf| |]; cbn [bind]; auto.
        f_equal. f_equal. rewrite matvec_loop by auto. reflexivity.
      + intros q i j Hq Hi Hj. rewrite Hy by auto. f_equal. apply dot_ext; intros p Hpc.
        * destruct (mv_fx q i p) as [-> _]; auto. now rewrite Nat.mod_small.
        * destruct (mv_fa tr q p j) as [-> _]; auto. lia.
  Qed.

  Lemma matvec_incompatible tr :
    tr = TransposeB \/ tr = TransposeAB \/ mv_inner tr <> C \/ (~ suffix da dx /\ ~ suffix dx da) ->
    matvec_t o c a x tr = Panic.
  Proof.
    pose proof (repr_supported _ _ _ Ha) as Hsa. pose proof (repr_supported _ _ _ Hx) as Hsx.
    pose proof (supported_len _ Hsa) as Hla. pose proof (supported_len _ Hsx) as Hlx.
    assert (Hda : length da <= 6) by (rewrite app_length in Hla; lia).
    assert (Hdx : length dx <= 6) by (rewrite app_length in Hlx; lia).
    assert (D : (tr = TNone \/ tr = TransposeA) \/ (tr = TransposeB \/ tr = TransposeAB)) by (destruct tr; auto).
    destruct D as [D|D].
    - intros H. rewrite matvec_head by auto.
      destruct (check_broadcast_tt da dx Hda Hdx) as [E|E]; rewrite E; cbn [bind]; [|reflexivity].
      destruct (Nat.eqb_spec (mv_inner tr) C) as [E2|]; [|reflexivity].
      exfalso. apply check_broadcast_iff in E; auto.
      destruct H as [ -> |[ -> |[H|H]]]; [now destruct D|now destruct D|contradiction|tauto].
    - intros _. unfold matvec_t. rewrite (repr_shape _ _ _ Ha), (repr_shape _ _ _ Hx).
      replace (2 <=? rank (canon (da ++ [ar; ac]))) with true
        by (symmetry; apply Nat.leb_le; cbn [rank canon]; rewrite app_length; cbn; lia).
      cbn [assert_ bind].
      replace (Nat.min 2 (rank (canon (dx ++ tx)))) with (length tx) by (rewrite Htx; reflexivity).
      change 2 with (length [ar; ac]) at 1. rewrite broadcast_min_canon by auto.
      destruct (check_broadcast_tt da dx Hda Hdx) as [E|E]; rewrite E; cbn [bind]; [|reflexivity].
      destruct (supported_last2 _ _ _ Hsa) as (La & Ra & Ca & RCa & Pa & Qa & Qa' & Pda).
      destruct trow_bound as (Px & Xb & Cb & PX & Pdx & XC).
      destruct (trow_canon dx tx Hlx Htx) as [Erow Ecol].
      rewrite rows_app, cols_app, Erow, Ecol by auto. cbn [bind].
      rewrite (umul_small c ac ar) by (rewrite (Nat.mul_comm ac ar); unfold two64, two32 in *; lia). cbn [bind].
      rewrite (umul_small c C X) by (rewrite (Nat.mul_comm C); unfold two64, two32 in *; lia). cbn [bind].
      unfold matvec_o_size. rewrite (repr_shape _ _ _ Ha), (repr_shape _ _ _ Hx).
      rewrite rows_app, cols_app, Erow, Ecol by auto. cbn [bind]. destruct D as [-> | ->]; reflexivity.
  Qed.

  (** Whatever the operands, the result is a panic or decided by the final shape check. *)
  Lemma matvec_done tr : can_alloc c (X * mv_cols tr * B) ->
    matvec_t o c a x tr = Panic \/
    exists zs s, length zs = X * mv_cols tr * B /\ with_cols (canon (dx ++ tx)) (mv_cols tr) = Ok s /\
      matvec_t o c a x tr = tensor_new c zs s.
  Proof.
    intros Hal.
    assert (D : (tr = TNone \/ tr = TransposeA) \/ (tr = TransposeB \/ tr = TransposeAB)) by (destruct tr; auto).
    destruct D as [D|D]; [|left; apply matvec_incompatible; tauto].
    rewrite matvec_head by auto.
    pose proof (supported_len _ (repr_supported _ _ _ Ha)) as Hla.
    pose proof (supported_len _ (repr_supported _ _ _ Hx)) as Hlx.
    rewrite app_length in Hla, Hlx.
    destruct (check_broadcast_tt da dx ltac:(lia) ltac:(lia)) as [E|E]; rewrite E; cbn [bind]; [|auto].
    destruct (Nat.eqb_spec (mv_inner tr) C) as [Hk|]; cbn [assert_ bind]; [|auto].
    assert (Ew : exists s, with_cols (canon (dx ++ tx)) (mv_cols tr) = Ok s).
    { unfold with_cols. assert (H6 : length (dims (canon (dx ++ tx))) = 6).
      { cbn [dims canon]. rewrite app_length, rev_length, repeat_length, app_length. lia. }
      unfold aset. rewrite H6. change (0 <? 6) with true. cbn [bind]. eauto. }
    destruct Ew as [s Ew]. rewrite Ew. cbn [bind].
    set (n := B) in *. destruct (Nat.eq_dec n 0) as [Hn|Hn].
    - destruct (unsafe_init_fill c (X * mv_cols tr * n) s (fun out => for_ n (fun q out =>
           let* pa := as_wrap_ptr a (q * (ar * ac)) in
           let* px := as_wrap_ptr x (q * (X * C)) in
           sgemm o X C (mv_cols tr) (fone o) (tdata x) px C 1
             (tdata a) pa (fst (mv_stride tr)) (snd (mv_stride tr)) (fzero o)
             (X * mv_cols tr * q) (mv_cols tr) 1 out) out) (fun _ => fzero o)) as [->|(zs & L & ->)]; auto.
      + rewrite Hn, Nat.mul_0_r. reflexivity.
      + right. exists zs, s. auto.
    - destruct (Nat.eq_dec (prod (da ++ [ar; ac])) 0) as [Za|Za];
        [|destruct (Nat.eq_dec (prod (dx ++ tx)) 0) as [Zx|Zx]].
      + left. unfold unsafe_init_, unsafe_init, alloc.
        destruct (two63 <=? Z.of_nat (X * mv_cols tr * n))%Z; [auto|].
        assert (E0 : (X * mv_cols tr * n =? 0) && negb (zero_alloc_ok c) = false).
        { destruct Hal as [H|H]; [destruct (Nat.eqb_spec (X * mv_cols tr * n) 0); [lia|auto]|rewrite H; apply andb_false_r]. }
        rewrite E0. cbn [bind]. destruct n as [|n']; [lia|]. unfold for_. rewrite for_from_S.
        rewrite wrap_ptr_empty by (now rewrite (repr_size_prod _ _ _ Ha)). reflexivity.
      + left. unfold unsafe_init_, unsafe_init, alloc.
        destruct (two63 <=? Z.of_nat (X * mv_cols tr * n))%Z; [auto|].
        assert (E0 : (X * mv_cols tr * n =? 0) && negb (zero_alloc_ok c) = false).
        { destruct Hal as [H|H]; [destruct (Nat.eqb_spec (X * mv_cols tr * n) 0); [lia|auto]|rewrite H; apply andb_false_r]. }
        rewrite E0. cbn [bind]. destruct n as [|n']; [lia|]. unfold for_. rewrite for_from_S.
        rewrite (wrap_ptr_spec a (prod da)).
        2:{ rewrite (repr_size_prod _ _ _ Ha), prod_app. cbn [prod]. lia. }
        2:{ rewrite prod_app in Za. cbn [prod] in Za. lia. }
        rewrite (wrap_ptr_empty x) by (now rewrite (repr_size_prod _ _ _ Hx)). reflexivity.
      + assert (Pa : 0 < prod (da ++ [ar; ac])) by lia. assert (Px : 0 < prod (dx ++ tx)) by lia.
        destruct (tx_pos tr Hk Pa Px) as (Hr & Hc & Hda & Hdx & HX & HC & Et & Etx & Er).
        destruct (unsafe_init_fill c (X * mv_cols tr * n) s (fun out => for_ n (fun q out =>
           let* pa := as_wrap_ptr a (q * (ar * ac)) in
           let* px := as_wrap_ptr x (q * (X * C)) in
           sgemm o X C (mv_cols tr) (fone o) (tdata x) px C 1
             (tdata a) pa (fst (mv_stride tr)) (snd (mv_stride tr)) (fzero o)
             (X * mv_cols tr * q) (mv_cols tr) 1 out) out)
          (fun p => fmul o (fone o) (
             let q := p / (X * mv_cols tr) in let i := p mod (X * mv_cols tr) / mv_cols tr in
             let j := (p mod (X * mv_cols tr)) mod mv_cols tr in
             match dot o C (fun p => nth_error (tdata x) (px q + (C * i + 1 * p)))
               (fun p => nth_error (tdata a) (pa q + (fst (mv_stride tr) * p + snd (mv_stride tr) * j)))
             with Some v => v | None => fzero o end)))
          as [->|(zs & L & ->)]; auto.
        * rewrite matvec_loop by auto.
          rewrite (gemm_loop o (tdata x) (tdata a) X C (mv_cols tr) n C 1
                (fst (mv_stride tr)) (snd (mv_stride tr)) px pa Hz).
          -- rewrite (Nat.mul_comm (X * mv_cols tr) n). reflexivity.
          -- intros q i p Hq Hi Hpc. destruct (mv_fx q i p) as [-> Hlt]; auto. now apply nth_error_lt.
          -- intros q p j Hq Hpc Hj. destruct (mv_fa tr q p j) as [-> Hlt]; auto; [lia|]. now apply nth_error_lt.
        * right. exists zs, s. auto.
  Qed.

  Lemma matvec_safe tr : can_alloc c (X * mv_cols tr * B) -> matvec_t o c a x tr <> Ub.
  Proof.
    intros Hc. destruct (matvec_done tr Hc) as [->|(zs & s & _ & _ & ->)]; [discriminate|apply safe_tensor_new].
  Qed.
End Matvec.
