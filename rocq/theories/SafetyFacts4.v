(** * Safety of tile, the initialisers, linalg, reductions, statistics, signal and io *)
From Coq Require Import ZifyBool ZifyNat ZifyN.
From Verif Require Import Base ShapeModel TensorModel AxisModel MapModel ArrayModel NumModel FloatModel InitModel MathModel LinalgModel RandomModel
  SignalModel IoModel Spec BaseFacts SafeFacts ShapeFacts ShapeFacts2 SplitFacts SafetyFacts SafetyFacts2 SafetyFacts3.

(** The product of the first [n] multiples, counted from the end; missing ones are 1. *)
Fixpoint mults (m : list nat) (n : nat) : nat :=
  match n with
  | 0 => 1
  | S n => match nth_error m n with Some d => d | None => 1 end * mults m n
  end.
Lemma mults_all m n : length m <= n -> mults m n = prod m.
Proof.
  assert (G : forall k, mults m k = prod (firstn k m)).
  { induction k as [|k IH]; [reflexivity|]. cbn [mults]. rewrite IH. destruct (nth_error m k) as [d|] eqn:E.
    - pose proof (firstn_S_skip m 0 k d E) as F. cbn [skipn] in F. rewrite F, prod_app. cbn [prod]. lia.
    - apply nth_error_None in E. rewrite !firstn_all2 by lia. lia. }
  intros H. rewrite G. now rewrite firstn_all2.
Qed.

Lemma prod_firstn_rev_all l n : length l <= n -> prod (firstn n (rev l)) = prod l.
Proof. intros H. rewrite firstn_all2 by (rewrite rev_length; exact H). apply prod_rev. Qed.
Lemma rows_rank1 s : rank s <= 1 -> rows s = Ok 0.
Proof. intros H. unfold rows. now replace (1 <? rank s) with false by lia. Qed.

Section Ops.
  Context (c : cfg) (Hc : overflow_checks c = true) (Hz : zero_alloc_ok c = true).

  (** ** src/array/tile.rs *)

  Lemma tile_rec_post {A} (x : list A) xs mr L j : forall x_off x_len W (o : buf A) off,
    x_len = prod (firstn (S j) xs) -> off + mults mr (S j) * x_len <= L -> has L W o ->
    post (tile_rec c x x_off x_len xs mr j (o, off)) (fun '(o', off') =>
      off' = off + mults mr (S j) * x_len /\ has L (fun p => W p \/ off <= p < off') o').
  Proof.
    induction j as [|j IH]; intros x_off x_len W o off Hx HL Ho.
    - cbn [tile_rec mults] in *. set (rep := match nth_error mr 0 with Some m => m | None => 1 end) in *. rewrite Nat.mul_1_r in *.
      eapply post_weaken; [apply (post_for (fun k '(o', off') => off' = off + k * x_len /\ has L (fun p => W p \/ off <= p < off') o'))|].
      + split; [lia|]. eapply has_weaken; [exact Ho|]. intros p [H|H]; [exact H|lia].
      + intros k [o' off'] Hk [-> Ho']. eapply post_bind.
        * apply (adds_for L (fun b => b) x_len _ (fun i p => p = off + k * x_len + i)); [|exact Ho'].
          intros i Hi W' o2 Ho2. apply post_bind_safe; [auto with safe|]. intros v _. apply write_post; [exact Ho2|].
          pose proof (idx2_lt rep x_len k i Hk Hi). lia.
        * intros o2 Ho2. cbn. split; [lia|]. eapply has_weaken; [exact Ho2|]. intros p [H|H]; [auto|].
          destruct (Nat.lt_ge_cases p (off + k * x_len)); [left; right; lia|]. right. exists (p - (off + k * x_len)). split; [cbn in H; lia|lia].
      + intros [o' off'] [-> H]. split; [reflexivity|exact H].
    - cbn [tile_rec]. set (rep := match nth_error mr (S j) with Some m => m | None => 1 end) in *.
      assert (HM : mults mr (S (S j)) = rep * mults mr (S j)) by reflexivity. rewrite HM in *. set (M := mults mr (S j)) in *.
      assert (Hstep : forall k (o' : buf A) off' W', k < rep -> off' = off + k * (M * x_len) -> has L W' o' ->
        post (match nth_error xs (S j) with
              | Some d => let* x_len0 := product64 c 1 (firstn (S j) xs) in
                for_ d (fun i st => tile_rec c x (x_off + i * x_len0) x_len0 xs mr j st) (o', off')
              | None => tile_rec c x x_off x_len xs mr j (o', off') end)
          (fun '(o2, off2) => off2 = off' + M * x_len /\ has L (fun p => W' p \/ off' <= p < off2) o2)).
      { intros k o' off' W' Hk -> Ho'. assert (Hb : off + k * (M * x_len) + M * x_len <= L).
        { assert (k * (M * x_len) + M * x_len <= rep * (M * x_len)) by (replace (k * (M * x_len) + M * x_len) with (S k * (M * x_len)) by lia; apply Nat.mul_le_mono_r; lia). lia. }
        destruct (nth_error xs (S j)) as [d|] eqn:Ed.
        - apply post_bind_safe; [auto with safe|]. intros len Hl. apply (product64_value c Hc) in Hl. rewrite Nat.mul_1_l in Hl.
          pose proof (firstn_S_skip xs 0 (S j) d Ed) as F. cbn [skipn] in F. rewrite F, prod_app, <- Hl in Hx. cbn [prod] in Hx. rewrite Nat.mul_1_r in Hx.
          assert (EM : M * x_len = d * (M * len)) by (rewrite Hx; lia).
          eapply post_weaken; [apply (post_for (fun i '(o2, off2) => off2 = off + k * (M * x_len) + i * (M * len) /\
            has L (fun p => W' p \/ off + k * (M * x_len) <= p < off2) o2))|].
          + split; [lia|]. eapply has_weaken; [exact Ho'|]. intros p [H|H]; [exact H|lia].
          + intros i [o2 off2] Hi [-> Ho2]. eapply post_weaken; [apply (IH _ len); [exact Hl| |exact Ho2]|].
            * fold M. assert (i * (M * len) + M * len <= d * (M * len)) by (replace (i * (M * len) + M * len) with (S i * (M * len)) by lia; apply Nat.mul_le_mono_r; lia). lia.
            * intros [o3 off3] [-> Ho3]. fold M in Ho3. fold M. split; [lia|]. eapply has_weaken; [exact Ho3|]. intros p [H|H]; [auto|].
              destruct (Nat.lt_ge_cases p (off + k * (M * x_len) + i * (M * len))); [left; right; lia|right; lia].
          + intros [o2 off2] [-> Ho2]. split; [lia|exact Ho2].
        - apply nth_error_None in Ed. rewrite (firstn_all2 (n := S (S j))) in Hx by lia. apply (IH _ x_len); [now rewrite firstn_all2 by lia|exact Hb|exact Ho']. }
      eapply post_weaken; [apply (post_for (fun k '(o', off') => off' = off + k * (M * x_len) /\ has L (fun p => W p \/ off <= p < off') o'))|].
      + split; [lia|]. eapply has_weaken; [exact Ho|]. intros p [H|H]; [exact H|lia].
      + intros k [o' off'] Hk [E Ho']. eapply post_weaken; [apply (Hstep k); eauto|]. intros [o2 off2] [-> Ho2]. split; [lia|].
        eapply has_weaken; [exact Ho2|]. intros p [H|H]; [auto|]. destruct (Nat.lt_ge_cases p off'); [left; right; lia|right; lia].
      + intros [o' off'] [-> H]. split; [lia|exact H].
  Qed.


  Lemma tile_post {A} (t : tensor A) (m : tensor nat) : inside c t -> inside c m -> rank (tshape m) = 1 -> post (tile c t m) (inside c).
  Proof.
    intros Ht Hm Hr1. pose proof Ht as (Ha & Hn & _). destruct (size_value c Hc _ _ Ha Hn) as [Hr Hp].
    pose proof Hm as (Hma & Hmn & _). destruct (size_value c Hc _ _ Hma Hmn) as [Hmr Hmp].
    unfold tile. apply post_bind_safe; [auto with safe|]. intros v Hv. apply (as_vec_value c Hc) in Hv; auto. subst v.
    destruct (inside_as_slice c m Hm) as (ms & Ems & Hml). rewrite Ems. cbn [bind]. rewrite Hn. cbn [bind].
    apply post_bind_safe; [auto with safe|]. intros n_outer Ho. apply (product64_value c Hc) in Ho. rewrite Nat.mul_1_l in Ho.
    destruct (inside_as_slice c t Ht) as (xs & Exs & Hxl). rewrite Exs. cbn [bind].
    apply post_bind_safe; [unfold len; auto with safe|]. intros m_len Hmlen. apply (dim_value c Hc) in Hmlen; auto. destruct Hmlen as [_ Hmlen].
    assert (Em : length ms = m_len).
    { pose proof (dlist_length _ Hma Hmr) as Hd. rewrite Hr1 in Hd. destruct (dlist (tshape m)) as [|d [|]]; try discriminate. cbn in Hmlen. injection Hmlen as ->.
      cbn in Hmp. lia. }
    apply post_bind_safe; [safe|]. intros osr _. apply post_bind_safe; [auto with safe|]. intros n Hnm. apply (umul_val c Hc) in Hnm.
    eapply post_bind; [apply from_vec_dims_post|]. intros os (_ & Hos & _). apply unsafe_init__post; auto. intros W o Hb.
    apply post_bind_safe; [auto with safe|]. intros j Hj. apply (usub_value c Hc) in Hj. destruct Hj as [Hj1 Hj].
    assert (ESj : S j = Nat.max (rank (tshape t)) m_len) by lia. assert (Hdl := dlist_length _ Ha Hr).
    assert (Emult : mults (rev ms) (S j) * length xs = n).
    { rewrite mults_all by (rewrite rev_length; lia). rewrite prod_rev. lia. }
    eapply post_bind.
    - apply (tile_rec_post xs _ _ n j); [| |exact Hb].
      + rewrite prod_firstn_rev_all by lia. lia.
      + lia.
    - intros [o' off] [-> Ho']. cbn. eapply has_weaken; [exact Ho'|]. intros p [H|H]; [auto|right; lia].
  Qed.

  (** ** src/init *)

  Lemma eye_post {T} (zero one : T) n : post (eye c zero one n) (inside c).
  Proof.
    unfold eye. destruct (n =? 0); [apply of_value_post|]. eapply post_bind; [apply from_slice_dims_post|]. intros s [_ Hs].
    eapply post_bind; [apply init_rindexed_post; auto; intros; safe|]. intros [? r] Hr. exact Hr.
  Qed.
  Lemma diagflat_post {T} (zero : T) t : inside c t -> post (diagflat c zero t) (inside c).
  Proof.
    intros Ht. unfold diagflat. apply post_assert. intros _. eapply post_bind; [apply from_slice_dims_post|]. intros s [_ Hs].
    eapply post_bind; [apply init_rindexed_post; [exact Hz|exact Hs|]|].
    - intros st i. do 2 (apply safe_bind; [auto with safe|]; intros ? _). apply safe_if; [|auto with safe].
      apply safe_bind; [eapply safe_index1; eauto|]. intros; auto with safe.
    - intros [? r] Hr. exact Hr.
  Qed.
  Lemma tri_post {T} (zero one : T) n : post (tri c zero one n) (inside c).
  Proof.
    unfold tri. eapply post_bind; [apply from_slice_dims_post|]. intros s [_ Hs].
    eapply post_bind; [apply init_rindexed_post; auto; intros; safe|]. intros [? r] Hr. exact Hr.
  Qed.
  Lemma tri_mask_post {T} keep (zero : T) t : inside c t -> post (tri_mask c keep zero t) (inside c).
  Proof.
    intros Ht. pose proof Ht as (Ha & Hn & _). destruct (size_value c Hc _ _ Ha Hn) as [Hr Hp]. unfold tri_mask.
    apply post_assert. intros H2. rewrite Hn. cbn [bind]. apply unsafe_init__post; auto. intros W o Ho.
    apply post_bind_safe; [eauto with safe|]. intros x _. apply post_bind_safe; [auto with safe|]. intros r Hrw.
    apply post_bind_safe; [auto with safe|]. intros k Hk. apply post_bind_safe; [auto with safe|]. intros n Hnn.
    destruct (rows_value _ _ _ Ha ltac:(lia) Hr Hrw Hk) as [q Eq]. rewrite Eq, prod_app in Hp. cbn [prod] in Hp. rewrite Nat.mul_1_r in Hp.
    unfold udiv in Hnn. destruct (r * k =? 0) eqn:E0; [discriminate|]. apply Ok_inj in Hnn. rewrite Hp, Nat.div_mul in Hnn by lia.
    apply (adds_weaken _ _ _ (fun p => exists a, a < n /\ exists j, j < r /\ exists i, i < k /\ p = a * r * k + j * k + i)); [| |exact Ho].
    - apply (adds_for (tsize t) (fun b => b)). intros a Han. apply (adds_for (tsize t) (fun b => b)). intros j Hj.
      apply (adds_for (tsize t) (fun b => b)). intros i Hi W' o' Ho'. apply post_bind_safe; [safe|]. intros v _. apply write_post; [exact Ho'|].
      pose proof (idx2_lt r k j i Hj Hi). pose proof (idx2_lt n (r * k) a (j * k + i) Han H). nia.
    - intros p Hpp. rewrite Hp, Hnn in Hpp. destruct (idx2 p n (r * k) Hpp) as (a & b & Han & Hb & ->).
      destruct (idx2 b r k Hb) as (j & i & Hj & Hi & ->). exists a. split; [exact Han|]. exists j. split; [exact Hj|]. exists i. split; [exact Hi|]. nia.
  Qed.

  Lemma meshgrid_axis_post {T} (x : tensor T) s k_s : inside c x -> a_shape s -> post (build_meshgrid_axis c x s k_s) (inside c).
  Proof.
    intros Ht Hs. unfold build_meshgrid_axis. apply post_assert. intros _. apply post_bind_safe; [auto with safe|]. intros n Hn.
    apply post_bind_safe; [auto with safe|]. intros r1 Hr1. apply post_assert. intros E1.
    apply post_bind_safe; [auto with safe|]. intros r2 Hr2. apply post_assert. intros E2. cbn zeta.
    apply post_bind_safe; [auto with safe|]. intros q Hq. apply post_bind_safe; [auto with safe|]. intros r3 Hr3. apply post_assert. intros E3.
    apply unsafe_init__post; auto. intros W o Ho. apply post_bind_safe; [eauto with safe|]. intros xs _.
    apply post_bind_safe; [auto with safe|]. intros j_n Hj. apply post_bind_safe; [auto with safe|]. intros j_s Hjs.
    unfold urem, udiv in *. destruct (tsize x =? 0) eqn:Z1; [discriminate|]. destruct (k_s =? 0) eqn:Z2; [discriminate|].
    destruct (j_n =? 0) eqn:Z3; [discriminate|]. apply Ok_inj in Hr1, Hr2, Hr3, Hq, Hj, Hjs.
    assert (X1 : n = q * tsize x) by (pose proof (Nat.div_mod n (tsize x)); lia).
    assert (X2 : q = j_n * k_s) by (pose proof (Nat.div_mod q k_s); lia).
    assert (X : n = j_n * (tsize x * k_s)) by (rewrite X1, X2; lia).
    rewrite X, Nat.mul_comm, Nat.div_mul in Hjs by lia.
    apply (adds_weaken _ _ _ (fun p => exists k, k < tsize x /\ exists j, j < j_n /\ exists i, i < k_s /\ p = k * k_s + j * j_s + i)); [| |exact Ho].
    - apply (adds_for n (fun b => b)). intros k Hk. apply (adds_for n (fun b => b)). intros j Hjj. apply (adds_for n (fun b => b)). intros i Hi W' o' Ho'.
      apply post_bind_safe; [auto with safe|]. intros v _. apply write_post; [exact Ho'|].
      pose proof (idx2_lt (tsize x) k_s k i Hk Hi). pose proof (idx2_lt j_n (tsize x * k_s) j (k * k_s + i) Hjj H). rewrite X, <- Hjs in *. lia.
    - intros p Hpp. rewrite X in Hpp. destruct (idx2 p j_n (tsize x * k_s) Hpp) as (j & b & Hj' & Hb & ->).
      destruct (idx2 b (tsize x) k_s Hb) as (k & i & Hk & Hi & ->). exists k. split; [exact Hk|]. exists j. split; [exact Hj'|]. exists i. split; [exact Hi|].
      rewrite <- Hjs. lia.
  Qed.
  Lemma build_meshgrid_post {T} (axes : list (tensor T)) ord : Forall (inside c) axes -> post (build_meshgrid c axes ord) (Forall (inside c)).
  Proof.
    intros Ht. unfold build_meshgrid. set (ax := match ord with XY => rev axes | IJ => axes end).
    assert (Hx : forall x, In x (rev ax) -> inside c x).
    { rewrite Forall_forall in Ht. intros x Hx. apply Ht. unfold ax in Hx. destruct ord; rewrite <- ?in_rev in Hx; exact Hx. }
    eapply post_bind; [apply from_vec_dims_post|]. intros s (_ & Hs & _). eapply post_bind.
    - apply (post_for_each (fun _ '(v, _) => Forall (inside c) v)); [constructor|].
      intros done x left [v inner] E Hv. eapply post_bind; [apply meshgrid_axis_post; auto; apply Hx; rewrite E; apply in_or_app; right; now left|].
      intros t Hti. apply post_bind_safe; [auto with safe|]. intros i _. cbn. apply Forall_app. auto.
    - intros [v i] Hv. destruct ord; [exact Hv|]. cbn. now apply Forall_rev.
  Qed.

  Lemma space_loop_adds {F} (o : fops F) pre po st en batch len : inside c st -> inside c en ->
    adds (batch * len) (fun b => b) (space_loop o pre po st en batch len) (fun p => p < batch * len).
  Proof.
    intros Hs He. unfold space_loop.
    apply (adds_weaken _ _ _ (fun p => exists n, n < batch /\ exists k, k < len /\ p = k * batch + n)).
    - apply (adds_for _ (fun b => b)). intros n Hn W b Hb. apply post_bind_safe; [eapply safe_index1; eauto|]. intros s _.
      apply post_bind_safe; [eapply safe_index1; eauto|]. intros e _. cbn zeta. apply post_assert. intros _.
      apply (adds_for _ (fun b => b) len _ (fun k p => p = k * batch + n)); [|exact Hb]. intros k Hk W' b' Hb'. apply write_post; [exact Hb'|].
      pose proof (idx2_lt len batch k n Hk Hn). lia.
    - intros p Hp. rewrite Nat.mul_comm in Hp. destruct (idx2 p len batch Hp) as (k & n & Hk & Hn & ->). exists n. split; [exact Hn|]. now exists k.
  Qed.
  Lemma linspace_post {F} (o : fops F) st en len : inside c st -> inside c en -> post (linspace o c st en len) (inside c).
  Proof.
    intros Hs He. unfold linspace. apply post_assert. intros _. cbn zeta. apply post_bind_safe; [auto with safe|]. intros n Hn. apply (umul_val c Hc) in Hn. subst n.
    eapply post_bind; [apply insert_post, Hs|]. intros s Hsh. apply unsafe_init__post; auto. now apply space_loop_adds.
  Qed.
  Lemma geomspace_post {F} (o : fops F) st en len : inside c st -> inside c en -> post (geomspace o c st en len) (inside c).
  Proof.
    intros Hs He. unfold geomspace. apply post_assert. intros _. cbn zeta. apply post_bind_safe; [auto with safe|]. intros n Hn. apply (umul_val c Hc) in Hn. subst n.
    eapply post_bind with (Q := a_shape).
    - destruct (_ =? 1); [|apply insert_post, Hs]. eapply post_weaken; [apply from_slice_dims_post|]. intros s [_ H]. exact H.
    - intros s Hsh. apply unsafe_init__post; auto. now apply space_loop_adds.
  Qed.
  Lemma logspace_post {F} (o : fops F) st en len b : inside c st -> inside c en -> post (logspace o c st en len b) (inside c).
  Proof.
    intros Hs He. unfold logspace. apply post_assert. intros _. cbn zeta. apply post_bind_safe; [auto with safe|]. intros n Hn. apply (umul_val c Hc) in Hn. subst n.
    eapply post_bind; [apply insert_post, Hs|]. intros s Hsh. apply unsafe_init__post; auto. now apply space_loop_adds.
  Qed.
  Lemma one_hot_post {F} (o : fops F) ix depth : post (one_hot o c ix depth) (inside c).
  Proof. unfold one_hot. apply post_bind_safe; [safe|]. intros v _. now apply of_vec_post. Qed.
  Lemma mgrid_post {F} (o : fops F) M N : post (mgrid o c M N) (Forall (inside c)).
  Proof.
    unfold mgrid. assert (G : forall n, post (let* s := of_value c (fzero o) in let* e := of_value c (fsub o (fof o n) (fone o)) in linspace o c s e n) (inside c)).
    { intros n. eapply post_bind; [apply of_value_post|]. intros s Hs. eapply post_bind; [apply of_value_post|]. intros e He. now apply linspace_post. }
    cbn zeta. eapply post_bind; [apply G|]. intros x Hx. eapply post_bind; [apply G|]. intros y Hy. apply build_meshgrid_post. auto.
  Qed.
  Lemma arange_post {F} (o : fops F) fuel a b step x : arange o c fuel a b step = Some x -> post x (inside c).
  Proof.
    unfold arange. destruct (feq _ _ _); [intros [= <-]; exact I|]. destruct (_ && _).
    - destruct (arange_up _ _ _ _ _ _); cbn; intros [= <-]. now apply of_vec_post.
    - destruct (_ && _); [|intros [= <-]; exact I]. destruct (arange_down _ _ _ _ _ _); cbn; intros [= <-]. now apply of_vec_post.
  Qed.
  Lemma random_normal_post {F} (o : rops F) s opt e : a_shape s -> post (random_normal o c s opt e) (inside c).
  Proof.
    intros Hs. unfold random_normal. eapply post_bind; [apply init_post; auto|intros [? r] Hr; exact Hr].
    intros st. destruct (rand32_normal o st). auto with safe.
  Qed.
  Lemma random_uniform_post {F} (o : rops F) s opt e : a_shape s -> post (random_uniform o c s opt e) (inside c).
  Proof.
    intros Hs. unfold random_uniform. eapply post_bind; [apply init_post; auto|intros [? r] Hr; exact Hr].
    intros st. destruct (rand32_normal o st). auto with safe.
  Qed.

  (** ** src/linalg *)

  Lemma sgemm_post {F} (o : fops F) m k n al (a : list F) pa rsa csa (b : list F) pb rsb csb be pc (cc : buf F) L W :
    (forall i p, i < m -> p < k -> pa + (rsa * i + csa * p) < length a) ->
    (forall p j, p < k -> j < n -> pb + (rsb * p + csb * j) < length b) ->
    pc + m * n <= L -> has L W cc ->
    post (sgemm o m k n al a pa rsa csa b pb rsb csb be pc n 1 cc) (has L (fun q => W q \/ pc <= q < pc + m * n)).
  Proof.
    intros Ha Hb HL Hcc. unfold sgemm. apply post_assert. intros _.
    eapply post_weaken; [apply (adds_for L (fun x => x) m _ (fun i q => exists j, j < n /\ q = pc + (n * i + 1 * j))); [|exact Hcc]|].
    - intros i Hi. apply (adds_for L (fun x => x)). intros j Hj W' o' Ho'. apply post_bind_safe.
      + apply safe_for. intros p v Hp. apply safe_bind; [apply safe_raw_get; auto|]. intros x _. apply safe_bind; [apply safe_raw_get; auto|]. intros y _. auto with safe.
      + intros v _. apply write_post; [exact Ho'|]. pose proof (idx2_lt m n i j Hi Hj). lia.
    - intros r Hr. eapply has_weaken; [exact Hr|]. intros q [H|H]; [auto|]. right.
      destruct (idx2 (q - pc) m n ltac:(lia)) as (i & j & Hi & Hj & E). exists i. split; [exact Hi|]. exists j. split; [exact Hj|]. lia.
  Qed.

  (** A pointer to the [n]-th matrix, wrapped around. *)
  Lemma wrap_ptr_value {F} (t : tensor F) u n k p : inside c t -> tsize t = u * k -> as_wrap_ptr t (n * k) = Ok p ->
    toffset t <= p /\ p + k <= length (tdata t).
  Proof.
    intros (_ & _ & Hl) Hu. unfold as_wrap_ptr, wrap_pos. destruct (n * k <? tsize t) eqn:E; cbn [bind].
    - intros H. apply Ok_inj in H. subst p. split; [lia|]. assert (n < u) by nia. assert (n * k + k <= u * k) by nia. lia.
    - unfold urem. destruct (tsize t =? 0) eqn:E0; [discriminate|]. cbn [bind]. intros H. apply Ok_inj in H. subst p. split; [lia|].
      assert (k <> 0) by nia. assert (u <> 0) by nia. rewrite Hu, Nat.mul_mod_distr_r by assumption. pose proof (Nat.mod_upper_bound n u ltac:(assumption)).
      assert (n mod u * k + k <= u * k) by nia. lia.
  Qed.


  Lemma matvec_post {F} (o : fops F) (a x : tensor F) tr : inside c a -> inside c x -> 1 <= rank (tshape x) -> post (matvec_t o c a x tr) (inside c).
  Proof.
    intros Ha Hx Hx1. pose proof Ha as (Haa & Han & _). destruct (size_value c Hc _ _ Haa Han) as [Har Hap].
    pose proof Hx as (Hxa & Hxn & _). destruct (size_value c Hc _ _ Hxa Hxn) as [Hxr Hxp]. unfold matvec_t. apply post_assert. intros H2.
    apply post_bind_safe; [unfold broadcast_min; safe|]. intros batch _. apply post_bind_safe; [auto with safe|]. intros ac Eac.
    apply post_bind_safe; [auto with safe|]. intros ar Ear. apply post_bind_safe; [auto with safe|]. intros a_size Eas. apply (umul_val c Hc) in Eas.
    apply post_bind_safe; [auto with safe|]. intros xr Exr. cbn zeta. apply post_bind_safe; [auto with safe|]. intros xc Exc.
    apply post_bind_safe; [auto with safe|]. intros x_size Exs. apply (umul_val c Hc) in Exs.
    destruct (rows_value _ _ _ Haa ltac:(lia) Har Ear Eac) as [qa Eqa]. rewrite Eqa, prod_app in Hap. cbn [prod] in Hap. rewrite Nat.mul_1_r in Hap.
    assert (Hsa : tsize a = prod qa * a_size) by (subst a_size; lia).
    assert (Hsx : tsize x = 0 \/ exists u, tsize x = u * x_size).
    { destruct (Nat.eq_dec (rank (tshape x)) 1) as [E1|E1].
      - right. rewrite rows_rank1 in Exr by lia. apply Ok_inj in Exr. destruct (cols_value _ _ Hxa Hx1 Hxr Exc) as [q Eq].
        pose proof (dlist_length _ Hxa Hxr) as Hl. rewrite Eq, app_length in Hl. cbn in Hl. destruct q; [|cbn in Hl; lia]. rewrite Eq in Hxp. cbn in Hxp.
        exists 1. subst x_size xr. cbn. lia.
      - destruct (rows_value _ _ _ Hxa ltac:(lia) Hxr Exr Exc) as [q Eq]. rewrite Eq, prod_app in Hxp. cbn [prod] in Hxp.
        destruct xr as [|r]; [left; lia|]. right. exists (prod q). subst x_size. replace (Nat.max 1 (S r)) with (S r) by lia. lia. }
    apply post_bind_safe; [unfold matvec_o_size; destruct tr; safe|]. intros [o_cols o_rows] Eo.
    apply post_bind_safe; [auto with safe|]. intros o_size Eos. apply (umul_val c Hc) in Eos.
    eapply post_bind; [apply with_cols_post, Hxa|]. intros s Hs. apply post_bind_safe; [auto with safe|]. intros len Elen. apply (umul_val c Hc) in Elen.
    apply unsafe_init__post; auto. intros W out Hout.
    eapply post_weaken; [apply (adds_for len (fun b => b) batch _ (fun n q => n * o_size <= q < n * o_size + o_size)); [|exact Hout]|].
    2:{ intros r Hr. eapply has_weaken; [exact Hr|]. intros q [H|H]; [auto|]. right. rewrite Elen, Nat.mul_comm in H.
        destruct (idx2 q batch o_size H) as (n & j & Hn & Hj & ->). exists n. split; [exact Hn|lia]. }
    intros n Hn W' o' Ho'. apply post_bind_safe; [auto with safe|]. intros ka Eka. apply (umul_val c Hc) in Eka.
    apply post_bind_safe; [unfold as_wrap_ptr, wrap_pos; safe|]. intros pa Epa. apply post_bind_safe; [auto with safe|]. intros kx Ekx. apply (umul_val c Hc) in Ekx.
    apply post_bind_safe; [unfold as_wrap_ptr, wrap_pos; safe|]. intros px Epx. apply post_bind_safe; [auto with safe|]. intros po Epo. apply (umul_val c Hc) in Epo.
    subst ka kx po. destruct (wrap_ptr_value _ _ _ _ _ Ha Hsa Epa) as [_ Hpa].
    destruct Hsx as [Hsx|[u Hsx]].
    { exfalso. unfold as_wrap_ptr, wrap_pos, urem in Epx. rewrite Hsx in Epx. cbn in Epx. discriminate. }
    destruct (wrap_ptr_value _ _ _ _ _ Hx Hsx Epx) as [_ Hpx].
    assert (Hpo : n * o_size + o_rows * o_cols <= len).
    { assert (n * o_size + o_size <= batch * o_size) by nia. subst len o_size. lia. }
    unfold matvec_sgemm. rewrite Eac, Exc. cbn [bind]. unfold matvec_o_size in Eo. rewrite Ear, Eac, Exr, Exc in Eo. cbn [bind] in Eo.
    destruct tr; try exact I; unfold assert_ in Eo.
    - destruct (ac =? xc) eqn:E; [|discriminate]. cbn [bind] in Eo. apply Ok_inj in Eo. injection Eo as <- <-.
      eapply post_weaken; [apply (sgemm_post o _ _ _ _ _ _ _ _ _ _ _ _ _ _ _ len W')|].
      + intros i p Hi Hp. pose proof (idx2_lt (Nat.max 1 xr) xc i p Hi Hp). subst x_size. lia.
      + intros p j Hp Hj. pose proof (idx2_lt ar ac j p Hj ltac:(lia)). subst a_size. lia.
      + exact Hpo.
      + exact Ho'.
      + intros r Hr. eapply has_weaken; [exact Hr|]. intros q [H|H]; [auto|right]. lia.
    - destruct (ar =? xc) eqn:E; [|discriminate]. cbn [bind] in Eo. apply Ok_inj in Eo. injection Eo as <- <-.
      eapply post_weaken; [apply (sgemm_post o _ _ _ _ _ _ _ _ _ _ _ _ _ _ _ len W')|].
      + intros i p Hi Hp. pose proof (idx2_lt (Nat.max 1 xr) xc i p Hi Hp). subst x_size. lia.
      + intros p j Hp Hj. pose proof (idx2_lt ar ac p j ltac:(lia) Hj). subst a_size. lia.
      + exact Hpo.
      + exact Ho'.
      + intros r Hr. eapply has_weaken; [exact Hr|]. intros q [H|H]; [auto|right]. lia.
  Qed.

  (** [matmul] is safe if the right operand has at least as many matrices as the left. *)
  Lemma matmul_post {F} (o : fops F) (a b : tensor F) tr : inside c a -> inside c b ->
    (forall n, sublen c (tshape a) 0 (rank (tshape a) - 2) = Ok n -> n <= prod (firstn (rank (tshape b) - 2) (dlist (tshape b)))) ->
    post (matmul_t o c a b tr) (inside c).
  Proof.
    intros Ha Hb Hbatch. pose proof Ha as (Haa & Han & Hal). destruct (size_value c Hc _ _ Haa Han) as [Har Hap].
    pose proof Hb as (Hba & Hbn & Hbl). destruct (size_value c Hc _ _ Hba Hbn) as [Hbr Hbp]. unfold matmul_t. apply post_assert. intros H2.
    apply post_bind_safe; [unfold mkn; destruct tr; safe|]. intros [[m k] n] Em.
    apply post_bind_safe; [auto with safe|]. intros batch Ebt. specialize (Hbatch _ Ebt). apply (sublen_value c Hc) in Ebt; auto; [|lia]. destruct Ebt as [_ Ebt].
    cbn [skipn] in Ebt. rewrite Nat.sub_0_r in Ebt.
    apply post_bind_safe; [auto with safe|]. intros ar Ear. apply post_bind_safe; [auto with safe|]. intros ac Eac.
    apply post_bind_safe; [auto with safe|]. intros a_size Eas. apply (umul_val c Hc) in Eas.
    apply post_bind_safe; [auto with safe|]. intros br Ebr. apply post_bind_safe; [auto with safe|]. intros bc Ebc.
    apply post_bind_safe; [auto with safe|]. intros b_size Ebs. apply (umul_val c Hc) in Ebs.
    apply post_bind_safe; [auto with safe|]. intros o_size Eos. apply (umul_val c Hc) in Eos.
    apply post_bind_safe; [auto with safe|]. intros s1 Es1. pose proof (with_cols_post (tshape b) m Hba) as Hs1. rewrite Es1 in Hs1. cbn in Hs1.
    apply post_bind_safe; [auto with safe|]. intros s2 Es2. pose proof (with_rows_post s1 n Hs1) as Hs2. rewrite Es2 in Hs2. cbn in Hs2.
    assert (Hb2 : 1 < rank (tshape b)).
    { unfold with_cols in Es1. destruct (aset _ _ _) in Es1; try discriminate. cbn in Es1. apply Ok_inj in Es1. subst s1.
      unfold with_rows, assert_ in Es2. cbn [rank] in Es2. destruct (1 <? rank (tshape b)) eqn:E; [lia|discriminate]. }
    destruct (rows_value _ _ _ Haa ltac:(lia) Har Ear Eac) as [qa Eqa]. destruct (rows_value _ _ _ Hba Hb2 Hbr Ebr Ebc) as [qb Eqb].
    pose proof (dlist_length _ Haa Har) as Hla. rewrite Eqa, app_length in Hla. cbn in Hla. pose proof (dlist_length _ Hba Hbr) as Hlb. rewrite Eqb, app_length in Hlb. cbn in Hlb.
    rewrite Eqa, firstn_app in Ebt. replace (rank (tshape a) - 2 - length qa) with 0 in Ebt by lia. rewrite firstn_all2, app_nil_r in Ebt by lia.
    rewrite Eqb, firstn_app in Hbatch. replace (rank (tshape b) - 2 - length qb) with 0 in Hbatch by lia. rewrite firstn_all2, app_nil_r in Hbatch by lia.
    rewrite Eqa, prod_app, <- Ebt in Hap. rewrite Eqb, prod_app in Hbp. cbn [prod] in Hap, Hbp. rewrite Nat.mul_1_r in Hap, Hbp. rewrite <- Eas in Hap. rewrite <- Ebs in Hbp.
    apply post_bind_safe; [auto with safe|]. intros len Elen. apply (umul_val c Hc) in Elen. apply unsafe_init__post; auto. intros W out Hout.
    eapply post_weaken; [apply (adds_for len (fun b => b) batch _ (fun n q => o_size * n <= q < o_size * n + o_size)); [|exact Hout]|].
    2:{ intros r Hr. eapply has_weaken; [exact Hr|]. intros q [H|H]; [auto|]. right. rewrite Elen, Nat.mul_comm in H.
        destruct (idx2 q batch o_size H) as (i & j & Hn & Hj & ->). exists i. split; [exact Hn|lia]. }
    intros i Hi W' o' Ho'.
    apply post_bind_safe; [auto with safe|]. intros ka Eka. apply (umul_val c Hc) in Eka.
    assert (Hka : ka + a_size <= tsize a) by (subst ka; rewrite Hap; nia).
    unfold ptr_add at 1. replace (toffset a + ka <=? length (tdata a)) with true by lia. cbn [bind].
    apply post_bind_safe; [auto with safe|]. intros kb Ekb. apply (umul_val c Hc) in Ekb.
    assert (Hkb : kb + b_size <= tsize b) by (subst kb; rewrite Hbp; nia).
    unfold ptr_add. replace (toffset b + kb <=? length (tdata b)) with true by lia. cbn [bind].
    apply post_bind_safe; [auto with safe|]. intros pc Epc. apply (umul_val c Hc) in Epc.
    assert (Hpc : pc + m * n <= len). { assert (o_size * i + o_size <= o_size * batch) by nia. subst pc len o_size. lia. }
    unfold matmul_sgemm. rewrite Ear, Eac, Ebr, Ebc. cbn [bind]. unfold mkn in Em. rewrite Ear, Eac, Ebr, Ebc in Em. cbn [bind] in Em.
    assert (Hfin : forall r : buf F, has len (fun q => W' q \/ pc <= q < pc + m * n) r -> has len (fun q => W' q \/ o_size * i <= q < o_size * i + o_size) r).
    { intros r Hr. eapply has_weaken; [exact Hr|]. intros q [H|H]; [auto|right]. subst pc o_size. lia. }
    destruct tr; unfold assert_ in Em;
      match type of Em with context [if ?b then _ else _] => destruct b eqn:E; [|discriminate] end; cbn [bind] in Em; apply Ok_inj in Em; injection Em as <- <- <-;
      (eapply post_weaken; [apply (sgemm_post o _ _ _ _ _ _ _ _ _ _ _ _ _ _ _ len W')|exact Hfin]; [| |exact Hpc|exact Ho']).
    - intros x p Hx Hp. pose proof (idx2_lt ar ac x p Hx Hp). lia.
    - intros p j Hp Hj. pose proof (idx2_lt br bc p j ltac:(lia) Hj). lia.
    - intros x p Hx Hp. pose proof (idx2_lt ar ac p x Hp Hx). lia.
    - intros p j Hp Hj. pose proof (idx2_lt br bc p j ltac:(lia) Hj). lia.
    - intros x p Hx Hp. pose proof (idx2_lt ar ac x p Hx Hp). lia.
    - intros p j Hp Hj. pose proof (idx2_lt br bc j p Hj ltac:(lia)). lia.
    - intros x p Hx Hp. pose proof (idx2_lt ar ac p x Hp Hx). lia.
    - intros p j Hp Hj. pose proof (idx2_lt br bc j p Hj ltac:(lia)). lia.
  Qed.

  (** ** src/stats, src/signal, src/io *)

  Lemma snd_post {S A} (x : outcome (S * tensor A)) : post x (fun r => inside c (snd r)) -> post (let* '(_, r) := x in Ok r) (inside c).
  Proof. intros H. eapply post_bind; [exact H|]. intros [s r] Hr. exact Hr. Qed.

  Lemma reduce_min_post {F} (o : fops F) t : inside c t -> post (reduce_min o c t) (inside c).
  Proof. intros Ht. apply snd_post. apply reduce_post; auto. intros. discriminate. Qed.
  Lemma reduce_max_post {F} (o : fops F) t : inside c t -> post (reduce_max o c t) (inside c).
  Proof. intros Ht. apply snd_post. apply reduce_post; auto. intros. discriminate. Qed.

  Lemma histogram_post {F} (o : fops F) t n : inside c t -> post (histogram o c t n) (fun '(a, b) => inside c a /\ inside c b).
  Proof.
    intros Ht. unfold histogram. apply post_assert. intros _. apply post_bind_safe; [unfold hist_bins; safe|]. intros bins _.
    eapply post_bind; [apply reduce_min_post, Ht|]. intros mn Hmn. apply post_bind_safe; [eapply safe_index1; eauto|]. intros m0 _.
    eapply post_bind; [apply reduce_max_post, Ht|]. intros mx Hmx. apply post_bind_safe; [eapply safe_index1; eauto|]. intros m1 _. cbn zeta.
    apply post_bind_safe; [auto with safe|]. intros n1 _. eapply post_bind; [apply of_value_post|]. intros s Hs. eapply post_bind; [apply of_value_post|]. intros e He.
    eapply post_bind; [apply linspace_post; assumption|]. intros b Hb. apply post_bind_safe; [eapply safe_as_slice; eauto|]. intros d _.
    apply post_bind_safe; [unfold hist_loop; safe|]. intros v _. eapply post_bind; [now apply of_vec_post|]. intros r Hr. now split.
  Qed.
  Lemma histogram2d_post {F} (o : fops F) t n : inside c t -> post (histogram2d o c t n) (fun '(a, b, d) => inside c a /\ inside c b /\ inside c d).
  Proof.
    intros Ht. unfold histogram2d. apply post_assert. intros _. apply post_bind_safe; [auto with safe|]. intros k _. apply post_assert. intros _.
    apply post_bind_safe; [unfold hist_bins; safe|]. intros bins _.
    eapply post_bind; [apply reduce_min_post, Ht|]. intros mn Hmn. eapply post_bind; [apply reduce_max_post, Ht|]. intros mx Hmx.
    do 4 (apply post_bind_safe; [eapply safe_index1; eauto|]; intros ? _). cbn zeta. apply post_bind_safe; [auto with safe|]. intros n1 _.
    eapply post_bind; [apply of_value_post|]. intros sx Hsx. eapply post_bind; [apply of_value_post|]. intros ex Hex.
    eapply post_bind; [apply linspace_post; assumption|]. intros bx Hbx.
    eapply post_bind; [apply of_value_post|]. intros sy Hsy. eapply post_bind; [apply of_value_post|]. intros ey Hey.
    eapply post_bind; [apply linspace_post; assumption|]. intros b_y Hby.
    apply post_bind_safe; [auto with safe|]. intros nn _. apply post_bind_safe; [eapply safe_iter_row; eauto|]. intros rws _.
    apply post_bind_safe; [safe|]. intros v _. eapply post_bind; [now apply of_vec_post|]. intros u Hu.
    eapply post_bind; [apply from_slice_dims_post|]. intros s [_ Hs]. eapply post_bind; [now apply reshape_post|]. intros r Hr. cbn. auto.
  Qed.

  Lemma hann_post {F C} (o : sigops F C) n : post (hann_window o c n) (inside c).
  Proof.
    unfold hann_window. cbn zeta. eapply post_bind; [apply from_slice_dims_post|]. intros s [_ Hs].
    apply snd_post. apply init_rindexed_post; auto. intros. safe.
  Qed.
  Lemma rfft_norm_post {F C} (o : sigops F C) t l : inside c t -> post (rfft_norm o c t l) (inside c).
  Proof.
    intros Ht. unfold rfft_norm. cbn zeta. apply post_bind_safe; [auto with safe|]. intros len _. apply post_bind_safe; [unfold ShapeModel.len; auto with safe|]. intros n0 _.
    apply post_bind_safe; [auto with safe|]. intros batch _. eapply post_bind; [apply hann_post|]. intros win Hwin.
    apply post_bind_safe; [auto with safe|]. intros fo _. set (lo := match l with Some l => l | None => fo end).
    eapply post_bind; [apply with_cols_post, Ht|]. intros s Hs. apply post_bind_safe; [auto with safe|]. intros n Hn. apply (umul_val c Hc) in Hn. subst n.
    apply snd_post. apply unsafe_init_post; auto.
    apply (adds_weaken _ _ _ (fun p => exists n, n < batch /\ n * lo <= p < n * lo + lo)).
    2:{ intros p Hp. destruct (idx2 p batch lo Hp) as (i & j & Hi & Hj & ->). exists i. split; [exact Hi|lia]. }
    assert (G : adds (batch * lo) snd (for_ batch (fun n '(buffer, out) =>
      let* p := umul c n len in
      let* x := as_wrap_slice t p in
      let* buffer := for_ len (fun i buffer =>
        let* xi := aget x i in
        let* wi := index1 win i in
        aset buffer i (creal o (fmul (sbase o) xi wi))) buffer in
      let buffer := cfft o buffer in
      let* offset := umul c n lo in
      let* out := for_ (Nat.min fo lo) (fun i out =>
        let* z := aget buffer i in
        let* q := uadd c offset i in
        write out q (cnorm o z)) out in
      let* out := for_range fo lo (fun i out =>
        let* q := uadd c offset i in
        write out q (fzero (sbase o))) out in
      Ok (buffer, out))) (fun p => exists n, n < batch /\ n * lo <= p < n * lo + lo)).
    { apply (adds_for (batch * lo) snd). intros n Hn W [bu ou] Hou. cbn [snd] in Hou.
      apply post_bind_safe; [auto with safe|]. intros p _. apply post_bind_safe; [eapply safe_as_wrap_slice; eauto|]. intros x _.
      apply post_bind_safe. { apply safe_for. intros i s0 _. apply safe_bind; [auto with safe|]. intros xi _. apply safe_bind; [eapply safe_index1; eauto|]. intros. auto with safe. }
      intros b1 _. cbn zeta. apply post_bind_safe; [auto with safe|]. intros off Hoff. apply (umul_val c Hc) in Hoff.
      assert (Hb : off + lo <= batch * lo) by nia. eapply post_bind.
      - apply (adds_for (batch * lo) (fun b => b) _ _ (fun i p => p = off + i)); [|exact Hou]. intros i Hi W' o' Ho'.
        apply post_bind_safe; [auto with safe|]. intros z _. apply post_bind_safe; [auto with safe|]. intros q Hq. apply (uadd_value c Hc) in Hq.
        subst q. apply write_post; [exact Ho'|lia].
      - intros o1 Ho1. eapply post_bind.
        + apply (adds_for_range (batch * lo) (fun b => b) _ _ _ (fun i p => p = off + i)); [|exact Ho1]. intros i Hi W' o' Ho'.
          apply post_bind_safe; [auto with safe|]. intros q Hq. apply (uadd_value c Hc) in Hq. subst q. apply write_post; [exact Ho'|lia].
        + intros o2 Ho2. cbn. eapply has_weaken; [exact Ho2|]. intros q [H|H]; [auto|]. subst off.
          destruct (Nat.lt_ge_cases (q - n * lo) fo).
          * left. right. exists (q - n * lo). lia.
          * right. exists (q - n * lo). lia. }
    intros W [bu ou] Hou. apply (G W (bu, ou) Hou).
  Qed.

  Lemma safe_zarith m v : safe (zarith c m v).
  Proof. unfold zarith. safe. Qed.
  Hint Resolve safe_zarith : safe.
  Lemma safe_read bs i : safe (read c bs i).
  Proof. unfold read. safe. Qed.
  Hint Resolve safe_read : safe.
  Lemma decode_wav_post {F} (o : rops F) t : inside c t -> post (decode_wav o c t) (fun '(a, b) => inside c a /\ inside c b).
  Proof.
    intros Ht. unfold decode_wav. apply post_bind_safe; [eapply safe_as_slice; eauto|]. intros bs _.
    assert (S1 : forall i, safe (read_u32_big c bs i)) by (intros; unfold read_u32_big; safe).
    assert (S2 : forall i, safe (read_u32_little c bs i)) by (intros; unfold read_u32_little; safe).
    assert (S3 : forall i, safe (read_u16_little c bs i)) by (intros; unfold read_u16_little; safe).
    assert (S4 : forall i, safe (read_i16_little c bs i)) by (intros; unfold read_i16_little; safe).
    repeat first [ apply post_assert; intros _ | apply post_bind_safe; [solve [auto with safe]|]; intros [? ?] _ ; cbn zeta
      | apply post_bind_safe; [solve [auto with safe]|]; intros ? _ ; cbn zeta | progress cbn zeta].
    apply post_bind_safe; [apply safe_for; intros ? [? ?] _; apply safe_bind; [auto|]; intros [? ?] _; auto with safe|]. intros [data ?] _.
    apply post_bind_safe; [auto with safe|]. intros rws _. eapply post_bind; [apply from_slice_dims_post|]. intros s [_ Hs].
    eapply post_bind; [now apply tensor_new_post|]. intros au Hau. eapply post_bind; [apply of_value_post|]. intros r Hr. now split.
  Qed.
  Lemma read_file_post sys : post (read_file c sys) (fun r => match r with Some t => inside c t | None => True end).
  Proof.
    unfold read_file. destruct (os_file sys); [|exact I]. destruct (os_len sys); [|exact I]. destruct (os_read sys); [|exact I].
    eapply post_bind; [now apply of_vec_post|]. intros t Ht. exact Ht.
  Qed.
  Lemma frame_post {A} (t : tensor A) len step : inside c t -> post (frame c t len step) (inside c).
  Proof.
    intros Ht. unfold frame, isub, idiv. apply post_bind_safe; [auto with safe|]. intros d _. apply post_bind_safe; [safe|]. intros a _.
    apply post_bind_safe; [safe|]. intros q _. apply post_bind_safe; [auto with safe|]. intros n _. cbn zeta.
    apply post_bind_safe; [|intros; exact I]. apply safe_for. intros i v _. apply safe_bind; [auto with safe|]. intros p _.
    apply safe_bind; [|intros; auto with safe]. eapply post_not_ub. now apply subslice_post.
  Qed.
End Ops.
