(** * Products by any kernel (C82) *)
From Coq Require Import Permutation.
From Verif Require Import Base ShapeModel TensorModel FloatModel LinalgModel KernelModel KernelSpec Spec FloatSpec
  BaseFacts ParamSpec LinalgFacts LinalgProofs KernelFacts.

(** ** Formal products *)

Inductive term (F : Type) := TLf (x : F) | T0 | T1 | TAdd (a b : term F) | TMul (a b : term F).
Arguments TLf {F}. Arguments T0 {F}. Arguments T1 {F}. Arguments TAdd {F}. Arguments TMul {F}.

Definition sym (F : Type) : fops (term F) := mkFops T0 T1 TAdd TAdd TMul TMul (fun x => x)
  (fun _ _ => false) (fun _ _ => false) (fun x y => match x, y with T0, T0 => true | _, _ => false end)
  (fun _ => T0) (fun _ => 0) (fun x => x) (fun x => x) TMul T0 T0 T0.

Definition tsum {F} (ps : list (F * F)) : term F := fold_left (fun v '(x, y) => TAdd v (TMul (TLf x) (TLf y))) ps T0.

Lemma lsum_sym {F} (ps : list (F * F)) : lsum (sym F) (map (fun '(x, y) => (TLf x, TLf y)) ps) = tsum ps.
Proof.
  unfold lsum, tsum. cbn [fzero fadd fmul sym]. generalize (@T0 F). induction ps as [|[x y] ps IH]; intros v; cbn; auto.
Qed.

Lemma tsum_snoc {F} (ps : list (F * F)) x y : tsum (ps ++ [(x, y)]) = TAdd (tsum ps) (TMul (TLf x) (TLf y)).
Proof. unfold tsum. now rewrite fold_left_app. Qed.

Lemma tsum_inj {F} (ps : list (F * F)) : forall qs, tsum ps = tsum qs -> ps = qs.
Proof.
  induction ps as [|[x y] ps IH] using rev_ind; intros qs E.
  - destruct qs as [|[x y] qs _] using rev_ind; [reflexivity|]. rewrite tsum_snoc in E. discriminate.
  - destruct qs as [|[x' y'] qs _] using rev_ind; [rewrite tsum_snoc in E; discriminate|].
    rewrite !tsum_snoc in E. injection E as E -> ->. now rewrite (IH _ E).
Qed.

(** A formal product and an acceptable value. *)
Definition prodV {F} (E : list (F * F) -> F -> Prop) (t : term F) (z : F) : Prop :=
  exists ps, t = TMul T1 (tsum ps) /\ E ps z.

Lemma sym_sim {F} (o : fops F) E K : computes o E K -> kernel_sim (sym F) o TLf (prodV E) (sgemm (sym F)) K.
Proof.
  intros HK. eapply naive_sim; [reflexivity|exact HK|]. intros ps z H. rewrite lsum_sym. exists ps. auto.
Qed.

Lemma repr_tmap {A B} (h : A -> B) t ds xs : repr t ds xs -> repr (tmap h t) ds (map h xs).
Proof.
  intros [H1 H2 H3 H4 (pre & post & E & L) H6]. constructor; cbn [tmap tshape tsize tdata toffset]; auto.
  - now rewrite map_length.
  - now rewrite map_length.
  - exists (map h pre), (map h post). rewrite E, !map_app, map_length. auto.
  - now rewrite map_length.
Qed.

Lemma fresh_rel {A B} (R : A -> B -> Prop) ds zs t : tR R (fresh ds zs) t ->
  exists zs', t = fresh ds zs' /\ Forall2 R zs zs'.
Proof.
  intros (E1 & E2 & E3 & E4). cbn [fresh tshape toffset tsize tdata] in *. exists (tdata t). split; [|exact E4].
  destruct t as [s p n d]. cbn in *. subst. unfold fresh. now rewrite (Forall2_len _ _ _ E4).
Qed.

Lemma dot_sym {F} k (f g : nat -> option (term F)) (A B : nat -> F) :
  (forall p, p < k -> f p = Some (TLf (A p)) /\ g p = Some (TLf (B p))) ->
  dot (sym F) k f g = Some (tsum (map (fun p => (A p, B p)) (seq 0 k))).
Proof.
  induction k as [|k IH]; intros H; [reflexivity|]. cbn [dot]. rewrite IH by auto. destruct (H k ltac:(lia)) as [-> ->].
  rewrite seq_S, map_app. cbn [map Nat.add]. now rewrite tsum_snoc.
Qed.

Lemma entry {F} (E : list (F * F) -> F -> Prop) zs zs' q k f g (A B : nat -> F) :
  Forall2 (prodV E) zs zs' ->
  nth_error zs q = option_map (fmul (sym F) (fone (sym F))) (dot (sym F) k f g) ->
  (forall p, p < k -> f p = Some (TLf (A p)) /\ g p = Some (TLf (B p))) ->
  exists z, nth_error zs' q = Some z /\ E (map (fun p => (A p, B p)) (seq 0 k)) z.
Proof.
  intros H Eq Hfg. rewrite (dot_sym k f g A B Hfg) in Eq. cbn [option_map] in Eq.
  assert (L : q < length zs') by (rewrite <- (Forall2_len _ _ _ H); apply nth_error_Some; congruence).
  destruct (nth_error zs' q) as [z|] eqn:Ez; [|apply nth_error_None in Ez; lia].
  destruct (Forall2_nth_inv _ _ _ H q _ _ Eq Ez) as (ps & Ep & HE). cbn [fmul fone sym] in Ep.
  injection Ep as Ep. apply tsum_inj in Ep. subst ps. eauto.
Qed.

Lemma matmul_run {F} (o : fops F) E K c (a b : tensor F) tr ds zs :
  computes o E K -> matmul_t (sym F) c (tmap TLf a) (tmap TLf b) tr = Ok (fresh ds zs) ->
  exists zs', matmul_by o K c a b tr = Ok (fresh ds zs') /\ Forall2 (prodV E) zs zs'.
Proof.
  intros HK H. pose proof (matmul_by_sim _ _ _ _ _ _ (sym_sim o E K HK) c a b tr) as S.
  change (matmul_by (sym F) (sgemm (sym F)) c (tmap TLf a) (tmap TLf b) tr)
    with (matmul_t (sym F) c (tmap TLf a) (tmap TLf b) tr) in S.
  rewrite H in S. inversion S as [u v HT E1 E2| |]. subst u. apply fresh_rel in HT. destruct HT as (zs' & -> & HT). eauto.
Qed.
Lemma matvec_run {F} (o : fops F) E K c (a b : tensor F) tr ds zs :
  computes o E K -> matvec_t (sym F) c (tmap TLf a) (tmap TLf b) tr = Ok (fresh ds zs) ->
  exists zs', matvec_by o K c a b tr = Ok (fresh ds zs') /\ Forall2 (prodV E) zs zs'.
Proof.
  intros HK H. pose proof (matvec_by_sim _ _ _ _ _ _ (sym_sim o E K HK) c a b tr) as S.
  change (matvec_by (sym F) (sgemm (sym F)) c (tmap TLf a) (tmap TLf b) tr)
    with (matvec_t (sym F) c (tmap TLf a) (tmap TLf b) tr) in S.
  rewrite H in S. inversion S as [u v HT E1 E2| |]. subst u. apply fresh_rel in HT. destruct HT as (zs' & -> & HT). eauto.
Qed.

Lemma elem_map {A B} (h : A -> B) ds xs idx x : elem ds xs idx = Some x -> elem ds (map h xs) idx = Some (h x).
Proof. unfold elem. intros H. now rewrite nth_error_map, H. Qed.

(** ** The products *)

Lemma c82_matmul {F} (o : fops F) E K c (a b : tensor F) ds m k n xs ys :
  computes o E K -> repr a (ds ++ [m; k]) xs -> repr b (ds ++ [k; n]) ys ->
  supported (ds ++ [n; m]) -> can_alloc c (prod (ds ++ [n; m])) ->
  exists zs, matmul_by o K c a b TNone = Ok (fresh (ds ++ [n; m]) zs) /\ length zs = prod (ds ++ [n; m]) /\
    forall (A B : list nat -> nat -> nat -> F),
      (forall idx i p, in_shape ds idx -> i < m -> p < k -> elem (ds ++ [m; k]) xs (idx ++ [i; p]) = Some (A idx i p)) ->
      (forall idx p j, in_shape ds idx -> p < k -> j < n -> elem (ds ++ [k; n]) ys (idx ++ [p; j]) = Some (B idx p j)) ->
      forall idx i j, in_shape ds idx -> i < m -> j < n ->
        exists z, elem (ds ++ [m; n]) zs (idx ++ [i; j]) = Some z /\ E (map (fun p => (A idx i p, B idx p j)) (seq 0 k)) z.
Proof.
  intros HK Ha Hb Hs Hc.
  destruct (c46_matmul (sym F) c _ _ ds m k n _ _ eq_refl (repr_tmap TLf _ _ _ Ha) (repr_tmap TLf _ _ _ Hb) Hs Hc)
    as (zs & E1 & L & Hy).
  destruct (matmul_run o E K c a b TNone _ _ HK E1) as (zs' & E2 & HF).
  exists zs'. split; [exact E2|]. split; [now rewrite <- (Forall2_len _ _ _ HF)|].
  intros A B HA HB idx i j Hi Him Hjn. unfold elem at 1. eapply entry; [exact HF|exact (Hy idx i j Hi Him Hjn)|].
  intros p Hp. split; apply elem_map; auto.
Qed.

Lemma c82_matmul_transpose_a {F} (o : fops F) E K c (a b : tensor F) ds m k n xs ys :
  computes o E K -> repr a (ds ++ [k; m]) xs -> repr b (ds ++ [k; n]) ys ->
  supported (ds ++ [n; m]) -> can_alloc c (prod (ds ++ [n; m])) ->
  exists zs, matmul_by o K c a b TransposeA = Ok (fresh (ds ++ [n; m]) zs) /\ length zs = prod (ds ++ [n; m]) /\
    forall (A B : list nat -> nat -> nat -> F),
      (forall idx p i, in_shape ds idx -> p < k -> i < m -> elem (ds ++ [k; m]) xs (idx ++ [p; i]) = Some (A idx p i)) ->
      (forall idx p j, in_shape ds idx -> p < k -> j < n -> elem (ds ++ [k; n]) ys (idx ++ [p; j]) = Some (B idx p j)) ->
      forall idx i j, in_shape ds idx -> i < m -> j < n ->
        exists z, elem (ds ++ [m; n]) zs (idx ++ [i; j]) = Some z /\ E (map (fun p => (A idx p i, B idx p j)) (seq 0 k)) z.
Proof.
  intros HK Ha Hb Hs Hc.
  destruct (c46_matmul_transpose_a (sym F) c _ _ ds m k n _ _ eq_refl (repr_tmap TLf _ _ _ Ha) (repr_tmap TLf _ _ _ Hb) Hs Hc)
    as (zs & E1 & L & Hy).
  destruct (matmul_run o E K c a b TransposeA _ _ HK E1) as (zs' & E2 & HF).
  exists zs'. split; [exact E2|]. split; [now rewrite <- (Forall2_len _ _ _ HF)|].
  intros A B HA HB idx i j Hi Him Hjn. unfold elem at 1. eapply (entry E zs zs' _ k _ _ (fun p => A idx p i) (fun p => B idx p j)); [exact HF|exact (Hy idx i j Hi Him Hjn)|].
  intros p Hp. split; apply elem_map; auto.
Qed.

Lemma c82_matmul_transpose_b {F} (o : fops F) E K c (a b : tensor F) ds m k n xs ys :
  computes o E K -> repr a (ds ++ [m; k]) xs -> repr b (ds ++ [n; k]) ys ->
  supported (ds ++ [n; m]) -> can_alloc c (prod (ds ++ [n; m])) ->
  exists zs, matmul_by o K c a b TransposeB = Ok (fresh (ds ++ [n; m]) zs) /\ length zs = prod (ds ++ [n; m]) /\
    forall (A B : list nat -> nat -> nat -> F),
      (forall idx i p, in_shape ds idx -> i < m -> p < k -> elem (ds ++ [m; k]) xs (idx ++ [i; p]) = Some (A idx i p)) ->
      (forall idx j p, in_shape ds idx -> j < n -> p < k -> elem (ds ++ [n; k]) ys (idx ++ [j; p]) = Some (B idx j p)) ->
      forall idx i j, in_shape ds idx -> i < m -> j < n ->
        exists z, elem (ds ++ [m; n]) zs (idx ++ [i; j]) = Some z /\ E (map (fun p => (A idx i p, B idx j p)) (seq 0 k)) z.
Proof.
  intros HK Ha Hb Hs Hc.
  destruct (c46_matmul_transpose_b (sym F) c _ _ ds m k n _ _ eq_refl (repr_tmap TLf _ _ _ Ha) (repr_tmap TLf _ _ _ Hb) Hs Hc)
    as (zs & E1 & L & Hy).
  destruct (matmul_run o E K c a b TransposeB _ _ HK E1) as (zs' & E2 & HF).
  exists zs'. split; [exact E2|]. split; [now rewrite <- (Forall2_len _ _ _ HF)|].
  intros A B HA HB idx i j Hi Him Hjn. unfold elem at 1. eapply (entry E zs zs' _ k _ _ (fun p => A idx i p) (fun p => B idx j p)); [exact HF|exact (Hy idx i j Hi Him Hjn)|].
  intros p Hp. split; apply elem_map; auto.
Qed.

Lemma c82_matmul_transpose_ab {F} (o : fops F) E K c (a b : tensor F) ds m k n xs ys :
  computes o E K -> repr a (ds ++ [k; m]) xs -> repr b (ds ++ [n; k]) ys ->
  supported (ds ++ [n; m]) -> can_alloc c (prod (ds ++ [n; m])) ->
  exists zs, matmul_by o K c a b TransposeAB = Ok (fresh (ds ++ [n; m]) zs) /\ length zs = prod (ds ++ [n; m]) /\
    forall (A B : list nat -> nat -> nat -> F),
      (forall idx p i, in_shape ds idx -> p < k -> i < m -> elem (ds ++ [k; m]) xs (idx ++ [p; i]) = Some (A idx p i)) ->
      (forall idx j p, in_shape ds idx -> j < n -> p < k -> elem (ds ++ [n; k]) ys (idx ++ [j; p]) = Some (B idx j p)) ->
      forall idx i j, in_shape ds idx -> i < m -> j < n ->
        exists z, elem (ds ++ [m; n]) zs (idx ++ [i; j]) = Some z /\ E (map (fun p => (A idx p i, B idx j p)) (seq 0 k)) z.
Proof.
  intros HK Ha Hb Hs Hc.
  destruct (c46_matmul_transpose_ab (sym F) c _ _ ds m k n _ _ eq_refl (repr_tmap TLf _ _ _ Ha) (repr_tmap TLf _ _ _ Hb) Hs Hc)
    as (zs & E1 & L & Hy).
  destruct (matmul_run o E K c a b TransposeAB _ _ HK E1) as (zs' & E2 & HF).
  exists zs'. split; [exact E2|]. split; [now rewrite <- (Forall2_len _ _ _ HF)|].
  intros A B HA HB idx i j Hi Him Hjn. unfold elem at 1. eapply (entry E zs zs' _ k _ _ (fun p => A idx p i) (fun p => B idx j p)); [exact HF|exact (Hy idx i j Hi Him Hjn)|].
  intros p Hp. split; apply elem_map; auto.
Qed.

Lemma c82_matvec {F} (o : fops F) E K c (a x : tensor F) dp da m k r xs ys :
  computes o E K -> repr a (da ++ [m; k]) xs -> repr x (dp ++ da ++ [r; k]) ys ->
  0 < prod (da ++ [m; k]) -> 0 < prod (dp ++ da ++ [r; k]) -> supported (dp ++ da ++ [r; m]) ->
  exists zs, matvec_by o K c a x TNone = Ok (fresh (dp ++ da ++ [r; m]) zs) /\ length zs = prod (dp ++ da ++ [r; m]) /\
    forall (A : list nat -> nat -> nat -> F) (X : list nat -> list nat -> nat -> nat -> F),
      (forall ia j p, in_shape da ia -> j < m -> p < k -> elem (da ++ [m; k]) xs (ia ++ [j; p]) = Some (A ia j p)) ->
      (forall ip ia i p, in_shape dp ip -> in_shape da ia -> i < r -> p < k ->
         elem (dp ++ da ++ [r; k]) ys (ip ++ ia ++ [i; p]) = Some (X ip ia i p)) ->
      forall ip ia i j, in_shape dp ip -> in_shape da ia -> i < r -> j < m ->
        exists z, elem (dp ++ da ++ [r; m]) zs (ip ++ ia ++ [i; j]) = Some z /\
          E (map (fun p => (X ip ia i p, A ia j p)) (seq 0 k)) z.
Proof.
  intros HK Ha Hb P1 P2 Hs.
  destruct (c49_matvec (sym F) c _ _ dp da m k r _ _ eq_refl (repr_tmap TLf _ _ _ Ha) (repr_tmap TLf _ _ _ Hb) P1 P2 Hs)
    as (zs & E1 & L & Hy).
  destruct (matvec_run o E K c a x TNone _ _ HK E1) as (zs' & E2 & HF).
  exists zs'. split; [exact E2|]. split; [now rewrite <- (Forall2_len _ _ _ HF)|].
  intros A B HA HB ip ia i j Hip Hia Him Hjn. unfold elem at 1.
  eapply (entry E zs zs' _ k _ _ (fun p => B ip ia i p) (fun p => A ia j p)); [exact HF|exact (Hy ip ia i j Hip Hia Him Hjn)|].
  intros p Hp. split; apply elem_map; auto.
Qed.

Lemma c82_matvec_transpose {F} (o : fops F) E K c (a x : tensor F) dp da m k r xs ys :
  computes o E K -> repr a (da ++ [k; m]) xs -> repr x (dp ++ da ++ [r; k]) ys ->
  0 < prod (da ++ [k; m]) -> 0 < prod (dp ++ da ++ [r; k]) -> supported (dp ++ da ++ [r; m]) ->
  exists zs, matvec_by o K c a x TransposeA = Ok (fresh (dp ++ da ++ [r; m]) zs) /\ length zs = prod (dp ++ da ++ [r; m]) /\
    forall (A : list nat -> nat -> nat -> F) (X : list nat -> list nat -> nat -> nat -> F),
      (forall ia p j, in_shape da ia -> p < k -> j < m -> elem (da ++ [k; m]) xs (ia ++ [p; j]) = Some (A ia p j)) ->
      (forall ip ia i p, in_shape dp ip -> in_shape da ia -> i < r -> p < k ->
         elem (dp ++ da ++ [r; k]) ys (ip ++ ia ++ [i; p]) = Some (X ip ia i p)) ->
      forall ip ia i j, in_shape dp ip -> in_shape da ia -> i < r -> j < m ->
        exists z, elem (dp ++ da ++ [r; m]) zs (ip ++ ia ++ [i; j]) = Some z /\
          E (map (fun p => (X ip ia i p, A ia p j)) (seq 0 k)) z.
Proof.
  intros HK Ha Hb P1 P2 Hs.
  destruct (c49_matvec_transpose (sym F) c _ _ dp da m k r _ _ eq_refl (repr_tmap TLf _ _ _ Ha) (repr_tmap TLf _ _ _ Hb) P1 P2 Hs)
    as (zs & E1 & L & Hy).
  destruct (matvec_run o E K c a x TransposeA _ _ HK E1) as (zs' & E2 & HF).
  exists zs'. split; [exact E2|]. split; [now rewrite <- (Forall2_len _ _ _ HF)|].
  intros A B HA HB ip ia i j Hip Hia Him Hjn. unfold elem at 1.
  eapply (entry E zs zs' _ k _ _ (fun p => B ip ia i p) (fun p => A ia p j)); [exact HF|exact (Hy ip ia i j Hip Hia Him Hjn)|].
  intros p Hp. split; apply elem_map; auto.
Qed.

Lemma c82_matvec_vector {F} (o : fops F) E K c (a x : tensor F) m k xs ys :
  computes o E K -> repr a [m; k] xs -> repr x [k] ys -> 0 < m -> 0 < k ->
  exists zs, matvec_by o K c a x TNone = Ok (fresh [m] zs) /\ length zs = m /\
    forall (A : nat -> nat -> F) (X : nat -> F),
      (forall j p, j < m -> p < k -> elem [m; k] xs [j; p] = Some (A j p)) ->
      (forall p, p < k -> nth_error ys p = Some (X p)) ->
      forall j, j < m -> exists z, nth_error zs j = Some z /\ E (map (fun p => (X p, A j p)) (seq 0 k)) z.
Proof.
  intros HK Ha Hb P1 P2.
  destruct (c49_matvec_vector (sym F) c _ _ m k _ _ eq_refl (repr_tmap TLf _ _ _ Ha) (repr_tmap TLf _ _ _ Hb) P1 P2)
    as (zs & E1 & L & Hy).
  destruct (matvec_run o E K c a x TNone _ _ HK E1) as (zs' & E2 & HF).
  exists zs'. split; [exact E2|]. split; [now rewrite <- (Forall2_len _ _ _ HF)|].
  intros A X HA HX j Hj. eapply (entry E zs zs' _ k _ _ X (fun p => A j p)); [exact HF|exact (Hy j Hj)|].
  intros p Hp. split; [rewrite nth_error_map, HX by assumption; reflexivity|apply elem_map; auto].
Qed.

(** ** Calls that do not return *)

Lemma tmap_id {A} (t : tensor A) : tmap (fun x => x) t = t.
Proof. destruct t. unfold tmap. cbn. now rewrite map_id. Qed.

Lemma same_sim {F} (o : fops F) E K : feq o (fzero o) (fzero o) = true -> computes o E K ->
  kernel_sim o o (fun x => x) (fun _ _ => True) (sgemm o) K.
Proof. intros Hz HK. eapply naive_sim; [exact Hz|exact HK|]. auto. Qed.

Definition same_place {F} (r r' : tensor F) : Prop :=
  tshape r' = tshape r /\ toffset r' = toffset r /\ tsize r' = tsize r /\ length (tdata r') = length (tdata r).

Lemma true_place {F} (r r' : tensor F) : tR (fun _ _ => True) r r' -> same_place r r'.
Proof. intros (H1 & H2 & H3 & H4). apply Forall2_len in H4. repeat split; auto. Qed.

Lemma c82_outcomes {F} (o : fops F) E K c (a b : tensor F) tr :
  feq o (fzero o) (fzero o) = true -> computes o E K ->
  (matmul_t o c a b tr = Panic -> matmul_by o K c a b tr = Panic) /\
  (forall r, matmul_t o c a b tr = Ok r -> exists r', matmul_by o K c a b tr = Ok r' /\
     tshape r' = tshape r /\ toffset r' = toffset r /\ tsize r' = tsize r /\ length (tdata r') = length (tdata r)) /\
  (matvec_t o c a b tr = Panic -> matvec_by o K c a b tr = Panic) /\
  (forall r, matvec_t o c a b tr = Ok r -> exists r', matvec_by o K c a b tr = Ok r' /\
     tshape r' = tshape r /\ toffset r' = toffset r /\ tsize r' = tsize r /\ length (tdata r') = length (tdata r)).
Proof.
  intros Hz HK.
  pose proof (matmul_by_sim _ _ _ _ _ _ (same_sim o E K Hz HK) c a b tr) as S1.
  pose proof (matvec_by_sim _ _ _ _ _ _ (same_sim o E K Hz HK) c a b tr) as S2.
  rewrite !tmap_id in S1, S2.
  change (matmul_by o (sgemm o) c a b tr) with (matmul_t o c a b tr) in S1.
  change (matvec_by o (sgemm o) c a b tr) with (matvec_t o c a b tr) in S2.
  split; [|split; [|split]].
  - intros H. rewrite H in S1. now inversion S1.
  - intros r H. rewrite H in S1. inversion S1 as [u v HT E1 E2| |]. subst. exists v. split; [reflexivity|]. now apply true_place.
  - intros H. rewrite H in S2. now inversion S2.
  - intros r H. rewrite H in S2. inversion S2 as [u v HT E1 E2| |]. subst. exists v. split; [reflexivity|]. now apply true_place.
Qed.

Lemma c82_model {F} (o : fops F) c (a b : tensor F) tr :
  matmul_by o (sgemm o) c a b tr = matmul_t o c a b tr /\ matvec_by o (sgemm o) c a b tr = matvec_t o c a b tr.
Proof. split; reflexivity. Qed.

Lemma c82_matvec_vector_transpose {F} (o : fops F) E K c (a x : tensor F) m k xs ys :
  computes o E K -> repr a [k; m] xs -> repr x [k] ys -> 0 < m -> 0 < k ->
  exists zs, matvec_by o K c a x TransposeA = Ok (fresh [m] zs) /\ length zs = m /\
    forall (A : nat -> nat -> F) (X : nat -> F),
      (forall p j, p < k -> j < m -> elem [k; m] xs [p; j] = Some (A p j)) ->
      (forall p, p < k -> nth_error ys p = Some (X p)) ->
      forall j, j < m -> exists z, nth_error zs j = Some z /\ E (map (fun p => (X p, A p j)) (seq 0 k)) z.
Proof.
  intros HK Ha Hb P1 P2.
  destruct (c49_matvec_vector_transpose (sym F) c _ _ m k _ _ eq_refl (repr_tmap TLf _ _ _ Ha) (repr_tmap TLf _ _ _ Hb) P1 P2)
    as (zs & E1 & L & Hy).
  destruct (matvec_run o E K c a x TransposeA _ _ HK E1) as (zs' & E2 & HF).
  exists zs'. split; [exact E2|]. split; [now rewrite <- (Forall2_len _ _ _ HF)|].
  intros A X HA HX j Hj. eapply (entry E zs zs' _ k _ _ X (fun p => A p j)); [exact HF|exact (Hy j Hj)|].
  intros p Hp. split; [rewrite nth_error_map, HX by assumption; reflexivity|apply elem_map; auto].
Qed.

(** ** The naive kernel is one *)

Lemma naive_computes {F} (o : fops F) : feq o (fzero o) (fzero o) = true ->
  computes o (fun ps z => z = fmul o (fone o) (lsum o ps)) (sgemm o).
Proof.
  intros Hz m k n a pa rsa csa b pb rsb csb pc rsc csc out Hin Hout Hinj.
  assert (G : exists d, sgemm o m k n (fone o) a pa rsa csa b pb rsb csb (fzero o) pc rsc csc out = Ok d).
  { unfold sgemm. rewrite Hz. cbn [assert_ bind].
    destruct (for_inv (fun _ (d : buf F) => length d = length out) m (fun i c =>
      for_ n (fun j c =>
        let* v := for_ k (fun p v =>
          let* x := raw_get a (pa + (rsa * i + csa * p)) in
          let* y := raw_get b (pb + (rsb * p + csb * j)) in
          Ok (fadd o v (fmul o x y))) (fzero o) in
        write c (pc + (rsc * i + csc * j)) (fmul o (fone o) v)) c) out) as (d & Ed & _); [|reflexivity|eauto].
    intros i d Hi Ld. apply (for_inv (fun _ (d : buf F) => length d = length out)); [|exact Ld].
    intros j d' Hj Ld'.
    destruct (for_inv (fun _ (_ : F) => True) k (fun p v =>
          let* x := raw_get a (pa + (rsa * i + csa * p)) in
          let* y := raw_get b (pb + (rsb * p + csb * j)) in
          Ok (fadd o v (fmul o x y))) (fzero o)) as (v & Ev & _); [|exact I|].
    - intros p v Hp _. destruct (Hin i p j Hi Hp Hj) as [P1 P2]. unfold raw_get.
      destruct (nth_error a _) as [x|] eqn:Ex; [|apply nth_error_None in Ex; lia].
      destruct (nth_error b _) as [y|] eqn:Ey; [|apply nth_error_None in Ey; lia]. cbn [bind]. eauto.
    - rewrite Ev. cbn [bind]. unfold write. pose proof (Hout i j Hi Hj).
      destruct (Nat.ltb_spec (pc + (rsc * i + csc * j)) (length d')); [|lia]. eexists. split; [reflexivity|].
      now rewrite set_nth_length. }
  destruct G as (d & Ed). exists d. split; [exact Ed|].
  destruct (naive_ok o Hz m k n _ _ _ _ _ _ _ _ _ _ _ _ Hinj d Ed) as (Ld & Hd & Hu).
  split; [exact Ld|]. split; [|exact Hu]. intros i j Hi Hj. destruct (Hd i j Hi Hj) as (_ & _ & E).
  eexists. split; [exact E|reflexivity].
Qed.

Lemma computes_weaken {F} (o : fops F) (E E' : list (F * F) -> F -> Prop) K :
  (forall ps z, E ps z -> E' ps z) -> computes o E K -> computes o E' K.
Proof.
  intros H HK m k n a pa rsa csa b pb rsb csb pc rsc csc out Hin Hout Hinj.
  destruct (HK m k n a pa rsa csa b pb rsb csb pc rsc csc out Hin Hout Hinj) as (d & E1 & L & Hd & Hu).
  exists d. split; [exact E1|]. split; [exact L|]. split; [|exact Hu].
  intros i j Hi Hj. destruct (Hd i j Hi Hj) as (z & E2 & HE). eauto.
Qed.

Lemma lsum_sum_of ln_ exp_ pow_ ps : sum_of ps (lsum (b32_ops ln_ exp_ pow_) ps).
Proof.
  induction ps as [|[x y] ps IH] using rev_ind; [apply sum_zero|].
  unfold lsum. rewrite fold_left_app. cbn [fold_left fadd fmul b32_ops]. apply sum_add; [exact IH|apply sum_product].
Qed.

Lemma c82_naive ln_ exp_ pow_ : computes (b32_ops ln_ exp_ pow_) sum_of (sgemm (b32_ops ln_ exp_ pow_)).
Proof.
  eapply computes_weaken; [|apply naive_computes; reflexivity]. intros ps z ->. cbn [fmul fone b32_ops].
  apply sum_scale. apply lsum_sum_of.
Qed.

(** ** Kernels that compute one entry after another *)

Lemma c82_loop {F} (o : fops F) (E : list (F * F) -> F -> Prop) f : (forall ps, E ps (f ps)) -> computes o E (loop_kernel f).
Proof.
  intros Hf m k n a pa rsa csa b pb rsb csb pc rsc csc out Hin Hout Hinj.
  set (P := fun i j => map (fun p => (nth (pa + (rsa * i + csa * p)) a (fzero o), nth (pb + (rsb * p + csb * j)) b (fzero o)))
    (seq 0 k)).
  set (D := fun (i0 j0 i j : nat) => i < i0 \/ (i = i0 /\ j < j0)).
  set (I := fun i0 j0 (c : buf F) => length c = length out /\
    (forall i j, i < m -> j < n -> D i0 j0 i j -> nth_error c (pc + (rsc * i + csc * j)) = Some (Some (f (P i j)))) /\
    (forall q, (forall i j, i < m -> j < n -> D i0 j0 i j -> q <> pc + (rsc * i + csc * j)) -> nth_error c q = nth_error out q)).
  assert (G : exists d, loop_kernel f m k n (fone o) a pa rsa csa b pb rsb csb (fzero o) pc rsc csc out = Ok d /\ I m 0 d).
  { unfold loop_kernel. apply (for_inv (fun i c => I i 0 c)).
    - intros i c Hi HI.
      match goal with |- exists s', for_ n ?body c = _ /\ _ =>
        destruct (for_inv (fun j c => I i j c) n body c) as (c1 & E1 & G) end.
      + intros j c2 Hj (L & Hd & Hu).
        assert (Em : map_out (fun p =>
          let* x := raw_get a (pa + (rsa * i + csa * p)) in
          let* y := raw_get b (pb + (rsb * p + csb * j)) in Ok (x, y)) (seq 0 k) = Ok (P i j)).
        { unfold P. assert (Hk : forall p, In p (seq 0 k) -> p < k) by (intros p Hp; apply in_seq in Hp; lia).
          revert Hk. generalize (seq 0 k). induction l as [|p l IH]; intros Hk; [reflexivity|]. cbn [map_out map].
          destruct (Hin i p j Hi (Hk p (or_introl eq_refl)) Hj) as [P1 P2]. unfold raw_get at 1 2.
          destruct (nth_error a _) as [x|] eqn:Ex; [|apply nth_error_None in Ex; lia].
          destruct (nth_error b _) as [y|] eqn:Ey; [|apply nth_error_None in Ey; lia]. cbn [bind].
          rewrite IH by (intros; apply Hk; now right). cbn [bind].
          now rewrite (nth_error_nth _ _ _ Ex), (nth_error_nth _ _ _ Ey). }
        rewrite Em. cbn [bind].
        assert (exists c3, write c2 (pc + (rsc * i + csc * j)) (f (P i j)) = Ok c3) as (c3 & E3).
        { unfold write. pose proof (Hout i j Hi Hj). destruct (Nat.ltb_spec (pc + (rsc * i + csc * j)) (length c2)); [eauto|lia]. }
        exists c3. split; [exact E3|]. destruct (write_inv _ _ _ _ E3) as (W1 & W2 & W3 & W4).
        split; [congruence|]. split.
        * intros i' j' Hi' Hj' HD. destruct (Nat.eq_dec i' i) as [->|Ni]; [destruct (Nat.eq_dec j' j) as [->|Nj]|].
          -- assumption.
          -- rewrite W4; [apply Hd; auto; unfold D in *; lia|]. intros Q. destruct (Hinj i j' i j); auto; lia.
          -- rewrite W4; [apply Hd; auto; unfold D in *; lia|]. intros Q. destruct (Hinj i' j' i j); auto; lia.
        * intros q Hq. rewrite W4; [apply Hu|].
          -- intros i' j' Hi' Hj' HD. apply Hq; auto. unfold D in *. lia.
          -- apply Hq; auto. unfold D. lia.
      + exact HI.
      + exists c1. split; [exact E1|]. destruct G as (L & Hd & Hu). split; [assumption|]. split.
        * intros i' j' Hi' Hj' HD. apply Hd; auto. unfold D in *. lia.
        * intros q Hq. apply Hu. intros i' j' Hi' Hj' HD. apply Hq; auto. unfold D in *. lia.
    - split; [reflexivity|]. split; [unfold D; lia|reflexivity]. }
  destruct G as (d & Ed & L & Hd & Hu). exists d. split; [exact Ed|]. split; [exact L|]. split.
  - intros i j Hi Hj. exists (f (P i j)). split; [apply Hd; auto; unfold D; lia|apply Hf].
  - intros q Hq. apply Hu. intros i j Hi Hj _. now apply Hq.
Qed.

Lemma fma_from_right_sum ps : sum_of ps (fma_from_right ps).
Proof. induction ps as [|[x y] ps IH]; [apply sum_zero|]. cbn. now apply sum_fma. Qed.

Lemma c82_fma ln_ exp_ pow_ : computes (b32_ops ln_ exp_ pow_) sum_of (loop_kernel fma_from_right).
Proof. apply c82_loop. exact fma_from_right_sum. Qed.
