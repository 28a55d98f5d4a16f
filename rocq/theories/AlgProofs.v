(** * Proofs of C72 *)
From Coq Require Import Setoid.
From Verif Require Import Base ShapeModel TensorModel AxisModel MapModel NumModel FloatModel MathModel Spec MapSpec AlgSpec
  BaseFacts CoordFacts ShapeFacts ShapeProofs TensorFacts MapFacts MapProofs AlgFacts.

Lemma binop_tt_cases {T U V} c (ta : tensor T) (tb : tensor U) da db xs ys (f : T -> U -> V) :
  repr ta da xs -> repr tb db ys ->
  binop_tt c ta tb (ok2 f) = Panic \/
  exists dl vs, binop_tt c ta tb (ok2 f) = Ok (fresh dl vs) /\ repr (fresh dl vs) dl vs.
Proof.
  intros Ha Hb. destruct (list_nil_dec xs) as [E|Nx]; [left; apply (binop_tt_panic c ta tb da db xs ys); auto|].
  destruct (list_nil_dec ys) as [E|Ny]; [left; apply (binop_tt_panic c ta tb da db xs ys); auto|].
  destruct (join da db) as [dl|] eqn:J; [|left; apply (binop_tt_panic c ta tb da db xs ys); auto].
  right. destruct xs as [|dx xs'] eqn:Ex; [congruence|]. destruct ys as [|dy ys'] eqn:Ey; [congruence|].
  rewrite <- Ex, <- Ey in *. do 2 eexists. split.
  - now apply (binop_tt_join c ta tb da db dl xs ys f dx dy).
  - apply bz_repr. eapply join_supported; [| |exact J]; eapply repr_supported; eauto.
Qed.

Lemma c72_comm {T U V} c (ta : tensor T) (tb : tensor U) da db xs ys
    (op : T -> U -> outcome V) (op' : U -> T -> outcome V) :
  repr ta da xs -> repr tb db ys -> (forall x y, op x y = op' y x) ->
  binop_tt c ta tb op = binop_tt c tb ta op'.
Proof.
  intros Ha Hb Hop. destruct (list_nil_dec xs) as [E|Nx].
  { rewrite (binop_tt_panic c ta tb da db xs ys), (binop_tt_panic c tb ta db da ys xs); auto. }
  destruct (list_nil_dec ys) as [E|Ny].
  { rewrite (binop_tt_panic c ta tb da db xs ys), (binop_tt_panic c tb ta db da ys xs); auto. }
  pose proof (join_comm da db) as JC. destruct (join da db) as [dl|] eqn:J.
  2:{ rewrite (binop_tt_panic c ta tb da db xs ys), (binop_tt_panic c tb ta db da ys xs); auto. }
  unfold binop_tt.
  rewrite (map2_repr c ta tb da db dl xs ys _ _ Ha Hb Nx Ny (join_some _ _ _ J)).
  rewrite (map2_repr c tb ta db da dl ys xs _ _ Hb Ha Ny Nx (join_some _ _ _ (eq_sym JC))).
  set (l := cyc (prod dl) xs). set (l' := cyc (prod dl) ys).
  assert (G : forall l l', traverse (fun st '(x, y) => lift2 op st x y) tt (combine l l')
    = traverse (fun st '(x, y) => lift2 op' st x y) tt (combine l' l)).
  { clear - Hop. induction l as [|x l IH]; intros [|y l']; auto. cbn [combine traverse].
    unfold lift2 at 1 3. rewrite Hop. destruct (op' y x); cbn [bind]; auto. now rewrite IH. }
  now rewrite G.
Qed.

Lemma c72_assoc {A B D E F G} c (ta : tensor A) (tb : tensor B) (td : tensor D) da db dd xs ys zs
    (f1 : A -> B -> E) (f2 : E -> D -> G) (g1 : B -> D -> F) (g2 : A -> F -> G) :
  repr ta da xs -> repr tb db ys -> repr td dd zs ->
  (forall x y z, f2 (f1 x y) z = g2 x (g1 y z)) ->
  (let* ab := binop_tt c ta tb (ok2 f1) in binop_tt c ab td (ok2 f2))
  = (let* bd := binop_tt c tb td (ok2 g1) in binop_tt c ta bd (ok2 g2)).
Proof.
  intros Ha Hb Hd Hf.
  destruct (list_nil_dec xs) as [N|Nx].
  { rewrite (binop_tt_panic c ta tb da db xs ys) by auto. cbn [bind].
    destruct (binop_tt_cases c tb td db dd ys zs g1 Hb Hd) as [->|(dl & vs & -> & Hr)]; auto. cbn [bind].
    now rewrite (binop_tt_panic c ta _ da dl xs vs) by auto. }
  destruct (list_nil_dec ys) as [N|Ny].
  { rewrite (binop_tt_panic c ta tb da db xs ys), (binop_tt_panic c tb td db dd ys zs) by auto. auto. }
  destruct (list_nil_dec zs) as [N|Nz].
  { rewrite (binop_tt_panic c tb td db dd ys zs) by auto. cbn [bind].
    destruct (binop_tt_cases c ta tb da db xs ys f1 Ha Hb) as [->|(dl & vs & -> & Hr)]; auto. cbn [bind].
    now rewrite (binop_tt_panic c _ td dl dd vs zs) by auto. }
  pose proof (repr_nonempty _ _ _ Ha Nx) as Pa. pose proof (repr_nonempty _ _ _ Hb Ny) as Pb.
  pose proof (repr_nonempty _ _ _ Hd Nz) as Pd.
  pose proof (join_assoc da db dd) as JA.
  pose proof (repr_supported _ _ _ Ha) as Sa. pose proof (repr_supported _ _ _ Hb) as Sb.
  pose proof (repr_supported _ _ _ Hd) as Sd.
  destruct xs as [|x0 xs'] eqn:Ex; [congruence|]. destruct ys as [|y0 ys'] eqn:Ey; [congruence|].
  destruct zs as [|z0 zs'] eqn:Ez; [congruence|]. rewrite <- Ex, <- Ey, <- Ez in *.
  destruct (join da db) as [l|] eqn:J1; destruct (join db dd) as [m|] eqn:J2; cbn [join_opt] in JA.
  - rewrite (binop_tt_join c ta tb da db l xs ys f1 x0 y0) by auto. cbn [bind].
    rewrite (binop_tt_join c tb td db dd m ys zs g1 y0 z0) by auto. cbn [bind].
    pose proof (bz_repr f1 x0 y0 xs ys l (join_supported _ _ _ Sa Sb J1)) as R1.
    pose proof (bz_repr g1 y0 z0 ys zs m (join_supported _ _ _ Sb Sd J2)) as R2.
    pose proof (join_prod _ _ _ J1 Pa Pb) as Pl. pose proof (join_prod _ _ _ J2 Pb Pd) as Pm.
    destruct (join l dd) as [r|] eqn:J3.
    + rewrite (binop_tt_join c _ td l dd r _ zs f2 (f1 x0 y0) z0 R1 Hd) by (auto; now apply bz_nonempty).
      rewrite (binop_tt_join c ta _ da m r xs _ g2 x0 (g1 y0 z0) Ha R2) by (auto; now apply bz_nonempty).
      do 2 f_equal. apply bz_ext. intros k Hk. rewrite !at_bz by auto.
      pose proof (join_suffix _ _ _ J1) as [L1 L2]. pose proof (join_suffix _ _ _ J2) as [M1 M2].
      rewrite !at_mod by (auto; rewrite ?(repr_len _ _ _ Ha), ?(repr_len _ _ _ Hb), ?(repr_len _ _ _ Hd); now apply suffix_divide).
      apply Hf.
    + rewrite (binop_tt_panic c _ td l dd _ zs _ R1 Hd), (binop_tt_panic c ta _ da m xs _ _ Ha R2) by auto. auto.
  - rewrite (binop_tt_panic c tb td db dd ys zs) by auto. cbn [bind].
    rewrite (binop_tt_join c ta tb da db l xs ys f1 x0 y0) by auto. cbn [bind].
    pose proof (bz_repr f1 x0 y0 xs ys l (join_supported _ _ _ Sa Sb J1)) as R1.
    rewrite (binop_tt_panic c _ td l dd _ zs _ R1 Hd) by auto. auto.
  - rewrite (binop_tt_panic c ta tb da db xs ys) by auto. cbn [bind].
    rewrite (binop_tt_join c tb td db dd m ys zs g1 y0 z0) by auto. cbn [bind].
    pose proof (bz_repr g1 y0 z0 ys zs m (join_supported _ _ _ Sb Sd J2)) as R2.
    rewrite (binop_tt_panic c ta _ da m xs _ _ Ha R2) by auto. auto.
  - rewrite (binop_tt_panic c ta tb da db xs ys), (binop_tt_panic c tb td db dd ys zs) by auto. auto.
Qed.

Lemma c72_distrib {A B D E F G H} c (ta : tensor A) (tb : tensor B) (td : tensor D) da db dd xs ys zs
    (add : B -> D -> E) (mul : A -> E -> F) (mulb : A -> B -> G) (muld : A -> D -> H) (add' : G -> H -> F) :
  repr ta da xs -> repr tb db ys -> repr td dd zs ->
  (forall x y z, mul x (add y z) = add' (mulb x y) (muld x z)) ->
  (let* bd := binop_tt c tb td (ok2 add) in binop_tt c ta bd (ok2 mul))
  = (let* ab := binop_tt c ta tb (ok2 mulb) in
     let* ad := binop_tt c ta td (ok2 muld) in binop_tt c ab ad (ok2 add')).
Proof.
  intros Ha Hb Hd Hf.
  destruct (list_nil_dec xs) as [N|Nx].
  { rewrite (binop_tt_panic c ta tb da db xs ys) by auto. cbn [bind].
    destruct (binop_tt_cases c tb td db dd ys zs add Hb Hd) as [->|(dl & vs & -> & Hr)]; auto. cbn [bind].
    now rewrite (binop_tt_panic c ta _ da dl xs vs) by auto. }
  destruct (list_nil_dec ys) as [N|Ny].
  { rewrite (binop_tt_panic c ta tb da db xs ys), (binop_tt_panic c tb td db dd ys zs) by auto. auto. }
  destruct (list_nil_dec zs) as [N|Nz].
  { rewrite (binop_tt_panic c tb td db dd ys zs), (binop_tt_panic c ta td da dd xs zs) by auto. cbn [bind].
    destruct (binop_tt_cases c ta tb da db xs ys mulb Ha Hb) as [->|(dl & vs & -> & Hr)]; auto. }
  pose proof (repr_nonempty _ _ _ Ha Nx) as Pa. pose proof (repr_nonempty _ _ _ Hb Ny) as Pb.
  pose proof (repr_nonempty _ _ _ Hd Nz) as Pd.
  pose proof (join_distrib da db dd) as JA.
  pose proof (repr_supported _ _ _ Ha) as Sa. pose proof (repr_supported _ _ _ Hb) as Sb.
  pose proof (repr_supported _ _ _ Hd) as Sd.
  destruct xs as [|x0 xs'] eqn:Ex; [congruence|]. destruct ys as [|y0 ys'] eqn:Ey; [congruence|].
  destruct zs as [|z0 zs'] eqn:Ez; [congruence|]. rewrite <- Ex, <- Ey, <- Ez in *.
  assert (ET : forall m, join db dd = Some m ->
    binop_tt c tb td (ok2 add) = Ok (fresh m (bz add y0 z0 ys zs (prod m))))
    by (intros; now apply (binop_tt_join c tb td db dd)).
  assert (EB : forall m, join da db = Some m ->
    binop_tt c ta tb (ok2 mulb) = Ok (fresh m (bz mulb x0 y0 xs ys (prod m))))
    by (intros; now apply (binop_tt_join c ta tb da db)).
  assert (ED : forall m, join da dd = Some m ->
    binop_tt c ta td (ok2 muld) = Ok (fresh m (bz muld x0 z0 xs zs (prod m))))
    by (intros; now apply (binop_tt_join c ta td da dd)).
  assert (RT : forall m, join db dd = Some m -> repr (fresh m (bz add y0 z0 ys zs (prod m))) m (bz add y0 z0 ys zs (prod m)))
    by (intros m J; apply bz_repr, (join_supported _ _ _ Sb Sd J)).
  assert (RB : forall m, join da db = Some m -> repr (fresh m (bz mulb x0 y0 xs ys (prod m))) m (bz mulb x0 y0 xs ys (prod m)))
    by (intros m J; apply bz_repr, (join_supported _ _ _ Sa Sb J)).
  assert (RD : forall m, join da dd = Some m -> repr (fresh m (bz muld x0 z0 xs zs (prod m))) m (bz muld x0 z0 xs zs (prod m)))
    by (intros m J; apply bz_repr, (join_supported _ _ _ Sa Sd J)).
  assert (NT : join db dd = None -> binop_tt c tb td (ok2 add) = Panic)
    by (intros; apply (binop_tt_panic c tb td db dd ys zs); auto).
  assert (NB : join da db = None -> binop_tt c ta tb (ok2 mulb) = Panic)
    by (intros; apply (binop_tt_panic c ta tb da db xs ys); auto).
  assert (ND : join da dd = None -> binop_tt c ta td (ok2 muld) = Panic)
    by (intros; apply (binop_tt_panic c ta td da dd xs zs); auto).
  destruct (join db dd) as [m|] eqn:J1; [rewrite (ET m eq_refl)|rewrite (NT eq_refl)]; cbn [bind];
  (destruct (join da db) as [l|] eqn:J2; [rewrite (EB l eq_refl)|rewrite (NB eq_refl)]); cbn [bind];
  try (destruct (join da dd) as [r|] eqn:J3; [rewrite (ED r eq_refl)|rewrite (ND eq_refl)]); cbn [bind];
  cbn [join_opt] in JA; auto;
  try (rewrite (binop_tt_panic c ta _ da m xs _ _ Ha (RT m eq_refl)) by auto; reflexivity);
  try (rewrite (binop_tt_panic c _ _ l r _ _ _ (RB l eq_refl) (RD r eq_refl)) by auto; reflexivity).
  pose proof (join_prod _ _ _ J1 Pb Pd) as Pm. pose proof (join_prod _ _ _ J2 Pa Pb) as Pl.
  pose proof (join_prod _ _ _ J3 Pa Pd) as Pr.
  destruct (join da m) as [p|] eqn:J4.
  + rewrite (binop_tt_join c ta _ da m p xs _ mul x0 (add y0 z0) Ha (RT m eq_refl)) by (auto; now apply bz_nonempty).
    rewrite (binop_tt_join c _ _ l r p _ _ add' (mulb x0 y0) (muld x0 z0) (RB l eq_refl) (RD r eq_refl))
      by (auto; now apply bz_nonempty).
    do 2 f_equal. apply bz_ext. intros k Hk. rewrite !at_bz by auto.
    pose proof (join_suffix _ _ _ J1) as [L1 L2]. pose proof (join_suffix _ _ _ J2) as [M1 M2].
    pose proof (join_suffix _ _ _ J3) as [N1 N2].
    rewrite !at_mod by (auto; rewrite ?(repr_len _ _ _ Ha), ?(repr_len _ _ _ Hb), ?(repr_len _ _ _ Hd); now apply suffix_divide).
    apply Hf.
  + rewrite (binop_tt_panic c ta _ da m xs _ _ Ha (RT m eq_refl)) by auto.
    rewrite (binop_tt_panic c _ _ l r _ _ _ (RB l eq_refl) (RD r eq_refl)) by auto. reflexivity.
Qed.

(** ** Element functions *)

Lemma unop_ok {T V} c (t : tensor T) ds xs (f : T -> V) :
  repr t ds xs -> can_alloc c (length xs) -> unop c t (ok1 f) = Ok (fresh ds (map f xs)).
Proof.
  intros H Hc. unfold unop. rewrite (map_repr _ _ _ _ _ _ H Hc).
  now rewrite (traverse_all f) by reflexivity.
Qed.

Lemma fresh_map_repr {T V} (t : tensor T) ds xs (f : T -> V) :
  repr t ds xs -> repr (fresh ds (map f xs)) ds (map f xs).
Proof. intros H. apply repr_fresh; [apply H|]. rewrite map_length. apply H. Qed.

Lemma c72_fusion {T U V} c (t : tensor T) ds xs (f : T -> U) (g : U -> V) :
  repr t ds xs -> can_alloc c (length xs) ->
  (let* r := unop c t (ok1 f) in unop c r (ok1 g)) = unop c t (ok1 (fun x => g (f x))).
Proof.
  intros H Hc. rewrite (unop_ok c t ds xs f H Hc), (unop_ok c t ds xs (fun x => g (f x)) H Hc). cbn [bind].
  rewrite (unop_ok c _ ds (map f xs) g (fresh_map_repr t ds xs f H)) by now rewrite map_length.
  now rewrite map_map.
Qed.

Lemma at_map {A B} (f : A -> B) d d' xs k : xs <> [] -> at_ d' (map f xs) k = f (at_ d xs k).
Proof.
  intros Hx. assert (length xs <> 0) by (destruct xs; cbn; congruence).
  unfold at_. rewrite map_length. rewrite (nth_indep _ d' (f d)) by (rewrite map_length; now apply Nat.mod_upper_bound).
  apply map_nth.
Qed.

Lemma map_nonempty {A B} (f : A -> B) xs : xs <> [] -> map f xs <> [].
Proof. destruct xs; [congruence|discriminate]. Qed.

Lemma c72_homomorphism {A B D A' B' D'} c (ta : tensor A) (tb : tensor B) da db xs ys
    (f : A -> B -> D) (g : A' -> B' -> D') (ha : A -> A') (hb : B -> B') (h : D -> D') :
  repr ta da xs -> repr tb db ys -> can_alloc c (length xs) -> can_alloc c (length ys) ->
  (forall x y, h (f x y) = g (ha x) (hb y)) ->
  (let* r := binop_tt c ta tb (ok2 f) in unop c r (ok1 h))
  = (let* a := unop c ta (ok1 ha) in let* b := unop c tb (ok1 hb) in binop_tt c a b (ok2 g)).
Proof.
  intros Ha Hb Ca Cb Hh. rewrite (unop_ok c ta da xs ha Ha Ca), (unop_ok c tb db ys hb Hb Cb). cbn [bind].
  pose proof (fresh_map_repr ta da xs ha Ha) as Ra. pose proof (fresh_map_repr tb db ys hb Hb) as Rb.
  destruct (list_nil_dec xs) as [E|Nx].
  { rewrite (binop_tt_panic c ta tb da db xs ys), (binop_tt_panic c _ _ da db _ _ _ Ra Rb); auto.
    right; left; now subst. }
  destruct (list_nil_dec ys) as [E|Ny].
  { rewrite (binop_tt_panic c ta tb da db xs ys), (binop_tt_panic c _ _ da db _ _ _ Ra Rb); auto.
    right; right; now subst. }
  destruct (join da db) as [dl|] eqn:J.
  2:{ rewrite (binop_tt_panic c ta tb da db xs ys), (binop_tt_panic c _ _ da db _ _ _ Ra Rb); auto. }
  pose proof (join_prod _ _ _ J (repr_nonempty _ _ _ Ha Nx) (repr_nonempty _ _ _ Hb Ny)) as Pl.
  destruct xs as [|x0 xs'] eqn:Ex; [congruence|]. destruct ys as [|y0 ys'] eqn:Ey; [congruence|].
  rewrite <- Ex, <- Ey in *.
  rewrite (binop_tt_join c ta tb da db dl xs ys f x0 y0) by auto. cbn [bind].
  rewrite (binop_tt_join c _ _ da db dl _ _ g (ha x0) (hb y0) Ra Rb) by (auto using map_nonempty).
  rewrite (unop_ok c _ dl (bz f x0 y0 xs ys (prod dl)) h).
  - do 2 f_equal. unfold bz. rewrite map_map. apply map_ext. intros k.
    rewrite (at_map ha x0), (at_map hb y0) by auto. apply Hh.
  - apply bz_repr. eapply join_supported; [| |exact J]; eapply repr_supported; eauto.
  - left. now rewrite bz_length.
Qed.

Lemma map_at {A} (d : A) xs n : length xs = n -> map (at_ d xs) (seq 0 n) = xs.
Proof.
  intros <-. apply nth_error_ext. intros k. destruct (Nat.lt_ge_cases k (length xs)) as [L|L].
  - rewrite nth_error_map_seq by auto. cbn [Nat.add]. unfold at_. rewrite Nat.mod_small by auto.
    symmetry. now apply nth_error_nth'.
  - rewrite !(proj2 (nth_error_None _ _)); auto. now rewrite map_length, seq_length.
Qed.

Lemma at_in {A} (d : A) xs k : xs <> [] -> In (at_ d xs k) xs.
Proof.
  intros Hx. apply nth_In. apply Nat.mod_upper_bound. destruct xs; cbn; congruence.
Qed.

Lemma c72_unit {T U} c (ta : tensor T) (tb : tensor U) da db xs ys (f : T -> U -> T) :
  repr ta da xs -> repr tb db ys -> xs <> [] -> ys <> [] -> suffix db da ->
  (forall x y, In y ys -> f x y = x) ->
  binop_tt c ta tb (ok2 f) = Ok (fresh da xs).
Proof.
  intros Ha Hb Nx Ny Hs Hu.
  destruct xs as [|x0 xs'] eqn:Ex; [congruence|]. destruct ys as [|y0 ys'] eqn:Ey; [congruence|].
  rewrite <- Ex, <- Ey in *.
  rewrite (binop_tt_join c ta tb da db da xs ys f x0 y0) by (auto using join_of).
  do 2 f_equal. unfold bz. transitivity (map (at_ x0 xs) (seq 0 (prod da))); [|apply map_at, Ha].
  apply map_ext. intros k. apply Hu. now apply at_in.
Qed.

Lemma c72_self {T V} c (t : tensor T) ds xs (f : T -> T -> V) :
  repr t ds xs -> xs <> [] -> binop_tt c t t (ok2 f) = unop c t (ok1 (fun x => f x x)).
Proof.
  intros H Nx. rewrite (unop_ok c t ds xs _ H) by (left; destruct xs; cbn; congruence).
  destruct xs as [|x0 xs'] eqn:Ex; [congruence|]. rewrite <- Ex in *.
  rewrite (binop_tt_join c t t ds ds ds xs xs f x0 x0) by (auto using join_self).
  do 2 f_equal. unfold bz.
  transitivity (map (fun x => f x x) (map (at_ x0 xs) (seq 0 (prod ds)))); [now rewrite map_map|].
  now rewrite map_at by apply H.
Qed.

Lemma c72_inverse {T U V} c (t : tensor T) ds xs (f : T -> U -> V) (n : T -> U) e :
  repr t ds xs -> xs <> [] -> (forall x, f x (n x) = e) ->
  (let* u := unop c t (ok1 n) in binop_tt c t u (ok2 f)) = Ok (fresh ds (repeat e (prod ds))).
Proof.
  intros H Nx He. rewrite (unop_ok c t ds xs n H) by (left; destruct xs; cbn; congruence). cbn [bind].
  pose proof (fresh_map_repr t ds xs n H) as R.
  destruct xs as [|x0 xs'] eqn:Ex; [congruence|]. rewrite <- Ex in *.
  rewrite (binop_tt_join c t _ ds ds ds xs _ f x0 (n x0) H R) by (auto using join_self, map_nonempty).
  do 2 f_equal. unfold bz.
  rewrite (map_ext _ (fun _ => e)) by (intros k; rewrite (at_map n x0) by auto; apply He).
  clear. rewrite <- (seq_length (prod ds) 0) at 2. induction (seq 0 (prod ds)); cbn; auto. now rewrite IHl.
Qed.

(** ** Reductions *)

Lemma reduceM_ok {T} (f : T -> T -> T) (l : list T) :
  l <> [] -> exists r, reduceM (lift2 (ok2 f)) tt l = Ok (tt, r) /\ Some r = bsum f (length l) (nth_error l).
Proof.
  destruct l as [|x l]; [congruence|]. intros _. exists (fold_left f l x). split; [|apply fold_bsum].
  cbn [reduceM]. apply (foldM_pure f).
Qed.

Lemma traverse_reduce {T} (f : T -> T -> T) (ls : list (list T)) :
  Forall (fun l => l <> []) ls ->
  exists rs, traverse (reduceM (lift2 (ok2 f))) tt ls = Ok (tt, rs) /\ length rs = length ls /\
    forall k l, nth_error ls k = Some l -> nth_error rs k = bsum f (length l) (nth_error l).
Proof.
  induction 1 as [|l ls Hl Hls (rs & E & L & N)].
  - exists []. repeat split; auto. intros [|k]; discriminate.
  - destruct (reduceM_ok f l Hl) as (r & Er & Hr). exists (r :: rs). cbn [traverse].
    rewrite Er. cbn [bind]. rewrite E. cbn [bind length]. repeat split; auto.
    intros [|k] l'; cbn; [intros [= <-]; auto|auto].
Qed.

Lemma reduce_at {T} (f : T -> T -> T) c (t : tensor T) a d1 d d2 xs :
  repr t (d1 ++ d :: d2) xs -> names_axis a (length d1) (length (d1 ++ d :: d2)) ->
  Forall (fun d => 0 < d) (d1 ++ d :: d2) ->
  exists vs, (forall add, add = ok2 f -> (let* '(_, r) := reduce_axis c t (Some a) (lift2 add) tt in Ok r) = Ok (fresh (d1 ++ d2) vs)) /\
    repr (fresh (d1 ++ d2) vs) (d1 ++ d2) vs /\
    forall i1 i2, in_shape d1 i1 -> in_shape d2 i2 ->
      elem (d1 ++ d2) vs (i1 ++ i2) = bsum f d (fun k => elem (d1 ++ d :: d2) xs (i1 ++ k :: i2)).
Proof.
  intros H Ha Hp. apply Forall_app in Hp. destruct Hp as [P1 P2]. inversion P2 as [|? ? Pd P3]; subst.
  destruct (c30_reduce_axis c t a d1 d d2 xs (lift2 (ok2 f)) tt H Ha) as (ls & [L Hls] & E).
  { apply Forall_app; auto. }
  destruct (traverse_reduce f ls) as (rs & Er & Lr & Nr).
  { apply Forall_forall. intros l Hin. apply In_nth_error in Hin. destruct Hin as [k Hk].
    pose proof (nth_error_Some_lt _ _ _ Hk) as Hlt. rewrite L in Hlt.
    destruct (unravel _ k Hlt) as (idx & Hi & Hr). apply in_shape_app_inv in Hi. destruct Hi as [I1 I2].
    destruct (Hls _ _ I1 I2) as (l' & El & Hl & _). rewrite firstn_skipn in El.
    unfold elem in El. rewrite Hr, Hk in El. injection El as ->. destruct l'; cbn in *; [lia|congruence]. }
  exists rs. split; [|split].
  - intros add ->. rewrite E, Er. reflexivity.
  - apply repr_fresh; [eapply supported_drop, H|lia].
  - intros i1 i2 I1 I2. destruct (Hls _ _ I1 I2) as (l & El & Hl & Hk).
    unfold elem at 1. rewrite (Nr _ _ El), Hl. now apply bsum_ext.
Qed.

Lemma reduce_at_panic {T} c (t : tensor T) a d1 d d2 xs op :
  repr t (d1 ++ d :: d2) xs -> names_axis a (length d1) (length (d1 ++ d :: d2)) ->
  In 0 (d1 ++ d :: d2) ->
  (let* '(_, r) := reduce_axis c t (Some a) (lift2 op) tt in Ok r) = Panic.
Proof.
  intros H Ha Hz. destruct (in_dec Nat.eq_dec 0 (d1 ++ d2)) as [I|I].
  - now rewrite (proj2 (c30_zero_kept_dim c t a d1 d d2 xs tt (fun _ => tt) (fun _ _ _ => Panic) (lift2 op) tt H Ha I)).
  - assert (d = 0) as ->.
    { apply in_app_or in Hz. destruct Hz as [Hz|[Hz|Hz]]; auto; destruct I; apply in_or_app; auto. }
    destruct (c30_reduce_axis c t a d1 0 d2 xs (lift2 op) tt H Ha) as (ls & [L Hls] & ->).
    { apply Forall_forall. intros x Hx. destruct x; [contradiction|lia]. }
    assert (P : 0 < prod (d1 ++ d2)).
    { clear - I. induction (d1 ++ d2) as [|x l IH]; cbn; [lia|].
      destruct x; [destruct I; now left|]. assert (0 < prod l) by (apply IH; intros X; apply I; now right). nia. }
    destruct ls as [|l ls]; [cbn in L; lia|].
    destruct (unravel (d1 ++ d2) 0 P) as (idx & Hi & Hr). apply in_shape_app_inv in Hi. destruct Hi as [I1 I2].
    destruct (Hls _ _ I1 I2) as (l' & El & Hl & _). rewrite firstn_skipn in El.
    unfold elem in El. rewrite Hr in El. injection El as <-. destruct l; [reflexivity|discriminate].
Qed.

Lemma pos_or_zero l : Forall (fun d => 0 < d) l \/ In 0 l.
Proof.
  destruct (in_dec Nat.eq_dec 0 l) as [I|I]; auto. left. apply Forall_forall.
  intros [|x] Hx; [contradiction|lia].
Qed.

Lemma prod_zero l : In 0 l -> prod l = 0.
Proof. induction l as [|x l IH]; cbn; [easy|]. intros [->|H]; auto. rewrite IH by auto. lia. Qed.

(** Same dimensions: the reduction of the combination is the combination of the reductions. *)
Lemma c72_reduce_axis {T} c (ta tb : tensor T) a d1 d d2 xs ys (f : T -> T -> T) :
  (forall x y z, f (f x y) z = f x (f y z)) -> (forall x y, f x y = f y x) ->
  repr ta (d1 ++ d :: d2) xs -> repr tb (d1 ++ d :: d2) ys ->
  names_axis a (length d1) (length (d1 ++ d :: d2)) ->
  (let* r := binop_tt c ta tb (ok2 f) in
   let* '(_, s) := reduce_axis c r (Some a) (lift2 (ok2 f)) tt in Ok s)
  = (let* p := (let* '(_, s) := reduce_axis c ta (Some a) (lift2 (ok2 f)) tt in Ok s) in
     let* q := (let* '(_, s) := reduce_axis c tb (Some a) (lift2 (ok2 f)) tt in Ok s) in
     binop_tt c p q (ok2 f)).
Proof.
  intros fA fC Ha Hb Hax. destruct (pos_or_zero (d1 ++ d :: d2)) as [P|Z].
  2:{ rewrite (reduce_at_panic c ta a d1 d d2 xs) by auto. cbn [bind].
      rewrite (binop_tt_panic c ta tb _ _ _ _ _ Ha Hb); auto. right; left.
      pose proof (repr_len _ _ _ Ha) as L. rewrite (prod_zero _ Z) in L. now destruct xs. }
  assert (PP : forall l, Forall (fun d => 0 < d) l -> prod l <> 0).
  { clear. induction 1; cbn; [lia|nia]. }
  pose proof (PP _ P) as Pd.
  assert (Nx : xs <> []) by (pose proof (repr_len _ _ _ Ha); destruct xs; cbn in *; congruence).
  assert (Ny : ys <> []) by (pose proof (repr_len _ _ _ Hb); destruct ys; cbn in *; congruence).
  destruct (reduce_at f c ta a d1 d d2 xs Ha Hax P) as (us & Eu & Ru & Nu).
  destruct (reduce_at f c tb a d1 d d2 ys Hb Hax P) as (vs & Ev & Rv & Nv).
  rewrite (Eu _ eq_refl), (Ev _ eq_refl). cbn [bind].
  destruct xs as [|x0 xs'] eqn:Ex; [congruence|]. destruct ys as [|y0 ys'] eqn:Ey; [congruence|].
  rewrite <- Ex, <- Ey in *.
  rewrite (binop_tt_join c ta tb _ _ _ xs ys f x0 y0 Ha Hb) by (auto using join_self). cbn [bind].
  pose proof (bz_repr f x0 y0 xs ys _ (repr_supported _ _ _ Ha)) as R.
  destruct (reduce_at f c _ a d1 d d2 _ R Hax P) as (ws & Ew & Rw & Nw).
  rewrite (Ew _ eq_refl).
  assert (Pk : prod (d1 ++ d2) <> 0).
  { apply PP. apply Forall_app in P. destruct P as [P1 P2]. inversion P2; subst. now apply Forall_app. }
  assert (Nu' : us <> []) by (pose proof (repr_len _ _ _ Ru); destruct us; cbn in *; congruence).
  assert (Nv' : vs <> []) by (pose proof (repr_len _ _ _ Rv); destruct vs; cbn in *; congruence).
  destruct us as [|u0 us'] eqn:Eus; [congruence|]. destruct vs as [|v0 vs'] eqn:Evs; [congruence|].
  rewrite <- Eus, <- Evs in *.
  rewrite (binop_tt_join c _ _ _ _ _ us vs f u0 v0 Ru Rv) by (auto using join_self).
  do 2 f_equal.
  assert (EL : forall ds (as_ bs : list T) a0 b0 idx, length as_ = prod ds -> length bs = prod ds -> in_shape ds idx ->
     elem ds (bz f a0 b0 as_ bs (prod ds)) idx = oadd f (elem ds as_ idx) (elem ds bs idx)).
  { clear. intros ds as_ bs a0 b0 idx La Lb Hi. pose proof (ravel_lt _ _ Hi) as Hr. unfold elem, bz.
    rewrite nth_error_map_seq by auto. cbn [Nat.add]. unfold at_. rewrite La, Lb, Nat.mod_small by auto.
    rewrite (nth_error_nth' as_ a0), (nth_error_nth' bs b0) by lia. reflexivity. }
  apply (elem_ext (d1 ++ d2)); [apply Rw|apply bz_length|]. intros idx Hi.
  rewrite EL by (auto; first [apply Ru|apply Rv]).
  apply in_shape_app_inv in Hi. destruct Hi as [I1 I2]. rewrite <- (firstn_skipn (length d1) idx).
  rewrite Nw, Nu, Nv by auto. rewrite <- (bsum_add f fA fC). apply bsum_ext. intros k Hk.
  apply EL; [apply Ha|apply Hb|]. apply in_shape_app; auto. now apply in_shape_cons.
Qed.

Lemma c72_reduce_order {T} c (t : tensor T) a b a' b' d1 m d2 n d3 xs (f : T -> T -> T) :
  (forall x y z, f (f x y) z = f x (f y z)) -> (forall x y, f x y = f y x) ->
  repr t (d1 ++ m :: d2 ++ n :: d3) xs ->
  names_axis a (length d1) (length (d1 ++ m :: d2 ++ n :: d3)) ->
  names_axis b (length (d1 ++ m :: d2)) (length (d1 ++ m :: d2 ++ n :: d3)) ->
  names_axis a' (length d1) (length (d1 ++ m :: d2 ++ d3)) ->
  names_axis b' (length (d1 ++ d2)) (length (d1 ++ d2 ++ n :: d3)) ->
  (let* r := (let* '(_, s) := reduce_axis c t (Some a) (lift2 (ok2 f)) tt in Ok s) in
   let* '(_, s) := reduce_axis c r (Some b') (lift2 (ok2 f)) tt in Ok s)
  = (let* r := (let* '(_, s) := reduce_axis c t (Some b) (lift2 (ok2 f)) tt in Ok s) in
     let* '(_, s) := reduce_axis c r (Some a') (lift2 (ok2 f)) tt in Ok s).
Proof.
  intros fA fC H Ha Hb Ha' Hb'.
  assert (D2 : (d1 ++ m :: d2 ++ n :: d3) = (d1 ++ m :: d2) ++ n :: d3) by (now rewrite <- app_assoc).
  assert (H' : repr t ((d1 ++ m :: d2) ++ n :: d3) xs) by now rewrite <- D2.
  assert (Hb2 : names_axis b (length (d1 ++ m :: d2)) (length ((d1 ++ m :: d2) ++ n :: d3))) by now rewrite <- D2.
  assert (Hb3 : names_axis b' (length (d1 ++ d2)) (length ((d1 ++ d2) ++ n :: d3))) by now rewrite <- app_assoc.
  destruct (pos_or_zero (d1 ++ m :: d2 ++ n :: d3)) as [P|Z].
  2:{ rewrite (reduce_at_panic c t a d1 m (d2 ++ n :: d3) xs) by auto. cbn [bind].
      rewrite (reduce_at_panic c t b (d1 ++ m :: d2) n d3 xs) by (auto; now rewrite <- D2). auto. }
  assert (P' : Forall (fun d => 0 < d) ((d1 ++ m :: d2) ++ n :: d3)) by now rewrite <- D2.
  destruct (reduce_at f c t a d1 m (d2 ++ n :: d3) xs H Ha P) as (us & Eu & Ru & Nu).
  destruct (reduce_at f c t b (d1 ++ m :: d2) n d3 xs H' Hb2 P') as (vs & Ev & Rv & Nv).
  rewrite (Eu _ eq_refl), (Ev _ eq_refl). cbn [bind].
  rewrite app_assoc in Ru. rewrite <- app_assoc in Rv. cbn [app] in Rv.
  apply Forall_app in P. destruct P as [P1 P2]. inversion P2 as [|? ? Pm P3]; subst.
  apply Forall_app in P3. destruct P3 as [P3 P4]. inversion P4 as [|? ? Pn P5]; subst.
  destruct (reduce_at f c (fresh (d1 ++ d2 ++ n :: d3) us) b' (d1 ++ d2) n d3 us) as (us2 & Eu2 & Ru2 & Nu2).
  { rewrite app_assoc. exact Ru. } { exact Hb3. }
  { repeat (apply Forall_app; split); auto. }
  destruct (reduce_at f c (fresh (d1 ++ m :: d2 ++ d3) vs) a' d1 m (d2 ++ d3) vs) as (vs2 & Ev2 & Rv2 & Nv2).
  { exact Rv. } { exact Ha'. }
  { apply Forall_app; split; auto. constructor; auto. apply Forall_app; auto. }
  rewrite (Eu2 _ eq_refl). replace (fresh ((d1 ++ m :: d2) ++ d3) vs) with (fresh (d1 ++ m :: d2 ++ d3) vs)
    by (now rewrite <- app_assoc). rewrite (Ev2 _ eq_refl).
  rewrite <- app_assoc. do 2 f_equal.
  apply (elem_ext (d1 ++ d2 ++ d3)).
  { rewrite app_assoc. apply Ru2. } { apply Rv2. }
  intros idx Hi. apply in_shape_app_inv in Hi. destruct Hi as [I1 I2].
  rewrite <- (firstn_skipn (length d1) idx). set (i1 := firstn (length d1) idx) in *.
  set (i' := skipn (length d1) idx) in *. rewrite (Nv2 i1 i') by auto.
  apply in_shape_app_inv in I2. destruct I2 as [I2 I3]. rewrite <- (firstn_skipn (length d2) i').
  set (i2 := firstn (length d2) i') in *. set (i3 := skipn (length d2) i') in *.
  rewrite !app_assoc. rewrite Nu2 by (auto; now apply in_shape_app).
  rewrite (bsum_ext f n _ (fun j => bsum f m (fun k => elem (d1 ++ m :: d2 ++ n :: d3) xs (i1 ++ k :: i2 ++ j :: i3)))).
  - rewrite (bsum_swap f fA fC). apply bsum_ext. intros k Hk.
    replace (d1 ++ m :: d2 ++ d3) with ((d1 ++ m :: d2) ++ d3) by now rewrite <- app_assoc.
    replace (i1 ++ k :: i2 ++ i3) with ((i1 ++ k :: i2) ++ i3) by now rewrite <- app_assoc.
    rewrite Nv; auto.
    + apply bsum_ext. intros j Hj. rewrite D2. f_equal. now rewrite <- app_assoc.
    + apply in_shape_app; auto. now apply in_shape_cons.
  - intros j Hj. rewrite <- !app_assoc. rewrite Nu; auto.
    apply in_shape_app; auto. now apply in_shape_cons.
Qed.

Lemma reduce_all {T} (f : T -> T -> T) c (t : tensor T) ds xs :
  repr t ds xs -> xs <> [] ->
  exists r, (let* '(_, s) := reduce c t (lift2 (ok2 f)) tt in Ok s) = Ok (fresh [] [r]) /\
    Some r = bsum f (prod ds) (nth_error xs).
Proof.
  intros H Nx. destruct xs as [|x xs]; [congruence|]. exists (fold_left f xs x). split.
  - rewrite (c29_reduce c t ds x xs _ _ H). now rewrite (foldM_pure f).
  - rewrite <- (repr_len _ _ _ H). apply fold_bsum.
Qed.

Lemma c72_reduce_total {T} c (t : tensor T) a d1 d d2 xs (f : T -> T -> T) :
  (forall x y z, f (f x y) z = f x (f y z)) -> (forall x y, f x y = f y x) ->
  repr t (d1 ++ d :: d2) xs -> names_axis a (length d1) (length (d1 ++ d :: d2)) ->
  (let* r := (let* '(_, s) := reduce_axis c t (Some a) (lift2 (ok2 f)) tt in Ok s) in
   let* '(_, s) := reduce c r (lift2 (ok2 f)) tt in Ok s)
  = (let* '(_, s) := reduce c t (lift2 (ok2 f)) tt in Ok s).
Proof.
  intros fA fC H Ha. destruct (pos_or_zero (d1 ++ d :: d2)) as [P|Z].
  2:{ rewrite (reduce_at_panic c t a d1 d d2 xs) by auto. cbn [bind].
      assert (xs = []) as -> by (pose proof (repr_len _ _ _ H) as L; rewrite (prod_zero _ Z) in L; now destruct xs).
      now rewrite (c29_reduce_empty _ _ _ _ _ H). }
  assert (PP : forall l, Forall (fun d => 0 < d) l -> prod l <> 0).
  { clear. induction 1; cbn; [lia|nia]. }
  assert (Nx : xs <> []) by (pose proof (repr_len _ _ _ H); pose proof (PP _ P); destruct xs; cbn in *; congruence).
  destruct (reduce_at f c t a d1 d d2 xs H Ha P) as (us & Eu & Ru & Nu). rewrite (Eu _ eq_refl). cbn [bind].
  assert (Pk : prod (d1 ++ d2) <> 0).
  { apply PP. apply Forall_app in P. destruct P as [P1 P2]. inversion P2; subst. now apply Forall_app. }
  assert (Nu' : us <> []) by (pose proof (repr_len _ _ _ Ru); destruct us; cbn in *; congruence).
  destruct (reduce_all f c _ _ _ Ru Nu') as (r & -> & Hr). destruct (reduce_all f c _ _ _ H Nx) as (s & -> & Hs).
  assert (X : Some r = Some s); [|congruence]. rewrite Hr, Hs. rewrite !prod_app. cbn [prod].
  rewrite !(bsum_mul f fA). apply bsum_ext. intros i Hi. rewrite (bsum_mul f fA), (bsum_swap f fA fC).
  apply bsum_ext. intros k Hk.
  destruct (unravel d1 i Hi) as (i1 & I1 & <-). destruct (unravel d2 k Hk) as (i2 & I2 & <-).
  specialize (Nu i1 i2 I1 I2). unfold elem in Nu. rewrite ravel_app in Nu by now apply in_shape_length in I1.
  rewrite Nu. apply bsum_ext. intros j Hj. rewrite ravel_app by now apply in_shape_length in I1.
  now rewrite ravel_cons.
Qed.

Lemma c72_reduce {T} c (ta tb : tensor T) ds xs ys (f : T -> T -> T) :
  (forall x y z, f (f x y) z = f x (f y z)) -> (forall x y, f x y = f y x) ->
  repr ta ds xs -> repr tb ds ys ->
  (let* r := binop_tt c ta tb (ok2 f) in let* '(_, s) := reduce c r (lift2 (ok2 f)) tt in Ok s)
  = (let* p := (let* '(_, s) := reduce c ta (lift2 (ok2 f)) tt in Ok s) in
     let* q := (let* '(_, s) := reduce c tb (lift2 (ok2 f)) tt in Ok s) in
     binop_tt c p q (ok2 f)).
Proof.
  intros fA fC Ha Hb. destruct (list_nil_dec xs) as [->|Nx].
  { rewrite (binop_tt_panic c ta tb _ _ _ _ _ Ha Hb) by auto. now rewrite (c29_reduce_empty _ _ _ _ _ Ha). }
  pose proof (repr_nonempty _ _ _ Ha Nx) as Pd.
  assert (Ny : ys <> []) by (pose proof (repr_len _ _ _ Hb); destruct ys; cbn in *; congruence).
  destruct (reduce_all f c _ _ _ Ha Nx) as (r & -> & Hr). destruct (reduce_all f c _ _ _ Hb Ny) as (s & -> & Hs).
  destruct xs as [|x0 xs'] eqn:Ex; [congruence|]. destruct ys as [|y0 ys'] eqn:Ey; [congruence|].
  rewrite <- Ex, <- Ey in *.
  rewrite (binop_tt_join c ta tb _ _ _ xs ys f x0 y0 Ha Hb) by (auto using join_self). cbn [bind].
  pose proof (bz_repr f x0 y0 xs ys _ (repr_supported _ _ _ Ha)) as R.
  destruct (reduce_all f c _ _ _ R (bz_nonempty _ _ _ _ _ _ Pd)) as (w & -> & Hw).
  assert (RS : forall v : T, repr (fresh [] [v]) [] [v]) by (intros; apply repr_fresh; [apply supported_nil|reflexivity]).
  rewrite (binop_tt_join c _ _ [] [] [] [r] [s] f r s (RS r) (RS s)) by (auto using join_self; discriminate).
  change (bz f r s [r] [s] (prod [])) with [f r s].
  assert (X : Some w = Some (f r s)); [|congruence].
  rewrite Hw. change (Some (f r s)) with (oadd f (Some r) (Some s)). rewrite Hr, Hs, <- (bsum_add f fA fC).
  apply bsum_ext. intros k Hk. unfold bz. rewrite nth_error_map_seq by auto. cbn [Nat.add]. unfold at_.
  pose proof (repr_len _ _ _ Ha) as La. pose proof (repr_len _ _ _ Hb) as Lb.
  rewrite La, Lb, Nat.mod_small by auto.
  rewrite (nth_error_nth' xs x0), (nth_error_nth' ys y0) by lia. reflexivity.
Qed.

Lemma c72_same {F} (o : fops F) c (t : tensor F) axis (f : F -> F -> F) :
  reduce_product c (ok2 f) t = reduce_sum c (ok2 f) t /\
  reduce_product_axis c (ok2 f) t axis = reduce_sum_axis c (ok2 f) t axis /\
  reduce_min o c t = reduce_sum c (ok2 (fmin o)) t /\
  reduce_min_axis o c t axis = reduce_sum_axis c (ok2 (fmin o)) t axis /\
  reduce_max o c t = reduce_sum c (ok2 (fmax o)) t /\
  reduce_max_axis o c t axis = reduce_sum_axis c (ok2 (fmax o)) t axis.
Proof. repeat split. Qed.
