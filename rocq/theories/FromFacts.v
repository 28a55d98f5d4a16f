(** * Facts about the remaining conversions into tensors *)
From Coq Require Import ZifyBool ZifyNat.
From Verif Require Import Base ShapeModel TensorModel FromModel Spec BaseFacts ShapeFacts
  ShapeFacts2 CoordFacts TensorFacts TensorFacts2 InitFacts TensorSpec TensorProofs.

(** Rectangular nestings of depth 5 and the item at a position. *)
Definition rect5 {A} (h k l m n : nat) (v : list (list (list (list (list A))))) : Prop :=
  length v = h /\ Forall (rect4 k l m n) v.
Definition at5 {A} (v : list (list (list (list (list A))))) (g h i j k : nat) : option A :=
  match nth_error v g with Some r => at4 r h i j k | None => None end.

Lemma rect5_blocks {A} h k l m n (v : list (list (list (list (list A))))) :
  rect5 h k l m n v -> rect4 (h * k) l m n (concat v).
Proof.
  intros [<- H]. split.
  - rewrite (concat_length_const k); auto. eapply Forall_impl; [|exact H]. now intros a [].
  - induction H as [|p v [_ Hp] _ IH]; cbn; auto. now apply Forall_app.
Qed.

Lemma rect4_length {A} k l m n (v : list (list (list (list A)))) :
  rect4 k l m n v -> length (concat (concat (concat v))) = prod [k; l; m; n].
Proof.
  intros H. rewrite (rect2_concat (k * l * m) n).
  - cbn; lia.
  - apply rect3_rows. now apply rect4_planes.
Qed.

Lemma rect5_length {A} h k l m n (v : list (list (list (list (list A))))) :
  rect5 h k l m n v -> length (concat (concat (concat (concat v)))) = prod [h; k; l; m; n].
Proof.
  intros H. rewrite (rect4_length (h * k) l m n) by now apply rect5_blocks. cbn; lia.
Qed.

Lemma rect5_at {A} h0 k0 l m n (v : list (list (list (list (list A))))) g h i j k :
  rect5 h0 k0 l m n v -> h < k0 -> i < l -> j < m -> k < n ->
  nth_error (concat (concat (concat (concat v)))) ((((g * k0 + h) * l + i) * m + j) * n + k)
  = at5 v g h i j k.
Proof.
  intros H Hh Hi Hj Hk. rewrite (rect4_at (h0 * k0) l m n); auto using rect5_blocks.
  unfold at4, at5. destruct H as [_ H].
  rewrite (nth_error_concat_blocks _ k0); auto.
  - unfold at4. now destruct (nth_error v g).
  - intros p Hp. rewrite Forall_forall in H. apply H in Hp. apply Hp.
Qed.

Lemma forallb_rect4 {A} k l m n (v : list (list (list (list (list A))))) :
  forallb (fun s => (k =? length s) && forallb (fun q => (l =? length q) &&
     forallb (fun p => (m =? length p) && forallb (fun r => n =? length r) p) q) s) v = true
  <-> Forall (rect4 k l m n) v.
Proof.
  rewrite forallb_forall, Forall_forall. split; intros H x Hx; apply H in Hx.
  - apply andb_true_iff in Hx. rewrite forallb_rect3 in Hx. unfold rect4. intuition lia.
  - apply andb_true_iff. rewrite forallb_rect3. unfold rect4 in Hx. intuition lia.
Qed.

Lemma collect_rows5 {A} k l m n (v : list (list (list (list (list A))))) d :
  for_each v (fun v1 data =>
    assert! (k =? length v1) in
    for_each v1 (fun v2 data =>
      assert! (l =? length v2) in
      for_each v2 (fun v3 data =>
        assert! (m =? length v3) in
        for_each v3 (fun v4 data => assert! (n =? length v4) in Ok (data ++ v4)) data) data) data) d
  = if forallb (fun s => (k =? length s) && forallb (fun q => (l =? length q) &&
         forallb (fun p => (m =? length p) && forallb (fun r => n =? length r) p) q) s) v
    then Ok (d ++ concat (concat (concat (concat v)))) else Panic.
Proof.
  revert d; induction v as [|p v IH]; intros d; cbn [for_each forallb concat].
  - now rewrite app_nil_r.
  - unfold assert_ at 1. destruct (k =? length p); cbn [bind andb]; auto.
    rewrite collect_rows4. destruct (forallb _ p); cbn [bind andb]; auto.
    rewrite IH, !concat_app. now rewrite app_assoc.
Qed.

Lemma collect_planes {A} m (v : list (list (list A))) d :
  for_each v (fun v1 data => assert! (m =? length v1) in Ok (data ++ concat v1)) d
  = if forallb (fun p => m =? length p) v then Ok (d ++ concat (concat v)) else Panic.
Proof.
  revert d; induction v as [|p v IH]; intros d; cbn [for_each forallb concat].
  - now rewrite app_nil_r.
  - unfold assert_ at 1. destruct (m =? length p); cbn [bind andb]; auto.
    rewrite IH, concat_app. now rewrite app_assoc.
Qed.

Lemma of_vec5_fresh {A} c (v : list (list (list (list (list A))))) h k l m n :
  rect5 h k l m n v -> 0 < h -> 0 < k -> 0 < l -> 0 < m -> supported [h; k; l; m; n] ->
  of_vec5 c v = Ok (fresh [h; k; l; m; n] (concat (concat (concat (concat v))))).
Proof.
  intros H Hh Hk Hl Hm Hs. pose proof (rect5_length _ _ _ _ _ _ H) as Hn.
  unfold of_vec5. destruct v as [|s v]; [destruct H; cbn in *; lia|].
  cbn [aget nth_error bind]. destruct H as [H1 H2].
  assert (Hs' : rect4 k l m n s) by now inversion H2.
  destruct s as [|q s]; [destruct Hs'; cbn in *; lia|].
  cbn [aget nth_error bind]. destruct Hs' as [Hs1 Hs2].
  assert (Hq : rect3 l m n q) by now inversion Hs2.
  destruct q as [|p q]; [destruct Hq; cbn in *; lia|].
  cbn [aget nth_error bind]. destruct Hq as [Hq1 Hq2].
  assert (Hp : rect2 m n p) by now inversion Hq2.
  destruct p as [|r p]; [destruct Hp; cbn in *; lia|].
  cbn [aget nth_error bind]. destruct Hp as [Hp1 Hp2].
  assert (length r = n) as -> by (now inversion Hp2). rewrite Hp1, Hq1, Hs1.
  rewrite collect_rows5, (proj2 (forallb_rect4 k l m n _)) by auto.
  cbn [bind app]. rewrite H1, from_slice_dims_supported by auto. cbn [bind].
  now apply tensor_new_ok.
Qed.

Lemma of_vec5_elem {A} c (v : list (list (list (list (list A))))) h k l m n :
  rect5 h k l m n v -> 0 < h -> 0 < k -> 0 < l -> 0 < m -> supported [h; k; l; m; n] ->
  exists t xs, of_vec5 c v = Ok t /\ repr t [h; k; l; m; n] xs /\
    forall a b d e f, a < h -> b < k -> d < l -> e < m -> f < n ->
      elem [h; k; l; m; n] xs [a; b; d; e; f] = at5 v a b d e f.
Proof.
  intros H Hh Hk Hl Hm Hs. eexists _, _. split; [apply of_vec5_fresh; eassumption|].
  split; [apply repr_fresh; auto; eapply rect5_length; eassumption|].
  intros a b d e f Ha Hb Hd He Hf. unfold elem. cbn [ravel prod].
  rewrite <- (rect5_at h k l m n) by auto. f_equal. lia.
Qed.

Lemma of_vec5_panics {A} c (v : list (list (list (list (list A))))) :
  v = [] \/ hd [] v = [] \/ hd [] (hd [] v) = [] \/ hd [] (hd [] (hd [] v)) = [] \/
  ~ rect5 (length v) (length (hd [] v)) (length (hd [] (hd [] v)))
      (length (hd [] (hd [] (hd [] v)))) (length (hd [] (hd [] (hd [] (hd [] v))))) v ->
  of_vec5 c v = Panic.
Proof.
  intros H. unfold of_vec5. destruct v as [|s v]; [reflexivity|]. destruct s as [|q s]; [reflexivity|].
  destruct q as [|p q]; [reflexivity|]. destruct p as [|r p]; [reflexivity|].
  destruct H as [H|[H|[H|[H|H]]]]; try discriminate.
  cbn [aget nth_error bind hd] in *. rewrite collect_rows5.
  destruct (forallb _ ((((r :: p) :: q) :: s) :: v)) eqn:E; [|reflexivity].
  exfalso. apply H. split; auto. now apply forallb_rect4.
Qed.

Lemma of_vec_rows_elem {A} c (v : list (list (list A))) l m n :
  rect3 l m n v -> 0 < l -> supported [l; m; n] ->
  exists t xs, of_vec_rows c n v = Ok t /\ repr t [l; m; n] xs /\
    forall i j k, i < l -> j < m -> k < n -> elem [l; m; n] xs [i; j; k] = at3 v i j k.
Proof.
  intros H Hl Hs. exists (fresh [l; m; n] (concat (concat v))), (concat (concat v)).
  assert (Hn : length (concat (concat v)) = prod [l; m; n]).
  { rewrite (rect2_concat (l * m) n); auto using rect3_rows. cbn; lia. }
  split; [|split; [now apply repr_fresh|]].
  - unfold of_vec_rows. destruct v as [|p v]; [destruct H; cbn in *; lia|].
    cbn [aget nth_error bind]. destruct H as [H1 H2].
    assert (Hp : rect2 m n p) by now inversion H2.
    destruct Hp as [-> _].
    rewrite collect_planes.
    rewrite (proj2 (forallb_rect1 m (p :: v)))
      by (eapply Forall_impl; [|exact H2]; now intros ? []).
    cbn [bind app]. rewrite H1, from_slice_dims_supported by auto. cbn [bind].
    now apply tensor_new_ok.
  - intros i j k Hi Hj Hk. unfold elem. cbn [ravel prod].
    rewrite <- (rect3_at l m n) by auto. f_equal. lia.
Qed.

Lemma of_vec_rows_panics {A} c n (v : list (list (list A))) :
  v = [] \/ Exists (fun p => length p <> length (hd [] v)) v -> of_vec_rows c n v = Panic.
Proof.
  intros [->|H]; [reflexivity|]. unfold of_vec_rows. destruct v as [|p v]; [reflexivity|].
  cbn [aget nth_error bind hd] in *. rewrite collect_planes.
  destruct (forallb _ (p :: v)) eqn:E; [|reflexivity].
  exfalso. apply forallb_rect1 in E. apply Exists_exists in H as (q & Hq & Hne).
  rewrite Forall_forall in E. now apply Hne, E.
Qed.

Lemma of_rows3_repr {A} c (v : list (list (list (list A)))) k l m n :
  rect4 k l m n v -> supported [k; l; m; n] ->
  exists t xs, of_rows3 c l m n v = Ok t /\ repr t [k; l; m; n] xs /\
    forall g h i j, g < k -> h < l -> i < m -> j < n ->
      elem [k; l; m; n] xs [g; h; i; j] = at4 v g h i j.
Proof.
  intros H Hs. pose proof (rect4_length _ _ _ _ _ H) as Hn. eexists _, _. split; [|split].
  - unfold of_rows3. rewrite (proj1 H), from_slice_dims_supported by auto. now apply tensor_new_ok.
  - now apply repr_fresh.
  - intros g h i j Hg Hh Hi Hj. unfold elem. cbn [ravel prod].
    rewrite <- (rect4_at k l m n) by auto. f_equal. lia.
Qed.

(** ** Argument lists *)

Lemma for_each_push {X A} (g : X -> outcome A) (l : list X) vec :
  for_each l (fun x vec => let* t := g x in Ok (vec ++ [t])) vec
  = let* r := map_out g l in Ok (vec ++ r).
Proof.
  revert vec; induction l as [|x l IH]; intros vec; cbn [for_each map_out bind].
  - now rewrite app_nil_r.
  - destruct (g x); cbn [bind]; auto. rewrite IH. destruct (map_out g l); cbn [bind]; auto.
    now rewrite <- app_assoc.
Qed.

(** What an argument list contributes does not depend on what is already there. *)
Lemma into_list_appends {A} c (x : tensor_list A) vec :
  into_list c x vec = let* r := into_list c x [] in Ok (vec ++ r).
Proof.
  destruct x as [ts|vs|xs]; cbn [into_list]; [reflexivity| |].
  - rewrite !(for_each_push (of_vec c)). now destruct (map_out _ vs).
  - rewrite !(for_each_push (fun x => x)). now destruct (map_out _ xs).
Qed.

Lemma into_list_vecs {A} c (vs : list (list A)) vec :
  Forall (fun v => supported [length v]) vs ->
  exists ts, into_list c (Vecs vs) vec = Ok (vec ++ ts) /\
    Forall2 (fun t v => repr t [length v] v) ts vs.
Proof.
  intros H. cbn [into_list]. rewrite (for_each_push (of_vec c)).
  exists (map (fun v => fresh [length v] v) vs). split.
  - assert (map_out (of_vec c) vs = Ok (map (fun v => fresh [length v] v) vs)) as ->; [|reflexivity].
    induction H as [|v vs Hv _ IH]; cbn [map_out map]; [reflexivity|].
    now rewrite of_vec_canon, IH by auto.
  - induction H as [|v vs Hv _ IH]; cbn [map]; constructor; auto.
    apply repr_fresh; auto. cbn; lia.
Qed.

Lemma into_list_tuple {A} c (xs : list (tensor A)) vec :
  into_list c (Tuple (map Ok xs)) vec = Ok (vec ++ xs).
Proof.
  cbn [into_list]. rewrite (for_each_push (fun x => x)).
  assert (map_out (fun x => x) (map Ok xs) = Ok xs) as ->; [|reflexivity].
  induction xs as [|x xs IH]; cbn [map map_out bind]; [reflexivity|]. now rewrite IH.
Qed.

Lemma into_list_tuple_panics {A} c (xs : list (tensor A)) ys vec :
  into_list c (Tuple (map Ok xs ++ Panic :: ys)) vec = Panic.
Proof.
  cbn [into_list]. rewrite for_each_app. pose proof (into_list_tuple c xs vec) as H.
  cbn [into_list] in H. rewrite H. reflexivity.
Qed.
