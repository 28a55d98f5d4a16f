(** * Option builders (C63): proofs *)
From Coq Require Import String Ascii.
From Verif Require Import Base OptModel.
From Verif Require Import OptSpec.

(** A name joined from several path segments contains a colon. *)
Lemma colon_option a x : (a ++ String ":"%char x)%string <> "Option"%string.
Proof. do 6 (destruct a as [|? a]; cbn; [discriminate|]; intros H; injection H as _ H; revert H). destruct a; cbn; discriminate. Qed.

Lemma colon_usize a x : (a ++ String ":"%char x)%string <> "usize"%string.
Proof. do 5 (destruct a as [|? a]; cbn; [discriminate|]; intros H; injection H as _ H; revert H). destruct a; cbn; discriminate. Qed.

Section Opt.

(** [into t v] is the argument [v] converted to type [t]. *)
  Context (into : ty -> val -> val).

Lemma stored_eq t v : stored into t v = match option_type t with
    | Some t' => if is_into_type t' then VSome (into t' v) else VSome v
    | None => v
    end.
Proof.
    destruct t as [[|o [|o2 segs]] args|]; try reflexivity.
    - cbn [stored option_type]. change (path_to_string [o]) with o. destruct args as [|t' args]; [now destruct (String.eqb o "Option")|].
      destruct (String.eqb o "Option"); [|reflexivity].
      destruct t' as [[|u [|u2 segs]] args'|]; try reflexivity; cbn [is_into_type].
      + change (path_to_string [u]) with u. now destruct (String.eqb u "usize").
      + destruct (String.eqb_spec (path_to_string (u :: u2 :: segs)) "usize") as [E|]; [|reflexivity].
        exfalso. exact (colon_usize u _ E).
    - cbn [stored option_type]. destruct (String.eqb_spec (path_to_string (o :: o2 :: segs)) "Option") as [E|]; [|reflexivity].
      exfalso. exact (colon_option o _ E).
  Qed.

Lemma field_update s n m v : field (update s n v) m =
    if String.eqb n m then match field s m with Some _ => Some v | None => None end else field s m.
Proof.
    induction s as [|[k w] s IH]; [now destruct (String.eqb n m)|]. cbn [update map field]. fold (update s n v).
    destruct (String.eqb_spec k n) as [->|N]; cbn [field].
    - destruct (String.eqb_spec n m) as [->|M]; [reflexivity|]. exact IH.
    - destruct (String.eqb_spec k m) as [->|M].
      + destruct (String.eqb_spec n m) as [->|_]; [now destruct N|reflexivity].
      + exact IH.
  Qed.

Lemma names_update s n v : map fst (update s n v) = map fst s.
Proof. unfold update. rewrite map_map. apply map_ext. intros [m w]. now destruct (String.eqb m n). Qed.

Lemma arg_method_ok fs s n t v : NoDup (map fst fs) -> In (n, t) fs -> arg_method into fs s n v = Some (update s n (stored into t v)).
Proof.
    induction fs as [|[m u] fs IH]; intros Hd Hin; [easy|]. cbn [arg_method]. cbn [map] in Hd. inversion Hd as [|? ? Hn Hd']; subst.
    destruct (String.eqb_spec m n) as [->|N].
    - assert (u = t) as ->. { destruct Hin as [E|Hin]; [now injection E|]. exfalso. apply Hn. apply (in_map fst) in Hin. exact Hin. }
      rewrite stored_eq. destruct (option_type t) as [t'|]; [|reflexivity]. now destruct (is_into_type t').
    - apply IH; auto. destruct Hin as [E|Hin]; [|auto]. injection E as -> _. now destruct N.
  Qed.

Lemma struct_ext : forall (a b : struct), map fst a = map fst b -> NoDup (map fst a) ->
    (forall n, field a n = field b n) -> a = b.
Proof.
    induction a as [|[m v] a IH]; intros [|[m' v'] b] E Hd Hf; try discriminate; [reflexivity|].
    cbn [map fst] in E. injection E as -> E. inversion Hd as [|? ? Hn Hd']; subst.
    pose proof (Hf m') as H0. cbn in H0. rewrite String.eqb_refl in H0. injection H0 as ->. f_equal.
    apply IH; auto. intros n. specialize (Hf n). cbn [field] in Hf. destruct (String.eqb_spec m' n) as [->|]; [|exact Hf].
    assert (G : forall s : struct, ~ In n (map fst s) -> field s n = None).
    { induction s as [|[k w] s IHs]; intros Hns; [reflexivity|]. cbn in *. destruct (String.eqb_spec k n) as [->|]; [exfalso; apply Hns; now left|].
      apply IHs. intros C; apply Hns; now right. }
    rewrite !G; auto. rewrite <- E. exact Hn.
  Qed.

Lemma field_some (s : struct) n : In n (map fst s) -> exists v, field s n = Some v.
Proof.
    induction s as [|[m v] s IH]; [easy|]. intros [E|Hin]; cbn in *; subst.
    - exists v. now rewrite String.eqb_refl.
    - destruct (String.eqb m n); eauto.
  Qed.

Lemma chain_arg fs d l : NoDup (map fst fs) -> (forall n v, In (n, v) l -> In n (map fst fs)) ->
    forall s, map fst s = map fst fs ->
    exists s', chain into fs d (RArg s) l = Some (RArg s') /\ map fst s' = map fst fs /\
      forall n t, In (n, t) fs -> field s' n = match last_set n l with Some v => Some (stored into t v) | None => field s n end.
Proof.
    intros Hd. induction l as [|[m v] l IH]; intros Hl s Hs.
    - exists s. auto.
    - cbn [chain]. unfold call. assert (Hm : In m (map fst fs)) by (apply (Hl m v); now left).
      apply in_map_iff in Hm. destruct Hm as ([m' t] & E & Hin). cbn in E. subst m'.
      rewrite (arg_method_ok fs s m t v Hd Hin).
      destruct (IH (fun n w Hw => Hl n w (or_intror Hw)) (update s m (stored into t v))) as (s' & E & Hn & Hf); [now rewrite names_update|].
      exists s'. split; [exact E|]. split; [exact Hn|]. intros n u Hu. rewrite (Hf n u Hu). cbn [last_set].
      destruct (last_set n l); [reflexivity|]. rewrite field_update.
      destruct (String.eqb_spec m n) as [->|]; [|reflexivity].
      assert (u = t) as ->.
      { clear - Hd Hu Hin. induction fs as [|[k w] fs IHf]; [easy|]. cbn in Hd. inversion Hd as [|? ? Hk Hd']; subst.
        destruct Hu as [E1|H1], Hin as [E2|H2].
        - congruence.
        - injection E1 as -> ->. exfalso. apply Hk. apply (in_map fst) in H2. exact H2.
        - injection E2 as -> ->. exfalso. apply Hk. apply (in_map fst) in H1. exact H1.
        - auto. }
      destruct (field_some s n) as [w ->]; [|reflexivity]. rewrite Hs. apply (in_map fst) in Hu. exact Hu.
  Qed.

Lemma c63_chain fs default l : wf fs default -> (forall n v, In (n, v) l -> In n (map fst fs)) ->
    exists r, chain into fs default RUnit l = Some r /\ result into fs default l (into_arg default r) /\
      (l <> [] -> chain into fs default (RArg default) l = Some r).
Proof.
    intros [Hd Hs] Hl. destruct (chain_arg fs default l Hd Hl default Hs) as (s' & E & Hn & Hf).
    destruct l as [|[n v] l].
    - exists RUnit. split; [reflexivity|]. split; [|easy]. split; [exact Hs|]. reflexivity.
    - exists (RArg s'). split; [exact E|]. split; [split; assumption|]. intros _. exact E.
  Qed.

Lemma c63_determined fs default l1 l2 r1 r2 : wf fs default ->
    (forall n v, In (n, v) (l1 ++ l2) -> In n (map fst fs)) ->
    chain into fs default RUnit l1 = Some r1 -> chain into fs default RUnit l2 = Some r2 ->
    (forall n, last_set n l1 = last_set n l2) ->
    into_arg default r1 = into_arg default r2.
Proof.
    intros W Hl E1 E2 Hs.
    destruct (c63_chain fs default l1 W) as (r1' & E1' & (N1 & F1) & _); [intros; apply (Hl n v); apply in_or_app; auto|].
    destruct (c63_chain fs default l2 W) as (r2' & E2' & (N2 & F2) & _); [intros; apply (Hl n v); apply in_or_app; auto|].
    assert (r1' = r1) by congruence. assert (r2' = r2) by congruence. subst r1' r2'. destruct W as [Wd Ws].
    apply struct_ext; [congruence|now rewrite N1|]. intros n.
    destruct (in_dec string_dec n (map fst fs)) as [Hin|Hout].
    - apply in_map_iff in Hin. destruct Hin as ([n' t] & E & Hin). cbn in E. subst n'. now rewrite (F1 n t Hin), (F2 n t Hin), Hs.
    - assert (G : forall s : struct, ~ In n (map fst s) -> field s n = None).
      { induction s as [|[k w] s IHs]; intros Hns; [reflexivity|]. cbn in *. destruct (String.eqb_spec k n) as [->|]; [exfalso; apply Hns; now left|].
        apply IHs. intros C; apply Hns; now right. }
      now rewrite !G by congruence.
  Qed.

Lemma c63_commute fs default l1 l2 n v m w : wf fs default -> n <> m ->
    (forall k u, In (k, u) (l1 ++ (n, v) :: (m, w) :: l2) -> In k (map fst fs)) ->
    option_map (into_arg default) (chain into fs default RUnit (l1 ++ (n, v) :: (m, w) :: l2)) =
    option_map (into_arg default) (chain into fs default RUnit (l1 ++ (m, w) :: (n, v) :: l2)).
Proof.
    intros W Hnm Hl.
    assert (Hl2 : forall k u, In (k, u) (l1 ++ (m, w) :: (n, v) :: l2) -> In k (map fst fs)).
    { intros k u Hk. apply (Hl k u). rewrite in_app_iff in *. cbn in *. intuition. }
    destruct (c63_chain fs default _ W Hl) as (r1 & E1 & _). destruct (c63_chain fs default _ W Hl2) as (r2 & E2 & _).
    rewrite E1, E2. cbn. f_equal.
    eapply c63_determined with (l1 := l1 ++ (n, v) :: (m, w) :: l2) (l2 := l1 ++ (m, w) :: (n, v) :: l2); eauto.
    - intros k u Hk. apply in_app_or in Hk. destruct Hk; eauto.
    - intros k. clear - Hnm. induction l1 as [|[p q] l1 IH]; cbn [app last_set].
      + destruct (last_set k l2); [reflexivity|]. destruct (String.eqb_spec m k) as [->|];
        destruct (String.eqb_spec n k) as [->|]; try reflexivity. now destruct Hnm.
      + now rewrite IH.
  Qed.

Lemma c63_unknown fs default r n v : ~ In n (map fst fs) -> call into fs default r n v = None.
Proof.
    intros Hn. unfold call, nil_method.
    assert (G : forall s, arg_method into fs s n v = None).
    { intros s. induction fs as [|[m t] fs' IH]; [reflexivity|]. cbn in *. destruct (String.eqb_spec m n) as [->|]; [exfalso; apply Hn; now left|].
      apply IH. intros C; apply Hn; now right. }
    destruct r; now rewrite G.
  Qed.

End Opt.
