(** * Facts about linear congruential generators and the seeding loop *)
From Coq Require Import ZArith Znumtheory Zpow_facts Lia NArith.
From Verif Require Import Base.
Local Open Scope Z_scope.

Lemma odd_rel_prime q : rel_prime (2 * q + 1) 2.
Proof. apply bezout_rel_prime. apply Bezout_intro with 1 (- q). ring. Qed.

Section Lcg.
  Variables a c : Z.
  Hypothesis Ha : a mod 4 = 1.
  Hypothesis Hc : c mod 2 = 1.

  Definition lcg (x0 : Z) (n : N) : Z := N.iter n (fun x => x * a + c) x0.
  Definition geo (n : N) : Z := N.iter n (fun v => v * a + 1) 0.

  Lemma lcg_succ x0 n : lcg x0 (N.succ n) = lcg x0 n * a + c.
  Proof. unfold lcg. now rewrite N.iter_succ. Qed.
  Lemma geo_succ n : geo (N.succ n) = geo n * a + 1.
  Proof. unfold geo. now rewrite N.iter_succ. Qed.

  Lemma lcg_geo x0 n : lcg x0 n = x0 + geo n * (x0 * (a - 1) + c).
  Proof.
    induction n as [|n IH] using N.peano_ind; [cbn; ring|]. rewrite lcg_succ, geo_succ, IH. ring.
  Qed.

  Lemma lcg_add x0 m n : lcg x0 (m + n)%N = lcg (lcg x0 m) n.
  Proof. unfold lcg. rewrite N.add_comm. apply N.iter_add. Qed.

  Lemma geo_add m n : geo (m + n)%N = geo m * a ^ Z.of_N n + geo n.
  Proof.
    induction n as [|n IH] using N.peano_ind; [cbn [Z.of_N]; rewrite N.add_0_r; change (geo 0%N) with 0; ring|].
    rewrite N.add_succ_r, !geo_succ, IH, N2Z.inj_succ, Z.pow_succ_r by apply N2Z.is_nonneg. ring.
  Qed.

  Lemma geo_double n : geo (2 * n)%N = geo n * (a ^ Z.of_N n + 1).
  Proof. replace (2 * n)%N with (n + n)%N by lia. rewrite geo_add. ring. Qed.

  Lemma pow_mod4 n : 0 <= n -> a ^ n mod 4 = 1.
  Proof.
    intros Hn. rewrite <- (Z2Nat.id n) by auto. generalize (Z.to_nat n). clear n Hn. intros n.
    induction n as [|n IH]; [reflexivity|]. rewrite Nat2Z.inj_succ, Z.pow_succ_r by lia.
    rewrite Zmult_mod, IH, Ha. reflexivity.
  Qed.

  Lemma geo_parity n : geo n mod 2 = Z.of_N n mod 2.
  Proof.
    induction n as [|n IH] using N.peano_ind; [reflexivity|]. rewrite geo_succ, N2Z.inj_succ.
    unfold Z.succ. assert (Ho : exists q, a = 2 * q + 1) by (exists (2 * (a / 4)); pose proof (Z.div_mod a 4); lia).
    destruct Ho as [q Hq].
    replace (geo n * a + 1) with (geo n + 1 + (geo n * q) * 2) by (rewrite Hq; ring).
    rewrite Z_mod_plus_full. rewrite Zplus_mod, IH, <- Zplus_mod. reflexivity.
  Qed.

  Lemma geo_div k n : (2 ^ Z.of_nat k | geo n) <-> (2 ^ Z.of_nat k | Z.of_N n).
  Proof.
    revert n. induction k as [|k IH]; intros n.
    - cbn. split; intros _; apply Z.divide_1_l.
    - rewrite Nat2Z.inj_succ, Z.pow_succ_r by lia.
      assert (Hpar : (2 * 2 ^ Z.of_nat k | geo n) \/ (2 * 2 ^ Z.of_nat k | Z.of_N n) -> exists m, n = (2 * m)%N).
      { intros H. assert (E : Z.of_N n mod 2 = 0).
        { destruct H as [[q Hq]|[q Hq]].
          - rewrite <- geo_parity, Hq. replace (q * (2 * 2 ^ Z.of_nat k)) with ((q * 2 ^ Z.of_nat k) * 2) by ring.
            apply Z_mod_mult.
          - rewrite Hq. replace (q * (2 * 2 ^ Z.of_nat k)) with ((q * 2 ^ Z.of_nat k) * 2) by ring.
            apply Z_mod_mult. }
        exists (Z.to_N (Z.of_N n / 2)). pose proof (Z.div_mod (Z.of_N n) 2). lia. }
      assert (G : forall m, (2 * 2 ^ Z.of_nat k | geo (2 * m)%N) <-> (2 ^ Z.of_nat k | geo m)).
      { intros m. rewrite geo_double.
        assert (Ho : exists q, a ^ Z.of_N m + 1 = 2 * (2 * q + 1)).
        { exists (a ^ Z.of_N m / 4). pose proof (pow_mod4 (Z.of_N m) ltac:(lia)).
          pose proof (Z.div_mod (a ^ Z.of_N m) 4). lia. }
        destruct Ho as [q ->]. replace (geo m * (2 * (2 * q + 1))) with (2 * (geo m * (2 * q + 1))) by ring.
        rewrite Z.mul_divide_cancel_l by lia. split.
        - intros H. apply Z.gauss with (2 * q + 1); [now rewrite Z.mul_comm|].
          apply Zgcd_1_rel_prime, rel_prime_sym, rel_prime_Zpower_r; [lia|apply odd_rel_prime].
        - intros H. now apply Z.divide_mul_l. }
      split; intros H.
      + destruct (Hpar (or_introl H)) as [m ->]. apply G, IH in H. rewrite N2Z.inj_mul. now apply Z.mul_divide_mono_l.
      + destruct (Hpar (or_intror H)) as [m ->]. apply G, IH. rewrite N2Z.inj_mul in H.
        change (Z.of_N 2) with 2 in H. now apply Z.mul_divide_cancel_l in H.
  Qed.

  Lemma lcg_odd x : exists q, x * (a - 1) + c = 2 * q + 1.
  Proof.
    exists (x * (2 * (a / 4)) + c / 2). pose proof (Z.div_mod a 4). pose proof (Z.div_mod c 2). nia.
  Qed.

  (** Two states [n] steps apart agree modulo [2^k] exactly if [2^k] divides [n]. *)
  Lemma lcg_period k x n : (2 ^ Z.of_nat k | lcg x n - x) <-> (2 ^ Z.of_nat k | Z.of_N n).
  Proof.
    rewrite <- geo_div, lcg_geo. destruct (lcg_odd x) as [q ->].
    replace (x + geo n * (2 * q + 1) - x) with (geo n * (2 * q + 1)) by ring. split.
    - intros H. apply Z.gauss with (2 * q + 1); [now rewrite Z.mul_comm|].
      apply Zgcd_1_rel_prime, rel_prime_sym, rel_prime_Zpower_r; [lia|apply odd_rel_prime].
    - intros H. now apply Z.divide_mul_l.
  Qed.

  (** The step at which a value is reached. *)
  Fixpoint locate (k : nat) (x0 y : Z) : N :=
    match k with
    | O => 0%N
    | S k' =>
      let n := locate k' x0 y in
      if (lcg x0 n - y) mod 2 ^ Z.of_nat k =? 0 then n else (n + 2 ^ N.of_nat k')%N
    end.

  Lemma locate_spec k x0 y :
    (locate k x0 y < 2 ^ N.of_nat k)%N /\ (2 ^ Z.of_nat k | lcg x0 (locate k x0 y) - y).
  Proof.
    induction k as [|k [IH1 IH2]]; [cbn; split; [lia|apply Z.divide_1_l]|].
    cbn [locate]. set (n := locate k x0 y) in *.
    assert (P : (2 ^ N.of_nat (S k) = 2 ^ N.of_nat k + 2 ^ N.of_nat k)%N).
    { rewrite Nat2N.inj_succ, N.pow_succ_r'. lia. }
    assert (PZ : 2 ^ Z.of_nat (S k) = 2 * 2 ^ Z.of_nat k) by (rewrite Nat2Z.inj_succ, Z.pow_succ_r; lia).
    assert (Pp : 0 < 2 ^ Z.of_nat k) by (apply Z.pow_pos_nonneg; lia).
    destruct (Z.eqb_spec ((lcg x0 n - y) mod 2 ^ Z.of_nat (S k)) 0) as [E|E].
    - split; [lia|]. apply Z.mod_divide; [lia|exact E].
    - split; [lia|]. rewrite lcg_add. set (x := lcg x0 n) in *. set (p := (2 ^ N.of_nat k)%N).
      assert (Ep : Z.of_N p = 2 ^ Z.of_nat k).
      { unfold p. rewrite N2Z.inj_pow. now rewrite nat_N_Z. }
      assert (D1 : (2 ^ Z.of_nat k | lcg x p - x)) by (apply lcg_period; rewrite Ep; apply Z.divide_refl).
      assert (D2 : ~ (2 ^ Z.of_nat (S k) | lcg x p - x)).
      { rewrite lcg_period, Ep. intros D. apply Z.divide_pos_le in D; lia. }
      assert (D3 : ~ (2 ^ Z.of_nat (S k) | x - y)).
      { intros D. apply E. apply Z.mod_divide; [lia|exact D]. }
      destruct D1 as [u Hu]. destruct IH2 as [v Hv].
      assert (Ou : u mod 2 = 1).
      { pose proof (Z.mod_pos_bound u 2). pose proof (Z.div_mod u 2). destruct (Z.eq_dec (u mod 2) 0) as [E0|E0]; [|lia].
        exfalso. apply D2. exists (u / 2). nia. }
      assert (Ov : v mod 2 = 1).
      { pose proof (Z.mod_pos_bound v 2). pose proof (Z.div_mod v 2). destruct (Z.eq_dec (v mod 2) 0) as [E0|E0]; [|lia].
        exfalso. apply D3. exists (v / 2). nia. }
      exists (u / 2 + v / 2 + 1). pose proof (Z.div_mod u 2). pose proof (Z.div_mod v 2). nia.
  Qed.

  Lemma lcg_inj k x0 m n : (m < 2 ^ N.of_nat k)%N -> (n < 2 ^ N.of_nat k)%N ->
    (2 ^ Z.of_nat k | lcg x0 m - lcg x0 n) -> m = n.
  Proof.
    assert (G : forall m n, (m <= n)%N -> (n < 2 ^ N.of_nat k)%N -> (2 ^ Z.of_nat k | lcg x0 n - lcg x0 m) -> m = n).
    { clear m n. intros m n Hle Hn D. replace n with (m + (n - m))%N in D by lia. rewrite lcg_add, lcg_period in D.
      destruct (N.eq_dec m n) as [|Hne]; auto. apply Z.divide_pos_le in D; [|lia].
      assert (Z.of_N (2 ^ N.of_nat k) = 2 ^ Z.of_nat k) by (rewrite N2Z.inj_pow; now rewrite nat_N_Z). lia. }
    intros Hm Hn D. destruct (N.le_ge_cases m n).
    - apply G; auto. apply Z.divide_opp_r in D. now replace (- (lcg x0 m - lcg x0 n)) with (lcg x0 n - lcg x0 m) in D by ring.
    - symmetry. now apply G.
  Qed.

  (** The generator with wrapping arithmetic. *)
  Definition lcg_step (k : nat) (x : Z) : Z := ((x * a) mod 2 ^ Z.of_nat k + c) mod 2 ^ Z.of_nat k.

  Lemma lcg_iter k x0 n : 0 <= x0 < 2 ^ Z.of_nat k ->
    N.iter n (lcg_step k) x0 = lcg x0 n mod 2 ^ Z.of_nat k.
  Proof.
    intros H. induction n as [|n IH] using N.peano_ind; [cbn; now rewrite Z.mod_small|].
    rewrite N.iter_succ, IH, lcg_succ. unfold lcg_step.
    rewrite Zplus_mod_idemp_l. rewrite Zplus_mod, Zmult_mod_idemp_l, <- Zplus_mod. reflexivity.
  Qed.

  Lemma mod_eq_divide m x y : 0 < m -> x mod m = y mod m <-> (m | x - y).
  Proof.
    intros Hm. split.
    - intros E. exists (x / m - y / m). pose proof (Z.div_mod x m). pose proof (Z.div_mod y m). nia.
    - intros [q Hq]. replace x with (y + q * m) by lia. apply Z_mod_plus_full.
  Qed.

  Lemma lcg_full k x0 y : 0 <= x0 < 2 ^ Z.of_nat k -> 0 <= y < 2 ^ Z.of_nat k ->
    exists! n, (n < 2 ^ N.of_nat k)%N /\ N.iter n (lcg_step k) x0 = y.
  Proof.
    intros Hx Hy. destruct (locate_spec k x0 y) as [L1 L2]. exists (locate k x0 y).
    assert (E : N.iter (locate k x0 y) (lcg_step k) x0 = y).
    { rewrite lcg_iter by auto. rewrite <- (Z.mod_small y (2 ^ Z.of_nat k)) at 2 by auto. apply mod_eq_divide; [lia|auto]. }
    split; [auto|]. intros n [Hn En]. rewrite <- E in En. rewrite !lcg_iter in En by auto. clear E. symmetry in En.
    apply mod_eq_divide in En; [|lia]. now apply (lcg_inj k x0).
  Qed.

  Lemma lcg_return k x0 n : 0 <= x0 < 2 ^ Z.of_nat k ->
    N.iter n (lcg_step k) x0 = x0 <-> (2 ^ Z.of_nat k | Z.of_N n).
  Proof.
    intros Hx. rewrite lcg_iter by auto. rewrite <- (Z.mod_small x0 (2 ^ Z.of_nat k)) at 2 by auto.
    rewrite mod_eq_divide by lia. apply lcg_period.
  Qed.
End Lcg.

(** ** How often a value occurs *)

Lemma lcg_hits a c k x0 (P : Z -> Prop) ys :
  a mod 4 = 1 -> c mod 2 = 1 -> 0 <= x0 < 2 ^ Z.of_nat k ->
  NoDup ys -> (forall y, In y ys <-> 0 <= y < 2 ^ Z.of_nat k /\ P y) ->
  exists ns, NoDup ns /\ length ns = length ys /\
    forall n, In n ns <-> (n < 2 ^ N.of_nat k)%N /\ P (N.iter n (lcg_step a c k) x0).
Proof.
  intros Ha Hc Hx Hnd Hys. exists (map (locate a c k x0) ys).
  assert (Hloc : forall y, 0 <= y < 2 ^ Z.of_nat k -> N.iter (locate a c k x0 y) (lcg_step a c k) x0 = y).
  { intros y Hy. destruct (locate_spec a c Ha Hc k x0 y) as [_ L]. rewrite lcg_iter by auto.
    rewrite <- (Z.mod_small y (2 ^ Z.of_nat k)) at 2 by auto. apply mod_eq_divide; [lia|auto]. }
  split; [|split].
  - assert (Hr : forall y, In y ys -> 0 <= y < 2 ^ Z.of_nat k) by (intros y Hy; apply Hys in Hy; tauto).
    clear Hys. induction Hnd as [|y ys Hy Hnd IH]; [constructor|]. cbn [map]. constructor.
    + intros Hin. apply in_map_iff in Hin. destruct Hin as (z & Ez & Hz).
      assert (z = y); [|congruence]. rewrite <- (Hloc z), <- (Hloc y), Ez by (apply Hr; cbn; auto). reflexivity.
    + apply IH. intros z Hz. apply Hr. now right.
  - apply map_length.
  - intros n. rewrite in_map_iff. split.
    + intros (y & <- & Hy). apply Hys in Hy. destruct Hy as [Hy Py]. split; [apply locate_spec; auto|].
      now rewrite Hloc.
    + intros [Hn HP]. set (y := N.iter n (lcg_step a c k) x0) in *.
      assert (Hy : 0 <= y < 2 ^ Z.of_nat k).
      { unfold y. rewrite lcg_iter by auto. apply Z.mod_pos_bound. lia. }
      exists y. split; [|now apply Hys].
      destruct (lcg_full a c Ha Hc k x0 y Hx Hy) as (m & _ & Hu).
      transitivity m; [symmetry|]; apply Hu; split; auto. apply locate_spec; auto.
Qed.

(** ** The output functions *)

Lemma bits_small n x : 0 <= n -> (forall i, n <= i -> Z.testbit x i = false) -> 0 <= x -> x < 2 ^ n.
Proof.
  intros Hn H H0. destruct (Z.eq_dec x 0) as [->|Hx]; [apply Z.pow_pos_nonneg; lia|].
  apply Z.log2_lt_pow2; [lia|]. destruct (Z.lt_ge_cases (Z.log2 x) n) as [|Hge]; auto.
  specialize (H _ Hge). rewrite Z.bit_log2 in H by lia. discriminate.
Qed.

Lemma small_bits n x i : 0 <= x < 2 ^ n -> n <= i -> Z.testbit x i = false.
Proof.
  intros Hx Hi. destruct (Z.eq_dec x 0) as [->|Hx0]; [apply Z.bits_0|].
  apply Z.bits_above_log2; [lia|]. apply Z.lt_le_trans with n; auto. apply Z.log2_lt_pow2; lia.
Qed.

Definition xorshift (h r : Z) : Z := Z.lxor r (Z.shiftr r h).

Lemma xorshift_range h r : 0 <= h -> 0 <= r < 2 ^ (2 * h) -> 0 <= xorshift h r < 2 ^ (2 * h).
Proof.
  intros Hh Hr. assert (H0 : 0 <= xorshift h r).
  { unfold xorshift. apply Z.lxor_nonneg. rewrite Z.shiftr_nonneg. tauto. }
  split; auto. apply bits_small; auto; [lia|]. intros i Hi. unfold xorshift.
  rewrite Z.lxor_spec, Z.shiftr_spec by lia. rewrite !(small_bits (2 * h) r) by lia. reflexivity.
Qed.

Lemma xorshift_inv h r : 0 <= h -> 0 <= r < 2 ^ (2 * h) -> xorshift h (xorshift h r) = r.
Proof.
  intros Hh Hr. apply Z.bits_inj'. intros i Hi. unfold xorshift.
  rewrite !Z.lxor_spec, !Z.shiftr_spec, !Z.lxor_spec, !Z.shiftr_spec by lia.
  rewrite (small_bits (2 * h) r (i + h + h)) by lia.
  destruct (Z.testbit r i), (Z.testbit r (i + h)); reflexivity.
Qed.

Lemma mul_inv_mod m u v x y : 0 < m -> (u * v) mod m = 1 mod m -> 0 <= x < m -> 0 <= y < m ->
  (x * u) mod m = y <-> x = (y * v) mod m.
Proof.
  intros Hm Huv Hx Hy.
  assert (G : forall z, 0 <= z < m -> z = (z * (u * v)) mod m).
  { intros z Hz. rewrite Zmult_mod, Huv, <- Zmult_mod, Z.mul_1_r. now rewrite Z.mod_small. }
  split.
  - intros <-. rewrite Zmult_mod_idemp_l. rewrite <- Z.mul_assoc. now apply G.
  - intros ->. rewrite Zmult_mod_idemp_l. rewrite <- Z.mul_assoc, (Z.mul_comm v u). symmetry. now apply G.
Qed.
