(** Primality certificates (Pocklington's criterion with one base), used to
    discharge the primality of the concrete moduli.  Supporting mathematics
    only; models no code. *)
From Verif Require Import Prelude.

Fixpoint powmod_pos (n a : Z) (k : positive) : Z :=
  match k with
  | xH => a mod n
  | xO k' => let x := powmod_pos n a k' in (x * x) mod n
  | xI k' => let x := powmod_pos n a k' in (x * x mod n * a) mod n
  end.
Definition powmod (n a k : Z) : Z :=
  match k with Zpos p => powmod_pos n a p | _ => 1 mod n end.

Lemma powmod_pos_ok n a k : 0 < n -> powmod_pos n a k = a ^ Zpos k mod n.
Proof.
  intros N. induction k as [k IH|k IH|]; cbn [powmod_pos].
  - rewrite IH. rewrite Pos2Z.inj_xI.
    replace (2 * Z.pos k + 1) with (Z.pos k + Z.pos k + 1) by lia.
    rewrite !Z.pow_add_r, Z.pow_1_r by lia.
    rewrite Z.mul_mod_idemp_l by lia.
    rewrite <- Z.mul_assoc, Z.mul_mod_idemp_l by lia.
    rewrite Z.mul_comm, <- Z.mul_assoc, Z.mul_mod_idemp_l by lia. f_equal. ring.
  - rewrite IH. rewrite Pos2Z.inj_xO.
    replace (2 * Z.pos k) with (Z.pos k + Z.pos k) by lia.
    rewrite Z.pow_add_r by lia. rewrite <- Z.mul_mod by lia. reflexivity.
  - rewrite Z.pow_1_r. reflexivity.
Qed.
Lemma powmod_ok n a k : 0 < n -> 0 <= k -> powmod n a k = a ^ k mod n.
Proof.
  intros N K. destruct k; [reflexivity|apply powmod_pos_ok; auto|lia].
Qed.

Lemma rel_prime_pow_l a p i : 0 <= i -> rel_prime a p -> rel_prime (a ^ i) p.
Proof.
  intros I C. revert i I. apply natlike_ind.
  - apply rel_prime_1.
  - intros i I IH. rewrite Z.pow_succ_r by auto. apply rel_prime_sym, rel_prime_mult; apply rel_prime_sym; auto.
Qed.

Lemma NoDup_map_in {X Y} (f : X -> Y) l :
  (forall x y, In x l -> In y l -> f x = f y -> x = y) -> NoDup l -> NoDup (map f l).
Proof.
  intros I N. induction N as [|x l H N IH]; [constructor|]. simpl. constructor.
  - intros K. apply in_map_iff in K as (y & E & K). apply I in E; [|right; auto|left; auto]. subst; auto.
  - apply IH. intros; apply I; auto; right; auto.
Qed.

Section Order.
Variables p a : Z.
Hypothesis p_prime : prime p.

Definition is1 (k : Z) : Prop := a ^ k mod p = 1.

Lemma is1_coprime k : 0 < k -> is1 k -> rel_prime a p.
Proof.
  intros K H. apply rel_prime_sym. apply prime_rel_prime; [auto|].
  intros D. unfold is1 in H. pose proof (prime_ge_2 _ p_prime).
  assert (E : (p | a ^ k)).
  { replace k with (1 + (k - 1)) by lia. rewrite Z.pow_add_r, Z.pow_1_r by lia.
    apply Z.divide_mul_l. auto. }
  apply Z.mod_divide in E; [|lia]. lia.
Qed.

Lemma is1_add i j : 0 <= i -> 0 <= j -> is1 i -> is1 j -> is1 (i + j).
Proof.
  unfold is1. intros. pose proof (prime_ge_2 _ p_prime).
  rewrite Z.pow_add_r, Z.mul_mod by lia. rewrite H1, H2. apply Z.mod_1_l. lia.
Qed.
Lemma is1_mul d k : 0 <= d -> 0 <= k -> is1 d -> is1 (d * k).
Proof.
  intros D K H. pose proof (prime_ge_2 _ p_prime). revert k K. apply natlike_ind.
  - unfold is1. rewrite Z.mul_0_r. apply Z.mod_1_l. lia.
  - intros k K IH. rewrite Z.mul_succ_r. apply is1_add; auto. nia.
Qed.
Lemma pow_cancel i j : rel_prime a p -> 0 <= i -> 0 <= j ->
  a ^ i mod p = a ^ (i + j) mod p -> is1 j.
Proof.
  intros C I J H. pose proof (prime_ge_2 _ p_prime). unfold is1.
  rewrite Z.pow_add_r in H by auto.
  assert (D : (p | a ^ i * (a ^ j - 1))).
  { apply Z.mod_divide; [lia|]. rewrite Z.mul_sub_distr_l, Z.mul_1_r, Zminus_mod, <- H, Z.sub_diag.
    reflexivity. }
  apply Gauss in D; [|apply rel_prime_sym, rel_prime_pow_l; auto].
  destruct D as [q Hq]. replace (a ^ j) with (1 + q * p) by lia.
  rewrite Z_mod_plus_full. apply Z.mod_1_l. lia.
Qed.

Lemma order_exists k : 0 < k -> is1 k ->
  exists d, 0 < d /\ is1 d /\ forall e, 0 < e < d -> ~ is1 e.
Proof.
  intros K. assert (K0 : 0 <= k) by lia. revert K. pattern k. apply Z_lt_induction; [|exact K0].
  clear k K0. intros k IH K H.
  assert (D : (exists e, 0 < e < k /\ is1 e) \/ (forall e, 0 < e < k -> ~ is1 e)).
  { clear IH H. assert (G : forall m, 0 <= m -> (exists e, 0 < e < m /\ is1 e) \/ (forall e, 0 < e < m -> ~ is1 e)).
    { apply natlike_ind; [right; intros; lia|]. intros m M [(e & L & E)|IH].
      - left; exists e; split; [lia|auto].
      - destruct (Z.eq_dec (a ^ m mod p) 1) as [E|E], (Z_lt_le_dec 0 m).
        + left; exists m; split; [lia|auto].
        + right; intros e L; lia.
        + right. intros e L. destruct (Z.eq_dec e m) as [->|]; [auto|apply IH; lia].
        + right; intros e L; lia. }
    apply G; lia. }
  destruct D as [(e & L & E)|N]; [apply (IH e); auto; lia|exists k; auto].
Qed.

Lemma order_divides d k : 0 < d -> is1 d -> (forall e, 0 < e < d -> ~ is1 e) ->
  0 <= k -> is1 k -> (d | k).
Proof.
  intros D H M K HK. pose proof (prime_ge_2 _ p_prime).
  pose proof (Z.div_mod k d ltac:(lia)) as E. pose proof (Z.mod_pos_bound k d D) as B.
  destruct (Z.eq_dec (k mod d) 0) as [Z0|NZ]; [exists (k / d); lia|].
  exfalso. apply (M (k mod d)); [lia|].
  apply (pow_cancel (d * (k / d))).
  - eapply is1_coprime; eauto.
  - assert (0 <= k / d) by (apply Z.div_pos; lia). nia.
  - lia.
  - rewrite <- E. assert (HH : is1 (d * (k / d))) by (apply is1_mul; auto; [lia|apply Z.div_pos; lia]).
    unfold is1 in *. congruence.
Qed.

Lemma order_le d : 0 < d -> is1 d -> (forall e, 0 < e < d -> ~ is1 e) -> d <= p - 1.
Proof.
  intros D H M. pose proof (prime_ge_2 _ p_prime) as P2.
  assert (C : rel_prime a p) by (eapply is1_coprime; eauto).
  set (l := map (fun i => Z.to_nat (a ^ Z.of_nat i mod p)) (seq 0 (Z.to_nat d))).
  assert (ND : NoDup l).
  { apply NoDup_map_in; [|apply seq_NoDup].
    assert (G : forall i j, (i <= j < Z.to_nat d)%nat ->
       Z.to_nat (a ^ Z.of_nat i mod p) = Z.to_nat (a ^ Z.of_nat j mod p) -> i = j).
    { intros i j L E. destruct (Nat.eq_dec i j); [auto|exfalso].
      pose proof (Z.mod_pos_bound (a ^ Z.of_nat i) p). pose proof (Z.mod_pos_bound (a ^ Z.of_nat j) p).
      apply Z2Nat.inj in E; [|lia|lia].
      apply (M (Z.of_nat j - Z.of_nat i)); [lia|].
      apply (pow_cancel (Z.of_nat i)); [auto|lia|lia|].
      rewrite E. f_equal. f_equal. lia. }
    intros i j Hi Hj E. apply in_seq in Hi, Hj. destruct (Nat.le_ge_cases i j) as [L|L].
    - apply G; [lia|auto].
    - symmetry. apply G; [lia|auto]. }
  assert (INC : incl l (seq 1 (Z.to_nat (p - 1)))).
  { intros x Hx. apply in_map_iff in Hx as (i & <- & Hi). apply in_seq.
    pose proof (Z.mod_pos_bound (a ^ Z.of_nat i) p).
    assert (a ^ Z.of_nat i mod p <> 0).
    { intros E. apply Z.mod_divide in E; [|lia].
      assert (R : rel_prime (a ^ Z.of_nat i) p) by (apply rel_prime_pow_l; [lia|auto]).
      destruct R as [_ _ R]. specialize (R p E (Z.divide_refl p)).
      apply Z.divide_1_r_nonneg in R; lia. }
    lia. }
  pose proof (NoDup_incl_length ND INC) as L. unfold l in L.
  rewrite map_length, !seq_length in L. lia.
Qed.
End Order.

Definition fprod (qs : list (Z * Z)) : Z := fold_right (fun qe acc => fst qe ^ snd qe * acc) 1 qs.

Lemma has_small_factor n : 1 < n -> ~ prime n -> exists p, prime p /\ (p | n) /\ p * p <= n.
Proof.
  intros N NP. assert (N0 : 0 <= n) by lia. revert N NP. pattern n. apply Z_lt_induction; [|exact N0].
  clear n N0. intros n IH N NP.
  destruct (not_prime_divide n ltac:(lia) NP) as (m & L & D).
  destruct D as [q Hq]. 
  assert (E : exists s, 1 < s < n /\ (s | n) /\ s * s <= n).
  { destruct (Z_le_gt_dec m q).
    - exists m. split; [lia|]. split; [exists q; lia|nia].
    - exists q. split; [nia|]. split; [exists m; lia|nia]. }
  destruct E as (s & L' & D' & S).
  destruct (prime_dec s) as [P|P]; [exists s; auto|].
  destruct (IH s ltac:(lia) ltac:(lia) P) as (p & P1 & P2 & P3).
  exists p. split; [auto|]. split; [eapply Z.divide_trans; eauto|nia].
Qed.

Definition pock_check (n a : Z) (qs : list (Z * Z)) : bool :=
  (1 <? n) && (powmod n a (n - 1) =? 1)
  && forallb (fun qe => (Z.gcd (powmod n a ((n - 1) / fst qe) - 1) n =? 1)
                        && ((n - 1) mod fst qe =? 0) && (0 <=? snd qe)) qs
  && ((n - 1) mod fprod qs =? 0) && (n <? (fprod qs + 1) * (fprod qs + 1)) && (0 <? fprod qs).

Theorem pocklington n a qs :
  pock_check n a qs = true -> Forall (fun qe => prime (fst qe)) qs -> prime n.
Proof.
  unfold pock_check. rewrite !andb_true_iff, !Z.eqb_eq, !Z.ltb_lt.
  intros (((((N & H1) & HQ) & HF) & HB) & FP) PQ.
  destruct (prime_dec n) as [|NP]; [auto|exfalso].
  destruct (has_small_factor n N NP) as (p & P & PD & PS).
  pose proof (prime_ge_2 _ P) as P2.
  rewrite powmod_ok in H1 by lia.
  assert (MP : forall x, x mod n = 1 -> x mod p = 1).
  { intros x Hx. destruct PD as [k Hk]. rewrite (Z.div_mod x n) by lia. rewrite Hx, Hk.
    replace (k * p * (x / (k * p)) + 1) with (1 + k * (x / (k * p)) * p) by ring.
    rewrite Z_mod_plus_full. apply Z.mod_1_l. lia. }
  assert (I1 : is1 p a (n - 1)) by (apply MP; exact H1).
  destruct (order_exists p a (n - 1) ltac:(lia) I1) as (d & D & HD & MIN).
  assert (DD : (d | n - 1)) by (apply (order_divides p a P); auto; lia).
  destruct DD as [m Hm].
  assert (RP : rel_prime (fprod qs) m).
  { clear HF HB FP. induction qs as [|[q e] qs IH]; [apply rel_prime_1|].
    inversion PQ as [|x y Pq PQ']; subst. cbn [forallb fst snd] in HQ.
    rewrite !andb_true_iff, !Z.eqb_eq, Z.leb_le in HQ. destruct HQ as (((G & Q0) & E0) & HQ).
    cbn [fprod fold_right fst snd] in *. apply rel_prime_sym, rel_prime_mult; apply rel_prime_sym; [|apply IH; auto].
    apply rel_prime_pow_l; [auto|]. apply prime_rel_prime; [auto|]. intros [s Hs].
    pose proof (prime_ge_2 _ Pq).
    assert (S : (n - 1) / q = d * s).
    { rewrite Hm, Hs. replace (s * q * d) with (d * s * q) by ring. apply Z.div_mul. lia. }
    assert (S0 : 0 <= s) by nia.
    assert (I2 : is1 p a ((n - 1) / q)) by (rewrite S; apply is1_mul; auto; lia).
    rewrite powmod_ok in G; [|lia|rewrite S; nia].
    assert (PG : (p | 1)).
    { rewrite <- G. apply Z.gcd_greatest; [|auto].
      unfold is1 in I2. apply Z.mod_divide; [lia|].
      destruct PD as [k Hk].
      pose proof (Z.div_mod (a ^ ((n - 1) / q)) n ltac:(lia)) as DM.
      replace (a ^ ((n - 1) / q) mod n - 1) with
        (a ^ ((n - 1) / q) - 1 - (k * (a ^ ((n - 1) / q) / n)) * p) by (generalize dependent (a ^ ((n - 1) / q)); intros X; generalize (X / n), (X mod n); intros Q R; intros; subst n; nia).
      rewrite Zminus_mod, Z_mod_mult, Z.sub_0_r, Zmod_mod, Zminus_mod, I2.
      rewrite (Z.mod_1_l p) by lia. reflexivity. }
    apply Z.divide_1_r_nonneg in PG; lia. }
  assert (FD : (fprod qs | d)).
  { apply Gauss with m; [|exact RP]. apply Z.mod_divide in HF; [|lia]. rewrite Hm in HF. exact HF. }
  apply Z.divide_pos_le in FD; [|auto].
  pose proof (order_le p a P d D HD MIN). nia.
Qed.

(** The same check with shared exponentiations and quotient hints, so that no
    division is computed: step i of an exponentiation subtracts (hint i) * n. *)
Fixpoint powh (n a : Z) (k : positive) (hs : list Z) : Z * list Z :=
  match k with
  | xH => (a, hs)
  | xO k' => let '(x, hs) := powh n a k' hs in
             match hs with q :: hs' => (x * x - q * n, hs') | [] => (x * x, []) end
  | xI k' => let '(x, hs) := powh n a k' hs in
             match hs with
             | q :: q' :: hs' => ((x * x - q * n) * a - q' * n, hs')
             | _ => (x * x * a, [])
             end
  end.
Definition powhz (n a k : Z) (hs : list Z) : Z :=
  match k with Zpos p => fst (powh n a p hs) | _ => 1 end.

Lemma powh_ok n a k hs : 0 < n -> fst (powh n a k hs) mod n = a ^ Zpos k mod n.
Proof.
  intros N. revert hs. induction k as [k IH|k IH|]; intros hs; cbn [powh].
  - specialize (IH hs). destruct (powh n a k hs) as [x hs1]. cbn [fst] in IH.
    rewrite Pos2Z.inj_xI.
    replace (2 * Z.pos k + 1) with (Z.pos k + Z.pos k + 1) by lia.
    rewrite !Z.pow_add_r, Z.pow_1_r by lia.
    assert (G : (x * x * a) mod n = (a ^ Z.pos k * a ^ Z.pos k * a) mod n).
    { rewrite (Z.mul_mod (x * x)), (Z.mul_mod x x), IH, <- (Z.mul_mod (a ^ _)), <- Z.mul_mod by lia. reflexivity. }
    destruct hs1 as [|q [|q' hs1]]; cbn [fst]; auto.
    rewrite <- G. replace ((x * x - q * n) * a - q' * n) with (x * x * a + (- (q * a) - q') * n) by ring.
    apply Z_mod_plus_full.
  - specialize (IH hs). destruct (powh n a k hs) as [x hs1]. cbn [fst] in IH.
    rewrite Pos2Z.inj_xO. replace (2 * Z.pos k) with (Z.pos k + Z.pos k) by lia.
    rewrite Z.pow_add_r by lia.
    assert (G : (x * x) mod n = (a ^ Z.pos k * a ^ Z.pos k) mod n).
    { rewrite (Z.mul_mod x x), IH, <- (Z.mul_mod (a ^ _)) by lia. reflexivity. }
    destruct hs1 as [|q hs1]; cbn [fst]; auto.
    rewrite <- G. replace (x * x - q * n) with (x * x + (- q) * n) by ring.
    apply Z_mod_plus_full.
  - rewrite Z.pow_1_r. reflexivity.
Qed.
Lemma powhz_ok n a k hs : 0 < n -> 0 <= k -> powhz n a k hs mod n = a ^ k mod n.
Proof. intros N K. destruct k; [reflexivity|apply powh_ok; auto|lia]. Qed.
Lemma pow_mod_base n x l : 0 < n -> 0 <= l -> (x mod n) ^ l mod n = x ^ l mod n.
Proof.
  intros N. revert l. apply natlike_ind; [reflexivity|]. intros l L IH.
  rewrite !Z.pow_succ_r by auto. rewrite Z.mul_mod, IH, Z.mod_mod, <- Z.mul_mod by lia. reflexivity.
Qed.
Lemma powhz_pow n a y k l hs : 0 < n -> 0 <= k -> 0 <= l -> y mod n = a ^ k mod n ->
  powhz n y l hs mod n = a ^ (k * l) mod n.
Proof.
  intros N K L H. rewrite powhz_ok, <- pow_mod_base, H, pow_mod_base by auto.
  rewrite Z.pow_mul_r by auto. reflexivity.
Qed.

(** A listed prime: (q, exponent, hints). *)
Definition qh := (Z * Z * list Z)%type.
Definition qe_of (x : qh) : Z * Z := fst x.
Definition qprod (qs : list qh) : Z := fold_right (fun x acc => fst (fst x) * acc) 1 qs.
Fixpoint all_coprime (n y : Z) (before : Z) (qs : list qh) : bool :=
  match qs with
  | [] => true
  | (q, e, hs) :: l => (Z.gcd (powhz n y (before * qprod l) hs - 1) n =? 1) && (0 <=? e)
                   && all_coprime n y (before * q) l
  end.
Definition pock_check2 (n a : Z) (hy hf : list Z) (q e : Z) (hz : list Z) (qs : list qh) : bool :=
  let P := q * qprod qs in
  let F := fprod ((q, e) :: map qe_of qs) in
  let y := powhz n a ((n - 1) / P) hy in
  let z := powhz n y (qprod qs) hz in
  (1 <? n) && (0 <=? e) && (0 <? P) && ((n - 1) mod P =? 0)
  && (0 <? q) && forallb (fun x : qh => 0 <? fst (fst x)) qs
  && (powhz n z q hf =? 1)
  && (Z.gcd (z - 1) n =? 1) && all_coprime n y q qs
  && ((n - 1) mod F =? 0) && (n <? (F + 1) * (F + 1)) && (0 <? F).

Lemma qprod_pos qs : forallb (fun x : qh => 0 <? fst (fst x)) qs = true -> 0 < qprod qs.
Proof.
  induction qs as [|[[q e] h] qs IH]; cbn [qprod fold_right forallb fst]; [lia|].
  rewrite andb_true_iff, Z.ltb_lt. intros (H & H'). specialize (IH H'). fold (qprod qs). nia.
Qed.
Lemma gcd_mod_pred n x y : 0 < n -> x mod n = y mod n -> Z.gcd (x - 1) n = Z.gcd (y mod n - 1) n.
Proof.
  intros N H. rewrite <- H. rewrite (Z.gcd_comm (x - 1)), (Z.gcd_comm (x mod n - 1)).
  rewrite (Z.mod_eq x n) by lia.
  replace (x - n * (x / n) - 1) with (x - 1 + (- (x / n)) * n) by ring.
  symmetry. apply Z.gcd_add_mult_diag_r.
Qed.

Lemma pock_check2_ok n a hy hf q e hz qs : pock_check2 n a hy hf q e hz qs = true ->
  pock_check n a ((q, e) :: map qe_of qs) = true.
Proof.
  unfold pock_check2. rewrite !andb_true_iff.
  intros (((((((((((N & E) & P0) & PD) & Q0) & FQ) & H1) & G) & AC) & F1) & F2) & F3).
  apply Z.ltb_lt in N, P0, Q0. apply Z.leb_le in E. apply Z.eqb_eq in PD, H1, G.
  pose proof (qprod_pos _ FQ) as QP.
  set (P := q * qprod qs) in *. set (K := (n - 1) / P) in *.
  assert (EK : n - 1 = K * P).
  { unfold K. rewrite Z.mul_comm. apply Z_div_exact_full_2; lia. }
  assert (K0 : 0 <= K) by (unfold K; apply Z.div_pos; lia).
  set (y := powhz n a K hy) in *. set (z := powhz n y (qprod qs) hz) in *.
  assert (PQ : 0 <= K * qprod qs) by (apply Z.mul_nonneg_nonneg; lia).
  assert (Hy : y mod n = a ^ K mod n) by (apply powhz_ok; lia).
  assert (Hz : z mod n = a ^ (K * qprod qs) mod n) by (apply powhz_pow; auto; lia).
  assert (Hf : 1 mod n = a ^ (n - 1) mod n).
  { rewrite <- H1 at 1. rewrite (powhz_pow n a z (K * qprod qs) q hf) by (auto; lia).
    f_equal. f_equal. rewrite EK. unfold P. ring. }
  unfold pock_check. rewrite !andb_true_iff.
  repeat split; auto.
  - apply Z.ltb_lt; auto.
  - apply Z.eqb_eq. rewrite powmod_ok, <- Hf by lia. apply Z.mod_1_l. lia.
  - cbn [forallb fst snd]. rewrite !andb_true_iff. 
    assert (ED : (n - 1) / q = K * qprod qs).
    { rewrite EK. unfold P. replace (K * (q * qprod qs)) with (K * qprod qs * q) by ring. apply Z.div_mul. lia. }
    repeat split.
    + apply Z.eqb_eq. rewrite powmod_ok, ED by (try rewrite ED; lia).
      rewrite <- (gcd_mod_pred n z) by (auto; lia). exact G.
    + apply Z.eqb_eq. rewrite EK. unfold P. replace (K * (q * qprod qs)) with (K * qprod qs * q) by ring.
      apply Z.mod_mul. lia.
    + apply Z.leb_le; auto.
    + assert (AC' : forall l b, 0 < b -> b * qprod l = P -> forallb (fun x : qh => 0 <? fst (fst x)) l = true ->
          all_coprime n y b l = true ->
          forallb (fun qe => (Z.gcd (powmod n a ((n - 1) / fst qe) - 1) n =? 1)
                        && ((n - 1) mod fst qe =? 0) && (0 <=? snd qe)) (map qe_of l) = true).
      { induction l as [|[[q' e'] h'] l IH]; intros b B HB HF HA; [reflexivity|].
        cbn [all_coprime forallb fst snd qprod fold_right map qe_of] in *. fold (qprod l) in *.
        rewrite !andb_true_iff in *. destruct HA as ((A1 & A2) & A3). destruct HF as (B1 & B2).
        apply Z.ltb_lt in B1. apply Z.eqb_eq in A1. pose proof (qprod_pos _ B2) as QL.
        assert (BQ : 0 <= b * qprod l) by (apply Z.mul_nonneg_nonneg; lia).
        assert (KB : 0 <= K * (b * qprod l)) by (apply Z.mul_nonneg_nonneg; lia).
        assert (EN : n - 1 = K * (b * qprod l) * q') by (rewrite EK, <- HB; ring).
        assert (ED' : (n - 1) / q' = K * (b * qprod l)) by (rewrite EN; apply Z.div_mul; lia).
        repeat split; auto.
        - apply Z.eqb_eq. rewrite powmod_ok, ED' by (try rewrite ED'; lia).
          rewrite <- (gcd_mod_pred n (powhz n y (b * qprod l) h')); [exact A1|lia|].
          apply powhz_pow; auto; lia.
        - apply Z.eqb_eq. rewrite EN. apply Z.mod_mul. lia.
        - apply (IH (b * q')); [nia|rewrite <- HB; ring|auto|auto]. }
      apply (AC' qs q); auto.
Qed.

Theorem pocklington2 n a hy hf q e hz qs :
  pock_check2 n a hy hf q e hz qs = true -> Forall (fun qe => prime (fst qe)) ((q, e) :: map qe_of qs) -> prime n.
Proof. intros H. apply pocklington with a. eapply pock_check2_ok. exact H. Qed.

(** Trial division for the small factors. *)
Definition trial (n : Z) : bool :=
  (1 <? n) && forallb (fun k => negb (n mod (Z.of_nat k) =? 0)) (seq 2 (Z.to_nat (Z.sqrt n) - 1)).
Lemma trial_ok n : trial n = true -> prime n.
Proof.
  unfold trial. rewrite andb_true_iff, Z.ltb_lt. intros (N & H).
  destruct (prime_dec n) as [|NP]; [auto|exfalso].
  destruct (has_small_factor n N NP) as (p & P & PD & PS). pose proof (prime_ge_2 _ P).
  rewrite forallb_forall in H. specialize (H (Z.to_nat p)).
  assert (p <= Z.sqrt n) by (apply Z.sqrt_le_square; lia).
  rewrite in_seq in H. specialize (H ltac:(lia)). rewrite Z2Nat.id in H by lia.
  apply Z.mod_divide in PD; [|lia]. rewrite PD in H. discriminate.
Qed.
