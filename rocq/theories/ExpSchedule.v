(** Schedules whose points are multiples of one point of prime order: an addition is
    possible when the factors are neither equal nor opposite. *)
From Verif Require Import Prelude FieldZ ModArith SpecEcc Curve SpecMsm CurveGroup PointSum SpecSchedule.
From Coq Require Import Znumtheory.

Section Exp.
Variables w b n : Z.
Hypothesis P : prime w.
Hypothesis w3 : 3 < w.
Hypothesis b0 : b mod w <> 0.
Hypothesis N : prime n.
Local Notation cpt := (cpt w b).
Local Notation cp := (cp w b).
Local Notation cmul := (cmul w b P).
Local Notation cadd := (cadd w b P).
Local Notation czero := (czero w b).
Variable G : cpt.
Hypothesis G0 : G <> czero.
Hypothesis Gn : cmul n G = czero.
Definition E (k : Z) : cpt := cmul (k mod n) G.
Lemma npos : 1 < n. Proof. destruct N; lia. Qed.
Lemma E_add i j : cadd (E i) (E j) = E (i + j).
Proof.
  pose proof npos. pose proof (Z.mod_pos_bound i n) as Hi. pose proof (Z.mod_pos_bound j n) as Hj. unfold E.
  rewrite <- (cmul_add w b P w3 b0) by lia. rewrite (cmul_mod w b P w3 b0 n) by (auto; lia). rewrite <- Zplus_mod. reflexivity.
Qed.
Lemma E_mod i j : (i - j) mod n = 0 -> E i = E j.
Proof.
  intros H. pose proof npos. unfold E. f_equal. apply Z.mod_divide in H; [|lia]. destruct H as [k Hk].
  replace i with (j + k * n) by lia. apply Z_mod_plus_full.
Qed.
Lemma E_0 : E 0 = czero. Proof. pose proof npos. unfold E. rewrite Z.mod_0_l by lia. reflexivity. Qed.
Lemma E_zero k : E k = czero -> k mod n = 0.
Proof.
  pose proof npos as HN. intros H. destruct (Z.eq_dec (k mod n) 0) as [|D]; [auto|]. exfalso. apply G0.
  assert (R : rel_prime (k mod n) n).
  { apply rel_prime_sym. apply prime_rel_prime; [exact N|]. intros K. pose proof (Z.mod_pos_bound k n ltac:(lia)). apply Z.divide_pos_le in K; lia. }
  destruct (rel_prime_bezout _ _ R) as [u v Huv].
  assert (K : cmul ((u mod n) * (k mod n)) G = czero).
  { pose proof (Z.mod_pos_bound k n). pose proof (Z.mod_pos_bound u n). rewrite <- (cmul_cmul w b P w3 b0) by lia. unfold E in H. rewrite H. apply cmul_zero. }
  rewrite (cmul_mod w b P w3 b0 n) in K; [|lia| |exact Gn].
  - rewrite Zmult_mod_idemp_l in K. replace (u * (k mod n)) with (1 + (- v) * n) in K by lia. rewrite Z_mod_plus_full, (Z.mod_small 1 n) in K by lia.
    rewrite (cmul_1 w b P) in K. exact K.
  - pose proof (Z.mod_pos_bound k n ltac:(lia)). pose proof (Z.mod_pos_bound u n ltac:(lia)). nia.
Qed.
Lemma E_neg i : cneg w b P (E i) = E (- i).
Proof.
  assert (H : cadd (E (-i)) (cadd (E i) (cneg w b P (E i))) = E (-i)) by (rewrite (cadd_neg w b P), (cadd_0_r w b P); reflexivity).
  rewrite <- (cadd_assoc w b P w3 b0), E_add in H. replace (- i + i) with 0 in H by lia. rewrite E_0, (cadd_0_l w b P) in H. exact H.
Qed.
Lemma E_inj i j : E i = E j -> (i - j) mod n = 0.
Proof.
  intros H. apply E_zero. unfold Z.sub. rewrite <- E_add, <- E_neg, H. apply cadd_neg.
Qed.
(** The points themselves. *)
Definition pe (k : Z) : pt := cp (E k).
Lemma pe_on k : on_curve w b (pe k). Proof. apply cp_oc. Qed.
Lemma pe_neg k : pt_neg w (pe k) = pe (- k). Proof. unfold pe. rewrite <- E_neg. reflexivity. Qed.
Lemma pe_inj i j : pe i = pe j -> (i - j) mod n = 0. Proof. intros H. apply E_inj, cp_inj, H. Qed.
Lemma pe_aff k : k mod n <> 0 -> exists x y, pe k = Aff x y.
Proof. intros H. destruct (pe k) as [|x y] eqn:X; eauto. exfalso. apply H. apply E_zero. apply cp_inj. exact X. Qed.
Lemma same_x x y1 y2 : on_curve w b (Aff x y1) -> on_curve w b (Aff x y2) -> y1 = y2 \/ y1 = (- y2) mod w.
Proof.
  intros (_ & R1 & C1) (_ & R2 & C2). assert (D : (w | (y1 - y2) * (y1 + y2))).
  { apply Z.mod_divide; [lia|]. replace ((y1 - y2) * (y1 + y2)) with (y1 * y1 - y2 * y2) by ring. rewrite Zminus_mod.
    rewrite C1, C2, Z.sub_diag. apply Z.mod_0_l. lia. }
  apply (prime_mult w P) in D as [[q Hq]|[q Hq]].
  - left. assert (q = 0) by nia. lia.
  - right. replace (- y2) with (y1 + (- q) * w) by lia. rewrite Z_mod_plus_full. symmetry. apply Z.mod_small. exact R1.
Qed.
Lemma pe_chord i j : i mod n <> 0 -> j mod n <> 0 -> (i - j) mod n <> 0 -> (i + j) mod n <> 0 -> chord w (pe i) (pe j) (pe (i + j)).
Proof.
  intros Hi Hj Hd Hs. split; [|unfold pe; rewrite <- E_add; apply cadd_spec].
  destruct (pe_aff i Hi) as (x1 & y1 & E1), (pe_aff j Hj) as (x2 & y2 & E2). rewrite E1, E2. intros <-.
  pose proof (pe_on i) as C1. pose proof (pe_on j) as C2. rewrite E1 in C1. rewrite E2 in C2.
  assert (D : y1 = y2 \/ y1 = (- y2) mod w) by (eapply same_x; eauto).
  destruct D as [-> | ->]; [apply Hd, pe_inj; congruence|]. apply Hs. replace (i + j) with (i - - j) by lia. apply pe_inj. rewrite <- pe_neg, E1, E2. reflexivity.
Qed.
Lemma pe_tangent i : (2 * i) mod n <> 0 -> tangent w (pe i) (pe (2 * i)).
Proof.
  intros H. pose proof npos. assert (Hi : i mod n <> 0).
  { intros K. apply H. rewrite Zmult_mod, K, Z.mul_0_r. apply Z.mod_0_l. lia. }
  split; [|replace (2 * i) with (i + i) by lia; unfold pe; rewrite <- E_add; apply cadd_spec].
  destruct (pe_aff i Hi) as (x & y & E1). rewrite E1. intros K. apply H. replace (2 * i) with (i - - i) by lia. apply pe_inj.
  rewrite <- pe_neg, E1. cbn [pt_neg]. f_equal. pose proof (pe_on i) as C. rewrite E1 in C. destruct C as (_ & R & _).
  apply Z.mod_divide in K; [|lia]. destruct K as [q Hq]. replace (- y) with (y + (- q) * w) by lia. rewrite Z_mod_plus_full. symmetry. apply Z.mod_small. exact R.
Qed.

(** One point, any scalar up to n - 21, auxiliary points 3 G and 4 G. *)
Lemma small k : - n < k < n -> k <> 0 -> k mod n <> 0.
Proof. intros H D K. apply Z.mod_divide in K; [|lia]. destruct K as [q Hq]. pose proof npos. destruct (Z.lt_trichotomy q 0) as [?|[?|?]]; nia. Qed.
Lemma one_point best m v : (1 <= best)%nat -> 0 <= v < 2 ^ Z.of_nat m -> v + 20 < n ->
  schedule w best m (pe 3) (pe 4) [pe 1] [v].
Proof.
  intros Hb Hv Hn. unfold schedule. cbn [length]. assert (GS : group_size best 1 = 1%nat).
  { unfold group_size. replace (1 + best - 1)%nat with best by lia. rewrite Nat.div_same by lia. reflexivity. }
  rewrite GS. change (chunks 1 [pe 1]) with [[pe 1]]. change (chunks 1 [v]) with [[v]]. cbn [with_starts length Nat.odd map].
  assert (C : forall d : bool, candidate w (pe 4) [pe 1] [d] (pe (4 + Z.b2z d))).
  { intros [|]; cbn [Z.b2z]; [|constructor; constructor]. econstructor; [constructor|]. apply pe_chord; apply small; lia. }
  split.
  - intros p0 ps ds [K|[]] L. injection K as <- <-. destruct ds as [|d [|? ?]]; try discriminate. eauto.
  - exists (map (fun i => pe (1 + Z.b2z (top_bit m v i))) (seq 0 m)), (pe (3 + v)). split.
    + induction (seq 0 m) as [|i l IH]; constructor; [|exact IH]. rewrite pe_neg. econstructor; [apply C| |constructor].
      replace (1 + Z.b2z (top_bit m v i)) with ((4 + Z.b2z (top_bit m v i)) + - (3)) by lia. destruct (top_bit m v i); cbn [Z.b2z]; apply pe_chord; apply small; lia.
    + rewrite pe_neg. assert (K : forall k i, (i + k = m)%nat -> combination w (Some (pe (- (4)))) (pe (3 + v / 2 ^ Z.of_nat k)) (map (fun i => pe (1 + Z.b2z (top_bit m v i))) (seq i k)) (pe (3 + v))).
      { induction k as [|k IH]; intros i Hi; cbn [seq map].
        - rewrite Z.div_1_r. constructor.
        - set (q := v / 2 ^ Z.of_nat (S k)). set (d := top_bit m v i).
          assert (Hq : 0 <= q) by (apply Z.div_pos; lia).
          assert (B : v / 2 ^ Z.of_nat k = 2 * q + Z.b2z d).
          { unfold d, top_bit, q. replace (m - 1 - i)%nat with k by lia. rewrite (Z.testbit_spec' v (Z.of_nat k)) by lia.
            rewrite Nat2Z.inj_succ, Z.pow_succ_r, (Z.mul_comm 2 (2 ^ _)), <- Z.div_div by lia. apply Z.div_mod. lia. }
          assert (B2 : 2 * q + Z.b2z d <= v) by (rewrite <- B; apply Z.div_le_upper_bound; nia).
          assert (0 <= Z.b2z d <= 1) by (destruct d; cbn; lia).
          apply (comb_cons w _ _ _ _ (pe (2 * (3 + q))) (pe ((1 + Z.b2z d) + 2 * (3 + q))) (pe ((1 + Z.b2z d) + 2 * (3 + q) + - (4)))).
          + apply pe_tangent, small; lia.
          + apply pe_chord; apply small; lia.
          + apply pe_chord; apply small; lia.
          + replace (1 + Z.b2z d + 2 * (3 + q) + - (4)) with (3 + (v / 2 ^ Z.of_nat k)) by lia. apply IH. lia. }
      specialize (K m 0%nat eq_refl). rewrite (Z.div_small v) in K by lia. exact K.
Qed.
End Exp.
