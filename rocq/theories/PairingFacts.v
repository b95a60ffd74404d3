(** The constants of the two pairing chips are the powers of xi they should be. *)
From Coq Require Import Setoid Morphisms.
From Verif Require Import Prelude ModArith Moduli SpecTower TowerRing Frobenius Cyclotomic PairingConsts PairingHints Fq12Chip PairingChip.

Add Ring F2r : F2_ring.

Lemma pow2_pw x n : pow2 x n = @pw F2 one2 mul2 x n. Proof. reflexivity. Qed.
Lemma pow6_pw xi x n : pow6 xi x n = @pw F6 one6 (mul6 xi) x n. Proof. reflexivity. Qed.
Lemma pow12_pw xi x n : pow12 xi x n = @pw F12 one12 (mul12 xi) x n. Proof. reflexivity. Qed.

(** Square-and-multiply with reduction, to compute powers modulo p. *)
Section Compute.
Variable p : Z.
Definition red2 (x : F2) : F2 := (fst x mod p, snd x mod p).
Definition sq2 (x : F2) : F2 := let '(a, b) := x in ((a - b) * (a + b), let c := a * b in c + c).
Definition sub_mult (x q : F2) : F2 := (fst x - fst q * p, snd x - snd q * p).
Fixpoint pmh (x : F2) (n : positive) (hs : list F2) : F2 * list F2 :=
  match n with
  | xH => (x, hs)
  | xO m => let '(y, hs) := pmh x m hs in (sub_mult (sq2 y) (hd (0, 0) hs), tl hs)
  | xI m => let '(y, hs) := pmh x m hs in (sub_mult (mul2 x (sq2 y)) (hd (0, 0) hs), tl hs)
  end.
Lemma red2_eq x : eq2 p (red2 x) x.
Proof. destruct x. split; cbn [red2 fst snd]; apply mod_eqm. Qed.
Lemma sq2_ok x : sq2 x = mul2 x x.
Proof. destruct x. cbn. f_equal; ring. Qed.
Lemma sub_mult_ok x q : eq2 p (sub_mult x q) x.
Proof.
  destruct x as [a b]. unfold sub_mult. split; cbn [fst snd].
  - replace (a - fst q * p) with (a + (- fst q) * p) by ring. apply Z_mod_plus_full.
  - replace (b - snd q * p) with (b + (- snd q) * p) by ring. apply Z_mod_plus_full.
Qed.
Lemma pmh_ok x n : forall hs, eq2 p (fst (pmh x n hs)) (@pw F2 one2 mul2 x (Zpos n)).
Proof.
  induction n as [m IH|m IH|]; intros hs; cbn [pmh].
  - specialize (IH hs). destruct (pmh x m hs) as [y hs']. cbn [fst] in *. rewrite sub_mult_ok, sq2_ok, IH.
    replace (Zpos m~1) with (1 + (Zpos m + Zpos m)) by lia.
    rewrite !(pw_add F2_ring), (pw_1 F2_ring) by lia. reflexivity.
  - specialize (IH hs). destruct (pmh x m hs) as [y hs']. cbn [fst] in *. rewrite sub_mult_ok, sq2_ok, IH.
    replace (Zpos m~0) with (Zpos m + Zpos m) by lia.
    rewrite (pw_add F2_ring) by lia. reflexivity.
  - rewrite (pw_1 F2_ring). reflexivity.
Qed.
Definition eq2b (x y : F2) : bool := (fst x mod p =? fst y mod p) && (snd x mod p =? snd y mod p).
Lemma eq2b_ok x y : eq2b x y = true -> eq2 p x y.
Proof. intros H. apply andb_prop in H as [H1 H2]. apply Z.eqb_eq in H1, H2. split; assumption. Qed.
Definition same2 (x y : F2) : bool := (fst x =? fst y) && (snd x =? snd y).
Lemma same2_ok x y : same2 x y = true -> x = y.
Proof. destruct x, y. intros H. apply andb_prop in H as [H1 H2]. apply Z.eqb_eq in H1, H2. cbn in *. congruence. Qed.
Lemma pw2_check x n y hs : 0 < n -> same2 (fst (pmh x (Z.to_pos n) hs)) y = true -> eq2 p (@pw F2 one2 mul2 x n) y.
Proof.
  intros L H. apply same2_ok in H. pose proof (pmh_ok x (Z.to_pos n) hs) as E. rewrite H, Z2Pos.id in E by exact L.
  symmetry. exact E.
Qed.
End Compute.

(** Replacing the computed g by any congruent element. *)
Lemma tables_by (p : Z) (g g' a1 c1 a2 c2 a3 c3 : F2) : eq2 p g' g ->
  eq2 p a1 (mul2 c1 (mul2 g g)) -> eq2 p a2 (mul2 c2 (mul2 (mul2 g g) (mul2 g g))) -> eq2 p a3 (mul2 c3 g) ->
  eq2 p a1 (mul2 c1 (mul2 g' g')) /\ eq2 p a2 (mul2 c2 (mul2 (mul2 g' g') (mul2 g' g'))) /\ eq2 p a3 (mul2 c3 g').
Proof. intros E H1 H2 H3. rewrite E. auto. Qed.
Lemma norm_by (p : Z) (g g' z : F2) : eq2 p g' g -> eq2 p (mul2 (conj2 g) g) z -> eq2 p (mul2 (conj2 g') g') z.
Proof. intros E H. rewrite E. exact H. Qed.
Lemma sq_by (p : Z) (g g' a1 a2 : F2) : eq2 p g' g -> eq2 p a1 (mul2 g g) -> eq2 p a2 (mul2 (mul2 g g) (mul2 g g)) ->
  eq2 p (mul2 g' g') a1 /\ eq2 p (mul2 (mul2 g' g') (mul2 g' g')) a2.
Proof. intros E H1 H2. rewrite E, H1, H2. split; reflexivity. Qed.

(** ** bn256 *)
Definition bn_kt (k : nat) : Z := bn_to_fq (nth (k mod 2) FROBENIUS_COEFF_FQ2_C1 0).
Definition bn_t1 (k : nat) : F2 := bn_to_fq2 (nth (k mod 6) FROBENIUS_COEFF_FQ6_C1 (0, 0)).
Definition bn_t2 (k : nat) : F2 := bn_to_fq2 (nth (k mod 6) FROBENIUS_COEFF_FQ6_C2 (0, 0)).
Definition bn_tz (k : nat) : F2 := bn_to_fq2 (nth (k mod 12) FROBENIUS_COEFF_FQ12_C1 (0, 0)).
Definition bn_g : F2 := bn_tz 1.
Definition bn_zeta : Z := fst (bn_tz 2).

Lemma bn_p4 : bn256_fq_p mod 4 = 3. Proof. vm_compute. reflexivity. Qed.
Lemma bn_p6 : bn256_fq_p mod 6 = 1. Proof. vm_compute. reflexivity. Qed.
Lemma bn_g_ok : eq2 bn256_fq_p (g1 bn256_fq_p bn_xi) bn_g.
Proof. unfold g1. apply (pw2_check bn256_fq_p bn_xi ((bn256_fq_p - 1) / 6) bn_g bn_hints); [vm_compute; reflexivity|]. vm_cast_no_check (eq_refl true). Qed.
Lemma bn_zeta_g : eq2 bn256_fq_p (mul2 (conj2 (g1 bn256_fq_p bn_xi)) (g1 bn256_fq_p bn_xi)) (bn_zeta, 0).
Proof.
  apply (norm_by bn256_fq_p bn_g _ _ bn_g_ok). apply eq2b_ok. vm_cast_no_check (eq_refl true).
Qed.
Lemma bn_zeta_6 : bn_zeta * bn_zeta ≡ bn_zeta - 1 ⟨bn256_fq_p⟩.
Proof. apply Z.eqb_eq. vm_cast_no_check (eq_refl true). Qed.

(** The table recurrences, checked on one period of each table. *)
Definition bn_row6 (r : nat) : bool :=
    eq2b bn256_fq_p (bn_t1 (S r)) (mul2 (conj2 (bn_t1 r)) (bn_t1 1)) &&
    eq2b bn256_fq_p (bn_t2 (S r)) (mul2 (conj2 (bn_t2 r)) (bn_t2 1)).
Definition bn_row12 (r : nat) : bool :=
    ((bn_kt (S r) + bn_kt r) mod bn256_fq_p =? 0) &&
    eq2b bn256_fq_p (bn_tz (S r)) (mul2 (conj2 (bn_tz r)) bn_g).
Lemma bn_tables6 : forallb bn_row6 (seq 0 6) = true.
Proof. vm_cast_no_check (eq_refl true). Qed.
Lemma bn_tables12 : forallb bn_row12 (seq 0 12) = true.
Proof. vm_cast_no_check (eq_refl true). Qed.
Lemma bn_first : eq2b bn256_fq_p (bn_t1 1) (mul2 bn_g bn_g) && eq2b bn256_fq_p (bn_t2 1) (mul2 (bn_t1 1) (bn_t1 1)) = true.
Proof. vm_cast_no_check (eq_refl true). Qed.
Lemma mod_mod_12 k m : (m = 2 \/ m = 6 \/ m = 12)%nat -> ((k mod 12) mod m = k mod m)%nat.
Proof.
  intros H. assert (E : exists q, (12 = m * q /\ q <> 0 /\ m <> 0)%nat).
  { destruct H as [->|[->| ->]]; [exists 6%nat|exists 2%nat|exists 1%nat]; lia. }
  destruct E as (q & E & Hq & Hm). rewrite E. rewrite Nat.mod_mul_r by lia.
  rewrite (Nat.mul_comm m), Nat.mod_add, Nat.mod_mod by lia. reflexivity.
Qed.
Lemma S_mod k m : (m <> 0 -> S (k mod m) mod m = S k mod m)%nat.
Proof.
  intros H. rewrite <- (Nat.add_1_r k), <- (Nat.add_1_r (k mod m)). rewrite Nat.add_mod_idemp_l by exact H. reflexivity.
Qed.
Lemma bn_kt_12 k : bn_kt (k mod 12) = bn_kt k /\ bn_kt (S (k mod 12)) = bn_kt (S k).
Proof.
  unfold bn_kt. rewrite mod_mod_12 by auto. rewrite <- (S_mod (k mod 12) 2), mod_mod_12, S_mod by auto. auto.
Qed.
Lemma bn_t1_6 k : bn_t1 (k mod 6) = bn_t1 k /\ bn_t1 (S (k mod 6)) = bn_t1 (S k).
Proof. unfold bn_t1. rewrite Nat.mod_mod, S_mod by auto. auto. Qed.
Lemma bn_t2_6 k : bn_t2 (k mod 6) = bn_t2 k /\ bn_t2 (S (k mod 6)) = bn_t2 (S k).
Proof. unfold bn_t2. rewrite Nat.mod_mod, S_mod by auto. auto. Qed.
Lemma bn_tz_12 k : bn_tz (k mod 12) = bn_tz k /\ bn_tz (S (k mod 12)) = bn_tz (S k).
Proof. unfold bn_tz. rewrite Nat.mod_mod, S_mod by auto. auto. Qed.
Lemma in_seq_mod k m : (m <> 0 -> In (k mod m) (seq 0 m))%nat.
Proof. intros H. apply in_seq. pose proof (Nat.mod_upper_bound k m H). lia. Qed.
Lemma trans_by (p : Z) (a c t b : F2) : eq2 p a (mul2 c t) -> eq2 p t b -> eq2 p a (mul2 c b).
Proof. intros H E. rewrite <- E. exact H. Qed.
Lemma sq_trans (p : Z) (t2 t1 b : F2) : eq2 p t2 (mul2 t1 t1) -> eq2 p t1 b -> eq2 p t2 (mul2 b b).
Proof. intros H E. rewrite <- E. exact H. Qed.
Lemma bn_table_step k :
  bn_kt (S k) ≡ - bn_kt k ⟨bn256_fq_p⟩ /\
  eq2 bn256_fq_p (bn_t1 (S k)) (mul2 (conj2 (bn_t1 k)) (mul2 bn_g bn_g)) /\
  eq2 bn256_fq_p (bn_t2 (S k)) (mul2 (conj2 (bn_t2 k)) (mul2 (mul2 bn_g bn_g) (mul2 bn_g bn_g))) /\
  eq2 bn256_fq_p (bn_tz (S k)) (mul2 (conj2 (bn_tz k)) bn_g).
Proof.
  pose proof (proj1 (forallb_forall bn_row6 (seq 0 6)) bn_tables6 (k mod 6)%nat (in_seq_mod k 6 ltac:(lia))) as H.
  pose proof (proj1 (forallb_forall bn_row12 (seq 0 12)) bn_tables12 (k mod 12)%nat (in_seq_mod k 12 ltac:(lia))) as G.
  unfold bn_row6 in H. unfold bn_row12 in G.
  rewrite (proj1 (bn_t1_6 k)), (proj2 (bn_t1_6 k)), (proj1 (bn_t2_6 k)), (proj2 (bn_t2_6 k)) in H.
  rewrite (proj1 (bn_kt_12 k)), (proj2 (bn_kt_12 k)), (proj1 (bn_tz_12 k)), (proj2 (bn_tz_12 k)) in G.
  apply andb_prop in H as [H1 H2]. apply andb_prop in G as [H3 H4].
  pose proof bn_first as F. apply andb_prop in F as [F1 F2].
  apply eq2b_ok in F1. apply eq2b_ok in F2. apply eq2b_ok in H1. apply eq2b_ok in H2. apply eq2b_ok in H4.
  apply (sq_trans _ _ _ _ F2) in F1 as F3.
  split; [|split; [exact (trans_by _ _ _ _ _ H1 F1)|split; [exact (trans_by _ _ _ _ _ H2 F3)|exact H4]]].
  apply Z.eqb_eq in H3. assert (E : bn_kt (S k) + bn_kt k ≡ 0 ⟨bn256_fq_p⟩) by exact H3.
  replace (bn_kt (S k)) with ((bn_kt (S k) + bn_kt k) - bn_kt k) by ring. rewrite E. reflexivity.
Qed.
Lemma bn_base : bn_kt 0 ≡ 1 ⟨bn256_fq_p⟩ /\ eq2 bn256_fq_p (bn_t1 0) one2 /\ eq2 bn256_fq_p (bn_t2 0) one2 /\
  eq2 bn256_fq_p (bn_tz 0) one2.
Proof. vm_compute. auto. Qed.

Definition bn_steps k := tables_by bn256_fq_p bn_g (g1 bn256_fq_p bn_xi) _ _ _ _ _ _ bn_g_ok
  (proj1 (proj2 (bn_table_step k))) (proj1 (proj2 (proj2 (bn_table_step k)))) (proj2 (proj2 (proj2 (bn_table_step k)))).
Theorem bn_frob2 x k : eq2 bn256_fq_p (pow2 x (bn256_fq_p ^ Z.of_nat k)) (fr2 (bn_kt k) x).
Proof. rewrite pow2_pw.
  exact (frob2_iter bn256_fq_p bn256_fq_p_prime bn_p4 bn_kt (proj1 bn_base) (fun j => proj1 (bn_table_step j)) x k).
Qed.
Theorem bn_frob6 x k : eq6 bn256_fq_p (pow6 bn_xi x (bn256_fq_p ^ Z.of_nat k)) (fr6 (bn_kt k) (bn_t1 k) (bn_t2 k) x).
Proof. rewrite pow6_pw.
  exact (frob6_iter bn256_fq_p bn256_fq_p_prime bn_p4 bn_p6 bn_xi bn_kt bn_t1 bn_t2 (proj1 bn_base)
    (proj1 (proj2 bn_base)) (proj1 (proj2 (proj2 bn_base))) (fun j => proj1 (bn_table_step j))
    (fun j => proj1 (bn_steps j)) (fun j => proj1 (proj2 (bn_steps j))) x k).
Qed.
Theorem bn_frob12 x k : eq12 bn256_fq_p (pow12 bn_xi x (bn256_fq_p ^ Z.of_nat k)) (fr12 (bn_kt k) (bn_t1 k) (bn_t2 k) (bn_tz k) x).
Proof. rewrite pow12_pw.
  exact (frob12_iter bn256_fq_p bn256_fq_p_prime bn_p4 bn_p6 bn_xi bn_kt bn_t1 bn_t2 bn_tz (proj1 bn_base)
    (proj1 (proj2 bn_base)) (proj1 (proj2 (proj2 bn_base))) (proj2 (proj2 (proj2 bn_base))) (fun j => proj1 (bn_table_step j))
    (fun j => proj1 (bn_steps j)) (fun j => proj1 (proj2 (bn_steps j))) (fun j => proj2 (proj2 (bn_steps j))) x k).
Qed.

(** ** bls12-381 *)
Definition bls_g : F2 := (BLS_FQ12_C1_0, BLS_FQ12_C1_1).
Definition bls_g1 : F2 := (0, BLS_FQ6_C1).
Definition bls_g2 : F2 := (BLS_FQ6_C2, 0).
Definition bls_zeta : Z := fst (red2 bls12_381_fq_p (mul2 (conj2 bls_g) bls_g)).
Lemma bls_p4 : bls12_381_fq_p mod 4 = 3. Proof. vm_compute. reflexivity. Qed.
Lemma bls_p6 : bls12_381_fq_p mod 6 = 1. Proof. vm_compute. reflexivity. Qed.
Lemma bls_g_ok : eq2 bls12_381_fq_p (g1 bls12_381_fq_p bls_xi) bls_g.
Proof. unfold g1. apply (pw2_check bls12_381_fq_p bls_xi ((bls12_381_fq_p - 1) / 6) bls_g bls_hints); [vm_compute; reflexivity|]. vm_cast_no_check (eq_refl true). Qed.
Lemma bls_zeta_g : eq2 bls12_381_fq_p (mul2 (conj2 (g1 bls12_381_fq_p bls_xi)) (g1 bls12_381_fq_p bls_xi)) (bls_zeta, 0).
Proof.
  apply (norm_by bls12_381_fq_p bls_g _ _ bls_g_ok). apply eq2b_ok. vm_cast_no_check (eq_refl true).
Qed.
Lemma bls_zeta_6 : bls_zeta * bls_zeta ≡ bls_zeta - 1 ⟨bls12_381_fq_p⟩.
Proof. apply Z.eqb_eq. vm_cast_no_check (eq_refl true). Qed.
Lemma bls_g1_ok : eq2 bls12_381_fq_p bls_g1 (mul2 bls_g bls_g).
Proof. apply eq2b_ok. vm_cast_no_check (eq_refl true). Qed.
Lemma bls_g2_ok : eq2 bls12_381_fq_p bls_g2 (mul2 (mul2 bls_g bls_g) (mul2 bls_g bls_g)).
Proof. apply eq2b_ok. vm_cast_no_check (eq_refl true). Qed.
Theorem bls_frob2 x : eq2 bls12_381_fq_p (pow2 x bls12_381_fq_p) (conj2 x).
Proof. rewrite pow2_pw. apply (frob2 bls12_381_fq_p bls12_381_fq_p_prime bls_p4). Qed.
Definition bls_sq := sq_by bls12_381_fq_p bls_g (g1 bls12_381_fq_p bls_xi) _ _ bls_g_ok bls_g1_ok bls_g2_ok.
Theorem bls_frob6 x : eq6 bls12_381_fq_p (pow6 bls_xi x bls12_381_fq_p) (fr6 (-1) bls_g1 bls_g2 x).
Proof. rewrite pow6_pw.
  exact (transitivity (frob6 bls12_381_fq_p bls12_381_fq_p_prime bls_p4 bls_p6 bls_xi x)
    (fr6_proper bls12_381_fq_p _ _ _ _ _ _ x (reflexivity _) (proj1 bls_sq) (proj2 bls_sq))).
Qed.
Theorem bls_frob12 x : eq12 bls12_381_fq_p (pow12 bls_xi x bls12_381_fq_p) (fr12 (-1) bls_g1 bls_g2 bls_g x).
Proof. rewrite pow12_pw.
  exact (transitivity (frob12 bls12_381_fq_p bls12_381_fq_p_prime bls_p4 bls_p6 bls_xi x)
    (fr12_proper bls12_381_fq_p _ _ _ _ _ _ _ _ x (reflexivity _) (proj1 bls_sq) (proj2 bls_sq) bls_g_ok)).
Qed.

(** ** Cyclotomic squaring *)
Lemma cyclotomic_cyc p xi x : cyclotomic p xi x -> cyc p xi x.
Proof. intros H. exact H. Qed.
Theorem bn_cyc_square x : cyclotomic bn256_fq_p bn_xi x -> eq12 bn256_fq_p (csq bn_xi x) (mul12 bn_xi x x).
Proof. intros H. apply cyclotomic_cyc in H. revert H. apply (cyc_square bn256_fq_p bn256_fq_p_prime bn_p4 bn_p6 bn_xi bn_zeta bn_zeta_g bn_zeta_6). Qed.
Theorem bls_cyc_square x : cyclotomic bls12_381_fq_p bls_xi x -> eq12 bls12_381_fq_p (csq bls_xi x) (mul12 bls_xi x x).
Proof. intros H. apply cyclotomic_cyc in H. revert H. apply (cyc_square bls12_381_fq_p bls12_381_fq_p_prime bls_p4 bls_p6 bls_xi bls_zeta bls_zeta_g bls_zeta_6). Qed.
