(** The Miller loops of the gadgets against the ate pairings of SpecAte.v. *)
From Coq Require Import Znumtheory Setoid Morphisms.
From Verif Require Import Prelude FieldZ Circuit Context Spec Logic ModArith Prims BaseChip BaseProofs
  RangeInfo RangeChip IntegerChip SpecInt InfoProofs IntArith RangeProofs IntInv IntSound IntComplete IntBridge
  IntRes EccChip SpecTower TowerRing Frobenius Cyclotomic Moduli PairingConsts Fq12Chip PairingChip TowerProofs PairingFacts PairingExp SpecPairing
  PairingProofs SpecAte PairingCurve TowerField.
Add Ring F2r : F2_ring.

(** ** Digits *)
Lemma bn_indices : bn_loop_indices = 64%nat :: rev (seq 1 63). Proof. reflexivity. Qed.
Lemma bn_digits_map : map bn_digit bn_loop_indices = bn_digits. Proof. reflexivity. Qed.
Lemma bn_digits_ok : Forall (fun d => d = 0 \/ d = 1 \/ d = -1) bn_digits.
Proof. apply Forall_forall. intros d H. vm_compute in H. repeat (destruct H as [<-|H]; [auto|]). destruct H. Qed.
(** The lines prepared by the gadget. *)
Lemma bn_fold_prep q idx X acc : fold_left (bn_prep_step q) idx (X, acc) =
  (fst (prep q (map bn_digit idx) X), acc ++ snd (prep q (map bn_digit idx) X)).
Proof.
  revert X acc. induction idx as [|i idx IH]; intros X acc; cbn [fold_left map prep fst snd]; [rewrite app_nil_r; reflexivity|].
  unfold bn_prep_step at 2. change (fst q, neg2 (snd q)) with (neg_pt q). destruct (bn_digit i =? 1); cbn [orb].
  - rewrite IH. destruct (prep q (map bn_digit idx) _) as [X' ls]. cbn [fst snd]. rewrite <- !app_assoc. reflexivity.
  - destruct (bn_digit i =? -1).
    + rewrite IH. destruct (prep q (map bn_digit idx) _) as [X' ls]. cbn [fst snd]. rewrite <- !app_assoc. reflexivity.
    + rewrite IH. destruct (prep q (map bn_digit idx) _) as [X' ls]. cbn [fst snd]. rewrite <- !app_assoc. reflexivity.
Qed.
Definition count (ds : list Z) (n : nat) : nat := fold_right (fun d m => (uses d + m)%nat) n ds.
Lemma count_add ds n : count ds n = (count ds 0 + n)%nat.
Proof. induction ds as [|d ds IH]; cbn [count fold_right] in *; [reflexivity|]. unfold count in IH. rewrite IH. lia. Qed.
Lemma bn_total_count : bn_total = count bn_digits 2. Proof. reflexivity. Qed.
Lemma bn_lines_length q : length (bn_lines q) = bn_total.
Proof.
  unfold bn_lines. rewrite bn_fold_prep, bn_digits_map. cbn [app]. rewrite app_length, prep_length. cbn [length].
  rewrite bn_total_count, (count_add _ 2). reflexivity.
Qed.
(** The specification of the loop. *)
Lemma bn_mstep_from terms idx s : ~ In 64%nat idx -> Forall (fun d => d = 0 \/ d = 1 \/ d = -1) (map bn_digit idx) ->
  fold_left (bn_mstep terms) idx s = bn_steps_from terms false s (map bn_digit idx).
Proof.
  revert s. induction idx as [|i idx IH]; intros s N D; cbn [fold_left map bn_steps_from]; [reflexivity|].
  inversion D as [|? ? D1 D2]; subst. rewrite IH; [|intros H; apply N; right; exact H|exact D2]. f_equal.
  destruct s as [f j]. unfold bn_mstep, bn_step. destruct (Nat.eqb_spec i 64) as [->|_]; [exfalso; apply N; left; reflexivity|].
  destruct D1 as [-> | [-> | ->]]; reflexivity.
Qed.
Lemma fold_left_cons {A B} (f : A -> B -> A) b l s : fold_left f (b :: l) s = fold_left f l (f s b). Proof. reflexivity. Qed.
Lemma bn_steps_cons terms b s d ds : bn_steps_from terms b s (d :: ds) = bn_steps_from terms false (bn_step terms b s d) ds. Proof. reflexivity. Qed.
Lemma bn_first_step terms : bn_mstep terms (one12, 0%nat) 64 = bn_step terms true (one12, 0%nat) 1. Proof. reflexivity. Qed.
Lemma bn_digits_cons : bn_digits = 1 :: map bn_digit (rev (seq 1 63)). Proof. reflexivity. Qed.
Lemma bn_rest_ok : Forall (fun d => d = 0 \/ d = 1 \/ d = -1) (map bn_digit (rev (seq 1 63))).
Proof. pose proof bn_digits_ok as H. rewrite bn_digits_cons in H. exact (Forall_inv_tail H). Qed.
Lemma bn_mfold terms : fold_left (bn_mstep terms) bn_loop_indices (one12, 0%nat) = bn_steps_from terms true (one12, 0%nat) bn_digits.
Proof.
  rewrite bn_indices, fold_left_cons, bn_digits_cons, bn_steps_cons, bn_first_step.
  apply bn_mstep_from; [|exact bn_rest_ok]. rewrite <- in_rev, in_seq. lia.
Qed.
Lemma bn_mresult_spec terms : bn_mresult terms = fst (bn_miller bn_digits terms).
Proof. unfold bn_mresult, bn_miller. rewrite bn_mfold. destruct (bn_steps_from _ _ _ _) as [f j]. reflexivity. Qed.

Section Sims.
Variable w : Z.
Section BnSim.
Hypothesis field2 : forall x, ~ eq2 w x zero2 -> exists y, eq2 w (mul2 x y) one2.
Hypothesis w_odd : 2 < w.
Notation sim := (sim w bn_xi).
Notation lines := (lines bn_xi bn_line).
Variables ts ts' : list ((Z * Z) * list F6).
Lemma bn_line_scale k a P : bn_line (scale k a) P = mul12 bn_xi (emb k) (bn_line a P).
Proof.
  destruct a as [[a b] c], P as [x y]. unfold bn_line, scale, emb, zero6, mul12, add6, mul6, v6. rewrite !smul2_mul. cbn [fst snd].
  repeat apply pair_eq; ring.
Qed.
Lemma smul2_proper k a b : eq2 w a b -> eq2 w (smul2 k a) (smul2 k b).
Proof. intros H. rewrite !smul2_mul, H. reflexivity. Qed.
Lemma bn_line_proper a b P : eq6 w a b -> eq12 w (bn_line a P) (bn_line b P).
Proof.
  destruct a as [[a1 a2] a3], b as [[b1 b2] b3], P as [x y]. intros (H1 & H2 & H3). unfold bn_line. cbn [fst snd].
  split; apply eq6_intro; cbn [fst snd]; try reflexivity; try apply smul2_proper; assumption.
Qed.
Hypothesis TS : Forall2 (tsim w) ts ts'.
Lemma bn_lines_sim j : sim (lines ts j) (lines ts' j).
Proof. apply (lines_sim w bn_xi field2 w_odd bn_line bn_line_scale bn_line_proper); assumption. Qed.
Lemma bn_steps_sim ds b f f' j : sim f f' ->
  sim (fst (bn_steps_from ts b (f, j) ds)) (fst (bn_steps_from ts' b (f', j) ds)) /\
  snd (bn_steps_from ts b (f, j) ds) = snd (bn_steps_from ts' b (f', j) ds).
Proof.
  revert b f f' j. induction ds as [|d ds IH]; intros b f f' j H; cbn [bn_steps_from]; [auto|].
  unfold bn_step. destruct (d =? 0), b; apply IH; repeat apply sim_mul; auto using bn_lines_sim.
Qed.
Lemma bn_miller_sim ds : sim (fst (bn_miller ds ts)) (fst (bn_miller ds ts')).
Proof.
  unfold bn_miller. destruct (bn_steps_sim ds true one12 one12 0) as [H1 H2]; [apply sim_refl; assumption|].
  destruct (bn_steps_from ts _ _ _) as [f j], (bn_steps_from ts' _ _ _) as [f' j']. cbn [fst snd] in *. subst j'.
  repeat apply sim_mul; auto using bn_lines_sim.
Qed.
End BnSim.
Section BnUnit.
Variable ts : list ((Z * Z) * list F6).
Variable N : nat.
Notation unit12 := (fun f : F12 => exists y, eq12 w (mul12 bn_xi f y) one12).
Hypothesis TN : Forall (fun t => length (snd t) = N /\ Forall (good_line w bn_xi bn_line (fst t)) (snd t)) ts.
Lemma bn_lines_unit j : (j < N)%nat -> unit12 (lines bn_xi bn_line ts j).
Proof. intros L. apply lines_unit. eapply Forall_impl; [|exact TN]. cbv beta. intros t [E H]. split; [lia|exact H]. Qed.
Lemma bn_steps_unit ds b f j : Forall (fun d => d = 0 \/ d = 1 \/ d = -1) ds -> unit12 f -> (j + count ds 0 <= N)%nat ->
  unit12 (fst (bn_steps_from ts b (f, j) ds)) /\ snd (bn_steps_from ts b (f, j) ds) = (j + count ds 0)%nat.
Proof.
  revert b f j. induction ds as [|d ds IH]; intros b f j D H L; cbn [bn_steps_from].
  - split; [exact H|]. cbn. lia.
  - inversion D as [|? ? D1 D2]; subst. change (count (d :: ds) 0) with (uses d + count ds 0)%nat in *.
    assert (U : unit12 (mul12 bn_xi (if b then f else mul12 bn_xi f f) (lines bn_xi bn_line ts j))).
    { apply unit_mul; [destruct b; [exact H|apply unit_mul; exact H]|]. apply bn_lines_unit. destruct D1 as [->|[->| ->]]; cbn [uses Z.eqb orb] in L; unfold uses in L; cbn in L; lia. }
    unfold bn_step. destruct (Z.eqb_spec d 0) as [->|Hd].
    + change (uses 0) with 1%nat in *. destruct (IH false _ (S j) D2 U ltac:(lia)) as [K1 K2]. split; [exact K1|]. rewrite K2. lia.
    + assert (E : uses d = 2%nat) by (destruct D1 as [->|[->| ->]]; [lia|reflexivity|reflexivity]). rewrite E in *.
      destruct (IH false (mul12 bn_xi (mul12 bn_xi (if b then f else mul12 bn_xi f f) (lines bn_xi bn_line ts j)) (lines bn_xi bn_line ts (S j))) (S (S j)) D2) as [K1 K2].
      * apply unit_mul; [exact U|]. apply bn_lines_unit. lia.
      * lia.
      * split; [exact K1|]. rewrite K2. lia.
Qed.
Lemma bn_miller_unit ds : Forall (fun d => d = 0 \/ d = 1 \/ d = -1) ds -> count ds 2 = N -> unit12 (fst (bn_miller ds ts)).
Proof.
  intros D L. rewrite count_add in L. unfold bn_miller. destruct (bn_steps_unit ds true one12 0 D) as [H1 H2]; [apply unit_one|lia|].
  destruct (bn_steps_from ts _ _ _) as [f j]. cbn [fst snd] in *. subst j.
  repeat apply unit_mul; [exact H1| |]; apply bn_lines_unit; lia.
Qed.
End BnUnit.

Section BlsSim.
Hypothesis field2 : forall x, ~ eq2 w x zero2 -> exists y, eq2 w (mul2 x y) one2.
Hypothesis w_odd : 2 < w.
Notation sim := (sim w bls_xi).
Notation lines := (lines bls_xi bls_line).
Variables ts ts' : list ((Z * Z) * list F6).
Lemma bls_line_scale k a P : bls_line (scale k a) P = mul12 bls_xi (emb k) (bls_line a P).
Proof.
  destruct a as [[a b] c], P as [x y]. unfold bls_line, scale, emb, zero6, mul12, add6, mul6, v6. rewrite !smul2_mul. cbn [fst snd].
  repeat apply pair_eq; ring.
Qed.
Lemma bls_line_proper a b P : eq6 w a b -> eq12 w (bls_line a P) (bls_line b P).
Proof.
  destruct a as [[a1 a2] a3], b as [[b1 b2] b3], P as [x y]. intros (H1 & H2 & H3). unfold bls_line. cbn [fst snd].
  split; apply eq6_intro; cbn [fst snd]; try reflexivity; try apply smul2_proper; assumption.
Qed.
Hypothesis TS : Forall2 (tsim w) ts ts'.
Lemma bls_lines_sim j : sim (lines ts j) (lines ts' j).
Proof. apply (lines_sim w bls_xi field2 w_odd bls_line bls_line_scale bls_line_proper); assumption. Qed.
Lemma bls_steps_sim ds f f' j : sim f f' ->
  sim (fst (fold_left (bls_step ts) ds (f, j))) (fst (fold_left (bls_step ts') ds (f', j))) /\
  snd (fold_left (bls_step ts) ds (f, j)) = snd (fold_left (bls_step ts') ds (f', j)).
Proof.
  revert f f' j. induction ds as [|d ds IH]; intros f f' j H; cbn [fold_left]; [auto|].
  unfold bls_step at 2 4 6 8. destruct d; apply IH; repeat apply sim_mul; auto using bls_lines_sim.
Qed.
Lemma bls_miller_sim ds : sim (fst (bls_miller ds ts)) (fst (bls_miller ds ts')).
Proof.
  unfold bls_miller. destruct (bls_steps_sim ds one12 one12 0) as [H1 H2]; [apply sim_refl; assumption|].
  destruct (fold_left (bls_step ts) _ _) as [f j], (fold_left (bls_step ts') _ _) as [f' j']. cbn [fst snd] in *. subst j'.
  apply sim_conj. apply sim_mul; auto using bls_lines_sim.
Qed.
End BlsSim.
Definition bcount (ds : list bool) : nat := count (map (fun b : bool => if b then 1 else 0) ds) 0.
Section BlsUnit.
Variable ts : list ((Z * Z) * list F6).
Variable N : nat.
Notation unit12 := (fun f : F12 => exists y, eq12 w (mul12 bls_xi f y) one12).
Hypothesis TN : Forall (fun t => length (snd t) = N /\ Forall (good_line w bls_xi bls_line (fst t)) (snd t)) ts.
Lemma bls_lines_unit j : (j < N)%nat -> unit12 (lines bls_xi bls_line ts j).
Proof. intros L. apply lines_unit. eapply Forall_impl; [|exact TN]. cbv beta. intros t [E H]. split; [lia|exact H]. Qed.
Lemma bls_steps_unit ds f j : unit12 f -> (j + bcount ds <= N)%nat ->
  unit12 (fst (fold_left (bls_step ts) ds (f, j))) /\ snd (fold_left (bls_step ts) ds (f, j)) = (j + bcount ds)%nat.
Proof.
  revert f j. induction ds as [|d ds IH]; intros f j H L; cbn [fold_left].
  - split; [exact H|]. cbn. lia.
  - change (bcount (d :: ds)) with (uses (if d then 1 else 0) + bcount ds)%nat in *. unfold bls_step at 2 4.
    destruct d; [change (uses 1) with 2%nat in *|change (uses 0) with 1%nat in *].
    + edestruct (fun f H => IH f (S (S j)) H) as [K1 K2]; [..|split; [exact K1|rewrite K2; lia]]; [|lia].
      apply unit_mul; (apply unit_mul; [apply unit_mul; [exact H|]|]); apply bls_lines_unit; lia.
    + edestruct (fun f H => IH f (S j) H) as [K1 K2]; [..|split; [exact K1|rewrite K2; lia]]; [|lia].
      apply unit_mul; (apply unit_mul; [exact H|]); apply bls_lines_unit; lia.
Qed.
Lemma bls_miller_unit ds : (S (bcount ds) = N)%nat -> unit12 (fst (bls_miller ds ts)).
Proof.
  intros L. unfold bls_miller. destruct (bls_steps_unit ds one12 0) as [H1 H2]; [apply unit_one|lia|].
  destruct (fold_left (bls_step ts) _ _) as [f j]. cbn [fst snd] in *. subst j.
  apply unit_conj. apply unit_mul; [exact H1|]. apply bls_lines_unit; lia.
Qed.
End BlsUnit.
End Sims.

(** ** bls12-381: digits *)
Lemma bls_bits_digits : bls_bits (Z.shiftr BLS_X 1) = false :: true :: bls_digits. Proof. reflexivity. Qed.
Lemma bls_fold_prep q bits X acc : fold_left (bls_prep_step q) bits (true, (X, acc)) =
  (true, (fst (prep q (map (fun b : bool => if b then 1 else 0) bits) X), acc ++ snd (prep q (map (fun b : bool => if b then 1 else 0) bits) X))).
Proof.
  revert X acc. induction bits as [|b bits IH]; intros X acc; cbn [fold_left map prep fst snd]; [rewrite app_nil_r; reflexivity|].
  unfold bls_prep_step at 2. destruct b; cbn [Z.eqb Pos.eqb orb]; rewrite IH;
    destruct (prep q (map _ bits) _) as [X' ls]; cbn [fst snd]; rewrite <- !app_assoc; reflexivity.
Qed.
Definition bls_zdigits : list Z := map (fun b : bool => if b then 1 else 0) bls_digits.
Lemma bls_lines_prep q : bls_lines q =
  snd (prep q bls_zdigits (fst q, snd q, one2)) ++ [dbl_line (fst (prep q bls_zdigits (fst q, snd q, one2)))].
Proof.
  unfold bls_lines. rewrite bls_bits_digits, !fold_left_cons. unfold bls_prep_step at 2 3. rewrite bls_fold_prep. reflexivity.
Qed.
Lemma bls_total_count : bls_total = S (bcount bls_digits). Proof. reflexivity. Qed.
Lemma bls_lines_length q : length (bls_lines q) = bls_total.
Proof. rewrite bls_lines_prep, app_length, prep_length, bls_total_count. cbn [length]. unfold bcount, count, bls_zdigits. lia. Qed.
Lemma bls_mfold terms bits s : fold_left (bls_mstep terms) bits (true, s) = (true, fold_left (bls_step terms) bits s).
Proof. revert s. induction bits as [|b bits IH]; intros s; cbn [fold_left]; [reflexivity|]. unfold bls_mstep at 2. cbn [fst snd]. apply IH. Qed.
Lemma bls_mresult_spec terms : bls_mresult terms = fst (bls_miller bls_digits terms).
Proof.
  unfold bls_mresult, bls_miller. rewrite bls_bits_digits, !fold_left_cons. unfold bls_mstep at 2 3. cbn [fst snd].
  rewrite bls_mfold. destruct (fold_left (bls_step terms) _ _) as [f j]. reflexivity.
Qed.

(** ** Frobenius on the twist *)
Section Twist.
Variable p : Z.
Hypothesis P : prime p.
Hypothesis P4 : p mod 4 = 3.
Hypothesis P6 : p mod 6 = 1.
Variable xi : F2.
Notation "x == y" := (eq2 p x y) (at level 70).
Let g := g1 p xi.
Lemma twist_fr Q : fst (twist_frobenius p xi Q) == mul2 (conj2 (fst Q)) (mul2 g g) /\
  snd (twist_frobenius p xi Q) == mul2 (conj2 (snd Q)) (mul2 g (mul2 g g)).
Proof.
  unfold twist_frobenius. cbn [fst snd]. unfold g, g1.
  pose proof (Z.div_mod p 6 ltac:(lia)) as E. rewrite P6 in E. pose proof (prime_ge_2 _ P). set (m := p / 6) in *. clearbody m. assert (0 <= m) by lia.
  assert (E1 : (p - 1) / 6 = m) by (rewrite E; replace (6 * m + 1 - 1) with (m * 6) by ring; apply Z.div_mul; lia).
  assert (E2 : (p - 1) / 3 = m + m) by (rewrite E; replace (6 * m + 1 - 1) with ((m + m) * 3) by ring; apply Z.div_mul; lia).
  assert (E3 : (p - 1) / 2 = m + (m + m)) by (rewrite E; replace (6 * m + 1 - 1) with ((m + (m + m)) * 2) by ring; apply Z.div_mul; lia).
  rewrite E1, E2, E3, !pow2_pw. rewrite !(pw_add F2_ring) by lia. rewrite !(frob2 p P P4). split; reflexivity.
Qed.
End Twist.
Lemma eq2_conj p x y : eq2 p x y -> eq2 p (conj2 x) (conj2 y). Proof. intros H. rewrite H. reflexivity. Qed.
Definition bn_twist_checks : bool :=
  eq2b bn256_fq_p (bn_to_fq2 (nth 1 FROBENIUS_COEFF_FQ6_C1 (0, 0))) (mul2 bn_g bn_g) &&
  eq2b bn256_fq_p (bn_to_fq2 XI_TO_Q_MINUS_1_OVER_2) (mul2 bn_g (mul2 bn_g bn_g)) &&
  eq2b bn256_fq_p (bn_to_fq2 (nth 2 FROBENIUS_COEFF_FQ6_C1 (0, 0))) (mul2 (conj2 (mul2 bn_g bn_g)) (mul2 bn_g bn_g)) &&
  eq2b bn256_fq_p (neg2 one2) (mul2 (conj2 (mul2 bn_g (mul2 bn_g bn_g))) (mul2 bn_g (mul2 bn_g bn_g))).
Lemma bn_twist_ok : bn_twist_checks = true. Proof. vm_compute. reflexivity. Qed.
Definition bn_q1 (q : G2) : G2 := (mul2 (conj2 (fst q)) (bn_to_fq2 (nth 1 FROBENIUS_COEFF_FQ6_C1 (0, 0))),
             mul2 (conj2 (snd q)) (bn_to_fq2 XI_TO_Q_MINUS_1_OVER_2)).
Definition bn_q2 (q : G2) : G2 := (mul2 (fst q) (bn_to_fq2 (nth 2 FROBENIUS_COEFF_FQ6_C1 (0, 0))), snd q).
Lemma conj_conj2 x : conj2 (conj2 x) = x. Proof. destruct x as [a b]. unfold conj2. apply pair_eq; ring. Qed.
Lemma twist_by p (q q1' q2' : G2) (g g' c1 c2 c3 : F2) : eq2 p g g' -> eq2 p c1 (mul2 g' g') -> eq2 p c2 (mul2 g' (mul2 g' g')) ->
  eq2 p c3 (mul2 (conj2 (mul2 g' g')) (mul2 g' g')) -> eq2 p (neg2 one2) (mul2 (conj2 (mul2 g' (mul2 g' g'))) (mul2 g' (mul2 g' g'))) ->
  eq2 p (fst q1') (mul2 (conj2 (fst q)) (mul2 g g)) -> eq2 p (snd q1') (mul2 (conj2 (snd q)) (mul2 g (mul2 g g))) ->
  eq2 p (fst q2') (mul2 (conj2 (fst q1')) (mul2 g g)) -> eq2 p (snd q2') (mul2 (conj2 (snd q1')) (mul2 g (mul2 g g))) ->
  (eq2 p (mul2 (conj2 (fst q)) c1) (fst q1') /\ eq2 p (mul2 (conj2 (snd q)) c2) (snd q1')) /\
  (eq2 p (mul2 (fst q) c3) (fst q2') /\ eq2 p (snd q) (neg2 (snd q2'))).
Proof.
  intros G H1 H2 H3 H4 K1 K2 K3 K4. split; split.
  - rewrite K1, H1, G. reflexivity.
  - rewrite K2, H2, G. reflexivity.
  - rewrite K3, K1, H3, G. apply eq2_by. rewrite !conj2_mul, conj_conj2. ring.
  - rewrite K4, K2, G.
    transitivity (neg2 (mul2 (snd q) (mul2 (conj2 (mul2 g' (mul2 g' g'))) (mul2 g' (mul2 g' g'))))); [|apply eq2_by; rewrite !conj2_mul, conj_conj2; ring].
    rewrite <- H4. apply eq2_by. ring.
Qed.
Lemma twist_all p xi (P : prime p) (P4 : p mod 4 = 3) (P6 : p mod 6 = 1) (q a b : G2) (g' c1 c2 c3 : F2) :
  eq2 p (g1 p xi) g' -> eq2 p c1 (mul2 g' g') -> eq2 p c2 (mul2 g' (mul2 g' g')) ->
  eq2 p c3 (mul2 (conj2 (mul2 g' g')) (mul2 g' g')) -> eq2 p (neg2 one2) (mul2 (conj2 (mul2 g' (mul2 g' g'))) (mul2 g' (mul2 g' g'))) ->
  a = (mul2 (conj2 (fst q)) c1, mul2 (conj2 (snd q)) c2) -> b = (mul2 (fst q) c3, snd q) ->
  (eq2 p (fst a) (fst (twist_frobenius p xi q)) /\ eq2 p (snd a) (snd (twist_frobenius p xi q))) /\
  (eq2 p (fst b) (fst (neg_pt (twist_frobenius p xi (twist_frobenius p xi q)))) /\
   eq2 p (snd b) (snd (neg_pt (twist_frobenius p xi (twist_frobenius p xi q))))).
Proof.
  intros G H1 H2 H3 H4 -> ->. destruct (twist_fr p P P4 P6 xi q) as [K1 K2].
  set (q1 := twist_frobenius p xi q) in *. destruct (twist_fr p P P4 P6 xi q1) as [K3 K4].
  exact (twist_by p q q1 (twist_frobenius p xi q1) _ _ _ _ _ G H1 H2 H3 H4 K1 K2 K3 K4).
Qed.
Lemma bn_twist_gen p q : p = bn256_fq_p ->
  (eq2 p (fst (bn_q1 q)) (fst (twist_frobenius p bn_xi q)) /\ eq2 p (snd (bn_q1 q)) (snd (twist_frobenius p bn_xi q))) /\
  (eq2 p (fst (bn_q2 q)) (fst (neg_pt (twist_frobenius p bn_xi (twist_frobenius p bn_xi q)))) /\
   eq2 p (snd (bn_q2 q)) (snd (neg_pt (twist_frobenius p bn_xi (twist_frobenius p bn_xi q))))).
Proof.
  intros E. pose proof bn_twist_ok as C. unfold bn_twist_checks in C. rewrite !andb_true_iff in C. destruct C as [[[C1 C2] C3] C4].
  apply eq2b_ok in C1, C2, C3, C4. pose proof bn_g_ok as G. pose proof bn256_fq_p_prime as P. pose proof bn_p4 as P4. pose proof bn_p6 as P6.
  rewrite <- E in *. clear E.
  exact (twist_all p bn_xi P P4 P6 q _ _ _ _ _ _ G C1 C2 C3 C4 eq_refl eq_refl).
Qed.

(** ** The lines of the gadgets are the lines of the ate pairing, up to factors *)
Lemma bn_lines_prep q : bn_lines q = let X := fst (prep q bn_digits (fst q, snd q, one2)) in
  snd (prep q bn_digits (fst q, snd q, one2)) ++ [add_line X (bn_q1 q)] ++ [add_line (add_pt X (bn_q1 q)) (bn_q2 q)].
Proof. unfold bn_lines. rewrite bn_fold_prep, bn_digits_map. reflexivity. Qed.
Section BnAte.
Variable w : Z.
Hypothesis Ew : w = bn256_fq_p.
Hypothesis field2 : forall x, ~ eq2 w x zero2 -> exists y, eq2 w (mul2 x y) one2.
Hypothesis w_odd : 2 < w.
Lemma bn_ate_multiple Q ls : bn_ate_lines w bn_digits Q ls -> Forall2 (multiple w) (bn_lines Q) ls.
Proof.
  intros (T & l1 & mu & nu & HS & H). cbv zeta in H. destruct H as (N1 & C1 & N2 & C2 & ->).
  rewrite bn_lines_prep. cbv zeta.
  destruct (prep_steps w field2 w_odd Q bn_digits Q T l1 HS _ (finite_start w w_odd Q)) as [F1 M1].
  set (X := fst (prep Q bn_digits _)) in *.
  destruct (bn_twist_gen w Q Ew) as [[A1 A2] [A3 A4]].
  destruct (add_finite w field2 w_odd X T (bn_q1 Q) _ mu A1 A2 F1 N1 C1) as [F2 M2].
  destruct (add_finite w field2 w_odd _ _ (bn_q2 Q) _ nu A3 A4 F2 N2 C2) as [F3 M3].
  apply Forall2_app; [exact M1|]. repeat constructor; assumption.
Qed.
End BnAte.
Section BlsAte.
Variable w : Z.
Hypothesis field2 : forall x, ~ eq2 w x zero2 -> exists y, eq2 w (mul2 x y) one2.
Hypothesis w_odd : 2 < w.
Lemma bls_ate_multiple Q ls : bls_ate_lines w bls_digits Q ls -> Forall2 (multiple w) (bls_lines Q) ls.
Proof.
  intros (T & l1 & lam & HS & N1 & C1 & ->). rewrite bls_lines_prep.
  destruct (prep_steps w field2 w_odd Q bls_zdigits Q T l1 HS _ (finite_start w w_odd Q)) as [F1 M1].
  destruct (dbl_finite w field2 w_odd _ T lam F1 N1 C1) as [F2 M2].
  apply Forall2_app; [exact M1|]. repeat constructor; assumption.
Qed.
End BlsAte.
