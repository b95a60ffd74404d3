(** The pairing equation depends on the coordinates modulo the prime only; the pairs (P, G), (-P, G) as input of C63. *)
From Coq Require Import Znumtheory.
From Verif Require Import Prelude FieldZ Circuit Context Spec Logic ModArith RangeInfo IntegerChip SpecInt InfoProofs IntArith
  EccChip SpecEcc SpecTower TowerRing Cyclotomic Frobenius PairingExp Fq12Chip PairingChip SpecTowerRep SpecPairing SpecAte SpecPairingRep AteExample PairingMain Moduli Fields.

Section Congr.
Variable w : Z.
Definition near (t t' : (Z * Z) * list F6) : Prop :=
  fst (fst t) mod w = fst (fst t') mod w /\ snd (fst t) mod w = snd (fst t') mod w /\ snd t = snd t'.
Lemma mul_near a k k' : k mod w = k' mod w -> (a * k) mod w = (a * k') mod w.
Proof. intros H. rewrite <- (Zmult_mod_idemp_r k), <- (Zmult_mod_idemp_r k'), H. reflexivity. Qed.
Lemma smul2_near k k' x : k mod w = k' mod w -> eq2 w (smul2 k x) (smul2 k' x).
Proof. intros H. destruct x as [a b]. split; apply mul_near; exact H. Qed.
Lemma bn_line_near c P P' : fst P mod w = fst P' mod w -> snd P mod w = snd P' mod w -> eq12 w (bn_line c P) (bn_line c P').
Proof. intros H K. destruct c as [[a b] c]. repeat split; try reflexivity; apply smul2_near; assumption. Qed.
Lemma bls_line_near c P P' : fst P mod w = fst P' mod w -> snd P mod w = snd P' mod w -> eq12 w (bls_line c P) (bls_line c P').
Proof. intros H K. destruct c as [[a b] c]. repeat split; try reflexivity; apply smul2_near; assumption. Qed.
Lemma lines_near xi line l l' j : (forall c P P', fst P mod w = fst P' mod w -> snd P mod w = snd P' mod w -> eq12 w (line c P) (line c P')) ->
  Forall2 near l l' -> eq12 w (lines xi line l j) (lines xi line l' j).
Proof.
  intros HL H. induction H as [|[P cs] [P' cs'] l l' (H1 & H2 & H3) _ IH]; cbn [lines]; [reflexivity|]. cbn [fst snd] in *. subst cs'.
  apply mul12_proper; auto.
Qed.
Definition nearj (s s' : F12 * nat) : Prop := eq12 w (fst s) (fst s') /\ snd s = snd s'.
Lemma bn_miller_near ds l l' : Forall2 near l l' -> eq12 w (fst (bn_miller ds l)) (fst (bn_miller ds l')).
Proof.
  intros H. assert (LN : forall j, eq12 w (lines bn_xi bn_line l j) (lines bn_xi bn_line l' j)) by (intros; apply lines_near; [exact bn_line_near|exact H]).
  unfold bn_miller. assert (K : forall b s s', nearj s s' -> nearj (bn_steps_from l b s ds) (bn_steps_from l' b s' ds)).
  { induction ds as [|d ds IH]; intros b [f j] [f' j'] [H1 H2]; cbn [bn_steps_from]; [split; assumption|]. cbn [fst snd] in *. subst j'.
    apply IH. unfold bn_step. destruct (d =? 0), b; split; cbn [fst snd]; auto; repeat apply mul12_proper; auto. }
  specialize (K true (one12, 0%nat) (one12, 0%nat) ltac:(split; reflexivity)).
  destruct (bn_steps_from l _ _ _) as [f j], (bn_steps_from l' _ _ _) as [f' j']. destruct K as [K1 K2]. cbn [fst snd] in *. subst j'.
  repeat apply mul12_proper; auto.
Qed.
Lemma bls_miller_near ds l l' : Forall2 near l l' -> eq12 w (fst (bls_miller ds l)) (fst (bls_miller ds l')).
Proof.
  intros H. assert (LN : forall j, eq12 w (lines bls_xi bls_line l j) (lines bls_xi bls_line l' j)) by (intros; apply lines_near; [exact bls_line_near|exact H]).
  unfold bls_miller. assert (K : forall s s', nearj s s' -> nearj (fold_left (bls_step l) ds s) (fold_left (bls_step l') ds s')).
  { induction ds as [|d ds IH]; intros [f j] [f' j'] [H1 H2]; cbn [fold_left]; [split; assumption|]. cbn [fst snd] in *. subst j'.
    apply IH. unfold bls_step. destruct d; split; cbn [fst snd]; auto; repeat apply mul12_proper; auto. }
  specialize (K (one12, 0%nat) (one12, 0%nat) ltac:(split; reflexivity)).
  destruct (fold_left _ _ _) as [f j], (fold_left (bls_step l') _ _) as [f' j']. destruct K as [K1 K2]. cbn [fst snd] in *. subst j'.
  apply conj12_proper. repeat apply mul12_proper; auto.
Qed.
Lemma pow12_near xi x y n : eq12 w x y -> eq12 w (pow12 xi x n) (pow12 xi y n).
Proof. exact (pw_proper one12 (mul12 xi) (eq12 w) (mul12_proper w xi) x y n). Qed.
Lemma red_near xi x y n : eq12 w x y -> eq12 w (pow12 xi y n) one12 -> eq12 w (pow12 xi x n) one12.
Proof. intros H K. rewrite <- K. apply pow12_near. exact H. Qed.
End Congr.
Local Opaque pow12 bn_miller bls_miller bn_ate_lines bls_ate_lines bn_digits bls_digits.

Lemma bn_opposite_reduced : forall x y, 0 < y < bn256_fq_p -> let ts := [((x, y), bn_gen); ((x, bn256_fq_p - y), bn_gen)] in
  exists ls, bn_ate_terms ts ls /\ y_nonzero bn256_fq_p ts /\ eq12 bn256_fq_p (bn_reduced_pairing ls) one12.
Proof.
  intros x y Y. assert (Y0 : y mod bn256_fq_p <> 0) by (rewrite Z.mod_small by lia; lia).
  destruct (bn_opposite_case x y Y0) as (ls & H1 & H2 & H3). inversion H1 as [|? [P1 c1] ? l1 (A1 & A2) T1]; subst.
  inversion T1 as [|? [P2 c2] ? l2 (B1 & B2) T2]; subst. inversion T2; subst. cbn [fst snd] in *. subst P1 P2.
  exists [((x, y), c1); ((x, bn256_fq_p - y), c2)]. split; [|split].
  - constructor; [split; [reflexivity|exact A2]|]. constructor; [split; [reflexivity|exact B2]|constructor].
  - constructor; [exact Y0|]. constructor; [cbn [fst snd]; rewrite Z.mod_small by lia; lia|constructor].
  - unfold bn_reduced_pairing in *. refine (red_near _ _ _ _ _ (bn_miller_near _ _ _ _ _) H3). constructor; [repeat split|]. constructor; [|constructor]. split; [reflexivity|].
    split; [|reflexivity]. cbn [fst snd]. replace (bn256_fq_p - y) with (- y + 1 * bn256_fq_p) by ring. apply Z_mod_plus_full.
Qed.
Lemma bls_opposite_reduced : forall x y, 0 < y < bls12_381_fq_p -> let ts := [((x, y), bls_gen); ((x, bls12_381_fq_p - y), bls_gen)] in
  exists ls, bls_ate_terms ts ls /\ y_nonzero bls12_381_fq_p ts /\ eq12 bls12_381_fq_p (bls_reduced_pairing ls) one12.
Proof.
  intros x y Y. assert (Y0 : y mod bls12_381_fq_p <> 0) by (rewrite Z.mod_small by lia; lia).
  destruct (bls_opposite_case x y Y0) as (ls & H1 & H2 & H3). inversion H1 as [|? [P1 c1] ? l1 (A1 & A2) T1]; subst.
  inversion T1 as [|? [P2 c2] ? l2 (B1 & B2) T2]; subst. inversion T2; subst. cbn [fst snd] in *. subst P1 P2.
  exists [((x, y), c1); ((x, bls12_381_fq_p - y), c2)]. split; [|split].
  - constructor; [split; [reflexivity|exact A2]|]. constructor; [split; [reflexivity|exact B2]|constructor].
  - constructor; [exact Y0|]. constructor; [cbn [fst snd]; rewrite Z.mod_small by lia; lia|constructor].
  - unfold bls_reduced_pairing in *. refine (red_near _ _ _ _ _ (bls_miller_near _ _ _ _ _) H3). constructor; [repeat split|]. constructor; [|constructor]. split; [reflexivity|].
    split; [|reflexivity]. cbn [fst snd]. replace (bls12_381_fq_p - y) with (- y + 1 * bls12_381_fq_p) by ring. apply Z_mod_plus_full.
Qed.
