(** Congruences and small number-theory facts used by the proofs. *)
From Verif Require Import Prelude FieldZ.
From Coq Require Import Setoid Morphisms.

Definition eqm (m a b : Z) : Prop := a mod m = b mod m.
Notation "a ≡ b ⟨ m ⟩" := (eqm m a b) (at level 70, b at next level, m at level 99).

Global Instance eqm_equiv m : Equivalence (eqm m).
Proof. split; unfold eqm; congruence. Qed.
Global Instance eqm_add m : Proper (eqm m ==> eqm m ==> eqm m) Z.add.
Proof. intros a b H c d K. unfold eqm in *. rewrite Zplus_mod, H, K, <- Zplus_mod; auto. Qed.
Global Instance eqm_sub m : Proper (eqm m ==> eqm m ==> eqm m) Z.sub.
Proof. intros a b H c d K. unfold eqm in *. rewrite Zminus_mod, H, K, <- Zminus_mod; auto. Qed.
Global Instance eqm_mul m : Proper (eqm m ==> eqm m ==> eqm m) Z.mul.
Proof. intros a b H c d K. unfold eqm in *. rewrite Zmult_mod, H, K, <- Zmult_mod; auto. Qed.
Global Instance eqm_opp m : Proper (eqm m ==> eqm m) Z.opp.
Proof. intros a b H. rewrite <- !Z.sub_0_l. rewrite H. reflexivity. Qed.

Lemma eqm_refl m a : a ≡ a ⟨m⟩.
Proof. reflexivity. Qed.
Lemma eqm_eq m a b : a = b -> a ≡ b ⟨m⟩.
Proof. intros ->; reflexivity. Qed.
Lemma mod_eqm m a : a mod m ≡ a ⟨m⟩.
Proof. unfold eqm. apply Zmod_mod. Qed.
Lemma eqm_modulus m : m ≡ 0 ⟨m⟩.
Proof. unfold eqm. rewrite Z_mod_same_full, Zmod_0_l. reflexivity. Qed.
Lemma eqm_0_iff m a : a ≡ 0 ⟨m⟩ <-> a mod m = 0.
Proof. unfold eqm. rewrite Zmod_0_l. reflexivity. Qed.
Lemma eqm_divide m a b : m <> 0 -> a ≡ b ⟨m⟩ <-> (m | a - b).
Proof.
  intros Hm. unfold eqm. split; intros H.
  - apply Z.mod_divide; [auto|]. rewrite Zminus_mod, H, Z.sub_diag. apply Zmod_0_l.
  - destruct H as [k H]. replace a with (b + k * m) by lia. apply Z_mod_plus_full.
Qed.
Lemma eqm_sub_0 m a b : a ≡ b ⟨m⟩ <-> a - b ≡ 0 ⟨m⟩.
Proof.
  split; intros H.
  - rewrite H. apply eqm_eq. ring.
  - replace a with ((a - b) + b) by ring. rewrite H. reflexivity.
Qed.
Lemma eqm_small m a b : a ≡ b ⟨m⟩ -> 0 <= a < m -> 0 <= b < m -> a = b.
Proof. unfold eqm. intros H Ha Hb. rewrite !Z.mod_small in H; auto. Qed.
Lemma eqm_mod_intro m a b : a ≡ b ⟨m⟩ -> 0 <= a < m -> a = b mod m.
Proof. unfold eqm. intros H Ha. rewrite Z.mod_small in H; auto. Qed.
Lemma eqm_trans_mul m k a b : a ≡ b ⟨m * k⟩ -> m <> 0 -> k <> 0 -> a ≡ b ⟨m⟩.
Proof.
  intros H Hm Hk. apply eqm_divide in H; [|nia]. apply eqm_divide; [auto|].
  destruct H as [q H]. exists (q * k). lia.
Qed.
Lemma eqm_cancel p a b : prime p -> a * b ≡ 0 ⟨p⟩ -> a ≡ 0 ⟨p⟩ \/ b ≡ 0 ⟨p⟩.
Proof.
  intros P H. pose proof (prime_ge_2 _ P).
  apply eqm_divide in H; [|lia]. rewrite Z.sub_0_r in H.
  apply prime_mult in H; auto.
  destruct H as [H|H]; [left|right]; apply eqm_divide; try lia; rewrite Z.sub_0_r; auto.
Qed.
Lemma eqm_mul_cancel_l p a b c : prime p -> ~ a ≡ 0 ⟨p⟩ -> a * b ≡ a * c ⟨p⟩ -> b ≡ c ⟨p⟩.
Proof.
  intros P Ha H. apply eqm_sub_0 in H. replace (a * b - a * c) with (a * (b - c)) in H by ring.
  apply eqm_cancel in H; auto. destruct H; [contradiction|]. apply eqm_sub_0; auto.
Qed.

(** Stripping inner reductions from a congruence, syntactically. *)
Lemma eqm_add_c m a a' b b' : a ≡ a' ⟨m⟩ -> b ≡ b' ⟨m⟩ -> a + b ≡ a' + b' ⟨m⟩.
Proof. intros -> ->. reflexivity. Qed.
Lemma eqm_sub_c m a a' b b' : a ≡ a' ⟨m⟩ -> b ≡ b' ⟨m⟩ -> a - b ≡ a' - b' ⟨m⟩.
Proof. intros -> ->. reflexivity. Qed.
Lemma eqm_mul_c m a a' b b' : a ≡ a' ⟨m⟩ -> b ≡ b' ⟨m⟩ -> a * b ≡ a' * b' ⟨m⟩.
Proof. intros -> ->. reflexivity. Qed.
Lemma eqm_opp_c m a a' : a ≡ a' ⟨m⟩ -> - a ≡ - a' ⟨m⟩.
Proof. intros ->. reflexivity. Qed.
Lemma eqm_mod_c m a a' : a ≡ a' ⟨m⟩ -> a mod m ≡ a' ⟨m⟩.
Proof. intros <-. apply mod_eqm. Qed.
Lemma eqm_via m a a' b b' : a ≡ a' ⟨m⟩ -> b ≡ b' ⟨m⟩ -> a' ≡ b' ⟨m⟩ -> a ≡ b ⟨m⟩.
Proof. intros -> ->. auto. Qed.
Lemma eqm_via_in m a a' b b' : a ≡ b ⟨m⟩ -> a ≡ a' ⟨m⟩ -> b ≡ b' ⟨m⟩ -> a' ≡ b' ⟨m⟩.
Proof. intros H <- <-. auto. Qed.
Ltac ecg :=
  lazymatch goal with
  | |- eqm _ (_ + _) _ => eapply eqm_add_c; ecg
  | |- eqm _ (_ - _) _ => eapply eqm_sub_c; ecg
  | |- eqm _ (_ * _) _ => eapply eqm_mul_c; ecg
  | |- eqm _ (- _) _ => eapply eqm_opp_c; ecg
  | |- eqm ?m (_ mod ?m) _ => eapply eqm_mod_c; ecg
  | _ => apply eqm_refl
  end.
Ltac estrip := unfold fneg, fadd, fsub, fmul, fof; eapply eqm_via; [ecg|ecg|].
Ltac estrip_in H :=
  unfold fneg, fadd, fsub, fmul, fof in H; eapply eqm_via_in in H; [|ecg|ecg].

(** [zinv] is the field inverse. *)
Lemma egcd_spec p a :
  0 < p ->
  forall fuel r0 s0 r1 s1,
    0 <= r1 -> 0 <= r0 ->
    s0 * a ≡ r0 ⟨p⟩ -> s1 * a ≡ r1 ⟨p⟩ ->
    Z.gcd r0 r1 = Z.gcd p a ->
    r1 = 0 \/ (r0 * r1 < 2 ^ Z.of_nat fuel /\ r1 <= r0) ->
    let '(g, s) := egcd fuel r0 s0 r1 s1 in
    g = Z.gcd p a /\ s * a ≡ g ⟨p⟩.
Proof.
  intros Hp. induction fuel as [|fuel IH]; intros r0 s0 r1 s1 H1 H0 E0 E1 G B.
  - assert (r1 = 0).
    { destruct B as [B|[B C]]; [auto|]. change (2 ^ Z.of_nat 0) with 1 in B.
      assert (r1 = 0 \/ 0 < r1) as [?|?] by lia; [auto|]. nia. }
    subst. cbn [egcd]. split; [|auto]. rewrite <- G, Z.gcd_0_r, Z.abs_eq; auto.
  - cbn [egcd]. destruct (Z.eqb_spec r1 0) as [->|N].
    + split; [|auto]. rewrite <- G, Z.gcd_0_r, Z.abs_eq; auto.
    + destruct B as [B|[B C]]; [contradiction|].
      assert (HP : 0 < r1) by lia.
      replace (r0 - r0 / r1 * r1) with (r0 mod r1) by (rewrite Z.mod_eq; lia).
      pose proof (Z.mod_pos_bound r0 r1 HP) as HB.
      assert (HQ : 1 <= r0 / r1) by (apply Z.div_le_lower_bound; lia).
      pose proof (Z.div_mod r0 r1 ltac:(lia)) as DM.
      apply IH; try lia; auto.
      * replace ((s0 - r0 / r1 * s1) * a) with (s0 * a - r0 / r1 * (s1 * a)) by ring.
        rewrite E0, E1. apply eqm_eq. rewrite (Z.mod_eq r0 r1) by lia. ring.
      * rewrite <- G. rewrite Z.gcd_comm. rewrite Z.gcd_mod by lia.
        apply Z.gcd_comm.
      * rewrite Nat2Z.inj_succ, Z.pow_succ_r in B by lia.
        right. split; [|lia]. nia.
Qed.

Lemma zinv_some p a : prime p -> a mod p <> 0 -> exists b, zinv p a = Some b.
Proof.
  intros P H. pose proof (prime_ge_2 _ P) as H2.
  unfold zinv. set (fuel := (2 * Z.to_nat (Z.log2 p) + 3)%nat).
  pose proof (Z.mod_pos_bound a p ltac:(lia)) as HB.
  assert (S := egcd_spec p (a mod p) ltac:(lia) fuel p 0 (a mod p) 1 ltac:(lia) ltac:(lia)).
  destruct (egcd fuel p 0 (a mod p) 1) as [g s].
  destruct S as [-> _].
  - rewrite Z.mul_0_l; symmetry; apply eqm_modulus.
  - rewrite Z.mul_1_l. reflexivity.
  - reflexivity.
  - right. split; [|lia].
    assert (HL : p < 2 ^ (Z.log2 p + 1)) by (apply Z.log2_spec; lia).
    pose proof (Z.log2_nonneg p).
    assert (2 ^ Z.of_nat fuel = 2 ^ (Z.log2 p + 1) * 2 ^ (Z.log2 p + 1) * 2).
    { unfold fuel. replace (Z.of_nat (2 * Z.to_nat (Z.log2 p) + 3))
        with ((Z.log2 p + 1) + (Z.log2 p + 1) + 1) by lia.
      rewrite !Z.pow_add_r by lia. ring. }
    nia.
  - assert (G : Z.gcd p (a mod p) = 1).
    { apply Zgcd_1_rel_prime. apply prime_rel_prime; auto.
      intros D. apply Z.divide_pos_le in D; lia. }
    rewrite G. simpl. eauto.
Qed.
Lemma zinv_correct p a b : prime p -> zinv p a = Some b -> a * b ≡ 1 ⟨p⟩ /\ 0 <= b < p.
Proof.
  intros P H. pose proof (prime_ge_2 _ P) as H2.
  unfold zinv in H. set (fuel := (2 * Z.to_nat (Z.log2 p) + 3)%nat) in *.
  pose proof (Z.mod_pos_bound a p ltac:(lia)) as HB.
  assert (S := egcd_spec p (a mod p) ltac:(lia) fuel p 0 (a mod p) 1 ltac:(lia) ltac:(lia)).
  destruct (egcd fuel p 0 (a mod p) 1) as [g s].
  destruct S as [Hg Hs].
  - rewrite Z.mul_0_l; symmetry; apply eqm_modulus.
  - rewrite Z.mul_1_l. reflexivity.
  - reflexivity.
  - right. split; [|lia].
    assert (HL : p < 2 ^ (Z.log2 p + 1)) by (apply Z.log2_spec; lia).
    pose proof (Z.log2_nonneg p).
    assert (2 ^ Z.of_nat fuel = 2 ^ (Z.log2 p + 1) * 2 ^ (Z.log2 p + 1) * 2).
    { unfold fuel. replace (Z.of_nat (2 * Z.to_nat (Z.log2 p) + 3))
        with ((Z.log2 p + 1) + (Z.log2 p + 1) + 1) by lia.
      rewrite !Z.pow_add_r by lia. ring. }
    nia.
  - destruct (Z.eqb_spec g 1) as [->|]; [|discriminate]. injection H as <-.
    split; [|apply Z.mod_pos_bound; lia].
    rewrite mod_eqm, Z.mul_comm. rewrite mod_eqm in Hs. exact Hs.
Qed.
Lemma zinv_none p a : prime p -> a mod p = 0 -> zinv p a = None.
Proof.
  intros P H. destruct (zinv p a) as [b|] eqn:E; [|auto].
  apply zinv_correct in E as [E _]; auto. pose proof (prime_ge_2 _ P).
  assert (K : a ≡ 0 ⟨p⟩) by (apply eqm_0_iff; auto).
  rewrite K in E. unfold eqm in E. rewrite Z.mul_0_l, Zmod_0_l, Z.mod_1_l in E by lia. lia.
Qed.
