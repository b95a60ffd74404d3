(** The residue-level invariants of the point gadgets are the representation
    relations of [SpecEcc]. *)
From Verif Require Import Prelude FieldZ Circuit Context Spec Logic ModArith Prims BaseChip BaseProofs
  RangeInfo RangeChip IntegerChip SpecInt InfoProofs IntArith RangeProofs IntInv IntSound IntComplete IntBridge
  IntRes EccChip SpecEcc Curve EccArith EccProofs EccHonest.

Section Bridge.
Context {NM : NMod}.
Variable w : Z.
Variable I : rinfo.
Hypothesis IO : info_ok w I.

Lemma ir_at A x r : ir w I A x r <-> int_wf w (at_ A) x /\ int_value (at_ A) x ≡ r ⟨w⟩.
Proof. unfold ir. rewrite (iwf_int_wf w I IO), int_value_val. reflexivity. Qed.
Lemma cr_ok c x r : cr w I c x r <-> int_ok w c x valid /\ int_value a_val x ≡ r ⟨w⟩.
Proof. unfold cr. rewrite (hint_int_ok w I IO), int_value_val. reflexivity. Qed.

Lemma z_cases {X} (f : X -> Z) a : f a = 0 \/ f a = 1 -> exists z, f a = Z.b2z z.
Proof. intros [H|H]; [exists false|exists true]; exact H. Qed.

Lemma gp_of A a p : point_is w (at_ A) a p -> exists x y z, gp w I A a x y z /\ dec w x y z = p.
Proof.
  unfold gp. setoid_rewrite ir_at. intros H.
  exists (int_value (at_ A) (p_x a)), (int_value (at_ A) (p_y a)). destruct p as [|x y].
  - destruct H as (Hz & Hx & Hy). exists true. split; [|reflexivity]. split; [|split]; auto; split; auto; reflexivity.
  - destruct H as (Hz & (Hx & <-) & Hy & <-). exists false. split; [|reflexivity]. split; [|split]; auto; split; auto; reflexivity.
Qed.
Lemma gp_to A a x y z : gp w I A a x y z -> point_is w (at_ A) a (dec w x y z).
Proof.
  unfold gp. rewrite !ir_at. intros ((Hx & Ex) & (Hy & Ey) & Hz). destruct z; cbn.
  - split; [exact Hz|]. auto.
  - split; [exact Hz|]. split; split; auto.
Qed.
Lemma gn_of A a x y : nz_is w (at_ A) a x y -> gn w I A a x y /\ x = x mod w /\ y = y mod w.
Proof.
  unfold gn. rewrite !ir_at. intros ((Hx & <-) & Hy & <-). unfold eqm. rewrite !Zmod_mod. auto.
Qed.
Lemma gn_to A a x y : gn w I A a x y -> nz_is w (at_ A) a (x mod w) (y mod w).
Proof. unfold gn. rewrite !ir_at. intros ((Hx & Ex) & Hy & Ey). split; split; auto. Qed.

Lemma tan_of f k x y : curvature_is w f k (x mod w) (y mod w) ->
  int_wf w f (k_v k) /\ exists z, f (k_z k) = Z.b2z z /\ tangent_ok w x y (int_value f (k_v k)) z.
Proof.
  intros (H1 & H2). split; [exact H1|]. rewrite (mod2 w) in H2. unfold tangent_ok. destruct ((2 * y) mod w =? 0) eqn:E.
  - exists true. split; [exact H2|]. split; [auto|discriminate].
  - exists false. destruct H2 as [H2 H3]. split; [exact H2|]. split; [auto|]. intros _.
    match type of H3 with ?a mod w = ?b mod w => change (a ≡ b ⟨w⟩) in H3 end. repeat (estrip_in H3). rewrite H3. estrip. reflexivity.
Qed.
Lemma tan_to f k x y l z : int_wf w f (k_v k) -> f (k_z k) = Z.b2z z -> int_value f (k_v k) ≡ l ⟨w⟩ ->
  tangent_ok w x y l z -> curvature_is w f k (x mod w) (y mod w).
Proof.
  intros H1 H2 H3 [-> H4]. split; [exact H1|]. rewrite (mod2 w). destruct ((2 * y) mod w =? 0) eqn:E; [exact H2|].
  split; [exact H2|]. match goal with |- ?a mod w = ?b mod w => change (a ≡ b ⟨w⟩) end. estrip. rewrite H3. auto.
Qed.

Lemma gpc_of A a p : pointc_is w (at_ A) a p ->
  exists x y z l k, gpc w I A a x y z l k /\ dec w x y z = p /\ (z = false -> tangent_ok w x y l k).
Proof.
  intros (H & K). apply gp_of in H as (x & y & z & H & E). unfold gpc. setoid_rewrite ir_at.
  exists x, y, z, (int_value (at_ A) (k_v (pc_c a))). subst p. destruct z; cbn in K.
  - destruct K as (K1 & K2). apply z_cases in K2 as [k Hk]. exists k. split; [|split; [reflexivity|discriminate]].
    split; [exact H|]. split; [split; [exact K1|reflexivity]|exact Hk].
  - apply tan_of in K as (K1 & k & K2 & K3). exists k. split; [|split; [reflexivity|auto]].
    split; [exact H|]. split; [split; [exact K1|reflexivity]|exact K2].
Qed.
Lemma gpc_to A a x y z l k : gpc w I A a x y z l k -> (z = false -> tangent_ok w x y l k) ->
  pointc_is w (at_ A) a (dec w x y z).
Proof.
  unfold gpc. rewrite ir_at. intros (H & (K1 & K2) & K3) T. split; [apply gp_to; exact H|]. destruct z; cbn.
  - split; [exact K1|]. destruct k; [right|left]; exact K3.
  - eapply tan_to; eauto.
Qed.

(** Honest versions. *)
Lemma hp_of c a p : point_ok w c a valid -> point_is w a_val a p -> exists x y z, hp w I c a x y z /\ dec w x y z = p.
Proof.
  unfold hp. setoid_rewrite cr_ok. intros (V1 & V2 & V3) H.
  exists (int_value a_val (p_x a)), (int_value a_val (p_y a)). destruct p as [|x y].
  - destruct H as (Hz & Hx & Hy). exists true. split; [|reflexivity]. split; [|split]; split; auto; reflexivity.
  - destruct H as (Hz & (Hx & <-) & Hy & <-). exists false. split; [|reflexivity]. split; [|split]; split; auto; reflexivity.
Qed.
Lemma hp_to c a x y z : hp w I c a x y z -> point_ok w c a valid /\ point_is w a_val a (dec w x y z).
Proof.
  unfold hp. rewrite !cr_ok. intros ((Hx & Ex) & (Hy & Ey) & Vz & Hz). split; [split; [|split]; auto|].
  pose proof (ik_wf _ _ _ _ Hx). pose proof (ik_wf _ _ _ _ Hy). destruct z; cbn.
  - split; [exact Hz|]. auto.
  - split; [exact Hz|]. split; split; auto.
Qed.
Lemma hn_of c a x y : nz_ok w c a valid -> nz_is w a_val a x y -> hn w I c a x y /\ x = x mod w /\ y = y mod w.
Proof.
  unfold hn. rewrite !cr_ok. intros (V1 & V2) ((Hx & <-) & Hy & <-). unfold eqm. rewrite !Zmod_mod. auto.
Qed.
Lemma hn_to c a x y : hn w I c a x y -> nz_ok w c a valid /\ nz_is w a_val a (x mod w) (y mod w).
Proof.
  unfold hn. rewrite !cr_ok. intros ((Hx & Ex) & Hy & Ey). pose proof (ik_wf _ _ _ _ Hx). pose proof (ik_wf _ _ _ _ Hy).
  split; [split; auto|]. split; split; auto.
Qed.
Lemma hpc_of c a p : pointc_ok w c a valid -> pointc_is w a_val a p ->
  exists x y z l k, hpc w I c a x y z l k /\ dec w x y z = p /\ (z = false -> tangent_ok w x y l k).
Proof.
  intros (V1 & V2 & V3) (H & K). destruct (hp_of _ _ _ V1 H) as (x & y & z & H' & E). unfold hpc. setoid_rewrite cr_ok.
  exists x, y, z, (int_value a_val (k_v (pc_c a))). subst p. destruct z; cbn in K.
  - destruct K as (K1 & K2). apply z_cases in K2 as [k Hk]. exists k. split; [|split; [reflexivity|discriminate]].
    split; [exact H'|]. split; [split; [exact V2|reflexivity]|split; auto].
  - apply tan_of in K as (K1 & k & K2 & K3). exists k. split; [|split; [reflexivity|auto]].
    split; [exact H'|]. split; [split; [exact V2|reflexivity]|split; auto].
Qed.
Lemma hpc_to c a x y z l k : hpc w I c a x y z l k -> (z = false -> tangent_ok w x y l k) ->
  pointc_ok w c a valid /\ pointc_is w a_val a (dec w x y z).
Proof.
  unfold hpc. rewrite cr_ok. intros (H & (K1 & K2) & K3 & K4) T. apply hp_to in H as (H1 & H2).
  pose proof (ik_wf _ _ _ _ K1). split; [split; [|split]; auto|]. split; [exact H2|]. destruct z; cbn.
  - split; [auto|]. destruct k; [right|left]; exact K4.
  - eapply tan_to; eauto.
Qed.
End Bridge.
