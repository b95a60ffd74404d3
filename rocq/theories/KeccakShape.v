(** Shape independence of the keccak gadgets, and satisfaction of circuits of the same shape. *)
From Verif Require Import Prelude FieldZ Circuit Context Spec Logic Prims BaseChip RangeInfo RangeChip IntegerChip EccChip ScalarChip Msm ParWindows SpecShape Shape KeccakChip.

Notation slane := (Forall2 sav).
Notation sstate := (Forall2 (Forall2 (Forall2 sav))).

Lemma F2_nth_d {X Y} (R : X -> Y -> Prop) l l' : Forall2 R l l' -> forall i d d', R d d' -> R (nth i l d) (nth i l' d').
Proof. induction 1; intros [|i] d d' Hd; cbn [nth]; auto. Qed.
Lemma F2_combine {X Y X' Y'} (R : X -> Y -> Prop) (S : X' -> Y' -> Prop) a a' : Forall2 R a a' -> forall b b', Forall2 S b b' ->
  Forall2 (both R S) (combine a b) (combine a' b').
Proof. induction 1; intros b b' HB; [constructor|]. destruct HB; cbn [combine]; constructor; [split; assumption|auto]. Qed.
Lemma F2_firstn {X Y} (R : X -> Y -> Prop) l l' : Forall2 R l l' -> forall k, Forall2 R (firstn k l) (firstn k l').
Proof. induction 1; intros [|k]; cbn [firstn]; constructor; auto. Qed.
Lemma F2_skipn {X Y} (R : X -> Y -> Prop) l l' : Forall2 R l l' -> forall k, Forall2 R (skipn k l) (skipn k l').
Proof. induction 1; intros [|k]; cbn [skipn]; try constructor; auto. Qed.
Lemma F2_set {X Y} (R : X -> Y -> Prop) l l' : Forall2 R l l' -> forall i a a', R a a' -> Forall2 R (set_nth i a l) (set_nth i a' l').
Proof. induction 1; intros [|i] a a' Ha; cbn [set_nth]; constructor; auto. Qed.
Lemma F2_lane st st' x y : sstate st st' -> slane (lane st x y) (lane st' x y).
Proof. intros H. unfold lane. apply F2_nth_d; [|constructor]. apply F2_nth_d; [exact H|constructor]. Qed.
Lemma F2_set_lane st st' x y l l' : sstate st st' -> slane l l' -> sstate (set_lane x y l st) (set_lane x y l' st').
Proof. intros H Hl. unfold set_lane. apply F2_set; [exact H|]. apply F2_set; [|exact Hl]. apply F2_nth_d; [exact H|constructor]. Qed.
Lemma F2_rotate {X Y} (R : X -> Y -> Prop) k l l' : Forall2 R l l' -> Forall2 R (rotate_left k l) (rotate_left k l').
Proof. intros H. unfold rotate_left. apply Forall2_app; [apply F2_skipn|apply F2_firstn]; exact H. Qed.
Lemma F2_rev' {X Y} (R : X -> Y -> Prop) l l' : Forall2 R l l' -> Forall2 R (rev l) (rev l').
Proof. induction 1; cbn [rev]; [constructor|]. apply Forall2_app; auto. Qed.
Lemma F2_concat {X Y} (R : X -> Y -> Prop) l l' : Forall2 (Forall2 R) l l' -> Forall2 R (concat l) (concat l').
Proof. induction 1; cbn [concat]; [constructor|]. apply Forall2_app; auto. Qed.
Lemma F2_chunks {X Y} (R : X -> Y -> Prop) k l l' : Forall2 R l l' -> Forall2 (Forall2 R) (chunks k l) (chunks k l').
Proof.
  intros H. unfold chunks. rewrite (F2_len _ _ _ H). generalize (length l'); intros f0.
  revert l l' H. induction f0 as [|f IH]; intros l l' H; cbn [chunks_fuel]; [constructor|]. inversion H; subst; [constructor|].
  constructor; [apply F2_firstn; exact H|]. apply IH. apply F2_skipn. exact H.
Qed.
Lemma F2_rev_bytes l l' : slane l l' -> slane (rev_bytes l) (rev_bytes l').
Proof. intros H. unfold rev_bytes. apply F2_concat, F2_rev', F2_chunks, H. Qed.
Lemma F2_repeat {X Y} (R : X -> Y -> Prop) a b k : R a b -> Forall2 R (repeat a k) (repeat b k).
Proof. intros H. induction k; cbn [repeat]; constructor; auto. Qed.
Lemma rho_pi_shape st st' : sstate st st' -> sstate (rho_and_pi st) (rho_and_pi st').
Proof.
  intros H. unfold rho_and_pi.
  assert (G : forall l s s', sstate (fst s) (fst s') /\ slane (snd s) (snd s') ->
    sstate (fst (fold_left (fun s i => let px := (nth i PI 0 mod 5)%nat in let py := (nth i PI 0 / 5)%nat in
      (set_lane px py (rotate_left (nth i RHO 0%nat) (snd s)) (fst s), lane (fst s) px py)) l s))
     (fst (fold_left (fun s i => let px := (nth i PI 0 mod 5)%nat in let py := (nth i PI 0 / 5)%nat in
      (set_lane px py (rotate_left (nth i RHO 0%nat) (snd s)) (fst s), lane (fst s) px py)) l s'))).
  { induction l as [|i l IH]; intros s s' [H1 H2]; [exact H1|]. cbn [fold_left]. apply IH. cbv zeta. cbn [fst snd].
    split; [apply F2_set_lane; [exact H1|apply F2_rotate; exact H2]|apply F2_lane; exact H1]. }
  apply (G (seq 0 24) (st, lane st 1 0) (st', lane st' 1 0)). split; [exact H|]. apply F2_lane; exact H.
Qed.

Section S.
Context {NM : NMod}.
Lemma sr_xor_lanes a a' b b' : slane a a' -> slane b b' -> SR slane (xor_lanes a b) (xor_lanes a' b').
Proof.
  intros Ha Hb. unfold xor_lanes. eapply SR_mapM; [apply F2_combine; eassumption|]. intros p q [H1 H2]. apply sr_xor_; assumption.
Qed.
Lemma sr_k_init : SR sstate k_init k_init.
Proof. unfold k_init. eapply SR_bind; [apply sr_assign_constant|]. intros z z' H. apply SR_ret. repeat apply F2_repeat. exact H. Qed.
Lemma sr_theta st st' : sstate st st' -> SR sstate (theta st) (theta st').
Proof.
  intros H. unfold theta. eapply (SR_bind (Forall2 slane)).
  - apply SR_mapM_eq. intros x. eapply (SR_foldM_eq slane); [apply F2_lane; exact H|]. intros s t i Hs. apply sr_xor_lanes; [exact Hs|apply F2_lane; exact H].
  - intros c c' Hc. apply SR_mapM_eq. intros x. eapply (SR_bind slane).
    + apply sr_xor_lanes; [|apply F2_rotate]; apply F2_nth_d; auto; constructor.
    + intros d d' Hd. apply SR_mapM_eq. intros y. apply sr_xor_lanes; [apply F2_lane; exact H|exact Hd].
Qed.
Lemma sr_xi st st' : sstate st st' -> SR sstate (xi st) (xi st').
Proof.
  intros H. unfold xi. apply SR_mapM_eq. intros x. apply SR_mapM_eq. intros y. eapply SR_mapM.
  - apply F2_combine; [apply F2_lane; exact H|]. apply F2_combine; apply F2_lane; exact H.
  - intros p q [H0 [H1 H2]]. eapply SR_bind; [apply sr_not_and; assumption|]. intros t t' Ht. apply sr_xor_; assumption.
Qed.
Lemma sr_iota st st' i : sstate st st' -> SR sstate (iota st i) (iota st' i).
Proof.
  intros H. unfold iota. eapply (SR_bind slane).
  - eapply (SR_mapM (both eq sav)).
    + apply F2_combine; [induction (seq 0 64); constructor; auto|apply F2_lane; exact H].
    + intros [z a] [z' a'] [E Ha]. cbn [fst snd] in *. subst z'. apply SR_if; [reflexivity|apply sr_not_; exact Ha|apply SR_ret; exact Ha].
  - intros l l' Hl. apply SR_ret. apply F2_set_lane; assumption.
Qed.
Lemma sr_permute st st' : sstate st st' -> SR sstate (permute st) (permute st').
Proof.
  intros H. unfold permute. eapply (SR_foldM_eq sstate); [exact H|]. intros s t i Hs.
  eapply SR_bind; [apply sr_theta; exact Hs|]. intros a a' Ha. eapply SR_bind; [apply sr_xi; apply rho_pi_shape; exact Ha|]. intros b b' Hb. apply sr_iota; exact Hb.
Qed.
Lemma sr_absorb st st' i i' : sstate st st' -> slane i i' -> SR sstate (absorb st i) (absorb st' i').
Proof.
  intros H Hi. unfold absorb. eapply SR_bind; [apply SR_assert|]. intros _ _ _. eapply (SR_bind sstate).
  - eapply (SR_foldM_eq sstate); [exact H|]. intros s t k Hs. eapply (SR_bind slane).
    + apply sr_xor_lanes; [apply F2_firstn, F2_skipn; exact Hi|apply F2_rev_bytes, F2_lane; exact Hs].
    + intros l l' Hl. apply SR_ret. apply F2_set_lane; [exact Hs|apply F2_rev_bytes; exact Hl].
  - intros s t Hs. apply sr_permute; exact Hs.
Qed.
Lemma sr_decompose_u256 e e' s s' : sav s s' -> SR slane (decompose_u256_with e s) (decompose_u256_with e' s').
Proof.
  intros H. unfold decompose_u256_with. eapply (SR_bind (both sav slane)).
  - eapply (SR_foldM_eq (both sav slane)); [split; [exact H|constructor]|]. intros a b i Hab. apply sr_native_step. exact Hab.
  - intros r r' [H1 H2]. eapply SR_bind; [apply sr_assert_constant; exact H1|]. intros _ _ _. apply SR_ret. apply F2_rev'. exact H2.
Qed.
Lemma sr_compose_loop k : forall l l' acc acc', (length l <= k)%nat -> slane l l' -> sav acc acc' -> SR sav (compose_loop acc l) (compose_loop acc' l').
Proof.
  induction k as [|k IH]; intros l l' acc acc' L H Ha; (inversion H as [|b1 b1' l1 l1' H1 HL]; subst; [apply SR_ret; exact Ha|]);
    (inversion HL as [|b0 b0' l2 l2' H0 HL2]; subst; [apply SR_ret; exact Ha|]); [cbn in L; lia|].
  cbn [compose_loop]. eapply SR_bind; [apply sr_sum_with_constant; repeat (constructor; [split; [assumption|reflexivity]|]); constructor|].
  intros r r' Hr. apply IH; [cbn in L; lia|exact HL2|exact Hr].
Qed.
Lemma sr_hash_with e e' : Forall2 (fun i j => sav (snd i) (snd j)) e e' -> SR sav (hash_with e) (hash_with e').
Proof.
  intros H. unfold hash_with. eapply SR_bind; [apply sr_assign_constant|]. intros one one' H1. eapply SR_bind; [apply sr_assign_constant|]. intros zero zero' H0.
  eapply SR_bind; [apply sr_k_init|]. intros st st' Hst. eapply (SR_bind (Forall2 slane)).
  - eapply SR_mapM; [exact H|]. intros x y Hxy. apply sr_decompose_u256. exact Hxy.
  - intros b b' Hb. eapply (SR_bind sstate).
    + eapply (SR_foldM slane sstate); [|intros s t x y Hs Hx; apply sr_absorb; assumption|exact Hst].
      apply F2_chunks. apply Forall2_app; [apply F2_concat; exact Hb|]. rewrite (F2_len _ _ _ H). unfold k_padding. cbv zeta.
      destruct (Nat.eqb _ _); [repeat (constructor; [assumption|]); constructor|].
      apply Forall2_app; [repeat (constructor; [assumption|]); constructor|]. apply Forall2_app; [apply F2_repeat; assumption|repeat (constructor; [assumption|]); constructor].
    + intros s t Hs. unfold compose_to_scalar_be. eapply SR_bind; [apply SR_assert|]. intros _ _ _. eapply SR_bind; [apply sr_assign_constant|]. intros acc acc' Hacc.
      eapply sr_compose_loop; [reflexivity| |exact Hacc]. cbn [map concat]. repeat apply Forall2_app; try (apply F2_rev_bytes, F2_lane; exact Hs). constructor.
Qed.
Lemma satisfies_shape c d A : same_shape c d -> satisfies c A -> satisfies d A.
Proof.
  intros S (R & B & RR & SS & P). destruct S as [SF _ _ SP _ _ _ _ _ _].
  assert (F : forall x, fixv d x = fixv c x) by (intros x; unfold fixv; rewrite SF; reflexivity).
  split; [exact R|]. split; [|split; [|split]].
  - intros r. specialize (B r). unfold base_gate, base_expr in *. rewrite !F. exact B.
  - intros r. specialize (RR r). unfold range_row, range_expr1, range_expr2, range_expr3 in *. rewrite !F. exact RR.
  - intros r. destruct (SS r) as (r' & H1 & H2 & H3). exists r'. unfold select_input in *. rewrite !F. auto.
  - rewrite <- SP. exact P.
Qed.
Lemma bitc_shape c d A : same_shape c d -> bit_consistent c A -> bit_consistent d A.
Proof. intros S H r B. apply H. destruct S as [SF _ _ _ _ _ _ _ _ _]. unfold bit_row in *. rewrite !SF. exact B. Qed.
Lemma shape_refl c : same_shape c c.
Proof. constructor; intros; try reflexivity. Qed.
End S.
