(** Proofs of the scalar decomposition and multi-scalar multiplication properties
    (C33, C34) from the gadget lemmas. *)
From Verif Require Import Prelude FieldZ Circuit Context Spec Logic ModArith Prims BaseChip BaseProofs
  RangeInfo RangeChip IntegerChip SpecInt InfoProofs IntArith RangeProofs IntInv IntSound IntComplete IntBridge
  IntRes EccChip SpecEcc Curve EccArith EccProofs EccHonest EccBridge SpecMsm PointSum ScalarChip ScalarProofs
  Msm ParWindows MsmProofs MsmSound MsmTop MsmRuns BnOrder Moduli Fields NativeMain IntMain EccMain.
Lemma C33_decomposition_partial_main :
  forall (NM : NMod), prime nmod ->
    (forall W s, sound (decompose_scalar_native W s) (fun A ws =>
        bin_le (map (at_ A) (concat (rev ws))) mod nmod = A⟦s⟧))
 /\ (forall W s, sound_bits (decompose_scalar_native W s) (fun A ws =>
        Forall (fun win => length win = W) ws /\ Forall (fun b => A⟦b⟧ = 0 \/ A⟦b⟧ = 1) (concat (rev ws))
        /\ bin_le (map (at_ A) (concat (rev ws))) mod nmod = A⟦s⟧))
 /\ (forall r J, prime r -> range_info_new r = Ok J -> forall W s,
      sound_bits (decompose_scalar_general J W s) (fun A ws => forall v, int_is r (at_ A) s v ->
        Forall (fun win => length win = W) ws /\ Forall (fun b => A⟦b⟧ = 0 \/ A⟦b⟧ = 1) (concat (rev ws))
        /\ bin_le (map (at_ A) (concat (rev ws))) mod r = v)).
Proof.
  intros NM P. split; [|split].
  - intros W s. tosound. eapply ST_wk; [apply (decompose_native_ST P T A HA)|]. intros ws (E & _). cbv zeta in E.
    unfold eqm in E. rewrite Z.mod_small in E by apply HA. symmetry. exact E.
  - intros W s. apply ST_sound_bits. intros T A HA HB. eapply ST_wk; [apply (decompose_native_ST P T A HA)|]. intros ws (E & B & L & _). cbv zeta in *.
    split; [exact L|]. split; [exact (B HB)|]. unfold eqm in E. rewrite Z.mod_small in E by apply HA. symmetry. exact E.
  - intros r J PR H W s. info H. apply ST_sound_bits. intros T A HA HB. stp v Hv.
    destruct Hv as [Wv Ev]. assert (Hs : ir r J A s v).
    { apply (ir_at _ _ IO). split; [exact Wv|]. unfold eqm. rewrite <- Ev, Zmod_mod. reflexivity. }
    eapply ST_wk; [apply (decompose_general_ST P r J IO PR T A HA W s v HB Hs)|]. intros ws (E & B & L & _). cbv zeta in *.
    split; [exact L|]. split; [exact B|]. unfold eqm in E. rewrite <- Ev in E at 1. rewrite Zmod_mod, Ev in E. symmetry. exact E.
Qed.

Lemma C33_returned_cells_are_bits_refuted_main :
  exists ws c A0 A, (s <- assign 2 ;; @decompose_scalar_native bn256_fr 1 s) ctx_new = Ok (ws, c)
    /\ @satisfies bn256_fr c A0 /\ @satisfies bn256_fr c A
    /\ exists w b, In w ws /\ In b w /\ A⟦b⟧ = 2.
Proof.
  exact bits_two.
Qed.

Lemma F2_map {X Y} (R : X -> Y -> Prop) (f : X -> Y) (l : list X) : (forall x, R x (f x)) -> Forall2 R l (map f l).
Proof. intros H. induction l; cbn; constructor; auto. Qed.
Lemma F2_wk {X Y} (R S : X -> Y -> Prop) l m : (forall x y, R x y -> S x y) -> Forall2 R l m -> Forall2 S l m.
Proof. intros H F. induction F; constructor; auto. Qed.

Lemma C34_msm_native_partial_main :
  forall (NM : NMod) w I b, prime nmod -> prime w -> range_info_new w = Ok I -> 3 < w -> 0 < b < w ->
  forall gen r_acc r_line points scalars,
    sound_bits (msm_native I b gen r_acc r_line None points scalars) (fun A r =>
      forall ps, Forall2 (point_is w (at_ A)) points ps -> Forall (on_curve w b) ps ->
        let inputs := combine ps (map (at_ A) scalars) in
        (exists g terms q, g <> Inf /\ on_curve w b g /\ msm_terms nmod g inputs terms
           /\ lin_sum w terms q /\ on_curve w b q /\ point_is w (at_ A) (fst r) q)
     /\ ((forall p, In p ps -> multiple w p nmod Inf) ->
         (In Inf ps -> forall g, on_curve w b g -> multiple w g nmod Inf) ->
         exists q, lin_sum w inputs q /\ on_curve w b q /\ point_is w (at_ A) (fst r) q)).
Proof.
  intros NM w I b P PW H W3 Hb gen ra rl points scalars. info H. apply ST_sound_bits. intros T A HA HB. stp ps Hps. apply ST_impl; intros HC.
  destruct (gq_of w I IO b A points ps Hps HC) as (cs & <- & GQ).
  eapply ST_wk; [eapply (msm_none_ST w I IO P PW b Hb W3 T A HA av (decompose_scalar_native 1) bisec (assign_constant 0) (nat_is A) nmod nw_native (nw_native1 P))|].
  - intros; app.
  - intros; app.
  - app.
  - intros s v. apply (native_dec_ok P T A HA HB).
  - intros c k s t u v. apply (native_bis_ok T A).
  - apply native_zero_ok.
  - exact GQ.
  - apply (F2_map (nat_is A) (at_ A)). intros x. reflexivity.
  - intros x Hx. cbv zeta. split.
    + eapply (msm_ok_terms w I IO PW b Hb W3); eauto.
    + intros O1 O2. assert (0 < nmod) by (destruct P; lia). eapply (msm_ok_exact w I IO PW b Hb W3); eauto. apply Forall_forall. intros s Hs. apply in_map_iff in Hs as (y & <- & _). apply HA.
Qed.

Lemma C34_msm_general_partial_main :
  forall (NM : NMod) w I b r J, prime nmod -> prime w -> range_info_new w = Ok I -> 3 < w -> 0 < b < w ->
    prime r -> range_info_new r = Ok J ->
  forall gen r_acc r_line points scalars,
    sound_bits (msm_general I J b gen r_acc r_line None points scalars) (fun A x =>
      forall ps, Forall2 (point_is w (at_ A)) points ps -> Forall (on_curve w b) ps ->
      forall ss, Forall2 (int_is r (at_ A)) scalars ss ->
        let inputs := combine ps ss in
        (exists g terms q, g <> Inf /\ on_curve w b g /\ msm_terms r g inputs terms
           /\ lin_sum w terms q /\ on_curve w b q /\ point_is w (at_ A) (fst x) q)
     /\ ((forall p, In p ps -> multiple w p r Inf) ->
         (In Inf ps -> forall g, on_curve w b g -> multiple w g r Inf) ->
         exists q, lin_sum w inputs q /\ on_curve w b q /\ point_is w (at_ A) (fst x) q)).
Proof.
  intros NM w I b r J P PW H W3 Hb PR H' gen ra rl points scalars. info H. info H'. apply ST_sound_bits. intros T A HA HB. stp ps Hps. apply ST_impl; intros HC.
  stp ss Hss. destruct (gq_of w I IO b A points ps Hps HC) as (cs & <- & GQ).
  eapply ST_wk; [eapply (msm_none_ST w I IO P PW b Hb W3 T A HA aint (decompose_scalar_general J 1) (bisec_int J) (assign_int_constant J 0) (ir r J A) r (nw_general J) (nw_general1 r J IO0))|].
  - intros; app.
  - intros; app.
  - app.
  - intros s v. apply (general_dec_ok P T A HA HB r J IO0 PR).
  - intros c k s t u v. apply (general_bis_ok T A HA r J IO0).
  - apply (general_zero_ok T A HA r J IO0 PR).
  - exact GQ.
  - eapply F2_wk; [|exact Hss]. intros s v [Wv Ev]. apply (ir_at _ _ IO0). split; [exact Wv|]. unfold eqm. rewrite <- Ev, Zmod_mod. reflexivity.
  - intros x Hx. cbv zeta. split.
    + eapply (msm_ok_terms w I IO PW b Hb W3); eauto.
    + assert (0 < r) by (destruct PR; lia). intros O1 O2. eapply (msm_ok_exact w I IO PW b Hb W3); eauto. clear - Hss H0. induction Hss as [|s v l m [_ E] F IH]; constructor; auto. rewrite <- E. apply Z.mod_pos_bound. exact H0.
Qed.

