(** The two readings of TowerProofs: satisfying assignments and honest runs. *)
From Verif Require Import Prelude FieldZ Circuit Context Spec Logic ModArith Prims BaseChip BaseProofs
  RangeInfo RangeChip IntegerChip SpecInt InfoProofs IntArith RangeProofs IntInv IntSound IntComplete IntBridge
  IntRes SpecTower TowerRing Fq12Chip TowerProofs.

Section Inst.
Context {NM : NMod}.
Variable w : Z.
Variable I : rinfo.
Hypothesis IO : info_ok w I.
Hypothesis n_prime : prime nmod.
Hypothesis w_prime : prime w.

Section Sat.
Variable T : env.
Variable A : cell -> Z.
Hypothesis A_range : forall x, 0 <= A x < nmod.
Definition sTR X (_ : unit) (m : M X) (Q : X -> unit -> Prop) : Prop := ST T A m (fun x => Q x tt).
Definition srep (_ : unit) (a : aint) (r : Z) : Prop := ir w I A a r.
Definition sle (_ _ : unit) : Prop := True.
Definition szok (_ : unit) (_ : av) : Prop := True.
Lemma sat_rules : rules w I unit sle sTR srep szok False.
Proof.
  constructor; unfold sTR, srep, sle, szok; intros.
  - exact Logic.I.
  - assumption.
  - eapply ir_eq; eauto.
  - assumption.
  - destruct v. apply ST_ret. assumption.
  - eapply ST_bind; eauto. intros x Hx. destruct v. exact (H2 x tt Logic.I Hx).
  - eapply ST_weaken; [eassumption|]. intros x Hx. exact (H0 x tt Logic.I Hx).
  - eapply ST_weaken; [eapply (assign_int_constant_R w I); eauto|]. intros r [H1 _]. exact H1.
  - eapply int_add_R; eauto.
  - eapply int_sub_R; eauto.
  - eapply int_neg_R; eauto.
  - eapply int_mul_R; eauto.
  - eapply ST_weaken; [eapply (reduce_R w I); eauto|]. intros r [H1 _]. exact H1.
  - eapply int_unsafe_invert_R; eauto.
  - eapply assert_int_equal_R; eauto.
  - apply ST_true.
Qed.
End Sat.

Section Honest.
Hypothesis HD : ri_d_bits I mod 108 <> 0.
Definition hTR X (c : ctx) (m : M X) (Q : X -> ctx -> Prop) : Prop := wf c -> CT c m Q.
Definition hle (c c' : ctx) : Prop := extends c c'.
Definition hzok (c : ctx) (a : av) : Prop := cb c a false.
Lemma honest_rules : rules w I ctx hle hTR (cr w I) hzok True.
Proof.
  constructor; unfold hTR, hle, hzok; intros.
  - eapply extends_trans; eauto.
  - eapply cr_mono; eauto.
  - eapply cr_eq; eauto.
  - eapply cb_mono; eauto.
  - apply CT_ret; auto.
  - eapply CT_bind; [auto|]. intros. apply H2; auto.
  - eapply CT_weaken; [auto|]. intros. apply H0; auto.
  - eapply CT_weaken; [eapply (assign_int_constant_C w I); eauto|]. intros r c' _ _ [H1 _]. exact H1.
  - eapply int_add_C; eauto.
  - eapply int_sub_C; eauto.
  - eapply int_neg_C; eauto.
  - eapply int_mul_C; eauto.
  - eapply CT_weaken; [eapply (reduce_C w I); eauto|]. intros r c' _ _ [H1' _]. exact H1'.
  - destruct (H0 Logic.I) as [q Hq]. pose proof (prime_ge_2 _ w_prime).
    assert (Hx : x mod w <> 0).
    { intros E. assert (E' : x ≡ 0 ⟨w⟩) by exact E. rewrite E' in Hq. rewrite Z.mul_0_l in Hq.
      unfold eqm in Hq. rewrite Z.mod_0_l, Z.mod_small in Hq; lia. }
    unfold int_unsafe_invert.
    eapply CT_bind; [eapply (assign_int_constant_C w I); eauto; lia|]. intros one c1 W1 E1 [R1 _].
    apply (cr_mono w I _ _ _ _ E1) in H.
    eapply CT_bind; [eapply (int_div_C w I); eauto|]. intros [z r] c2 W2 E2 (Hz & q' & Hr & Hd). cbn [fst snd] in *.
    destruct Hz as [V0 Ez]. destruct (Z.eqb_spec (x mod w) 0) as [|_]; [contradiction|].
    eapply CT_bind; [apply assert_false_CT; auto|]. intros [] c3 W3 E3 _.
    apply CT_ret; [auto|]. exists q'. split; [eapply cr_mono; eauto|auto].
  - eapply CT_weaken; [eapply (assert_int_equal_C w I); eauto|]. intros. auto.
  - destruct H as [V0 E]. apply assert_false_CT; auto.
Qed.
End Honest.
End Inst.
