(** A run of the multi-scalar multiplication of one point by the scalar 1 with the select
    chip in which the last window selects a point that another call with the same prefix
    has left in the lookup table (C60).  All bits are honest. *)
From Verif Require Import Prelude FieldZ Circuit Context Spec Logic ModArith Prims BaseChip BaseProofs
  RangeInfo RangeChip IntegerChip SpecInt InfoProofs IntArith RangeProofs IntInv IntSound IntComplete IntBridge
  IntRes EccChip SpecEcc Curve EccArith EccProofs EccHonest EccEncode ScalarChip ScalarProofs Msm ParWindows MsmProofs MsmSound
  SpecSelect SelectProofs SelectMsm HonestLogic HonestMsm HonestSel HonestScalar SpecShape Shape SpecCost Cost SpecSchedule TotalLogic TotalMsm TotalSel TotalTop
  Forge ForgeDec ForgeMsm.

Section R.
Context {NM : NMod}.
Variable w : Z.
Variable I : rinfo.
Hypothesis IO : info_ok w I.
Hypothesis n_prime : prime nmod.
Hypothesis w_prime : prime w.
Hypothesis HD : ri_d_bits I mod 108 <> 0.
Variable cv_b : Z.
Hypothesis b_range : 0 < cv_b < w.
Local Notation hv := (hv w I cv_b).
Local Notation OC := (on_curve w cv_b).
Local Notation L := (ri_limbs I).

(** ecc_chip.rs:309-325, with the handle [a] of another point when the index is not 0. *)
Definition shared_pick (a : anz) (prefix : Z) (gi : nat) (cs : list anz) (bits : list acond) : M anz :=
  index <- sum_with_constant (mapi (fun i x => (x, fof (2 ^ Z.of_nat i))) bits) None ;;
  ci <- (if a_val index =? 0 then mnth cs 0 else mret a) ;;
  assign_selected_point_non_zero I ci index (Z.of_nat gi + prefix).
Definition shared_batch (a : anz) (prefix : Z) points scalars r_acc r_line : M (uresult apoint) :=
  massert (Z.of_nat (length points) <=? MSM_PREFIX_OFFSET) ;;;
  massert (prefix <? MSM_LIMIT) ;;;
  msm_batch I cv_b (decompose_scalar_native 1) (shared_pick a prefix)
    (fun gi i p => assign_cache_point_non_zero I p (prefix + Z.of_nat gi) (Z.of_nat i)) 5 points scalars r_acc r_line.
Definition shared_msm (a : anz) (prefix : Z) gen r_acc r_line points scalars : M (apoint * option Z) :=
  r <- (nzp <- assign_non_zero_point I cv_b gen ;;
        s_zero <- assign_constant 0 ;;
        ps <- mapM (fun ps =>
            s <- bisec (p_z (fst ps)) s_zero (snd ps) ;;
            p <- ecc_bisec_to_non_zero_point I (fst ps) nzp ;;
            mret (p, s)) (combine points scalars) ;;
        r <- shared_batch a prefix (map fst ps) (map snd ps) r_acc r_line ;;
        mret (r, Some (prefix + MSM_PREFIX_OFFSET))) ;;
  unwrap_result r.

(** *** Its shape *)
Lemma spt_refl0 p : spt p p.
Proof. assert (H : forall l, Forall2 sav l l) by (intros l; induction l; constructor; [reflexivity|assumption]). constructor; [constructor| constructor|]; try apply H; reflexivity. Qed.
Lemma sr_shared_pick a prefix gi cs cs' bs bs' : Forall2 sav bs bs' ->
  SR snz (shared_pick a prefix gi cs bs) (r <- pick_candidate_non_zero cs' bs' ;; assign_selected_point_non_zero I (snd r) (fst r) (Z.of_nat gi + prefix)).
Proof.
  intros Hb. unfold shared_pick, pick_candidate_non_zero.
  assert (Assoc : forall X Y Z' (m : M X) (k : X -> M Y) (l : Y -> M Z') c, mbind (mbind m k) l c = mbind m (fun x => mbind (k x) l) c).
  { intros X Y Z' m k l c. unfold mbind. destruct (m c) as [[x c']|]; reflexivity. }
  intros c d x y c' d' Sh E F. rewrite Assoc in F. revert c d x y c' d' Sh E F.
  eapply SR_bind; [apply sr_sum_with_constant|].
  { unfold mapi. generalize 0%nat. induction Hb as [|u v l l' H F IH]; intros k; cbn [mapi_from]; constructor; [split; [exact H|reflexivity]|apply IH]. }
  intros ix ix' Hix c d x y c' d' Sh E F. rewrite Assoc in F. revert c d x y c' d' Sh E F.
  eapply (SR_bind any).
  { intros c d x y c' d' Sh E F. split; [exact Logic.I|]. unfold mnth, mopt in F. destruct (nth_error cs' _); [|discriminate]. injection F as <- <-.
    destruct (a_val ix =? 0); [unfold mnth, mopt in E; destruct (nth_error cs _); [|discriminate]|]; injection E as <- <-; exact Sh. }
  intros p q _ c d x y c' d' Sh E F. revert c d x y c' d' Sh E F.
  intros c d x y c' d' Sh E F. unfold mbind at 1, mret at 1 in F. cbn [fst snd] in F. exact (sr_assign_selected_point_non_zero I p q ix ix' _ Hix c d x y c' d' Sh E F).
Qed.
Lemma sr_shared_select a prefix gen ra ra' rl rl' p s :
  SR smsm (shared_msm a prefix gen ra rl [p] [s]) (msm_native I cv_b gen ra' rl' (Some prefix) [p] [s]).
Proof.
  unfold shared_msm, msm_native, msm, msm_unsafe.
  assert (Assoc : forall X Y Z' (m : M X) (k : X -> M Y) (l : Y -> M Z') c, mbind (mbind m k) l c = mbind m (fun x => mbind (k x) l) c).
  { intros X Y Z' m k l c. unfold mbind. destruct (m c) as [[x c']|]; reflexivity. }
  intros c d x y c' d' Sh E F. cbv beta in E, F. rewrite Assoc in E, F. revert c d x y c' d' Sh E F.
  eapply SR_bind; [apply sr_assign_non_zero_point|intros nzp nzp' Hn]. intros c d x y c' d' Sh E F. cbv beta in E, F. rewrite Assoc in E, F. revert c d x y c' d' Sh E F.
  eapply SR_bind; [apply sr_assign_constant|intros z z' Hzz]. intros c d x y c' d' Sh E F. cbv beta in E, F. rewrite Assoc in E, F. revert c d x y c' d' Sh E F.
  eapply (SR_bind (Forall2 (both snz sav))).
  { eapply (SR_mapM (both spt sav)); [constructor; [split; [apply spt_refl0|reflexivity]|constructor]|]. intros [p0 s0] [p' s'] [Hp Hs]. cbn [fst snd] in *. eapply SR_bind; [apply sr_bisec; [apply sp_z; exact Hp|exact Hzz|exact Hs]|intros t t' Ht].
    eapply SR_bind; [apply sr_ecc_bisec_to_non_zero_point; assumption|intros q q' Hq]. apply SR_ret. split; assumption. }
  intros ps ps' Hps.
  assert (H1 : Forall2 snz (map fst ps) (map fst ps')) by (clear - Hps; induction Hps as [|u v us vs [A B] H IH]; cbn [map]; constructor; auto).
  assert (H2 : Forall2 sav (map snd ps) (map snd ps')) by (clear - Hps; induction Hps as [|u v us vs [A B] H IH]; cbn [map]; constructor; auto).
  assert (U : forall (o : option Z) m n, SRU spt m n -> SR smsm (r <- (r <- m ;; mret (r, o)) ;; unwrap_result r) (r <- (r <- n ;; mret (r, o)) ;; unwrap_result r)).
  { intros o m n H c d x y c' d' Sh E F. rewrite Assoc in E, F. apply mbind_inv in E as (r & c1 & E1 & E2). apply mbind_inv in F as (r' & d1 & F1 & F2).
    unfold mbind, mret, unwrap_result in E2, F2. cbn [fst snd] in *. destruct r as [r|]; [|discriminate]. destruct r' as [r'|]; [|discriminate].
    injection E2 as <- <-. injection F2 as <- <-. destruct (H _ _ _ _ _ _ Sh E1 F1). split; [split; [assumption|reflexivity]|assumption]. }
  apply U. unfold shared_batch, msm_batch_on_group_non_zero_with_select_chip. eapply SRU_bind; [apply SR_assert|intros _ _ _]. eapply SRU_bind; [apply SR_assert|intros _ _ _].
  apply (sr_msm_batch I cv_b sav); auto.
  - intros u u' Hu. apply sr_decompose_scalar_native. exact Hu.
  - intros gi cs cs' bs bs' _ Hbs. apply sr_shared_pick. exact Hbs.
  - intros gi i q q' Hp. apply sr_assign_cache_point_non_zero. exact Hp.
Qed.

(** *** A selection *)
Lemma sel_point_T c p pp ix g : wf c -> hv c p pp -> shape1 I p -> valid c ix -> hcached c g (a_val ix) 0 (nhs p) ->
  CT c (assign_selected_point_non_zero I p ix g) (fun r c' => hv c' r pp).
Proof.
  intros W (x & y & [Hx Hy] & EP & C) (S1 & S2 & S3 & S4) Vi KC. unfold nhs in KC. apply hcached_split in KC as [K1 K2]. rewrite (ihs_len I _ S3) in K2.
  unfold assign_selected_point_non_zero.
  eapply CT_bind; [eapply (selected_integer_T I n_prime); [auto|apply Hx|auto|exact K1]|].
  intros r1 c2 W2 E2 (T1 & O1 & F1 & M1 & N1).
  eapply CT_bind; [eapply (selected_integer_T I n_prime); [auto|eapply hok_mono; [exact E2|apply Hy]|eapply valid_mono; eauto|]|].
  { rewrite O1. replace (0 + Z.of_nat L + 1) with (0 + Z.of_nat (S L)) by lia. eapply hcached_mono; eauto. }
  intros r2 c3 W3 E3 (T2 & O2 & F2 & M2 & N2). apply CT_ret; [auto|]. exists x, y. split; [|auto]. split; cbn [nz_x nz_y].
  - eapply (cr_same w I c c3 (nz_x p)); eauto. eapply Forall_impl; [|exact F1]. intros a'. apply valid_mono; auto.
  - eapply (cr_same w I c c3 (nz_y p)); eauto.
Qed.

(** *** The run *)
Variables xg yg xr yr : Z.
Local Notation G := (Aff xg yg).
Local Notation R := (Aff xr yr).
Variables S Q G2 L0 L1 B C D : pt.
Hypothesis OCG : OC G.
Hypothesis OCR : OC R.
Hypothesis H_S : chord w R G S.
Hypothesis H_L0 : chord w R (pt_neg w G) L0.
Hypothesis H_L1 : chord w Q (pt_neg w G) L1.
Hypothesis H_G2 : tangent w G G2.
Hypothesis H_back : chord w L0 G2 S.
Hypothesis H_A : chord w S (pt_neg w R) G.
Hypothesis H_B : chord w L1 G2 B.
Hypothesis H_C : chord w B (pt_neg w R) C.
Hypothesis H_D : pt_add w C (pt_neg w G) D.
Variables (prefix : Z) (a : anz).
Local Notation dg := 1.
Hypothesis n_2 : 2 < nmod.
Hypothesis prefix_ok : prefix < MSM_LIMIT.
Local Notation m := (Z.to_nat NUM_BITS).
Definition picked (i : nat) : pt := if (i =? m - 1)%nat then Q else R.
Definition lined (i : nat) : pt := if (i =? m - 1)%nat then L1 else L0.
(** The point Q is in the table, as candidate 1 of the first group. *)
Definition planted (c : ctx) : Prop := hv c a Q /\ shape1 I a /\ hcached c prefix dg 0 (nhs a).
Lemma planted_rext c d : rext c d -> planted c -> planted d.
Proof. intros E (H1 & H2 & H3). split; [eapply hv_rext; eauto|]. split; [exact H2|eapply hcached_rext; eauto]. Qed.

Lemma pick_shared c a0 a1 b i : wf c -> planted c -> hv c a0 R -> KSel I prefix c 0 0 a0 -> valid c b -> a_val b = (if (i =? m - 1)%nat then dg else 0) ->
  CT c (shared_pick a prefix 0 [a0; a1] [b]) (fun r c' => hv c' r (picked i)).
Proof.
  intros W (HQ & SQ & CQ) H0 (S0 & C0) V E. unfold shared_pick. change (mapi (fun i x => (x, fof (2 ^ Z.of_nat i))) [b]) with [(b, fof 1)].
  eapply CT_bind; [apply (swc_CT n_prime c [(b, fof 1)] None W); [constructor; [exact V|constructor]|cbn; lia|discriminate]|].
  intros ix c1 W1 E1 (V1 & H1). cbn [opt0 hlin fold_right fst snd] in H1.
  assert (EI : a_val ix = a_val b).
  { apply (eqm_small nmod); [|apply V1|apply V]. rewrite H1. unfold fof. estrip. apply eqm_eq. ring. }
  rewrite EI. unfold picked. destruct (i =? m - 1)%nat; rewrite E.
  - replace (dg =? 0) with false by (symmetry; apply Z.eqb_neq; lia). apply CT_ret_k.
    apply sel_point_T; auto; [eapply hv_mono; eauto|]. rewrite EI, E. change (Z.of_nat 0 + prefix) with prefix. eapply hcached_mono; eauto.
  - change (0 =? 0) with true. apply (CT_nth_k _ _ _ a0); [reflexivity|].
    apply sel_point_T; auto; [eapply hv_mono; eauto|]. rewrite EI, E. change (Z.of_nat 0 + prefix) with prefix.
    change (Z.of_nat 0) with 0 in C0. rewrite Z.add_0_r in C0. eapply hcached_mono; eauto.
Qed.
Lemma window_shared c an a0 a1 ws i : wf c -> (i < m)%nat -> planted c -> hv c an (pt_neg w G) -> hv c a0 R -> KSel I prefix c 0 0 a0 -> digits_are dg c m ws ->
  UT c (window_body I (shared_pick a prefix) an [[a0; a1]] [[ws]] i) (fun r c' => hv c' r (lined i)).
Proof.
  intros W Hi HP Hn H0 K0 [_ HW]. destruct (HW i Hi) as (b & Nb & Vb & Eb).
  unfold window_body. cbn [length seq ufoldM]. eapply UT_ubind.
  - apply (CT_nth_k _ _ _ [ws]); [reflexivity|]. eapply UT_bind with (Q := fun bs c' => bs = [b]).
    { cbn [mapM]. eapply CT_bind with (Q := fun x _ => x = b).
      - apply (CT_nth_k _ _ _ [b]); [exact Nb|]. apply (CT_nth _ _ 0 b); auto.
      - intros x c' W' E' ->. apply CT_ret_k. apply CT_ret; auto. }
    intros bs c1 W1 E1 ->. apply (CT_nth_k _ _ _ [a0; a1]); [reflexivity|].
    eapply UT_bind; [apply (pick_shared c1 a0 a1 b i); auto|].
    { eapply planted_rext; [apply rext_of; exact E1|exact HP]. }
    { eapply hv_mono; eauto. }
    { eapply KSel_rext; [apply rext_of; exact E1|exact K0]. }
    { eapply valid_mono; eauto. }
    intros ci c2 W2 E2 Hci. cbv beta in Hci.
    apply (add_T w I IO n_prime w_prime HD cv_b c2 ci an (picked i) (pt_neg w G) (lined i)); auto.
    + eapply hv_mono; [|exact Hn]. eapply extends_trans; eauto.
    + unfold picked, lined. destruct (i =? m - 1)%nat; [exact H_L1|exact H_L0].
  - intros r c' W' E' H. apply UT_ret; auto.
Qed.
Lemma app_shared_pick g cs bs : appends (shared_pick a prefix g cs bs).
Proof. unfold shared_pick. app. Qed.
Lemma co_shared_pick g cs bs bs' : Forall2 tav bs bs' -> CR tnz (shared_pick a prefix g cs bs) (shared_pick a prefix g cs bs').
Proof.
  intros Hb. unfold shared_pick. eapply CR_bind; [apply co_sum_with_constant|].
  { unfold mapi. generalize 0%nat. induction Hb as [|u v l l' H F IH]; intros k; cbn [mapi_from]; constructor; [split; [exact H|reflexivity]|apply IH]. }
  intros ix ix' Hix. eapply (CR_bind any).
  { destruct (a_val ix =? 0), (a_val ix' =? 0).
    - apply CR_nth_any.
    - unfold mnth, mopt. destruct cs; cbn [nth_error]; [intros ? ? ? ? ? ? K; discriminate K|apply CR_ret; exact Logic.I].
    - unfold mnth, mopt. destruct cs; cbn [nth_error]; [intros ? ? ? ? ? ? _ K; discriminate K|apply CR_ret; exact Logic.I].
    - apply CR_ret; exact Logic.I. }
  intros p q _. apply co_assign_selected_point_non_zero. exact Hix.
Qed.

Lemma one_digits c ws : bits_are c m ws 1 -> digits_are dg c m ws.
Proof.
  intros [HL H]. split; [exact HL|]. intros i Hi. destruct (H i Hi) as (b & Nb & Vb & Eb). exists b. split; [exact Nb|]. split; [exact Vb|].
  rewrite Eb. unfold top_bit. destruct (Nat.eqb_spec i (m - 1)) as [->|N].
  - rewrite Nat.sub_diag. reflexivity.
  - rewrite Z.bits_above_log2; [reflexivity|lia|]. change (Z.log2 1) with 0. lia.
Qed.

Lemma batch_shared c p s : wf c -> planted c -> hv c p G -> valid c s -> a_val s = dg ->
  CT c (shared_batch a prefix [p] [s] (Some (xg, yg)) (Some (xr, yr)))
        (fun r c' => exists r', r = UOk r' /\ exists x y z, hp w I c' r' x y z /\ dec w x y z = D).
Proof.
  intros W HP Hp Vs Es. unfold shared_batch, msm_batch. pose proof (IntInv.n_big w I IO) as NB.
  assert (N2 : 2 < nmod) by (change (2 ^ 108) with 324518553658426726783156020576256 in NB; lia).
  eapply (CT_bind _ _ _ (fun _ c' => c' = c)).
  { unfold massert. change (Z.of_nat (length [p]) <=? MSM_PREFIX_OFFSET) with true. apply CT_ret; auto. }
  intros u c0 W0 E0 ->. eapply (CT_bind _ _ _ (fun _ c' => c' = c)).
  { unfold massert. replace (prefix <? MSM_LIMIT) with true by (symmetry; apply Z.ltb_lt; exact prefix_ok). apply CT_ret; auto. }
  intros u' c0' W0' E0' ->. clear u u' W0 E0 W0' E0'.
  eapply (CT_bind _ _ _ (fun l c' => exists q, l = [q] /\ hv c' q G)).
  { cbn [mapM]. eapply CT_bind; [apply (reduce_T w I IO n_prime w_prime cv_b c p G W Hp)|]. intros q c1 W1 E1 (Hq & _). apply CT_ret_k. apply CT_ret; [auto|].
    exists q. split; [reflexivity|exact Hq]. }
  intros l c1 W1 E1 (q & -> & Hq).
  eapply CT_bind; [apply (assign_T w I IO n_prime w_prime HD cv_b b_range c1 xg yg W1 OCG)|]. intros acc0 c2 W2 E2 (Va & _).
  eapply CT_bind; [apply (assign_T w I IO n_prime w_prime HD cv_b b_range c2 xr yr W2 OCR)|]. intros line c3 W3 E3 (Vl & Rl).
  eapply CT_bind; [apply (neg_T w I IO n_prime w_prime cv_b c3 acc0 G W3); eapply hv_mono; eauto|]. intros an0 c4 W4 E4 Van0. cbv beta in Van0.
  eapply CT_bind; [eapply (reduce_T w I IO n_prime w_prime cv_b); eauto|]. intros an c5 W5 E5 (Van & _).
  eapply CT_bind; [apply (neg_T w I IO n_prime w_prime cv_b c5 line R W5); eapply hv_mono; [exact (extends_trans _ _ _ E4 E5)|exact Vl]|]. intros ln0 c6 W6 E6 Vln0. cbv beta in Vln0.
  eapply CT_bind; [eapply (reduce_T w I IO n_prime w_prime cv_b); eauto|]. intros ln c7 W7 E7 (Vln & _).
  cbv zeta. change ((length [q] + 5 - 1) / 5)%nat with 1%nat. change ((length [q] + 1 - 1) / 1)%nat with 1%nat. change (negb (1 =? 0)%nat) with true.
  change (chunks 1 [q]) with [[q]].
  eapply (CT_bind _ _ _ (fun _ _ => True)); [apply CT_ret; auto|]. intros u c7' W7' E7' _. clear u.
  pose proof (extends_trans _ _ _ E4 (extends_trans _ _ _ E5 (extends_trans _ _ _ E6 (extends_trans _ _ _ E7 E7')))) as E37.
  pose proof (extends_trans _ _ _ E2 (extends_trans _ _ _ E3 E37)) as E17.
  eapply (UT_ubind _ _ _ (fun css c' => exists s', css = [[line; s']] /\ KSel I prefix c' 0 0 line)).
  { unfold all_candidates. cbn [length seq combine ufoldM fst snd app]. eapply UT_ubind.
    2: { intros x d Wd Ed H. apply UT_ret; [exact Wd|exact H]. }
    change (Nat.even 0) with true. cbv iota. eapply (UT_ubind _ _ _ (fun cl c' => exists s', cl = [line; s'] /\ KSel I prefix c' 0 0 line)).
    2: { intros cl d Wd Ed (s' & -> & H). apply UT_ret; [exact Wd|]. exists s'. split; [reflexivity|exact H]. }
    unfold group_candidates. eapply UT_bind; [apply (sel_cache_T w I n_prime cv_b prefix c7' 0 0 line R); [exact W7'|eapply hv_mono; [exact E37|exact Vl]|exact Rl]|].
    intros u d0 Wd0 Ed0 K0. cbv beta in K0. clear u.
    change (seq 1 (2 ^ length [q] - 1)) with [1%nat]. cbn [ufoldM]. eapply UT_ubind.
    2: { intros x d Wd Ed H. apply UT_ret; [exact Wd|exact H]. }
    change (low_pos 1) with 0%nat. change (1 - 2 ^ 0)%nat with 0%nat. apply (CT_nth_k _ _ _ line); [reflexivity|]. apply (CT_nth_k _ _ _ q); [reflexivity|].
    eapply UT_ubind; [apply (add_T w I IO n_prime w_prime HD cv_b d0 line q R G S); auto; eapply hv_mono; try exact Ed0; [eapply hv_mono; [exact E37|exact Vl]|eapply hv_mono; [exact E17|exact Hq]]|].
    intros s0 d Wd Ed Hs0. cbv beta in Hs0. eapply UT_bind; [eapply (reduce_T w I IO n_prime w_prime cv_b); eauto|]. intros s' d2 Wd2 Ed2 (Hs' & Rs').
    eapply UT_bind; [apply (sel_cache_T w I n_prime cv_b prefix d2 0 1 s' S); auto|]. intros u d3 Wd3 Ed3 _. apply UT_ret; [auto|].
    exists s'. split; [reflexivity|]. eapply KSel_rext; [|exact K0]. apply rext_of. eapply extends_trans; [exact Ed|]. eapply extends_trans; eauto. }
  intros css c8 W8 E8 (s' & -> & KL).
  pose proof (extends_trans _ _ _ E1 (extends_trans _ _ _ E17 E8)) as E08.
  eapply (CT_bind _ _ _ (fun bits c' => exists ws, bits = [ws] /\ digits_are dg c' m ws)).
  { cbn [mapM]. eapply CT_bind; [apply (native_dec_T n_prime c8 s 1 W8); split; [eapply valid_mono; eauto|exact Es]|].
    intros ws d Wd Ed Hws. cbv beta in Hws. apply one_digits in Hws. apply CT_ret_k. apply CT_ret; [auto|]. exists ws. split; [reflexivity|exact Hws]. }
  intros bits c9 W9 E9 (ws & -> & Hws).
  apply (CT_nth_k _ _ _ ws); [reflexivity|]. pose proof Hws as [Lws _]. rewrite Lws.
  change (chunks 1 [ws]) with [[ws]].
  pose proof (extends_trans _ _ _ E8 E9) as E79. assert (NB2 : 2 <= NUM_BITS) by (unfold NUM_BITS; assert (1 <= Z.log2 nmod) by (apply (Z.log2_le_pow2 nmod 1); [|change (2 ^ 1) with 2]; lia); lia). assert (m1 : (1 <= m)%nat) by lia.
  assert (HP9 : planted c9) by (eapply planted_rext; [apply rext_of; exact (extends_trans _ _ _ E08 E9)|exact HP]).
  assert (KL9 : KSel I prefix c9 0 0 line) by (eapply KSel_rext; [apply rext_of; exact E9|exact KL]).
  assert (Van9 : hv c9 an (pt_neg w G)).
  { eapply hv_mono; [|exact Van]. eapply extends_trans; [exact E6|]. eapply extends_trans; [exact E7|]. eapply extends_trans; eauto. }
  assert (Vln9 : hv c9 ln (pt_neg w R)) by (eapply hv_mono; [|exact Vln]; eapply extends_trans; eauto).
  assert (Vl9 : hv c9 line R) by (eapply hv_mono; [|exact Vl]; eapply extends_trans; eauto).
  eapply (UT_ubind _ _ _ (fun hl c' => Forall2 (fun i x => hv c' x (lined i)) (seq 0 m) hl)).
  { eapply (UT_par_windows (window_body I (shared_pick a prefix) an [[line; s']] [[ws]])) with (Q := fun i x c' => hv c' x (lined i)) (base := c9) (n := m); [| | | |reflexivity|exact m1|exact W9].
    - intros i. apply uapp_of, appends_window_body. intros. apply app_shared_pick.
    - intros i j. apply window_body_cost. intros g cs bits bits' Hb. apply co_shared_pick. exact Hb.
    - intros i x d d' E H. eapply hv_rext; eauto.
    - intros i d Hi Wd Rd. apply window_shared; auto.
      + eapply planted_rext; [exact Rd|exact HP9].
      + eapply hv_rext; [exact Rd|exact Van9].
      + eapply hv_rext; [exact Rd|exact Vl9].
      + eapply KSel_rext; [exact Rd|exact KL9].
      + destruct Hws as [HL HW]. split; [exact HL|]. intros j Hj. destruct (HW j Hj) as (b & Nb & Vb & Eb). exists b. split; [exact Nb|]. split; [eapply valid_rext; eauto|exact Eb]. }
  intros hl c10 W10 E10 FL. cbv beta in FL.
  change (length [[ws]]) with 1%nat. change (Nat.odd 1) with true. cbv iota.
  eapply (UT_ubind _ _ _ (fun acc c' => hv c' acc C)).
  { eapply UT_weaken; [apply (UT_ufoldM _ _ (fun pre acc c' => hv c' acc (if (length pre =? m)%nat then C else G))); [exact W10| |]|].
    - cbn [length]. destruct (Nat.eqb_spec 0 m); [lia|]. eapply hv_mono; [|exact Va]. eapply extends_trans; [exact E3|]. eapply extends_trans; [exact E37|]. eapply extends_trans; eauto.
    - intros pre wi post acc d Es' Wd Ed Hacc. destruct (nth_seq_pre _ _ _ _ _ Es') as [Ei Lpre]. cbn [Nat.add] in Ei. subst wi. set (i := length pre) in *.
      destruct (Nat.eqb_spec i m) as [E|_] in Hacc; [lia|].
      eapply UT_ubind; [apply (double_T w I IO n_prime w_prime HD cv_b d acc G G2); auto|]. intros acc1 d1 Wd1 Ed1 Hacc1. cbv beta in Hacc1.
      destruct (nth_lt hl i) as (la & Ha); [pose proof (Cost.F2_len _ _ _ FL) as LL; rewrite seq_length in LL; lia|].
      apply (CT_nth_k _ _ _ la); [exact Ha|].
      assert (Hl : hv d1 la (lined i)).
      { destruct (F2_nth2 _ _ _ FL _ _ Ha) as (j & Hj & K). assert (j = i) as -> by (rewrite (nth_error_nth' _ 0%nat) in Hj by (rewrite seq_length; lia); rewrite seq_nth in Hj by lia; injection Hj as <-; reflexivity).
        eapply hv_mono; [|exact K]. eapply extends_trans; eauto. }
      eapply UT_ubind; [apply (add_T w I IO n_prime w_prime HD cv_b d1 la acc1 (lined i) G2 (if (i =? m - 1)%nat then B else S)); auto; unfold lined; destruct (i =? m - 1)%nat; [exact H_B|exact H_back]|].
      intros acc2 d2 Wd2 Ed2 Hacc2. cbv beta in Hacc2. rewrite app_length. cbn [length]. rewrite Nat.add_1_r. fold i.
      apply (add_T w I IO n_prime w_prime HD cv_b d2 acc2 ln (if (i =? m - 1)%nat then B else S) (pt_neg w R)); auto.
      + eapply hv_mono; [|exact Vln9]. eapply extends_trans; [exact E10|]. eapply extends_trans; [exact Ed|]. eapply extends_trans; eauto.
      + destruct (Nat.eqb_spec i (m - 1)), (Nat.eqb_spec (Datatypes.S i) m); try lia; [exact H_C|exact H_A].
    - intros acc d _ _ H. rewrite seq_length, Nat.eqb_refl in H. exact H. }
  intros acc c11 W11 E11 (x1 & y1 & H1 & EC & C1). destruct (hv_mono w I cv_b _ _ _ _ (extends_trans _ _ _ E10 E11) Van9) as (x2 & y2 & H2 & EN & C2).
  pose proof H_D as HDD. rewrite EC, EN in HDD. rewrite EC in C1. rewrite EN in C2.
  eapply UT_bind; [apply (downgrade_C w I n_prime); [auto|exact H1]|]. intros p1 c12 W12 E12 Hp1. cbv beta in Hp1.
  eapply UT_bind; [eapply (to_pointc_C w I IO); eauto|]. intros p2 c13 W13 E13 (l & kk & Hp2 & TO).
  eapply UT_bind; [apply (downgrade_C w I n_prime); [auto|]|].
  { eapply hn_mono; [exact (extends_trans _ _ _ E12 E13)|exact H2]. }
  intros p3 c14 W14 E14 Hp3. cbv beta in Hp3.
  eapply UT_bind; [eapply (ecc_add_C w I IO n_prime w_prime HD cv_b); [auto|eapply hpc_mono; [exact E14|exact Hp2]|exact Hp3|intros _; exact TO|exact C1|exact C2]|].
  intros r c15 W15 E15 (x & y & z & Hr & Ad). apply UT_ret; [auto|]. exists x, y, z. split; [exact Hr|].
  eapply (pt_add_fun w cv_b w_prime); [| |exact Ad|exact HDD]; auto.
Qed.

Lemma msm_shared c p s : wf c -> planted c -> hpv w I cv_b c p G -> valid c s -> a_val s = dg ->
  CT c (shared_msm a prefix (Some (xg, yg)) (Some (xg, yg)) (Some (xr, yr)) [p] [s])
        (fun r c' => snd r = Some (prefix + MSM_PREFIX_OFFSET) /\ exists x y z, hp w I c' (fst r) x y z /\ dec w x y z = D).
Proof.
  intros W HP Hp Vs Es. unfold shared_msm. pose proof (IntInv.n_big w I IO) as NB.
  assert (N2 : 2 < nmod) by (change (2 ^ 108) with 324518553658426726783156020576256 in NB; lia).
  eapply (CT_bind _ _ _ (fun r c' => exists r', r = (UOk r', Some (prefix + MSM_PREFIX_OFFSET)) /\ exists x y z, hp w I c' r' x y z /\ dec w x y z = D)).
  2: { intros r c' W' E' (r' & -> & H). cbn. apply CT_ret; [auto|]. split; [reflexivity|exact H]. }
  eapply CT_bind; [apply (assign_T w I IO n_prime w_prime HD cv_b b_range c xg yg W OCG)|]. intros n c1 W1 E1 (Vn & _).
  eapply CT_bind; [apply (native_zero_T n_prime c1 W1)|]. intros z c2 W2 E2 Vz. cbv beta in Vz.
  eapply (CT_bind _ _ _ (fun l c' => exists q t, l = [(q, t)] /\ hv c' q G /\ nsv c' t dg)).
  { cbn [combine mapM fst snd]. pose proof (extends_trans _ _ _ E1 E2) as E02.
    eapply (CT_bind _ _ _ (fun qt c' => hv c' (fst qt) G /\ nsv c' (snd qt) dg)).
    2: { intros [q t] d Wd Ed H. apply CT_ret_k. apply CT_ret; [auto|]. exists q, t. split; [reflexivity|exact H]. }
    apply (hpv_mono w I cv_b _ _ _ _ E02) in Hp. destruct Hp as (x & y & k & Hp & EP & Cp). assert (k = false) as -> by (destruct k; [discriminate EP|reflexivity]).
    eapply CT_bind; [apply (native_bis_T n_prime c2 (p_z p) false z s 0 dg W2); [apply Hp|exact Vz|split; [eapply valid_mono; eauto|exact Es]]|].
    intros t d1 Wd1 Ed1 Vt. cbv beta in Vt. apply (hv_mono _ _ _ _ _ _ _ (extends_trans _ _ _ E2 Ed1)) in Vn. destruct Vn as (xn & yn & Hn & En & Cn).
    eapply CT_bind; [eapply (bisec_to_nz_C w I IO n_prime d1 p n x y false xn yn); [auto| |exact Hn]|].
    { eapply hp_mono; [exact Ed1|exact Hp]. }
    intros q d2 Wd2 Ed2 Hq. cbv beta in Hq. apply CT_ret; [auto|]. cbn [fst snd]. split.
    - exists x, y. split; [exact Hq|]. split; [exact EP|exact OCG].
    - destruct Vt as [V1 V2]. split; [eapply valid_mono; eauto|exact V2]. }
  intros l c3 W3 E3 (q & t & -> & Hq & Vt & Et). cbn [map fst snd].
  eapply CT_bind; [apply (batch_shared c3 q t W3); auto|]. { eapply planted_rext; [|exact HP]. apply rext_of. eapply extends_trans; [exact E1|]. eapply extends_trans; eauto. }
  intros r c4 W4 E4 (r' & -> & H). apply CT_ret; [auto|]. exists r'. split; [reflexivity|exact H].
Qed.
End R.
