(** The multi-scalar multiplication completes when every addition of its schedule is
    one that the incomplete formulas can do. *)
From Verif Require Import Prelude FieldZ Circuit Context Spec Logic ModArith Prims BaseChip BaseProofs
  RangeInfo RangeChip IntegerChip SpecInt InfoProofs IntArith RangeProofs IntInv IntSound IntComplete IntBridge
  IntRes EccChip SpecEcc Curve EccArith EccProofs EccHonest EccEncode ScalarChip Msm ParWindows MsmProofs MsmSound
  SpecSelect SelectProofs HonestLogic HonestMsm SpecShape SpecCost Cost SpecSchedule TotalLogic.

(** *** The schedule *)
Fixpoint ds_of (n i : nat) : list bool := match n with O => [] | S n' => Nat.odd i :: ds_of n' (Nat.div2 i) end.
Lemma ds_of_length n : forall i, length (ds_of n i) = n.
Proof. induction n; intros i; cbn; auto. Qed.
Lemma ds_of_index ds : ds_of (length ds) (index_of ds) = ds.
Proof.
  induction ds as [|d ds IH]; [reflexivity|]. cbn [length ds_of index_of]. f_equal.
  - destruct d; cbn [Nat.b2n]; [apply Nat.odd_spec; eexists; apply Nat.add_comm|]. apply Bool.not_true_iff_false. rewrite Nat.odd_spec. intros [j Hj]. lia.
  - transitivity (ds_of (length ds) (index_of ds)); [f_equal|exact IH]. destruct d; cbn [Nat.b2n]; [change (1 + 2 * index_of ds)%nat with (S (2 * index_of ds)); apply Nat.div2_succ_double|apply Nat.div2_double].
Qed.
Section Sched.
Variable w cv_b : Z.
Hypothesis w_prime : prime w.
Local Notation OC := (on_curve w cv_b).
Lemma chord_on p q r : OC p -> OC q -> chord w p q r -> OC r.
Proof. intros H1 H2 [_ H]. exact (pt_add_on w cv_b w_prime _ _ _ H1 H2 H). Qed.
Lemma chord_fun p q r r' : OC p -> OC q -> chord w p q r -> chord w p q r' -> r = r'.
Proof. intros H1 H2 [_ H] [_ H']. exact (pt_add_fun w cv_b w_prime _ _ _ _ H1 H2 H H'). Qed.
Lemma candidate_on p0 ps ds r : OC p0 -> Forall OC ps -> candidate w p0 ps ds r -> OC r.
Proof.
  intros H0 F H. induction H as [|p ps ds r H IH|p ps ds q r H IH K]; [exact H0|inversion_clear F; auto|]. inversion_clear F as [|? ? Hp Fp].
  exact (chord_on q p r (IH Fp) Hp K).
Qed.
Lemma candidate_fun p0 ps ds r : OC p0 -> Forall OC ps -> candidate w p0 ps ds r -> forall r', candidate w p0 ps ds r' -> r = r'.
Proof.
  intros H0 F H. induction H; intros r' H'; inversion H'; subst; [reflexivity|inversion_clear F; auto|].
  inversion_clear F as [|? ? Hp Fp].
  match goal with K : candidate w p0 ps ds ?q', L : chord w ?q' p r' |- _ => pose proof (IHcandidate Fp _ K); subst q';
    eapply (chord_fun q p); [eapply candidate_on; [exact H0|exact Fp|exact K]|exact Hp|eassumption|exact L] end.
Qed.
(** The candidate number i <> 0 is one addition away from an earlier one. *)
Lemma candidate_low p0 ps : forall i r, i <> 0%nat -> (i < 2 ^ length ps)%nat -> candidate w p0 ps (ds_of (length ps) i) r ->
  exists q p, nth_error ps (low_pos i) = Some p /\ candidate w p0 ps (ds_of (length ps) (i - 2 ^ low_pos i)) q /\ chord w q p r.
Proof.
  induction ps as [|p ps IH]; intros i r Hi Hb H; [cbn in Hb; lia|]. cbn [length] in Hb. rewrite Nat.pow_succ_r' in Hb. cbn [length ds_of] in H.
  destruct (Nat.odd i) eqn:O.
  - inversion H; subst. exists q, p. rewrite low_pos_odd by auto. split; [reflexivity|]. split; [|assumption].
    apply Nat.odd_spec in O as [k ->]. change (2 ^ 0)%nat with 1%nat. replace (2 * k + 1 - 1)%nat with (2 * k)%nat by lia.
    cbn [length ds_of].
    replace (Nat.odd (2 * k)) with false by (symmetry; apply Bool.not_true_iff_false; rewrite Nat.odd_spec; intros [j Hj]; lia).
    constructor. rewrite Nat.div2_double. replace (2 * k + 1)%nat with (S (2 * k)) in * by lia. rewrite Nat.div2_succ_double in *. assumption.
  - assert (E : Nat.even i = true) by (rewrite <- Nat.negb_odd, O; reflexivity). apply Nat.even_spec in E as [k ->].
    rewrite Nat.div2_double in H. inversion H as [|? ? ? ? H'|]; subst.
    destruct (IH k r ltac:(lia) ltac:(lia) H') as (q & p' & Hn & Hc & Hch).
    exists q, p'. rewrite low_pos_double by lia. split; [exact Hn|]. split; [|exact Hch].
    pose proof (low_pos_le k ltac:(lia)). rewrite Nat.pow_succ_r'. replace (2 * k - 2 * 2 ^ low_pos k)%nat with (2 * (k - 2 ^ low_pos k))%nat by lia.
    cbn [length ds_of].
    replace (Nat.odd (2 * (k - 2 ^ low_pos k))) with false by (symmetry; apply Bool.not_true_iff_false; rewrite Nat.odd_spec; intros [j Hj]; lia).
    constructor. rewrite Nat.div2_double. exact Hc.
Qed.
Lemma low_pos_lt n : forall i, i <> 0%nat -> (i < 2 ^ n)%nat -> (low_pos i < n)%nat.
Proof.
  intros i Hi Hb. pose proof (low_pos_le i Hi). apply (Nat.pow_lt_mono_r_iff 2); lia.
Qed.
Lemma with_starts_nth gs : forall R R' g, nth_error (with_starts R R' gs) g
  = match nth_error gs g with Some ps => Some (if Nat.even g then R else R', ps) | None => None end.
Proof.
  induction gs as [|x gs IH]; intros R R' [|g]; cbn [with_starts nth_error]; try reflexivity. rewrite IH.
  destruct (nth_error gs g); [|reflexivity]. rewrite Nat.even_succ, <- Nat.negb_even. destruct (Nat.even g); reflexivity.
Qed.
Lemma with_starts_length gs : forall R R', length (with_starts R R' gs) = length gs.
Proof. induction gs; intros; cbn; auto. Qed.
End Sched.
Lemma skipn_nth {X} (l : list X) : forall i x, nth_error l i = Some x -> skipn i l = x :: skipn (S i) l.
Proof. induction l as [|a l IH]; intros [|i] x H; try discriminate; [injection H as ->; reflexivity|]. cbn [skipn]. rewrite (IH i x H). reflexivity. Qed.
Lemma F2_nth1 {X Y} (R : X -> Y -> Prop) l l' : Forall2 R l l' -> forall i x, nth_error l i = Some x -> exists y, nth_error l' i = Some y /\ R x y.
Proof. induction 1; intros [|i] a; cbn; try discriminate; [intros [= <-]; eauto|apply IHForall2]. Qed.
Lemma F2_nth2 {X Y} (R : X -> Y -> Prop) l l' : Forall2 R l l' -> forall i y, nth_error l' i = Some y -> exists x, nth_error l i = Some x /\ R x y.
Proof. induction 1; intros [|i] a; cbn; try discriminate; [intros [= <-]; eauto|apply IHForall2]. Qed.
Lemma F2_impl {X Y} (R S : X -> Y -> Prop) l l' : (forall x y, R x y -> S x y) -> Forall2 R l l' -> Forall2 S l l'.
Proof. intros H F. induction F; constructor; auto. Qed.
Lemma nth_lt {X} (l : list X) i : (i < length l)%nat -> exists x, nth_error l i = Some x.
Proof. intros H. destruct (nth_error l i) eqn:E; [eauto|]. apply nth_error_None in E. lia. Qed.

Section S.
Context {NM : NMod}.
Variable w : Z.
Variable I : rinfo.
Hypothesis IO : info_ok w I.
Hypothesis n_prime : prime nmod.
Hypothesis w_prime : prime w.
Hypothesis HD : ri_d_bits I mod 108 <> 0.
Variable cv_b : Z.
Hypothesis b_range : 0 < cv_b < w.
Local Notation L := (ri_limbs I).
Local Notation OC := (on_curve w cv_b).

(** The handle of the point p of the curve, other than the identity. *)
Definition hv (c : ctx) (a : anz) (p : pt) : Prop := exists x y, hn w I c a x y /\ p = dec w x y false /\ OC p.
Definition red (a : anz) : Prop := i_times (nz_x a) = 1 /\ i_times (nz_y a) = 1.
Lemma hv_on c a p : hv c a p -> OC p. Proof. intros (x & y & _ & _ & H). exact H. Qed.
Lemma hv_rext c d a p : rext c d -> hv c a p -> hv d a p.
Proof. intros E (x & y & [H1 H2] & C). exists x, y. split; [split; eapply cr_rext; eauto|exact C]. Qed.
Lemma hv_mono c d a p : extends c d -> hv c a p -> hv d a p.
Proof. intros E. apply hv_rext, rext_of, E. Qed.
Lemma Fhv_mono c d l ps : extends c d -> Forall2 (hv c) l ps -> Forall2 (hv d) l ps.
Proof. intros E. apply F2_impl. intros a p. apply hv_mono, E. Qed.

Lemma add_T c a b p q r : wf c -> hv c a p -> hv c b q -> chord w p q r -> UT c (ecc_add_unsafe I a b) (fun s c' => hv c' s r).
Proof.
  intros W (x1 & y1 & H1 & -> & C1) (x2 & y2 & H2 & -> & C2) K. pose proof K as [NE Ad]. cbn [dec] in NE.
  eapply CT_weaken; [eapply (ecc_add_unsafe_C w I IO); eauto|]. intros s c' _ _ (p & x3 & y3 & -> & H3 & Ad'). exists p. split; [reflexivity|].
  exists x3, y3. split; [exact H3|]. split; [eapply (pt_add_fun w cv_b w_prime); [| |exact Ad|exact Ad']; auto|]. eapply (pt_add_on w cv_b w_prime); [exact C1|exact C2|exact Ad].
Qed.
Lemma double_T c a p r : wf c -> hv c a p -> tangent w p r -> UT c (ecc_double_unsafe I a) (fun s c' => hv c' s r).
Proof.
  intros W (x1 & y1 & H1 & -> & C1) K. pose proof K as [NE Ad]. cbn [dec] in NE.
  assert (NE' : (2 * y1) mod w <> 0) by (rewrite Z.mul_mod_idemp_r in NE by (pose proof (w_pos w w_prime); lia); exact NE).
  eapply CT_weaken; [eapply (ecc_double_unsafe_C w I IO); eauto|]. intros s c' _ _ (p & x3 & y3 & -> & H3 & Ad'). exists p. split; [reflexivity|].
  exists x3, y3. split; [exact H3|]. split; [eapply (pt_add_fun w cv_b w_prime); [| |exact Ad|exact Ad']; auto|]. eapply (pt_add_on w cv_b w_prime); [exact C1|exact C1|exact Ad].
Qed.
Lemma neg_T c a p : wf c -> hv c a p -> CT c (ecc_neg_non_zero I a) (fun r c' => hv c' r (pt_neg w p)).
Proof.
  intros W (x & y & H & -> & C). eapply CT_weaken; [eapply (ecc_neg_nz_C w I IO); eauto|]. intros r c' _ _ H'.
  exists x, (- y). split; [exact H'|]. rewrite neg_dec by auto. split; [reflexivity|]. apply pt_neg_on; auto.
Qed.
Lemma reduce_T c a p : wf c -> hv c a p -> CT c (ecc_reduce_non_zero I a) (fun r c' => hv c' r p /\ red r).
Proof.
  intros W (x & y & H & -> & C). eapply CT_weaken; [eapply (ecc_reduce_nz_C w I IO); eauto|]. intros r c' _ _ (H' & T). split; [|exact T].
  exists x, y. auto.
Qed.
Lemma assign_T c x y : wf c -> OC (Aff x y) -> CT c (assign_non_zero_point I cv_b (Some (x, y))) (fun r c' => hv c' r (Aff x y) /\ red r).
Proof.
  intros W C. pose proof C as (Rx & Ry & Ce). pose proof (w_lt w I IO w_prime) as WL. assert (Rb : 0 <= cv_b < w) by lia.
  unfold assign_non_zero_point. eapply CT_opt_k; [reflexivity|]. cbn [fst snd].
  assert (AW : forall d z, wf d -> 0 <= z < w -> CT d (assign_w I z) (fun r c' => cr w I c' r z /\ i_times r = 1)).
  { intros d z Wd Hz. eapply CT_weaken; [apply (assign_w_CT w I IO n_prime d z Wd); lia|].
    intros r c' _ _ (H1 & H2 & H3). split; [|exact H2]. split; [|rewrite H3; reflexivity]. split; [auto|]. split; [lia|]. intros _. lia. }
  eapply CT_bind; [apply AW; auto|]. intros ax c1 W1 E1 (Hx & Tx). eapply CT_bind; [apply AW; auto|]. intros ay c2 W2 E2 (Hy & Ty).
  apply (cr_mono _ _ _ _ _ _ E2) in Hx. eapply CT_bind; [eapply (curve_sides_C w I IO n_prime w_prime HD cv_b Rb); eauto|]. intros s c3 W3 E3 (Hs1 & Hs2).
  apply (cr_mono _ _ _ _ _ _ E3) in Hx. apply (cr_mono _ _ _ _ _ _ E3) in Hy.
  eapply CT_bind; [eapply (assert_int_equal_C w I IO); eauto|]. intros u c4 W4 E4 _. cbv beta.
  apply (cr_mono _ _ _ _ _ _ E4) in Hx. apply (cr_mono _ _ _ _ _ _ E4) in Hy. apply CT_ret; [auto|].
  split; [|split; assumption]. exists x, y. split; [split; assumption|]. split; [|exact C]. unfold dec. rewrite !Z.mod_small by auto. reflexivity.
Qed.

(** *** Candidates *)
Variable KC : ctx -> nat -> nat -> anz -> Prop.
Hypothesis KC_rext : forall c d g i p, rext c d -> KC c g i p -> KC d g i p.
Variable cache : nat -> nat -> anz -> M unit.
Variable pick : nat -> list anz -> list acond -> M anz.
Variable BS : nat.
Local Notation kc := (kc KC).
(** A table of handles; number i stands for a point that satisfies [P i]. *)
Definition tab (c : ctx) (P : nat -> pt -> Prop) (cs : list anz) : Prop :=
  forall i a, nth_error cs i = Some a -> exists p, hv c a p /\ P i p.
Lemma tab_rext c d P cs : rext c d -> tab c P cs -> tab d P cs.
Proof. intros E H i a Ha. destruct (H i a Ha) as (p & Hp & K). exists p. split; [eapply hv_rext; eauto|exact K]. Qed.
Hypothesis cache_T : forall c g i a p, wf c -> hv c a p -> red a -> CT c (cache g i a) (fun _ c' => KC c' g i a).
Hypothesis pick_T : forall c g cs bits ds P, wf c -> (1 <= length bits <= BS)%nat -> length cs = (2 ^ length bits)%nat -> tab c P cs -> kc c g cs ->
  Forall2 (cb c) bits ds -> CT c (pick g cs bits) (fun r c' => exists p, hv c' r p /\ P (index_of ds) p).
Hypothesis pick_app : forall g cs bs, appends (pick g cs bs).
Hypothesis pick_cost : forall g cs bits bits', Forall2 tav bits bits' -> CR tnz (pick g cs bits) (pick g cs bits').

Definition cands (c : ctx) (g : nat) (p0 : pt) (ps : list pt) (cs : list anz) : Prop :=
  (OC p0 /\ Forall OC ps) /\ length cs = (2 ^ length ps)%nat /\ tab c (fun i p => candidate w p0 ps (ds_of (length ps) i) p) cs /\ kc c g cs.
Lemma group_candidates_T c g init chunk p0 ps : wf c -> hv c init p0 -> red init -> Forall2 (hv c) chunk ps ->
  (forall ds, length ds = length ps -> exists r, candidate w p0 ps ds r) ->
  UT c (group_candidates I (cache g) init chunk) (fun cl c' => cands c' g p0 ps cl).
Proof.
  intros W Hi Ri Hc HA. unfold group_candidates. pose proof (Cost.F2_len _ _ _ Hc) as HL.
  eapply UT_bind; [eapply cache_T; eauto|]. intros u c1 W1 E1 K0. cbv beta in K0. clear u.
  assert (O0 : OC p0) by (eapply hv_on; eauto). assert (OS : Forall OC ps) by (clear - Hc; induction Hc; constructor; [eapply hv_on; eauto|auto]).
  assert (C0 : candidate w p0 ps (ds_of (length ps) 0) p0).
  { clear. induction ps as [|p ps IH]; [constructor|]. cbn [length ds_of]. change (Nat.odd 0) with false. change (Nat.div2 0) with 0%nat. constructor. exact IH. }
  pose proof (Nat.pow_nonzero 2 (length ps) ltac:(lia)) as NZ.
  eapply UT_weaken; [apply (UT_ufoldM _ _ (fun pre cl c' => length cl = S (length pre) /\ tab c' (fun i p => candidate w p0 ps (ds_of (length ps) i) p) cl /\ kc c' g cl)); [auto| |]|].
  - split; [reflexivity|]. split.
    + intros [|i] a H; [injection H as <-|destruct i; discriminate]. exists p0. split; [eapply hv_mono; eauto|exact C0].
    + intros [|i] p H; [injection H as <-; exact K0|destruct i; discriminate].
  - intros pre i post cl c2 Es W2 E2 (Ll & Fv & Kc). cbv zeta. destruct (nth_seq_pre _ _ _ _ _ Es) as [Ei Lp]. rewrite HL in Lp.
    assert (Bi : (i < 2 ^ length ps)%nat) by lia. assert (Ni : i <> 0%nat) by lia.
    destruct (HA (ds_of (length ps) i) (ds_of_length _ _)) as (r & Hr).
    destruct (candidate_low w p0 ps i r Ni Bi Hr) as (q & p & Hn & Hq & Hch).
    pose proof (low_pos_le i Ni) as LP. pose proof (Nat.pow_nonzero 2 (low_pos i) ltac:(lia)) as NZ2.
    destruct (nth_lt cl (i - 2 ^ low_pos i) ltac:(lia)) as (a & Ha). destruct (Fv _ _ Ha) as (q' & Hvq & Hq'). cbv beta in Hq'.
    pose proof (candidate_fun w cv_b w_prime _ _ _ _ O0 OS Hq _ Hq') as <-.
    destruct (F2_nth2 _ _ _ Hc _ _ Hn) as (b & Hb & Hvb).
    apply (CT_nth_k _ _ _ a); [exact Ha|]. apply (CT_nth_k _ _ _ b); [exact Hb|].
    eapply UT_ubind; [eapply add_T; [auto|exact Hvq| |exact Hch]|].
    { eapply hv_mono; [exact (extends_trans _ _ _ E1 E2)|]. exact Hvb. }
    intros s c3 W3 E3 Hs. eapply UT_bind; [eapply reduce_T; [exact W3|exact Hs]|]. intros s' c4 W4 E4 (Hs' & Rs').
    eapply UT_bind; [eapply cache_T; [exact W4|exact Hs'|exact Rs']|]. intros u c5 W5 E5 Kp. cbv beta in Kp. clear u. apply UT_ret; [auto|].
    pose proof (extends_trans _ _ _ E3 (extends_trans _ _ _ E4 E5)) as E35.
    split; [rewrite !app_length; cbn; lia|]. split.
    + intros j t Hj. destruct (Nat.lt_ge_cases j (length cl)) as [Lj|Lj].
      * rewrite nth_error_app1 in Hj by auto. exact (tab_rext _ _ _ _ (rext_of _ _ E35) Fv _ _ Hj).
      * rewrite nth_error_app2 in Hj by auto. destruct (j - length cl)%nat as [|m] eqn:Em; [|destruct m; discriminate].
        injection Hj as <-. replace j with i by lia. exists r. split; [eapply hv_mono; [exact E5|exact Hs']|exact Hr].
    + intros j t Hj. destruct (Nat.lt_ge_cases j (length cl)) as [Lj|Lj].
      * rewrite nth_error_app1 in Hj by auto. exact (kc_mono KC KC_rext _ _ _ _ E35 Kc _ _ Hj).
      * rewrite nth_error_app2 in Hj by auto. destruct (j - length cl)%nat as [|m] eqn:Em; [|destruct m; discriminate].
        injection Hj as <-. replace j with i by lia. exact Kp.
  - intros cl c' _ _ (H1 & H). split; [auto|]. split; [|exact H]. rewrite H1, seq_length, HL. lia.
Qed.

Definition css_all (c : ctx) (gs : list (pt * list pt)) (css : list (list anz)) : Prop :=
  forall g cs, nth_error css g = Some cs -> exists p0 ps, nth_error gs g = Some (p0, ps) /\ cands c g p0 ps cs.
Lemma css_all_rext c d gs css : rext c d -> css_all c gs css -> css_all d gs css.
Proof.
  intros E H g cs Hg. destruct (H _ _ Hg) as (p0 & ps & Hn & H0 & H1 & H2 & H3). exists p0, ps. split; [exact Hn|]. split; [exact H0|]. split; [exact H1|].
  split; [eapply tab_rext; eauto|eapply (kc_rext KC KC_rext); eauto].
Qed.

Lemma all_candidates_T c line line_neg groups R gss : wf c -> hv c line R -> red line -> hv c line_neg (pt_neg w R) -> red line_neg ->
  Forall2 (Forall2 (hv c)) groups gss ->
  (forall p0 ps ds, In (p0, ps) (with_starts R (pt_neg w R) gss) -> length ds = length ps -> exists r, candidate w p0 ps ds r) ->
  UT c (all_candidates I cache line line_neg groups) (fun css c' => length css = length gss /\ css_all c' (with_starts R (pt_neg w R) gss) css).
Proof.
  intros W Hl Rl Hln Rln Hg HA. unfold all_candidates. pose proof (Cost.F2_len _ _ _ Hg) as HL.
  eapply UT_weaken; [apply (UT_ufoldM _ _ (fun pre css c' => length css = length pre /\ css_all c' (with_starts R (pt_neg w R) gss) css)); [auto| |]|].
  - split; [reflexivity|]. intros [|g] cs H; discriminate.
  - intros pre [g chunk] post css c1 Es W1 E1 (Ll & G). cbn [fst snd].
    assert (Hgc : g = length pre /\ nth_error groups g = Some chunk).
    { assert (Hn : nth_error (combine (seq 0 (length groups)) groups) (length pre) = Some (g, chunk)) by (rewrite Es, nth_error_app2, Nat.sub_diag by lia; reflexivity).
      clear - Hn. assert (X : forall s gs j, nth_error (combine (seq s (length gs)) gs) j = Some (g, chunk) -> g = (s + j)%nat /\ nth_error gs j = Some chunk).
      { intros s gs. revert s. induction gs as [|x gs IH]; intros s [|j] H; try discriminate; cbn in H.
        - injection H as <- <-. split; [lia|reflexivity].
        - destruct (IH (S s) j H). split; [lia|auto]. }
      destruct (X _ _ _ Hn) as [E1 E2]. cbn in E1. subst g. auto. }
    destruct Hgc as [Eg Hch]. destruct (F2_nth1 _ _ _ Hg _ _ Hch) as (ps & Hps & Fps).
    pose proof (with_starts_nth gss R (pt_neg w R) g) as WS. rewrite Hps in WS.
    eapply UT_ubind; [eapply (group_candidates_T _ g _ chunk (if Nat.even g then R else pt_neg w R) ps); [auto| | | |]|].
    { destruct (Nat.even g); eapply hv_mono; eauto. }
    { destruct (Nat.even g); auto. }
    { eapply Fhv_mono; eauto. }
    { intros ds Hds. eapply HA; [eapply nth_error_In; exact WS|exact Hds]. }
    intros cl c2 W2 E2 Hcl. apply UT_ret; [auto|]. split; [rewrite !app_length; cbn; lia|].
    intros j cs Hj. destruct (Nat.lt_ge_cases j (length css)) as [Lj|Lj].
    + rewrite nth_error_app1 in Hj by auto. exact (css_all_rext _ _ _ _ (rext_of _ _ E2) G _ _ Hj).
    + rewrite nth_error_app2 in Hj by auto. destruct (j - length css)%nat as [|m] eqn:Em; [|destruct m; discriminate].
      injection Hj as <-. replace j with g in * by lia. eauto.
  - intros css c' _ _ (H1 & H). split; [|exact H]. rewrite H1, combine_length, seq_length. lia.
Qed.

(** *** One window *)
(** The recorded windows of one bit each are the m bits of v, the highest first. *)
Definition bits_are (c : ctx) (m : nat) (ws : list (list acond)) (v : Z) : Prop :=
  length ws = m /\ forall i, (i < m)%nat -> exists b, nth_error ws i = Some [b] /\ cb c b (top_bit m v i).
Lemma bits_rext c d m ws v : rext c d -> bits_are c m ws v -> bits_are d m ws v.
Proof. intros E [H1 H2]. split; [exact H1|]. intros i Hi. destruct (H2 i Hi) as (b & Hb & K). exists b. split; [exact Hb|eapply cb_rext; eauto]. Qed.
Lemma group_bits_T c m wi g vs : wf c -> (wi < m)%nat -> Forall2 (bits_are c m) g vs ->
  CT c (mapM (fun bits => w <- mnth bits wi ;; mnth w 0) g) (fun bs c' => Forall2 (cb c') bs (map (fun v => top_bit m v wi) vs)).
Proof.
  intros W Hw F. revert c W F. revert vs. induction g as [|x g IH]; intros vs c W F; inversion_clear F as [|? v ? vs' Hx F']; cbn [mapM map].
  - apply CT_ret; [auto|constructor].
  - destruct Hx as [_ Hx]. destruct (Hx wi Hw) as (b & Hb & Cb).
    eapply (CT_bind _ _ _ (fun r c' => r = b /\ cb c' b (top_bit m v wi))).
    { apply (CT_nth_k _ _ _ [b]); [exact Hb|]. apply (CT_nth _ _ _ b); [auto|reflexivity|]. auto. }
    intros b' c1 W1 E1 (-> & Cb1). eapply CT_bind; [apply (IH vs'); [auto|]|].
    { eapply F2_impl; [|exact F']. intros ws u. apply bits_rext, rext_of, E1. }
    intros bs c2 W2 E2 Fb. apply CT_ret; [auto|]. constructor; [eapply cb_mono; eauto|exact Fb].
Qed.

Lemma window_body_T c css groups acc_neg wi m A gs vss l : wf c -> (wi < m)%nat -> hv c acc_neg A -> css_all c gs css -> length css = length gs ->
  Forall2 (Forall2 (bits_are c m)) groups vss -> Forall2 (fun g vs => length (snd g) = length vs) gs vss ->
  Forall (fun g => (1 <= length g <= BS)%nat) groups ->
  window w A gs (map (map (fun v => top_bit m v wi)) vss) l ->
  UT c (window_body I pick acc_neg css groups wi) (fun r c' => hv c' r l).
Proof.
  intros W Hwi Ha Hc Hcl Hg HLs HB Hwin. unfold window_body. pose proof (Cost.F2_len _ _ _ Hg) as L1. pose proof (Cost.F2_len _ _ _ HLs) as L2.
  set (dss := map (map (fun v => top_bit m v wi)) vss) in *.
  eapply UT_weaken; [apply (UT_ufoldM _ _ (fun pre r c' => exists p, hv c' r p /\ window w p (skipn (length pre) gs) (skipn (length pre) dss) l)); [auto|eauto|]|].
  - intros pre gi post acc c1 Es W1 E1 (p & Hp & Hw). destruct (nth_seq_pre _ _ _ _ _ Es) as [Ei Lp]. cbn [Nat.add] in Ei. subst gi. set (i := length pre) in *.
    destruct (nth_lt groups i ltac:(lia)) as (g & Hgi). destruct (F2_nth1 _ _ _ Hg _ _ Hgi) as (vs & Hvs & Fvs).
    destruct (F2_nth2 _ _ _ HLs _ _ Hvs) as ([p0 ps] & Hps & Lps). cbn [snd] in Lps.
    destruct (nth_lt css i ltac:(lia)) as (cs & Hcs).
    apply (CT_nth_k _ _ _ g); [exact Hgi|].
    eapply UT_bind; [apply (group_bits_T _ m wi g vs); [auto|auto|]|].
    { eapply F2_impl; [|exact Fvs]. intros ws u. apply bits_rext, rext_of, E1. }
    intros bs c2 W2 E2 Fb. apply (CT_nth_k _ _ _ cs); [exact Hcs|].
    pose proof (extends_trans _ _ _ E1 E2) as E12.
    destruct (css_all_rext _ _ _ _ (rext_of _ _ E12) Hc _ _ Hcs) as (p0' & ps' & Hps' & (KO & KF) & K1 & K2 & K3). rewrite Hps in Hps'. injection Hps' as <- <-.
    assert (Lb : length bs = length ps) by (etransitivity; [exact (Cost.F2_len _ _ _ Fb)|]; rewrite map_length; auto).
    assert (Lg : length bs = length g) by (etransitivity; [exact (Cost.F2_len _ _ _ Fb)|]; rewrite map_length; symmetry; exact (Cost.F2_len _ _ _ Fvs)).
    assert (Hds : nth_error dss i = Some (map (fun v => top_bit m v wi) vs)) by (unfold dss; rewrite nth_error_map, Hvs; reflexivity).
    rewrite (skipn_nth _ _ _ Hps), (skipn_nth _ _ _ Hds) in Hw. inversion Hw as [|? ? ? ? ? ? q acc' ? Hq Hch Hrest]; subst.
    eapply UT_bind; [eapply pick_T; [auto| |unfold acond in *; rewrite Lb; exact K1|exact K2|exact K3|exact Fb]|].
    { pose proof (Forall_nth _ _ _ _ HB Hgi) as XX. cbv beta in XX. unfold acond in *. lia. }
    cbv beta. intros ci c3 W3 E3 (q' & Hci & Hq').
    assert (Lds : length ps = length (map (fun v => top_bit m v wi) vs)) by (rewrite map_length; auto).
    rewrite Lds, ds_of_index in Hq'.
    pose proof (candidate_fun w cv_b w_prime _ _ _ _ KO KF Hq' _ Hq) as ->.
    eapply UT_weaken; [eapply add_T; [auto|exact Hci|eapply hv_mono; [exact (extends_trans _ _ _ E2 E3)|exact Hp]|exact Hch]|].
    intros r c4 _ _ Hr. exists acc'. rewrite app_length. cbn [length]. rewrite Nat.add_1_r. split; [exact Hr|exact Hrest].
  - intros r c' _ _ (p & Hp & Hw). rewrite seq_length, L1, <- L2, skipn_all in Hw. inversion Hw; subst. exact Hp.
Qed.

Lemma taint_refl a : taint a a.
Proof. constructor; [|exact Logic.I|reflexivity]. induction (i_limbs a); constructor; [exact Logic.I|auto]. Qed.
Lemma tnz_refl a : tnz a a. Proof. constructor; apply taint_refl. Qed.
(** Every window takes the same number of rows. *)
Lemma window_body_cost acc_neg css groups i j : CRU any (window_body I pick acc_neg css groups i) (window_body I pick acc_neg css groups j).
Proof.
  assert (H : CRU tnz (window_body I pick acc_neg css groups i) (window_body I pick acc_neg css groups j)).
  { unfold window_body. apply CRU_ufoldM_eq; [apply tnz_refl|]. intros s t gi Hs.
    eapply CRU_bind; [apply CR_nth_eq|]. intros g g' <-.
    eapply CRU_bind; [apply (CR_mapM_eq tav)|].
    { intros x. eapply CR_bind; [apply CR_nth_any|]. intros a b _. eapply CR_wk; [apply CR_nth_any|]. intros; exact Logic.I. }
    intros bs bs' Hb. eapply CRU_bind; [apply CR_nth_eq|]. intros cs cs' <-.
    eapply CRU_bind; [apply pick_cost; exact Hb|]. intros ci ci' Hci. apply co_ecc_add_unsafe; assumption. }
  intros c d x y c' d' E F. destruct (H _ _ _ _ _ _ E F). split; [exact Logic.I|assumption].
Qed.

(** *** The whole batch *)
Variable Sc : Type.
Variable dec_ : Sc -> M (list (list acond)).
Variable sv : ctx -> Sc -> Z -> Prop.
Hypothesis sv_mono : forall c d s v, extends c d -> sv c s v -> sv d s v.
Variable m : nat.
Hypothesis m_pos : (1 <= m)%nat.
Hypothesis dec_T : forall c s v, wf c -> sv c s v -> CT c (dec_ s) (fun ws c' => bits_are c' m ws v).

Lemma chunks_pos {X} k (l : list X) : (1 <= k)%nat -> Forall (fun g => (1 <= length g)%nat) (chunks k l).
Proof.
  intros Hk. unfold chunks. generalize (length l) as f. intros f. revert l. induction f as [|f IH]; intros [|x l]; cbn [chunks_fuel]; constructor; [|apply IH].
  destruct k; [lia|]. cbn [firstn length]. lia.
Qed.
Lemma chunks_len {X Y} k (l : list X) (l' : list Y) : length l = length l' -> length (chunks k l) = length (chunks k l').
Proof.
  intros E. assert (F : Forall2 (fun _ _ => True) l l').
  { revert l' E. induction l as [|x l IH]; intros [|y l'] E; try discriminate; constructor; auto. }
  exact (Cost.F2_len _ _ _ (chunks_F2 _ k _ _ F)).
Qed.
Lemma F2_starts {X} (R R' : pt) (gss : list (list pt)) (vss : list (list X)) : Forall2 (Forall2 (fun _ _ => True)) gss vss ->
  Forall2 (fun g vs => length (snd g) = length vs) (with_starts R R' gss) vss.
Proof. intros F. revert R R'. induction F as [|x y gss vss H F IH]; intros R R'; cbn [with_starts]; constructor; [exact (Cost.F2_len _ _ _ H)|auto]. Qed.

Lemma msm_batch_T c best points ps scalars vs xa ya xl yl : wf c -> (1 <= best <= BS)%nat -> Forall2 (hv c) points ps -> Forall2 (sv c) scalars vs ->
  length ps = length vs -> ps <> [] -> OC (Aff xa ya) -> OC (Aff xl yl) ->
  schedule w best m (Aff xa ya) (Aff xl yl) ps vs ->
  UT c (msm_batch I cv_b dec_ pick cache best points scalars (Some (xa, ya)) (Some (xl, yl)))
       (fun r c' => (exists x y z, hp w I c' r x y z /\ OC (dec w x y z))
          /\ exists css, length css = length (chunks (group_size best (length ps)) ps)
                     /\ css_all c' (with_starts (Aff xl yl) (pt_neg w (Aff xl yl)) (chunks (group_size best (length ps)) ps)) css).
Proof.
  intros W HB Fp Fs Lpv NE Ca Cl (HA & lines & rr & HW & HC). unfold msm_batch.
  pose proof (Cost.F2_len _ _ _ Fp) as Lp. pose proof (Cost.F2_len _ _ _ Fs) as Ls.
  eapply UT_bind; [apply (CT_mapM _ _ _ (fun a b c' => forall p, hv c a p -> hv c' b p)); [auto| |]|].
  { intros a b c1 c2 H E p Hp. eapply hv_mono; eauto. }
  { intros a c' Hin W' E'. assert (X : exists p, hv c a p).
    { clear - Fp Hin. induction Fp; [destruct Hin|]. destruct Hin as [<-|Hin]; eauto. }
    destruct X as (p & Hp). eapply CT_weaken; [eapply reduce_T; [exact W'|eapply hv_mono; eauto]|].
    intros b c2 _ _ [Hb _] q Hq. destruct Hp as (x & y & [A1 A2] & -> & _). destruct Hq as (x' & y' & [B1 B2] & -> & _).
    assert (EX : dec w x y false = dec w x' y' false); [|rewrite <- EX; exact Hb].
    apply dec_ext; [destruct A1 as [_ <-], B1 as [_ <-]|destruct A2 as [_ <-], B2 as [_ <-]]; reflexivity. }
  intros pts c1 W1 E1 F1.
  assert (Fv : Forall2 (hv c1) pts ps).
  { clear - F1 Fp. revert ps Fp. induction F1; intros ps Fp; inversion_clear Fp; constructor; auto. }
  clear F1. pose proof (Cost.F2_len _ _ _ Fv) as Lpt.
  eapply UT_bind; [apply assign_T; [exact W1|exact Ca]|]. intros acc0 c2 W2 E2 (Va & _).
  eapply UT_bind; [apply assign_T; [exact W2|exact Cl]|]. intros line c3 W3 E3 (Vl & Rl).
  eapply UT_bind; [apply neg_T; [exact W3|eapply hv_mono; [exact E3|exact Va]]|]. intros an c4 W4 E4 Van.
  eapply UT_bind; [eapply reduce_T; [exact W4|exact Van]|]. intros an' c5 W5 E5 (Van' & _).
  eapply UT_bind; [apply neg_T; [exact W5|eapply hv_mono; [exact (extends_trans _ _ _ E4 E5)|exact Vl]]|]. intros ln c6 W6 E6 Vln.
  eapply UT_bind; [eapply reduce_T; [exact W6|exact Vln]|]. intros ln' c7 W7 E7 (Vln' & Rln').
  cbv zeta. unfold group_size in *. cbv zeta in HA, HW, HC. rewrite Lpt.
  set (ng := ((length ps + best - 1) / best)%nat) in *.
  assert (N0 : (1 <= length ps)%nat) by (destruct ps; [congruence|cbn; lia]).
  assert (N1 : (1 <= ng)%nat) by (unfold ng; apply Nat.div_le_lower_bound; lia).
  apply CT_assert_k; [apply Bool.negb_true_iff, Nat.eqb_neq; lia|].
  set (k := ((length ps + ng - 1) / ng)%nat) in *.
  assert (K1 : (1 <= k)%nat) by (unfold k; apply Nat.div_le_lower_bound; lia).
  assert (GS : (k <= BS)%nat).
  { unfold k. transitivity best; [|apply HB].
    pose proof (Nat.div_mod (length ps + best - 1) best ltac:(lia)) as DM. fold ng in DM. pose proof (Nat.mod_upper_bound (length ps + best - 1) best ltac:(lia)).
    apply Nat.lt_succ_r. apply Nat.div_lt_upper_bound; [lia|]. nia. }
  pose proof (extends_trans _ _ _ E4 (extends_trans _ _ _ E5 (extends_trans _ _ _ E6 E7))) as E37.
  pose proof (extends_trans _ _ _ E2 (extends_trans _ _ _ E3 E37)) as E17.
  eapply UT_ubind; [apply (all_candidates_T _ line ln' _ (Aff xl yl) (chunks k ps)); [exact W7|eapply hv_mono; [exact E37|exact Vl]|exact Rl|exact Vln'|exact Rln'| |exact HA]|].
  { apply chunks_F2. eapply Fhv_mono; [exact E17|exact Fv]. }
  set (gs := with_starts (Aff xl yl) (pt_neg w (Aff xl yl)) (chunks k ps)) in *.
  intros css c8 W8 E8 (Lcss & Hcss).
  assert (Fs8 : Forall2 (sv c8) scalars vs).
  { eapply F2_impl; [|exact Fs]. intros s v. apply sv_mono. eapply extends_trans; [exact E1|]. eapply extends_trans; [exact E17|exact E8]. }
  eapply (UT_bind _ _ _ (fun bits c' => Forall2 (bits_are c' m) bits vs)).
  { clear - Fs8 W8 dec_T sv_mono. revert c8 W8 Fs8. revert vs. induction scalars as [|s scalars IH]; intros vs c8 W8 F; inversion_clear F; cbn [mapM].
    - apply CT_ret; [auto|constructor].
    - eapply CT_bind; [eapply dec_T; eauto|]. intros ws d1 Wd1 Ed1 Hws. eapply CT_bind; [eapply IH; [exact Wd1|]|].
      { eapply F2_impl; [|eassumption]. intros s' v'. apply sv_mono, Ed1. }
      intros wss d2 Wd2 Ed2 Hwss. apply CT_ret; [auto|]. constructor; [eapply bits_rext; [apply rext_of; exact Ed2|exact Hws]|exact Hwss]. }
  intros bits c9 W9 E9 F9. cbv beta in F9. pose proof (Cost.F2_len _ _ _ F9) as L9.
  destruct (nth_lt bits 0 ltac:(lia)) as (bits0 & Hb0). apply (CT_nth_k _ _ _ bits0); [exact Hb0|].
  destruct (F2_nth1 _ _ _ F9 _ _ Hb0) as (v0 & _ & Lb0 & _). rewrite Lb0.
  pose proof (extends_trans _ _ _ E8 E9) as E79.
  pose proof (chunks_F2 _ k _ _ F9) as Hgr.
  assert (HGB : Forall (fun g => (1 <= length g <= BS)%nat) (chunks k bits)).
  { pose proof (chunks_size k bits) as S1. pose proof (chunks_pos k bits K1) as S2. rewrite Forall_forall in *. intros g Hg. specialize (S1 g Hg). specialize (S2 g Hg). cbv beta in *. lia. }
  assert (HLs : Forall2 (fun g vs => length (snd g) = length vs) gs (chunks k vs)).
  { apply F2_starts. apply chunks_F2. clear - Lpv. revert vs Lpv. induction ps as [|p ps IH]; intros [|v vs] Lpv; try discriminate; constructor; auto. }
  assert (LG : length gs = length (chunks k bits)).
  { rewrite (Cost.F2_len _ _ _ HLs). apply chunks_len. lia. }
  pose proof (Cost.F2_len _ _ _ HW) as LW. rewrite seq_length in LW.
  eapply UT_ubind.
  { eapply (UT_par_windows (window_body I pick an' css (chunks k bits))) with (Q := fun i x c' => forall l, nth_error lines i = Some l -> hv c' x l) (base := c9) (n := m); [| | | |reflexivity|exact m_pos|exact W9].
    - intros i. apply uapp_of, appends_window_body. auto.
    - intros i j. apply window_body_cost.
    - intros i x d d' E H l Hl. eapply hv_rext; eauto.
    - intros i d Hi Wd Rd. destruct (nth_lt lines i ltac:(lia)) as (l & Hl).
      eapply UT_weaken; [eapply (window_body_T d css (chunks k bits) an' i m (pt_neg w (Aff xa ya)) gs (chunks k vs) l); [exact Wd|exact Hi| | | | |exact HLs|exact HGB|]|].
      + eapply hv_rext; [exact Rd|]. eapply hv_mono; [|exact Van']. eapply extends_trans; [exact E6|]. eapply extends_trans; [exact E7|exact E79].
      + eapply css_all_rext; [exact Rd|]. eapply css_all_rext; [apply rext_of; exact E9|exact Hcss].
      + rewrite Lcss. unfold gs. rewrite with_starts_length. reflexivity.
      + eapply F2_impl; [|exact Hgr]. intros g vs'. apply F2_impl. intros ws v. apply bits_rext. exact Rd.
      + assert (Hn : nth_error (seq 0 m) i = Some i) by (rewrite (nth_error_nth' _ 0%nat) by (rewrite seq_length; auto); rewrite seq_nth by auto; reflexivity).
        destruct (F2_nth1 _ _ _ HW _ _ Hn) as (l' & Hl' & HWl). rewrite Hl in Hl'. injection Hl' as <-. exact HWl.
      + intros x d' _ _ Hx l' Hl'. rewrite Hl in Hl'. injection Hl' as <-. exact Hx. }
  intros hl c10 W10 E10 FL. cbv beta in FL. pose proof (Cost.F2_len _ _ _ FL) as LHL. rewrite seq_length in LHL.
  assert (Fl : forall i a l, nth_error hl i = Some a -> nth_error lines i = Some l -> hv c10 a l).
  { intros i a l Hi Hl. destruct (F2_nth2 _ _ _ FL _ _ Hi) as (j & Hj & K). assert (j = i) as ->; [|auto].
    assert (Bi : (i < m)%nat) by (apply nth_error_Some_bound in Hi || (assert (nth_error hl i <> None) as NN by congruence; apply nth_error_Some in NN; lia)).
    rewrite (nth_error_nth' _ 0%nat) in Hj by (rewrite seq_length; auto). rewrite seq_nth in Hj by auto. injection Hj as <-. reflexivity. }
  clear FL. pose proof (extends_trans _ _ _ E79 E10) as E710. rewrite <- LG.
  set (extra := if Nat.odd (length gs) then Some (pt_neg w (Aff xl yl)) else None) in *.
  eapply UT_ubind; [apply (UT_ufoldM _ _ (fun pre r c' => exists p, hv c' r p /\ combination w extra p (skipn (length pre) lines) rr)); [auto| |]|].
  { exists (Aff xa ya). split; [|exact HC]. eapply hv_mono; [|exact Va]. eapply extends_trans; [exact E3|]. exact (extends_trans _ _ _ E37 E710). }
  { intros pre wi post acc d Es Wd Ed (p & Hp & Hcomb). destruct (nth_seq_pre _ _ _ _ _ Es) as [Ei Lpre]. cbn [Nat.add] in Ei. subst wi. set (i := length pre) in *.
    destruct (nth_lt lines i ltac:(lia)) as (l & Hl). destruct (nth_lt hl i ltac:(lia)) as (a & Ha). rewrite (skipn_nth _ _ _ Hl) in Hcomb.
    inversion Hcomb as [|? ? ? a1 a2 a3 ? HT HCh HEx HRest]; subst.
    eapply UT_ubind; [eapply double_T; [exact Wd|exact Hp|exact HT]|]. intros acc1 d1 Wd1 Ed1 Hacc1.
    apply (CT_nth_k _ _ _ a); [exact Ha|].
    eapply UT_ubind; [eapply add_T; [exact Wd1|eapply hv_mono; [exact (extends_trans _ _ _ Ed Ed1)|exact (Fl _ _ _ Ha Hl)]|exact Hacc1|exact HCh]|].
    intros acc2 d2 Wd2 Ed2 Hacc2. rewrite app_length. cbn [length]. rewrite Nat.add_1_r. fold i. unfold extra in *. destruct (Nat.odd (length gs)).
    - eapply UT_weaken; [eapply add_T; [exact Wd2|exact Hacc2| |exact HEx]|].
      + eapply hv_mono; [|exact Vln']. eapply extends_trans; [exact E710|]. eapply extends_trans; [exact Ed|]. eapply extends_trans; eauto.
      + intros r d3 _ _ Hr. exists a3. split; [exact Hr|exact HRest].
    - apply UT_ret; [auto|]. subst a3. exists a2. split; [exact Hacc2|exact HRest]. }
  intros acc c11 W11 E11 (p & (x1 & y1 & H1 & -> & C1) & _).
  assert (Van2 : hv c11 an' (pt_neg w (Aff xa ya))). { eapply hv_mono; [|exact Van']. eapply extends_trans; [exact E6|]. eapply extends_trans; [exact E7|]. eapply extends_trans; eauto. }
  destruct Van2 as (x2 & y2 & H2 & EN & C2). rewrite EN in C2. 
  eapply UT_bind; [apply (downgrade_C w I n_prime); [auto|exact H1]|]. intros p1 c12 W12 E12 Hp1. cbv beta in Hp1.
  eapply UT_bind; [eapply (to_pointc_C w I IO); eauto|]. intros p2 c13 W13 E13 (l & kk & Hp2 & TO).
  eapply UT_bind; [apply (downgrade_C w I n_prime); [auto|]|].
  { eapply hn_mono; [exact (extends_trans _ _ _ E12 E13)|exact H2]. }
  intros p3 c14 W14 E14 Hp3. cbv beta in Hp3.
  eapply UT_bind; [eapply (ecc_add_C w I IO n_prime w_prime HD cv_b); [auto|eapply hpc_mono; [exact E14|exact Hp2]|exact Hp3|intros _; exact TO|exact C1|exact C2]|].
  intros r c15 W15 E15 (x & y & z & Hr & Ad). apply UT_ret; [auto|]. split; [exists x, y, z; split; [exact Hr|exact (pt_add_on w cv_b w_prime _ _ _ C1 C2 Ad)]|].
  exists css. split; [exact Lcss|]. eapply css_all_rext; [|exact Hcss]. apply rext_of. eapply extends_trans; [exact E9|]. eapply extends_trans; [exact E10|]. eapply extends_trans; [exact E11|]. eauto using extends_trans.
Qed.
End S.
