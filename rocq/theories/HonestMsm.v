(** Honest runs of the multi-scalar multiplication: if the run ends without panic or
    error, the recorded witness satisfies everything that was recorded. *)
From Verif Require Import Prelude FieldZ Circuit Context Spec Logic ModArith Prims BaseChip BaseProofs
  RangeInfo RangeChip IntegerChip SpecInt InfoProofs IntArith RangeProofs IntInv IntSound IntComplete IntBridge
  IntRes EccChip SpecEcc Curve EccArith EccProofs EccHonest EccEncode ScalarChip Msm ParWindows MsmProofs MsmSound
  SpecSelect SelectProofs HonestLogic.

Section S.
Context {NM : NMod}.
Variable w : Z.
Variable I : rinfo.
Hypothesis IO : info_ok w I.
Hypothesis n_prime : prime nmod.
Hypothesis w_prime : prime w.
Hypothesis HD : ri_d_bits I mod 108 <> 0.
Variable cv_b : Z.
Hypothesis b_range : 0 < cv_b < w.
Local Notation L := (ri_limbs I).

(** The handle of a point of the curve other than the identity. *)
Definition vn (c : ctx) (a : anz) : Prop := exists x y, hn w I c a x y /\ on_curve w cv_b (dec w x y false).
Definition bitv (c : ctx) (a : av) : Prop := exists k, cb c a k.

Lemma mem_hint c d x : c_mem c = c_mem d -> hint w I c x -> hint w I d x.
Proof.
  intros M ([H1 H2 H3] & H4). split; [|exact H4].
  assert (V : forall a, valid c a -> valid d a) by (intros a; unfold valid, used; rewrite M; auto).
  constructor; auto. eapply Forall_impl; [|exact H1]. auto.
Qed.
Lemma cr_rext c d x r : rext c d -> cr w I c x r -> cr w I d x r.
Proof. intros (e & E & [M _]) H. apply (cr_mono _ _ _ _ _ _ E) in H as [H V]. split; [|exact V]. eapply mem_hint; eauto. Qed.
Lemma cb_rext c d x k : rext c d -> cb c x k -> cb d x k.
Proof. intros E [H V]. split; [|exact V]. eapply valid_rext; eauto. Qed.
Lemma vn_rext c d a : rext c d -> vn c a -> vn d a.
Proof. intros E (x & y & [H1 H2] & C). exists x, y. split; [split; eapply cr_rext; eauto|exact C]. Qed.
Lemma bitv_rext c d a : rext c d -> bitv c a -> bitv d a.
Proof. intros E (k & H). exists k. eapply cb_rext; eauto. Qed.
Lemma vn_mono c d a : extends c d -> vn c a -> vn d a.
Proof. intros E. apply vn_rext, rext_of, E. Qed.
Lemma bitv_mono c d a : extends c d -> bitv c a -> bitv d a.
Proof. intros E. apply bitv_rext, rext_of, E. Qed.
Lemma Fvn_mono c d l : extends c d -> Forall (vn c) l -> Forall (vn d) l.
Proof. intros E. apply Forall_impl. intros a. apply vn_mono, E. Qed.
Lemma Fbit_mono c d l : extends c d -> Forall (bitv c) l -> Forall (bitv d) l.
Proof. intros E. apply Forall_impl. intros a. apply bitv_mono, E. Qed.

Lemma add_P c a b : wf c -> vn c a -> vn c b -> UP c (ecc_add_unsafe I a b) (fun r c' => vn c' r).
Proof.
  intros W (x1 & y1 & H1 & C1) (x2 & y2 & H2 & C2). destruct (Z.eq_dec (x1 mod w) (x2 mod w)) as [E|NE].
  - intros x c' R. rewrite (add_unsafe_degenerate w I IO n_prime w_prime HD c a b x1 y1 x2 y2 W H1 H2 E) in R. discriminate.
  - eapply UP_of; [apply PT_of; eapply (ecc_add_unsafe_C w I IO); eauto|]. intros x c' (p & x3 & y3 & E & H3 & Ad).
    injection E as <-. exists x3, y3. split; [exact H3|]. eapply (pt_add_on w cv_b w_prime _ _ _ C1 C2 Ad).
Qed.
Lemma double_P c a : wf c -> vn c a -> UP c (ecc_double_unsafe I a) (fun r c' => vn c' r).
Proof.
  intros W (x1 & y1 & H1 & C1). destruct (Z.eq_dec ((2 * y1) mod w) 0) as [E|NE].
  - intros x c' R. rewrite (double_unsafe_degenerate w I IO n_prime w_prime HD c a x1 y1 W H1 E) in R. discriminate.
  - eapply UP_of; [apply PT_of; eapply (ecc_double_unsafe_C w I IO); eauto|]. intros x c' (p & x3 & y3 & E & H3 & Ad).
    injection E as <-. exists x3, y3. split; [exact H3|]. eapply (pt_add_on w cv_b w_prime _ _ _ C1 C1 Ad).
Qed.
Lemma neg_P c a : wf c -> vn c a -> PT c (ecc_neg_non_zero I a) (fun r c' => vn c' r).
Proof.
  intros W (x & y & H & C). apply PT_of. eapply CT_weaken; [eapply (ecc_neg_nz_C w I IO); eauto|]. intros r c' _ _ H'.
  exists x, (- y). split; [exact H'|]. rewrite neg_dec by auto. apply pt_neg_on; auto.
Qed.
Lemma reduce_P c a : wf c -> vn c a -> PT c (ecc_reduce_non_zero I a) (fun r c' => vn c' r).
Proof.
  intros W (x & y & H & C). apply PT_of. eapply CT_weaken; [eapply (ecc_reduce_nz_C w I IO); eauto|]. intros r c' _ _ (H' & _).
  exists x, y. auto.
Qed.
Lemma bisec_P c d a b : wf c -> bitv c d -> vn c a -> vn c b -> PT c (ecc_bisec_non_zero_point I d a b) (fun r c' => vn c' r).
Proof.
  intros W (k & Hk) (x1 & y1 & H1 & C1) (x2 & y2 & H2 & C2). apply PT_of.
  eapply CT_weaken; [eapply (ecc_bisec_nz_C w I IO); eauto|]. intros r c' _ _ H'. destruct k; eexists; eexists; (split; [exact H'|auto]).
Qed.
Lemma assign_P c x y : wf c -> on_curve w cv_b (Aff x y) -> PT c (assign_non_zero_point I cv_b (Some (x, y))) (fun r c' => vn c' r).
Proof.
  intros W C. apply PT_of. eapply CT_weaken; [eapply (assign_nz_C w I IO); eauto; lia|]. intros r c' _ _ H'.
  exists x, y. split; [exact H'|]. destruct C as (R1 & R2 & C). unfold dec. rewrite !Z.mod_small by auto. split; [auto|]. auto.
Qed.

(** *** Candidates *)
Variable KC : ctx -> nat -> nat -> anz -> Prop.
Hypothesis KC_rext : forall c d g i p, rext c d -> KC c g i p -> KC d g i p.
Variable cache : nat -> nat -> anz -> M unit.
Variable pick : nat -> list anz -> list acond -> M anz.
Variable BS : nat.
Definition kc (c : ctx) (g : nat) (cs : list anz) : Prop := forall i p, nth_error cs i = Some p -> KC c g i p.
Hypothesis cache_P : forall c g i p, wf c -> vn c p -> PT c (cache g i p) (fun _ c' => KC c' g i p).
Hypothesis pick_P : forall c g cs bits, wf c -> (length bits <= BS)%nat -> Forall (vn c) cs -> kc c g cs -> Forall (bitv c) bits ->
  PT c (pick g cs bits) (fun r c' => vn c' r).
Hypothesis pick_app : forall g cs bs, appends (pick g cs bs).
Lemma kc_rext c d g cs : rext c d -> kc c g cs -> kc d g cs.
Proof. intros E H i p Hp. eapply KC_rext; eauto. Qed.
Lemma kc_mono c d g cs : extends c d -> kc c g cs -> kc d g cs.
Proof. intros E. apply kc_rext, rext_of, E. Qed.

Lemma nth_seq_pre s n (pre : list nat) i post : seq s n = pre ++ i :: post -> i = (s + length pre)%nat /\ (length pre < n)%nat.
Proof.
  intros Es. assert (Hn : nth_error (seq s n) (length pre) = Some i) by (rewrite Es, nth_error_app2, Nat.sub_diag by lia; reflexivity).
  assert (LL : (length pre < n)%nat). { assert (Q : length (seq s n) = length (pre ++ i :: post)) by (rewrite Es; reflexivity). rewrite seq_length, app_length in Q. cbn in Q. lia. }
  apply nth_error_nth with (d := 0%nat) in Hn. rewrite seq_nth in Hn by lia. lia.
Qed.
Lemma Forall_nth {X} (P : X -> Prop) l i x : Forall P l -> nth_error l i = Some x -> P x.
Proof. intros F H. rewrite Forall_forall in F. apply F. eapply nth_error_In; eauto. Qed.

Lemma group_candidates_P c g init chunk : wf c -> vn c init -> Forall (vn c) chunk ->
  UP c (group_candidates I (cache g) init chunk) (fun cl c' => Forall (vn c') cl /\ kc c' g cl).
Proof.
  intros W Hi Hc. unfold group_candidates. eapply UP_bind; [apply cache_P; auto|]. intros u c1 W1 E1 K0. cbv beta in K0. clear u.
  eapply UP_weaken; [apply (UP_ufoldM _ _ (fun pre cl c' => length cl = S (length pre) /\ Forall (vn c') cl /\ kc c' g cl)); [auto| |]|].
  - split; [reflexivity|]. split; [constructor; [eapply vn_mono; eauto|constructor]|].
    intros [|i] p H; [injection H as <-; exact K0|destruct i; discriminate].
  - intros pre i post cl c2 Es W2 E2 (Ll & Fv & Kc). cbv zeta. destruct (nth_seq_pre _ _ _ _ _ Es) as [Ei _].
    apply UP_nth_k. intros a Ha. apply UP_nth_k. intros q Hq.
    eapply UP_ubind; [apply add_P; [auto|eapply Forall_nth; eauto|]|].
    { eapply vn_mono; [exact (extends_trans _ _ _ E1 E2)|]. eapply (Forall_nth (vn c)); eauto. }
    intros p c3 W3 E3 Hp. eapply UP_bind; [apply reduce_P; auto|]. intros p' c4 W4 E4 Hp'.
    eapply UP_bind; [apply cache_P; auto|]. intros u c5 W5 E5 Kp. cbv beta in Kp. clear u. apply UP_ret; [auto|].
    pose proof (extends_trans _ _ _ E3 (extends_trans _ _ _ E4 E5)) as E35.
    split; [rewrite !app_length; cbn; lia|]. split.
    + apply Forall_app. split; [eapply Fvn_mono; [exact E35|exact Fv]|]. constructor; [eapply vn_mono; [exact E5|exact Hp']|constructor].
    + intros j r Hj. destruct (Nat.lt_ge_cases j (length cl)) as [Lj|Lj].
      * rewrite nth_error_app1 in Hj by auto. eapply kc_mono; eauto.
      * rewrite nth_error_app2 in Hj by auto. destruct (j - length cl)%nat as [|m] eqn:Em; [|destruct m; discriminate].
        injection Hj as <-. replace j with i by lia. exact Kp.
  - intros cl c' _ _ (_ & H). exact H.
Qed.

Definition css_ok (c : ctx) (css : list (list anz)) : Prop :=
  forall g cs, nth_error css g = Some cs -> Forall (vn c) cs /\ kc c g cs.
Lemma css_rext c d css : rext c d -> css_ok c css -> css_ok d css.
Proof.
  intros E H g cs Hg. destruct (H _ _ Hg) as [H1 H2]. split; [|eapply kc_rext; eauto]. eapply Forall_impl; [|exact H1]. intros a. apply vn_rext, E.
Qed.
Lemma css_mono c d css : extends c d -> css_ok c css -> css_ok d css.
Proof. intros E. apply css_rext, rext_of, E. Qed.

Lemma all_candidates_P c line line_neg groups : wf c -> vn c line -> vn c line_neg -> Forall (Forall (vn c)) groups ->
  UP c (all_candidates I cache line line_neg groups) (fun css c' => css_ok c' css).
Proof.
  intros W Hl Hln Hg. unfold all_candidates.
  eapply UP_weaken; [apply (UP_ufoldM _ _ (fun pre css c' => length css = length pre /\ css_ok c' css)); [auto| |]|].
  - split; [reflexivity|]. intros [|g] cs H; discriminate.
  - intros pre [g chunk] post css c1 Es W1 E1 (Ll & G). cbn [fst snd].
    assert (Hgc : g = length pre /\ nth_error groups g = Some chunk).
    { assert (Hn : nth_error (combine (seq 0 (length groups)) groups) (length pre) = Some (g, chunk)) by (rewrite Es, nth_error_app2, Nat.sub_diag by lia; reflexivity).
      clear - Hn. assert (X : forall s gs j, nth_error (combine (seq s (length gs)) gs) j = Some (g, chunk) -> g = (s + j)%nat /\ nth_error gs j = Some chunk).
      { intros s gs. revert s. induction gs as [|x gs IH]; intros s [|j] H; try discriminate; cbn in H.
        - injection H as <- <-. split; [lia|reflexivity].
        - destruct (IH (S s) j H). split; [lia|auto]. }
      destruct (X _ _ _ Hn) as [E1 E2]. cbn in E1. subst g. auto. }
    destruct Hgc as [Eg Hch].
    eapply UP_ubind; [apply group_candidates_P; [auto| |]|].
    { destruct (Nat.even g); eapply vn_mono; eauto. }
    { eapply Fvn_mono; [exact E1|]. eapply (Forall_nth (Forall (vn c))); eauto. }
    intros cl c2 W2 E2 (Hcl & Kcl). apply UP_ret; [auto|]. split; [rewrite !app_length; cbn; lia|].
    intros j cs Hj. destruct (Nat.lt_ge_cases j (length css)) as [Lj|Lj].
    + rewrite nth_error_app1 in Hj by auto. eapply css_mono; eauto.
    + rewrite nth_error_app2 in Hj by auto. destruct (j - length css)%nat as [|m] eqn:Em; [|destruct m; discriminate].
      injection Hj as <-. replace j with g in * by lia. auto.
  - intros css c' _ _ (_ & H). exact H.
Qed.

(** *** One window *)
Lemma group_bits_P c wi g : wf c -> Forall (Forall (Forall (bitv c))) g ->
  PT c (mapM (fun bits => w <- mnth bits wi ;; mnth w 0) g) (fun bs c' => Forall (bitv c') bs /\ length bs = length g).
Proof.
  intros W F. eapply PT_weaken; [apply (PT_mapM _ _ _ (fun _ b c' => bitv c' b)); [auto| |]|].
  - intros _ b c1 c2 H E. eapply bitv_mono; eauto.
  - intros bits c' Hin W' E'. apply PT_nth_k. intros x Hx b c2 R. apply mopt_inv in R as [Hb ->].
    split; [auto|]. split; [apply extends_refl|]. split; [apply step_refl|]. eapply bitv_mono; [exact E'|].
    rewrite Forall_forall in F. specialize (F _ Hin). eapply (Forall_nth (bitv c)); [|exact Hb]. exact (Forall_nth (Forall (bitv c)) _ _ _ F Hx).
  - intros bs c' _ _ H. split; [|symmetry; exact (F2_len H)]. clear - H. induction H; constructor; auto.
Qed.

Lemma window_body_P c css groups acc_neg wi : wf c -> vn c acc_neg -> css_ok c css ->
  Forall (Forall (Forall (Forall (bitv c)))) groups -> Forall (fun g => (length g <= BS)%nat) groups ->
  UP c (window_body I pick acc_neg css groups wi) (fun r c' => vn c' r).
Proof.
  intros W Ha Hc Hg HB. unfold window_body.
  apply (UP_ufoldM _ _ (fun _ r c' => vn c' r)); [auto|auto|].
  intros pre gi post acc c1 _ W1 E1 Hacc. apply UP_nth_k. intros g Hgi.
  eapply UP_bind; [apply group_bits_P; [auto|]|].
  { apply (Forall_nth _ _ _ _ Hg) in Hgi. revert Hgi. do 3 (apply Forall_impl; intros ?). apply bitv_mono, E1. }
  intros bs c2 W2 E2 (Fb & Lb). apply UP_nth_k. intros cs Hcs. destruct (css_mono _ _ _ (extends_trans _ _ _ E1 E2) Hc _ _ Hcs) as [F1 K1].
  eapply UP_bind; [apply pick_P; [auto| |exact F1|exact K1|exact Fb]|].
  { rewrite Lb. exact (Forall_nth _ _ _ _ HB Hgi). }
  intros ci c3 W3 E3 Hci. apply add_P; [auto|auto|]. eapply vn_mono; [exact (extends_trans _ _ _ E2 E3)|exact Hacc].
Qed.

(** *** The whole batch *)
Variable Sc : Type.
Variable dec_ : Sc -> M (list (list acond)).
Variable sv : ctx -> Sc -> Prop.
Hypothesis sv_mono : forall c d s, extends c d -> sv c s -> sv d s.
Hypothesis dec_P : forall c s, wf c -> sv c s -> PT c (dec_ s) (fun ws c' => Forall (Forall (bitv c')) ws /\ (1 <= length ws)%nat).
Definition ok_pt (p : option (Z * Z)) : Prop := exists x y, p = Some (x, y) /\ on_curve w cv_b (Aff x y).

Lemma chunks_F {X} (P : X -> Prop) k l : Forall P l -> Forall (Forall P) (chunks k l).
Proof.
  unfold chunks. generalize (length l) as f. intros f. revert l. induction f as [|f IH]; intros [|x l] F; cbn [chunks_fuel]; constructor.
  - rewrite <- (firstn_skipn k (x :: l)) in F. apply Forall_app in F. apply F.
  - apply IH. rewrite <- (firstn_skipn k (x :: l)) in F. apply Forall_app in F. apply F.
Qed.

Lemma msm_batch_P c best points scalars ra rl : wf c -> (best <= BS)%nat -> Forall (vn c) points -> Forall (sv c) scalars ->
  ok_pt ra -> ok_pt rl ->
  UP c (msm_batch I cv_b dec_ pick cache best points scalars ra rl)
       (fun r c' => exists x y z, hp w I c' r x y z /\ on_curve w cv_b (dec w x y z)).
Proof.
  intros W HB Fp Fs (xa & ya & -> & Ca) (xl & yl & -> & Cl). unfold msm_batch.
  eapply UP_bind; [apply (PT_mapM _ _ _ (fun _ p c' => vn c' p)); [auto| |]|].
  { intros _ p c1 c2 H E. eapply vn_mono; eauto. }
  { intros p c' Hin W' E'. apply reduce_P; [auto|]. rewrite Forall_forall in Fp. eapply vn_mono; eauto. }
  intros pts c1 W1 E1 F1. assert (Fv : Forall (vn c1) pts) by (clear - F1; induction F1; constructor; auto).
  eapply UP_bind; [apply assign_P; auto|]. intros acc0 c2 W2 E2 Va.
  eapply UP_bind; [apply assign_P; auto|]. intros line c3 W3 E3 Vl.
  eapply UP_bind; [apply neg_P; [auto|eapply vn_mono; eauto]|]. intros an c4 W4 E4 Van.
  eapply UP_bind; [apply reduce_P; auto|]. intros an' c5 W5 E5 Van'.
  eapply UP_bind; [apply neg_P; [auto|eapply vn_mono; [exact (extends_trans _ _ _ E4 E5)|exact Vl]]|]. intros ln c6 W6 E6 Vln.
  eapply UP_bind; [apply reduce_P; auto|]. intros ln' c7 W7 E7 Vln'.
  cbv zeta. set (ng := ((length pts + best - 1) / best)%nat). apply UP_assert_k. intros N1. apply Bool.negb_true_iff, Nat.eqb_neq in N1.
  set (gs := ((length pts + ng - 1) / ng)%nat).
  assert (GS : (gs <= BS)%nat).
  { unfold gs. transitivity best; [|exact HB]. assert (B1 : (best <> 0)%nat) by (intros KK; apply N1; unfold ng; rewrite KK; reflexivity).
    pose proof (Nat.div_mod (length pts + best - 1) best B1) as DM. fold ng in DM. pose proof (Nat.mod_upper_bound (length pts + best - 1) best B1).
    apply Nat.lt_succ_r. apply Nat.div_lt_upper_bound; [auto|]. nia. }
  pose proof (extends_trans _ _ _ E4 (extends_trans _ _ _ E5 (extends_trans _ _ _ E6 E7))) as E37.
  pose proof (extends_trans _ _ _ E2 (extends_trans _ _ _ E3 E37)) as E17.
  eapply UP_ubind; [apply all_candidates_P; [auto|eapply vn_mono; [exact E37|exact Vl]|auto|]|].
  { apply chunks_F. eapply Fvn_mono; [exact E17|exact Fv]. }
  intros css c8 W8 E8 Hcss.
  eapply UP_bind; [apply (PT_mapM _ _ _ (fun _ ws c' => Forall (Forall (bitv c')) ws /\ (1 <= length ws)%nat)); [auto| |]|].
  { intros _ ws d1 d2 [H Hl] E. split; [|exact Hl]. revert H. do 2 (apply Forall_impl; intros ?). apply bitv_mono, E. }
  { intros s c' Hin W' E'. apply dec_P; [auto|]. rewrite Forall_forall in Fs. eapply sv_mono; [|apply Fs; exact Hin].
    eapply extends_trans; [exact E1|]. eapply extends_trans; [exact E17|]. eapply extends_trans; eauto. }
  intros bits c9 W9 E9 F9. assert (Fb : Forall (fun ws => Forall (Forall (bitv c9)) ws /\ (1 <= length ws)%nat) bits) by (clear - F9; induction F9; constructor; auto). clear F9.
  apply UP_nth_k. intros bits0 Hb0. destruct (Forall_nth _ _ _ _ Fb Hb0) as [_ Hlen0].
  pose proof (extends_trans _ _ _ E8 E9) as E79.
  assert (Hgr : Forall (Forall (Forall (Forall (bitv c9)))) (chunks gs bits)) by (apply chunks_F; eapply Forall_impl; [|exact Fb]; intros ? []; auto).
  assert (HGB : Forall (fun g => (length g <= BS)%nat) (chunks gs bits)) by (eapply Forall_impl; [|apply chunks_size]; intros q Hq; cbv beta in Hq; lia).
  eapply UP_ubind.
  { eapply (UP_par_windows (window_body I pick an' css (chunks gs bits))) with (Q := fun _ x c' => vn c' x) (base := c9); [| | |reflexivity|exact Hlen0|exact W9].
    - intros i. apply uapp_of, appends_window_body. auto.
    - intros i x d d' E. apply vn_rext, E.
    - intros i d _ Wd Rd. apply window_body_P; [auto| | |..|exact HGB].
      + eapply vn_rext; [exact Rd|]. eapply vn_mono; [|exact Van']. eapply extends_trans; [exact E6|]. eapply extends_trans; [exact E7|exact E79].
      + eapply css_rext; [exact Rd|]. eapply css_mono; [exact E9|exact Hcss].
      + revert Hgr. do 4 (apply Forall_impl; intros ?). apply bitv_rext, Rd. }
  intros lines c10 W10 E10 FL. assert (Fl : Forall (vn c10) lines) by (clear - FL; induction FL; constructor; auto). clear FL.
  pose proof (extends_trans _ _ _ E79 E10) as E710.
  eapply UP_ubind; [apply (UP_ufoldM _ _ (fun _ r c' => vn c' r)); [auto| |]|].
  { eapply vn_mono; [|exact Va]. eapply extends_trans; [exact E3|]. exact (extends_trans _ _ _ E37 E710). }
  { intros pre wi post acc d _ Wd Ed Hacc. eapply UP_ubind; [apply double_P; auto|]. intros acc1 d1 Wd1 Ed1 Hacc1.
    apply UP_nth_k. intros l Hl. pose proof (Forall_nth _ _ _ _ Fl Hl) as Vll.
    eapply UP_ubind; [apply add_P; [auto|eapply vn_mono; [exact (extends_trans _ _ _ Ed Ed1)|exact Vll]|exact Hacc1]|].
    intros acc2 d2 Wd2 Ed2 Hacc2. destruct (Nat.odd _); [|apply UP_ret; auto].
    apply add_P; [auto|auto|]. eapply vn_mono; [|exact Vln']. eapply extends_trans; [exact E710|]. eapply extends_trans; [exact Ed|]. eapply extends_trans; eauto. }
  intros acc c11 W11 E11 (x1 & y1 & H1 & C1).
  assert (Van2 : vn c11 an'). { eapply vn_mono; [|exact Van']. eapply extends_trans; [exact E6|]. eapply extends_trans; [exact E7|]. eapply extends_trans; eauto. }
  destruct Van2 as (x2 & y2 & H2 & C2).
  eapply UP_bind; [apply PT_of; apply (downgrade_C w I n_prime); [auto|exact H1]|]. intros p1 c12 W12 E12 Hp1. cbv beta in Hp1.
  eapply UP_bind; [apply PT_of; eapply (to_pointc_C w I IO); eauto|]. intros p2 c13 W13 E13 (l & k & Hp2 & TO).
  eapply UP_bind; [apply PT_of; apply (downgrade_C w I n_prime); [auto|]|].
  { eapply hn_mono; [exact (extends_trans _ _ _ E12 E13)|exact H2]. }
  intros p3 c14 W14 E14 Hp3. cbv beta in Hp3.
  eapply UP_bind; [apply PT_of; eapply (ecc_add_C w I IO n_prime w_prime HD cv_b); [auto|eapply hpc_mono; [exact E14|exact Hp2]|exact Hp3|intros _; exact TO|exact C1|exact C2]|].
  intros r c15 W15 E15 (x & y & z & Hr & Ad). apply UP_ret; [auto|]. exists x, y, z. split; [exact Hr|].
  eapply (pt_add_on w cv_b w_prime _ _ _ C1 C2 Ad).
Qed.
End S.
