(** Honest runs of [msm], for both kinds of scalars, with and without the select chip. *)
From Verif Require Import Prelude FieldZ Circuit Context Spec Logic ModArith Prims BaseChip BaseProofs
  RangeInfo RangeChip IntegerChip SpecInt InfoProofs IntArith RangeProofs IntInv IntSound IntComplete IntBridge
  IntRes EccChip SpecEcc Curve EccArith EccProofs EccHonest EccEncode ScalarChip ScalarProofs SpecMsm Msm ParWindows MsmProofs MsmSound
  SpecSelect SelectProofs SelectMsm HonestLogic HonestMsm HonestSel HonestScalar.

Section S.
Context {NM : NMod}.
Variable w : Z.
Variable I : rinfo.
Hypothesis IO : info_ok w I.
Hypothesis n_prime : prime nmod.
Hypothesis w_prime : prime w.
Hypothesis HD : ri_d_bits I mod 108 <> 0.
Variable cv_b : Z.
Hypothesis b_range : 0 < cv_b < w.
Local Notation vn := (vn w I cv_b).
Local Notation ok_pt := (ok_pt w cv_b).
Definition vp (c : ctx) (a : apoint) : Prop := exists x y z, hp w I c a x y z /\ on_curve w cv_b (dec w x y z).
Lemma vp_mono c d a : extends c d -> vp c a -> vp d a.
Proof. intros E (x & y & z & H & C). exists x, y, z. split; [eapply hp_mono; eauto|exact C]. Qed.

Variable Sc : Type.
Variable dec_ : Sc -> M (list (list acond)).
Variable bis_ : acond -> Sc -> Sc -> M Sc.
Variable zero_ : M Sc.
Variable sv : ctx -> Sc -> Prop.
Hypothesis sv_mono : forall c d s, extends c d -> sv c s -> sv d s.
Hypothesis dec_P : forall c s, wf c -> sv c s -> PT c (dec_ s) (fun ws c' => Forall (Forall (bitv c')) ws /\ (1 <= length ws)%nat).
Hypothesis bis_P : forall c b s t, wf c -> bitv c b -> sv c s -> sv c t -> PT c (bis_ b s t) (fun r c' => sv c' r).
Hypothesis zero_P : forall c, wf c -> PT c zero_ (fun r c' => sv c' r).

Lemma batch_none_P c points scalars ra rl : wf c -> Forall (vn c) points -> Forall (sv c) scalars -> ok_pt ra -> ok_pt rl ->
  UP c (msm_batch_on_group_non_zero_without_select_chip I cv_b dec_ points scalars ra rl) (fun r c' => vp c' r).
Proof.
  intros W F1 F2 Ha Hl. unfold msm_batch_on_group_non_zero_without_select_chip.
  eapply (msm_batch_P w I IO n_prime w_prime HD cv_b b_range (fun _ _ _ _ => True)) with (BS := 2%nat) (sv := sv); auto.
  - intros. apply PT_ret; auto.
  - intros. eapply bisec_pick_P; eauto.
  - intros. apply appends_bisec_candidate.
Qed.
Lemma batch_some_P c prefix points scalars ra rl : wf c -> Forall (vn c) points -> Forall (sv c) scalars -> ok_pt ra -> ok_pt rl ->
  UP c (msm_batch_on_group_non_zero_with_select_chip I cv_b dec_ prefix points scalars ra rl) (fun r c' => vp c' r).
Proof.
  intros W F1 F2 Ha Hl. unfold msm_batch_on_group_non_zero_with_select_chip. apply UP_assert_k. intros _. apply UP_assert_k. intros _.
  eapply (msm_batch_P w I IO n_prime w_prime HD cv_b b_range (KSel I prefix)) with (BS := 5%nat) (sv := sv); auto.
  - intros c0 d g i p. apply KSel_rext.
  - intros c0 g i p W0 V. eapply sel_cache_P; eauto.
  - intros c0 g cs bits W0 L0 F0 K0 B0. eapply sel_pick_P; eauto.
  - intros; app.
Qed.

Lemma msm_P c gen ra rl prefix points scalars : wf c -> ok_pt gen -> ok_pt ra -> ok_pt rl ->
  Forall (vp c) points -> Forall (sv c) scalars ->
  PT c (msm I cv_b dec_ bis_ zero_ gen ra rl prefix points scalars) (fun r c' => vp c' (fst r)).
Proof.
  intros W (xg & yg & -> & Cg) Ha Hl Fp Fs r c' E. unfold msm, msm_unsafe in E.
  apply mbind_inv in E as (q & c1 & E & E2).
  apply mbind_inv in E as (n & c2 & E3 & E). apply mbind_inv in E as (z & c3 & E4 & E). apply mbind_inv in E as (l & c4 & E5 & E).
  destruct (assign_P w I IO n_prime w_prime HD cv_b b_range c xg yg W Cg _ _ E3) as (W2 & X2 & S2 & Vn).
  destruct (zero_P _ W2 _ _ E4) as (W3 & X3 & S3 & Vz).
  assert (P5 : PT c3 (mapM (fun ps : apoint * Sc => s <- bis_ (p_z (fst ps)) z (snd ps) ;; p <- ecc_bisec_to_non_zero_point I (fst ps) n ;; mret (p, s)) (combine points scalars))
     (fun ys c' => Forall2 (fun _ y => vn c' (fst y) /\ sv c' (snd y)) (combine points scalars) ys)).
  { apply (PT_mapM c3 _ _ (fun _ y c' => vn c' (fst y) /\ sv c' (snd y))); [exact W3| |].
    - intros _ y d1 d2 [H1 H2] EX. split; [eapply vn_mono; eauto|eapply sv_mono; eauto].
    - intros [p s] d Hin Wd Ed. cbn [fst snd]. pose proof (extends_trans _ _ _ X2 (extends_trans _ _ _ X3 Ed)) as EX.
      pose proof (in_combine_l _ _ _ _ Hin) as Ip. pose proof (in_combine_r _ _ _ _ Hin) as Is. rewrite Forall_forall in Fp, Fs.
      destruct (vp_mono _ _ _ EX (Fp _ Ip)) as (x & y & k & Hp & Cp).
      eapply PT_bind; [apply bis_P; [exact Wd|exists k; apply Hp|exact (sv_mono _ _ _ Ed Vz)|exact (sv_mono _ _ _ EX (Fs _ Is))]|]. intros s' d1 Wd1 Ed1 Vs'. cbv beta in Vs'.
      destruct (vn_mono _ _ _ _ _ _ (extends_trans _ _ _ X3 (extends_trans _ _ _ Ed Ed1)) Vn) as (xn & yn & Hn & Cn).
      eapply PT_bind; [apply PT_of; eapply (bisec_to_nz_C w I IO n_prime); [auto|eapply hp_mono; [exact Ed1|exact Hp]|exact Hn]|].
      intros p' d2 Wd2 Ed2 Hp'. cbv beta in Hp'. apply PT_ret; [auto|]. cbn [fst snd]. split; [|eapply sv_mono; eauto].
      destruct k; do 2 eexists; (split; [exact Hp'|]); auto. }
  destruct (P5 _ _ E5) as (W4 & X4 & S4 & F4). clear P5.
  assert (F41 : Forall (vn c4) (map fst l)) by (clear - F4; apply Forall_map; induction F4 as [|? ? ? ? [] ? IH]; constructor; auto).
  assert (F42 : Forall (sv c4) (map snd l)) by (clear - F4; apply Forall_map; induction F4 as [|? ? ? ? [] ? IH]; constructor; auto).
  pose proof (step_trans _ _ _ X3 S2 S3) as S23. pose proof (step_trans _ _ _ X4 S23 S4) as S24.
  pose proof (extends_trans _ _ _ X2 (extends_trans _ _ _ X3 X4)) as X24.
  assert (G : forall (m : M (uresult apoint)) (pf : option Z), UP c4 m (fun r c' => vp c' r) -> (r <- m ;; mret (r, pf)) c4 = Ok (q, c1) ->
     wf c' /\ extends c c' /\ step c c' /\ vp c' (fst r)).
  { intros m pf HU EM. apply mbind_inv in EM as (q0 & c5 & E6 & EM). injection EM as <- <-. destruct q0 as [q0|e]; [|discriminate]. cbn in E2. injection E2 as <- <-.
    destruct (HU _ _ E6) as (W5 & X5 & S5 & V5). cbn [fst]. split; [exact W5|]. split; [eapply extends_trans; eauto|]. split; [eapply step_trans; eauto|exact V5]. }
  destruct prefix as [g|].
  - eapply G; [|exact E]. apply batch_some_P; auto.
  - eapply G; [|exact E]. apply batch_none_P; auto.
Qed.
End S.

(** The two kinds of scalars. *)
Section Scalars.
Context {NM : NMod}.
Hypothesis n_prime : prime nmod.

Lemma dec_ok_bitv c W nb v ws : (1 <= nb)%nat -> (1 <= W)%nat -> dec_ok c W nb v ws -> Forall (Forall (bitv c)) ws /\ (1 <= length ws)%nat.
Proof.
  intros N1 W1 (F & _ & _ & L). split.
  - apply Forall_forall. intros x Hx. apply Forall_forall. intros a Ha. rewrite Forall_forall in F.
    destruct (F a) as [V B]. { apply in_concat. exists x. split; [apply in_rev in Hx; exact Hx|exact Ha]. }
    destruct B as [B|B]; [exists false|exists true]; (split; [exact V|exact B]).
  - rewrite L. unfold n_windows. apply Nat.div_le_lower_bound; lia.
Qed.
Lemma native_dec_P c s : wf c -> valid c s -> PT c (decompose_scalar_native 1 s) (fun ws c' => Forall (Forall (bitv c')) ws /\ (1 <= length ws)%nat).
Proof.
  intros W V. apply PT_of. eapply CT_weaken; [apply (decompose_native_CT n_prime); auto|]. intros ws c' _ _ H.
  eapply dec_ok_bitv; [| |exact H]; [unfold NB; pose proof (num_bits_pos n_prime); lia|lia].
Qed.
Lemma native_bis_P c b s t : wf c -> bitv c b -> valid c s -> valid c t -> PT c (bisec b s t) (fun r c' => valid c' r).
Proof. intros W (k & Vb & _) Vs Vt. apply PT_of. eapply CT_weaken; [apply bisec_CT; auto|]. intros r c' _ _ [V _]. exact V. Qed.
Lemma native_zero_P c : wf c -> PT c (assign_constant 0) (fun r c' => valid c' r).
Proof. intros W. pose proof (n_pos n_prime). apply PT_of. eapply CT_weaken; [apply assign_constant_CT; auto; lia|]. intros r c' _ _ [V _]. exact V. Qed.

Variable r : Z.
Variable J : rinfo.
Hypothesis JO : info_ok r J.
Hypothesis r_prime : prime r.
Definition gsv (c : ctx) (s : aint) : Prop := exists v, cr r J c s v.
Lemma gsv_mono c d s : extends c d -> gsv c s -> gsv d s.
Proof. intros E (v & H). exists v. eapply cr_mono; eauto. Qed.
Lemma general_dec_P c s : wf c -> gsv c s -> PT c (decompose_scalar_general J 1 s) (fun ws c' => Forall (Forall (bitv c')) ws /\ (1 <= length ws)%nat).
Proof.
  intros W (v & H). apply PT_of. eapply CT_weaken; [eapply (decompose_general_CT n_prime r J JO r_prime); eauto|]. intros ws c' _ _ HH.
  eapply dec_ok_bitv; [| |exact HH]; [pose proof (io_L3 _ _ JO); lia|lia].
Qed.
Lemma general_bis_P c b s t : wf c -> bitv c b -> gsv c s -> gsv c t -> PT c (bisec_int J b s t) (fun r c' => gsv c' r).
Proof.
  intros W (k & Hb) (u & Hs) (v & Ht). apply PT_of. eapply CT_weaken; [eapply (bisec_int_C r J JO n_prime); eauto|]. intros x c' _ _ [H _]. eexists. exact H.
Qed.
Lemma general_zero_P c : wf c -> PT c (assign_int_constant J 0) (fun r c' => gsv c' r).
Proof. intros W. pose proof (w_pos r r_prime). apply PT_of. eapply CT_weaken; [eapply (assign_int_constant_C r J JO); eauto; lia|]. intros x c' _ _ [HH _]. eexists. exact HH. Qed.
End Scalars.
