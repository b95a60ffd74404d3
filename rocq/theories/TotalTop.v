(** [msm] completes when its schedule is possible, for both kinds of scalars, with and
    without the select chip. *)
From Verif Require Import Prelude FieldZ Circuit Context Spec Logic ModArith Prims BaseChip BaseProofs
  RangeInfo RangeChip IntegerChip SpecInt InfoProofs IntArith RangeProofs IntInv IntSound IntComplete IntBridge
  IntRes EccChip SpecEcc Curve EccArith EccProofs EccHonest EccEncode ScalarChip ScalarProofs SpecMsm Msm ParWindows MsmProofs MsmSound
  SpecSelect SelectProofs SelectMsm HonestLogic HonestMsm HonestSel HonestScalar HonestTop SpecShape SpecCost Cost SpecSchedule TotalLogic TotalMsm TotalSel.

(** The recorded digits are the bits of the number. *)
Lemma bin_le_testbit ds : Forall (fun x => x = 0 \/ x = 1) ds -> forall i x, nth_error ds i = Some x -> x = Z.b2z (Z.testbit (bin_le ds) (Z.of_nat i)).
Proof.
  induction 1 as [|d ds Hd F IH]; intros [|i] x H; try discriminate; cbn [bin_le].
  - injection H as <-. rewrite Z.bit0_odd, Z.odd_add_mul_2. destruct Hd as [-> | ->]; reflexivity.
  - rewrite (IH i x H). f_equal. rewrite Nat2Z.inj_succ.
    destruct Hd as [-> | ->]; [rewrite Z.add_0_l, Z.testbit_even_succ by lia|rewrite Z.add_comm, Z.testbit_odd_succ by lia]; reflexivity.
Qed.
Section D.
Context {NM : NMod}.
Lemma dec_ok_bits c m v ws : dec_ok c 1 m v ws -> bits_are c m ws v.
Proof.
  intros (F & E & F1 & Lw). assert (LW : length ws = m) by (rewrite Lw; unfold n_windows; rewrite Nat.div_1_r; lia). split; [exact LW|]. intros i Hi.
  destruct (nth_lt ws i ltac:(lia)) as (x & Hx). assert (L1 : length x = 1%nat) by (rewrite Forall_forall in F1; apply F1; eapply nth_error_In; eauto).
  destruct x as [|b [|? ?]]; try discriminate. exists b. split; [exact Hx|].
  assert (Hc : nth_error (concat (rev ws)) (m - 1 - i) = Some b).
  { assert (H1 : forall l : list (list acond), Forall (fun w => length w = 1%nat) l -> forall j y, nth_error l j = Some [y] -> nth_error (concat l) j = Some y).
    { clear. induction 1 as [|x l Hx F IH]; intros [|j] y H; try discriminate.
      - injection H as ->. reflexivity.
      - destruct x as [|z [|? ?]]; try discriminate. cbn [concat app nth_error]. apply IH. exact H. }
    apply H1; [apply Forall_rev; exact F1|]. rewrite nth_error_nth' with (d := []) by (rewrite rev_length; lia). rewrite rev_nth by lia.
    f_equal. apply nth_error_nth with (d := []) in Hx. rewrite <- Hx. f_equal. lia. }
  assert (VB : valid c b /\ (a_val b = 0 \/ a_val b = 1)) by (rewrite Forall_forall in F; apply F; eapply nth_error_In; eauto).
  split; [apply VB|]. unfold top_bit. rewrite <- E.
  apply (bin_le_testbit (map a_val (concat (rev ws)))); [|exact (map_nth_error a_val _ _ Hc)].
  apply Forall_map. eapply Forall_impl; [|exact F]. intros a [_ H]. exact H.
Qed.
End D.

Section S.
Context {NM : NMod}.
Variable w : Z.
Variable I : rinfo.
Hypothesis IO : info_ok w I.
Hypothesis n_prime : prime nmod.
Hypothesis w_prime : prime w.
Hypothesis HD : ri_d_bits I mod 108 <> 0.
Variable cv_b : Z.
Hypothesis b_range : 0 < cv_b < w.
Local Notation hv := (hv w I cv_b).
Local Notation OC := (on_curve w cv_b).
Definition hpv (c : ctx) (a : apoint) (p : pt) : Prop := exists x y z, hp w I c a x y z /\ p = dec w x y z /\ OC p.
Lemma hpv_mono c d a p : extends c d -> hpv c a p -> hpv d a p.
Proof. intros E (x & y & z & H & C). exists x, y, z. split; [eapply hp_mono; eauto|exact C]. Qed.

Variable Sc : Type.
Variable dec_ : Sc -> M (list (list acond)).
Variable bis_ : acond -> Sc -> Sc -> M Sc.
Variable zero_ : M Sc.
Variable sv : ctx -> Sc -> Z -> Prop.
Hypothesis sv_mono : forall c d s v, extends c d -> sv c s v -> sv d s v.
Variable m : nat.
Hypothesis m_pos : (1 <= m)%nat.
Hypothesis dec_T : forall c s v, wf c -> sv c s v -> CT c (dec_ s) (fun ws c' => bits_are c' m ws v).
Hypothesis bis_T : forall c b k s t u v, wf c -> cb c b k -> sv c s u -> sv c t v -> CT c (bis_ b s t) (fun r c' => sv c' r (if k then u else v)).
Hypothesis zero_T : forall c, wf c -> CT c zero_ (fun r c' => sv c' r 0).

Lemma batch_none_T c points ps scalars vs xa ya xl yl : wf c -> Forall2 (hv c) points ps -> Forall2 (sv c) scalars vs ->
  length ps = length vs -> ps <> [] -> OC (Aff xa ya) -> OC (Aff xl yl) -> schedule w 2 m (Aff xa ya) (Aff xl yl) ps vs ->
  UT c (msm_batch_on_group_non_zero_without_select_chip I cv_b dec_ points scalars (Some (xa, ya)) (Some (xl, yl))) (fun r c' => vp w I cv_b c' r).
Proof.
  intros W F1 F2 Ll NE Ha Hl HS. unfold msm_batch_on_group_non_zero_without_select_chip.
  eapply UT_weaken; [eapply (msm_batch_T w I IO n_prime w_prime HD cv_b b_range (fun _ _ _ _ => True)) with (BS := 2%nat) (sv := sv) (m := m); eauto|].
  - intros. apply CT_ret; auto.
  - intros. eapply bisec_pick_T; eauto.
  - intros. apply appends_bisec_candidate.
  - intros g cs bits bits' Hb. apply co_bisec_candidate_non_zero; [|exact Hb]. clear. induction cs; constructor; [apply tnz_refl|auto].
  - intros r c' _ _ H. cbv beta in H. destruct H as [H _]. exact H.
Qed.
(** The candidates are recorded in the table of the select chip. *)
Definition stored (c : ctx) (prefix : Z) (R : pt) (ps : list pt) : Prop :=
  exists css, length css = length (chunks (group_size 5 (length ps)) ps)
    /\ css_all w I cv_b (KSel I prefix) c (with_starts R (pt_neg w R) (chunks (group_size 5 (length ps)) ps)) css.
Lemma batch_some_T c prefix points ps scalars vs xa ya xl yl : wf c -> Z.of_nat (length points) <= MSM_PREFIX_OFFSET -> prefix < MSM_LIMIT ->
  Forall2 (hv c) points ps -> Forall2 (sv c) scalars vs ->
  length ps = length vs -> ps <> [] -> OC (Aff xa ya) -> OC (Aff xl yl) -> schedule w 5 m (Aff xa ya) (Aff xl yl) ps vs ->
  UT c (msm_batch_on_group_non_zero_with_select_chip I cv_b dec_ prefix points scalars (Some (xa, ya)) (Some (xl, yl)))
    (fun r c' => vp w I cv_b c' r /\ stored c' prefix (Aff xl yl) ps).
Proof.
  intros W B1 B2 F1 F2 Ll NE Ha Hl HS. unfold msm_batch_on_group_non_zero_with_select_chip.
  apply CT_assert_k; [apply Z.leb_le; exact B1|]. apply CT_assert_k; [apply Z.ltb_lt; exact B2|].
  eapply (msm_batch_T w I IO n_prime w_prime HD cv_b b_range (KSel I prefix)) with (BS := 5%nat) (sv := sv) (m := m); eauto.
  - intros c0 d g i p. apply KSel_rext.
  - intros c0 g i a p W0 V R. eapply sel_cache_T; eauto.
  - intros c0 g cs bits ds P W0 L0 L1 F0 K0 B0. eapply sel_pick_T; eauto.
  - intros; app.
  - intros g cs bits bits' Hb. eapply CR_bind; [apply co_pick_candidate_non_zero; exact Hb|]. intros [ix p] [ix' p'] [H1 _]. cbn [fst snd].
    apply co_assign_selected_point_non_zero. exact H1.
  - lia.
Qed.

(** Identity points are replaced by the generator with the scalar zero. *)
Definition eff_pt (g p : pt) : pt := match p with Inf => g | _ => p end.
Definition eff_sc (p : pt) (v : Z) : Z := match p with Inf => 0 | _ => v end.
Lemma replaced_eff g ps vs : length ps = length vs ->
  map fst (replaced g (combine ps vs)) = map (eff_pt g) ps /\ map snd (replaced g (combine ps vs)) = map (fun pv => eff_sc (fst pv) (snd pv)) (combine ps vs).
Proof.
  unfold replaced. rewrite !map_map. intros L. split.
  - revert vs L. induction ps as [|p ps IH]; intros [|v vs] L; try discriminate; [reflexivity|]. cbn. f_equal; [destruct p; reflexivity|apply IH; cbn in L; lia].
  - apply map_ext. intros [[|] v]; reflexivity.
Qed.
Definition best_of (prefix : option Z) : nat := match prefix with Some _ => 5%nat | None => 2%nat end.

Lemma msm_T c xg yg xa ya xl yl prefix points ps scalars vs : wf c -> OC (Aff xg yg) -> OC (Aff xa ya) -> OC (Aff xl yl) ->
  Forall2 (hpv c) points ps -> Forall2 (sv c) scalars vs -> length ps = length vs -> ps <> [] ->
  (forall p, prefix = Some p -> Z.of_nat (length ps) <= MSM_PREFIX_OFFSET /\ p < MSM_LIMIT) ->
  msm_schedule w (best_of prefix) m (Aff xg yg) (Aff xa ya) (Aff xl yl) (combine ps vs) ->
  CT c (msm I cv_b dec_ bis_ zero_ (Some (xg, yg)) (Some (xa, ya)) (Some (xl, yl)) prefix points scalars)
    (fun r c' => vp w I cv_b c' (fst r) /\ match prefix with Some g => snd r = Some (g + MSM_PREFIX_OFFSET) /\ stored c' g (Aff xl yl) (map (eff_pt (Aff xg yg)) ps) | None => snd r = None end).
Proof.
  intros W Cg Ca Cl Fp Fs Ll NE HP HS. unfold msm_schedule in HS. destruct (replaced_eff (Aff xg yg) ps vs Ll) as [X1 X2]. rewrite X1, X2 in HS. clear X1 X2. unfold msm.
  eapply (CT_bind _ _ _ (fun r c' => exists x q, r = (UOk x, q) /\ vp w I cv_b c' x
     /\ match prefix with Some g => q = Some (g + MSM_PREFIX_OFFSET) /\ stored c' g (Aff xl yl) (map (eff_pt (Aff xg yg)) ps) | None => q = None end)).
  2: { intros r c' W' E' (x & q & -> & V & VQ). cbn. apply CT_ret; auto. }
  unfold msm_unsafe.
  eapply CT_bind; [eapply assign_T; eauto|]. intros n c2 W2 E2 (Vn & _).
  eapply CT_bind; [apply zero_T; exact W2|]. intros z c3 W3 E3 Vz. cbv beta in Vz.
  apply (hv_mono _ _ _ _ _ _ _ E3) in Vn. pose proof (extends_trans _ _ _ E2 E3) as E13.
  assert (Fp3 : Forall2 (hpv c3) points ps) by (eapply F2_impl; [|exact Fp]; intros a p; apply hpv_mono, E13).
  assert (Fs3 : Forall2 (sv c3) scalars vs) by (eapply F2_impl; [|exact Fs]; intros a p; apply sv_mono, E13).
  eapply (CT_bind _ _ _ (fun l c' => Forall2 (hv c') (map fst l) (map (eff_pt (Aff xg yg)) ps) /\ Forall2 (sv c') (map snd l) (map (fun pv => eff_sc (fst pv) (snd pv)) (combine ps vs)))).
  { clear - W3 Vn Vz Fp3 Fs3 Ll IO n_prime bis_T sv_mono. revert scalars vs c3 W3 Vn Vz Fp3 Fs3 Ll. revert ps.
    induction points as [|a points IH]; intros ps scalars vs c W Vn Vz Fp Fs Ll; destruct ps as [|p ps'].
    all: try (exfalso; inversion Fp; fail).
    - destruct vs; [|discriminate]. cbn [combine mapM map]. apply CT_ret; [auto|]. split; constructor.
    - assert (Hp : hpv c a p) by (inversion Fp; assumption). assert (Fp' : Forall2 (hpv c) points ps') by (inversion Fp; assumption). destruct vs as [|v vs']; [cbn in Ll; discriminate Ll|]. destruct scalars as [|s scalars']; [exfalso; inversion Fs|]. assert (Hs : sv c s v) by (inversion Fs; assumption). assert (Fs' : Forall2 (sv c) scalars' vs') by (inversion Fs; assumption). cbn [combine mapM map fst snd].
      destruct Hp as (x & y & k & Hp & EP & Cp).
      eapply (CT_bind _ _ _ (fun r c' => hv c' (fst r) (eff_pt (Aff xg yg) p) /\ sv c' (snd r) (eff_sc p v))).
      { eapply CT_bind; [eapply bis_T; [exact W|apply Hp|exact Vz|exact Hs]|]. intros s' d1 Wd1 Ed1 Vs'. cbv beta in Vs'.
        apply (hv_mono _ _ _ _ _ _ _ Ed1) in Vn. destruct Vn as (xn & yn & Hn & En & Cn).
        eapply CT_bind; [eapply (bisec_to_nz_C w I IO n_prime); [auto|eapply hp_mono; [exact Ed1|exact Hp]|exact Hn]|].
        intros p' d2 Wd2 Ed2 Hp'. cbv beta in Hp'. apply CT_ret; [auto|]. cbn [fst snd]. apply (sv_mono _ _ _ _ Ed2) in Vs'.
        destruct k; cbn [dec] in EP; subst p; (split; [|exact Vs']); do 2 eexists; (split; [exact Hp'|]); cbn [eff_pt]; auto. }
      intros r d Wd Ed (H1 & H2). eapply CT_bind; [apply (IH ps' scalars' vs'); [exact Wd|eapply hv_mono; eauto|eapply sv_mono; eauto| | |cbn in Ll; lia]|].
      { eapply F2_impl; [|exact Fp']; intros ? ?; apply hpv_mono, Ed. }
      { eapply F2_impl; [|exact Fs']; intros ? ?; apply sv_mono, Ed. }
      intros l d2 Wd2 Ed2 (G1 & G2). apply CT_ret; [auto|]. cbn [map]. split; constructor; auto; [eapply hv_mono; eauto|eapply sv_mono; eauto]. }
  intros l c4 W4 E4 (G1 & G2). cbv beta.
  assert (LL : length (map (eff_pt (Aff xg yg)) ps) = length (map (fun pv => eff_sc (fst pv) (snd pv)) (combine ps vs))) by (rewrite !map_length, combine_length; lia).
  assert (NE' : map (eff_pt (Aff xg yg)) ps <> []) by (destruct ps; [congruence|discriminate]).
  destruct prefix as [g|]; cbn [best_of] in HS.
  - destruct (HP g eq_refl) as [B1 B2]. eapply CT_bind; [eapply batch_some_T; [exact W4| |exact B2|exact G1|exact G2|exact LL|exact NE'|exact Ca|exact Cl|exact HS]|].
    { rewrite (Cost.F2_len _ _ _ G1), map_length. exact B1. }
    intros r c5 W5 E5 (x & -> & V & VS). apply CT_ret; [exact W5|]. exists x, (Some (g + MSM_PREFIX_OFFSET)). auto.
  - eapply CT_bind; [eapply batch_none_T; [exact W4|exact G1|exact G2|exact LL|exact NE'|exact Ca|exact Cl|exact HS]|].
    intros r c5 W5 E5 (x & -> & V). apply CT_ret; [exact W5|]. exists x, None. auto.
Qed.
End S.

(** The two kinds of scalars. *)
Section Scalars.
Context {NM : NMod}.
Hypothesis n_prime : prime nmod.
Definition nsv (c : ctx) (s : av) (v : Z) : Prop := valid c s /\ a_val s = v.
Lemma native_dec_T c s v : wf c -> nsv c s v -> CT c (decompose_scalar_native 1 s) (fun ws c' => bits_are c' NB ws v).
Proof.
  intros W [V <-]. eapply CT_weaken; [apply (decompose_native_CT n_prime); auto|]. intros ws c' _ _ H. apply dec_ok_bits. exact H.
Qed.
Lemma native_bis_T c b k s t u v : wf c -> cb c b k -> nsv c s u -> nsv c t v -> CT c (bisec b s t) (fun r c' => nsv c' r (if k then u else v)).
Proof.
  intros W (Vb & Eb) [Vs <-] [Vt <-]. eapply CT_weaken; [apply bisec_CT; auto|]. intros r c' _ _ [V E]. split; [exact V|].
  pose proof (n_pos n_prime). rewrite E, Eb. assert (Rs : 0 <= a_val s < nmod) by apply Vs. assert (Rt : 0 <= a_val t < nmod) by apply Vt.
  unfold fadd, fmul, fsub. destruct k; cbn [Z.b2z]; rewrite ?Z.sub_diag, ?Z.sub_0_r, ?(Z.mod_0_l nmod), ?(Z.mod_small 1 nmod) by lia;
    rewrite ?Z.mul_0_l, ?Z.mul_1_l, ?(Z.mod_0_l nmod), ?Z.add_0_l, ?Z.add_0_r, ?Z.mod_mod, ?Z.mod_small by lia; reflexivity.
Qed.
Lemma native_zero_T c : wf c -> CT c (assign_constant 0) (fun r c' => nsv c' r 0).
Proof. intros W. pose proof (n_pos n_prime). eapply CT_weaken; [apply assign_constant_CT; auto; lia|]. intros r c' _ _ [V E]. split; [exact V|exact E]. Qed.

Variable r : Z.
Variable J : rinfo.
Hypothesis JO : info_ok r J.
Hypothesis r_prime : prime r.
Definition gsvv (c : ctx) (s : aint) (v : Z) : Prop := exists u, cr r J c s u /\ u mod r = v.
Lemma gsvv_mono c d s v : extends c d -> gsvv c s v -> gsvv d s v.
Proof. intros E (u & H & K). exists u. split; [eapply cr_mono; eauto|exact K]. Qed.
Lemma general_dec_T c s v : wf c -> gsvv c s v -> CT c (decompose_scalar_general J 1 s) (fun ws c' => bits_are c' (108 * ri_limbs J) ws v).
Proof.
  intros W (u & H & <-). eapply CT_weaken; [eapply (decompose_general_CT n_prime r J JO r_prime); eauto|]. intros ws c' _ _ HH. apply dec_ok_bits. exact HH.
Qed.
Lemma general_bis_T c b k s t u v : wf c -> cb c b k -> gsvv c s u -> gsvv c t v -> CT c (bisec_int J b s t) (fun x c' => gsvv c' x (if k then u else v)).
Proof.
  intros W Hb (u' & Hs & <-) (v' & Ht & <-). eapply CT_weaken; [eapply (bisec_int_C r J JO n_prime); eauto|]. intros x c' _ _ [H _].
  eexists. split; [exact H|]. destruct k; reflexivity.
Qed.
Lemma general_zero_T c : wf c -> CT c (assign_int_constant J 0) (fun x c' => gsvv c' x 0).
Proof. intros W. pose proof (w_pos r r_prime). eapply CT_weaken; [eapply (assign_int_constant_C r J JO); eauto; lia|]. intros x c' _ _ [HH _]. exists 0. split; [exact HH|]. apply Z.mod_0_l. lia. Qed.
End Scalars.
