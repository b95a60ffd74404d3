(** Proofs of the honest-run properties of scalar decomposition and multi-scalar
    multiplication (C33, C53). *)
From Verif Require Import Prelude FieldZ Circuit Context Spec Logic ModArith Prims BaseChip BaseProofs
  RangeInfo RangeChip IntegerChip SpecInt InfoProofs IntArith RangeProofs IntInv IntSound IntComplete IntBridge
  IntRes EccChip SpecEcc Curve EccArith EccProofs EccHonest EccBridge SpecMsm PointSum ScalarChip ScalarProofs
  Msm ParWindows MsmProofs MsmSound MsmTop SelectMsm SpecSelect SpecCalls SelectProofs BnOrder Moduli Fields
  NativeMain IntMain EccMain MsmMain SelectMain EccEncode HonestLogic HonestScalar HonestMsm HonestTop.
Section Ext.
Context {NM : NMod}.
Lemma limbs_value_ext f g l : Forall (fun a => f a = g a) l -> limbs_value f l = limbs_value g l.
Proof. induction 1 as [|a l H _ IH]; [reflexivity|]. cbn. rewrite H, IH. reflexivity. Qed.
Lemma int_wf_ext w f g x : Forall (fun a => f a = g a) (i_limbs x) -> f (i_native x) = g (i_native x) -> int_wf w f x -> int_wf w g x.
Proof.
  intros F N H. assert (V : int_value f x = int_value g x) by (apply limbs_value_ext; exact F).
  pose proof F as F'. rewrite Forall_forall in F. constructor; try apply H.
  - pose proof (iw_low _ _ _ H) as L. apply Forall_forall. intros a Ha. rewrite Forall_forall in L. rewrite <- F; [apply L, Ha|].
    clear - Ha. revert Ha. generalize (i_limbs x). intros l. induction l as [|y l IH]; [intros []|]. destruct l; [intros []|].
    cbn [removelast]. intros [->|K]; [left; reflexivity|right; apply IH, K].
  - intros a Ha. rewrite <- F; [apply (iw_lead _ _ _ H), Ha|]. eapply nth_error_In; eauto.
  - rewrite <- V. apply H.
  - rewrite <- N, <- V. apply H.
Qed.
Lemma int_is_ext w f g x v : Forall (fun a => f a = g a) (i_limbs x) -> f (i_native x) = g (i_native x) -> int_is w f x v -> int_is w g x v.
Proof.
  intros F N [H E]. split; [eapply int_wf_ext; eauto|]. rewrite <- E. f_equal. symmetry. apply limbs_value_ext. exact F.
Qed.
Variable c : ctx.
Variable A : cell -> Z.
Hypothesis HG : agrees c A.
Lemma at_valid a : valid c a -> at_ A a = a_val a.
Proof. intros V. apply (valid_agrees c); auto. Qed.
Lemma limbs_at w x : int_ok w c x valid -> Forall (fun a => a_val a = at_ A a) (i_limbs x) /\ a_val (i_native x) = at_ A (i_native x).
Proof.
  intros H. split; [|symmetry; apply at_valid, H]. apply Forall_forall. intros a Ha. symmetry. apply at_valid.
  pose proof (ik_limbs _ _ _ _ H) as L. rewrite Forall_forall in L. auto.
Qed.
Lemma limbs_at' w x : int_ok w c x valid -> Forall (fun a => at_ A a = a_val a) (i_limbs x) /\ at_ A (i_native x) = a_val (i_native x).
Proof.
  intros H. destruct (limbs_at w x H) as [F N]. split; [|congruence]. eapply Forall_impl; [|exact F]. intros a E. congruence.
Qed.
Lemma point_at w a p : point_ok w c a valid -> (point_is w a_val a p <-> point_is w (at_ A) a p).
Proof.
  intros (V1 & V2 & V3). pose proof (at_valid _ V3) as E3.
  destruct (limbs_at w _ V1), (limbs_at w _ V2), (limbs_at' w _ V1), (limbs_at' w _ V2).
  destruct p as [|x y]; cbn; rewrite E3; split; intros (K1 & K2 & K3);
   (split; [exact K1|split]; [eapply int_wf_ext + eapply int_is_ext|eapply int_wf_ext + eapply int_is_ext]); eauto.
Qed.
Lemma point_det w f a p q : point_is w f a p -> point_is w f a q -> p = q.
Proof.
  destruct p as [|x y], q as [|x' y']; cbn; intros (K1 & K2 & K3) (J1 & J2 & J3); try congruence; try lia.
  destruct K2 as [_ <-], K3 as [_ <-], J2 as [_ <-], J3 as [_ <-]. reflexivity.
Qed.
End Ext.
(** The honest table of a circuit. *)
Section Table.
Context {NM : NMod}.
Definition htbl (c : ctx) : env := mkEnv (fun v e => exists r, cache_row c r e /\ honest c (scell ValueCol r) = v) True.
Lemma htbl_sat c : 1 < nmod -> good c -> sat (htbl c) c (honest c).
Proof.
  intros N G. destruct (good_satisfies c N G) as [[HA _] _]. apply G; [exact HA|intros ch r U col; reflexivity|].
  intros k U L. exists k. split; [|reflexivity]. split; [exact U|]. split; [exact L|reflexivity].
Qed.
Lemma htbl_fun I c p : (forall e, cached_once c e) -> tbl_fun I (htbl c) p (Z.to_nat MSM_PREFIX_OFFSET).
Proof. intros O g i k v v' _ _ _ (r & R1 & <-) (r' & R2 & <-). rewrite (O _ _ _ R1 R2). reflexivity. Qed.
End Table.

Lemma C33_decomposition_honest_main :
  forall (NM : NMod), prime nmod -> forall c W, wf c -> (1 <= W)%nat ->
    (forall s, valid c s -> accepts c (decompose_scalar_native W s) (fun ws c' =>
        Forall (fun win => length win = W) ws
        /\ Forall (fun b => valid c' b /\ (a_val b = 0 \/ a_val b = 1)) (concat (rev ws))
        /\ bin_le (map a_val (concat (rev ws))) = a_val s))
 /\ (forall r J, prime r -> range_info_new r = Ok J -> forall s, int_ok r c s valid ->
      accepts c (decompose_scalar_general J W s) (fun ws c' =>
        Forall (fun win => length win = W) ws
        /\ Forall (fun b => valid c' b /\ (a_val b = 0 \/ a_val b = 1)) (concat (rev ws))
        /\ bin_le (map a_val (concat (rev ws))) = int_value a_val s mod r)).
Proof.
  intros NM P c W HW HW1. split.
  - intros s V. apply CT_accepts. eapply CT_weaken; [apply (decompose_native_CT P); auto|]. intros ws c' _ _ (H1 & H2 & H3 & _). auto.
  - intros r J PR H s Hs. info H. apply CT_accepts. assert (Hc : cr r J c s (int_value a_val s)) by (apply (cr_ok r J IO); split; [auto|reflexivity]).
    eapply CT_weaken; [exact (decompose_general_CT P r J IO PR c W s (int_value a_val s) HW HW1 Hc)|].
    intros ws c' _ _ (H1 & H2 & H3 & _). auto.
Qed.

Section Msm.
Context {NM : NMod}.
Variables (w : Z) (I : rinfo) (b : Z).
Hypothesis n_prime : prime nmod.
Hypothesis w_prime : prime w.
Hypothesis HI : range_info_new w = Ok I.
Hypothesis w3 : 3 < w.
Hypothesis b_range : 0 < b < w.
Hypothesis HD : (w_bits w + 13) mod 108 <> 0.
Lemma IOI : info_ok w I. Proof. apply (range_info_ok _ _ HI). Qed.

Lemma vp_of c a p : point_ok w c a valid -> point_is w a_val a p -> on_curve w b p -> vp w I b c a.
Proof. intros H1 H2 H3. destruct (hp_of w I IOI c a p H1 H2) as (x & y & z & Hp & <-). exists x, y, z. auto. Qed.
Lemma vp_to c a : vp w I b c a -> point_ok w c a valid /\ exists p, point_is w a_val a p /\ on_curve w b p.
Proof. intros (x & y & z & Hp & C). destruct (hp_to w I IOI c a x y z Hp). eauto. Qed.
Definition affine (o : option (Z * Z)) : Prop := exists x y, o = Some (x, y) /\ on_curve w b (Aff x y).
Lemma vps_of c points ps : Forall (fun a => point_ok w c a valid) points -> Forall2 (point_is w a_val) points ps -> Forall (on_curve w b) ps ->
  Forall (vp w I b c) points.
Proof.
  intros F1 F2 F3. induction F2 as [|a p l l' H F2 IH]; [constructor|]. inversion F1; inversion F3; subst. constructor; [eapply vp_of; eauto|auto].
Qed.
Lemma points_at c A points ps : agrees c A -> Forall (fun a => point_ok w c a valid) points -> Forall2 (point_is w a_val) points ps ->
  Forall2 (point_is w (at_ A)) points ps.
Proof.
  intros HG F1 F2. induction F2 as [|a p l l' H F2 IH]; [constructor|]. inversion F1; subst. constructor; [|auto]. eapply point_at; eauto.
Qed.
(** What the call returns, in terms of the recorded values. *)
Definition returns (n : Z) (inputs : list (pt * Z)) (ps : list pt) (r : apoint) : Prop :=
  exists q, point_is w a_val r q /\ on_curve w b q
   /\ (exists g terms, g <> Inf /\ on_curve w b g /\ msm_terms n g inputs terms /\ lin_sum w terms q)
   /\ ((forall p, In p ps -> multiple w p n Inf) -> (In Inf ps -> forall g, on_curve w b g -> multiple w g n Inf) -> lin_sum w inputs q).
Lemma returns_of n inputs ps c' r A : agrees c' A -> point_ok w c' r valid ->
  (exists g terms q, g <> Inf /\ on_curve w b g /\ msm_terms n g inputs terms
     /\ lin_sum w terms q /\ on_curve w b q /\ point_is w (at_ A) r q)
  /\ ((forall p, In p ps -> multiple w p n Inf) -> (In Inf ps -> forall g, on_curve w b g -> multiple w g n Inf) ->
      exists q, lin_sum w inputs q /\ on_curve w b q /\ point_is w (at_ A) r q) ->
  returns n inputs ps r.
Proof.
  intros HG V [(g & terms & q & H1 & H2 & H3 & H4 & H5 & H6) K]. exists q. split; [apply (point_at c' A HG w r q V), H6|]. split; [exact H5|].
  split; [exists g, terms; auto|]. intros K1 K2. destruct (K K1 K2) as (q' & L & _ & E). rewrite (point_det w _ _ _ _ H6 E). exact L.
Qed.
(** The state after the call is good and the result is recorded there. *)
Lemma msm_good {S} (dec_ : S -> M (list (list acond))) bis_ zero_ (sv : ctx -> S -> Prop) c gen ra rl prefix points ps scalars r c' :
  (forall c d s, extends c d -> sv c s -> sv d s) ->
  (forall c s, wf c -> sv c s -> PT c (dec_ s) (fun ws c' => Forall (Forall (bitv c')) ws /\ (1 <= length ws)%nat)) ->
  (forall c k s t, wf c -> bitv c k -> sv c s -> sv c t -> PT c (bis_ k s t) (fun r c' => sv c' r)) ->
  (forall c, wf c -> PT c zero_ (fun r c' => sv c' r)) ->
  good c -> Forall affine [gen; ra; rl] ->
  Forall (fun a => point_ok w c a valid) points -> Forall2 (point_is w a_val) points ps -> Forall (on_curve w b) ps -> Forall (sv c) scalars ->
  msm I b dec_ bis_ zero_ gen ra rl prefix points scalars c = Ok (r, c') ->
  extends c c' /\ good c' /\ satisfies c' (honest c') /\ point_ok w c' (fst r) valid.
Proof.
  intros M1 M2 M3 M4 G F F1 F2 F3 F4 E. inversion F as [|? ? A1 F']; subst. inversion F' as [|? ? A2 F'']; subst. inversion F'' as [|? ? A3 _]; subst.
  assert (HD' : ri_d_bits I mod 108 <> 0) by (rewrite (hd_bits _ _ IOI); exact HD).
  destruct (msm_P w I IOI n_prime w_prime HD' b b_range S dec_ bis_ zero_ sv M1 M2 M3 M4 c gen ra rl prefix points scalars (good_wf _ G) A1 A2 A3
    (vps_of c points ps F1 F2 F3) F4 _ _ E) as (W' & X & ST & V).
  pose proof (step_good _ _ W' X ST G) as G'. split; [exact X|]. split; [exact G'|]. split; [apply good_satisfies; [apply (n_pos n_prime)|exact G']|].
  apply vp_to in V. apply V.
Qed.
End Msm.

Lemma C53_msm_native_honest_main :
  forall (NM : NMod) w I b, prime nmod -> prime w -> range_info_new w = Ok I -> 3 < w -> 0 < b < w ->
    (w_bits w + 13) mod 108 <> 0 -> Z.of_nat (ri_limbs I) < 2 ^ 62 ->
  forall c gen r_acc r_line prefix points ps scalars r prefix' c',
    good c -> Forall (fun o => exists x y, o = Some (x, y) /\ on_curve w b (Aff x y)) [gen; r_acc; r_line] ->
    Forall (fun a => point_ok w c a valid) points -> Forall2 (point_is w a_val) points ps -> Forall (on_curve w b) ps ->
    Forall (valid c) scalars ->
    msm_native I b gen r_acc r_line prefix points scalars c = Ok ((r, prefix'), c') ->
    (extends c c' /\ good c' /\ satisfies c' (honest c') /\ point_ok w c' r valid)
 /\ ((forall p, prefix = Some p -> calls (ctx_new, 0) (c, p)) ->
     exists q, point_is w a_val r q /\ on_curve w b q
      /\ let inputs := combine ps (map a_val scalars) in
         (exists g terms, g <> Inf /\ on_curve w b g /\ msm_terms nmod g inputs terms /\ lin_sum w terms q)
      /\ ((forall p, In p ps -> multiple w p nmod Inf) -> (In Inf ps -> forall g, on_curve w b g -> multiple w g nmod Inf) ->
          lin_sum w inputs q)).
Proof.
  intros NM w I b P PW H W3 Hb HD HL c gen ra rl prefix points ps scalars r prefix' c' G F F1 F2 F3 F4 E. info H.
  destruct (msm_good w I b P PW H Hb HD (decompose_scalar_native 1) bisec (assign_constant 0) valid c gen ra rl prefix points ps scalars (r, prefix') c'
    (fun c d s X V => valid_mono c d s X V) (native_dec_P P) (native_bis_P P) (native_zero_P P) G F F1 F2 F3 F4 E) as (X & G' & S & V). cbn [fst] in V.
  split; [auto|]. intros HC. set (A := honest c'). assert (HG : agrees c' A) by (intros ch k U col; reflexivity).
  assert (HA : forall y, 0 <= A y < nmod) by apply S.
  pose proof (htbl_sat c' (n_pos P) G') as SAT. set (T := htbl c') in *. assert (HB : bitc T) by exact Logic.I.
  assert (F1' : Forall (fun a => point_ok w c' a valid) points) by (eapply Forall_impl; [|exact F1]; intros a; apply point_ok_mono; exact X).
  pose proof (points_at w c' A points ps HG F1' F2) as F2'.
  assert (ES : map (at_ A) scalars = map a_val scalars).
  { apply map_ext_in. intros a Ha. rewrite Forall_forall in F4. apply (at_valid c' A HG). eapply valid_mono; eauto. }
  destruct (gq_of w I IO b A points ps F2' F3) as (cs & Eps & GQ).
  assert (R : msm_ok w I PW b A nmod cs (map (at_ A) scalars) r).
  { destruct prefix as [p|].
    - specialize (HC p eq_refl). destruct (C49_keys_never_collide_main NM) as (_ & _ & K). destruct (proj1 (K w I H HL) b gen ra rl p points scalars c _ _ HC E) as [_ EP].
      cbn [snd] in EP. subst prefix'. pose proof (calls_native _ _ _ _ _ _ _ _ _ _ _ _ _ _ HC H HL E) as HC'. destruct (hist_once _ _ HC') as (_ & _ & O & _).
      refine (msm_some_ST w I IO P PW b Hb W3 T A HA p (Z.to_nat MSM_PREFIX_OFFSET) (htbl_fun I c' p O) av (decompose_scalar_native 1) bisec (assign_constant 0) (nat_is A) nmod nw_native (nw_native1 P) _ _ _ _ _ _ hist_NG gen ra rl points cs scalars (map (at_ A) scalars) GQ _ c (r, Some _) c' (good_wf _ G) E SAT).
      + intros; app.
      + intros; app.
      + app.
      + intros s v. apply (native_dec_ok P T A HA HB).
      + intros c0 k s t u v. apply (native_bis_ok T A).
      + apply native_zero_ok.
      + apply (F2_map (nat_is A) (at_ A)). intros x. reflexivity.
    - refine (msm_none_ST w I IO P PW b Hb W3 T A HA av (decompose_scalar_native 1) bisec (assign_constant 0) (nat_is A) nmod nw_native (nw_native1 P) _ _ _ _ _ _ gen ra rl points cs scalars (map (at_ A) scalars) GQ _ c (r, prefix') c' (good_wf _ G) E SAT).
      + intros; app.
      + intros; app.
      + app.
      + intros s v. apply (native_dec_ok P T A HA HB).
      + intros c0 k s t u v. apply (native_bis_ok T A).
      + apply native_zero_ok.
      + apply (F2_map (nat_is A) (at_ A)). intros x. reflexivity. }
  cbv zeta. rewrite <- ES. apply (returns_of w b nmod (combine ps (map (at_ A) scalars)) ps c' r A HG V). rewrite <- Eps. split.
  - eapply (msm_ok_terms w I IO PW b Hb W3); eauto.
  - intros O1 O2. assert (0 < nmod) by (destruct P; lia). eapply (msm_ok_exact w I IO PW b Hb W3); eauto. apply Forall_forall. intros s Hs. apply in_map_iff in Hs as (y & <- & _). apply HA.
Qed.

Lemma C53_msm_general_honest_main :
  forall (NM : NMod) w I b r J, prime nmod -> prime w -> range_info_new w = Ok I -> 3 < w -> 0 < b < w ->
    (w_bits w + 13) mod 108 <> 0 -> Z.of_nat (ri_limbs I) < 2 ^ 62 -> prime r -> range_info_new r = Ok J ->
  forall c gen r_acc r_line prefix points ps scalars x prefix' c',
    good c -> Forall (fun o => exists x y, o = Some (x, y) /\ on_curve w b (Aff x y)) [gen; r_acc; r_line] ->
    Forall (fun a => point_ok w c a valid) points -> Forall2 (point_is w a_val) points ps -> Forall (on_curve w b) ps ->
    Forall (fun s => int_ok r c s valid) scalars ->
    msm_general I J b gen r_acc r_line prefix points scalars c = Ok ((x, prefix'), c') ->
    (extends c c' /\ good c' /\ satisfies c' (honest c') /\ point_ok w c' x valid)
 /\ ((forall p, prefix = Some p -> calls (ctx_new, 0) (c, p)) ->
     exists q, point_is w a_val x q /\ on_curve w b q
      /\ let inputs := combine ps (map (fun s => int_value a_val s mod r) scalars) in
         (exists g terms, g <> Inf /\ on_curve w b g /\ msm_terms r g inputs terms /\ lin_sum w terms q)
      /\ ((forall p, In p ps -> multiple w p r Inf) -> (In Inf ps -> forall g, on_curve w b g -> multiple w g r Inf) ->
          lin_sum w inputs q)).
Proof.
  intros NM w I b r J P PW H W3 Hb HD HL PR H' c gen ra rl prefix points ps scalars x prefix' c' G F F1 F2 F3 F4 E. info H. info H'.
  assert (F4' : Forall (gsv r J c) scalars).
  { eapply Forall_impl; [|exact F4]. intros s Hs. exists (int_value a_val s). apply (cr_ok r J IO0). split; [auto|reflexivity]. }
  destruct (msm_good w I b P PW H Hb HD (decompose_scalar_general J 1) (bisec_int J) (assign_int_constant J 0) (gsv r J) c gen ra rl prefix points ps scalars (x, prefix') c'
    (gsv_mono r J) (general_dec_P P r J IO0 PR) (general_bis_P P r J IO0) (general_zero_P P r J IO0 PR) G F F1 F2 F3 F4' E) as (X & G' & S & V). cbn [fst] in V.
  split; [auto|]. intros HC. set (A := honest c'). assert (HG : agrees c' A) by (intros ch k U col; reflexivity).
  assert (HA : forall y, 0 <= A y < nmod) by apply S.
  pose proof (htbl_sat c' (n_pos P) G') as SAT. set (T := htbl c') in *. assert (HB : bitc T) by exact Logic.I.
  assert (F1' : Forall (fun a => point_ok w c' a valid) points) by (eapply Forall_impl; [|exact F1]; intros a; apply point_ok_mono; exact X).
  pose proof (points_at w c' A points ps HG F1' F2) as F2'.
  assert (Hss : Forall2 (ir r J A) scalars (map (fun s => int_value a_val s mod r) scalars)).
  { clear - F4 IO0 HG X. induction F4 as [|s l Hs F IH]; [constructor|]. cbn [map]. constructor; [|exact IH].
    pose proof (int_ok_mono r _ _ _ X Hs) as Hs'. destruct (limbs_at c' A HG r s Hs') as [L1 L2].
    destruct (int_is_ext r a_val (at_ A) s _ L1 L2 (conj (ik_wf _ _ _ _ Hs') eq_refl)) as [Wv Ev].
    apply (ir_at _ _ IO0). split; [exact Wv|]. unfold eqm. rewrite Zmod_mod. exact Ev. }
  destruct (gq_of w I IO b A points ps F2' F3) as (cs & Eps & GQ). set (ss := map (fun s => int_value a_val s mod r) scalars) in *.
  assert (R : msm_ok w I PW b A r cs ss x).
  { destruct prefix as [p|].
    - specialize (HC p eq_refl). destruct (C49_keys_never_collide_main NM) as (_ & _ & K). destruct (proj2 (K w I H HL) r J b gen ra rl p points scalars c _ _ H' HC E) as [_ EP].
      cbn [snd] in EP. subst prefix'. pose proof (calls_general _ _ _ _ _ _ _ _ _ _ _ _ _ _ _ _ HC H H' HL E) as HC'. destruct (hist_once _ _ HC') as (_ & _ & O & _).
      refine (msm_some_ST w I IO P PW b Hb W3 T A HA p (Z.to_nat MSM_PREFIX_OFFSET) (htbl_fun I c' p O) aint (decompose_scalar_general J 1) (bisec_int J) (assign_int_constant J 0) (ir r J A) r (nw_general J) (nw_general1 r J IO0) _ _ _ _ _ _ hist_NG gen ra rl points cs scalars ss GQ Hss c (x, Some _) c' (good_wf _ G) E SAT).
      + intros; app.
      + intros; app.
      + app.
      + intros s v. apply (general_dec_ok P T A HA HB r J IO0 PR).
      + intros c0 k s t u v. apply (general_bis_ok T A HA r J IO0).
      + apply (general_zero_ok T A HA r J IO0 PR).
    - refine (msm_none_ST w I IO P PW b Hb W3 T A HA aint (decompose_scalar_general J 1) (bisec_int J) (assign_int_constant J 0) (ir r J A) r (nw_general J) (nw_general1 r J IO0) _ _ _ _ _ _ gen ra rl points cs scalars ss GQ Hss c (x, prefix') c' (good_wf _ G) E SAT).
      + intros; app.
      + intros; app.
      + app.
      + intros s v. apply (general_dec_ok P T A HA HB r J IO0 PR).
      + intros c0 k s t u v. apply (general_bis_ok T A HA r J IO0).
      + apply (general_zero_ok T A HA r J IO0 PR). }
  cbv zeta. fold ss. apply (returns_of w b r (combine ps ss) ps c' x A HG V). rewrite <- Eps. split.
  - eapply (msm_ok_terms w I IO PW b Hb W3); eauto.
  - intros O1 O2. assert (0 < r) by (destruct PR; lia). eapply (msm_ok_exact w I IO PW b Hb W3); eauto. apply Forall_forall. intros s Hs. apply in_map_iff in Hs as (y & <- & _). apply Z.mod_pos_bound. auto.
Qed.

