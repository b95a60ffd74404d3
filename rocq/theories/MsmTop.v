(** [msm] without the select chip: candidate selection by bisection, identity
    points, the two kinds of scalars. *)
From Verif Require Import Prelude FieldZ Circuit Context Spec Logic ModArith Prims BaseChip BaseProofs
  RangeInfo RangeChip IntegerChip SpecInt InfoProofs IntArith RangeProofs IntInv IntSound IntComplete IntBridge
  IntRes EccChip SpecEcc Curve EccArith EccProofs SpecMsm EccBridge FieldSatz CurveGroup PointSum ScalarChip ScalarProofs Msm ParWindows MsmProofs MsmSound.

Section S.
Context {NM : NMod}.
Variable w : Z.
Variable I : rinfo.
Hypothesis IO : info_ok w I.
Hypothesis n_prime : prime nmod.
Hypothesis w_prime : prime w.
Variable cv_b : Z.
Hypothesis b_range : 0 < cv_b < w.
Hypothesis w3 : 3 < w.
Variable T : env.
Variable A : cell -> Z.
Hypothesis A_range : forall x, 0 <= A x < nmod.
Local Notation ir := (ir w I A).
Local Notation br := (br A).
Local Notation ST := (ST T A).
Local Notation US := (US T A).
Local Notation gp := (gp w I A).
Local Notation cpt := (cpt w cv_b).
Local Notation cadd := (cadd w cv_b w_prime).
Local Notation ssum := (ssum w cv_b w_prime).
Local Notation lsum := (lsum w cv_b w_prime).
Local Notation table := (table w cv_b w_prime).
Local Notation cp := (cp w cv_b).
Local Notation gz := (gz w I cv_b A).
Local Notation b0 := (b_nz w cv_b b_range).

Lemma bisec_pairs_ST c d : br c d -> forall n cs ps, (length cs <= n)%nat -> Forall2 gz cs ps ->
  ST (bisec_pairs I c cs) (fun r => Forall2 gz r (halve d ps)).
Proof.
  intros Hc. induction n as [|n IH]; intros cs ps L H.
  - destruct H; [|cbn in L; lia]. apply ST_ret. constructor.
  - destruct H as [|a0 p0 cs ps H0 H]; [apply ST_ret; constructor|]. destruct H as [|a1 p1 cs ps H1 H]; [apply ST_panic|].
    cbn [bisec_pairs halve]. eapply ST_bind; [apply (bisec_gz w I IO cv_b T A A_range c d a1 a0 p1 p0); auto|app| |].
    { intros p. apply appends_bind; [eapply appends_bisec_pairs; reflexivity|intros; app]. }
    intros p Gp. cbn [length] in L. eapply ST_bind; [apply (IH cs ps); [lia|exact H]|eapply appends_bisec_pairs; reflexivity|intros; app|].
    intros q Gq. apply ST_ret. constructor; auto.
Qed.
Lemma bisec_candidate_ST cs init ps bits ds : Forall2 gz cs (table init ps) -> length ps = length ds -> Forall2 br bits ds ->
  ST (bisec_candidate_non_zero I cs bits) (fun r => gz r (cadd init (ssum ps ds))).
Proof.
  intros Ht L Hb. unfold bisec_candidate_non_zero.
  eapply (ST_bind T A _ _ (fun r => Forall2 gz r (fold_left (fun l d => halve d l) ds (table init ps)))); [| |intros; app|].
  - clear L. revert cs Ht. generalize (table init ps). induction Hb as [|b d bits ds Hbd Hb IH]; intros tb cs Ht; cbn [foldM fold_left].
    + apply ST_ret. exact Ht.
    + eapply ST_bind; [eapply bisec_pairs_ST; [exact Hbd|reflexivity|exact Ht]|eapply appends_bisec_pairs; reflexivity| |].
      * intros. apply appends_foldM. intros. eapply appends_bisec_pairs. reflexivity.
      * intros r Hr. apply IH. exact Hr.
  - apply appends_foldM. intros. eapply appends_bisec_pairs. reflexivity.
  - intros r Hr. rewrite (fold_halve w cv_b w_prime w3 b0) in Hr by auto. inversion Hr as [|a p l l' Ha Hl]; subst. inversion Hl; subst.
    apply ST_assert_k. intros _. apply ST_nth. intros x Hx. injection Hx as <-. exact Ha.
Qed.

(** *** Points with identity flag *)
Variable Sc : Type.
Variable dec_ : Sc -> M (list (list acond)).
Variable bis_ : acond -> Sc -> Sc -> M Sc.
Variable zero_ : M Sc.
Variable sc_is : Sc -> Z -> Prop.
Variable r : Z.
Variable nw : nat.
Hypothesis nw1 : (1 <= nw)%nat.
Hypothesis dec_app : forall s, appends (dec_ s).
Hypothesis bis_app : forall c s t, appends (bis_ c s t).
Hypothesis zero_app : appends zero_.
Hypothesis dec_ok : forall s v, sc_is s v -> ST (dec_ s) (fun ws => exists ds, wdig A nw ws ds /\ be ds ≡ v ⟨r⟩).
Hypothesis bis_ok : forall c k s t u v, br c k -> sc_is s u -> sc_is t v -> ST (bis_ c s t) (fun x => sc_is x (if k then u else v)).
Hypothesis zero_ok : ST zero_ (fun x => sc_is x 0).

Definition gq (a : apoint) (c : cpt) : Prop := exists x y z, gp a x y z /\ cp c = dec w x y z.
Definition is_inf (p : pt) : bool := match p with Inf => true | _ => false end.
(** The points actually summed and their scalars. *)
Definition subst_pt (g c : cpt) : cpt := if is_inf (cp c) then g else c.
Definition subst_sc (c : cpt) (s : Z) : Z := if is_inf (cp c) then 0 else s.

Lemma msm_prep g nzp s_zero points cs scalars ss :
  gz nzp g -> sc_is s_zero 0 -> Forall2 gq points cs -> Forall2 sc_is scalars ss ->
  ST (mapM (fun ps =>
      s <- bis_ (p_z (fst ps)) s_zero (snd ps) ;;
      p <- ecc_bisec_to_non_zero_point I (fst ps) nzp ;;
      mret (p, s)) (combine points scalars))
     (fun l => Forall2 gz (map fst l) (map (fun e => subst_pt g (fst e)) (combine cs ss))
            /\ Forall2 sc_is (map snd l) (map (fun e => subst_sc (fst e) (snd e)) (combine cs ss))).
Proof.
  intros Hg Hz HP. revert scalars ss. induction HP as [|a c points cs (x & y & z & Ga & Ec) HP IH]; intros scalars ss HS.
  - cbn. apply ST_ret. split; constructor.
  - destruct HS as [|s v scalars ss Hs HS]; cbn [combine map mapM]; [apply ST_ret; split; constructor|].
    assert (AP : forall l, appends (mapM (fun ps : apoint * Sc => s0 <- bis_ (p_z (fst ps)) s_zero (snd ps) ;; p <- ecc_bisec_to_non_zero_point I (fst ps) nzp ;; mret (p, s0)) l)).
    { intros l. apply appends_mapM. intros e. apply appends_bind; [auto|intros; app]. }
    eapply (ST_bind T A _ _ (fun e => gz (fst e) (subst_pt g c) /\ sc_is (snd e) (subst_sc c v))).
    + cbn [fst snd]. pose proof Ga as (G1 & G2 & G3).
      eapply ST_bind; [apply (bis_ok _ z s_zero s 0 v G3 Hz Hs)|auto|intros; app|]. intros s' Hs'.
      destruct Hg as (xg & yg & Gg & Eg).
      eapply ST_bind; [eapply (bisec_to_nz_R w I IO T A A_range a nzp x y z xg yg); auto|app|intros; app|]. intros p Gp. apply ST_ret. cbn [fst snd].
      unfold subst_pt, subst_sc. rewrite Ec. unfold dec in *. destruct z; cbn [is_inf].
      * split; [exists xg, yg; auto|exact Hs'].
      * split; [exists x, y; split; [exact Gp|exact Ec]|exact Hs'].
    + apply appends_bind; [auto|intros; app].
    + intros. apply appends_bind; [apply AP|intros; app].
    + intros e (G1 & G2). eapply ST_bind; [apply (IH _ _ HS)|apply AP|intros; app|]. intros l (F1 & F2). apply ST_ret.
      cbn [map fst snd]. split; constructor; auto.
Qed.

Definition msm_ok (cs : list cpt) (ss : list Z) (x : apoint) : Prop :=
  exists g vs, is_inf (cp g) = false
    /\ Forall2 (fun v e => 0 <= v /\ v ≡ subst_sc (fst e) (snd e) ⟨r⟩) vs (combine cs ss)
    /\ exists a b z, gp x a b z /\ dec w a b z = cp (lsum (combine (map (fun e => subst_pt g (fst e)) (combine cs ss)) vs)).

(** A batch (with or without select chip) inside [msm]. *)
Lemma msm_from_batch (batch : list anz -> list Sc -> M (uresult apoint)) gen points cs scalars ss :
  (forall ps sl, uapp (batch ps sl)) ->
  (forall pts ps scs sv, Forall2 gz pts ps -> Forall2 sc_is scs sv -> length ps = length sv ->
     US (batch pts scs) (batch_ok w I w_prime cv_b A r ps sv)) ->
  Forall2 gq points cs -> Forall2 sc_is scalars ss ->
  US (nzp <- assign_non_zero_point I cv_b gen ;;
      s_zero <- zero_ ;;
      ps <- mapM (fun ps =>
          s <- bis_ (p_z (fst ps)) s_zero (snd ps) ;;
          p <- ecc_bisec_to_non_zero_point I (fst ps) nzp ;;
          mret (p, s)) (combine points scalars) ;;
      batch (map fst ps) (map snd ps)) (msm_ok cs ss).
Proof.
  intros UB HB HP HS.
  assert (AP : forall z n l, appends (mapM (fun ps : apoint * Sc => s0 <- bis_ (p_z (fst ps)) z (snd ps) ;; p <- ecc_bisec_to_non_zero_point I (fst ps) n ;; mret (p, s0)) l)).
  { intros z n l. apply appends_mapM. intros e. apply appends_bind; [auto|intros; app]. }
  eapply US_bind; [apply (assign_gz w I IO n_prime w_prime cv_b b_range T A A_range)|app| |].
  { intros n. apply uapp_bind; [auto|intros z]. apply uapp_bind; [apply AP|intros l]. auto. }
  intros nzp (g & Hg). eapply US_bind; [exact zero_ok|auto| |].
  { intros z. apply uapp_bind; [apply AP|intros l]. auto. }
  intros s_zero Hz. eapply US_bind; [apply (msm_prep g nzp s_zero points cs scalars ss); auto|apply AP|intros; auto|].
  intros l (F1 & F2). eapply US_weaken; [eapply HB; [exact F1|exact F2|rewrite !map_length; reflexivity]|].
  intros x (vs & Fv & HR). exists g, vs. split.
  - destruct Hg as (xg & yg & _ & Eg). rewrite Eg. reflexivity.
  - split; [|exact HR]. clear - Fv. remember (map _ (combine cs ss)) as m eqn:E. revert E. generalize (combine cs ss).
    induction Fv as [|v s vs m H Fv IH]; intros q E; destruct q as [|e q]; try discriminate; constructor; injection E as E1 E2; subst; auto.
Qed.

Lemma msm_none_ST gen ra rl points cs scalars ss :
  Forall2 gq points cs -> Forall2 sc_is scalars ss ->
  ST (msm I cv_b dec_ bis_ zero_ gen ra rl None points scalars) (fun x => msm_ok cs ss (fst x)).
Proof.
  intros HP HS c x c' W E S. unfold msm, msm_unsafe in E.
  set (batch := msm_batch_on_group_non_zero_without_select_chip I cv_b dec_).
  assert (H : exists c1, (nzp <- assign_non_zero_point I cv_b gen ;;
      s_zero <- zero_ ;;
      ps <- mapM (fun ps =>
          s <- bis_ (p_z (fst ps)) s_zero (snd ps) ;;
          p <- ecc_bisec_to_non_zero_point I (fst ps) nzp ;;
          mret (p, s)) (combine points scalars) ;;
      batch (map fst ps) (map snd ps) ra rl) c = Ok (UOk (fst x), c1) /\ c1 = c').
  { apply mbind_inv in E as (q & c1 & E & E2). apply mbind_inv in E as (n & c2 & E3 & E). apply mbind_inv in E as (z & c3 & E4 & E).
    apply mbind_inv in E as (l & c4 & E5 & E). apply mbind_inv in E as (q0 & c5 & E6 & E).
    injection E as <- <-. destruct q0 as [q0|e]; [|discriminate]. cbn in E2. injection E2 as <- <-.
    exists c5. split; [|reflexivity]. unfold mbind at 1. rewrite E3. unfold mbind at 1. rewrite E4. unfold mbind at 1. rewrite E5. exact E6. }
  destruct H as (c1 & H & ->).
  eapply (msm_from_batch (fun p s => batch p s ra rl) gen points cs scalars ss); [| |exact HP|exact HS|exact W|exact H|exact S].
  - intros ps sl. unfold batch, msm_batch_on_group_non_zero_without_select_chip. apply uapp_msm_batch; [auto|intros; apply appends_bisec_candidate|intros; app].
  - intros pts ps scs sv F1 F2 L. unfold batch, msm_batch_on_group_non_zero_without_select_chip.
    eapply (msm_batch_US w I IO n_prime w_prime cv_b b_range w3 T A A_range (fun _ _ _ => True)) with (NG := length ps) (BS := 2%nat); try eassumption.
    + intros; app.
    + intros; apply appends_bisec_candidate.
    + intros. apply ST_ret. exact Logic.I.
    + intros g cs0 init ps0 bits ds _ _ Ht _ L0 Hb. apply bisec_candidate_ST; auto.
    + auto.
    + auto.
Qed.
Lemma msm_none_appends gen ra rl points scalars :
  appends (msm I cv_b dec_ bis_ zero_ gen ra rl None points scalars).
Proof.
  intros c x c' W E. unfold msm, msm_unsafe in E.
  apply mbind_inv in E as (q & c1 & E & E2). apply mbind_inv in E as (n & c2 & E3 & E). apply mbind_inv in E as (z & c3 & E4 & E).
  apply mbind_inv in E as (l & c4 & E5 & E). apply mbind_inv in E as (q0 & c5 & E6 & E).
  injection E as <- <-. destruct q0 as [q0|e]; [|discriminate]. cbn in E2. injection E2 as <- <-.
  assert (AP : forall z n l, appends (mapM (fun ps : apoint * Sc => s0 <- bis_ (p_z (fst ps)) z (snd ps) ;; p <- ecc_bisec_to_non_zero_point I (fst ps) n ;; mret (p, s0)) l)).
  { intros z0 n0 l0. apply appends_mapM. intros e. apply appends_bind; [auto|intros; app]. }
  assert (A3 : appends (assign_non_zero_point I cv_b gen)) by app.
  destruct (A3 _ _ _ W E3) as [W2 X2]. destruct (zero_app _ _ _ W2 E4) as [W3 X3]. destruct (AP _ _ _ _ _ _ W3 E5) as [W4 X4].
  assert (UB : uapp (msm_batch_on_group_non_zero_without_select_chip I cv_b dec_ (map fst l) (map snd l) ra rl)).
  { unfold msm_batch_on_group_non_zero_without_select_chip. apply uapp_msm_batch; [auto|intros; apply appends_bisec_candidate|intros; app]. }
  destruct (UB _ _ _ W4 E6) as [W5 X5]. split; [exact W5|]. eauto using extends_trans.
Qed.
(** *** In terms of the specification *)
Lemma cpts_of (ps : list pt) : Forall (on_curve w cv_b) ps -> exists cs, map cp cs = ps.
Proof.
  induction 1 as [|p ps Hp F [cs IH]]; [exists []; reflexivity|]. exists (mkO w cv_b p Hp :: cs). cbn. f_equal. exact IH.
Qed.
Lemma combine_cp (cs : list cpt) (ss : list Z) : combine (map cp cs) ss = map (fun e => (cp (fst e), snd e)) (combine cs ss).
Proof. revert ss. induction cs as [|c cs IH]; intros [|s ss]; cbn; auto. f_equal. apply IH. Qed.
Lemma terms_of g l vs : Forall2 (fun v e => 0 <= v /\ v ≡ subst_sc (fst e) (snd e) ⟨r⟩) vs l ->
  msm_terms r (cp g) (map (fun e => (cp (fst e), snd e)) l)
    (map (fun e => (cp (fst e), snd e)) (combine (map (fun e => subst_pt g (fst e)) l) vs)).
Proof.
  induction 1 as [|v [c s] vs l (H1 & H2) F IH]; cbn [map combine fst snd]; [constructor|].
  unfold subst_pt, subst_sc in *. cbn [fst snd] in H2. destruct (cp c) as [|x y] eqn:E; cbn [is_inf] in *.
  - constructor; [exact H1| |exact IH]. unfold eqm in H2. rewrite Zmod_0_l in H2. exact H2.
  - rewrite E. constructor; auto.
Qed.
Lemma msm_ok_terms cs ss x : msm_ok cs ss x -> exists g terms q, g <> Inf /\ on_curve w cv_b g
  /\ msm_terms r g (combine (map cp cs) ss) terms /\ lin_sum w terms q /\ on_curve w cv_b q /\ point_is w (at_ A) x q.
Proof.
  intros (g & vs & Hg & F & a & b & z & Gx & E).
  set (l := combine (map (fun e => subst_pt g (fst e)) (combine cs ss)) vs) in *.
  exists (cp g), (map (fun e => (cp (fst e), snd e)) l), (cp (lsum l)).
  split; [intros K; rewrite K in Hg; discriminate|]. split; [apply cp_oc|]. rewrite combine_cp. split; [apply terms_of; exact F|].
  split; [|split; [apply cp_oc|]].
  - apply (lin_sum_lsum w cv_b w_prime w3 b0). subst l. clear - F. revert vs F. generalize (combine cs ss). induction l as [|e l IH]; intros vs F; inversion F; subst; cbn; constructor; cbn; [tauto|auto].
  - rewrite <- E. apply (gp_to _ _ IO). exact Gx.
Qed.
Lemma msm_ok_exact cs ss x : 0 < r -> Forall (fun s => 0 <= s < r) ss -> msm_ok cs ss x ->
  (forall p, In p (map cp cs) -> multiple w p r Inf) ->
  (In Inf (map cp cs) -> forall g, on_curve w cv_b g -> multiple w g r Inf) ->
  exists q, lin_sum w (combine (map cp cs) ss) q /\ on_curve w cv_b q /\ point_is w (at_ A) x q.
Proof.
  intros Hr Hs (g & vs & Hg & F & a & b & z & Gx & E) HO HG.
  exists (cp (lsum (combine cs ss))). rewrite combine_cp. split; [|split; [apply cp_oc|]].
  - apply (lin_sum_lsum w cv_b w_prime w3 b0). rewrite Forall_forall in *. intros [c s] Hin. cbn. apply in_combine_r in Hin. apply Hs in Hin. lia.
  - assert (Z0 : forall c, multiple w (cp c) r Inf -> cmul w cv_b w_prime r c = czero w cv_b).
    { intros c M. apply (multiple_eq w cv_b w_prime w3 b0) in M as [M _]. apply cp_inj. symmetry. exact M. }
    assert (EQ : lsum (combine (map (fun e => subst_pt g (fst e)) (combine cs ss)) vs) = lsum (combine cs ss)).
    { clear E Gx. revert ss Hs vs F. induction cs as [|c cs IH]; intros ss Hs vs F; [inversion F; subst; reflexivity|].
      destruct ss as [|s ss]; cbn [combine map] in *; inversion F as [|v e vs' l [H1 H2] F' E1 E2]; subst; [reflexivity|].
      inversion Hs as [|? ? Hs1 Hs2]; subst. cbn [combine PointSum.lsum fst snd] in *. f_equal.
      - unfold subst_pt, subst_sc in *. destruct (cp c) as [|x0 y0] eqn:Ec; cbn [is_inf] in *.
        + assert (c = czero w cv_b) as -> by (apply cp_inj; exact Ec). rewrite cmul_zero.
          rewrite (cmul_mod w cv_b w_prime w3 b0 r v g Hr H1) by (apply Z0, HG; [left; auto|apply cp_oc]).
          unfold eqm in H2. rewrite H2, Zmod_0_l. reflexivity.
        + rewrite (cmul_mod w cv_b w_prime w3 b0 r v c Hr H1) by (apply Z0, HO; left; auto).
          unfold eqm in H2. rewrite H2, Z.mod_small by auto. reflexivity.
      - apply IH; auto; intros; [apply HO|apply HG]; cbn; auto. }
    rewrite <- EQ, <- E. apply (gp_to _ _ IO). exact Gx.
Qed.
Lemma gq_of points ps : Forall2 (point_is w (at_ A)) points ps -> Forall (on_curve w cv_b) ps ->
  exists cs, map cp cs = ps /\ Forall2 gq points cs.
Proof.
  induction 1 as [|a p points ps H F IH]; intros HC; [exists []; split; [reflexivity|constructor]|].
  inversion HC as [|? ? H1 H2]; subst. destruct (IH H2) as (cs & E & FG). exists (mkO w cv_b p H1 :: cs). split; [cbn; f_equal; exact E|].
  constructor; [|exact FG]. apply (gp_of _ _ IO) in H as (x & y & z & G & K). exists x, y, z. split; [exact G|]. cbn. symmetry. exact K.
Qed.
End S.

(** ** The two kinds of scalars *)
Section Scalars.
Context {NM : NMod}.
Hypothesis n_prime : prime nmod.
Variable T : env.
Variable A : cell -> Z.
Hypothesis A_range : forall x, 0 <= A x < nmod.
Hypothesis BC : bitc T.
Local Notation br := (br A).

Lemma windows_digits nw (ws : list (list av)) : Forall (fun w => length w = 1%nat) ws -> length ws = nw ->
  Forall (isbit A) (concat (rev ws)) ->
  exists ds, wdig A nw ws ds /\ bin_le (map (vA A) (concat (rev ws))) = be ds.
Proof.
  unfold acond in *. intros F L B.
  assert (X : forall ws, Forall (fun w => length w = 1%nat) ws -> Forall (isbit A) (concat (rev ws)) ->
     exists ds, Forall2 (fun (w : list av) d => exists a, w = [a] /\ br a d) ws ds /\ map (vA A) (concat (rev ws)) = map Z.b2z (rev ds)).
  { clear. induction 1 as [|x ws Hx F IH]; intros B.
    - exists []. split; [constructor|reflexivity].
    - cbn [rev] in *. rewrite concat_app in *. apply Forall_app in B as [B1 B2]. destruct (IH B1) as (ds & F2 & E).
      destruct x as [|a [|]]; try discriminate. cbn in B2. inversion B2 as [|? ? Ba _]; subst.
      assert (exists d, br a d) as [d Hd] by (destruct Ba as [Ba|Ba]; [exists false|exists true]; exact Ba).
      exists (d :: ds). split; [constructor; eauto|]. cbn [rev]. rewrite !map_app, E. cbn [concat map app]. unfold IntRes.br in Hd. rewrite Hd. reflexivity. }
  destruct (X ws F B) as (ds & F2 & E). exists ds. split.
  - split; [rewrite <- L; symmetry; exact (F2_len F2)|exact F2].
  - rewrite E. rewrite <- be_rev, rev_involutive. reflexivity.
Qed.

(** Native scalars. *)
Definition nat_is (s : av) (v : Z) : Prop := vA A s ≡ v ⟨nmod⟩.
Definition nw_native : nat := n_windows NB 1.
Lemma nw_native1 : (1 <= nw_native)%nat.
Proof.
  unfold nw_native, n_windows. pose proof (num_bits_pos n_prime). unfold NB. rewrite Nat.div_1_r. lia.
Qed.
Lemma native_dec_ok s v : nat_is s v -> ST T A (decompose_scalar_native 1 s) (fun ws => exists ds, wdig A nw_native ws ds /\ be ds ≡ v ⟨nmod⟩).
Proof.
  intros H. eapply ST_weaken; [apply (decompose_native_ST n_prime T A A_range 1 s)|]. intros ws (E & B & F & L). cbv zeta in *.
  destruct (windows_digits nw_native ws F L (B BC)) as (ds & D & Ed). exists ds. split; [exact D|].
  rewrite <- Ed. unfold nat_is in H. rewrite <- H. symmetry. exact E.
Qed.
Lemma native_bis_ok c k s t u v : br c k -> nat_is s u -> nat_is t v ->
  ST T A (bisec c s t) (fun x => nat_is x (if k then u else v)).
Proof.
  intros Hc Hs Ht. eapply ST_weaken; [apply bisec_ST; auto|]. intros x Hx. unfold nat_is in *. cbv beta in Hx.
  rewrite Hx. unfold IntRes.br in Hc. rewrite Hc, Hs, Ht. destruct k; cbn [Z.b2z]; apply eqm_eq; ring.
Qed.
Lemma native_zero_ok : ST T A (assign_constant 0) (fun x => nat_is x 0).
Proof. apply assign_constant_ST. Qed.

(** General scalars. *)
Variable r : Z.
Variable J : rinfo.
Hypothesis JO : info_ok r J.
Hypothesis r_prime : prime r.
Definition nw_general : nat := n_windows (108 * ri_limbs J) 1.
Lemma nw_general1 : (1 <= nw_general)%nat.
Proof. unfold nw_general, n_windows. rewrite Nat.div_1_r. destruct JO as []. lia. Qed.
Lemma general_dec_ok s v : ir r J A s v -> ST T A (decompose_scalar_general J 1 s) (fun ws => exists ds, wdig A nw_general ws ds /\ be ds ≡ v ⟨r⟩).
Proof.
  intros H. eapply ST_weaken; [apply (decompose_general_ST n_prime r J JO r_prime T A A_range 1 s v BC H)|]. intros ws (E & B & F & L). cbv zeta in *.
  destruct (windows_digits nw_general ws F L B) as (ds & D & Ed). exists ds. split; [exact D|]. rewrite <- Ed. symmetry. exact E.
Qed.
Lemma general_bis_ok c k s t u v : br c k -> ir r J A s u -> ir r J A t v ->
  ST T A (bisec_int J c s t) (fun x => ir r J A x (if k then u else v)).
Proof. intros Hc Hs Ht. eapply ST_weaken; [eapply (bisec_int_R r J JO); eauto|]. intros x [Hx _]. exact Hx. Qed.
Lemma general_zero_ok : ST T A (assign_int_constant J 0) (fun x => ir r J A x 0).
Proof.
  assert (0 <= 0 < r) by (destruct r_prime; lia).
  eapply ST_weaken; [apply (assign_int_constant_R r J JO r_prime T A A_range 0); auto|]. intros x [Hx _]. exact Hx.
Qed.
End Scalars.
