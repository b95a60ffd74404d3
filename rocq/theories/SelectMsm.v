(** Multi-scalar multiplication with the select chip: what the cached and the selected
    limbs mean. *)
From Verif Require Import Prelude FieldZ Circuit Context Spec Logic ModArith Prims BaseChip BaseProofs
  RangeInfo RangeChip IntegerChip SpecInt InfoProofs IntArith RangeProofs IntInv IntSound IntComplete IntBridge
  IntRes EccChip SpecEcc Curve EccArith EccProofs SpecMsm EccBridge FieldSatz CurveGroup PointSum ScalarChip ScalarProofs Msm ParWindows MsmProofs MsmSound MsmTop
  SpecSelect SelectProofs.

Section App.
Context {NM : NMod}.
Variable I : rinfo.
Lemma appends_assign_cache_integer p sc g off : appends (assign_cache_integer I p sc g off).
Proof. unfold assign_cache_integer. app. Qed.
Lemma appends_assign_selected_integer p sc g off : appends (assign_selected_integer I p sc g off).
Proof. unfold assign_selected_integer. apply appends_bind; [apply appends_foldM; intros; app|intros; app]. Qed.
End App.
#[export] Hint Resolve appends_assign_cache_integer appends_assign_selected_integer : app.
Section App2.
Context {NM : NMod}.
Variable I : rinfo.
Lemma appends_assign_cache_point_non_zero p g sc : appends (assign_cache_point_non_zero I p g sc).
Proof. unfold assign_cache_point_non_zero. app. Qed.
Lemma appends_assign_selected_point_non_zero p sc g : appends (assign_selected_point_non_zero I p sc g).
Proof. unfold assign_selected_point_non_zero. app. Qed.
Lemma appends_assign_cache_point p g sc : appends (assign_cache_point I p g sc).
Proof. unfold assign_cache_point. app. Qed.
Lemma appends_assign_selected_point p sc g : appends (assign_selected_point I p sc g).
Proof. unfold assign_selected_point. app. Qed.
Lemma appends_pick_candidate cs bs : appends (pick_candidate_non_zero cs bs).
Proof. unfold pick_candidate_non_zero. app. Qed.
End App2.
#[export] Hint Resolve appends_assign_cache_point_non_zero appends_assign_selected_point_non_zero
  appends_assign_cache_point appends_assign_selected_point appends_pick_candidate : app.

Section Sel.
Context {NM : NMod}.
Variable I : rinfo.
Variable T : env.
Variable A : cell -> Z.
Local Notation L := (ri_limbs I).
Local Notation ST := (ST T A).

(** The handles of an integer, in the order in which they are cached. *)
Definition ihs (x : aint) : list av := i_limbs x ++ [i_native x].
(** The handles [hs] appear in the table under (g, sc, off), (g, sc, off + 1), ... *)
Definition in_tbl (g sc off : Z) (hs : list av) : Prop :=
  forall k h, nth_error hs k = Some h -> tbl T A⟦h⟧ (encode_offset g sc (off + Z.of_nat k)).

Lemma assign_cache_integer_ST p sc g off : length (i_limbs p) = L ->
  ST (assign_cache_integer I p sc g off)
     (fun r => i_times p = 1 /\ r = off + Z.of_nat L + 1 /\ in_tbl g sc off (ihs p)).
Proof.
  intros HL. unfold assign_cache_integer. apply ST_assert_k. intros H1. apply Z.eqb_eq in H1.
  eapply ST_bind; [apply (ST_foldM_seq T A _ (fun k o => o = off + Z.of_nat k /\ forall j h, (j < k)%nat -> nth_error (i_limbs p) j = Some h ->
      tbl T A⟦h⟧ (encode_offset g sc (off + Z.of_nat j))))| | |].
  - intros; app.
  - split; [lia|]. intros; lia.
  - intros k o Hk (-> & HJ). cbn [Nat.add]. apply ST_nth_k. intros l Hl.
    eapply ST_bind; [apply assign_cache_value_ST|app|intros; app|]. intros u Hu. cbv beta in Hu. clear u. apply ST_ret. split; [lia|].
    intros j h Hj Hn. destruct (Nat.eq_dec j k) as [->|Ne]; [rewrite Hl in Hn; injection Hn as <-; exact Hu|]. apply HJ; auto. lia.
  - apply appends_foldM; intros; app.
  - intros; app.
  - intros o (-> & HJ). eapply ST_bind; [apply assign_cache_value_ST|app|intros; app|]. intros u Hu. cbv beta in Hu. clear u. apply ST_ret.
    split; [exact H1|]. split; [lia|]. intros k h Hk. unfold ihs in Hk.
    destruct (Nat.lt_ge_cases k (length (i_limbs p))) as [Lk|Lk].
    + rewrite nth_error_app1 in Hk by auto. apply HJ; [lia|auto].
    + rewrite nth_error_app2 in Hk by auto. destruct (k - length (i_limbs p))%nat as [|m] eqn:Em; [|destruct m; discriminate].
      injection Hk as <-. replace k with L by lia. exact Hu.
Qed.
Lemma assign_selected_integer_ST p s g off :
  ST (assign_selected_integer I p s g off)
     (fun r => i_times (fst r) = 1 /\ snd r = off + Z.of_nat L + 1 /\ length (i_limbs (fst r)) = L /\ in_tbl g A⟦s⟧ off (ihs (fst r))).
Proof.
  unfold assign_selected_integer.
  eapply ST_bind; [apply (ST_foldM_seq T A _ (fun k st => snd st = off + Z.of_nat k /\ length (fst st) = k /\ in_tbl g A⟦s⟧ off (fst st)))| | |].
  - intros; app.
  - split; [cbn; lia|]. split; [reflexivity|]. intros [|j] h; discriminate.
  - intros k st Hk (H1 & H2 & H3). cbn [Nat.add]. apply ST_nth_k. intros l Hl.
    eapply ST_bind; [apply assign_selected_value_ST|app|intros; app|]. intros v Hv. apply ST_ret. cbn [fst snd].
    split; [lia|]. split; [rewrite app_length; cbn; lia|]. intros j h Hj.
    destruct (Nat.lt_ge_cases j (length (fst st))) as [Lj|Lj].
    + rewrite nth_error_app1 in Hj by auto. apply H3; auto.
    + rewrite nth_error_app2 in Hj by auto. destruct (j - length (fst st))%nat as [|m] eqn:Em; [|destruct m; discriminate].
      injection Hj as <-. rewrite H1 in Hv. replace j with k by lia. exact Hv.
  - apply appends_foldM; intros; app.
  - intros; app.
  - intros st (H1 & H2 & H3). eapply ST_bind; [apply assign_selected_value_ST|app|intros; app|]. intros v Hv. apply ST_ret. cbn [fst snd i_limbs i_times].
    split; [reflexivity|]. split; [lia|]. split; [exact H2|]. intros j h Hj. unfold ihs in Hj. cbn [i_limbs i_native] in Hj.
    destruct (Nat.lt_ge_cases j (length (fst st))) as [Lj|Lj].
    + rewrite nth_error_app1 in Hj by auto. apply H3; auto.
    + rewrite nth_error_app2 in Hj by auto. destruct (j - length (fst st))%nat as [|m] eqn:Em; [|destruct m; discriminate].
      injection Hj as <-. rewrite H1 in Hv. replace j with L by lia. exact Hv.
Qed.

Definition nhs (p : anz) : list av := ihs (nz_x p) ++ ihs (nz_y p).
Lemma in_tbl_app g sc off a b : in_tbl g sc off a -> in_tbl g sc (off + Z.of_nat (length a)) b -> in_tbl g sc off (a ++ b).
Proof.
  intros H1 H2 k h Hk. destruct (Nat.lt_ge_cases k (length a)) as [Lk|Lk].
  - rewrite nth_error_app1 in Hk by auto. apply H1; auto.
  - rewrite nth_error_app2 in Hk by auto. specialize (H2 _ _ Hk). replace (off + Z.of_nat k) with (off + Z.of_nat (length a) + Z.of_nat (k - length a)) by lia. exact H2.
Qed.
Definition shape1 (p : anz) : Prop :=
  i_times (nz_x p) = 1 /\ i_times (nz_y p) = 1 /\ length (i_limbs (nz_x p)) = L /\ length (i_limbs (nz_y p)) = L.
Lemma ihs_len x : length (i_limbs x) = L -> length (ihs x) = S L.
Proof. intros H. unfold ihs. rewrite app_length, H. cbn. lia. Qed.
Lemma assign_cache_nz_ST p g sc : length (i_limbs (nz_x p)) = L -> length (i_limbs (nz_y p)) = L ->
  ST (assign_cache_point_non_zero I p g sc) (fun _ => shape1 p /\ in_tbl g sc 0 (nhs p)).
Proof.
  intros Lx Ly. unfold assign_cache_point_non_zero. eapply ST_bind; [apply assign_cache_integer_ST; exact Lx|app|intros; app|].
  intros o (T1 & -> & H1). eapply ST_bind; [apply assign_cache_integer_ST; exact Ly|app|intros; app|].
  intros o (T2 & _ & H2). apply ST_ret. split; [unfold shape1; auto|]. apply in_tbl_app; [exact H1|]. rewrite (ihs_len _ Lx).
  replace (0 + Z.of_nat (S L)) with (0 + Z.of_nat L + 1) by lia. exact H2.
Qed.
Lemma assign_selected_nz_ST p s g :
  ST (assign_selected_point_non_zero I p s g) (fun r => shape1 r /\ in_tbl g A⟦s⟧ 0 (nhs r)).
Proof.
  unfold assign_selected_point_non_zero. eapply ST_bind; [apply assign_selected_integer_ST|app|intros; app|].
  intros x (T1 & E1 & L1 & H1). eapply ST_bind; [apply assign_selected_integer_ST|app|intros; app|].
  intros y (T2 & E2 & L2 & H2). apply ST_ret. cbn [nz_x nz_y]. split; [unfold shape1; auto|]. unfold nhs. cbn [nz_x nz_y].
  apply in_tbl_app; [exact H1|]. rewrite (ihs_len _ L1), E1 in *.
  replace (0 + Z.of_nat (S L)) with (0 + Z.of_nat L + 1) by lia. exact H2.
Qed.
(** Equal values of the handles. *)
Definition same_vals (a b : list av) : Prop := map (vA A) a = map (vA A) b.
Lemma in_tbl_same g sc off a b : length a = length b ->
  (forall k v v', (k < length a)%nat -> tbl T v (encode_offset g sc (off + Z.of_nat k)) -> tbl T v' (encode_offset g sc (off + Z.of_nat k)) -> v = v') ->
  in_tbl g sc off a -> in_tbl g sc off b -> same_vals a b.
Proof.
  revert off b. induction a as [|x a IH]; intros off [|y b] HL U Ha Hb; try discriminate; [reflexivity|].
  unfold same_vals. cbn [map]. f_equal.
  - apply (U 0%nat); [cbn; lia|apply (Ha 0%nat); reflexivity|apply (Hb 0%nat); reflexivity].
  - assert (P : forall k, off + Z.of_nat (S k) = off + 1 + Z.of_nat k) by (intros; lia).
    apply (IH (off + 1)); [injection HL; auto| | |].
    + intros k v v' Hk. rewrite <- P. apply U. cbn. lia.
    + intros k h Hk. rewrite <- P. apply Ha. exact Hk.
    + intros k h Hk. rewrite <- P. apply Hb. exact Hk.
Qed.
Lemma same_ihs x y l1 l2 : length (i_limbs x) = length (i_limbs y) -> same_vals (ihs x ++ l1) (ihs y ++ l2) ->
  map (vA A) (i_limbs x) = map (vA A) (i_limbs y) /\ vA A (i_native x) = vA A (i_native y) /\ same_vals l1 l2.
Proof.
  unfold same_vals, ihs. intros HL H. rewrite !map_app, <- !app_assoc in H.
  assert (G : forall (p q p' q' : list Z), length p = length p' -> p ++ q = p' ++ q' -> p = p' /\ q = q').
  { induction p as [|z p IH]; intros q [|z' p'] q' E1 E2; try discriminate; [auto|]. cbn in E2. injection E2 as -> E2. injection E1 as E1. destruct (IH _ _ _ E1 E2) as [-> ->]. auto. }
  apply G in H as [H1 H2]; [|rewrite !map_length; exact HL]. cbn [map app] in H2. injection H2 as H2 H3. auto.
Qed.
Lemma ir_same w x y r : map (vA A) (i_limbs x) = map (vA A) (i_limbs y) -> vA A (i_native x) = vA A (i_native y) ->
  i_times x = i_times y -> ir w I A x r -> ir w I A y r.
Proof.
  intros H1 H2 H3 [W V]. destruct W as [K1 K2 K3 K4 K5 K6]. unfold ir, lv, val in *.
  split; [constructor|]; unfold lv, val in *; rewrite <- ?H1, <- ?H2, <- ?H3; auto.
  rewrite <- K1. transitivity (length (map (vA A) (i_limbs y))); [rewrite map_length; auto|]. rewrite <- H1. apply map_length.
Qed.
Lemma gn_same w p q x y : shape1 p -> shape1 q -> same_vals (nhs p) (nhs q) -> gn w I A p x y -> gn w I A q x y.
Proof.
  intros (A1 & A2 & A3 & A4) (B1 & B2 & B3 & B4) S [G1 G2]. unfold nhs in S.
  apply same_ihs in S as (S1 & S2 & S); [|congruence]. rewrite <- (app_nil_r (ihs (nz_y p))), <- (app_nil_r (ihs (nz_y q))) in S.
  apply same_ihs in S as (S3 & S4 & _); [|congruence]. split; [apply (ir_same w (nz_x p))|apply (ir_same w (nz_y p))]; auto; congruence.
Qed.

Lemma pick_index_ST cs bits ds : (forall x, 0 <= A x < nmod) -> Forall2 (br A) bits ds -> (2 ^ length ds <= Z.to_nat nmod)%nat ->
  ST (pick_candidate_non_zero cs bits) (fun r => A⟦fst r⟧ = Z.of_nat (index_of ds)).
Proof.
  intros AR Hb Hn. unfold pick_candidate_non_zero.
  eapply ST_bind; [apply (swc_ST T A)|app|intros; app|]. intros ix Hx. cbv beta in Hx.
  apply ST_nth_k. intros ci _. apply ST_ret. cbn [fst].
  assert (G : forall k bits ds, Forall2 (br A) bits ds -> lin A (mapi_from k (fun i x => (x, fof (2 ^ Z.of_nat i))) bits) ≡ 2 ^ Z.of_nat k * Z.of_nat (index_of ds) ⟨nmod⟩).
  { clear. intros k bits ds H. revert k. induction H as [|b d bits ds Hb H IH]; intros k; cbn [mapi_from lin fold_right fst snd index_of].
    - apply eqm_eq. rewrite Z.mul_0_r. reflexivity.
    - fold (lin A (mapi_from (S k) (fun i x => (x, fof (2 ^ Z.of_nat i))) bits)). rewrite IH. unfold br in Hb. rewrite Hb.
      unfold fof. estrip. apply eqm_eq. rewrite Nat2Z.inj_succ, Z.pow_succ_r by lia. destruct d; cbn [Z.b2z Nat.b2n]; lia. }
  unfold mapi in Hx. rewrite (G 0%nat _ _ Hb) in Hx. unfold eqm in Hx.
  change (2 ^ Z.of_nat 0) with 1 in Hx. rewrite Z.mul_1_l in Hx.
  unfold vA in Hx. rewrite (Z.mod_small (A _)) in Hx by auto. rewrite Hx. pose proof (index_bound ds). apply Z.mod_small. lia.
Qed.
End Sel.

(** ** The whole multiplication *)
Section Msm.
Context {NM : NMod}.
Variable w : Z.
Variable I : rinfo.
Hypothesis IO : info_ok w I.
Hypothesis n_prime : prime nmod.
Hypothesis w_prime : prime w.
Variable cv_b : Z.
Hypothesis b_range : 0 < cv_b < w.
Hypothesis w3 : 3 < w.
Variable T : env.
Variable A : cell -> Z.
Hypothesis A_range : forall x, 0 <= A x < nmod.
Local Notation L := (ri_limbs I).
Local Notation ST := (ST T A).
Local Notation US := (US T A).
Local Notation cadd := (cadd w cv_b w_prime).
Local Notation ssum := (ssum w cv_b w_prime).
Local Notation table := (table w cv_b w_prime).
Local Notation gz := (gz w I cv_b A).
Local Notation b0 := (b_nz w cv_b b_range).

(** The entries used by the multiplication number [prefix] determine their value. *)
Definition tbl_fun (prefix : Z) (NG : nat) : Prop :=
  forall g i k v v', (g < NG)%nat -> (i < 32)%nat -> (k < 2 * S L)%nat ->
    tbl T v (encode_offset (prefix + Z.of_nat g) (Z.of_nat i) (Z.of_nat k)) ->
    tbl T v' (encode_offset (prefix + Z.of_nat g) (Z.of_nat i) (Z.of_nat k)) -> v = v'.
Variable prefix : Z.
Variable NG : nat.
Hypothesis TF : tbl_fun prefix NG.

Definition KS (g i : nat) (p : anz) : Prop :=
  shape1 I p /\ in_tbl T A (prefix + Z.of_nat g) (Z.of_nat i) 0 (nhs p).
Lemma big_n : 32 <= nmod.
Proof. pose proof (io_red_vn _ _ IO). assert (LIMB = 2 ^ 108) by reflexivity. lia. Qed.

Lemma sel_cache_ok g i p c : gz p c -> ST (assign_cache_point_non_zero I p (prefix + Z.of_nat g) (Z.of_nat i)) (fun _ => KS g i p).
Proof.
  intros (x & y & [[Wx _] [Wy _]] & _). apply assign_cache_nz_ST; [apply Wx|apply Wy].
Qed.
Lemma sel_pick_ok g cs init ps bits ds : (g < NG)%nat -> (length ps <= 5)%nat ->
  Forall2 gz cs (table init ps) -> kall KS g cs -> length ps = length ds -> Forall2 (br A) bits ds ->
  ST (r <- pick_candidate_non_zero cs bits ;; assign_selected_point_non_zero I (snd r) (fst r) (Z.of_nat g + prefix))
     (fun r => gz r (cadd init (ssum ps ds))).
Proof.
  intros Hg H5 Ht Hk Hl Hb.
  assert (P5 : (2 ^ length ds <= 32)%nat) by (rewrite <- Hl; change 32%nat with (2 ^ 5)%nat; apply Nat.pow_le_mono_r; lia).
  pose proof big_n as BN.
  eapply ST_bind; [apply (pick_index_ST T A cs bits ds A_range Hb); lia|app|intros; app|]. intros q Hq.
  eapply ST_weaken; [apply assign_selected_nz_ST|]. intros r (Sr & Tr). cbv beta in Hq. rewrite Hq in Tr.
  pose proof (index_bound ds) as IB.
  assert (Hn : nth_error (table init ps) (index_of ds) = Some (cand w cv_b w_prime init ps (index_of ds))) by (apply table_nth; rewrite Hl; exact IB).
  destruct (F2_nth_r _ _ _ _ _ Ht Hn) as (p & Hp & Gp). destruct (Hk _ _ Hp) as [Sp Tp].
  rewrite Z.add_comm in Tr. destruct Gp as (x & y & Gn & E). exists x, y. split.
  - apply (gn_same I A w p r x y Sp Sr); [|exact Gn].
    apply (in_tbl_same T A (prefix + Z.of_nat g) (Z.of_nat (index_of ds)) 0); [| |exact Tp|exact Tr].
    + unfold nhs. rewrite !app_length. destruct Sp as (_ & _ & P1 & P2), Sr as (_ & _ & R1 & R2). rewrite !(ihs_len I) by auto. reflexivity.
    + intros k v v' Hk'. apply TF; [exact Hg|lia|].
      unfold nhs in Hk'. rewrite app_length in Hk'. destruct Sp as (_ & _ & P1 & P2). rewrite !(ihs_len I) in Hk' by auto. lia.
  - rewrite <- E. unfold cand. rewrite (sub_index w cv_b w_prime) by auto. reflexivity.
Qed.

Variable Sc : Type.
Variable dec_ : Sc -> M (list (list acond)).
Variable bis_ : acond -> Sc -> Sc -> M Sc.
Variable zero_ : M Sc.
Variable sc_is : Sc -> Z -> Prop.
Variable r : Z.
Variable nw : nat.
Hypothesis nw1 : (1 <= nw)%nat.
Hypothesis dec_app : forall s, appends (dec_ s).
Hypothesis bis_app : forall c s t, appends (bis_ c s t).
Hypothesis zero_app : appends zero_.
Hypothesis dec_ok : forall s v, sc_is s v -> ST (dec_ s) (fun ws => exists ds, wdig A nw ws ds /\ be ds ≡ v ⟨r⟩).
Hypothesis bis_ok : forall c k s t u v, br A c k -> sc_is s u -> sc_is t v -> ST (bis_ c s t) (fun x => sc_is x (if k then u else v)).
Hypothesis zero_ok : ST zero_ (fun x => sc_is x 0).
Hypothesis HNG : MSM_PREFIX_OFFSET <= Z.of_nat NG.

Lemma uapp_sel_batch ps sl ra rl : uapp (msm_batch_on_group_non_zero_with_select_chip I cv_b dec_ prefix ps sl ra rl).
Proof.
  unfold msm_batch_on_group_non_zero_with_select_chip. apply uapp_bind; [app|intros _]. apply uapp_bind; [app|intros _].
  apply uapp_msm_batch; [auto|intros; app|intros; app].
Qed.
Lemma sel_batch_US pts ps scs sv ra rl : Forall2 gz pts ps -> Forall2 sc_is scs sv -> length ps = length sv ->
  US (msm_batch_on_group_non_zero_with_select_chip I cv_b dec_ prefix pts scs ra rl) (batch_ok w I w_prime cv_b A r ps sv).
Proof.
  intros F1 F2 HL. unfold msm_batch_on_group_non_zero_with_select_chip. apply US_assert_k. intros B1. apply Z.leb_le in B1.
  apply US_assert_k. intros _.
  eapply (msm_batch_US w I IO n_prime w_prime cv_b b_range w3 T A A_range KS) with (NG := NG) (BS := 5%nat); try eassumption.
  - intros; app.
  - intros; app.
  - intros g i p c. apply sel_cache_ok.
  - intros g cs init ps0 bits ds. apply sel_pick_ok.
  - rewrite <- (F2_len F1). lia.
  - auto.
Qed.
Lemma msm_some_ST gen ra rl points cs scalars ss :
  Forall2 (gq w I cv_b A) points cs -> Forall2 sc_is scalars ss ->
  ST (msm I cv_b dec_ bis_ zero_ gen ra rl (Some prefix) points scalars) (fun x => msm_ok w I w_prime cv_b A r cs ss (fst x)).
Proof.
  intros HP HS c x c' W E S. unfold msm, msm_unsafe in E.
  assert (H : exists c1, (nzp <- assign_non_zero_point I cv_b gen ;;
      s_zero <- zero_ ;;
      ps <- mapM (fun ps =>
          s <- bis_ (p_z (fst ps)) s_zero (snd ps) ;;
          p <- ecc_bisec_to_non_zero_point I (fst ps) nzp ;;
          mret (p, s)) (combine points scalars) ;;
      msm_batch_on_group_non_zero_with_select_chip I cv_b dec_ prefix (map fst ps) (map snd ps) ra rl) c = Ok (UOk (fst x), c1) /\ c1 = c').
  { apply mbind_inv in E as (q & c1 & E & E2). apply mbind_inv in E as (n & c2 & E3 & E). apply mbind_inv in E as (z & c3 & E4 & E).
    apply mbind_inv in E as (l & c4 & E5 & E). apply mbind_inv in E as (q0 & c5 & E6 & E).
    injection E as <- <-. destruct q0 as [q0|e]; [|discriminate]. cbn in E2. injection E2 as <- <-.
    exists c5. split; [|reflexivity]. unfold mbind at 1. rewrite E3. unfold mbind at 1. rewrite E4. unfold mbind at 1. rewrite E5. exact E6. }
  destruct H as (c1 & H & ->).
  eapply (msm_from_batch w I IO n_prime w_prime cv_b b_range T A A_range Sc bis_ zero_ sc_is r bis_app zero_app bis_ok zero_ok
     (fun p s => msm_batch_on_group_non_zero_with_select_chip I cv_b dec_ prefix p s ra rl) gen points cs scalars ss); [| |exact HP|exact HS|exact W|exact H|exact S].
  - intros ps sl. apply uapp_sel_batch.
  - intros pts ps scs sv. apply sel_batch_US.
Qed.
Lemma msm_some_appends gen ra rl points scalars :
  appends (msm I cv_b dec_ bis_ zero_ gen ra rl (Some prefix) points scalars).
Proof.
  intros c x c' W E. unfold msm, msm_unsafe in E.
  apply mbind_inv in E as (q & c1 & E & E2). apply mbind_inv in E as (n & c2 & E3 & E). apply mbind_inv in E as (z & c3 & E4 & E).
  apply mbind_inv in E as (l & c4 & E5 & E). apply mbind_inv in E as (q0 & c5 & E6 & E).
  injection E as <- <-. destruct q0 as [q0|e]; [|discriminate]. cbn in E2. injection E2 as <- <-.
  assert (AP : forall z n l, appends (mapM (fun ps : apoint * Sc => s0 <- bis_ (p_z (fst ps)) z (snd ps) ;; p <- ecc_bisec_to_non_zero_point I (fst ps) n ;; mret (p, s0)) l)).
  { intros z0 n0 l0. apply appends_mapM. intros e. apply appends_bind; [auto|intros; app]. }
  assert (A3 : appends (assign_non_zero_point I cv_b gen)) by app.
  destruct (A3 _ _ _ W E3) as [W2 X2]. destruct (zero_app _ _ _ W2 E4) as [W3 X3]. destruct (AP _ _ _ _ _ _ W3 E5) as [W4 X4].
  destruct (uapp_sel_batch _ _ _ _ _ _ _ W4 E6) as [W5 X5]. split; [exact W5|]. eauto using extends_trans.
Qed.
End Msm.
