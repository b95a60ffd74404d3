(** From halo2's acceptance to the group of the curve and back (C62). *)
From Verif Require Import Prelude FieldZ Circuit Context Spec Logic ModArith Prims BaseChip BaseProofs
  RangeInfo RangeChip IntegerChip SpecInt InfoProofs IntArith RangeProofs IntInv IntSound IntComplete IntBridge
  IntRes EccChip SpecEcc Curve EccArith EccProofs EccHonest EccBridge EccEncode IntProgProofs
  Moduli Fields NativeMain IntMain EccMain SpecPointProg PointProg PointProgMain
  Synth SpecHeights SpecRecorder Progs ProgsMore SynthMain Halo2 Configure ConfigProofs ConfigMain
  SpecHandles Handles HandGadgets HandMore HandMain SpecShape Shape ShapeMain EndToEnd SpecEnd.

Local Opaque range_table.
(** The key does not depend on the run it was made from. *)
Lemma one_key {NM : NMod} g s c d F w F' w' : same_shape c d -> synthesise g s c = Ok (F, w) -> synthesise g s d = Ok (F', w') -> same_key F F'.
Proof.
  intros S. unfold synthesise. destruct (assign_all c) as [r|] eqn:E1; [|discriminate]. destruct (assign_all d) as [r'|] eqn:E2; [|discriminate].
  cbn [res_bind]. destruct (forallb _ (r_copies r)); [|discriminate]. destruct (forallb _ (r_copies r')); [|discriminate].
  intros H H'. injection H as <- _. injection H' as <- _.
  unfold assign_all in E1, E2. match type of E1 with (if ?b then _ else _) = _ => destruct b; [|discriminate] end.
  match type of E2 with (if ?b then _ else _) = _ => destruct b; [|discriminate] end. injection E1 as <-. injection E2 as <-.
  split; cbn [f_fix f_copies r_copies r_fix].
  - intros col row. destruct (_ =? _)%nat; [reflexivity|]. destruct (_ =? _)%nat; [reflexivity|].
    unfold placed. destruct (find _ _) as [[ch k]|]; [|reflexivity]. cbn [c_row c_chip].
    rewrite (sh_fix _ _ S). unfold fix_limit. destruct ch; rewrite ?(sh_base_h _ _ S), ?(sh_range_h _ _ S), ?(sh_select_h _ _ S); reflexivity.
  - rewrite (sh_perms _ _ S). reflexivity.
Qed.
Lemma same_key_sat {NM : NMod} n u F F' adv s : same_key F F' -> cs_sat n u F adv s -> cs_sat n u F' adv s.
Proof.
  intros [K1 K2] H. assert (EV : forall row e, eval n F' adv row e = eval n F adv row e).
  { intros row e. induction e; cbn [eval]; rewrite ?IHe1, ?IHe2; auto. }
  destruct H as [H1 H2 H3 H4]. constructor.
  - exact H1.
  - intros e He row Hr. rewrite EV. auto.
  - intros l Hl row Hr. destruct (H3 l Hl row Hr) as (row' & Hr' & K). exists row'. split; [exact Hr'|]. intros i t Hi. rewrite !EV. auto.
  - rewrite <- K2. exact H4.
Qed.

(** Representations read only the handles. *)
Definition ahandles (a : apoint) : list av := i_limbs (p_x a) ++ [i_native (p_x a)] ++ i_limbs (p_y a) ++ [i_native (p_y a)] ++ [p_z a].
Lemma ahandles_live c a y : all_live c a -> In y (ahandles a) -> live c (a_cell y).
Proof.
  unfold all_live. rewrite Forall_forall. intros H Hy. apply H. unfold ahandles in Hy. unfold cells_of, hs_point, cells_of, hs_aint, hs_av, cells_of, hs_list.
  assert (Q : forall l : list av, In y l -> In (a_cell y) (concat (map cells_of l))).
  { intros l Hl. apply in_concat. exists (cells_of y). split; [apply in_map; exact Hl|left; reflexivity]. }
  rewrite !in_app_iff in *. destruct Hy as [Hy|[Hy|[Hy|[Hy|Hy]]]].
  - left. left. apply Q, Hy.
  - left. right. destruct Hy as [->|[]]. left. reflexivity.
  - right. left. left. apply Q, Hy.
  - right. left. right. destruct Hy as [->|[]]. left. reflexivity.
  - right. right. destruct Hy as [->|[]]. left. reflexivity.
Qed.
Lemma ahandles_valid {NM : NMod} w c a y : point_ok w c a valid -> In y (ahandles a) -> valid c y.
Proof.
  intros ([X1 X2 _ _ _] & [Y1 Y2 _ _ _] & Z1). unfold ahandles. rewrite !in_app_iff. rewrite Forall_forall in X1, Y1. cbn.
  intros [H|[[<-|[]]|[H|[[<-|[]]|[<-|[]]]]]]; auto.
Qed.
Lemma all_live_in {X} `{Handles X} c l (x : X) : all_live c l -> In x l -> all_live c x.
Proof.
  unfold all_live. rewrite !Forall_forall. intros K Hx y Hy. apply K. unfold cells_of at 1, hs_list. apply in_concat. exists (cells_of x).
  split; [apply in_map; exact Hx|exact Hy].
Qed.
Section Ext.
Context {NM : NMod}.
Variable w : Z.
Variable f f' : av -> Z.
Lemma limbs_value_ext l : (forall a, In a l -> f a = f' a) -> limbs_value f l = limbs_value f' l.
Proof. induction l as [|a l IH]; intros H; cbn [limbs_value]; [reflexivity|]. rewrite (H a (or_introl eq_refl)), IH; [reflexivity|]. intros y Hy. apply H. right. exact Hy. Qed.
Lemma removelast_in {X} (a : X) l : In a (removelast l) -> In a l.
Proof. induction l as [|x l IH]; cbn; [auto|]. destruct l; [intros []|]. intros [->|H]; auto. Qed.
Lemma int_wf_ext x : (forall a, In a (i_limbs x) -> f a = f' a) -> f (i_native x) = f' (i_native x) -> int_wf w f x -> int_wf w f' x.
Proof.
  intros HL HN [H1 H2 H3 H4 H5 H6]. assert (EV : int_value f x = int_value f' x) by (apply limbs_value_ext; exact HL). constructor; auto.
  - rewrite Forall_forall in *. intros a Ha. rewrite <- HL by (apply removelast_in, Ha). auto.
  - intros a Ha. rewrite <- HL by (eapply nth_error_In; eauto). auto.
  - rewrite <- EV. auto.
  - rewrite <- EV, <- HN. auto.
Qed.
Lemma point_is_ext a p : (forall y, In y (ahandles a) -> f y = f' y) -> point_is w f a p -> point_is w f' a p.
Proof.
  intros H. unfold ahandles in H.
  assert (X1 : forall y, In y (i_limbs (p_x a)) -> f y = f' y) by (intros; apply H; rewrite !in_app_iff; tauto).
  assert (X2 : f (i_native (p_x a)) = f' (i_native (p_x a))) by (apply H; rewrite !in_app_iff; cbn; tauto).
  assert (Y1 : forall y, In y (i_limbs (p_y a)) -> f y = f' y) by (intros; apply H; rewrite !in_app_iff; tauto).
  assert (Y2 : f (i_native (p_y a)) = f' (i_native (p_y a))) by (apply H; rewrite !in_app_iff; cbn; tauto).
  assert (Z1 : f (p_z a) = f' (p_z a)) by (apply H; rewrite !in_app_iff; cbn; tauto).
  destruct p as [|x y]; cbn [point_is].
  - intros (A & B & C). rewrite <- Z1. split; [exact A|]. split; apply int_wf_ext; auto.
  - intros (A & (B1 & B2) & (C1 & C2)). rewrite <- Z1. split; [exact A|]. unfold int_is, int_value in *.
    rewrite <- !limbs_value_ext by assumption. split; (split; [apply int_wf_ext; assumption|assumption]).
Qed.
Lemma points_ext l ps : (forall a y, In a l -> In y (ahandles a) -> f y = f' y) -> Forall2 (point_is w f) l ps -> Forall2 (point_is w f') l ps.
Proof.
  intros H K. induction K as [|a p l ps K _ IH]; constructor.
  - apply point_is_ext; [|exact K]. intros y. apply H. left. reflexivity.
  - apply IH. intros a' y Ha. apply H. right. exact Ha.
Qed.
End Ext.

Section Circ.
Context {NM : NMod}.
Variable I : rinfo.
Variable b ord : Z.
Lemma pg_with_curvature k a : gadget (with_curvature I k a).
Proof. unfold with_curvature. destruct k; pga. Qed.
Hint Resolve pg_with_curvature : pga.
Lemma pg_run_pop bs rs op : gadget (run_pop I ord bs rs op).
Proof. destruct op as [k []]; unfold run_pop; cbn [fst snd]; pga. Qed.
Hint Resolve pg_run_pop : pga.
Lemma pg_circuit zs inputs prog : gadget (point_circuit I b ord zs inputs prog).
Proof. unfold point_circuit, input_point, run_pops. pga. Qed.

Lemma ho_with_curvature {Wd : World} (P : Prop) k a : (P -> ok a) -> J P (with_curvature I k a).
Proof. intros H. unfold with_curvature. hoa. Qed.
Hint Extern 0 (J _ (with_curvature _ _ _)) => (apply ho_with_curvature; hrel) : hodb.
Lemma ho_run_pop {Wd : World} (P : Prop) (bs : list av) (rs : list apoint) op : (P -> ok bs) -> (P -> ok rs) -> J P (run_pop I ord bs rs op).
Proof. intros H1 H2. destruct op as [k []]; unfold run_pop; cbn [fst snd]; hoa. Qed.
Hint Extern 0 (J _ (run_pop _ _ _ _ _)) => (apply ho_run_pop; hrel) : hodb.
Lemma ho_run_pops {Wd : World} (P : Prop) (bs : list av) prog : forall (rs : list apoint), (P -> ok bs) -> (P -> ok rs) -> J P (run_pops I ord bs rs prog).
Proof.
  unfold run_pops. revert P. induction prog as [|op l IH]; intros P rs H1 H2; cbn [foldM]; [hoa|]. jb; [apply ho_run_pop; assumption|]. intros. apply IH; hrel.
Qed.
Hint Extern 0 (J _ (run_pops _ _ _ _ _)) => (apply ho_run_pops; hrel) : hodb.
Lemma circuit_disciplined zs inputs prog : disciplined tt (point_circuit I b ord zs inputs prog).
Proof. apply J_disciplined. intros Wd. unfold point_circuit, input_point. hoa. Qed.

Lemma sr_with_curvature k a a' : spt a a' -> SR sptc (with_curvature I k a) (with_curvature I k a').
Proof. intros H. unfold with_curvature. destruct k; sr_known. Qed.
Hint Extern 0 (SR _ (with_curvature _ _ _) (with_curvature _ _ _)) => (eapply sr_with_curvature; rel) : srdb.
Lemma Forall2_snoc' {X Y} (R : X -> Y -> Prop) l l' x y : Forall2 R l l' -> R x y -> Forall2 R (l ++ [x]) (l' ++ [y]).
Proof. intros H K. apply Forall2_app; [exact H|constructor; [exact K|constructor]]. Qed.
Lemma sr_run_pop bs bs' rs rs' op : Forall2 sav bs bs' -> Forall2 spt rs rs' -> SR (Forall2 spt) (run_pop I ord bs rs op) (run_pop I ord bs' rs' op).
Proof.
  intros H1 H2. destruct op as [k []]; unfold run_pop; cbn [fst snd]; sra.
Qed.
Hint Extern 0 (SR _ (run_pop _ _ _ _ _) (run_pop _ _ _ _ _)) => (eapply sr_run_pop; rel) : srdb.
Lemma sr_circuit zs inputs inputs' prog : length inputs = length inputs' ->
  SR (both (Forall2 spt) (Forall2 spt)) (point_circuit I b ord zs inputs prog) (point_circuit I b ord zs inputs' prog).
Proof.
  intros L. unfold point_circuit. eapply SR_bind; [eapply (SR_mapM_eq sav); intros; sr_known|]. intros bs bs' HB.
  eapply SR_bind; [apply (SR_mapM (fun _ _ => True) spt)|].
  - clear -L. revert inputs' L. induction inputs; intros [|] L; try discriminate; constructor; auto.
  - intros x y _. unfold input_point. sra.
  - intros xs xs' HX. apply (SR_bind (Forall2 spt)); [|intros rs rs' HR; apply SR_ret; split; assumption].
    unfold run_pops. eapply (SR_foldM_eq (Forall2 spt)); [exact HX|]. intros. apply sr_run_pop; assumption.
Qed.
End Circ.

Section Main.
Context {NM : NMod}.
Variable w : Z.
Variable I : rinfo.
Hypothesis IO : info_ok w I.
Hypothesis n_prime : prime nmod.
Hypothesis w_prime : prime w.
Variable b : Z.
Hypothesis b_range : 0 <= b < w.
Variable ord : Z.
Notation OC := (on_curve w b).

Lemma appends_input p : appends (input_point I b p).
Proof. unfold input_point. app. Qed.
Lemma appends_run_pops bs rs prog : appends (run_pops I ord bs rs prog).
Proof. unfold run_pops. apply appends_foldM. intros. apply appends_run_pop. Qed.
Lemma appends_inputs l : appends (mapM (input_point I b) l).
Proof. apply appends_mapM. apply appends_input. Qed.
Hint Resolve appends_run_pops appends_inputs : app.
Lemma circuit_ST T A zs inputs prog : (forall x, 0 <= A x < nmod) -> Forall (fun op => pop_ok w b (snd op)) prog ->
  ST T A (point_circuit I b ord zs inputs prog) (fun r => exists ins ps', let ps := map (fun p => pt_of (Some p)) ins in Forall2 (sp w I b A) (fst r) ps /\ psteps w zs (map snd prog) ps ps' /\ Forall2 (sp w I b A) (snd r) ps').
Proof.
  intros HA HO. unfold point_circuit.
  eapply ST_bind; [apply (ST_mapM T A _ zs (fun z r => br A r z)); [intros; app|intros z _; apply (assign_constant_R n_prime T A HA)]|app|intros; app|].
  intros bs HB. eapply ST_bind; [apply (ST_mapM T A _ inputs (fun _ r => exists p, sp w I b A r (pt_of (Some p)))); [apply appends_input|]|app|intros; app|].
  { intros p _. unfold input_point. eapply ST_bind; [apply (assign_nz_R w I IO n_prime w_prime b b_range T A HA)|app|intros; app|].
    intros a (x & y & Ha & C). eapply ST_weaken; [eapply (downgrade_R w I); eauto|]. intros r Hr. exists (x, y). split; [|exact C].
    exists x, y, false. split; [exact Hr|]. unfold dec. destruct C as (R1 & R2 & _). rewrite !Z.mod_small by auto. reflexivity. }
  intros xs HX. assert (EX : exists ins, Forall2 (sp w I b A) xs (map (fun p => pt_of (Some p)) ins)).
  { clear -HX. induction HX as [|? ? ? ? (p & K) _ (ps & IH)]; [exists []; constructor|exists (p :: ps); constructor; auto]. }
  destruct EX as (ins & EX). set (ps := map _ ins) in EX. eapply ST_bind; [apply (run_pops_ST w I IO n_prime w_prime b b_range ord T A HA bs zs xs ps prog HO); [|exact EX]|app|intros; app|].
  { clear -HB. induction HB; constructor; auto. }
  intros rs (ps' & H1 & H2). apply ST_ret. exists ins, ps'. auto.
Qed.

Lemma sp_is A l ps : Forall2 (sp w I b A) l ps -> Forall2 (point_is w (SpecInt.at_ A)) l ps /\ Forall OC ps.
Proof.
  induction 1 as [|a p l l' ((x & y & z & Ha & Ea) & C) _ [IH1 IH2]]; [split; constructor|].
  split; constructor; auto. subst p. apply (gp_to _ _ IO). exact Ha.
Qed.
Lemma hpp_is c l ps : Forall2 (hpp w I b c) l ps -> Forall (fun a => point_ok w c a valid) l /\ Forall2 (point_is w a_val) l ps.
Proof.
  induction 1 as [|a p l l' ((x & y & z & Ha & Ea) & C) _ [IH1 IH2]]; [split; constructor|].
  destruct (hp_to _ _ IO _ _ _ _ _ Ha) as [O V]. split; constructor; auto. subst p. exact V.
Qed.

Section Complete.
Hypothesis HD : ri_d_bits I mod 108 <> 0.
Hypothesis OD : negb (Z.odd ((- 1) mod ord)) = true.
Lemma circuit_CT c zs inputs prog ps' : wf c -> Forall (fun op => pop_ok w b (snd op)) prog ->
  let ps := map (fun p => pt_of (Some p)) inputs in Forall OC ps -> psteps w zs (map snd prog) ps ps' ->
  CT c (point_circuit I b ord zs inputs prog) (fun r c' => Forall2 (hpp w I b c') (fst r) ps /\ Forall2 (hpp w I b c') (snd r) ps').
Proof.
  intros W HO ps HC HS. unfold point_circuit.
  eapply CT_bind; [apply (CT_mapM c _ zs (fun z r c' => cb c' r z)); [exact W|intros; eapply cb_mono; eauto|]|].
  { intros z c' _ W' _. apply (assign_constant_C n_prime). exact W'. }
  intros bs c1 W1 E1 HB. cbv beta in HB.
  eapply CT_bind; [apply (CT_mapM c1 _ inputs (fun p r c' => hpp w I b c' r (pt_of (Some p)))); [exact W1|intros; eapply hpp_mono; eauto|]|].
  { intros [x y] c' Hin W' _. assert (C : OC (Aff x y)).
    { rewrite Forall_forall in HC. apply HC. unfold ps. apply in_map_iff. exists (x, y). auto. }
    unfold input_point. eapply CT_bind; [eapply (assign_nz_C w I IO); eauto|]. intros a c2 W2 E2 Ha. cbv beta in Ha.
    eapply CT_weaken; [eapply (downgrade_C w I n_prime); eauto|]. intros r c3 _ _ Hr. split; [|exact C].
    exists x, y, false. split; [exact Hr|]. unfold dec. destruct C as (R1 & R2 & _). rewrite !Z.mod_small by auto. reflexivity. }
  intros xs c2 W2 E2 HX. cbv beta in HX.
  assert (HX' : Forall2 (hpp w I b c2) xs ps).
  { unfold ps. clear -HX. induction HX; constructor; auto. }
  eapply CT_bind; [apply (run_pops_CT w I IO n_prime w_prime b ord HD OD prog c2 bs zs xs ps ps' W2 HO); [|exact HX'|exact HS]|].
  { assert (HB' : Forall2 (cb c1) bs zs) by (clear -HB; induction HB; constructor; auto). eapply Forall2_impl; [|exact HB'].
    intros a z. apply cb_mono. exact E2. }
  intros rs c3 W3 E3 HR. cbv beta in HR. apply CT_ret; [exact W3|]. cbn [fst snd]. split; [eapply hpps_mono; eauto|exact HR].
Qed.
End Complete.
End Main.

(** Handles on the same cells read the same. *)
Lemma saint_sym x y : saint x y -> saint y x.
Proof. intros [S1 S2 S3]. constructor; [|symmetry; exact S2|symmetry; exact S3]. induction S1; constructor; auto. symmetry. assumption. Qed.
Section Same.
Context {NM : NMod}.
Variable w : Z.
Variable f : av -> Z.
Hypothesis f_cell : forall a a', a_cell a = a_cell a' -> f a = f a'.
Lemma limbs_value_same l l' : Forall2 sav l l' -> limbs_value f l = limbs_value f l'.
Proof. induction 1 as [|a a' l l' H _ IH]; cbn [limbs_value]; [reflexivity|]. rewrite IH, (f_cell _ _ H). reflexivity. Qed.
Lemma Forall2_removelast {X Y} (R : X -> Y -> Prop) l l' : Forall2 R l l' -> Forall2 R (removelast l) (removelast l').
Proof. induction 1 as [|x y l l' H K IH]; cbn; [constructor|]. destruct K; [constructor|]. constructor; [exact H|exact IH]. Qed.
Lemma Forall_same (P : Z -> Prop) l l' : Forall2 sav l l' -> Forall (fun a => P (f a)) l -> Forall (fun a => P (f a)) l'.
Proof. induction 1 as [|a a' l l' H _ IH]; intros F; inversion F; subst; constructor; auto. rewrite <- (f_cell _ _ H). assumption. Qed.
Lemma int_wf_same x y : saint x y -> int_wf w f x -> int_wf w f y.
Proof.
  intros [S1 S2 S3] [H1 H2 H3 H4 H5 H6]. pose proof (limbs_value_same _ _ S1) as EV.
  assert (L : length (i_limbs x) = length (i_limbs y)) by (clear -S1; induction S1; cbn; congruence).
  constructor; unfold int_value in *.
  - rewrite <- L. exact H1.
  - rewrite <- S3. exact H2.
  - rewrite <- S3. exact (Forall_same (fun v => 0 <= v < i_times x * 2 ^ 108) _ _ (Forall2_removelast _ _ _ S1) H3).
  - rewrite <- S3, <- L. intros a Ha. destruct (nth_error (i_limbs x) (length (i_limbs x) - 1)) as [a'|] eqn:N.
    + assert (K : sav a' a).
      { clear -S1 Ha N. revert Ha N. generalize (length (i_limbs x) - 1)%nat as k. revert a a'.
        induction S1; intros a0 a' [|k] E1 E2; cbn in *; try discriminate; eauto. congruence. }
      rewrite <- (f_cell _ _ K). apply H4. reflexivity.
    + exfalso. apply nth_error_None in N. assert (nth_error (i_limbs y) (length (i_limbs x) - 1) <> None) as Q by congruence.
      apply nth_error_Some in Q. lia.
  - rewrite <- EV, <- S3. exact H5.
  - rewrite <- EV, <- (f_cell _ _ S2). exact H6.
Qed.
Lemma point_is_same a a' p : spt a a' -> point_is w f a p -> point_is w f a' p.
Proof.
  intros [S1 S2 S3]. rewrite <- ?(f_cell _ _ S3). destruct p as [|x y]; cbn [point_is]; rewrite <- (f_cell _ _ S3).
  - intros (A & B & C). split; [exact A|]. split; eapply int_wf_same; eauto.
  - intros (A & (B1 & B2) & (C1 & C2)). split; [exact A|]. unfold int_is, int_value in *.
    rewrite <- (limbs_value_same _ _ (sa_limbs _ _ S1)), <- (limbs_value_same _ _ (sa_limbs _ _ S2)).
    split; (split; [eapply int_wf_same; eauto|assumption]).
Qed.
Lemma points_same l l' ps : Forall2 spt l l' -> Forall2 (point_is w f) l ps -> Forall2 (point_is w f) l' ps.
Proof.
  intros H. revert ps. induction H; intros ps K; inversion K; subst; constructor; auto. eapply point_is_same; eauto.
Qed.
End Same.

Lemma copyable_column x : copyable x -> In (c_chip x, c_col x) adv_columns.
Proof.
  destruct x as [[| |] col row]; unfold copyable, adv_columns; cbn [c_chip c_col]; intros H.
  - do 5 (destruct col as [|col]; [cbn; tauto|]). lia.
  - subst col. cbn. tauto.
  - destruct H; subst col; cbn; tauto.
Qed.

(** Reading live, valid handles from the table that synthesis fills in gives their witness. *)
Lemma read_honest {NM : NMod} c F wt u adv a : covered c -> (let chunks := (base_h c + 15) / 16 in range_h c <= chunks * 16 * chunks)%nat ->
  synthesise cfg css c = Ok (F, wt) -> fits c u -> (forall col row, (row < u)%nat -> adv col row = wt col row) ->
  live c (a_cell a) -> get_adv (c_mem c) (a_cell a) = Some (a_val a) -> read cfg adv a = a_val a.
Proof.
  intros C K E U AW [L1 L2] G. pose proof (synthesise_inv _ _ _ E) as T. unfold read.
  pose proof (adv_lim c C K _ L1) as AL. pose proof (C _ (or_introl L1)) as H.
  rewrite AW.
  - rewrite (to_adv _ _ _ T) by (apply copyable_column; exact L2). rewrite (proj2 (Nat.ltb_lt _ _) AL).
    destruct (a_cell a) as [ch col row]. cbn [c_chip c_col c_row] in *. rewrite G. reflexivity.
  - unfold fits in U. destruct (c_chip (a_cell a)); cbn [height] in H; lia.
Qed.

Lemma witness_field {NM : NMod} g s c F wt : 1 < nmod -> advs_ok c -> synthesise g s c = Ok (F, wt) -> forall col row, 0 <= wt col row < nmod.
Proof.
  intros N W. unfold synthesise. destruct (assign_all c) as [r|] eqn:E1; [|discriminate]. cbn [res_bind]. destruct (forallb _ (r_copies r)); [|discriminate].
  intros H. injection H as _ <-. intros col row.
  unfold assign_all in E1. match type of E1 with (if ?b then _ else _) = _ => destruct b; [|discriminate] end. injection E1 as <-. cbn [r_adv].
  unfold placed. destruct (find _ _) as [[ch k]|]; [|lia]. cbn [c_row c_chip]. destruct (_ <? _)%nat; [|cbn; lia].
  destruct (get_adv (c_mem c) _) as [v|] eqn:G; cbn [opt0]; [|lia]. apply (W _ _ G).
Qed.

Lemma C62_one_key_main : forall (NM : NMod) g s c d F w F' w', same_shape c d ->
  synthesise g s c = Ok (F, w) -> synthesise g s d = Ok (F', w') -> same_key F F'.
Proof. intros NM g s c d F w F' w'. apply one_key. Qed.

Lemma C62_end_to_end_sound_main :
  forall (NM : NMod) w I b ord, prime nmod -> 2 ^ 18 < nmod -> prime w -> range_info_new w = Ok I -> 0 <= b < w ->
  forall zs inputs prog xs rs c F wt u n adv, Forall (fun op => pop_ok w b (snd op)) prog ->
    point_circuit I b ord zs inputs prog ctx_new = Ok ((xs, rs), c) ->
    let '(g, s) := configure cs_new in
    synthesise g s c = Ok (F, wt) ->
    (base_h c + 2 <= u)%nat -> (range_h c + 2 <= u)%nat -> (select_h c + 2 <= u)%nat -> 2 ^ 19 - 1 <= Z.of_nat u -> (u <= n)%nat ->
    cs_sat n u F adv s ->
    exists points results,
         Forall2 (point_is w (read g adv)) xs (map (fun p => pt_of (Some p)) points)
      /\ Forall (fun p => on_curve w b (pt_of (Some p))) points
      /\ psteps w zs (map snd prog) (map (fun p => pt_of (Some p)) points) results
      /\ Forall2 (point_is w (read g adv)) rs results.
Proof.
  intros NM w I b ord P N18 PW H Hb zs inputs prog xs rs c F wt u n adv HO E. info H.
  pose proof (p_gadget _ (pg_circuit I b ord zs inputs prog)) as PR.
  pose proof (C54_halo2_sound_main NM _ _ _ c F wt u n adv N18 PR E) as S. rewrite configured in *.
  intros HS U1 U2 U3 U4 Un SAT. destruct (S HS U1 U2 U3 U4 Un SAT) as (A & _ & RD & SD).
  destruct (circuit_disciplined I b ord zs inputs prog ctx_new _ _ ltac:(constructor) copies_new E) as (_ & _ & LV).
  apply all_live_pair in LV as [LX LR]. assert (C : covered c) by (eapply program_covered; eauto using covered_new).
  destruct (SD (fun A r => exists ins ps', Forall2 (point_is w (SpecInt.at_ A)) (fst r) (map (fun p => pt_of (Some p)) ins)
      /\ Forall (on_curve w b) (map (fun p => pt_of (Some p)) ins) /\ psteps w zs (map snd prog) (map (fun p => pt_of (Some p)) ins) ps' /\ Forall2 (point_is w (SpecInt.at_ A)) (snd r) ps'))
    as (ins & ps' & K1 & K2 & K3 & K4).
  { clear -IO P PW Hb HO. tosound. eapply ST_wk; [apply (circuit_ST w I IO P PW b Hb ord T A zs inputs prog HA HO)|].
    intros r (ins & ps' & H1 & H2 & H3). exists ins, ps'. apply (sp_is w I IO) in H1 as [H1 H1']. apply (sp_is w I IO) in H3 as [H3 H3']. auto. }
  assert (EX : forall l, all_live c l -> forall a y, In a l -> In y (ahandles a) -> SpecInt.at_ A y = read cfg adv y).
  { intros l Hl a y Ha Hy. pose proof (ahandles_live _ _ _ (all_live_in _ _ _ Hl Ha) Hy) as [L1 _]. unfold SpecInt.at_, read. apply RD.
    pose proof (C _ (or_introl L1)) as R. destruct (c_chip (a_cell y)); cbn [height] in R; lia. }
  exists ins, ps'. split; [eapply points_ext; [apply EX; exact LX|exact K1]|].
  split; [rewrite Forall_map in K2; exact K2|]. split; [exact K3|]. eapply points_ext; [apply EX; exact LR|exact K4].
Qed.

Lemma C62_end_to_end_complete_main :
  forall (NM : NMod) w I b ord, prime nmod -> 2 ^ 18 < nmod -> prime w -> range_info_new w = Ok I -> 0 <= b < w ->
    (w_bits w + 13) mod 108 <> 0 -> Z.Odd ord -> 1 < ord ->
  forall zs sample prog xs rs c, Forall (fun op => pop_ok w b (snd op)) prog ->
    point_circuit I b ord zs sample prog ctx_new = Ok ((xs, rs), c) ->
    (0 < base_h c)%nat -> (let chunks := (base_h c + 15) / 16 in range_h c <= chunks * 16 * chunks)%nat ->
    let '(g, s) := configure cs_new in
    (exists F wt, synthesise g s c = Ok (F, wt))
 /\ forall F wt, synthesise g s c = Ok (F, wt) ->
    forall points results, length points = length sample -> Forall (fun p => on_curve w b (pt_of (Some p))) points ->
    psteps w zs (map snd prog) (map (fun p => pt_of (Some p)) points) results ->
    exists r c' F' wt', point_circuit I b ord zs points prog ctx_new = Ok (r, c') /\ synthesise g s c' = Ok (F', wt') /\ same_key F F' /\ (forall col row, 0 <= wt' col row < nmod)
      /\ forall u n adv, (base_h c + 2 <= u)%nat -> (range_h c + 2 <= u)%nat -> (select_h c + 2 <= u)%nat -> 2 ^ 19 - 1 <= Z.of_nat u -> (u <= n)%nat ->
        (forall col row, 0 <= adv col row < nmod) -> (forall col row, (row < u)%nat -> adv col row = wt' col row) ->
        cs_sat n u F adv s
        /\ Forall2 (point_is w (read g adv)) xs (map (fun p => pt_of (Some p)) points)
        /\ Forall2 (point_is w (read g adv)) rs results.
Proof.
  intros NM w I b ord P N18 PW H Hb HD0 OD Hord zs sample prog xs rs c HO E B K. info H. assert (HD := HD0); rewrite <- (hd_bits _ _ IO) in HD.
  assert (OD' : negb (Z.odd ((- 1) mod ord)) = true).
  { rewrite (Z_mod_nz_opp_full 1) by (rewrite Z.mod_small by lia; lia). rewrite Z.mod_small by lia.
    destruct OD as [m ->]. replace (2 * m + 1 - 1) with (2 * m) by lia. rewrite Z.odd_mul. reflexivity. }
  pose proof (C54_synthesis_succeeds_main NM _ _ _ _ c (p_gadget _ (pg_circuit I b ord zs sample prog)) (circuit_disciplined I b ord zs sample prog) E B K) as SY.
  rewrite configured in *. split; [exact SY|].
  intros F wt HS points results LEN HC HST.
  destruct (CT_accepts _ _ _ (circuit_CT w I IO P PW b Hb ord HD OD' ctx_new zs points prog results wf_new HO ltac:(rewrite Forall_map; exact HC) HST))
    as ([xs' rs'] & c' & E' & _ & (RX & RR) & G). cbn [fst snd] in RX, RR.
  specialize (G good_new).
  destruct (sr_circuit I b ord zs sample points prog (eq_sym LEN) ctx_new ctx_new _ _ c c' ltac:(constructor; reflexivity) E E') as ([SX SR0] & SH).
  cbn [fst snd] in SX, SR0.
  assert (B' : (0 < base_h c')%nat) by (rewrite <- (sh_base_h _ _ SH); exact B).
  assert (K' : (let chunks := (base_h c' + 15) / 16 in range_h c' <= chunks * 16 * chunks)%nat) by (rewrite <- (sh_base_h _ _ SH), <- (sh_range_h _ _ SH); exact K).
  pose proof (p_gadget _ (pg_circuit I b ord zs points prog)) as PR.
  pose proof (C54_synthesis_succeeds_main NM _ _ _ _ c' PR (circuit_disciplined I b ord zs points prog) E' B' K') as SY'.
  rewrite configured in SY'. destruct SY' as (F' & wt' & HS').
  pose proof (one_key _ _ _ _ _ _ _ _ SH HS HS') as KEY.
  exists (xs', rs'), c', F', wt'. split; [exact E'|]. split; [exact HS'|]. split; [exact KEY|].
  split; [exact (witness_field _ _ _ _ _ (n_pos P) (good_advs _ G) HS')|].
  intros u n adv U1 U2 U3 U4 Un AF AW.
  rewrite (sh_base_h _ _ SH) in U1. rewrite (sh_range_h _ _ SH) in U2. rewrite (sh_select_h _ _ SH) in U3.
  pose proof (C54_halo2_complete_main NM _ _ _ c' F' wt' u n adv N18 PR E') as CM. rewrite configured in CM.
  assert (SAT : cs_sat n u F' adv css).
  { apply CM; auto. apply good_satisfies; [apply (n_pos P)|exact G]. }
  split; [eapply same_key_sat; [|exact SAT]; destruct KEY as [Q1 Q2]; split; [intros; symmetry; apply Q1|symmetry; exact Q2]|].
  destruct (circuit_disciplined I b ord zs points prog ctx_new _ _ ltac:(constructor) copies_new E') as (_ & _ & LV).
  apply all_live_pair in LV as [LX LR]. assert (C : covered c') by (eapply program_covered; eauto using covered_new).
  apply (hpp_is w I IO) in RX as [OX RX]. apply (hpp_is w I IO) in RR as [OR RR].
  assert (EX : forall l, all_live c' l -> Forall (fun a => point_ok w c' a valid) l -> forall a y, In a l -> In y (ahandles a) -> a_val y = read cfg adv y).
  { intros l Hl Ho a y Ha Hy. symmetry. rewrite Forall_forall in Ho. destruct (ahandles_valid _ _ _ _ (Ho a Ha) Hy) as (_ & GV & _).
    eapply read_honest; eauto; [apply fits_of; auto|]. eapply ahandles_live; [eapply all_live_in; eauto|exact Hy]. }
  assert (RC : forall a a', a_cell a = a_cell a' -> read cfg adv a = read cfg adv a') by (intros a a' Q; unfold read; rewrite Q; reflexivity).
  split; [apply (points_same w _ RC xs'); [|exact (points_ext w _ _ _ _ (EX _ LX OX) RX)]|apply (points_same w _ RC rs'); [|exact (points_ext w _ _ _ _ (EX _ LR OR) RR)]].
  - clear -SX. induction SX as [|x y l l' [S1 S2 S3] _ IH]; constructor; auto. constructor; [apply saint_sym, S1|apply saint_sym, S2|symmetry; exact S3].
  - clear -SR0. induction SR0 as [|x y l l' [S1 S2 S3] _ IH]; constructor; auto. constructor; [apply saint_sym, S1|apply saint_sym, S2|symmetry; exact S3].
Qed.
