(** From halo2's acceptance to arithmetic modulo w and back (C65). *)
From Verif Require Import Prelude FieldZ Circuit Context Spec Logic ModArith Prims BaseChip BaseProofs
  RangeInfo RangeChip IntegerChip SpecInt InfoProofs IntArith RangeProofs IntInv IntSound IntComplete IntBridge
  IntRes SpecProg IntProg IntProgProofs Moduli Fields NativeMain IntMain EccChip EccMain
  Synth SpecHeights SpecRecorder Progs ProgsMore SynthMain Halo2 Configure ConfigProofs ConfigMain
  SpecHandles Handles HandGadgets HandMore HandMain SpecShape Shape ShapeMain SpecEnd EndToEnd EndMain RatioMain.

Local Opaque range_table.
Definition ihandles (x : aint) : list av := i_limbs x ++ [i_native x].
Lemma ihandles_live c (x : aint) y : all_live c x -> In y (ihandles x) -> live c (a_cell y).
Proof.
  unfold all_live. rewrite Forall_forall. intros H Hy. apply H. unfold ihandles in Hy. unfold cells_of, hs_aint, cells_of, hs_av, hs_list.
  rewrite !in_app_iff in *. destruct Hy as [Hy|[<-|[]]]; [left|right; left; reflexivity].
  apply in_concat. exists [a_cell y]. split; [exact (in_map (fun a => [a_cell a]) _ _ Hy)|left; reflexivity].
Qed.
Lemma bits_live c (l : list av) y : all_live c l -> In y l -> live c (a_cell y).
Proof. intros H Hy. pose proof (all_live_in _ _ _ H Hy) as K. unfold all_live in K. inversion K; assumption. Qed.

Section Ext.
Context {NM : NMod}.
Variable w : Z.
Variable f f' : av -> Z.
Definition holds (g : av -> Z) (x : aint) (v : Z) : Prop := int_wf w g x /\ int_value g x mod w = v.
Lemma holds_ext x v : (forall y, In y (ihandles x) -> f y = f' y) -> holds f x v -> holds f' x v.
Proof.
  intros H [H1 H2]. assert (L : forall a, In a (i_limbs x) -> f a = f' a) by (intros a Ha; apply H, in_app_iff; auto).
  split; [eapply int_wf_ext; [exact L| |exact H1]; apply H, in_app_iff; right; left; reflexivity|].
  unfold int_value in *. rewrite <- (limbs_value_ext f f' _ L). exact H2.
Qed.
Lemma ints_ext l vs : (forall x y, In x l -> In y (ihandles x) -> f y = f' y) -> Forall2 (holds f) l vs -> Forall2 (holds f') l vs.
Proof.
  intros H K. induction K as [|a p l ps K _ IH]; constructor.
  - apply holds_ext; [|exact K]. intros y. apply H. left. reflexivity.
  - apply IH. intros a' y Ha. apply H. right. exact Ha.
Qed.
Lemma bits_ext (l : list av) (vs : list bool) : (forall y, In y l -> f y = f' y) -> Forall2 (fun x v => f x = Z.b2z v) l vs -> Forall2 (fun x v => f' x = Z.b2z v) l vs.
Proof.
  intros H K. induction K as [|a p l ps K _ IH]; constructor.
  - rewrite <- H by (left; reflexivity). exact K.
  - apply IH. intros y Hy. apply H. right. exact Hy.
Qed.
End Ext.

Lemma C65_integers_sound_main :
  forall (NM : NMod) w I, prime nmod -> 2 ^ 18 < nmod -> prime w -> range_info_new w = Ok I ->
  forall inputs prog xs rs c F wt u n adv, Forall (iop_ok w) prog ->
    run_prog I inputs prog ctx_new = Ok ((xs, rs), c) ->
    let '(g, s) := configure cs_new in
    synthesise g s c = Ok (F, wt) ->
    (base_h c + 2 <= u)%nat -> (range_h c + 2 <= u)%nat -> (select_h c + 2 <= u)%nat -> 2 ^ 19 - 1 <= Z.of_nat u -> (u <= n)%nat ->
    cs_sat n u F adv s ->
    exists ins s', length ins = length inputs /\ Forall2 (fun x v => int_wf w (read g adv) x /\ int_value (read g adv) x mod w = v) xs ins
      /\ isteps w prog (ins, []) s'
      /\ Forall2 (fun x v => int_wf w (read g adv) x /\ int_value (read g adv) x mod w = v) (fst rs) (fst s')
      /\ Forall2 (fun x v => read g adv x = Z.b2z v) (snd rs) (snd s').
Proof.
  intros NM w I P N18 PW H inputs prog xs [ys bs] c F wt u n adv HO E.
  pose proof (p_gadget _ (pg_run_prog I inputs prog)) as PR.
  pose proof (C54_halo2_sound_main NM _ _ _ c F wt u n adv N18 PR E) as S. rewrite configured in *.
  intros HS U1 U2 U3 U4 Un SAT. destruct (S HS U1 U2 U3 U4 Un SAT) as (A & _ & RD & SD).
  destruct (prog_disciplined I inputs prog ctx_new _ _ ltac:(constructor) copies_new E) as (_ & _ & LV).
  apply all_live_pair in LV as [LX LR]. apply all_live_pair in LR as [LY LB]. assert (C : covered c) by (eapply program_covered; eauto using covered_new).
  destruct (SD _ (C24_programs_refine_modular_arithmetic_main NM w I P PW H inputs prog HO)) as (K0 & K1 & s' & K2 & K3 & K4). cbn [fst snd] in *.
  assert (EX : forall y, live c (a_cell y) -> SpecInt.at_ A y = read cfg adv y).
  { intros y [L1 _]. unfold SpecInt.at_, read. apply RD. pose proof (C _ (or_introl L1)) as R. destruct (c_chip (a_cell y)); cbn [height] in R; lia. }
  exists (map (fun x => int_value (SpecInt.at_ A) x mod w) xs), s'. split; [rewrite map_length; exact K0|]. split; [|split; [exact K2|split]].
  - apply (ints_ext w (SpecInt.at_ A)); [intros x y Hx Hy; apply EX; eapply ihandles_live; [eapply all_live_in; [exact LX|exact Hx]|exact Hy]|].
    clear -K1. induction K1; constructor; [split; [assumption|reflexivity]|assumption].
  - apply (ints_ext w (SpecInt.at_ A)); [intros x y Hx Hy; apply EX; eapply ihandles_live; [eapply all_live_in; [exact LY|exact Hx]|exact Hy]|exact K3].
  - apply (bits_ext (SpecInt.at_ A)); [intros y Hy; apply EX; eapply bits_live; [exact LB|exact Hy]|exact K4].
Qed.

Section Shapes.
Context {NM : NMod}.
Variable I : rinfo.
Definition sregs (s s' : iregs) : Prop := Forall2 saint (fst s) (fst s') /\ Forall2 sav (snd s) (snd s').
Lemma sregs_push s s' x x' : sregs s s' -> saint x x' -> sregs (push s x) (push s' x').
Proof. intros [H1 H2] K. split; cbn [push fst snd]; [apply Forall2_snoc'; assumption|exact H2]. Qed.
Lemma sregs_pushb s s' x x' : sregs s s' -> sav x x' -> sregs (pushb s x) (pushb s' x').
Proof. intros [H1 H2] K. split; cbn [pushb fst snd]; [exact H1|apply Forall2_snoc'; assumption]. Qed.
Ltac gt H1 H2 := first [ apply (SR_nth saint); exact H1 | apply (SR_nth sav); exact H2 ].
Lemma sr_run_op s s' op : sregs s s' -> SR sregs (run_op I s op) (run_op I s' op).
Proof.
  intros H. pose proof H as [H1 H2].
  destruct op; unfold run_op; cbv zeta; repeat (eapply SR_bind; [gt H1 H2|intros ? ? ?]);
    (eapply SR_bind; [sr_known|intros r r' HR]); apply SR_ret;
    first [apply sregs_push; assumption | apply sregs_pushb; assumption | assumption | idtac].
  destruct HR as [R1 R2]. apply sregs_pushb; [apply sregs_push; [exact H|exact R2]|exact R1].
Qed.
Lemma sr_run_prog inputs inputs' prog : length inputs = length inputs' ->
  SR (both (Forall2 saint) sregs) (run_prog I inputs prog) (run_prog I inputs' prog).
Proof.
  intros L. unfold run_prog. eapply SR_bind; [apply (SR_mapM (fun _ _ => True) saint)|].
  - clear -L. revert inputs' L. induction inputs; intros [|] L; try discriminate; constructor; auto.
  - intros x y _. apply sr_assign_w.
  - intros xs xs' HX. apply (SR_bind sregs); [|intros rs rs' HR; apply SR_ret; split; assumption].
    unfold run_ops. eapply (SR_foldM_eq sregs); [split; [exact HX|constructor]|]. intros. apply sr_run_op; assumption.
Qed.
End Shapes.

Lemma ints_same {NM : NMod} w f (f_cell : forall a a', a_cell a = a_cell a' -> f a = f a') l l' vs :
  Forall2 saint l l' -> Forall2 (holds w f) l vs -> Forall2 (holds w f) l' vs.
Proof.
  intros H. revert vs. induction H as [|x y l l' S _ IH]; intros vs K; inversion K as [|a v l0 vs0 [W V] K']; subst; constructor; [|apply IH; assumption].
  split; [eapply int_wf_same; eauto|]. unfold int_value in *. rewrite <- (limbs_value_same f f_cell _ _ (sa_limbs _ _ S)). reflexivity.
Qed.
Lemma bits_same (f : av -> Z) (f_cell : forall a a', a_cell a = a_cell a' -> f a = f a') l l' (vs : list bool) :
  Forall2 sav l l' -> Forall2 (fun x v => f x = Z.b2z v) l vs -> Forall2 (fun x v => f x = Z.b2z v) l' vs.
Proof.
  intros H. revert vs. induction H as [|x y l l' S _ IH]; intros vs K; inversion K; subst; constructor; [|apply IH; assumption]. rewrite <- (f_cell _ _ S). assumption.
Qed.

Lemma C65_integers_complete_main :
  forall (NM : NMod) w I, prime nmod -> 2 ^ 18 < nmod -> prime w -> range_info_new w = Ok I -> (w_bits w + 13) mod 108 <> 0 ->
  forall sample prog xs rs c, Forall (iop_ok w) prog -> run_prog I sample prog ctx_new = Ok ((xs, rs), c) ->
    (0 < base_h c)%nat -> (let chunks := (base_h c + 15) / 16 in range_h c <= chunks * 16 * chunks)%nat ->
    let '(g, s) := configure cs_new in
    (exists F wt, synthesise g s c = Ok (F, wt))
 /\ forall F wt, synthesise g s c = Ok (F, wt) ->
    forall inputs, length inputs = length sample -> Forall (fun x => 0 <= x < w) inputs -> ican w prog (inputs, []) ->
    exists r c' F' wt' s', run_prog I inputs prog ctx_new = Ok (r, c') /\ synthesise g s c' = Ok (F', wt') /\ same_key F F' /\ (forall col row, 0 <= wt' col row < nmod)
      /\ isteps w prog (inputs, []) s'
      /\ forall u n adv, (base_h c + 2 <= u)%nat -> (range_h c + 2 <= u)%nat -> (select_h c + 2 <= u)%nat -> 2 ^ 19 - 1 <= Z.of_nat u -> (u <= n)%nat ->
        (forall col row, 0 <= adv col row < nmod) -> (forall col row, (row < u)%nat -> adv col row = wt' col row) ->
        cs_sat n u F adv s
        /\ Forall2 (fun x v => int_wf w (read g adv) x /\ int_value (read g adv) x mod w = v) (fst rs) (fst s')
        /\ Forall2 (fun x v => read g adv x = Z.b2z v) (snd rs) (snd s').
Proof.
  intros NM w I P N18 PW H HD sample prog xs [ys bs] c HO E B K.
  pose proof (C54_synthesis_succeeds_main NM _ _ _ _ c (p_gadget _ (pg_run_prog I sample prog)) (prog_disciplined I sample prog) E B K) as SY.
  rewrite configured in *. split; [exact SY|].
  intros F wt HS inputs LEN HI HC.
  destruct (C22_honest_programs_accepted_main NM w I P PW H HD inputs prog HI HO HC ctx_new wf_new)
    as ([xs' [ys' bs']] & c' & E' & _ & (s' & ST & RY & RB) & G). cbn [fst snd] in RY, RB.
  specialize (G good_new).
  destruct (sr_run_prog I sample inputs prog (eq_sym LEN) ctx_new ctx_new _ _ c c' ltac:(constructor; reflexivity) E E') as ([SX [SY0 SB]] & SH).
  cbn [fst snd] in SX, SY0, SB.
  assert (B' : (0 < base_h c')%nat) by (rewrite <- (sh_base_h _ _ SH); exact B).
  assert (K' : (let chunks := (base_h c' + 15) / 16 in range_h c' <= chunks * 16 * chunks)%nat) by (rewrite <- (sh_base_h _ _ SH), <- (sh_range_h _ _ SH); exact K).
  pose proof (p_gadget _ (pg_run_prog I inputs prog)) as PR.
  pose proof (C54_synthesis_succeeds_main NM _ _ _ _ c' PR (prog_disciplined I inputs prog) E' B' K') as SY'.
  rewrite configured in SY'. destruct SY' as (F' & wt' & HS').
  pose proof (one_key _ _ _ _ _ _ _ _ SH HS HS') as KEY.
  exists (xs', (ys', bs')), c', F', wt', s'. split; [exact E'|]. split; [exact HS'|]. split; [exact KEY|].
  split; [exact (witness_field _ _ _ _ _ (n_pos P) (good_advs _ G) HS')|]. split; [exact ST|].
  intros u n adv U1 U2 U3 U4 Un AF AW.
  rewrite (sh_base_h _ _ SH) in U1. rewrite (sh_range_h _ _ SH) in U2. rewrite (sh_select_h _ _ SH) in U3.
  pose proof (C54_halo2_complete_main NM _ _ _ c' F' wt' u n adv N18 PR E') as CM. rewrite configured in CM.
  assert (SAT : cs_sat n u F' adv css).
  { apply CM; auto. apply good_satisfies; [apply (n_pos P)|exact G]. }
  split; [eapply same_key_sat; [|exact SAT]; destruct KEY as [Q1 Q2]; split; [intros; symmetry; apply Q1|symmetry; exact Q2]|].
  destruct (prog_disciplined I inputs prog ctx_new _ _ ltac:(constructor) copies_new E') as (_ & _ & LV).
  apply all_live_pair in LV as [_ LV]. apply all_live_pair in LV as [LY LB]. assert (C : covered c') by (eapply program_covered; eauto using covered_new).
  assert (EX : forall y, live c' (a_cell y) -> valid c' y -> a_val y = read cfg adv y).
  { intros y Hl Hv. symmetry. destruct Hv as (_ & GV & _). eapply read_honest; eauto. apply fits_of; auto. }
  assert (RC : forall a a', a_cell a = a_cell a' -> read cfg adv a = read cfg adv a') by (intros a a' Q; unfold read; rewrite Q; reflexivity).
  split.
  - apply (ints_same w _ RC ys'); [clear -SY0; induction SY0; constructor; [apply saint_sym; assumption|assumption]|].
    apply (ints_ext w a_val).
    + intros x y Hx Hy. apply EX; [eapply ihandles_live; [eapply all_live_in; [exact LY|exact Hx]|exact Hy]|].
      assert (O : int_ok w c' x valid).
      { clear -RY Hx. induction RY as [|a v l l' [O _] _ IH]; [destruct Hx|]. destruct Hx as [<-|Hx]; [exact O|exact (IH Hx)]. }
      unfold ihandles in Hy. apply in_app_iff in Hy as [Hy|[<-|[]]]; [|exact (ik_native _ _ _ _ O)].
      pose proof (ik_limbs _ _ _ _ O) as KL. rewrite Forall_forall in KL. apply KL, Hy.
    + clear -RY. induction RY as [|a v l l' [O V] _ IH]; constructor; [split; [exact (ik_wf _ _ _ _ O)|exact V]|exact IH].
  - apply (bits_same _ RC bs'); [clear -SB; induction SB; constructor; [symmetry; assumption|assumption]|].
    apply (bits_ext a_val).
    + intros y Hy. apply EX; [eapply bits_live; [exact LB|exact Hy]|].
      clear -RB Hy. induction RB as [|a v l l' [O _] _ IH]; [destruct Hy|]. destruct Hy as [<-|Hy]; [exact O|exact (IH Hy)].
    + clear -RB. induction RB as [|a v l l' [O V] _ IH]; constructor; [exact V|exact IH].
Qed.
