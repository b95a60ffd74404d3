(** Program logic for programs that end in Rust's [Result], and the rule for
    [par_windows]: each window ran from a well-formed clone, and whatever satisfies
    the final circuit satisfies what the clone recorded. *)
From Verif Require Import Prelude FieldZ Circuit Context Spec Logic EccChip Msm.

Section App.
Context {NM : NMod}.

(** Append-only, for runs that end in [UOk]. *)
Definition uapp {X} (m : M (uresult X)) : Prop :=
  forall c x c', wf c -> m c = Ok (UOk x, c') -> wf c' /\ extends c c'.
Lemma uapp_of {X} (m : M (uresult X)) : appends m -> uapp m.
Proof. intros H c x c' W E. eapply H; eauto. Qed.
Lemma ubind_inv {X Y} (m : M (uresult X)) (k : X -> M (uresult Y)) c y c'' :
  ubind m k c = Ok (UOk y, c'') -> exists x c', m c = Ok (UOk x, c') /\ k x c' = Ok (UOk y, c'').
Proof.
  intros H. apply mbind_inv in H as ([x|e] & c' & H1 & H2); [eauto|]. unfold mret in H2. discriminate.
Qed.
Lemma uapp_ubind {X Y} (m : M (uresult X)) (k : X -> M (uresult Y)) :
  uapp m -> (forall x, uapp (k x)) -> uapp (ubind m k).
Proof.
  intros Hm Hk c y c'' W H. apply ubind_inv in H as (x & c' & H1 & H2).
  destruct (Hm _ _ _ W H1) as [W1 E1]. destruct (Hk _ _ _ _ W1 H2) as [W2 E2].
  split; [auto|eapply extends_trans; eauto].
Qed.
Lemma uapp_bind {X Y} (m : M X) (k : X -> M (uresult Y)) :
  appends m -> (forall x, uapp (k x)) -> uapp (mbind m k).
Proof.
  intros Hm Hk c y c'' W H. apply mbind_inv in H as (x & c' & H1 & H2).
  destruct (Hm _ _ _ W H1) as [W1 E1]. destruct (Hk _ _ _ _ W1 H2) as [W2 E2].
  split; [auto|eapply extends_trans; eauto].
Qed.
Lemma uapp_nth_k {X Y} (l : list X) i (k : X -> M (uresult Y)) :
  (forall x, nth_error l i = Some x -> uapp (k x)) -> uapp (mbind (mnth l i) k).
Proof.
  intros Hk c y c'' W H. apply mbind_inv in H as (x & c' & H1 & H2). apply mopt_inv in H1 as [H1 ->].
  eapply Hk; eauto.
Qed.
Lemma uapp_assert_k {Y} b (k : unit -> M (uresult Y)) :
  (b = true -> uapp (k tt)) -> uapp (mbind (massert b) k).
Proof.
  intros Hk c y c'' W H. apply mbind_inv in H as ([] & c' & H1 & H2). apply massert_inv in H1 as [H1 ->].
  eapply Hk; eauto.
Qed.
Lemma uapp_ufoldM {X S} (f : S -> X -> M (uresult S)) l s :
  (forall s x, uapp (f s x)) -> uapp (ufoldM f s l).
Proof.
  intros H. revert s. induction l as [|x l IH]; intros s; cbn [ufoldM]; [apply uapp_of, appends_ret|].
  apply uapp_ubind; auto.
Qed.
Lemma appends_ufoldM {X S} (f : S -> X -> M (uresult S)) l s :
  (forall s x, appends (f s x)) -> appends (ufoldM f s l).
Proof.
  intros H. revert s. induction l as [|x l IH]; intros s; cbn [ufoldM]; [apply appends_ret|].
  unfold ubind. apply appends_bind; auto. intros [y|e]; [auto|apply appends_ret].
Qed.
Lemma appends_ubind {X Y} (m : M (uresult X)) (k : X -> M (uresult Y)) :
  appends m -> (forall x, appends (k x)) -> appends (ubind m k).
Proof. intros H K. unfold ubind. apply appends_bind; auto. intros [y|e]; [auto|apply appends_ret]. Qed.

Section U.
Variable T : env.
Variable A : cell -> Z.
Local Notation ST := (ST T A).

Definition US {X} (m : M (uresult X)) (Q : X -> Prop) : Prop :=
  forall c x c', wf c -> m c = Ok (UOk x, c') -> sat T c' A -> Q x.
Lemma US_of {X} (m : M (uresult X)) (Q : uresult X -> Prop) (R : X -> Prop) :
  ST m Q -> (forall x, Q (UOk x) -> R x) -> US m R.
Proof. intros H I c x c' W E S. apply I. eapply H; eauto. Qed.
Lemma US_ret {X} (x : X) (Q : X -> Prop) : Q x -> US (mret (UOk x)) Q.
Proof. intros H c y c' W E S. injection E as <- _. exact H. Qed.
Lemma US_weaken {X} (m : M (uresult X)) (Q R : X -> Prop) : US m Q -> (forall x, Q x -> R x) -> US m R.
Proof. intros H I c x c' W E S. apply I. eapply H; eauto. Qed.
Lemma US_ubind {X Y} (m : M (uresult X)) (k : X -> M (uresult Y)) (Q : X -> Prop) (R : Y -> Prop) :
  US m Q -> uapp m -> (forall x, uapp (k x)) -> (forall x, Q x -> US (k x) R) -> US (ubind m k) R.
Proof.
  intros Hm Am Ak Hk c y c'' W H S. apply ubind_inv in H as (x & c' & H1 & H2).
  destruct (Am _ _ _ W H1) as [W1 E1]. destruct (Ak _ _ _ _ W1 H2) as [W2 E2].
  eapply Hk; [|exact W1|exact H2|exact S]. eapply Hm; [exact W|exact H1|]. eapply sat_mono; eauto.
Qed.
Lemma US_bind {X Y} (m : M X) (k : X -> M (uresult Y)) (Q : X -> Prop) (R : Y -> Prop) :
  ST m Q -> appends m -> (forall x, uapp (k x)) -> (forall x, Q x -> US (k x) R) -> US (mbind m k) R.
Proof.
  intros Hm Am Ak Hk c y c'' W H S. apply mbind_inv in H as (x & c' & H1 & H2).
  destruct (Am _ _ _ W H1) as [W1 E1]. destruct (Ak _ _ _ _ W1 H2) as [W2 E2].
  eapply Hk; [|exact W1|exact H2|exact S]. eapply Hm; [exact W|exact H1|]. eapply sat_mono; eauto.
Qed.
(** The continuation may need facts of the result that do not depend on the
    assignment to be append-only. *)
Lemma US_bind' {X Y} (m : M X) (k : X -> M (uresult Y)) (P Q : X -> Prop) (R : Y -> Prop) :
  (forall c x c', m c = Ok (x, c') -> P x) ->
  ST m Q -> appends m -> (forall x, P x -> uapp (k x)) -> (forall x, P x -> Q x -> US (k x) R) -> US (mbind m k) R.
Proof.
  intros HP Hm Am Ak Hk c y c'' W H S. apply mbind_inv in H as (x & c' & H1 & H2).
  destruct (Am _ _ _ W H1) as [W1 E1]. pose proof (HP _ _ _ H1) as Px.
  destruct (Ak _ Px _ _ _ W1 H2) as [W2 E2].
  eapply Hk; [exact Px| |exact W1|exact H2|exact S]. eapply Hm; [exact W|exact H1|]. eapply sat_mono; eauto.
Qed.
Lemma US_assert_k {Y} b (k : unit -> M (uresult Y)) R : (b = true -> US (k tt) R) -> US (mbind (massert b) k) R.
Proof.
  intros H c y c'' W E S. apply mbind_inv in E as ([] & c' & H1 & H2).
  apply massert_inv in H1 as [Hb ->]. eapply H; eauto.
Qed.
Lemma US_nth_k {X Y} (l : list X) i (k : X -> M (uresult Y)) R :
  (forall x, nth_error l i = Some x -> US (k x) R) -> US (mbind (mnth l i) k) R.
Proof.
  intros H c y c'' W E S. apply mbind_inv in E as (x & c' & H1 & H2).
  apply mopt_inv in H1 as [Hb ->]. eapply H; eauto.
Qed.
Lemma US_ufoldM {X S} (f : S -> X -> M (uresult S)) (I : list X -> S -> Prop) l s :
  (forall s x, uapp (f s x)) -> I [] s ->
  (forall pre x post s, l = pre ++ x :: post -> I pre s -> US (f s x) (I (pre ++ [x]))) ->
  US (ufoldM f s l) (I l).
Proof.
  intros Af H0 Hf.
  assert (G : forall l' pre s, l = pre ++ l' -> I pre s -> US (ufoldM f s l') (I l)).
  { induction l' as [|x l' IH]; intros pre s' E Hs; cbn [ufoldM].
    - rewrite app_nil_r in E. subst. apply US_ret; auto.
    - eapply US_ubind; [eapply Hf; [exact E|exact Hs]|auto|intros; apply uapp_ufoldM; auto|].
      intros s1 H1. apply (IH (pre ++ [x])); [rewrite <- app_assoc; exact E|exact H1]. }
  apply (G l [] s); auto.
Qed.
End U.

(** ** Clones *)

(** States that differ only in copy constraints and heights. *)
Definition same_rows (c d : ctx) : Prop := c_mem c = c_mem d /\ (forall ch, off_of c ch = off_of d ch).
Lemma wf_rows c d : same_rows c d -> wf c -> wf d.
Proof. intros [M O] W. constructor; intros x v; rewrite <- M, <- O; apply W. Qed.
Lemma extends_rows c d c' d' : same_rows c d -> same_rows c' d' -> incl (c_perms d) (c_perms d') ->
  extends c c' -> extends d d'.
Proof.
  intros [M O] [M' O'] P E. constructor.
  - intros ch r U col. rewrite <- M, <- M'. apply (ext_fix _ _ E). unfold used in *. rewrite M. exact U.
  - intros ch r U col. rewrite <- M, <- M'. apply (ext_adv _ _ E). unfold used in *. rewrite M. exact U.
  - exact P.
  - intros ch. rewrite <- O, <- O'. apply E.
Qed.
Lemma same_rows_refl c : same_rows c c. Proof. split; auto. Qed.

(** The point that clone number [k] starts from. *)
Definition stage (c : ctx) (diff : offs) (m : mem) (k : nat) : ctx :=
  clone_with_offset m (off_scale k diff) c.
Lemma stage_off c d m k ch : off_of (stage c d m k) ch =
  (off_of c ch + match ch with BaseChip => o_base d | RangeChip => o_range d | SelectChip => o_select d end * k)%nat.
Proof. destruct ch; reflexivity. Qed.

Section Clones.
Context {X : Type}.
Variable f : nat -> M (uresult X).
Hypothesis f_app : forall i, uapp (f i).

(** A clone that ran: from where, and its place in the final state [s]. *)
Definition ran (s : ctx) (i : nat) (x : X * ctx) : Prop :=
  exists ci, wf ci /\ f i ci = Ok (UOk (fst x), snd x)
    /\ forall c', same_rows s c' -> incl (c_perms (snd x)) (c_perms c') -> extends (snd x) c'.

Lemma off_eqb_eq a b : off_eqb a b = true -> o_base a = o_base b /\ o_range a = o_range b /\ o_select a = o_select b.
Proof. unfold off_eqb. rewrite !andb_true_iff, !Nat.eqb_eq. tauto. Qed.

Lemma run_clones_ran c diff k : forall i m xs m',
  run_clones f c diff (seq i k) m = Ok (UOk xs, m') -> wf (stage c diff m i) ->
  wf (stage c diff m' (i + k)) /\ extends (stage c diff m i) (stage c diff m' (i + k))
  /\ Forall2 (ran (stage c diff m' (i + k))) (seq i k) xs.
Proof.
  induction k as [|k IH]; intros i m xs m' H W; cbn [seq run_clones] in H.
  - injection H as <- <-. rewrite Nat.add_0_r. split; [auto|]. split; [apply extends_refl|constructor].
  - fold (stage c diff m i) in H. destruct (f i (stage c diff m i)) as [[[x|e] ci']|] eqn:E; try discriminate.
    destruct (off_eqb _ _) eqn:O; [|discriminate].
    destruct (run_clones f c diff (seq (S i) k) (c_mem ci')) as [[[ys|e] m1]|] eqn:R; try discriminate.
    injection H as <- <-. destruct (f_app i _ _ _ W E) as [Wi Ei].
    apply off_eqb_eq in O.
    assert (SR : same_rows ci' (stage c diff (c_mem ci') (S i))).
    { split; [reflexivity|]. intros ch. pose proof (ext_off _ _ Ei ch) as LE. rewrite stage_off in LE |- *.
      destruct O as (O1 & O2 & O3). cbn [off_sub offset_of o_base o_range o_select] in O1, O2, O3.
      unfold stage, clone_with_offset, off_scale in O1, O2, O3.
      cbn [base_off range_off select_off o_base o_range o_select] in O1, O2, O3.
      destruct ch; cbn [off_of] in *; lia. }
    pose proof (wf_rows _ _ SR Wi) as W2. destruct (IH (S i) _ _ _ R W2) as (W3 & E3 & F3).
    replace (i + S k)%nat with (S i + k)%nat by lia. split; [exact W3|]. split.
    + eapply extends_trans; [|exact E3].
      eapply extends_rows; [apply same_rows_refl|exact SR|apply incl_nil_l|exact Ei].
    + constructor; [|exact F3]. exists (stage c diff m i). cbn [fst snd]. split; [exact W|]. split; [exact E|].
      intros c' SR' IC. eapply extends_rows; [|exact SR'|exact IC|exact E3].
      destruct SR as [S1 S2]. split; [reflexivity|]. intros ch. symmetry. apply S2.
Qed.

Lemma merge_all m (xs : list (X * ctx)) : forall c,
  let c2 := fold_left (fun c x => merge m c (snd x)) xs c in
  (forall ch, off_of c2 ch = off_of c ch) /\ (c_mem c = m -> c_mem c2 = m)
  /\ incl (c_perms c) (c_perms c2) /\ Forall (fun x => incl (c_perms (snd x)) (c_perms c2)) xs.
Proof.
  induction xs as [|x xs IH]; intros c; cbn [fold_left].
  - split; [auto|]. split; [auto|]. split; [apply incl_refl|constructor].
  - destruct (IH (merge m c (snd x))) as (O & M & P & F). split; [|split; [|split]].
    + intros ch. rewrite O. destruct ch; reflexivity.
    + intros _. apply M. reflexivity.
    + eapply incl_tran; [|exact P]. cbn [c_perms merge]. apply incl_appr, incl_refl.
    + constructor; [|exact F]. eapply incl_tran; [|exact P]. cbn [c_perms merge]. apply incl_appl, incl_refl.
Qed.

(** What a successful run did. *)
Lemma par_windows_ran windows c ls c' : (1 <= windows)%nat ->
  wf c -> par_windows f windows c = Ok (UOk ls, c') ->
  wf c' /\ extends c c' /\ Forall2 (fun i x => exists ci ci', wf ci /\ f i ci = Ok (UOk x, ci') /\ extends ci' c') (seq 0 windows) ls.
Proof.
  intros H1 W H. unfold par_windows in H. set (c0 := clone_with_offset (c_mem c) (mkOff 0 0 0) c) in H.
  assert (S0 : same_rows c c0).
  { split; [reflexivity|]. intros []; cbn; lia. }
  destruct (f 0%nat c0) as [[[x0|e] c0']|] eqn:E0; try discriminate.
  pose proof (wf_rows _ _ S0 W) as W0. destruct (f_app _ _ _ _ W0 E0) as [W0' X0].
  set (diff := off_sub (offset_of c0') (offset_of c0)) in H. set (c1 := merge (c_mem c0') c c0') in H.
  destruct (run_clones f c1 diff (seq 1 (windows - 1)) (c_mem c1)) as [[[xs|e] m]|] eqn:R; try discriminate.
  injection H as <- <-.
  assert (S1 : same_rows c0' (stage c1 diff (c_mem c1) 1)).
  { split; [reflexivity|]. intros ch. rewrite stage_off. pose proof (ext_off _ _ X0 ch) as LE.
    unfold diff, off_sub, offset_of. cbn [o_base o_range o_select]. destruct ch; cbn in *; lia. }
  destruct (run_clones_ran c1 diff _ _ _ _ _ R (wf_rows _ _ S1 W0')) as (W2 & E2 & F2).
  replace (1 + (windows - 1))%nat with windows in W2, E2, F2 by lia.
  destruct (merge_all m xs (with_mem m c1)) as (O & M & P & FP).
  set (c2 := fold_left (fun c x => merge m c (snd x)) xs (with_mem m c1)) in *.
  set (cf := apply_offset_diff (off_scale windows diff) c2).
  assert (SF : same_rows (stage c1 diff m windows) cf).
  { split; [symmetry; apply M; reflexivity|]. intros ch. rewrite stage_off. unfold cf.
    pose proof (O ch) as Oc. destruct ch; cbn in Oc |- *; rewrite Oc; reflexivity. }
  assert (E0f : extends c0' cf).
  { eapply extends_rows; [|exact SF| |exact E2].
    - destruct S1 as [Q1 Q2]. split; [reflexivity|intros; symmetry; apply Q2].
    - eapply incl_tran; [|exact P]. cbn [with_mem c_perms c1 merge]. apply incl_appl, incl_refl. }
  split; [exact (wf_rows _ _ SF W2)|]. split.
  - pose proof (extends_trans _ _ _ X0 E0f) as EE. eapply extends_rows; [|apply same_rows_refl| |exact EE].
    + destruct S0 as [Q1 Q2]. split; [reflexivity|intros; symmetry; apply Q2].
    + eapply incl_tran; [|exact P]. cbn [with_mem c_perms c1 merge]. apply incl_appr, incl_refl.
  - replace (seq 0 windows) with (0%nat :: seq 1 (windows - 1)) by (destruct windows; [lia|cbn; rewrite Nat.sub_0_r; reflexivity]).
    constructor.
    + exists c0, c0'. split; [exact W0|]. split; [exact E0|exact E0f].
    + change (c_perms c2) with (c_perms cf) in FP. clear - F2 FP SF. clearbody cf.
      revert FP. induction F2 as [|i x is xs (ci & Wi & Ei & Xi) F2 IH]; intros FP; cbn [map]; constructor; inversion FP; subst; auto.
      exists ci, (snd x). auto.
Qed.

Lemma uapp_par_windows windows : (windows = O -> forall c x c', wf c -> f O c = Ok (UOk x, c') -> False) ->
  uapp (par_windows f windows).
Proof.
  intros H0 c x c' W H. destruct windows as [|k].
  - exfalso. unfold par_windows in H. set (c0 := clone_with_offset (c_mem c) (mkOff 0 0 0) c) in H.
    destruct (f 0%nat c0) as [[[x0|e] c0']|] eqn:E0; try discriminate. eapply (H0 eq_refl); [|exact E0].
    eapply wf_rows; [|exact W]. split; [reflexivity|]. intros []; cbn; lia.
  - destruct (par_windows_ran (S k) c x c' ltac:(lia) W H) as (? & ? & _). auto.
Qed.
Lemma US_par_windows T A (Q : nat -> X -> Prop) windows : (1 <= windows)%nat ->
  (forall i, (i < windows)%nat -> US T A (f i) (Q i)) ->
  US T A (par_windows f windows) (Forall2 Q (seq 0 windows)).
Proof.
  intros H1 HQ c ls c' W H S. destruct (par_windows_ran windows c ls c' H1 W H) as (_ & _ & F).
  assert (G : forall is, (forall i, In i is -> (i < windows)%nat) -> forall ls,
     Forall2 (fun i x => exists ci ci', wf ci /\ f i ci = Ok (UOk x, ci') /\ extends ci' c') is ls -> Forall2 Q is ls).
  { clear - HQ S. intros is B ls F. induction F as [|i x is ls (ci & ci' & Wi & Ei & Xi) F IH]; constructor.
    - eapply HQ; [apply B; left; reflexivity|exact Wi|exact Ei|]. eapply sat_mono; eauto.
    - apply IH. intros j Hj. apply B. right. exact Hj. }
  apply G; [|exact F]. intros i Hi. apply in_seq in Hi. lia.
Qed.
End Clones.
End App.
