(** Total correctness of honest runs that return Rust's [Result], and of parallel windows. *)
From Verif Require Import Prelude FieldZ Circuit Context Spec Logic EccChip Msm ParWindows SpecSelect IntComplete HonestLogic SpecShape SpecCost Cost.

Section H.
Context {NM : NMod}.

(** The run from c ends with [Ok], and so on as for [CT]. *)
Definition UT {X} (c : ctx) (m : M (uresult X)) (Q : X -> ctx -> Prop) : Prop :=
  CT c m (fun r c' => exists x, r = UOk x /\ Q x c').
Lemma UT_UP {X} c (m : M (uresult X)) Q : UT c m Q -> UP c m Q.
Proof.
  intros H. eapply UP_of; [apply PT_of; exact H|]. intros x c' (y & E & K). injection E as ->. exact K.
Qed.
Lemma UT_runs {X} c (m : M (uresult X)) Q : UT c m Q -> exists x c', m c = Ok (UOk x, c').
Proof. intros (r & c' & E & _ & _ & _ & x & -> & _). eauto. Qed.
Lemma UT_of_UP {X} c (m : M (uresult X)) Q : (exists x c', m c = Ok (UOk x, c')) -> UP c m Q -> UT c m Q.
Proof.
  intros (x & c' & E) H. destruct (H _ _ E) as (W & X' & S & HQ). exists (UOk x), c'. split; [exact E|]. split; [exact W|]. split; [exact X'|].
  split; [exact S|]. eauto.
Qed.
Lemma UT_ret {X} c (x : X) (Q : X -> ctx -> Prop) : wf c -> Q x c -> UT c (mret (UOk x)) Q.
Proof. intros W H. apply CT_ret; [auto|]. eauto. Qed.
Lemma UT_weaken {X} c (m : M (uresult X)) (Q R : X -> ctx -> Prop) :
  UT c m Q -> (forall x c', wf c' -> extends c c' -> Q x c' -> R x c') -> UT c m R.
Proof. intros H I. eapply CT_weaken; [exact H|]. intros r c' W E (x & -> & K). eauto. Qed.
Lemma UT_ubind {X Y} c (m : M (uresult X)) (k : X -> M (uresult Y)) (Q : X -> ctx -> Prop) (R : Y -> ctx -> Prop) :
  UT c m Q -> (forall x c', wf c' -> extends c c' -> Q x c' -> UT c' (k x) R) -> UT c (ubind m k) R.
Proof.
  intros Hm Hk. unfold ubind. eapply CT_bind; [exact Hm|]. intros r c' W E (x & -> & K). exact (Hk x c' W E K).
Qed.
Lemma UT_bind {X Y} c (m : M X) (k : X -> M (uresult Y)) (Q : X -> ctx -> Prop) (R : Y -> ctx -> Prop) :
  CT c m Q -> (forall x c', wf c' -> extends c c' -> Q x c' -> UT c' (k x) R) -> UT c (mbind m k) R.
Proof. intros Hm Hk. eapply CT_bind; [exact Hm|]. exact Hk. Qed.
Lemma UT_ufoldM {X S} c (f : S -> X -> M (uresult S)) (I : list X -> S -> ctx -> Prop) l s :
  wf c -> I [] s c ->
  (forall pre x post s c', l = pre ++ x :: post -> wf c' -> extends c c' -> I pre s c' -> UT c' (f s x) (I (pre ++ [x]))) ->
  UT c (ufoldM f s l) (I l).
Proof.
  intros W H0 Hf.
  assert (G : forall l' pre s c', wf c' -> extends c c' -> l = pre ++ l' -> I pre s c' -> UT c' (ufoldM f s l') (I l)).
  { induction l' as [|x l' IH]; intros pre s' c' W' X' E Hs; cbn [ufoldM].
    - rewrite app_nil_r in E. subst. apply UT_ret; auto.
    - eapply UT_ubind; [eapply Hf; [exact E|exact W'|exact X'|exact Hs]|].
      intros s1 c1 W1 X1 H1. apply (IH (pre ++ [x])); [auto|eapply extends_trans; eauto|rewrite <- app_assoc; exact E|exact H1]. }
  apply (G l [] s c); auto using extends_refl.
Qed.
Lemma CT_foldM {X S} c (f : S -> X -> M S) (I : list X -> S -> ctx -> Prop) l s :
  wf c -> I [] s c ->
  (forall pre x post s c', l = pre ++ x :: post -> wf c' -> extends c c' -> I pre s c' -> CT c' (f s x) (I (pre ++ [x]))) ->
  CT c (foldM f s l) (I l).
Proof.
  intros W H0 Hf.
  assert (G : forall l' pre s c', wf c' -> extends c c' -> l = pre ++ l' -> I pre s c' -> CT c' (foldM f s l') (I l)).
  { induction l' as [|x l' IH]; intros pre s' c' W' X' E Hs; cbn [foldM].
    - rewrite app_nil_r in E. subst. apply CT_ret; auto.
    - eapply CT_bind; [eapply Hf; [exact E|exact W'|exact X'|exact Hs]|].
      intros s1 c1 W1 X1 H1. apply (IH (pre ++ [x])); [auto|eapply extends_trans; eauto|rewrite <- app_assoc; exact E|exact H1]. }
  apply (G l [] s c); auto using extends_refl.
Qed.

(** ** Parallel windows *)
Section Par.
Context {X : Type}.
Variable f : nat -> M (uresult X).
Hypothesis f_app : forall i, uapp (f i).
Hypothesis f_cost : forall i j, CRU any (f i) (f j).
Variable Q : nat -> X -> ctx -> Prop.
Hypothesis Q_rext : forall i x c d, rext c d -> Q i x c -> Q i x d.
Variable base : ctx.
Variable n : nat.
Hypothesis f_ok : forall i c, (i < n)%nat -> wf c -> rext base c -> UT c (f i) (Q i).

Lemma run_clones_runs c0 x0 c0' diff c k : f 0%nat c0 = Ok (UOk x0, c0') -> extends c0 c0' -> diff = off_sub (offset_of c0') (offset_of c0) ->
  forall i m, (i + k <= n)%nat -> wf (stage c diff m i) -> rext base (stage c diff m i) ->
  exists xs m', run_clones f c diff (seq i k) m = Ok (UOk xs, m').
Proof.
  intros E0 X0 ED. induction k as [|k IH]; intros i m B W RB; cbn [seq run_clones]; [eauto|].
  fold (stage c diff m i).
  destruct (f_ok i _ ltac:(lia) W RB) as (r & ci' & E & Wi & Ei & _ & x & -> & _).
  rewrite E. destruct (f_cost 0 i _ _ _ _ _ _ E0 E) as [_ (O1 & O2 & O3)].
  assert (O : off_eqb diff (off_sub (offset_of ci') (offset_of (stage c diff m i))) = true).
  { unfold off_eqb. subst diff. unfold off_sub, offset_of. cbn [o_base o_range o_select].
    pose proof (ext_off _ _ X0 BaseChip) as L1. pose proof (ext_off _ _ X0 RangeChip) as L2. pose proof (ext_off _ _ X0 SelectChip) as L3.
    pose proof (ext_off _ _ Ei BaseChip) as L4. pose proof (ext_off _ _ Ei RangeChip) as L5. pose proof (ext_off _ _ Ei SelectChip) as L6.
    set (d := stage c _ m i) in *. clearbody d. cbn [off_of] in *. rewrite !Bool.andb_true_iff, !Nat.eqb_eq. lia. }
  rewrite O. pose proof O as O'. apply off_eqb_eq in O'.
  assert (SR : same_rows ci' (stage c diff (c_mem ci') (S i))).
  { split; [reflexivity|]. intros ch. pose proof (ext_off _ _ Ei ch) as LE. rewrite stage_off in LE |- *.
    destruct O' as (P1 & P2 & P3). cbn [off_sub offset_of o_base o_range o_select] in P1, P2, P3.
    unfold stage, clone_with_offset, off_scale in P1, P2, P3.
    cbn [base_off range_off select_off o_base o_range o_select] in P1, P2, P3.
    destruct ch; cbn [off_of] in *; lia. }
  assert (R1 : rext (stage c diff m i) (stage c diff (c_mem ci') (S i))) by (exists ci'; auto).
  destruct (IH (S i) (c_mem ci') ltac:(lia) (wf_rows _ _ SR Wi) (rext_trans _ _ _ RB R1)) as (xs & m' & ->). eauto.
Qed.

Lemma UT_par_windows c : base = c -> (1 <= n)%nat -> wf c ->
  UT c (par_windows f n) (fun ls c' => Forall2 (fun i x => Q i x c') (seq 0 n) ls).
Proof.
  intros EB H1 W. apply UT_of_UP.
  2: { eapply UP_par_windows; eauto. intros i d Hi Wd Rd. apply UT_UP. auto. }
  unfold par_windows. set (c0 := clone_with_offset (c_mem c) (mkOff 0 0 0) c).
  assert (S0 : same_rows c c0) by (split; [reflexivity|]; intros []; cbn; lia).
  pose proof (wf_rows _ _ S0 W) as W0. assert (RB0 : rext base c0) by (subst base; apply rext_same; exact S0).
  destruct (f_ok 0 c0 ltac:(lia) W0 RB0) as (r0 & c0' & E0 & W0' & X0 & _ & x0 & -> & _). rewrite E0.
  set (diff := off_sub (offset_of c0') (offset_of c0)). set (c1 := merge (c_mem c0') c c0').
  assert (S1 : same_rows c0' (stage c1 diff (c_mem c1) 1)).
  { split; [reflexivity|]. intros ch. rewrite stage_off. pose proof (ext_off _ _ X0 ch) as LE.
    unfold diff, off_sub, offset_of. cbn [o_base o_range o_select]. destruct ch; cbn in *; lia. }
  assert (RX : rext c0 (stage c1 diff (c_mem c1) 1)) by (exists c0'; auto).
  destruct (run_clones_runs c0 x0 c0' diff c1 (n - 1) E0 X0 eq_refl 1 (c_mem c1) ltac:(lia) (wf_rows _ _ S1 W0') (rext_trans _ _ _ RB0 RX)) as (xs & m & ->).
  eauto.
Qed.
End Par.
End H.
