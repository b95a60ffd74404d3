(** Partial correctness of honest runs: if the run ends, the recorded witness
    satisfies what was recorded.  With the rule for [par_windows]. *)
From Verif Require Import Prelude FieldZ Circuit Context Spec Logic EccChip Msm ParWindows SpecSelect.

Section H.
Context {NM : NMod}.

(** The witness recorded between [c] and [c'] satisfies the constraints recorded
    between them. *)
Definition step (c c' : ctx) : Prop :=
  (advs_ok c -> advs_ok c') /\
  forall T A, (forall y, 0 <= A y < nmod) -> agrees c' A -> tables_in (tbl T) c' A -> sat T c A -> sat T c' A.
Lemma step_refl c : step c c. Proof. split; auto. Qed.
Lemma step_trans a b c : extends b c -> step a b -> step b c -> step a c.
Proof.
  intros E [P1 S1] [P2 S2]. split; [auto|]. intros T A HA HG HT HS. apply S2; auto. apply S1; auto.
  - eapply agrees_mono; eauto.
  - eapply tables_in_mono; eauto.
Qed.
Lemma step_good c c' : wf c' -> extends c c' -> step c c' -> good c -> good c'.
Proof.
  intros W E [P S] G. constructor; [auto|apply P, G|]. intros T A HA HG HT. apply S; auto. apply G; auto.
  - eapply agrees_mono; eauto.
  - eapply tables_in_mono; eauto.
Qed.

Definition PT {X} (c : ctx) (m : M X) (Q : X -> ctx -> Prop) : Prop :=
  forall x c', m c = Ok (x, c') -> wf c' /\ extends c c' /\ step c c' /\ Q x c'.
Definition UP {X} (c : ctx) (m : M (uresult X)) (Q : X -> ctx -> Prop) : Prop :=
  forall x c', m c = Ok (UOk x, c') -> wf c' /\ extends c c' /\ step c c' /\ Q x c'.

Lemma PT_of {X} c (m : M X) Q : CT c m Q -> PT c m Q.
Proof.
  intros (x & c1 & H & W & E & S & HQ) y c2 H2. rewrite H in H2. injection H2 as <- <-. auto.
Qed.
Lemma UP_of {X} c (m : M (uresult X)) Q (R : X -> ctx -> Prop) :
  PT c m Q -> (forall x c', Q (UOk x) c' -> R x c') -> UP c m R.
Proof. intros H I x c' E. destruct (H _ _ E) as (? & ? & ? & ?). auto 6. Qed.
Lemma PT_ret {X} c (x : X) (Q : X -> ctx -> Prop) : wf c -> Q x c -> PT c (mret x) Q.
Proof. intros W H. apply PT_of, CT_ret; auto. Qed.
Lemma UP_ret {X} c (x : X) (Q : X -> ctx -> Prop) : wf c -> Q x c -> UP c (mret (UOk x)) Q.
Proof. intros W H y c' E. injection E as <- <-. auto using extends_refl, step_refl. Qed.
Lemma PT_weaken {X} c (m : M X) (Q R : X -> ctx -> Prop) :
  PT c m Q -> (forall x c', wf c' -> extends c c' -> Q x c' -> R x c') -> PT c m R.
Proof. intros H I x c' E. destruct (H _ _ E) as (? & ? & ? & ?). auto 6. Qed.
Lemma UP_weaken {X} c (m : M (uresult X)) (Q R : X -> ctx -> Prop) :
  UP c m Q -> (forall x c', wf c' -> extends c c' -> Q x c' -> R x c') -> UP c m R.
Proof. intros H I x c' E. destruct (H _ _ E) as (? & ? & ? & ?). auto 6. Qed.
Lemma PT_bind {X Y} c (m : M X) (k : X -> M Y) (Q : X -> ctx -> Prop) (R : Y -> ctx -> Prop) :
  PT c m Q -> (forall x c', wf c' -> extends c c' -> Q x c' -> PT c' (k x) R) -> PT c (mbind m k) R.
Proof.
  intros Hm Hk y c2 H. apply mbind_inv in H as (x & c1 & H1 & H2). destruct (Hm _ _ H1) as (W1 & E1 & S1 & Q1).
  destruct (Hk _ _ W1 E1 Q1 _ _ H2) as (W2 & E2 & S2 & Q2). split; [exact W2|]. split; [eapply extends_trans; eauto|].
  split; [eapply step_trans; eauto|exact Q2].
Qed.
Lemma UP_bind {X Y} c (m : M X) (k : X -> M (uresult Y)) (Q : X -> ctx -> Prop) (R : Y -> ctx -> Prop) :
  PT c m Q -> (forall x c', wf c' -> extends c c' -> Q x c' -> UP c' (k x) R) -> UP c (mbind m k) R.
Proof.
  intros Hm Hk y c2 H. apply mbind_inv in H as (x & c1 & H1 & H2). destruct (Hm _ _ H1) as (W1 & E1 & S1 & Q1).
  destruct (Hk _ _ W1 E1 Q1 _ _ H2) as (W2 & E2 & S2 & Q2). split; [exact W2|]. split; [eapply extends_trans; eauto|].
  split; [eapply step_trans; eauto|exact Q2].
Qed.
Lemma UP_ubind {X Y} c (m : M (uresult X)) (k : X -> M (uresult Y)) (Q : X -> ctx -> Prop) (R : Y -> ctx -> Prop) :
  UP c m Q -> (forall x c', wf c' -> extends c c' -> Q x c' -> UP c' (k x) R) -> UP c (ubind m k) R.
Proof.
  intros Hm Hk y c2 H. apply ubind_inv in H as (x & c1 & H1 & H2). destruct (Hm _ _ H1) as (W1 & E1 & S1 & Q1).
  destruct (Hk _ _ W1 E1 Q1 _ _ H2) as (W2 & E2 & S2 & Q2). split; [exact W2|]. split; [eapply extends_trans; eauto|].
  split; [eapply step_trans; eauto|exact Q2].
Qed.
Lemma PT_nth_k {X Y} c (l : list X) i (k : X -> M Y) R :
  (forall x, nth_error l i = Some x -> PT c (k x) R) -> PT c (mbind (mnth l i) k) R.
Proof. intros H y c2 E. apply mbind_inv in E as (x & c1 & H1 & H2). apply mopt_inv in H1 as [Hb ->]. eapply H; eauto. Qed.
Lemma UP_nth_k {X Y} c (l : list X) i (k : X -> M (uresult Y)) R :
  (forall x, nth_error l i = Some x -> UP c (k x) R) -> UP c (mbind (mnth l i) k) R.
Proof. intros H y c2 E. apply mbind_inv in E as (x & c1 & H1 & H2). apply mopt_inv in H1 as [Hb ->]. eapply H; eauto. Qed.
Lemma PT_opt_k {X Y} c (o : option X) (k : X -> M Y) R :
  (forall x, o = Some x -> PT c (k x) R) -> PT c (mbind (mopt o) k) R.
Proof. intros H y c2 E. apply mbind_inv in E as (x & c1 & H1 & H2). apply mopt_inv in H1 as [Hb ->]. eapply H; eauto. Qed.
Lemma PT_assert_k {Y} c b (k : unit -> M Y) R : (b = true -> PT c (k tt) R) -> PT c (mbind (massert b) k) R.
Proof. intros H y c2 E. apply mbind_inv in E as ([] & c1 & H1 & H2). apply massert_inv in H1 as [Hb ->]. eapply H; eauto. Qed.
Lemma UP_assert_k {Y} c b (k : unit -> M (uresult Y)) R : (b = true -> UP c (k tt) R) -> UP c (mbind (massert b) k) R.
Proof. intros H y c2 E. apply mbind_inv in E as ([] & c1 & H1 & H2). apply massert_inv in H1 as [Hb ->]. eapply H; eauto. Qed.
Lemma PT_mapM {X Y} c (f : X -> M Y) l (Q : X -> Y -> ctx -> Prop) : wf c ->
  (forall x y c1 c2, Q x y c1 -> extends c1 c2 -> Q x y c2) ->
  (forall x c', In x l -> wf c' -> extends c c' -> PT c' (f x) (Q x)) ->
  PT c (mapM f l) (fun ys c' => Forall2 (fun x y => Q x y c') l ys).
Proof.
  intros W Hst. revert c W. induction l as [|x l IH]; intros c W Hf; simpl.
  - apply PT_ret; [auto|constructor].
  - eapply PT_bind; [apply Hf; [left; auto|auto|apply extends_refl]|].
    intros y c1 W1 E1 Qy. eapply PT_bind.
    + apply IH; [auto|]. intros x' c' Hin W' E'. apply Hf; [right; auto|auto|]. eapply extends_trans; eauto.
    + intros ys c2 W2 E2 Qys. apply PT_ret; [auto|]. constructor; eauto.
Qed.
Lemma UP_ufoldM {X S} c (f : S -> X -> M (uresult S)) (I : list X -> S -> ctx -> Prop) l s :
  wf c -> I [] s c ->
  (forall pre x post s c', l = pre ++ x :: post -> wf c' -> extends c c' -> I pre s c' -> UP c' (f s x) (I (pre ++ [x]))) ->
  UP c (ufoldM f s l) (I l).
Proof.
  intros W H0 Hf.
  assert (G : forall l' pre s c', wf c' -> extends c c' -> l = pre ++ l' -> I pre s c' -> UP c' (ufoldM f s l') (I l)).
  { induction l' as [|x l' IH]; intros pre s' c' W' X' E Hs; cbn [ufoldM].
    - rewrite app_nil_r in E. subst. apply UP_ret; auto.
    - eapply UP_ubind; [eapply Hf; [exact E|exact W'|exact X'|exact Hs]|].
      intros s1 c1 W1 X1 H1. apply (IH (pre ++ [x])); [auto|eapply extends_trans; eauto|rewrite <- app_assoc; exact E|exact H1]. }
  apply (G l [] s c); auto using extends_refl.
Qed.

(** ** States that differ in copy constraints only *)
Lemma same_rows_sym c d : same_rows c d -> same_rows d c.
Proof. intros [M O]. split; [auto|]. intros. symmetry. apply O. Qed.
Lemma same_rows_trans c d e : same_rows c d -> same_rows d e -> same_rows c e.
Proof. intros [M O] [M' O']. split; [congruence|]. intros. rewrite O. apply O'. Qed.
Lemma agrees_rows c d A : same_rows c d -> agrees d A -> agrees c A.
Proof. intros [M _] H ch r U col. unfold used in *. rewrite M in U. unfold honest. rewrite M. apply H. exact U. Qed.
Lemma tables_rows T c d A : same_rows c d -> tables_in T d A -> tables_in T c A.
Proof. intros [M _] H r U. unfold used, fixv in *. rewrite M in *. apply H. exact U. Qed.
Lemma advs_ok_rows c d : same_rows c d -> advs_ok c -> advs_ok d.
Proof. intros [M _] H x v. unfold used. rewrite <- M. apply H. Qed.
Lemma sat_rows T c d A : same_rows c d -> (forall a b, In (a, b) (c_perms d) -> A a = A b) -> sat T c A -> sat T d A.
Proof.
  intros [M O] P S. assert (F : forall x, fixv d x = fixv c x) by (intros; unfold fixv; rewrite M; reflexivity).
  constructor.
  - intros r. apply (base_gate_ext (fixv c)); [intros; symmetry; apply F|apply S].
  - intros r U. apply (range_row_ext (fixv c)); [intros; symmetry; apply F|]. apply S. unfold used in *. rewrite M. exact U.
  - intros r U. unfold select_input. rewrite F. apply (sat_select _ _ _ S r). unfold used in *. rewrite M. exact U.
  - intros r U. rewrite !F. apply (sat_tables _ _ _ S r). unfold used in *. rewrite M. exact U.
  - intros HB r HR. apply (sat_bits _ _ _ S HB). unfold bit_row in *. rewrite M. exact HR.
  - exact P.
Qed.
(** [d] continues [c], up to copy constraints. *)
Definition rext (c d : ctx) : Prop := exists c', extends c c' /\ same_rows c' d.
Lemma rext_of c d : extends c d -> rext c d.
Proof. intros E. exists d. split; [exact E|apply same_rows_refl]. Qed.
Lemma rext_same c d : same_rows c d -> rext c d.
Proof. intros E. exists c. split; [apply extends_refl|exact E]. Qed.
Lemma rext_trans a b c : rext a b -> rext b c -> rext a c.
Proof.
  intros (a' & E1 & S1) (b' & E2 & S2).
  set (d := mkCtx (c_mem b') (c_perms a') (base_off b') (range_off b') (select_off b') (base_h b') (range_h b') (select_h b')).
  exists d. split.
  - eapply extends_trans; [exact E1|]. apply (extends_rows b a' b' d); [apply same_rows_sym; exact S1| |apply incl_refl|exact E2].
    split; [reflexivity|]. intros []; reflexivity.
  - eapply same_rows_trans; [|exact S2]. split; [reflexivity|]. intros []; reflexivity.
Qed.
Lemma valid_rext c d a : rext c d -> valid c a -> valid d a.
Proof. intros (e & E & [M _]) V. apply (valid_mono _ _ _ E) in V. unfold valid, used in *. rewrite <- M. exact V. Qed.

(** ** Parallel windows *)
Section Par.
Context {X : Type}.
Variable f : nat -> M (uresult X).
Hypothesis f_app : forall i, uapp (f i).
Variable Q : nat -> X -> ctx -> Prop.
Hypothesis Q_rext : forall i x c d, rext c d -> Q i x c -> Q i x d.
Variable base : ctx.
Variable n : nat.
Hypothesis f_ok : forall i c, (i < n)%nat -> wf c -> rext base c -> UP c (f i) (Q i).

Definition perms_hold (A : cell -> Z) (x : X * ctx) : Prop := forall a b, In (a, b) (c_perms (snd x)) -> A a = A b.

Lemma run_clones_step c diff k : forall i m xs m', (i + k <= n)%nat ->
  run_clones f c diff (seq i k) m = Ok (UOk xs, m') -> wf (stage c diff m i) -> rext base (stage c diff m i) ->
  let s := stage c diff m i in let s' := stage c diff m' (i + k) in
  wf s' /\ rext s s' /\ (advs_ok s -> advs_ok s')
  /\ (forall T A, (forall y, 0 <= A y < nmod) -> agrees s' A -> tables_in (tbl T) s' A -> sat T s A ->
        sat T s' A /\ Forall (perms_hold A) xs)
  /\ Forall2 (fun i x => Q i (fst x) s') (seq i k) xs.
Proof.
  induction k as [|k IH]; intros i m xs m' B H W RB; cbn [seq run_clones] in H.
  - injection H as <- <-. rewrite Nat.add_0_r. cbv zeta. split; [auto|]. split; [apply rext_of, extends_refl|]. split; [auto|].
    split; [|constructor]. intros. split; [auto|constructor].
  - fold (stage c diff m i) in H. destruct (f i (stage c diff m i)) as [[[x|e] ci']|] eqn:E; try discriminate.
    destruct (off_eqb _ _) eqn:O; [|discriminate].
    destruct (run_clones f c diff (seq (S i) k) (c_mem ci')) as [[[ys|e] m1]|] eqn:R; try discriminate.
    injection H as <- <-. destruct (f_ok i _ ltac:(lia) W RB _ _ E) as (Wi & Ei & Si & Qi).
    apply off_eqb_eq in O.
    assert (SR : same_rows ci' (stage c diff (c_mem ci') (S i))).
    { split; [reflexivity|]. intros ch. pose proof (ext_off _ _ Ei ch) as LE. rewrite stage_off in LE |- *.
      destruct O as (O1 & O2 & O3). cbn [off_sub offset_of o_base o_range o_select] in O1, O2, O3.
      unfold stage, clone_with_offset, off_scale in O1, O2, O3.
      cbn [base_off range_off select_off o_base o_range o_select] in O1, O2, O3.
      destruct ch; cbn [off_of] in *; lia. }
    pose proof (wf_rows _ _ SR Wi) as W2.
    assert (R1 : rext (stage c diff m i) (stage c diff (c_mem ci') (S i))) by (exists ci'; auto).
    destruct (IH (S i) _ _ _ ltac:(lia) R W2 (rext_trans _ _ _ RB R1)) as (W3 & E3 & A3 & S3 & F3).
    replace (i + S k)%nat with (S i + k)%nat by lia. cbv zeta in *.
    set (s := stage c diff m i) in *. set (s1 := stage c diff (c_mem ci') (S i)) in *. set (s' := stage c diff m1 (S i + k)) in *.
    split; [exact W3|]. split; [eapply rext_trans; eauto|].
    split; [intros AO; apply A3, (advs_ok_rows ci'), Si; auto|]. split.
    + intros T A HA HG HT HS.
      assert (XX : exists e, extends ci' e /\ same_rows e s').
      { destruct (rext_trans ci' s1 s' (rext_same _ _ SR) E3) as (e & ? & ?). eauto. }
      destruct XX as (e & Ee & Se). pose proof (agrees_mono _ _ _ Ee (agrees_rows _ _ _ Se HG)) as HG1.
      pose proof (tables_in_mono _ _ _ _ Ee (tables_rows _ _ _ _ Se HT)) as HT1.
      pose proof (proj2 Si T A HA HG1 HT1 HS) as S1.
      destruct (S3 T A HA HG HT) as [S4 P4].
      * apply (sat_rows _ ci'); [exact SR|intros a b []|exact S1].
      * split; [exact S4|]. constructor; [|exact P4]. intros a b Hab. apply (sat_perms _ _ _ S1). exact Hab.
    + constructor; [|exact F3]. cbn [fst]. eapply Q_rext; [|exact Qi]. eapply rext_trans; [apply rext_same; exact SR|exact E3].
Qed.

Lemma merge_all_perms m (xs : list (X * ctx)) p : forall c,
  In p (c_perms (fold_left (fun c x => merge m c (snd x)) xs c)) -> In p (c_perms c) \/ Exists (fun x => In p (c_perms (snd x))) xs.
Proof.
  induction xs as [|x xs IH]; intros c; cbn [fold_left]; [auto|]. intros H. apply IH in H as [H|H]; [|auto].
  cbn [c_perms merge] in H. apply in_app_or in H as [H|H]; auto.
Qed.

Lemma UP_par_windows c : base = c -> (1 <= n)%nat -> wf c ->
  UP c (par_windows f n) (fun ls c' => Forall2 (fun i x => Q i x c') (seq 0 n) ls).
Proof.
  intros EB H1 W ls c' H. destruct (par_windows_ran f f_app n c ls c' H1 W H) as (W' & X' & _).
  split; [exact W'|]. split; [exact X'|]. clear W' X'.
  unfold par_windows in H. set (c0 := clone_with_offset (c_mem c) (mkOff 0 0 0) c) in H.
  assert (S0 : same_rows c c0) by (split; [reflexivity|]; intros []; cbn; lia).
  destruct (f 0%nat c0) as [[[x0|e] c0']|] eqn:E0; try discriminate.
  pose proof (wf_rows _ _ S0 W) as W0. assert (RB0 : rext base c0) by (subst base; apply rext_same; exact S0).
  destruct (f_ok 0 c0 ltac:(lia) W0 RB0 _ _ E0) as (W0' & X0 & St0 & Q0).
  set (diff := off_sub (offset_of c0') (offset_of c0)) in H. set (c1 := merge (c_mem c0') c c0') in H.
  destruct (run_clones f c1 diff (seq 1 (n - 1)) (c_mem c1)) as [[[xs|e] m]|] eqn:R; try discriminate.
  injection H as <- <-.
  assert (S1 : same_rows c0' (stage c1 diff (c_mem c1) 1)).
  { split; [reflexivity|]. intros ch. rewrite stage_off. pose proof (ext_off _ _ X0 ch) as LE.
    unfold diff, off_sub, offset_of. cbn [o_base o_range o_select]. destruct ch; cbn in *; lia. }
  assert (RX : rext c0 (stage c1 diff (c_mem c1) 1)) by (exists c0'; auto).
  destruct (run_clones_step c1 diff (n - 1) 1 _ _ _ ltac:(lia) R (wf_rows _ _ S1 W0') (rext_trans _ _ _ RB0 RX)) as (W2 & E2 & A2 & T2 & F2).
  replace (1 + (n - 1))%nat with n in * by lia. cbv zeta in *.
  set (s1 := stage c1 diff (c_mem c1) 1) in *. set (s' := stage c1 diff m n) in *.
  destruct (merge_all m xs (with_mem m c1)) as (O & M & _ & _).
  pose proof (fun p => merge_all_perms m xs p (with_mem m c1)) as MP.
  set (c2 := fold_left (fun c x => merge m c (snd x)) xs (with_mem m c1)) in *.
  set (cf := apply_offset_diff (off_scale n diff) c2).
  assert (SF : same_rows s' cf).
  { split; [symmetry; apply M; reflexivity|]. intros ch. unfold s'. rewrite stage_off. unfold cf.
    pose proof (O ch) as Oc. destruct ch; cbn in Oc |- *; rewrite Oc; reflexivity. }
  assert (X1 : exists e, extends c0' e /\ same_rows e s').
  { destruct (rext_trans c0' s1 s' (rext_same _ _ S1) E2) as (e & ? & ?). eauto. }
  split; [split|].
  - intros AO. apply (advs_ok_rows s'); [exact SF|]. apply A2, (advs_ok_rows c0'); [exact S1|]. apply St0. apply (advs_ok_rows c); auto.
  - intros T A HA HG HT HS. apply (agrees_rows _ _ _ SF) in HG. apply (tables_rows _ _ _ _ SF) in HT.
    destruct X1 as (e & Ee & Se). pose proof (agrees_mono _ _ _ Ee (agrees_rows _ _ _ Se HG)) as HG1.
    pose proof (tables_in_mono _ _ _ _ Ee (tables_rows _ _ _ _ Se HT)) as HT1.
    assert (HS0 : sat T c0 A) by (apply (sat_rows _ c); [exact S0|intros a b []|exact HS]).
    pose proof (proj2 St0 T A HA HG1 HT1 HS0) as HS1.
    destruct (T2 T A HA HG HT) as [HS2 P2].
    { apply (sat_rows _ c0'); [exact S1|intros a b []|exact HS1]. }
    apply (sat_rows _ s'); [exact SF| |exact HS2]. intros a b Hab. change (c_perms cf) with (c_perms c2) in Hab.
    apply MP in Hab as [Hab|Hab].
    + cbn [with_mem c_perms c1 merge] in Hab. apply in_app_or in Hab as [Hab|Hab]; [apply (sat_perms _ _ _ HS1)|apply (sat_perms _ _ _ HS)]; exact Hab.
    + apply Exists_exists in Hab as (x & Hx & Hab). rewrite Forall_forall in P2. apply (P2 _ Hx). exact Hab.
  - replace (seq 0 n) with (0%nat :: seq 1 (n - 1)) by (destruct n; [lia|cbn; rewrite Nat.sub_0_r; reflexivity]).
    constructor.
    + eapply Q_rext; [|exact Q0]. eapply rext_trans; [apply rext_same; exact S1|]. eapply rext_trans; [exact E2|apply rext_same; exact SF].
    + clear - F2 SF Q_rext. clearbody cf. induction F2 as [|i x is xs Hx F2 IH]; cbn [map]; constructor; auto.
      eapply Q_rext; [apply rext_same; exact SF|exact Hx].
Qed.
End Par.
End H.
