(** Runs with interference, and runs without. *)
From Verif Require Import Prelude FieldZ Circuit Context Spec Logic Prims BaseChip RangeInfo RangeChip EccChip Msm ParWindows SpecRecorder SpecSched.

(** Own stores, newest first; the checks that must succeed in a run without interference. *)
Fixpoint own (es : list event) : list wr :=
  match es with [] => [] | EWrite true w :: es' => w :: own es' | _ :: es' => own es' end.
Fixpoint checks (es : list event) (m : mem) : Prop :=
  match es with
  | [] => True
  | EWrite true w :: es' => checks es' (w :: m)
  | EWrite false _ :: es' => checks es' m
  | ECheck x :: es' => get_fix m x = None /\ checks es' m
  end.
Fixpoint checked (es : list event) : list cell :=
  match es with [] => [] | ECheck x :: es' => x :: checked es' | _ :: es' => checked es' end.
Lemma own_app a b : own (a ++ b) = own a ++ own b.
Proof. induction a as [|[[] w|x] a IH]; cbn; congruence. Qed.
Lemma checks_app a b m : checks (a ++ b) m <-> checks a m /\ checks b (rev_append (own a) m).
Proof. revert m. induction a as [|[[] w|x] a IH]; intros m; cbn; [tauto|apply IH|apply IH|rewrite IH; tauto]. Qed.
Lemma checked_app a b : checked (a ++ b) = checked a ++ checked b.
Proof. induction a as [|[[] w|x] a IH]; cbn; congruence. Qed.
Fixpoint all_stores (es : list event) : list wr :=
  match es with [] => [] | EWrite _ w :: es' => w :: all_stores es' | _ :: es' => all_stores es' end.
Lemma all_stores_app a b : all_stores (a ++ b) = all_stores a ++ all_stores b.
Proof. induction a as [|[[] w|x] a IH]; cbn; congruence. Qed.

(** The thread's memory at the end. *)
Lemma trun_mem {X} (m : M X) c x c' es : trun m c x c' es -> c_mem c' = rev_append (all_stores es) (c_mem c).
Proof.
  induction 1; cbn in *; auto.
  - rewrite all_stores_app, <- rev_append_app. congruence.
  - rewrite all_stores_app, <- rev_append_app, <- IHtrun. reflexivity.
  - rewrite all_stores_app, <- rev_append_app. congruence.
Qed.

Definition same_place (c d : ctx) : Prop :=
  base_off c = base_off d /\ range_off c = range_off d /\ select_off c = select_off d
  /\ base_h c = base_h d /\ range_h c = range_h d /\ select_h c = select_h d.

(** A run with interference determines the run without. *)
Lemma trun_alone {X} (m : M X) c x c' es : trun m c x c' es ->
  exists ps, c_perms c' = ps ++ c_perms c /\ forall d, same_place c d -> checks es (c_mem d) ->
  exists d', m d = Ok (x, d') /\ c_mem d' = rev_append (own es) (c_mem d) /\ c_perms d' = ps ++ c_perms d /\ same_place c' d'.
Proof.
  induction 1; try solve [exists []; split; [reflexivity|]; intros d P C; eexists; split; [reflexivity|]; cbn; auto].
  - destruct IHtrun1 as (p1 & E1 & I1), IHtrun2 as (p2 & E2 & I2). exists (p2 ++ p1).
    split; [rewrite E2, E1, app_assoc; reflexivity|]. intros d P C. apply checks_app in C as [C1 C2].
    destruct (I1 d P C1) as (d1 & H1 & M1 & P1 & S1). rewrite <- M1 in C2. destruct (I2 d1 S1 C2) as (d2 & H2 & M2 & P2 & S2).
    exists d2. unfold mbind. rewrite H1, H2. split; [reflexivity|]. rewrite M2, M1, P2, P1, own_app, <- rev_append_app, app_assoc. auto.
  - destruct IHtrun as (p & E & I). exists p. split; [exact E|]. intros d P C. apply I; auto.
  - destruct IHtrun as (p & E & I). exists p. split; [exact E|]. intros d P C. apply checks_app in C as [C _].
    destruct (I d P C) as (d' & H1 & H2 & H3 & H4). exists d'. rewrite own_app. cbn. rewrite app_nil_r. auto.
  - destruct IHtrun1 as (p1 & E1 & I1), IHtrun2 as (p2 & E2 & I2). exists (p2 ++ p1).
    split; [rewrite E2, E1, app_assoc; reflexivity|]. intros d P C. apply checks_app in C as [C1 C2].
    destruct (I1 d P C1) as (d1 & H1 & M1 & P1 & S1). rewrite <- M1 in C2. destruct (I2 d1 S1 C2) as (d2 & H2 & M2 & P2 & S2).
    exists d2. change (do_writes (w :: ws) d) with (mbind (do_writes [w]) (fun _ => do_writes ws) d). unfold mbind. rewrite H1, H2.
    split; [reflexivity|]. rewrite M2, M1, P2, P1, own_app, <- rev_append_app, app_assoc. auto.
  - exists []. split; [reflexivity|]. intros d P [C _]. exists d. unfold mbind, mget. rewrite C. cbn. auto.
  - destruct IHtrun as (p & E & I). exists p. split; [exact E|]. intros d P C. destruct (I d P C) as (d' & H1 & H2).
    exists d'. split; [|exact H2]. unfold mbind, mget. rewrite <- H1. f_equal.
    destruct P as (P1 & P2 & P3 & _). destruct ch; cbn; congruence.
  - exists (rev ps). rewrite rev_append_rev. split; [reflexivity|]. intros d P C. eexists. split; [reflexivity|].
    cbn. rewrite rev_append_rev. split; [reflexivity|]. split; [reflexivity|]. exact P.
  - exists []. split; [reflexivity|]. intros d P C. eexists. split; [reflexivity|]. cbn. split; [reflexivity|]. split; [reflexivity|].
    unfold same_place in *. cbn. intuition congruence.
  - exists []. split; [reflexivity|]. intros d P C. eexists. split; [reflexivity|]. cbn. split; [reflexivity|]. split; [reflexivity|].
    unfold same_place in *. cbn. intuition congruence.
  - exists []. split; [reflexivity|]. intros d P C. eexists. split; [reflexivity|]. cbn. split; [reflexivity|]. split; [reflexivity|].
    unfold same_place in *. cbn. intuition congruence.
  - exists []. split; [reflexivity|]. intros d P C. eexists. split; [reflexivity|]. cbn. split; [reflexivity|]. split; [reflexivity|].
    unfold same_place in *. cbn. intuition congruence.
  - exists []. split; [reflexivity|]. intros d P C. eexists. split; [reflexivity|]. cbn. split; [reflexivity|]. split; [reflexivity|].
    unfold same_place in *. cbn. intuition congruence.
  - exists []. split; [reflexivity|]. intros d P C. eexists. split; [reflexivity|]. cbn. split; [reflexivity|]. split; [reflexivity|].
    unfold same_place in *. cbn. intuition congruence.
Qed.

(** The checks succeeded in the presence of the others' stores, so they succeed without. *)
Fixpoint checks_all (es : list event) (m : mem) : Prop :=
  match es with
  | [] => True
  | EWrite _ w :: es' => checks_all es' (w :: m)
  | ECheck x :: es' => get_fix m x = None /\ checks_all es' m
  end.
Lemma checks_all_app a b m : checks_all (a ++ b) m <-> checks_all a m /\ checks_all b (rev_append (all_stores a) m).
Proof. revert m. induction a as [|[[] w|x] a IH]; intros m; cbn; [tauto|apply IH|apply IH|rewrite IH; tauto]. Qed.
Lemma trun_checks {X} (m : M X) c x c' es : trun m c x c' es -> checks_all es (c_mem c).
Proof.
  induction 1; cbn; auto.
  - apply checks_all_app. rewrite <- (trun_mem _ _ _ _ _ H). auto.
  - apply checks_all_app. cbn. auto.
  - apply checks_all_app. rewrite <- (trun_mem _ _ _ _ _ H). auto.
Qed.
Lemma get_fix_cons_none w m m2 x : (get_fix m x = None -> get_fix m2 x = None) ->
  get_fix (w :: m) x = None -> get_fix (w :: m2) x = None.
Proof. intros H. destruct w as [y v|y v|y]; cbn; auto. destruct (cell_eqb y x); auto. Qed.
Lemma get_fix_cons_none' w m m2 x : (get_fix m x = None -> get_fix m2 x = None) ->
  get_fix (w :: m) x = None -> get_fix m2 x = None.
Proof. intros H. destruct w as [y v|y v|y]; cbn; auto. destruct (cell_eqb y x); [discriminate|auto]. Qed.
Lemma checks_drop es : forall m m2, (forall x, get_fix m x = None -> get_fix m2 x = None) -> checks_all es m -> checks es m2.
Proof.
  induction es as [|[[] w|x] es IH]; intros m m2 H; cbn; auto.
  - apply IH. intros x. apply get_fix_cons_none. auto.
  - apply IH. intros x. apply get_fix_cons_none'. auto.
  - intros [H1 H2]. split; [auto|]. eapply IH; eauto.
Qed.
(** Checks in other tables that agree on the cells in question. *)
Lemma checks_other es : forall m m2, (forall x, In x (checked es) -> get_fix m x = None -> get_fix m2 x = None) -> checks es m -> checks es m2.
Proof.
  induction es as [|[[] w|x] es IH]; intros m m2 H; cbn; auto.
  - apply IH. intros x Hx. apply get_fix_cons_none. auto.
  - apply IH. auto.
  - intros [H1 H2]. split; [apply H; [left; reflexivity|exact H1]|]. eapply IH; [|exact H2]. intros y Hy. apply H. right. exact Hy.
Qed.

(** Events within the rows a program takes. *)
Definition win (c c' : ctx) (x : cell) : Prop := (off_of c (c_chip x) <= c_row x < off_of c' (c_chip x))%nat.
Definition ev_win (c c' : ctx) (e : event) : Prop :=
  match e with
  | EWrite b w => b = true /\ match w with WAdv x _ | WFix x _ => win c c' x | WFlag _ => True end
  | ECheck x => win c c' x
  end.
Definition tr {X} (m : M X) : Prop := forall c x c', m c = Ok (x, c') ->
  (forall ch, off_of c ch <= off_of c' ch)%nat /\ exists es, trun m c x c' es /\ Forall (ev_win c c') es.
Lemma tr_ret {X} (x : X) : tr (mret x).
Proof. intros c y c' H. injection H as <- <-. split; [auto|]. exists []. split; constructor. Qed.
Lemma ev_win_mono c1 c2 c3 c4 e : (forall ch, off_of c1 ch <= off_of c2 ch)%nat -> (forall ch, off_of c3 ch <= off_of c4 ch)%nat ->
  ev_win c2 c3 e -> ev_win c1 c4 e.
Proof.
  intros H1 H2. destruct e as [b [x v|x v|x]|x]; cbn; auto; unfold win;
  try (specialize (H1 (c_chip x)); specialize (H2 (c_chip x)); lia).
Qed.
Lemma tr_bind {X Y} (m : M X) (k : X -> M Y) : tr m -> (forall x, tr (k x)) -> tr (mbind m k).
Proof.
  intros Hm Hk c y c'' H. apply mbind_inv in H as (x & c' & H1 & H2).
  destruct (Hm _ _ _ H1) as (O1 & es1 & T1 & F1), (Hk _ _ _ _ H2) as (O2 & es2 & T2 & F2).
  split; [intros ch; specialize (O1 ch); specialize (O2 ch); lia|]. exists (es1 ++ es2). split; [econstructor; eauto|].
  apply Forall_app. split.
  - eapply Forall_impl; [|exact F1]. intros e. apply ev_win_mono; auto.
  - eapply Forall_impl; [|exact F2]. intros e. apply ev_win_mono; auto.
Qed.

(** Inside one recorder operation: the rows [r0..r1) of a chip, offsets unchanged. *)
Definition ev_rows (ch : chip) (r0 r1 : nat) (e : event) : Prop :=
  match e with
  | EWrite b w => b = true /\ write_in ch r0 r1 w
  | ECheck x => c_chip x = ch /\ (r0 <= c_row x < r1)%nat
  end.
Definition ti {X} (ch : chip) (r0 r1 : nat) (m : M X) : Prop := forall c x c', m c = Ok (x, c') ->
  (forall ch, off_of c' ch = off_of c ch) /\ exists es, trun m c x c' es /\ Forall (ev_rows ch r0 r1) es.
Section TI.
Variable ch : chip.
Variable r0 r1 : nat.
Local Notation ti m := (ti ch r0 r1 m).
Lemma ti_bind {X Y} (m : M X) (k : X -> M Y) : ti m -> (forall x, ti (k x)) -> ti (mbind m k).
Proof.
  intros Hm Hk c y c'' H. apply mbind_inv in H as (x & c' & H1 & H2).
  destruct (Hm _ _ _ H1) as (O1 & es1 & T1 & F1), (Hk _ _ _ _ H2) as (O2 & es2 & T2 & F2).
  split; [intros h; rewrite O2, O1; reflexivity|]. exists (es1 ++ es2). split; [econstructor; eauto|]. apply Forall_app. auto.
Qed.
Lemma ti_ret {X} (x : X) : ti (mret x).
Proof. intros c y c' H. injection H as <- <-. split; [auto|]. exists []. split; constructor. Qed.
Lemma ti_panic {X} : ti (@mpanic X).
Proof. intros c y c' H. discriminate. Qed.
Lemma ti_opt {X} (o : option X) : ti (mopt o).
Proof. destruct o; [apply ti_ret|apply ti_panic]. Qed.
Lemma ti_nth {X} (l : list X) i : ti (mnth l i).
Proof. apply ti_opt. Qed.
Lemma ti_assert b : ti (massert b).
Proof. intros c y c' H. destruct b; [|discriminate]. injection H as <- <-. split; [auto|]. exists []. split; constructor. Qed.
Lemma ti_writes ws : Forall (write_in ch r0 r1) ws -> ti (do_writes ws).
Proof.
  intros F c y c' H. injection H as <- <-. split; [intros []; reflexivity|].
  exists (map (EWrite true) ws). split; [|apply Forall_map; eapply Forall_impl; [|exact F]; cbn; auto].
  clear F. revert c. induction ws as [|w ws IH]; intros c; [destruct c; constructor|].
  change (map (EWrite true) (w :: ws)) with ([EWrite true w] ++ map (EWrite true) ws).
  eapply t_writes; [apply t_write|]. apply (IH (stored w c)).
Qed.
Lemma ti_perms ps : ti (push_perms ps).
Proof. intros c y c' H. injection H as <- <-. split; [intros []; reflexivity|]. exists []. split; [apply t_perms|constructor]. Qed.
Lemma ti_base_h off : ti (bump_base_h off).
Proof. intros c y c' H. injection H as <- <-. split; [intros []; reflexivity|]. exists []. split; [apply t_base_h|constructor]. Qed.
Lemma ti_range_h off : ti (bump_range_h off).
Proof. intros c y c' H. injection H as <- <-. split; [intros []; reflexivity|]. exists []. split; [apply t_range_h|constructor]. Qed.
Lemma ti_select_h off : ti (bump_select_h off).
Proof. intros c y c' H. injection H as <- <-. split; [intros []; reflexivity|]. exists []. split; [apply t_select_h|constructor]. Qed.
Lemma ti_check x : c_chip x = ch -> (r0 <= c_row x < r1)%nat -> ti (c <- mget ;; massert (is_none (get_fix (c_mem c) x))).
Proof.
  intros H1 H2 c y c' H. apply mbind_inv in H as (c1 & c2 & E & H). injection E as <- <-. apply massert_inv in H as [H ->].
  destruct y. split; [auto|]. exists [ECheck x]. split; [|repeat constructor; auto; lia]. apply t_check. destruct (get_fix (c_mem c) x); [discriminate|auto].
Qed.
End TI.
Ltac tia := cbv zeta; repeat first [ apply ti_ret | apply ti_panic | apply ti_nth | apply ti_assert | apply ti_perms | apply ti_base_h | apply ti_range_h | apply ti_select_h
  | apply ti_check; [reflexivity|cbn; lia] | apply ti_bind; [|intros ?] | apply ti_writes; solve [auto | repeat constructor; cbn; lia]
  | match goal with |- ti _ _ _ (match ?x with _ => _ end) => destruct x end ].

Lemma ti_rec_one_line off pairs constant muls next : ti BaseChip off (off + 1) (rec_one_line off pairs constant muls next).
Proof.
  unfold rec_one_line. tia.
  - apply ti_writes. apply concat_adv_writes_in.
  - apply ti_writes. apply muls_in.
Qed.
Lemma ti_rec_one_line_with_last off pairs tail constant muls next : ti BaseChip off (off + 1) (rec_one_line_with_last off pairs tail constant muls next).
Proof.
  unfold rec_one_line_with_last. apply ti_bind; [apply ti_assert|intros _]. apply ti_bind; [apply ti_rec_one_line|intros _].
  apply ti_bind; [apply ti_perms|intros _]. apply ti_writes. apply adv_writes_in.
Qed.
(** From inside an operation to the operation: it reads the offset, records and advances. *)
Lemma tr_op {X} ch (k : nat -> M X) (step : X -> nat) (adv : X -> M unit) :
  (forall off c x c', k off c = Ok (x, c') -> (forall h, off_of c' h = off_of c h) /\ exists es, trun (k off) c x c' es /\ Forall (ev_rows ch off (off + step x)) es) ->
  (forall x c u c', adv x c = Ok (u, c') -> off_of c' ch = (off_of c ch + step x)%nat /\ (forall h, off_of c h <= off_of c' h)%nat /\ trun (adv x) c u c' []) ->
  forall Y (g : nat -> X -> Y), tr (c <- mget ;; (fun off => x <- k off ;; adv x ;;; mret (g off x)) (off_of c ch)).
Proof.
  intros Hk Ha Y g c y c' H. apply mbind_inv in H as (c1 & c2 & E & H). injection E as <- <-.
  set (off := off_of c ch) in *. apply mbind_inv in H as (x & c1 & H1 & H). apply mbind_inv in H as (u & c2 & H2 & H). injection H as <- <-.
  destruct (Hk _ _ _ _ H1) as (O1 & es & T1 & F1). destruct (Ha _ _ _ _ H2) as (O2 & O3 & T2).
  split; [intros h; rewrite <- O1; apply O3|]. exists (es ++ []  ++ []). split.
  - apply (t_offset ch (fun off => x <- k off ;; adv x ;;; mret (g off x))). fold off. eapply t_bind; [exact T1|].
    eapply t_bind; [exact T2|apply t_ret].
  - cbn [app]. rewrite app_nil_r. eapply Forall_impl; [|exact F1]. unfold win.
    assert (Q : forall z : cell, c_chip z = ch /\ (off <= c_row z < off + step x)%nat -> win c c2 z).
    { intros z [<- H]. unfold win. rewrite O2, O1. exact H. }
    intros [b [z v|z v|z]|z]; cbn; intuition.
Qed.
Lemma t_incr_base c : trun incr_base_off c tt (mkCtx (c_mem c) (c_perms c) (S (base_off c)) (range_off c) (select_off c) (base_h c) (range_h c) (select_h c)) [].
Proof. apply t_base_off. Qed.
Section G.
Context {NM : NMod}.
Lemma tr_one_line pairs constant muls next : tr (one_line pairs constant muls next).
Proof.
  apply (tr_op BaseChip (fun off => rec_one_line off pairs constant muls next) (fun _ => 1%nat) (fun _ => incr_base_off)
    ltac:(intros off c x c' H; exact (ti_rec_one_line off pairs constant muls next c x c' H))
    ltac:(intros [] c u c' H; injection H as <- <-; split; [cbn; lia|]; split; [intros []; cbn; lia|apply t_base_off])
    _ (fun off _ => mapi (fun i p => mkAv (bcell i off) (schema_val (fst p))) pairs)).
Qed.
Lemma tr_one_line_with_last pairs tail constant muls next : tr (one_line_with_last pairs tail constant muls next).
Proof.
  apply (tr_op BaseChip (fun off => rec_one_line_with_last off pairs tail constant muls next) (fun _ => 1%nat) (fun _ => incr_base_off)
    ltac:(intros off c x c' H; exact (ti_rec_one_line_with_last off pairs tail constant muls next c x c' H))
    ltac:(intros [] c u c' H; injection H as <- <-; split; [cbn; lia|]; split; [intros []; cbn; lia|apply t_base_off])
    _ (fun off _ => (mapi (fun i p => mkAv (bcell i off) (schema_val (fst p))) pairs,
        mkAv (bcell (VAR_COLUMNS - 1) off) (schema_val (fst tail))))).
Qed.
Lemma ti_one v va b off : ti RangeChip off (off + 1) (assign_one_line_range_value off v va b).
Proof. unfold assign_one_line_range_value. tia. Qed.
Lemma ti_two v va b off : ti RangeChip off (off + 2) (assign_two_line_range_value off v va b).
Proof. unfold assign_two_line_range_value. tia. Qed.
Lemma ti_three v va b off : ti RangeChip off (off + 3) (assign_three_line_range_value off v va b).
Proof. unfold assign_three_line_range_value. tia. Qed.
Lemma tr_assign_limb bn k b : tr (assign_limb bn k b).
Proof.
  refine (tr_op RangeChip (fun off => assign_range_value off (snd (decompose_bn bn k)) (fst (decompose_bn bn k)) b) snd (fun r => add_range_off (snd r))
    _ _ _ (fun _ r => fst r)).
  - intros off c [a n] c' H. unfold assign_range_value in *. destruct (b <=? COMMON_RANGE_BITS).
    { pose proof (H) as H0. apply mbind_inv in H0 as (a1 & c1 & H0 & H2). injection H2 as <- <- <-. cbn [snd].
      assert (G : ti RangeChip off (off + 1) (a <- assign_one_line_range_value off (snd (decompose_bn bn k)) (fst (decompose_bn bn k)) b ;; mret (a, 1%nat))).
      { apply ti_bind; [apply ti_one|intros; apply ti_ret]. }
      exact (G _ _ _ H). }
    destruct (b <? 2 * COMMON_RANGE_BITS); [discriminate|]. destruct (b <=? 4 * COMMON_RANGE_BITS).
    { pose proof (H) as H0. apply mbind_inv in H0 as (a1 & c1 & H0 & H2). injection H2 as <- <- <-. cbn [snd].
      assert (G : ti RangeChip off (off + 2) (a <- assign_two_line_range_value off (resize 4 0 (snd (decompose_bn bn k))) (fst (decompose_bn bn k)) b ;; mret (a, 2%nat))).
      { apply ti_bind; [apply ti_two|intros; apply ti_ret]. }
      exact (G _ _ _ H). }
    destruct (b <=? 6 * COMMON_RANGE_BITS); [|discriminate].
    pose proof (H) as H0. apply mbind_inv in H0 as (a1 & c1 & H0 & H2). injection H2 as <- <- <-. cbn [snd].
    assert (G : ti RangeChip off (off + 3) (a <- assign_three_line_range_value off (resize 6 0 (snd (decompose_bn bn k))) (fst (decompose_bn bn k)) b ;; mret (a, 3%nat))).
    { apply ti_bind; [apply ti_three|intros; apply ti_ret]. }
    exact (G _ _ _ H).
  - intros x c u c' H. injection H as <- <-. split; [reflexivity|]. split; [intros []; cbn; lia|apply t_range_off].
Qed.
Lemma tr_assign_common bn : tr (assign_common bn).
Proof.
  refine (tr_op RangeChip (fun off => assign_one_line_range_value off [fof bn] (fof bn) COMMON_RANGE_BITS) (fun _ => 1%nat) (fun _ => add_range_off 1) _ _ _ (fun _ r => r)).
  - intros off c x c' H. exact (ti_one _ _ _ _ _ _ _ H).
  - intros x c u c' H. injection H as <- <-. split; [reflexivity|]. split; [intros []; cbn; lia|apply t_range_off].
Qed.
Lemma tr_selected v off g s : tr (assign_selected_value v off g s).
Proof.
  refine (tr_op SelectChip (fun o => rec_assign_select_value o v (encode_offset g 0 off) s) (fun _ => 1%nat) (fun _ => incr_select_off) _ _ _ (fun _ r => r)).
  - intros o c x c' H. assert (G : ti SelectChip o (o + 1) (rec_assign_select_value o v (encode_offset g 0 off) s)).
    { unfold rec_assign_select_value. tia. }
    exact (G _ _ _ H).
  - intros x c u c' H. injection H as <- <-. split; [cbn; lia|]. split; [intros []; cbn; lia|apply t_select_off].
Qed.
Lemma tr_cache v off g s : tr (assign_cache_value v off g s).
Proof.
  intros c u c' H. set (m := c <- mget ;; rec_assign_cache_value (select_off c) v (encode_offset g s off) ;;; incr_select_off ;;; mret tt).
  assert (T : tr m).
  { refine (tr_op SelectChip (fun o => rec_assign_cache_value o v (encode_offset g s off)) (fun _ => 1%nat) (fun _ => incr_select_off) _ _ _ (fun _ _ => tt)).
    - intros o c0 x c1 H0. assert (G : ti SelectChip o (o + 1) (rec_assign_cache_value o v (encode_offset g s off))).
      { unfold rec_assign_cache_value. tia. }
      exact (G _ _ _ H0).
    - intros x c0 u0 c1 H0. injection H0 as <- <-. split; [cbn; lia|]. split; [intros []; cbn; lia|apply t_select_off]. }
  assert (E : m c = Ok (tt, c')).
  { unfold m. unfold assign_cache_value in H. apply mbind_inv in H as (c1 & c2 & Q & H). injection Q as <- <-.
    apply mbind_inv in H as (u1 & c1 & H1 & H2). unfold mbind, mget. rewrite H1, H2. reflexivity. }
  clear T E m. apply mbind_inv in H as (c1 & c2 & Q & H). injection Q as <- <-. apply mbind_inv in H as (u1 & c1 & H1 & H2).
  assert (G : ti SelectChip (select_off c) (select_off c + 1) (rec_assign_cache_value (select_off c) v (encode_offset g s off))).
  { unfold rec_assign_cache_value. tia. }
  destruct (G _ _ _ H1) as (O1 & es & T1 & F1). injection H2 as <- <-. split.
  - intros h. pose proof (O1 h) as O. destruct h; cbn in *; lia.
  - exists (es ++ []). split.
    + apply (t_offset SelectChip (fun o => rec_assign_cache_value o v (encode_offset g s off) ;;; incr_select_off)).
      eapply t_bind; [exact T1|apply t_select_off].
    + rewrite app_nil_r. eapply Forall_impl; [|exact F1]. pose proof (O1 SelectChip) as O. cbn in O.
      assert (Q : forall z : cell, c_chip z = SelectChip /\ (select_off c <= c_row z < select_off c + 1)%nat ->
        win c (mkCtx (c_mem c1) (c_perms c1) (base_off c1) (range_off c1) (S (select_off c1)) (base_h c1) (range_h c1) (select_h c1)) z).
      { intros z [E H]. unfold win. rewrite E. cbn. lia. }
      intros [b [z w|z w|z]|z]; cbn [ev_rows ev_win write_in]; intuition.
Qed.
Lemma gadget_tr {X} (m : M X) : gadget m -> tr m.
Proof.
  induction 1; auto using tr_ret, tr_one_line, tr_one_line_with_last, tr_assign_limb, tr_assign_common, tr_selected, tr_cache.
  - intros c x c' H. discriminate.
  - intros c x c' H. destruct b; [|discriminate]. injection H as <- <-. split; [auto|]. exists []. split; constructor.
  - apply tr_bind; auto.
Qed.
End G.
