(** Heights and copy flags: every gadget writes only at and above its starting
    offset, keeps the heights above the rows it wrote and flags both ends of the
    copies it records.  The lemmas follow the append-only ones. *)
From Verif Require Import Msm ParWindows MsmProofs SelectMsm.
From Verif Require Import Prelude FieldZ Circuit Context Spec Logic ModArith Prims BaseChip BaseProofs
  RangeInfo RangeChip IntegerChip InfoProofs IntArith RangeProofs IntInv IntSound EccChip EccProofs ScalarChip ScalarProofs
  SelectProofs Synth SpecHeights.

Record hstep (c c' : ctx) : Prop := {
  hs_off : forall ch, (off_of c ch <= off_of c' ch)%nat;
  hs_h : forall ch, (height c ch <= height c' ch)%nat;
  hs_top : forall ch, off_of c' ch = off_of c ch \/ (off_of c' ch <= height c' ch)%nat;
  hs_adv : forall x, (c_row x < off_of c (c_chip x) \/ off_of c' (c_chip x) <= c_row x)%nat ->
    get_adv (c_mem c') x = get_adv (c_mem c) x;
  hs_fix : forall x, (c_row x < off_of c (c_chip x) \/ off_of c' (c_chip x) <= c_row x)%nat ->
    get_fix (c_mem c') x = get_fix (c_mem c) x;
  hs_flag : forall x, get_flag (c_mem c) x = true -> get_flag (c_mem c') x = true;
  hs_perm : forall p, In p (c_perms c') ->
    In p (c_perms c) \/ (get_flag (c_mem c') (fst p) = true /\ get_flag (c_mem c') (snd p) = true) }.

Lemma hstep_refl c : hstep c c.
Proof. constructor; auto. Qed.
Lemma hstep_trans c1 c2 c3 : hstep c1 c2 -> hstep c2 c3 -> hstep c1 c3.
Proof.
  intros [o1 h1 t1 a1 f1 g1 p1] [o2 h2 t2 a2 f2 g2 p2]. constructor.
  - intros ch. specialize (o1 ch); specialize (o2 ch). lia.
  - intros ch. specialize (h1 ch); specialize (h2 ch). lia.
  - intros ch. specialize (h1 ch); specialize (h2 ch); specialize (t1 ch); specialize (t2 ch). lia.
  - intros x H. pose proof (o1 (c_chip x)); pose proof (o2 (c_chip x)). rewrite a2 by lia. apply a1. lia.
  - intros x H. pose proof (o1 (c_chip x)); pose proof (o2 (c_chip x)). rewrite f2 by lia. apply f1. lia.
  - auto.
  - intros p H. destruct (p2 p H) as [H2|H2]; [|auto]. destruct (p1 p H2) as [H1|[H1 H1']]; auto.
Qed.

(** What it gives. *)
Lemma hstep_covered c c' : hstep c c' -> covered c -> covered c'.
Proof.
  intros [o h t a f g p] Hc x Hx. destruct (Nat.lt_ge_cases (c_row x) (off_of c (c_chip x))) as [L|L].
  - unfold recorded in Hx. rewrite a, f in Hx by auto. specialize (Hc x Hx). specialize (h (c_chip x)). lia.
  - destruct (Nat.lt_ge_cases (c_row x) (off_of c' (c_chip x))) as [L'|L'].
    + destruct (t (c_chip x)); lia.
    + unfold recorded in Hx. rewrite a, f in Hx by auto. specialize (Hc x Hx). specialize (h (c_chip x)). lia.
Qed.
Lemma hstep_flagged c c' : hstep c c' -> flagged c -> flagged c'.
Proof.
  intros [o h t a f g p] Hc q Hq. destruct (p q Hq) as [H|H]; [|auto]. destruct (Hc q H). auto.
Qed.

(** One block of rows. *)
Lemma flag_app ws m x : get_flag (ws ++ m) x = true <-> In (WFlag x) ws \/ get_flag m x = true.
Proof.
  induction ws as [|w ws IH]; cbn [app get_flag In]; [intuition|].
  destruct w as [y v|y v|y]; try (rewrite IH; intuition; discriminate).
  destruct (cell_eqb y x) eqn:E.
  - apply cell_eqb_eq in E as ->. intuition.
  - rewrite IH. split; [intuition|]. intros [[Q|Q]|Q]; auto. injection Q as ->. rewrite cell_eqb_refl in E. discriminate.
Qed.
Lemma flag_rev_append ws m x : get_flag (rev_append ws m) x = true <-> In (WFlag x) ws \/ get_flag m x = true.
Proof. rewrite rev_append_rev, flag_app, <- in_rev. reflexivity. Qed.
Lemma block_hstep ch k ws ps c c' : block ch k ws ps c c' ->
  (forall ch', height c ch' <= height c' ch')%nat -> (off_of c ch + k <= height c' ch)%nat ->
  Forall (fun p => In (WFlag (fst p)) ws /\ In (WFlag (snd p)) ws) ps -> hstep c c'.
Proof.
  intros B Hh Ht Hp. pose proof (blk_off _ _ _ _ _ _ B) as O.
  assert (E : forall a b, chip_eqb a b = true <-> a = b) by (intros [] []; cbn; intuition discriminate).
  assert (NR : forall x, (c_row x < off_of c (c_chip x) \/ off_of c' (c_chip x) <= c_row x)%nat ->
    ~ in_rows ch (off_of c ch) (off_of c ch + k) x).
  { intros x H [<- H2]. rewrite O in H. rewrite (proj2 (E _ _) eq_refl) in H. lia. }
  constructor.
  - intros ch'. rewrite O. destruct (chip_eqb ch ch') eqn:Q; [apply E in Q as <-|]; lia.
  - exact Hh.
  - intros ch'. rewrite O. destruct (chip_eqb ch ch') eqn:Q; [apply E in Q as <-|]; auto.
  - intros x H. eapply block_adv_old; eauto.
  - intros x H. eapply block_fix_old; eauto.
  - intros x H. rewrite (blk_mem _ _ _ _ _ _ B), flag_rev_append. auto.
  - intros p H. rewrite (blk_perms _ _ _ _ _ _ B), rev_append_rev, in_app_iff, <- in_rev in H.
    destruct H as [H|H]; [|auto]. right. rewrite (blk_mem _ _ _ _ _ _ B), !flag_rev_append.
    rewrite Forall_forall in Hp. destruct (Hp p H). auto.
Qed.
Lemma bump_ge off h : (h <= bump_h off h /\ S off <= bump_h off h)%nat.
Proof. unfold bump_h. destruct (Nat.leb_spec h off); lia. Qed.

Section HP.
Context {NM : NMod}.
Definition hp {X} (m : M X) : Prop := forall c x c', m c = Ok (x, c') -> hstep c c'.
Lemma hp_ret {X} (x : X) : hp (mret x).
Proof. intros c y c' H. injection H as _ <-. apply hstep_refl. Qed.
Lemma hp_panic {X} : hp (@mpanic X).
Proof. intros c y c' H. discriminate. Qed.
Lemma hp_assert b : hp (massert b).
Proof. intros c y c' H. apply massert_inv in H as [_ ->]. apply hstep_refl. Qed.
Lemma hp_opt {X} (o : option X) : hp (mopt o).
Proof. destruct o; [apply hp_ret|apply hp_panic]. Qed.
Lemma hp_nth {X} (l : list X) i : hp (mnth l i).
Proof. apply hp_opt. Qed.
Lemma hp_get : hp mget.
Proof. intros c y c' H. injection H as _ <-. apply hstep_refl. Qed.
Lemma hp_lift {X} (r : res X) : hp (mlift r).
Proof. destruct r; [apply hp_ret|apply hp_panic]. Qed.
Lemma hp_bind {X Y} (m : M X) (k : X -> M Y) : hp m -> (forall x, hp (k x)) -> hp (mbind m k).
Proof.
  intros Hm Hk c y c'' H. apply mbind_inv in H as (x & c' & H1 & H2). eapply hstep_trans; [eapply Hm|eapply Hk]; eauto.
Qed.
Lemma hp_mapM {X Y} (f : X -> M Y) l : (forall x, hp (f x)) -> hp (mapM f l).
Proof.
  intros Hf; induction l as [|x l IH]; simpl; [apply hp_ret|].
  apply hp_bind; [auto|intros]. apply hp_bind; [auto|intros]. apply hp_ret.
Qed.
Lemma hp_foldM {X S} (f : S -> X -> M S) l s : (forall s x, hp (f s x)) -> hp (foldM f s l).
Proof.
  intros Hf; revert s; induction l as [|x l IH]; intros s; simpl; [apply hp_ret|]. apply hp_bind; auto.
Qed.
Lemma hp_ubind {X Y} (m : M (uresult X)) (k : X -> M (uresult Y)) : hp m -> (forall x, hp (k x)) -> hp (ubind m k).
Proof. intros Hm Hk. apply hp_bind; [auto|]. intros [x|e]; [auto|apply hp_ret]. Qed.
Lemma hp_ufoldM {X S} (f : S -> X -> M (uresult S)) l s : (forall s x, hp (f s x)) -> hp (ufoldM f s l).
Proof.
  intros Hf; revert s; induction l as [|x l IH]; intros s; simpl; [apply hp_ret|]. apply hp_ubind; auto.
Qed.

(** The recorder primitives. *)
Lemma adv_flags off k p q : In q (adv_perms off k p) ->
  In (WFlag (fst q)) (adv_writes off k p) /\ In (WFlag (snd q)) (adv_writes off k p).
Proof. destruct p as [[a|v] co]; cbn; [|intros []]. intros [<-|[]]. cbn. auto. Qed.
Lemma concat_flags off pairs k q : In q (concat (mapi_from k (adv_perms off) pairs)) ->
  In (WFlag (fst q)) (concat (mapi_from k (adv_writes off) pairs)) /\ In (WFlag (snd q)) (concat (mapi_from k (adv_writes off) pairs)).
Proof.
  revert k; induction pairs as [|p ps IH]; intros k; cbn [mapi_from concat]; [intros []|]. rewrite !in_app_iff.
  intros [H|H]; [apply adv_flags in H as [? ?]; auto|]. apply IH in H as [? ?]. auto.
Qed.
Lemma one_line_h pairs constant muls next c r c' : one_line pairs constant muls next c = Ok (r, c') ->
  base_h c' = bump_h (base_off c) (base_h c) /\ range_h c' = range_h c /\ select_h c' = select_h c.
Proof.
  unfold one_line. intros H.
  apply mbind_inv in H as (c0 & c1 & H1 & H). injection H1 as <- <-.
  apply mbind_inv in H as (u & c1 & H1 & H). apply rec_one_line_run in H1 as (L1 & L2 & ->).
  cbv [mbind incr_base_off mret] in H. injection H as <- <-. cbn. auto.
Qed.
Lemma one_line_with_last_h pairs tail constant muls next c r c' : one_line_with_last pairs tail constant muls next c = Ok (r, c') ->
  base_h c' = bump_h (base_off c) (base_h c) /\ range_h c' = range_h c /\ select_h c' = select_h c.
Proof.
  unfold one_line_with_last, rec_one_line_with_last. intros H.
  apply mbind_inv in H as (c0 & c1 & H1 & H). injection H1 as <- <-.
  apply mbind_inv in H as (u & c1 & H1 & H). apply mbind_inv in H1 as (u1 & c2 & H2 & H1). apply massert_inv in H2 as [_ ->].
  apply mbind_inv in H1 as (u2 & c3 & H2 & H1).
  apply rec_one_line_run in H2 as (L1 & L2 & ->).
  cbv [mbind incr_base_off mret push_perms do_writes] in H, H1. injection H1 as <- <-. injection H as <- <-. cbn. auto.
Qed.
Lemma hp_one_line pairs constant muls next : hp (one_line pairs constant muls next).
Proof.
  intros c r c' H. pose proof (one_line_h _ _ _ _ _ _ _ H) as (h1 & h2 & h3). apply one_line_inv in H as (_ & _ & B & _).
  pose proof (bump_ge (base_off c) (base_h c)) as G. eapply block_hstep; [exact B| | |].
  - intros []; cbn; lia.
  - cbn. lia.
  - apply Forall_forall. intros q H. apply concat_flags in H as [H1 H2]. unfold ol_writes. rewrite !in_app_iff. auto 6.
Qed.
Lemma hp_one_line_with_last pairs tail constant muls next : hp (one_line_with_last pairs tail constant muls next).
Proof.
  intros c r c' H. pose proof (one_line_with_last_h _ _ _ _ _ _ _ _ H) as (h1 & h2 & h3). apply one_line_with_last_inv in H as (_ & _ & B & _).
  pose proof (bump_ge (base_off c) (base_h c)) as G. eapply block_hstep; [exact B| | |].
  - intros []; cbn; lia.
  - cbn. lia.
  - apply Forall_forall. intros q H. apply in_app_iff in H as [H|H].
    + apply concat_flags in H as [H1 H2]. split; apply in_app_iff; left; unfold ol_writes; rewrite !in_app_iff; auto 6.
    + apply adv_flags in H as [H1 H2]. split; apply in_app_iff; auto.
Qed.
Lemma hp_assign_selected_value v off g s : hp (assign_selected_value v off g s).
Proof.
  intros c r c' H. pose proof (sel_inv _ _ _ _ _ _ _ H) as [_ B]. eapply block_hstep; [exact B| | |].
  - destruct c as [mm pp bo ro so bh rh sh]. cbv [assign_selected_value rec_assign_select_value mbind mget mret
      bump_select_h do_writes push_perms incr_select_off] in H. injection H as _ <-. pose proof (bump_ge so sh). intros []; cbn; lia.
  - destruct c as [mm pp bo ro so bh rh sh]. cbv [assign_selected_value rec_assign_select_value mbind mget mret
      bump_select_h do_writes push_perms incr_select_off] in H. injection H as _ <-. pose proof (bump_ge so sh). cbn; lia.
  - constructor; [split; cbn; auto 8|constructor].
Qed.
Lemma hp_assign_cache_value v off g s : hp (assign_cache_value v off g s).
Proof.
  intros c r c' H. pose proof (cache_inv _ _ _ _ _ _ _ H) as B. eapply block_hstep; [exact B| | |].
  - destruct c as [mm pp bo ro so bh rh sh]. cbv [assign_cache_value rec_assign_cache_value mbind mget mret
      bump_select_h do_writes push_perms incr_select_off] in H. injection H as _ <-. pose proof (bump_ge so sh). intros []; cbn; lia.
  - destruct c as [mm pp bo ro so bh rh sh]. cbv [assign_cache_value rec_assign_cache_value mbind mget mret
      bump_select_h do_writes push_perms incr_select_off] in H. injection H as _ <-. pose proof (bump_ge so sh). cbn; lia.
  - constructor; [split; cbn; auto 8|constructor].
Qed.
Lemma hp_assign_common bn : hp (assign_common bn).
Proof.
  intros c r c' H. pose proof (assign_common_inv _ _ _ _ H) as [B _]. 
  cbv [assign_common assign_one_line_range_value mbind mget massert mnth mopt nth_error mret
    bump_range_h do_writes add_range_off COMMON_RANGE_BITS Z.leb Z.compare Pos.compare Pos.compare_cont c_mem c_perms base_off
    range_off select_off base_h range_h select_h] in H.
  eapply block_hstep; [exact B| | |constructor];
  destruct c as [mm pp bo ro so bh rh sh]; injection H as _ <-; pose proof (bump_ge (ro + 1) rh).
  - intros []; cbn; lia.
  - cbn; lia.
Qed.
(** A range value bumps the height past the rows it takes. *)
Lemma assign_range_value_h off v va b c a k c' : assign_range_value off v va b c = Ok ((a, k), c') ->
  base_h c' = base_h c /\ select_h c' = select_h c /\ (range_h c <= range_h c' /\ off + k <= range_h c')%nat.
Proof.
  intros H. unfold assign_range_value in H.
  destruct (b <=? COMMON_RANGE_BITS);
  [|destruct (b <? 2 * COMMON_RANGE_BITS); [discriminate|destruct (b <=? 4 * COMMON_RANGE_BITS);
    [|destruct (b <=? 6 * COMMON_RANGE_BITS); [|discriminate]]]];
  unfold assign_one_line_range_value, assign_two_line_range_value, assign_three_line_range_value in H;
  apply mbind_inv in H as (a0 & c1 & H & H2); injection H2 as <- <- <-;
  repeat (let u := fresh "u" in let d := fresh "d" in let G := fresh "G" in
    apply mbind_inv in H as (u & d & G & H);
    first [apply massert_inv in G as [_ ->] | apply mopt_inv in G as [_ ->] | injection G as _ <-]); injection H as _ <-; cbn.
  - pose proof (bump_ge (off + 1) (range_h c)). lia.
  - pose proof (bump_ge (off + 2) (range_h c)). lia.
  - pose proof (bump_ge (off + 3) (range_h c)). lia.
Qed.
Lemma hp_assign_limb bn k b : hp (assign_limb bn k b).
Proof.
  intros c r c' H. pose proof (assign_limb_inv _ _ _ _ _ _ H) as (_ & B).
  unfold assign_limb in H. apply mbind_inv in H as (c0 & c1 & H1 & H). injection H1 as <- <-.
  apply mbind_inv in H as ([a kk] & c1 & H1 & H). pose proof (assign_range_value_h _ _ _ _ _ _ _ _ H1) as (h1 & h2 & h3 & h4).
  cbn [fst snd] in H. cbv [mbind add_range_off mret] in H. injection H as _ <-.
  assert (RO : range_off c1 = range_off c).
  { clear - H1. unfold assign_range_value in H1.
    destruct (b <=? COMMON_RANGE_BITS);
    [|destruct (b <? 2 * COMMON_RANGE_BITS); [discriminate|destruct (b <=? 4 * COMMON_RANGE_BITS);
      [|destruct (b <=? 6 * COMMON_RANGE_BITS); [|discriminate]]]];
    unfold assign_one_line_range_value, assign_two_line_range_value, assign_three_line_range_value in H1;
    apply mbind_inv in H1 as (a0 & c2 & H1 & H2); injection H2 as <- <- <-;
    repeat (let u := fresh "u" in let d := fresh "d" in let G := fresh "G" in
      apply mbind_inv in H1 as (u & d & G & H1);
      first [apply massert_inv in G as [_ ->] | apply mopt_inv in G as [_ ->] | injection G as _ <-]); injection H1 as _ <-; reflexivity. }
  assert (Hh : forall ch', (height c ch' <= height (mkCtx (c_mem c1) (c_perms c1) (base_off c1) (range_off c1 + kk) (select_off c1)
     (base_h c1) (range_h c1) (select_h c1)) ch')%nat) by (intros []; cbn; lia).
  destruct B as [(_ & B)|[(_ & B)|(_ & B)]];
  (eapply block_hstep; [exact B|exact Hh| |constructor]);
  pose proof (blk_off _ _ _ _ _ _ B RangeChip) as O; cbn in O |- *; lia.
Qed.
End HP.
Create HintDb hpa discriminated.
Global Hint Constants Opaque : hpa.
Global Hint Transparent acond : hpa.
Global Hint Resolve hp_ret hp_panic hp_assert hp_opt hp_nth hp_get
  hp_lift hp_one_line hp_one_line_with_last hp_assign_selected_value hp_assign_cache_value hp_assign_common hp_assign_limb : hpa.
Ltac hpa1 :=
  match goal with
  | |- hp (mbind _ _) => apply hp_bind
  | |- hp (ubind _ _) => apply hp_ubind
  | |- hp (mapM _ _) => apply hp_mapM
  | |- hp (foldM _ _ _) => apply hp_foldM
  | |- hp (ufoldM _ _ _) => apply hp_ufoldM
  | |- hp (if ?b then _ else _) => destruct b
  | |- hp (match ?x with _ => _ end) => destruct x
  end.
Ltac hpa := repeat (intros; first [solve [auto 1 with hpa nocore] | progress cbv beta zeta | hpa1]).
Section Base.
Context {NM : NMod}.
Lemma hp_one_line_add p c : hp (one_line_add p c).
Proof. unfold one_line_add. hpa. Qed.
Hint Resolve hp_one_line_add : hpa.
Lemma hp_swcol e c : hp (sum_with_constant_in_one_line e c).
Proof. unfold sum_with_constant_in_one_line. hpa. Qed.
Hint Resolve hp_swcol : hpa.
Lemma hp_swc e c : hp (sum_with_constant e c).
Proof. unfold sum_with_constant. hpa. Qed.
Hint Resolve hp_swc : hpa.
Lemma hp_add a b : hp (add a b).
Proof. unfold add. hpa. Qed.
Lemma hp_add_constant a b : hp (add_constant a b).
Proof. unfold add_constant. hpa. Qed.
Lemma hp_sub a b : hp (sub a b).
Proof. unfold sub. hpa. Qed.
Lemma hp_mul a b : hp (mul a b).
Proof. unfold mul. hpa. Qed.
Lemma hp_mul_add_constant a b c : hp (mul_add_constant a b c).
Proof. unfold mul_add_constant. hpa. Qed.
Lemma hp_mul_add a b c d e : hp (mul_add a b c d e).
Proof. unfold mul_add. hpa. Qed.
Hint Resolve hp_add hp_add_constant hp_sub hp_mul hp_mul_add_constant
  hp_mul_add : hpa.
Lemma hp_mul_add_lines f t ls : hp (mul_add_lines f t ls).
Proof.
  revert f t; induction ls as [|[[[a b] c] cc] ls IH]; intros f t; cbn [mul_add_lines]; hpa.
Qed.
Hint Resolve hp_mul_add_lines : hpa.
Lemma hp_mawnl ls : hp (mul_add_with_next_line ls).
Proof. unfold mul_add_with_next_line. hpa. Qed.
Lemma hp_invert_unsafe a : hp (invert_unsafe a).
Proof. unfold invert_unsafe. hpa. Qed.
Lemma hp_invert a : hp (invert a).
Proof. unfold invert. hpa. Qed.
Hint Resolve hp_mawnl hp_invert_unsafe hp_invert : hpa.
Lemma hp_is_zero a : hp (is_zero a).
Proof. unfold is_zero. hpa. Qed.
Lemma hp_div_unsafe a b : hp (div_unsafe a b).
Proof. unfold div_unsafe. hpa. Qed.
Lemma hp_assign_constant a : hp (assign_constant a).
Proof. unfold assign_constant. hpa. Qed.
Lemma hp_assign a : hp (assign a).
Proof. unfold assign. hpa. Qed.
Lemma hp_assign_bit a : hp (assign_bit a).
Proof. unfold assign_bit. hpa. Qed.
Lemma hp_assert_equal a b : hp (assert_equal a b).
Proof. unfold assert_equal. hpa. Qed.
Lemma hp_assert_constant a b : hp (assert_constant a b).
Proof. unfold assert_constant. hpa. Qed.
Lemma hp_assert_bit a : hp (assert_bit a).
Proof. unfold assert_bit. hpa. Qed.
Hint Resolve hp_is_zero hp_div_unsafe hp_assign_constant hp_assign
  hp_assign_bit hp_assert_equal hp_assert_constant hp_assert_bit : hpa.
Lemma hp_and a b : hp (and_ a b).
Proof. unfold and_. hpa. Qed.
Lemma hp_not a : hp (not_ a).
Proof. unfold not_. hpa. Qed.
Lemma hp_not_and a b : hp (not_and a b).
Proof. unfold not_and. hpa. Qed.
Lemma hp_or a b : hp (or_ a b).
Proof. unfold or_. hpa. Qed.
Lemma hp_xor a b : hp (xor_ a b).
Proof. unfold xor_. hpa. Qed.
Lemma hp_xnor a b : hp (xnor_ a b).
Proof. unfold xnor_. hpa. Qed.
Lemma hp_bisec c a b : hp (bisec c a b).
Proof. unfold bisec. hpa. Qed.
Lemma hp_bisec_cond c a b : hp (bisec_cond c a b).
Proof. apply hp_bisec. Qed.
Lemma hp_assert_true a : hp (assert_true a).
Proof. unfold assert_true. hpa. Qed.
Lemma hp_assert_false a : hp (assert_false a).
Proof. unfold assert_false. hpa. Qed.
Lemma hp_try_assert_false a : hp (try_assert_false a).
Proof. unfold try_assert_false. hpa. Qed.

End Base.
Global Hint Resolve hp_one_line_add hp_swcol hp_swc hp_add hp_add_constant
  hp_sub hp_mul hp_mul_add_constant
  hp_mul_add hp_mul_add_lines hp_mawnl hp_invert_unsafe hp_invert
  hp_is_zero hp_div_unsafe hp_assign_constant hp_assign
  hp_assign_bit hp_assert_equal hp_assert_constant hp_assert_bit
  hp_and hp_not hp_not_and hp_or hp_xor hp_xnor hp_bisec
  hp_bisec_cond hp_assert_true hp_assert_false hp_try_assert_false : hpa.

Section AppI.
Context {NM : NMod}.
Variable I : rinfo.
Lemma hp_native_of l : hp (native_of I l).
Proof. unfold native_of. hpa. Qed.
Lemma hp_nonleading bn : hp (assign_nonleading_limb bn).
Proof. apply hp_assign_limb. Qed.
Lemma hp_w_lead bn : hp (assign_w_ceil_leading_limb I bn).
Proof. apply hp_assign_limb. Qed.
Lemma hp_d_lead bn : hp (assign_d_leading_limb I bn).
Proof. apply hp_assign_limb. Qed.
Hint Resolve hp_native_of hp_nonleading hp_w_lead hp_d_lead : hpa.
Lemma hp_mul_column a b d p : hp (mul_column I a b d p).
Proof. unfold mul_column. hpa. Qed.
Lemma hp_mul_carry u : hp (mul_carry I u).
Proof. unfold mul_carry. hpa. Qed.
Hint Resolve hp_mul_column hp_mul_carry : hpa.
Lemma hp_mul_limbs a b d rem : hp (mul_equation_on_limbs I a b d rem).
Proof. unfold mul_equation_on_limbs. hpa. Qed.
Lemma hp_mul_native a b d rem : hp (mul_equation_on_native I a b d rem).
Proof. unfold mul_equation_on_native. hpa. Qed.
Lemma hp_assign_w x : hp (assign_w I x).
Proof. unfold assign_w. hpa. Qed.
Lemma hp_assign_d x : hp (assign_d I x).
Proof. unfold assign_d. hpa. Qed.
Hint Resolve hp_mul_limbs hp_mul_native hp_assign_w hp_assign_d : hpa.
Lemma hp_reduce_step a d r ad ar l i : hp (reduce_step I a d r ad ar l i).
Proof. unfold reduce_step. hpa. Qed.
Hint Resolve hp_reduce_step : hpa.
Lemma hp_reduce a : hp (reduce I a).
Proof. unfold reduce. hpa. Qed.
Hint Resolve hp_reduce : hpa.
Lemma hp_cond_reduce a : hp (conditionally_reduce I a).
Proof. unfold conditionally_reduce. hpa. Qed.
Lemma hp_pad_of t : hp (pad_of I t).
Proof. unfold pad_of. hpa. Qed.
Hint Resolve hp_cond_reduce hp_pad_of : hpa.
Lemma hp_int_add a b : hp (int_add I a b).
Proof. unfold int_add. hpa. Qed.
Lemma hp_int_sub a b : hp (int_sub I a b).
Proof. unfold int_sub. hpa. Qed.
Lemma hp_int_neg a : hp (int_neg I a).
Proof. unfold int_neg. hpa. Qed.
Lemma hp_int_mul a b : hp (int_mul I a b).
Proof. unfold int_mul. hpa. Qed.
Lemma hp_is_pure_zero a : hp (is_pure_zero a).
Proof. unfold is_pure_zero. hpa. Qed.
Lemma hp_is_pure_w a : hp (is_pure_w_modulus I a).
Proof. unfold is_pure_w_modulus. hpa. Qed.
Hint Resolve hp_int_add hp_int_sub hp_int_neg hp_int_mul hp_is_pure_zero
  hp_is_pure_w : hpa.
Lemma hp_is_int_zero a : hp (is_int_zero I a).
Proof. unfold is_int_zero. hpa. Qed.
Hint Resolve hp_is_int_zero : hpa.
Lemma hp_is_int_equal a b : hp (is_int_equal I a b).
Proof. unfold is_int_equal. hpa. Qed.
Lemma hp_int_div a b : hp (int_div I a b).
Proof. unfold int_div. hpa. Qed.
Lemma hp_assign_int_constant a : hp (assign_int_constant I a).
Proof. unfold assign_int_constant. hpa. Qed.
Hint Resolve hp_is_int_equal hp_int_div hp_assign_int_constant : hpa.
Lemma hp_int_unsafe_invert a : hp (int_unsafe_invert I a).
Proof. unfold int_unsafe_invert. hpa. Qed.
Lemma hp_assert_int_equal a b : hp (assert_int_equal I a b).
Proof. unfold assert_int_equal. hpa. Qed.
Lemma hp_int_square a : hp (int_square I a).
Proof. unfold int_square. hpa. Qed.
Lemma hp_int_mul_small a k : hp (int_mul_small_constant I a k).
Proof. unfold int_mul_small_constant. hpa. Qed.
Lemma hp_bisec_int c a b : hp (bisec_int I c a b).
Proof. unfold bisec_int. hpa. Qed.
End AppI.
Global Hint Resolve hp_native_of hp_nonleading hp_w_lead hp_d_lead
  hp_mul_column hp_mul_carry hp_mul_limbs hp_mul_native hp_assign_w
  hp_assign_d hp_reduce_step hp_reduce hp_cond_reduce hp_pad_of
  hp_int_add hp_int_sub hp_int_neg hp_int_mul hp_is_pure_zero
  hp_is_pure_w hp_is_int_zero hp_is_int_equal hp_int_div
  hp_assign_int_constant hp_int_unsafe_invert hp_assert_int_equal hp_int_square
  hp_int_mul_small hp_bisec_int : hpa.

Section AppE.
Context {NM : NMod}.
Variable I : rinfo.
Ltac ap := intros; repeat first [apply hp_bind; [hpa|intros ?] | hpa].
Lemma hp_assign_constant_point p : hp (assign_constant_point I p).
Proof. unfold assign_constant_point. ap. Qed.
Lemma hp_curve_sides cb x y : hp (curve_sides I cb x y).
Proof. unfold curve_sides. ap. Qed.
Hint Resolve hp_curve_sides : hpa.
Lemma hp_assign_point cb p : hp (assign_point I cb p).
Proof. unfold assign_point. ap. Qed.
Lemma hp_assign_non_zero_point cb p : hp (assign_non_zero_point I cb p).
Proof. unfold assign_non_zero_point. ap. Qed.
Lemma hp_assign_identity : hp (assign_identity I).
Proof. unfold assign_identity. ap. Qed.
Lemma hp_bisec_point k a b : hp (bisec_point I k a b).
Proof. unfold bisec_point. ap. Qed.
Lemma hp_bisec_curvature k a b : hp (bisec_curvature I k a b).
Proof. unfold bisec_curvature. ap. Qed.
Hint Resolve hp_bisec_point hp_bisec_curvature hp_assign_identity : hpa.
Lemma hp_bisec_pointc k a b : hp (bisec_point_with_curvature I k a b).
Proof. unfold bisec_point_with_curvature. ap. Qed.
Lemma hp_lambda_xy l ax ay bx : hp (lambda_xy I l ax ay bx).
Proof. unfold lambda_xy. ap. Qed.
Hint Resolve hp_lambda_xy : hpa.
Lemma hp_lambda_to_point l a b : hp (lambda_to_point I l a b).
Proof. unfold lambda_to_point. ap. Qed.
Hint Resolve hp_lambda_to_point : hpa.
Lemma hp_ecc_add a b : hp (ecc_add I a b).
Proof. unfold ecc_add. ap. Qed.
Lemma hp_ecc_double ord a : hp (ecc_double I ord a).
Proof. unfold ecc_double. ap. Qed.
Lemma hp_ecc_assert_equal a b : hp (ecc_assert_equal I a b).
Proof. unfold ecc_assert_equal. ap. Qed.
Lemma hp_ecc_neg a : hp (ecc_neg I a).
Proof. unfold ecc_neg. ap. Qed.
Lemma hp_ecc_reduce a : hp (ecc_reduce I a).
Proof. unfold ecc_reduce. ap. Qed.
Lemma hp_curvature_of x y : hp (curvature_of I x y).
Proof. unfold curvature_of. ap. Qed.
Hint Resolve hp_ecc_reduce hp_curvature_of : hpa.
Lemma hp_ecc_reduce_with_curvature a : hp (ecc_reduce_with_curvature I a).
Proof. unfold ecc_reduce_with_curvature. ap. Qed.
Lemma hp_to_pointc a : hp (to_point_with_curvature I a).
Proof. unfold to_point_with_curvature. ap. Qed.
Lemma hp_ecc_encode a : hp (ecc_encode I a).
Proof. unfold ecc_encode. ap. Qed.
Lemma hp_lambda_nz l a b : hp (lambda_to_point_non_zero I l a b).
Proof. unfold lambda_to_point_non_zero. ap. Qed.
Hint Resolve hp_lambda_nz : hpa.
Lemma hp_ecc_add_unsafe a b : hp (ecc_add_unsafe I a b).
Proof. unfold ecc_add_unsafe. ap. Qed.
Lemma hp_ecc_double_unsafe a : hp (ecc_double_unsafe I a).
Proof. unfold ecc_double_unsafe. ap. Qed.
Lemma hp_ecc_neg_nz a : hp (ecc_neg_non_zero I a).
Proof. unfold ecc_neg_non_zero. ap. Qed.
Lemma hp_ecc_reduce_nz a : hp (ecc_reduce_non_zero I a).
Proof. unfold ecc_reduce_non_zero. ap. Qed.
Lemma hp_ecc_bisec_nz k a b : hp (ecc_bisec_non_zero_point I k a b).
Proof. unfold ecc_bisec_non_zero_point. ap. Qed.
Lemma hp_assert_equal_nz a b : hp (ecc_assert_equal_non_zero I a b).
Proof. unfold ecc_assert_equal_non_zero. ap. Qed.
Lemma hp_downgrade a : hp (ecc_non_zero_point_downgrade a).
Proof. unfold ecc_non_zero_point_downgrade. ap. Qed.
Lemma hp_bisec_to_nz a b : hp (ecc_bisec_to_non_zero_point I a b).
Proof. unfold ecc_bisec_to_non_zero_point. ap. Qed.
End AppE.
Global Hint Resolve hp_assign_constant_point hp_curve_sides hp_assign_point
  hp_assign_non_zero_point hp_assign_identity hp_bisec_point hp_bisec_curvature
  hp_bisec_pointc hp_lambda_xy hp_lambda_to_point hp_ecc_add hp_ecc_double
  hp_ecc_assert_equal hp_ecc_neg hp_ecc_reduce hp_curvature_of
  hp_ecc_reduce_with_curvature hp_to_pointc hp_ecc_encode hp_lambda_nz
  hp_ecc_add_unsafe hp_ecc_double_unsafe hp_ecc_neg_nz hp_ecc_reduce_nz
  hp_ecc_bisec_nz hp_assert_equal_nz hp_downgrade hp_bisec_to_nz : hpa.

Section AppS.
Context {NM : NMod}.
Lemma hp_to_windows W b : hp (to_windows W b).
Proof. unfold to_windows. hpa. Qed.
Lemma hp_native_step s st i : hp (native_step s st i).
Proof. unfold native_step. hpa. Qed.
Hint Resolve hp_to_windows hp_native_step : hpa.
Lemma hp_dec_native W s : hp (decompose_scalar_native W s).
Proof. unfold decompose_scalar_native. hpa. Qed.
Lemma hp_general_step t v st i : hp (general_step t v st i).
Proof. unfold general_step. hpa. Qed.
Hint Resolve hp_general_step : hpa.
Lemma hp_general_limb t l : hp (general_limb t l).
Proof. unfold general_limb. hpa. Qed.
Hint Resolve hp_general_limb : hpa.
Lemma hp_dec_general I W s : hp (decompose_scalar_general I W s).
Proof. unfold decompose_scalar_general. hpa. Qed.
End AppS.
Global Hint Resolve hp_to_windows hp_native_step hp_dec_native hp_general_step
  hp_general_limb hp_dec_general : hpa.

Section AppM.
Context {NM : NMod}.
Variable I : rinfo.
Lemma hp_bisec_pairs b : forall n cs, (length cs <= n)%nat -> hp (bisec_pairs I b cs).
Proof.
  induction n as [|n IH]; intros [|a [|b0 cs]] H; cbn [bisec_pairs]; try solve [hpa]; cbn [length] in H; try lia.
  apply hp_bind; [hpa|intros p]. apply hp_bind; [apply IH; lia|intros ps]. hpa.
Qed.
Lemma hp_bisec_candidate cs bits : hp (bisec_candidate_non_zero I cs bits).
Proof.
  unfold bisec_candidate_non_zero. apply hp_bind; [|intros; hpa].
  apply hp_foldM. intros. eapply hp_bisec_pairs. reflexivity.
Qed.
Lemma hp_group_candidates cache init chunk : (forall i p, hp (cache i p)) ->
  hp (group_candidates I cache init chunk).
Proof.
  intros Hc. unfold group_candidates. apply hp_bind; [auto|intros _]. apply hp_ufoldM. intros cl i. cbv zeta.
  apply hp_bind; [hpa|intros c]. apply hp_bind; [hpa|intros q].
  apply hp_ubind; [hpa|intros p]. apply hp_bind; [hpa|intros p']. apply hp_bind; [auto|intros; hpa].
Qed.
Lemma hp_all_candidates cache l ln gs : (forall g i p, hp (cache g i p)) ->
  hp (all_candidates I cache l ln gs).
Proof.
  intros Hc. unfold all_candidates. apply hp_ufoldM. intros cs gc. cbv zeta.
  apply hp_ubind; [apply hp_group_candidates; auto|intros; hpa].
Qed.
Lemma hp_window_body pick an cands groups wi : (forall g cs bs, hp (pick g cs bs)) ->
  hp (window_body I pick an cands groups wi).
Proof.
  intros Hp. unfold window_body. apply hp_ufoldM. intros acc gi.
  apply hp_bind; [hpa|intros g]. apply hp_bind; [apply hp_mapM; intros; hpa|intros bs].
  apply hp_bind; [hpa|intros cs]. apply hp_bind; [auto|intros ci]. hpa.
Qed.

End AppM.
Section AppX.
Context {NM : NMod}.
Variable I : rinfo.
Lemma hp_assign_cache_integer p sc g off : hp (assign_cache_integer I p sc g off).
Proof. unfold assign_cache_integer. hpa. Qed.
Lemma hp_assign_selected_integer p sc g off : hp (assign_selected_integer I p sc g off).
Proof. unfold assign_selected_integer. apply hp_bind; [apply hp_foldM; intros; hpa|intros; hpa]. Qed.
End AppX.
#[export] Hint Resolve hp_assign_cache_integer hp_assign_selected_integer : hpa.
Section AppY.
Context {NM : NMod}.
Variable I : rinfo.
Lemma hp_assign_cache_point_non_zero p g sc : hp (assign_cache_point_non_zero I p g sc).
Proof. unfold assign_cache_point_non_zero. hpa. Qed.
Lemma hp_assign_selected_point_non_zero p sc g : hp (assign_selected_point_non_zero I p sc g).
Proof. unfold assign_selected_point_non_zero. hpa. Qed.
Lemma hp_assign_cache_point p g sc : hp (assign_cache_point I p g sc).
Proof. unfold assign_cache_point. hpa. Qed.
Lemma hp_assign_selected_point p sc g : hp (assign_selected_point I p sc g).
Proof. unfold assign_selected_point. hpa. Qed.
Lemma hp_pick_candidate cs bs : hp (pick_candidate_non_zero cs bs).
Proof. unfold pick_candidate_non_zero. hpa. Qed.
End AppY.
#[export] Hint Resolve hp_assign_cache_point_non_zero hp_assign_selected_point_non_zero
  hp_assign_cache_point hp_assign_selected_point hp_pick_candidate : hpa.


(** ** Programs that end in a [Result], and the cloned windows *)
Section UHP.
Context {NM : NMod}.
Definition uhp {X} (m : M (uresult X)) : Prop := forall c x c', m c = Ok (UOk x, c') -> hstep c c'.
Lemma uhp_of {X} (m : M (uresult X)) : hp m -> uhp m.
Proof. intros H c x c' E. eapply H; eauto. Qed.
Lemma uhp_ubind {X Y} (m : M (uresult X)) (k : X -> M (uresult Y)) : uhp m -> (forall x, uhp (k x)) -> uhp (ubind m k).
Proof.
  intros Hm Hk c y c'' H. apply ubind_inv in H as (x & c' & H1 & H2). eapply hstep_trans; [eapply Hm|eapply Hk]; eauto.
Qed.
Lemma uhp_bind {X Y} (m : M X) (k : X -> M (uresult Y)) : hp m -> (forall x, uhp (k x)) -> uhp (mbind m k).
Proof.
  intros Hm Hk c y c'' H. apply mbind_inv in H as (x & c' & H1 & H2). eapply hstep_trans; [eapply Hm|eapply Hk]; eauto.
Qed.
Lemma uhp_nth_k {X Y} (l : list X) i (k : X -> M (uresult Y)) :
  (forall x, nth_error l i = Some x -> uhp (k x)) -> uhp (mbind (mnth l i) k).
Proof.
  intros Hk c y c'' H. apply mbind_inv in H as (x & c' & H1 & H2). apply mopt_inv in H1 as [H1 ->]. eapply Hk; eauto.
Qed.
Lemma uhp_assert_k {Y} b (k : unit -> M (uresult Y)) : (b = true -> uhp (k tt)) -> uhp (mbind (massert b) k).
Proof.
  intros Hk c y c'' H. apply mbind_inv in H as ([] & c' & H1 & H2). apply massert_inv in H1 as [H1 ->]. eapply Hk; eauto.
Qed.
Lemma uhp_ufoldM {X S} (f : S -> X -> M (uresult S)) l s : (forall s x, uhp (f s x)) -> uhp (ufoldM f s l).
Proof.
  intros H. revert s. induction l as [|x l IH]; intros s; cbn [ufoldM]; [apply uhp_of, hp_ret|]. apply uhp_ubind; auto.
Qed.

Section Clones.
Context {X : Type}.
Variable f : nat -> M (uresult X).
Hypothesis f_hp : forall i, uhp (f i).
Definition odim (d : offs) (ch : chip) : nat := match ch with BaseChip => o_base d | RangeChip => o_range d | SelectChip => o_select d end.

Lemma run_clones_hs c diff k : forall i m xs m', run_clones f c diff (seq i k) m = Ok (UOk xs, m') ->
  (forall x, (c_row x < off_of c (c_chip x) + odim diff (c_chip x) * i \/ off_of c (c_chip x) + odim diff (c_chip x) * (i + k) <= c_row x)%nat ->
     get_adv m' x = get_adv m x /\ get_fix m' x = get_fix m x)
  /\ (forall x, get_flag m x = true -> get_flag m' x = true)
  /\ Forall (fun x => forall p, In p (c_perms (snd x)) -> get_flag m' (fst p) = true /\ get_flag m' (snd p) = true) xs
  /\ (k = O /\ xs = [] \/ exists xs' x, xs = xs' ++ [x] /\ (forall ch, height c ch <= height (snd x) ch)%nat
       /\ forall ch, (odim diff ch = O \/ off_of c ch + odim diff ch * (i + k) <= height (snd x) ch)%nat).
Proof.
  induction k as [|k IH]; intros i m xs m' H; cbn [seq run_clones] in H.
  - injection H as <- <-. auto 6.
  - fold (stage c diff m i) in H. destruct (f i (stage c diff m i)) as [[[x|e] ci']|] eqn:E; try discriminate.
    destruct (off_eqb _ _) eqn:O; [|discriminate].
    destruct (run_clones f c diff (seq (S i) k) (c_mem ci')) as [[[ys|e] m1]|] eqn:R; try discriminate.
    injection H as <- <-. pose proof (f_hp i _ _ _ E) as HS. apply off_eqb_eq in O.
    assert (OO : forall ch, off_of ci' ch = (off_of c ch + odim diff ch * S i)%nat).
    { intros ch. pose proof (hs_off _ _ HS ch) as LE. rewrite stage_off in LE.
      destruct O as (O1 & O2 & O3). cbn [off_sub offset_of o_base o_range o_select] in O1, O2, O3.
      unfold stage, clone_with_offset, off_scale in O1, O2, O3.
      cbn [base_off range_off select_off o_base o_range o_select] in O1, O2, O3.
      destruct ch; cbn [off_of odim] in *; lia. }
    assert (SO : forall ch, off_of (stage c diff m i) ch = (off_of c ch + odim diff ch * i)%nat) by (intros []; reflexivity).
    destruct (IH _ _ _ _ R) as (A & F & P & L). split; [|split; [|split]].
    + intros x0 Hx. destruct (A x0) as [A1 A2]; [replace (S i + k)%nat with (i + S k)%nat by lia; lia|]. rewrite A1, A2.
      pose proof (hs_adv _ _ HS x0) as B1. pose proof (hs_fix _ _ HS x0) as B2. rewrite SO, OO in B1, B2.
      split; [apply B1|apply B2]; nia.
    + intros x0 Hx. apply F, (hs_flag _ _ HS). exact Hx.
    + constructor; [|exact P]. cbn [snd]. intros p Hp. destruct (hs_perm _ _ HS p Hp) as [Q|[Q1 Q2]]; [destruct Q|auto].
    + right. destruct L as [(-> & ->)|(xs' & x0 & -> & L1 & L2)].
      * exists [], (x, ci'). split; [reflexivity|]. split; [exact (hs_h _ _ HS)|]. intros ch. cbn [snd].
        destruct (hs_top _ _ HS ch) as [T|T]; rewrite OO in T.
        -- rewrite SO in T. left. nia.
        -- right. replace (i + 1)%nat with (S i) by lia. exact T.
      * exists ((x, ci') :: xs'), x0. split; [reflexivity|]. split; [auto|]. intros ch.
        replace (i + S k)%nat with (S i + k)%nat by lia. auto.
Qed.
Lemma merge_h m c o ch : (height o ch <= height (merge m c o) ch)%nat.
Proof. destruct ch; cbn; lia. Qed.
Lemma merge_perms m (xs : list (X * ctx)) : forall c p, In p (c_perms (fold_left (fun c x => merge m c (snd x)) xs c)) ->
  In p (c_perms c) \/ exists x, In x xs /\ In p (c_perms (snd x)).
Proof.
  induction xs as [|x xs IH]; intros c p; cbn [fold_left]; [auto|]. intros H. apply IH in H as [H|(y & Hy & H)].
  - cbn [merge c_perms] in H. apply in_app_iff in H as [H|H]; [right; exists x; cbn; auto|auto].
  - right. exists y. cbn. auto.
Qed.
Lemma merge_fold_mem m (xs : list (X * ctx)) : forall c, c_mem c = m -> c_mem (fold_left (fun c x => merge m c (snd x)) xs c) = m.
Proof. induction xs as [|x xs IH]; intros c H; cbn [fold_left]; auto. Qed.
Lemma merge_fold_off m (xs : list (X * ctx)) ch : forall c, off_of (fold_left (fun c x => merge m c (snd x)) xs c) ch = off_of c ch.
Proof. induction xs as [|x xs IH]; intros c; cbn [fold_left]; [auto|]. rewrite IH. destruct ch; reflexivity. Qed.

Lemma uhp_par_windows windows : (windows = O -> forall c x c', f O c = Ok (UOk x, c') -> False) -> uhp (par_windows f windows).
Proof.
  intros H0 c ls c' H. destruct windows as [|w].
  { exfalso. unfold par_windows in H. set (c0 := clone_with_offset (c_mem c) (mkOff 0 0 0) c) in H.
    destruct (f 0%nat c0) as [[[x0|e] c0']|] eqn:E0; try discriminate. eapply (H0 eq_refl); exact E0. }
  clear H0. unfold par_windows in H. set (c0 := clone_with_offset (c_mem c) (mkOff 0 0 0) c) in H.
  destruct (f 0%nat c0) as [[[x0|e] c0']|] eqn:E0; try discriminate. pose proof (f_hp _ _ _ _ E0) as HS.
  set (diff := off_sub (offset_of c0') (offset_of c0)) in H. set (c1 := merge (c_mem c0') c c0') in H.
  destruct (run_clones f c1 diff (seq 1 (S w - 1)) (c_mem c1)) as [[[xs|e] m]|] eqn:R; try discriminate.
  injection H as <- <-.
  assert (D : forall ch, off_of c0' ch = (off_of c ch + odim diff ch)%nat).
  { intros ch. pose proof (hs_off _ _ HS ch) as LE. destruct ch; cbn in *; lia. }
  assert (C0 : forall ch, off_of c0 ch = off_of c ch) by (intros []; cbn; lia).
  assert (H0 : forall ch, height c0 ch = height c ch) by (intros []; reflexivity).
  assert (C1 : forall ch, off_of c1 ch = off_of c ch) by (intros []; reflexivity).
  assert (H1 : forall ch, (height c ch <= height c1 ch)%nat).
  { intros ch. rewrite <- H0. etransitivity; [apply (hs_h _ _ HS)|]. apply merge_h. }
  destruct (run_clones_hs c1 diff _ _ _ _ _ R) as (A & F & P & L). replace (1 + (S w - 1))%nat with (S w) in A, L by lia.
  set (c2 := fold_left (fun c x => merge m c (snd x)) xs (with_mem m c1)).
  assert (M2 : c_mem c2 = m) by (apply merge_fold_mem; reflexivity).
  assert (O2 : forall ch, off_of c2 ch = off_of c ch) by (intros ch; unfold c2; rewrite merge_fold_off; destruct ch; reflexivity).
  set (cf := apply_offset_diff (off_scale (S w) diff) c2).
  assert (OF : forall ch, off_of cf ch = (off_of c ch + odim diff ch * S w)%nat).
  { intros ch. rewrite <- O2. destruct ch; reflexivity. }
  assert (HF : forall ch, height cf ch = height c2 ch) by (intros []; reflexivity).
  assert (HH : (forall ch, height c1 ch <= height c2 ch)%nat /\ forall ch, odim diff ch = O \/ (off_of c ch + odim diff ch * S w <= height c2 ch)%nat).
  { destruct L as [(Hw & ->)|(xs' & x & -> & L1 & L2)].
    - subst c2. cbn [fold_left]. split; [intros []; cbn; lia|]. intros ch. assert (w = O) by lia. subst w.
      destruct (hs_top _ _ HS ch) as [T|T]; [left; rewrite D, C0 in T; lia|right]. rewrite D in T.
      pose proof (merge_h (c_mem c0') c c0' ch) as G. fold c1 in G.
      assert (height (with_mem m c1) ch = height c1 ch) by (destruct ch; reflexivity). lia.
    - subst c2. rewrite fold_left_app. cbn [fold_left]. set (d := fold_left _ xs' _).
      split; intros ch; pose proof (merge_h m d (snd x) ch); specialize (L1 ch); specialize (L2 ch); rewrite ?C1 in *; lia. }
  destruct HH as [HH1 HH2]. constructor.
  - intros ch. rewrite OF. lia.
  - intros ch. rewrite HF. specialize (HH1 ch); specialize (H1 ch). lia.
  - intros ch. rewrite OF, HF. destruct (HH2 ch) as [->|]; auto.
  - intros x Hx. change (c_mem cf) with (c_mem c2). rewrite M2. rewrite OF in Hx.
    rewrite (proj1 (A x ltac:(rewrite C1; nia))). change (c_mem c1) with (c_mem c0').
    apply (hs_adv _ _ HS x). rewrite D, C0. nia.
  - intros x Hx. change (c_mem cf) with (c_mem c2). rewrite M2. rewrite OF in Hx.
    rewrite (proj2 (A x ltac:(rewrite C1; nia))). change (c_mem c1) with (c_mem c0').
    apply (hs_fix _ _ HS x). rewrite D, C0. nia.
  - intros x Hx. change (c_mem cf) with (c_mem c2). rewrite M2. apply F. apply (hs_flag _ _ HS). exact Hx.
  - intros p Hp. change (c_mem cf) with (c_mem c2). rewrite M2. change (c_perms cf) with (c_perms c2) in Hp.
    apply merge_perms in Hp as [Hp|(x & Hx & Hp)].
    + cbn [with_mem c_perms c1 merge] in Hp. apply in_app_iff in Hp as [Hp|Hp]; [|auto].
      destruct (hs_perm _ _ HS p Hp) as [Q|[Q1 Q2]]; [destruct Q|]. right. split; apply F; assumption.
    + right. rewrite Forall_forall in P. eapply P; eauto.
Qed.
End Clones.
End UHP.

Section Msm.
Context {NM : NMod}.
Variable I : rinfo.
Lemma par_side' pick an cands (n best : nat) bits bits0 :
  negb ((n + best - 1) / best =? 0)%nat = true -> nth_error bits 0 = Some bits0 ->
  length bits0 = O -> forall c x c',
  window_body I pick an cands (chunks ((n + (n + best - 1) / best - 1) / ((n + best - 1) / best)) bits) 0 c = Ok (UOk x, c') -> False.
Proof.
  intros NG Hb0 W0 c x c' H. destruct bits as [|b bits]; [discriminate|]. injection Hb0 as ->.
  set (ng := ((n + best - 1) / best)%nat) in *. assert (N1 : (ng <> 0)%nat) by (destruct (ng =? 0)%nat eqn:E; [discriminate|apply Nat.eqb_neq; auto]).
  assert (N2 : (1 <= (n + ng - 1) / ng)%nat).
  { apply Nat.div_le_lower_bound; [auto|]. destruct n eqn:L; [|lia]. exfalso. apply N1. unfold ng.
    destruct best; [reflexivity|]. apply Nat.div_small. lia. }
  destruct (chunks_cons _ bits0 bits N2) as (g & gs & E). eapply window_body_none; [exact E| |exact H].
  destruct bits0; [auto|discriminate].
Qed.
End Msm.
Ltac uha := cbv zeta; repeat first
  [ apply uhp_of, hp_all_candidates; solve [auto]
  | apply uhp_assert_k; intros ?
  | apply uhp_nth_k; intros ? ?
  | match goal with |- uhp (ubind _ _) => apply uhp_ubind; [|intros ?] end
  | match goal with |- uhp (mbind _ _) => idtac end; apply uhp_bind; [solve [auto | hpa | apply hp_mapM; intros; first [solve [auto] | hpa]]|intros ?]
  | apply uhp_par_windows; [intros; apply uhp_of, hp_window_body; auto|solve [eapply par_side'; eauto]]
  | apply uhp_ufoldM; intros ? ?
  | match goal with |- uhp (if ?b then _ else _) => destruct b end
  | apply uhp_of; solve [hpa] ].
Section AppY.
Context {NM : NMod}.
Variable I : rinfo.
Lemma uhp_msm_batch {S} (dec : S -> M (list (list acond))) pick cache cv_b best points scalars ra rl :
  (forall s, hp (dec s)) -> (forall g cs bs, hp (pick g cs bs)) -> (forall g i p, hp (cache g i p)) ->
  uhp (msm_batch I cv_b dec pick cache best points scalars ra rl).
Proof. intros Hd Hp Hc. unfold msm_batch. uha.
Qed.
End AppY.


(** Both variants of [msm]. *)
Section Top.
Context {NM : NMod}.
Variable I : rinfo.
Variable cv_b : Z.
Context {Sc : Type}.
Variable dec_ : Sc -> M (list (list acond)).
Variable bis_ : acond -> Sc -> Sc -> M Sc.
Variable zero_ : M Sc.
Hypothesis dec_hp : forall s, hp (dec_ s).
Hypothesis bis_hp : forall c s t, hp (bis_ c s t).
Hypothesis zero_hp : hp zero_.
Lemma hp_msm gen ra rl prefix points scalars : hp (msm I cv_b dec_ bis_ zero_ gen ra rl prefix points scalars).
Proof.
  intros c x c' E. unfold msm, msm_unsafe in E.
  apply mbind_inv in E as (q & c1 & E & E2). apply mbind_inv in E as (n & c2 & E3 & E). apply mbind_inv in E as (z & c3 & E4 & E).
  apply mbind_inv in E as (l & c4 & E5 & E).
  assert (AP : forall z n l, hp (mapM (fun ps : apoint * Sc => s0 <- bis_ (p_z (fst ps)) z (snd ps) ;; p <- ecc_bisec_to_non_zero_point I (fst ps) n ;; mret (p, s0)) l)).
  { intros z0 n0 l0. apply hp_mapM. intros e. apply hp_bind; [auto|intros; hpa]. }
  assert (A3 : hp (assign_non_zero_point I cv_b gen)) by hpa.
  pose proof (A3 _ _ _ E3) as X2. pose proof (zero_hp _ _ _ E4) as X3. pose proof (AP _ _ _ _ _ _ E5) as X4.
  destruct prefix as [g|].
  - apply mbind_inv in E as (q0 & c5 & E6 & E). injection E as <- <-. destruct q0 as [q0|e]; [|discriminate]. cbn in E2. injection E2 as <- <-.
    assert (UB : uhp (msm_batch_on_group_non_zero_with_select_chip I cv_b dec_ g (map fst l) (map snd l) ra rl)).
    { unfold msm_batch_on_group_non_zero_with_select_chip. do 2 (apply uhp_assert_k; intros _).
      apply uhp_msm_batch; [auto|intros; hpa|intros; hpa]. }
    pose proof (UB _ _ _ E6). eauto using hstep_trans.
  - apply mbind_inv in E as (q0 & c5 & E6 & E). injection E as <- <-. destruct q0 as [q0|e]; [|discriminate]. cbn in E2. injection E2 as <- <-.
    assert (UB : uhp (msm_batch_on_group_non_zero_without_select_chip I cv_b dec_ (map fst l) (map snd l) ra rl)).
    { unfold msm_batch_on_group_non_zero_without_select_chip. apply uhp_msm_batch; [auto|intros; apply hp_bisec_candidate|intros; hpa]. }
    pose proof (UB _ _ _ E6). eauto using hstep_trans.
Qed.
End Top.
