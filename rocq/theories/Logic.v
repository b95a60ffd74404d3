(** Well-formedness and extension of recorder states, satisfaction of the part
    of the circuit recorded so far, and the two program logics:
    [ST] (soundness, for a fixed arbitrary assignment) and [CT] (honest run). *)
From Verif Require Import Prelude FieldZ Circuit Context.
From Verif Require Export Spec.
From Coq Require Import Setoid.

(** ** Memory *)

Lemma chip_eqb_eq a b : chip_eqb a b = true <-> a = b.
Proof. destruct a, b; simpl; split; congruence. Qed.
Lemma cell_eqb_eq a b : cell_eqb a b = true <-> a = b.
Proof.
  unfold cell_eqb. rewrite !andb_true_iff, chip_eqb_eq, !Nat.eqb_eq.
  destruct a, b; simpl; split; [intros [[-> ->] ->]; reflexivity|].
  intros H; inversion H; auto.
Qed.
Lemma cell_eqb_refl a : cell_eqb a a = true.
Proof. apply cell_eqb_eq; reflexivity. Qed.
Lemma cell_eqb_neq a b : cell_eqb a b = false <-> a <> b.
Proof.
  split; intros H.
  - intros E; apply cell_eqb_eq in E; congruence.
  - destruct (cell_eqb a b) eqn:E; auto. apply cell_eqb_eq in E; contradiction.
Qed.

Fixpoint assoc (l : list (cell * Z)) (x : cell) : option Z :=
  match l with
  | [] => None
  | (y, v) :: l' => if cell_eqb y x then Some v else assoc l' x
  end.
Fixpoint fixes (m : mem) : list (cell * Z) :=
  match m with
  | [] => []
  | WFix y v :: m' => (y, v) :: fixes m'
  | _ :: m' => fixes m'
  end.
Fixpoint advs (m : mem) : list (cell * Z) :=
  match m with
  | [] => []
  | WAdv y v :: m' => (y, v) :: advs m'
  | _ :: m' => advs m'
  end.

Lemma get_fix_assoc m x : get_fix m x = assoc (fixes m) x.
Proof. induction m as [|[y v|y v|y] m IH]; simpl; rewrite ?IH; reflexivity. Qed.
Lemma get_adv_assoc m x : get_adv m x = assoc (advs m) x.
Proof. induction m as [|[y v|y v|y] m IH]; simpl; rewrite ?IH; reflexivity. Qed.
Lemma fixes_app a b : fixes (a ++ b) = fixes a ++ fixes b.
Proof. induction a as [|[y v|y v|y] m IH]; simpl; rewrite ?IH; reflexivity. Qed.
Lemma advs_app a b : advs (a ++ b) = advs a ++ advs b.
Proof. induction a as [|[y v|y v|y] m IH]; simpl; rewrite ?IH; reflexivity. Qed.
Lemma fixes_rev_append ws m : fixes (rev_append ws m) = rev_append (fixes ws) (fixes m).
Proof.
  revert m; induction ws as [|[y v|y v|y] ws IH]; intros m; simpl; rewrite ?IH; reflexivity.
Qed.
Lemma advs_rev_append ws m : advs (rev_append ws m) = rev_append (advs ws) (advs m).
Proof.
  revert m; induction ws as [|[y v|y v|y] ws IH]; intros m; simpl; rewrite ?IH; reflexivity.
Qed.
Lemma assoc_skip (P : cell -> Prop) l m x :
  Forall (fun p => P (fst p)) l -> ~ P x -> assoc (rev_append l m) x = assoc m x.
Proof.
  revert m; induction l as [|[y v] l IH]; intros m HF HP; simpl; [reflexivity|].
  inversion HF as [|? ? Hy HF']; subst. rewrite IH; auto. simpl.
  destruct (cell_eqb y x) eqn:E; [|reflexivity].
  apply cell_eqb_eq in E; subst; contradiction.
Qed.
Lemma assoc_in l x v : assoc l x = Some v -> In (x, v) l.
Proof.
  induction l as [|[y u] l IH]; simpl; [discriminate|].
  destruct (cell_eqb y x) eqn:E; intros H.
  - apply cell_eqb_eq in E; injection H as ->; subst; auto.
  - auto.
Qed.
Lemma assoc_rev_append_in l m x v :
  assoc (rev_append l m) x = Some v -> In (x, v) l \/ assoc m x = Some v.
Proof.
  revert m; induction l as [|[y u] l IH]; intros m H; simpl in *; [auto|].
  apply IH in H. destruct H as [H|H]; [auto|]. simpl in H.
  destruct (cell_eqb y x) eqn:E; [|auto].
  apply cell_eqb_eq in E; injection H as ->; subst; auto.
Qed.

(** ** States *)

Lemma used_extends c c' ch r : extends c c' -> used c ch r -> used c' ch r.
Proof.
  intros E U. destruct U as (col & v & H). exists col, v.
  rewrite (ext_fix _ _ E) by (exists col, v; auto). exact H.
Qed.
Lemma extends_refl c : extends c c.
Proof. constructor; auto using incl_refl. Qed.
Lemma extends_trans a b c : extends a b -> extends b c -> extends a c.
Proof.
  intros E F. constructor.
  - intros ch r U col. rewrite (ext_fix _ _ F) by eauto using used_extends.
    apply (ext_fix _ _ E); auto.
  - intros ch r U col. rewrite (ext_adv _ _ F) by eauto using used_extends.
    apply (ext_adv _ _ E); auto.
  - eapply incl_tran; [apply E | apply F].
  - intros ch. etransitivity; [apply E | apply F].
Qed.
Lemma wf_new : wf ctx_new.
Proof. constructor; simpl; discriminate. Qed.

(** Effect of a block of stores to fresh rows [off0, off1) of one chip. *)
Definition write_in (ch : chip) (r0 r1 : nat) (w : wr) : Prop :=
  match w with
  | WAdv x _ | WFix x _ => c_chip x = ch /\ (r0 <= c_row x < r1)%nat
  | WFlag _ => True
  end.

Definition in_rows (ch : chip) (r0 r1 : nat) (x : cell) : Prop :=
  c_chip x = ch /\ (r0 <= c_row x < r1)%nat.

Lemma fixes_in ch r0 r1 ws :
  Forall (write_in ch r0 r1) ws -> Forall (fun p => in_rows ch r0 r1 (fst p)) (fixes ws).
Proof.
  induction 1 as [|w ws Hw _ IH]; simpl; [constructor|].
  destruct w; simpl in *; auto.
Qed.
Lemma advs_in ch r0 r1 ws :
  Forall (write_in ch r0 r1) ws -> Forall (fun p => in_rows ch r0 r1 (fst p)) (advs ws).
Proof.
  induction 1 as [|w ws Hw _ IH]; simpl; [constructor|].
  destruct w; simpl in *; auto.
Qed.

Record block (ch : chip) (k : nat) (ws : list wr) (ps : list (cell * cell)) (c c' : ctx) : Prop := {
  blk_mem : c_mem c' = rev_append ws (c_mem c);
  blk_perms : c_perms c' = rev_append ps (c_perms c);
  blk_off : forall ch', off_of c' ch' =
     if chip_eqb ch ch' then (off_of c ch + k)%nat else off_of c ch';
  blk_rows : Forall (write_in ch (off_of c ch) (off_of c ch + k)) ws
}.

Lemma block_fix_old ch k ws ps c c' x :
  block ch k ws ps c c' -> ~ in_rows ch (off_of c ch) (off_of c ch + k) x ->
  get_fix (c_mem c') x = get_fix (c_mem c) x.
Proof.
  intros B H. rewrite !get_fix_assoc, (blk_mem _ _ _ _ _ _ B), fixes_rev_append.
  eapply assoc_skip; [|exact H]. apply fixes_in, B.
Qed.
Lemma block_adv_old ch k ws ps c c' x :
  block ch k ws ps c c' -> ~ in_rows ch (off_of c ch) (off_of c ch + k) x ->
  get_adv (c_mem c') x = get_adv (c_mem c) x.
Proof.
  intros B H. rewrite !get_adv_assoc, (blk_mem _ _ _ _ _ _ B), advs_rev_append.
  eapply assoc_skip; [|exact H]. apply advs_in, B.
Qed.

Lemma used_row c ch r : wf c -> used c ch r -> (r < off_of c ch)%nat.
Proof. intros W (col & v & H). apply (wf_fix _ W) in H. exact H. Qed.

Lemma block_wf ch k ws ps c c' : wf c -> block ch k ws ps c c' -> wf c'.
Proof.
  intros W B. constructor; intros x v H.
  - rewrite (blk_off _ _ _ _ _ _ B).
    rewrite get_fix_assoc, (blk_mem _ _ _ _ _ _ B), fixes_rev_append in H.
    apply assoc_rev_append_in in H. destruct H as [H|H].
    + pose proof (fixes_in _ _ _ _ (blk_rows _ _ _ _ _ _ B)) as F.
      rewrite Forall_forall in F. apply F in H. destruct H as [<- H]. simpl in *.
      rewrite (proj2 (chip_eqb_eq _ _) eq_refl). lia.
    + rewrite <- get_fix_assoc in H. apply (wf_fix _ W) in H.
      destruct (chip_eqb ch (c_chip x)) eqn:E; [|exact H].
      apply chip_eqb_eq in E; subst; lia.
  - rewrite (blk_off _ _ _ _ _ _ B).
    rewrite get_adv_assoc, (blk_mem _ _ _ _ _ _ B), advs_rev_append in H.
    apply assoc_rev_append_in in H. destruct H as [H|H].
    + pose proof (advs_in _ _ _ _ (blk_rows _ _ _ _ _ _ B)) as F.
      rewrite Forall_forall in F. apply F in H. destruct H as [<- H]. simpl in *.
      rewrite (proj2 (chip_eqb_eq _ _) eq_refl). lia.
    + rewrite <- get_adv_assoc in H. apply (wf_adv _ W) in H.
      destruct (chip_eqb ch (c_chip x)) eqn:E; [|exact H].
      apply chip_eqb_eq in E; subst; lia.
Qed.

Lemma block_extends ch k ws ps c c' : wf c -> block ch k ws ps c c' -> extends c c'.
Proof.
  intros W B. constructor.
  - intros ch' r U col. eapply block_fix_old; [exact B|].
    intros [E H]. simpl in *. subst. apply used_row in U; [lia|auto].
  - intros ch' r U col. eapply block_adv_old; [exact B|].
    intros [E H]. simpl in *. subst. apply used_row in U; [lia|auto].
  - rewrite (blk_perms _ _ _ _ _ _ B). intros x Hx.
    rewrite rev_append_rev. apply in_or_app; auto.
  - intros ch'. rewrite (blk_off _ _ _ _ _ _ B).
    destruct (chip_eqb ch ch') eqn:E; [|lia]. apply chip_eqb_eq in E; subst; lia.
Qed.

(** ** Satisfaction of the recorded part *)

Section Sat.
Context {NM : NMod}.

Lemma not_used_fix c ch r col : ~ used c ch r -> get_fix (c_mem c) (mkCell ch col r) = None.
Proof.
  intros H. destruct (get_fix _ _) as [v|] eqn:E; auto.
  exfalso; apply H; exists col, v; auto.
Qed.

Lemma used_dec c ch r : (exists col v, (col < 9)%nat /\ get_fix (c_mem c) (mkCell ch col r) = Some v)
                        \/ (forall col, (col < 9)%nat -> get_fix (c_mem c) (mkCell ch col r) = None).
Proof.
  assert (G : forall k, (exists col v, (col < k)%nat /\ get_fix (c_mem c) (mkCell ch col r) = Some v)
                        \/ (forall col, (col < k)%nat -> get_fix (c_mem c) (mkCell ch col r) = None)).
  { induction k as [|k IH]; [right; intros; lia|].
    destruct IH as [(col & v & H & E)|IH]; [left; exists col, v; split; [lia|auto]|].
    destruct (get_fix (c_mem c) (mkCell ch k r)) as [v|] eqn:E.
    - left; exists k, v; split; [lia|auto].
    - right; intros col H. destruct (Nat.eq_dec col k) as [->|]; [auto|apply IH; lia]. }
  apply G.
Qed.

Lemma base_gate_blank fx A r :
  (forall col, (col < 9)%nat -> fx (bcell col r) = 0) -> base_gate fx A r.
Proof.
  intros H. unfold base_gate, base_expr.
  rewrite !H by lia. rewrite !Z.mul_0_r. apply Zmod_0_l.
Qed.
Lemma base_gate_ext fx fx' A r :
  (forall col, (col < 9)%nat -> fx (bcell col r) = fx' (bcell col r)) ->
  base_gate fx A r <-> base_gate fx' A r.
Proof. intros H. unfold base_gate, base_expr. rewrite !H by lia. reflexivity. Qed.
Lemma range_row_ext fx fx' A r :
  (forall col, (col < 2)%nat -> fx (rcell col r) = fx' (rcell col r)) ->
  range_row fx A r <-> range_row fx' A r.
Proof.
  intros H. unfold range_row, range_expr1, range_expr2, range_expr3, AccLinesCol, TagCol.
  rewrite !H by lia. reflexivity.
Qed.

(** A later circuit satisfied means the earlier recorded part satisfied. *)
Lemma sat_mono T c c' A : extends c c' -> sat T c' A -> sat T c A.
Proof.
  intros E S. constructor.
  - intros r. destruct (used_dec c BaseChip r) as [(col & v & _ & H)|H].
    + apply (base_gate_ext (fixv c')); [|apply S].
      intros col' _. unfold fixv, bcell. rewrite (ext_fix _ _ E); auto. exists col, v; auto.
    + apply base_gate_blank. intros col Hc. unfold fixv, bcell. rewrite H; auto.
  - intros r U. apply (range_row_ext (fixv c')).
    + intros col _. unfold fixv, rcell. rewrite (ext_fix _ _ E); auto.
    + apply S. eapply used_extends; eauto.
  - intros r U. pose proof (sat_select _ _ _ S r (used_extends _ _ _ _ E U)) as H.
    unfold select_input, fixv, scell in *. rewrite (ext_fix _ _ E) in H; auto.
  - intros r U L. pose proof (sat_tables _ _ _ S r (used_extends _ _ _ _ E U)) as G.
    unfold fixv, scell in *. rewrite !(ext_fix _ _ E) in G by auto. auto.
  - intros HB r HR. apply (sat_bits _ _ _ S HB).
    assert (U : used c BaseChip r) by (exists 0%nat, 1; apply HR).
    unfold bit_row, bcell in *. rewrite !(ext_fix _ _ E) by auto. exact HR.
  - intros a b H. apply S. apply E; auto.
Qed.

(** The link between the specification of the whole final circuit and the part
    recorded at an earlier point. *)
Lemma satisfies_sat c c' A (B : Prop) :
  extends c c' -> satisfies c' A -> (B -> bit_consistent c' A) ->
  sat (mkEnv (select_table (fixv c') A) B) c A.
Proof.
  intros E (HA & HB & HR & HS & HP) HC. apply sat_mono with (c' := c'); auto.
  constructor; auto; [intros r _; apply HS|]. intros r _ L. exists r. auto.
Qed.

(** What a block adds to the constraints. *)
Lemma sat_block T ch k ws ps c c' A :
  wf c -> block ch k ws ps c c' ->
  sat T c' A <->
  (sat T c A
   /\ (match ch with
       | BaseChip => forall i, (i < k)%nat -> base_gate (fixv c') A (off_of c ch + i)
             /\ (bitc T -> bit_row c' (off_of c ch + i) ->
                 A (bcell 0 (off_of c ch + i)) = A (bcell 1 (off_of c ch + i)))
       | RangeChip => forall i, (i < k)%nat -> used c' ch (off_of c ch + i) ->
                                range_row (fixv c') A (off_of c ch + i)
       | SelectChip => forall i, (i < k)%nat -> used c' ch (off_of c ch + i) ->
            tbl T (A (scell ValueCol (off_of c ch + i))) (select_input (fixv c') A (off_of c ch + i))
            /\ (fixv c' (scell IsLookupCol (off_of c ch + i)) = 0 ->
                tbl T (A (scell ValueCol (off_of c ch + i))) (fixv c' (scell EncodeCol (off_of c ch + i))))
       end)
   /\ (forall a b, In (a, b) ps -> A a = A b)).
Proof.
  intros W B. pose proof (block_extends _ _ _ _ _ _ W B) as E.
  assert (OLD : forall ch' r col, ~ in_rows ch (off_of c ch) (off_of c ch + k) (mkCell ch' 0 r) ->
            fixv c' (mkCell ch' col r) = fixv c (mkCell ch' col r)).
  { intros ch' r col H. unfold fixv. erewrite block_fix_old; eauto. }
  assert (OLDU : forall ch' r, ~ in_rows ch (off_of c ch) (off_of c ch + k) (mkCell ch' 0 r) ->
            used c' ch' r -> used c ch' r).
  { intros ch' r H (col & v & U). exists col, v. erewrite block_fix_old in U; eauto. }
  split.
  - intros S. split; [eapply sat_mono; eauto|]. split.
    + destruct ch; intros; [split; [apply S|intros HB; apply (sat_bits _ _ _ S HB)]|apply S; auto|split; [apply S; auto|apply (sat_tables _ _ _ S); auto]].
    + intros a b H. apply S. rewrite (blk_perms _ _ _ _ _ _ B), rev_append_rev.
      apply in_or_app; left. apply -> in_rev; auto.
  - intros (S & HN & HP). constructor.
    + intros r. destruct ch.
      * destruct (le_lt_dec (off_of c BaseChip) r) as [H1|H1].
        -- destruct (le_lt_dec (off_of c BaseChip + k) r) as [H2|H2].
           ++ apply (base_gate_ext (fixv c)); [|apply S].
              intros col _. symmetry. apply OLD. unfold in_rows; simpl in *; intros [_ ?]; lia.
           ++ replace r with (off_of c BaseChip + (r - off_of c BaseChip))%nat by lia.
              apply HN; lia.
        -- apply (base_gate_ext (fixv c)); [|apply S].
           intros col _. symmetry. apply OLD. unfold in_rows; simpl in *; intros [_ ?]; lia.
      * apply (base_gate_ext (fixv c)); [|apply S].
        intros col _. symmetry. apply OLD. unfold in_rows; simpl; intros [? _]; discriminate.
      * apply (base_gate_ext (fixv c)); [|apply S].
        intros col _. symmetry. apply OLD. unfold in_rows; simpl; intros [? _]; discriminate.
    + intros r U.
      assert (D : in_rows ch (off_of c ch) (off_of c ch + k) (mkCell RangeChip 0 r)
                  \/ ~ in_rows ch (off_of c ch) (off_of c ch + k) (mkCell RangeChip 0 r)).
      { unfold in_rows; simpl. destruct ch; simpl; try (right; intros [? _]; discriminate).
        destruct (le_lt_dec (range_off c) r); [|right; lia].
        destruct (le_lt_dec (range_off c + k) r); [right; lia|left; split; [auto|lia]]. }
      destruct D as [D|D].
      * destruct D as [<- D]; simpl in *.
        replace r with (range_off c + (r - range_off c))%nat in * by lia. apply HN; [lia|auto].
      * apply (range_row_ext (fixv c)).
        -- intros col _. symmetry. apply OLD; auto.
        -- apply S. apply OLDU; auto.
    + intros r U.
      assert (D : in_rows ch (off_of c ch) (off_of c ch + k) (mkCell SelectChip 0 r)
                  \/ ~ in_rows ch (off_of c ch) (off_of c ch + k) (mkCell SelectChip 0 r)).
      { unfold in_rows; simpl. destruct ch; simpl; try (right; intros [? _]; discriminate).
        destruct (le_lt_dec (select_off c) r); [|right; lia].
        destruct (le_lt_dec (select_off c + k) r); [right; lia|left; split; [auto|lia]]. }
      destruct D as [D|D].
      * destruct D as [<- D]; simpl in *.
        replace r with (select_off c + (r - select_off c))%nat in * by lia. apply HN; [lia|auto].
      * unfold select_input, scell. rewrite OLD by auto.
        apply (sat_select _ _ _ S). apply OLDU; auto.
    + intros r U.
      assert (D : in_rows ch (off_of c ch) (off_of c ch + k) (mkCell SelectChip 0 r)
                  \/ ~ in_rows ch (off_of c ch) (off_of c ch + k) (mkCell SelectChip 0 r)).
      { unfold in_rows; simpl. destruct ch; simpl; try (right; intros [? _]; discriminate).
        destruct (le_lt_dec (select_off c) r); [|right; lia].
        destruct (le_lt_dec (select_off c + k) r); [right; lia|left; split; [auto|lia]]. }
      destruct D as [D|D].
      * destruct D as [<- D]; simpl in *.
        replace r with (select_off c + (r - select_off c))%nat in * by lia. apply HN; [lia|auto].
      * unfold scell. rewrite !OLD by auto.
        apply (sat_tables _ _ _ S). apply OLDU; auto.
    + intros HB r HR.
      assert (D : in_rows ch (off_of c ch) (off_of c ch + k) (mkCell BaseChip 0 r)
                  \/ ~ in_rows ch (off_of c ch) (off_of c ch + k) (mkCell BaseChip 0 r)).
      { unfold in_rows; simpl. destruct ch; simpl; try (right; intros [? _]; discriminate).
        destruct (le_lt_dec (base_off c) r); [|right; lia].
        destruct (le_lt_dec (base_off c + k) r); [right; lia|left; split; [auto|lia]]. }
      destruct D as [D|D].
      * destruct D as [<- D]; simpl in *.
        replace r with (base_off c + (r - base_off c))%nat in * by lia. apply HN; [lia|auto|auto].
      * apply (sat_bits _ _ _ S HB). unfold bit_row, bcell in *.
        assert (OG : forall col, get_fix (c_mem c') (mkCell BaseChip col r)
                                 = get_fix (c_mem c) (mkCell BaseChip col r))
          by (intros; eapply block_fix_old; eauto).
        rewrite !OG in HR. exact HR.
    + intros a b H. rewrite (blk_perms _ _ _ _ _ _ B), rev_append_rev in H.
      apply in_app_or in H. destruct H as [H|H].
      * apply HP. apply in_rev; auto.
      * apply S; auto.
Qed.

(** ** Monad inversion *)
Lemma mbind_inv {X Y} (m : M X) (k : X -> M Y) c y c'' :
  mbind m k c = Ok (y, c'') -> exists x c', m c = Ok (x, c') /\ k x c' = Ok (y, c'').
Proof. unfold mbind. destruct (m c) as [[x c']|]; [eauto|discriminate]. Qed.
Lemma massert_inv b c u c' : massert b c = Ok (u, c') -> b = true /\ c' = c.
Proof. unfold massert. destruct b; [|discriminate]. intros H; injection H as _ <-; auto. Qed.
Lemma mopt_inv {X} (o : option X) c x c' : mopt o c = Ok (x, c') -> o = Some x /\ c' = c.
Proof. destruct o; simpl; [|discriminate]. unfold mret. intros H; injection H as -> ->; auto. Qed.

(** ** Structure-preserving programs *)

(** Any successful run keeps the state well formed and only adds to it. *)
Definition appends {X} (m : M X) : Prop :=
  forall c x c', wf c -> m c = Ok (x, c') -> wf c' /\ extends c c'.

Lemma appends_ret {X} (x : X) : appends (mret x).
Proof. intros c y c' W H. injection H as _ <-. split; [auto|apply extends_refl]. Qed.
Lemma appends_panic {X} : appends (@mpanic X).
Proof. intros c y c' W H. discriminate. Qed.
Lemma appends_assert b : appends (massert b).
Proof. intros c y c' W H. apply massert_inv in H as [_ ->]. split; [auto|apply extends_refl]. Qed.
Lemma appends_opt {X} (o : option X) : appends (mopt o).
Proof. destruct o; [apply appends_ret|apply appends_panic]. Qed.
Lemma appends_nth {X} (l : list X) i : appends (mnth l i).
Proof. apply appends_opt. Qed.
Lemma appends_get : appends mget.
Proof. intros c y c' W H. injection H as _ <-. split; [auto|apply extends_refl]. Qed.
Lemma appends_lift {X} (r : res X) : appends (mlift r).
Proof. destruct r; [apply appends_ret|apply appends_panic]. Qed.
Lemma appends_bind {X Y} (m : M X) (k : X -> M Y) :
  appends m -> (forall x, appends (k x)) -> appends (mbind m k).
Proof.
  intros Hm Hk c y c'' W H. apply mbind_inv in H as (x & c' & H1 & H2).
  destruct (Hm _ _ _ W H1) as [W1 E1]. destruct (Hk _ _ _ _ W1 H2) as [W2 E2].
  split; [auto|eapply extends_trans; eauto].
Qed.
Lemma appends_mapM {X Y} (f : X -> M Y) l : (forall x, appends (f x)) -> appends (mapM f l).
Proof.
  intros Hf; induction l as [|x l IH]; simpl; [apply appends_ret|].
  apply appends_bind; [auto|intros]. apply appends_bind; [auto|intros]. apply appends_ret.
Qed.
Lemma appends_foldM {X S} (f : S -> X -> M S) l s :
  (forall s x, appends (f s x)) -> appends (foldM f s l).
Proof.
  intros Hf; revert s; induction l as [|x l IH]; intros s; simpl; [apply appends_ret|].
  apply appends_bind; auto.
Qed.
Lemma appends_if {X} (b : bool) (m1 m2 : M X) :
  appends m1 -> appends m2 -> appends (if b then m1 else m2).
Proof. destruct b; auto. Qed.

(** ** Soundness triples *)

Section ST.
Variable T : env.
Variable A : cell -> Z.

(** If the run succeeds and [A] satisfies everything recorded by its end, then
    [Q] holds of the result. *)
Definition ST {X} (m : M X) (Q : X -> Prop) : Prop :=
  forall c x c', wf c -> m c = Ok (x, c') -> sat T c' A -> Q x.

Lemma ST_ret {X} (x : X) (Q : X -> Prop) : Q x -> ST (mret x) Q.
Proof. intros HQ c y c' _ H _. injection H as <- _. exact HQ. Qed.
Lemma ST_panic {X} (Q : X -> Prop) : ST mpanic Q.
Proof. intros c y c' _ H _. discriminate. Qed.
Lemma ST_bind {X Y} (m : M X) (k : X -> M Y) (Q : X -> Prop) (R : Y -> Prop) :
  ST m Q -> appends m -> (forall x, appends (k x)) -> (forall x, Q x -> ST (k x) R) ->
  ST (mbind m k) R.
Proof.
  intros Hm Am Ak Hk c y c'' W H S. apply mbind_inv in H as (x & c' & H1 & H2).
  destruct (Am _ _ _ W H1) as [W1 E1]. destruct (Ak _ _ _ _ W1 H2) as [W2 E2].
  eapply Hk; [|exact W1|exact H2|exact S].
  eapply Hm; [exact W|exact H1|]. eapply sat_mono; eauto.
Qed.
Lemma ST_weaken {X} (m : M X) (Q R : X -> Prop) :
  ST m Q -> (forall x, Q x -> R x) -> ST m R.
Proof. intros H I c x c' W E S. apply I. eapply H; eauto. Qed.
Lemma ST_assert b (Q : unit -> Prop) : (b = true -> Q tt) -> ST (massert b) Q.
Proof. intros HQ c x c' _ H _. apply massert_inv in H as [Hb _]. destruct x; auto. Qed.
Lemma ST_opt {X} (o : option X) (Q : X -> Prop) : (forall x, o = Some x -> Q x) -> ST (mopt o) Q.
Proof. intros HQ c x c' _ H _. apply mopt_inv in H as [Hb _]; auto. Qed.
Lemma ST_nth {X} (l : list X) i (Q : X -> Prop) :
  (forall x, nth_error l i = Some x -> Q x) -> ST (mnth l i) Q.
Proof. apply ST_opt. Qed.
Lemma ST_lift {X} (r : res X) (Q : X -> Prop) : (forall x, r = Ok x -> Q x) -> ST (mlift r) Q.
Proof.
  intros HQ c x c' _ H _. unfold mlift in H. destruct r; [|discriminate].
  injection H as -> _. auto.
Qed.
(** Steps that do not touch the state. *)
Lemma ST_assert_k {Y} b (k : unit -> M Y) R : (b = true -> ST (k tt) R) -> ST (mbind (massert b) k) R.
Proof.
  intros H c y c'' W E S. apply mbind_inv in E as ([] & c' & H1 & H2).
  apply massert_inv in H1 as [Hb ->]. eapply H; eauto.
Qed.
Lemma ST_opt_k {X Y} (o : option X) (k : X -> M Y) R :
  (forall x, o = Some x -> ST (k x) R) -> ST (mbind (mopt o) k) R.
Proof.
  intros H c y c'' W E S. apply mbind_inv in E as (x & c' & H1 & H2).
  apply mopt_inv in H1 as [Hb ->]. eapply H; eauto.
Qed.
Lemma ST_nth_k {X Y} (l : list X) i (k : X -> M Y) R :
  (forall x, nth_error l i = Some x -> ST (k x) R) -> ST (mbind (mnth l i) k) R.
Proof. apply ST_opt_k. Qed.
Lemma ST_lift_k {X Y} (r : res X) (k : X -> M Y) R :
  (forall x, r = Ok x -> ST (k x) R) -> ST (mbind (mlift r) k) R.
Proof.
  intros H c y c'' W E S. destruct r as [x|]; [|discriminate]. eapply (H x); eauto.
Qed.
Lemma ST_ret_k {X Y} (x : X) (k : X -> M Y) R : ST (k x) R -> ST (mbind (mret x) k) R.
Proof. intros H c y c'' W E S. eapply H; eauto. Qed.
Lemma ST_get_k {Y} (k : ctx -> M Y) R :
  (forall c, ST (k c) R) -> ST (mbind mget k) R.
Proof. intros H c y c'' W E S. eapply (H c); eauto. Qed.
Lemma ST_mapM {X Y} (f : X -> M Y) l (Q : X -> Y -> Prop) :
  (forall x, appends (f x)) -> (forall x, In x l -> ST (f x) (Q x)) ->
  ST (mapM f l) (fun ys => Forall2 Q l ys).
Proof.
  intros Af; induction l as [|x l IH]; intros Hf; simpl.
  - apply ST_ret; constructor.
  - eapply ST_bind; [apply Hf; left; auto|auto| |].
    + intros; apply appends_bind; [apply appends_mapM; auto|intros; apply appends_ret].
    + intros y Hy. eapply ST_bind; [apply IH; intros; apply Hf; right; auto
                                   |apply appends_mapM; auto|intros; apply appends_ret|].
      intros ys Hys. apply ST_ret. constructor; auto.
Qed.
(** Fold rule with an invariant indexed by the consumed prefix. *)
Lemma ST_foldM {X S} (f : S -> X -> M S) (I : list X -> S -> Prop) l s :
  (forall s x, appends (f s x)) ->
  I [] s ->
  (forall pre x s, In x l -> I pre s -> ST (f s x) (I (pre ++ [x]))) ->
  ST (foldM f s l) (I l).
Proof.
  intros Af H0 Hf.
  assert (G : forall l' pre s, (forall x, In x l' -> In x l) -> I pre s ->
                               ST (foldM f s l') (I (pre ++ l'))).
  { induction l' as [|x l' IH]; intros pre s' Hin Hs; simpl.
    - rewrite app_nil_r. apply ST_ret; auto.
    - eapply ST_bind; [apply Hf; [apply Hin; left; auto|exact Hs]|auto
                      |intros; apply appends_foldM; auto|].
      intros s1 H1. replace (pre ++ x :: l') with ((pre ++ [x]) ++ l')
        by (rewrite <- app_assoc; reflexivity).
      apply IH; [intros; apply Hin; right; auto|auto]. }
  apply (G l [] s); auto.
Qed.

End ST.

(** ** Honest runs *)

Lemma agrees_mono c c' A : extends c c' -> agrees c' A -> agrees c A.
Proof.
  intros E H ch r U col. rewrite (H ch r (used_extends _ _ _ _ E U)).
  unfold honest. rewrite (ext_adv _ _ E); auto.
Qed.
Lemma tables_in_mono T c c' A : extends c c' -> tables_in T c' A -> tables_in T c A.
Proof.
  intros E H r U L. pose proof (H r (used_extends _ _ _ _ E U)) as G.
  unfold fixv, scell in *. rewrite !(ext_fix _ _ E) in G by auto. auto.
Qed.

Lemma valid_mono c c' a : extends c c' -> valid c a -> valid c' a.
Proof.
  intros E (U & G & R). split; [eapply used_extends; eauto|]. split; [|auto].
  destruct (a_cell a) as [ch col r]; simpl in *. rewrite (ext_adv _ _ E); auto.
Qed.
Lemma valid_agrees c a A : valid c a -> agrees c A -> A (a_cell a) = a_val a.
Proof.
  intros (U & G & R) H. destruct (a_cell a) as [ch col r] eqn:E; simpl in *.
  rewrite (H ch r U). unfold honest. rewrite G. reflexivity.
Qed.

(** Total correctness of the honest run from state [c]: no panic, the recorded
    witness satisfies the added constraints, and [Q] holds. *)
Definition CT {X} (c : ctx) (m : M X) (Q : X -> ctx -> Prop) : Prop :=
  exists x c', m c = Ok (x, c') /\ wf c' /\ extends c c'
    /\ ((advs_ok c -> advs_ok c') /\
        forall T A, (forall y, 0 <= A y < nmod) -> agrees c' A -> tables_in (tbl T) c' A ->
                    sat T c A -> sat T c' A)
    /\ Q x c'.

Lemma CT_ret {X} c (x : X) (Q : X -> ctx -> Prop) : wf c -> Q x c -> CT c (mret x) Q.
Proof. intros W H. exists x, c. split; [reflexivity|]; split; [exact W|]; split; [apply extends_refl|]; split; [split; auto|auto]. Qed.
Lemma CT_bind {X Y} c (m : M X) (k : X -> M Y) (Q : X -> ctx -> Prop) (R : Y -> ctx -> Prop) :
  CT c m Q ->
  (forall x c', wf c' -> extends c c' -> Q x c' -> CT c' (k x) R) ->
  CT c (mbind m k) R.
Proof.
  intros (x & c1 & H1 & W1 & E1 & S1 & Q1) Hk.
  destruct (Hk x c1 W1 E1 Q1) as (y & c2 & H2 & W2 & E2 & S2 & Q2).
  exists y, c2. split; [unfold mbind; rewrite H1; exact H2|].
  split; [exact W2|]. split; [exact (extends_trans _ _ _ E1 E2)|].
  split; [|exact Q2].
  destruct S1 as [P1 S1], S2 as [P2 S2]. split; [auto|].
  intros T A HA HG HT HS. apply S2; auto. apply S1; auto.
  - eapply agrees_mono; eauto.
  - eapply tables_in_mono; eauto.
Qed.
Lemma CT_weaken {X} c (m : M X) (Q R : X -> ctx -> Prop) :
  CT c m Q -> (forall x c', wf c' -> extends c c' -> Q x c' -> R x c') -> CT c m R.
Proof.
  intros (x & c1 & H1 & W1 & E1 & S1 & Q1) I. exists x, c1.
  split; [auto|]. split; [auto|]. split; [auto|]. split; auto.
Qed.
Lemma CT_assert c b (Q : unit -> ctx -> Prop) : wf c -> b = true -> Q tt c -> CT c (massert b) Q.
Proof. intros W -> H. exists tt, c. split; [reflexivity|]; split; [exact W|]; split; [apply extends_refl|]; split; [split; auto|auto]. Qed.
Lemma CT_opt {X} c (o : option X) x (Q : X -> ctx -> Prop) : wf c -> o = Some x -> Q x c -> CT c (mopt o) Q.
Proof. intros W -> H. apply CT_ret; auto. Qed.
Lemma CT_nth {X} c (l : list X) i x (Q : X -> ctx -> Prop) : wf c -> nth_error l i = Some x -> Q x c -> CT c (mnth l i) Q.
Proof. apply CT_opt. Qed.
Lemma CT_lift {X} c (r : res X) x (Q : X -> ctx -> Prop) : wf c -> r = Ok x -> Q x c -> CT c (mlift r) Q.
Proof. intros W -> H. exists x, c. split; [reflexivity|]; split; [exact W|]; split; [apply extends_refl|]; split; [split; auto|auto]. Qed.
Lemma CT_get c (Q : ctx -> ctx -> Prop) : wf c -> Q c c -> CT c mget Q.
Proof. intros W H. exists c, c. split; [reflexivity|]; split; [exact W|]; split; [apply extends_refl|]; split; [split; auto|auto]. Qed.
Lemma CT_assert_k {Y} c b (k : unit -> M Y) R : b = true -> CT c (k tt) R -> CT c (mbind (massert b) k) R.
Proof. intros -> H. exact H. Qed.
Lemma CT_opt_k {X Y} c (o : option X) x (k : X -> M Y) R :
  o = Some x -> CT c (k x) R -> CT c (mbind (mopt o) k) R.
Proof. intros -> H. exact H. Qed.
Lemma CT_nth_k {X Y} c (l : list X) i x (k : X -> M Y) R :
  nth_error l i = Some x -> CT c (k x) R -> CT c (mbind (mnth l i) k) R.
Proof. apply CT_opt_k. Qed.
Lemma CT_lift_k {X Y} c (r : res X) x (k : X -> M Y) R :
  r = Ok x -> CT c (k x) R -> CT c (mbind (mlift r) k) R.
Proof. intros -> H. exact H. Qed.
Lemma CT_ret_k {X Y} c (x : X) (k : X -> M Y) R : CT c (k x) R -> CT c (mbind (mret x) k) R.
Proof. intros H. exact H. Qed.
Lemma CT_get_k {Y} c (k : ctx -> M Y) R : CT c (k c) R -> CT c (mbind mget k) R.
Proof. intros H. exact H. Qed.
(** Map rule: [Q] must be stable under extension. *)
Lemma CT_mapM {X Y} c (f : X -> M Y) l (Q : X -> Y -> ctx -> Prop) :
  wf c ->
  (forall x y c1 c2, Q x y c1 -> extends c1 c2 -> Q x y c2) ->
  (forall x c', In x l -> wf c' -> extends c c' -> CT c' (f x) (Q x)) ->
  CT c (mapM f l) (fun ys c' => Forall2 (fun x y => Q x y c') l ys).
Proof.
  intros W Hst. revert c W. induction l as [|x l IH]; intros c W Hf; simpl.
  - apply CT_ret; [auto|constructor].
  - eapply CT_bind; [apply Hf; [left; auto|auto|apply extends_refl]|].
    intros y c1 W1 E1 Qy. eapply CT_bind.
    + apply IH; [auto|]. intros x' c' Hin W' E'. apply Hf; [right; auto|auto|].
      eapply extends_trans; eauto.
    + intros ys c2 W2 E2 Qys. apply CT_ret; [auto|]. constructor; eauto.
Qed.

(** *** The two specifications *)

Lemma ST_sound {X} (m : M X) (Q : (cell -> Z) -> X -> Prop) :
  (forall T A, (forall y, 0 <= A y < nmod) -> ST T A m (Q A)) -> sound m Q.
Proof.
  intros H c x c' cf A W R E S.
  eapply (H (mkEnv (select_table (fixv cf) A) False) A); [apply S|exact W|exact R|].
  apply satisfies_sat; [exact E|exact S|intros []].
Qed.
Lemma ST_sound_bits {X} (m : M X) (Q : (cell -> Z) -> X -> Prop) :
  (forall T A, (forall y, 0 <= A y < nmod) -> bitc T -> ST T A m (Q A)) -> sound_bits m Q.
Proof.
  intros H c x c' cf A W R E S B.
  eapply (H (mkEnv (select_table (fixv cf) A) True) A); [apply S|exact I|exact W|exact R|].
  apply satisfies_sat; [exact E|exact S|auto].
Qed.
Lemma CT_accepts {X} c (m : M X) Q : CT c m Q -> accepts c m Q.
Proof.
  intros (x & c' & H & W & E & (P & S) & HQ). exists x, c'.
  split; [auto|]. split; [auto|]. split; [auto|]. intros G. constructor; [auto|apply P, G|].
  intros T A HA HG HT. apply S; auto. apply G; auto.
  - eapply agrees_mono; eauto.
  - eapply tables_in_mono; eauto.
Qed.

Lemma good_new : good ctx_new.
Proof.
  constructor; [apply wf_new|intros x v H; discriminate|].
  intros T A HA HG HT. constructor.
  - intros r. apply base_gate_blank. intros; reflexivity.
  - intros r (col & v & H). discriminate.
  - intros r (col & v & H). discriminate.
  - exact HT.
  - intros _ r (H & _). discriminate.
  - intros a b [].
Qed.

(** The recorded witness of a good state satisfies the recorded circuit. *)
Lemma good_satisfies c : 1 < nmod -> good c -> satisfies c (honest c) /\ bit_consistent c (honest c).
Proof.
  intros N G.
  assert (HA : forall y, 0 <= honest c y < nmod).
  { intros y. unfold honest. destruct (get_adv (c_mem c) y) as [v|] eqn:E; [|simpl; lia].
    apply (good_advs _ G) in E. apply E. }
  set (T := mkEnv (select_table (fixv c) (honest c)) True).
  assert (S : sat T c (honest c)).
  { apply G; [exact HA|intros ch r U col; reflexivity|].
    intros r U L. exists r. auto. }
  assert (BL : forall ch r, (forall col, (col < 9)%nat -> get_fix (c_mem c) (mkCell ch col r) = None) ->
             forall x, c_chip x = ch -> c_row x = r -> (c_col x < 9)%nat -> fixv c x = 0).
  { intros ch r H [ch' col r']; simpl; intros -> -> Hc. unfold fixv. rewrite H; auto. }
  assert (HU : forall ch r col, ~ used c ch r -> honest c (mkCell ch col r) = 0
                                                 /\ fixv c (mkCell ch col r) = 0).
  { intros ch r col NU. split.
    - unfold honest. destruct (get_adv (c_mem c) (mkCell ch col r)) eqn:E; [|reflexivity].
      apply (good_advs _ G) in E. destruct NU. apply E.
    - unfold fixv. rewrite not_used_fix; auto. }
  split; [|apply S; exact I].
  split; [exact HA|]. split; [apply S|].
  assert (D : forall ch r, (ch = RangeChip \/ ch = SelectChip) -> used c ch r \/
      ((forall col, (col < 9)%nat -> fixv c (mkCell ch col r) = 0)
       /\ (used c ch r \/ forall col, honest c (mkCell ch col r) = 0))).
  { intros ch r Hch. destruct (used_dec c ch r) as [(col & v & _ & H)|H].
    - left; exists col, v; auto.
    - right. split.
      + intros col Hc. unfold fixv. rewrite H; auto.
      + assert (DD : used c ch r \/ forall col, get_adv (c_mem c) (mkCell ch col r) = None).
        { clear -G. destruct G as [W P _].
          assert (L : forall l : list (cell * Z), (exists x v, In (x, v) l /\ c_chip x = ch /\ c_row x = r) \/
                                (forall x v, In (x, v) l -> ~ (c_chip x = ch /\ c_row x = r))).
          { induction l as [|[x v] l IH]; [right; intros ? ? []|].
            destruct IH as [(y & u & Hin & HH)|IH]; [left; exists y, u; split; [right; auto|auto]|].
            destruct (chip_eqb (c_chip x) ch) eqn:E1; [apply chip_eqb_eq in E1|].
            - destruct (Nat.eq_dec (c_row x) r) as [E2|E2]; [left; exists x, v; simpl; auto|].
              right. intros y u [Hy|Hy]; [injection Hy as <- <-; intros [_ K]; auto|eauto].
            - right. intros y u [Hy|Hy]; [injection Hy as <- <-|eauto].
              intros [K _]. apply chip_eqb_eq in K. congruence. }
          destruct (L (advs (c_mem c))) as [(x & v & Hin & <- & <-)|N].
          - left. destruct (get_adv (c_mem c) x) as [u|] eqn:E; [apply (P _ _ E)|].
            exfalso. rewrite get_adv_assoc in E. clear -Hin E.
            induction (advs (c_mem c)) as [|[y u] l IH]; simpl in *; [auto|].
            destruct (cell_eqb y x) eqn:K; [discriminate|].
            destruct Hin as [Hin|Hin]; [|auto]. injection Hin as -> ->.
            rewrite cell_eqb_refl in K. discriminate.
          - right. intros col. destruct (get_adv (c_mem c) (mkCell ch col r)) eqn:E; [|auto].
            rewrite get_adv_assoc in E. apply assoc_in in E. apply N in E. simpl in E. tauto. }
        destruct DD as [DD|DD]; [auto|]. right. intros col. unfold honest. rewrite DD. reflexivity. }
  split; [|split; [|apply S]].
  - intros r. destruct (D RangeChip r ltac:(auto)) as [U|[F [U|V]]]; try (apply S; exact U).
    unfold range_row, range_expr1, range_expr2, range_expr3, in_range_table, rcell, TagCol, AccLinesCol,
      TaggedRangeCol, CommonRangeCol, ValueAccCol, COMMON_RANGE_BITS.
    rewrite !F, !V by lia. rewrite !Z.mul_0_r, !Z.mul_0_l, !Zmod_0_l.
    repeat split; try lia; reflexivity.
  - intros r. destruct (D SelectChip r ltac:(auto)) as [U|[F [U|V]]]; try (apply (sat_select _ _ _ S); exact U).
    unfold select_row, select_input, scell, SelectCol, EncodeCol, ValueCol. rewrite !F, !V by lia.
    rewrite Z.mul_0_l, Z.add_0_l, Zmod_0_l.
    exists r. unfold scell, ValueCol, EncodeCol, IsLookupCol. rewrite !F, V by lia. auto.
Qed.

End Sat.
