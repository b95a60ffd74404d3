(** Exact constraint content of the recorder primitives
    ([one_line], [one_line_with_last], range rows, select rows). *)
From Verif Require Import Prelude FieldZ Circuit Context Logic ModArith.

Lemma rev_append_app {X} (a b : list X) m : rev_append b (rev_append a m) = rev_append (a ++ b) m.
Proof. rewrite !rev_append_rev, rev_app_distr, app_assoc. reflexivity. Qed.

Lemma mapi_from_length {X Y} (f : nat -> X -> Y) l k : length (mapi_from k f l) = length l.
Proof. revert k; induction l; intros; simpl; auto. Qed.
Lemma mapi_length {X Y} (f : nat -> X -> Y) l : length (mapi f l) = length l.
Proof. apply mapi_from_length. Qed.

Definition ol_writes (off : nat) (pairs : list pair_t) (constant : option Z)
           (muls : list Z) (next : option Z) : list wr :=
  ((concat (mapi (adv_writes off) pairs)
   ++ mapi (fun i m => WFix (bcell (VAR_COLUMNS + i) off) m) muls)
   ++ opt_fix off 7 next) ++ opt_fix off 8 constant.
Definition ol_perms (off : nat) (pairs : list pair_t) := concat (mapi (adv_perms off) pairs).

Lemma adv_writes_in off p k :
  Forall (write_in BaseChip off (off + 1)) (adv_writes off k p).
Proof.
  destruct p as [s co]. unfold adv_writes. apply Forall_app. split.
  - destruct (schema_cell s); repeat constructor.
  - repeat constructor; simpl; lia.
Qed.
Lemma concat_adv_writes_in off pairs k :
  Forall (write_in BaseChip off (off + 1)) (concat (mapi_from k (adv_writes off) pairs)).
Proof.
  revert k; induction pairs as [|p ps IH]; intros k; simpl; [constructor|].
  apply Forall_app; split; [apply adv_writes_in|apply IH].
Qed.
Lemma opt_fix_in off col o : Forall (write_in BaseChip off (off + 1)) (opt_fix off col o).
Proof. destruct o; repeat constructor; simpl; lia. Qed.
Lemma muls_in off k muls :
  Forall (write_in BaseChip off (off + 1))
         (mapi_from k (fun i m => WFix (bcell (VAR_COLUMNS + i) off) m) muls).
Proof.
  revert k; induction muls as [|m ms IH]; intros k.
  - constructor.
  - cbn [mapi_from]. constructor; [split; [reflexivity|simpl; lia]|apply IH].
Qed.
Lemma ol_writes_in off pairs constant muls next :
  Forall (write_in BaseChip off (off + 1)) (ol_writes off pairs constant muls next).
Proof.
  unfold ol_writes. rewrite !Forall_app.
  repeat split; [apply concat_adv_writes_in|apply muls_in|apply opt_fix_in|apply opt_fix_in].
Qed.

Lemma fixes_adv_writes off k p : fixes (adv_writes off k p) = [(bcell k off, snd p)].
Proof. destruct p as [[a|v] co]; reflexivity. Qed.
Lemma advs_adv_writes off k p : advs (adv_writes off k p) = [(bcell k off, schema_val (fst p))].
Proof. destruct p as [[a|v] co]; reflexivity. Qed.
Lemma fixes_concat off k pairs :
  fixes (concat (mapi_from k (adv_writes off) pairs))
  = mapi_from k (fun i p => (bcell i off, snd p)) pairs.
Proof.
  revert k; induction pairs as [|p ps IH]; intros k; [reflexivity|].
  cbn [mapi_from concat]. rewrite fixes_app, fixes_adv_writes, IH. reflexivity.
Qed.
Lemma advs_concat off k pairs :
  advs (concat (mapi_from k (adv_writes off) pairs))
  = mapi_from k (fun i p => (bcell i off, schema_val (fst p))) pairs.
Proof.
  revert k; induction pairs as [|p ps IH]; intros k; [reflexivity|].
  cbn [mapi_from concat]. rewrite advs_app, advs_adv_writes, IH. reflexivity.
Qed.

Lemma cell_eqb_base i r j s : cell_eqb (bcell i r) (bcell j s) = ((i =? j) && (r =? s))%nat.
Proof. reflexivity. Qed.

Lemma assoc_mapi off k (f : pair_t -> Z) pairs m x :
  (forall y v, In (y, v) (mapi_from k (fun i p => (bcell i off, f p)) pairs) -> y <> x) ->
  assoc (rev_append (mapi_from k (fun i p => (bcell i off, f p)) pairs) m) x = assoc m x.
Proof.
  intros H. apply (assoc_skip (fun y => y <> x)); [|auto].
  apply Forall_forall. intros [y v] Hin. simpl. eapply H; eauto.
Qed.

Lemma assoc_app a b x : assoc (a ++ b) x = match assoc a x with Some v => Some v | None => assoc b x end.
Proof.
  induction a as [|[y v] a IH]; simpl; [reflexivity|]. destruct (cell_eqb y x); auto.
Qed.
Lemma assoc_rev_mapi {X} (f : X -> Z) (g : nat -> nat) off l k j :
  (forall a b, g a = g b -> a = b) -> (k <= j)%nat ->
  assoc (rev (mapi_from k (fun i p => (bcell (g i) off, f p)) l)) (bcell (g j) off)
  = nth_error (map f l) (j - k).
Proof.
  intros Hg. revert k; induction l as [|x l IH]; intros k Hk.
  - simpl. destruct (j - k)%nat; reflexivity.
  - cbn [mapi_from rev]. rewrite assoc_app. destruct (Nat.eq_dec j k) as [->|N].
    + assert (G : forall k', (k < k')%nat ->
         assoc (rev (mapi_from k' (fun i p => (bcell (g i) off, f p)) l)) (bcell (g k) off) = None).
      { clear -Hg. induction l as [|x l IH]; intros k' Hk'; [reflexivity|].
        cbn [mapi_from rev]. rewrite assoc_app, IH by lia. cbn [assoc]. rewrite cell_eqb_base.
        destruct (Nat.eqb_spec (g k') (g k)) as [E|E]; [apply Hg in E; lia|reflexivity]. }
      rewrite G by lia. cbn [assoc]. rewrite cell_eqb_refl, Nat.sub_diag. reflexivity.
    + rewrite IH by lia. replace (j - k)%nat with (S (j - S k)) by lia. cbn [map nth_error].
      destruct (nth_error (map f l) (j - S k)); [reflexivity|].
      cbn [assoc]. rewrite cell_eqb_base.
      destruct (Nat.eqb_spec (g k) (g j)) as [E|E]; [apply Hg in E; lia|reflexivity].
Qed.
Lemma assoc_none l x : (forall y v, In (y, v) l -> y <> x) -> assoc l x = None.
Proof.
  intros H. destruct (assoc l x) eqn:E; [|reflexivity]. apply assoc_in in E. destruct (H _ _ E eq_refl).
Qed.
Lemma in_mapi {X Y} (f : nat -> X -> Y) l k y :
  In y (mapi_from k f l) -> exists i x, (k <= i < k + length l)%nat /\ In x l /\ y = f i x.
Proof.
  revert k; induction l as [|x l IH]; intros k H; simpl in *; [contradiction|].
  destruct H as [<-|H].
  - exists k, x. repeat split; auto; lia.
  - apply IH in H as (i & z & H1 & H2 & ->). exists i, z. repeat split; auto; lia.
Qed.
Lemma opt0_nth_error l i : opt0 (nth_error l i) = nth i l 0.
Proof. revert i; induction l; destruct i; simpl; auto. Qed.

Lemma fixes_muls off k muls :
  fixes (mapi_from k (fun i m => WFix (bcell (VAR_COLUMNS + i) off) m) muls)
  = mapi_from k (fun i m => (bcell (5 + i) off, m)) muls.
Proof.
  revert k. induction muls as [|m ms IH]; intros k; [reflexivity|].
  cbn [mapi_from fixes]. rewrite IH. reflexivity.
Qed.
Lemma advs_muls off k muls :
  advs (mapi_from k (fun i m => WFix (bcell (VAR_COLUMNS + i) off) m) muls) = [].
Proof.
  revert k. induction muls as [|m ms IH]; intros k; [reflexivity|].
  cbn [mapi_from advs]. apply IH.
Qed.

Section Prims.
Context {NM : NMod}.

(** *** one_line *)

Lemma do_writes_inv ws c u c' : do_writes ws c = Ok (u, c') ->
  c' = mkCtx (rev_append ws (c_mem c)) (c_perms c) (base_off c) (range_off c) (select_off c)
             (base_h c) (range_h c) (select_h c).
Proof. intros H. injection H as _ <-. reflexivity. Qed.
Lemma push_perms_inv ps c u c' : push_perms ps c = Ok (u, c') ->
  c' = mkCtx (c_mem c) (rev_append ps (c_perms c)) (base_off c) (range_off c) (select_off c)
             (base_h c) (range_h c) (select_h c).
Proof. intros H. injection H as _ <-. reflexivity. Qed.
Lemma bump_base_h_inv off c u c' : bump_base_h off c = Ok (u, c') ->
  c' = mkCtx (c_mem c) (c_perms c) (base_off c) (range_off c) (select_off c)
             (bump_h off (base_h c)) (range_h c) (select_h c).
Proof. intros H. injection H as _ <-. reflexivity. Qed.

(** The write-or-check of the next / constant coefficient. *)
Definition opt_write (off col : nat) (o : option Z) : M unit :=
  match o with
  | Some v => do_writes [WFix (bcell col off) v]
  | None => c <- mget ;; massert (is_none (get_fix (c_mem c) (bcell col off)))
  end.
Lemma opt_write_inv off col o c u c' : opt_write off col o c = Ok (u, c') ->
  c' = mkCtx (rev_append (opt_fix off col o) (c_mem c)) (c_perms c) (base_off c) (range_off c)
             (select_off c) (base_h c) (range_h c) (select_h c).
Proof.
  destruct o; unfold opt_write; intros H.
  - apply do_writes_inv in H. exact H.
  - apply mbind_inv in H as (c1 & c2 & H1 & H). injection H1 as <- <-.
    apply massert_inv in H as [_ ->]. destruct c; reflexivity.
Qed.
Lemma opt_write_ok off col o c : get_fix (c_mem c) (bcell col off) = None ->
  opt_write off col o c =
  Ok (tt, mkCtx (rev_append (opt_fix off col o) (c_mem c)) (c_perms c) (base_off c) (range_off c)
             (select_off c) (base_h c) (range_h c) (select_h c)).
Proof.
  destruct o; unfold opt_write; intros H; [reflexivity|].
  unfold mbind, mget. rewrite H. destruct c; reflexivity.
Qed.
Lemma rec_one_line_eq off pairs constant muls next :
  rec_one_line off pairs constant muls next =
  (massert (length pairs <=? VAR_COLUMNS)%nat ;;;
  massert (length muls <=? MUL_COLUMNS)%nat ;;;
  bump_base_h off ;;;
  push_perms (concat (mapi (adv_perms off) pairs)) ;;;
  do_writes (concat (mapi (adv_writes off) pairs)) ;;;
  do_writes (mapi (fun i m => WFix (bcell (VAR_COLUMNS + i) off) m) muls) ;;;
  opt_write off 7 next ;;; opt_write off 8 constant).
Proof. reflexivity. Qed.

Lemma rec_one_line_run off pairs constant muls next c u c' :
  rec_one_line off pairs constant muls next c = Ok (u, c') ->
  (length pairs <= 5)%nat /\ (length muls <= 2)%nat
  /\ c' = mkCtx (rev_append (ol_writes off pairs constant muls next) (c_mem c))
                (rev_append (ol_perms off pairs) (c_perms c))
                (base_off c) (range_off c) (select_off c)
                (bump_h off (base_h c)) (range_h c) (select_h c).
Proof.
  rewrite rec_one_line_eq. intros H.
  apply mbind_inv in H as (? & c1 & H1 & H). apply massert_inv in H1 as [H1 ->].
  apply mbind_inv in H as (? & c1 & H2 & H). apply massert_inv in H2 as [H2 ->].
  apply mbind_inv in H as (? & c1 & Hs & H). apply bump_base_h_inv in Hs.
  apply mbind_inv in H as (? & c2 & Hs' & H). apply push_perms_inv in Hs'. subst c1.
  cbn [c_mem c_perms base_off range_off select_off base_h range_h select_h] in Hs'.
  apply mbind_inv in H as (? & c3 & Hs & H). apply do_writes_inv in Hs. subst c2.
  cbn [c_mem c_perms base_off range_off select_off base_h range_h select_h] in Hs.
  apply mbind_inv in H as (? & c4 & Hs' & H). apply do_writes_inv in Hs'. subst c3.
  cbn [c_mem c_perms base_off range_off select_off base_h range_h select_h] in Hs'.
  apply mbind_inv in H as (? & c5 & Hs & H). apply opt_write_inv in Hs. subst c4.
  cbn [c_mem c_perms base_off range_off select_off base_h range_h select_h] in Hs.
  apply opt_write_inv in H. subst c5.
  cbn [c_mem c_perms base_off range_off select_off base_h range_h select_h] in H.
  apply Nat.leb_le in H1, H2.
  split; [exact H1|]. split; [exact H2|].
  unfold ol_writes, ol_perms. rewrite <- !rev_append_app. exact H.
Qed.

Lemma rec_one_line_ok off pairs constant muls next c :
  wf c -> base_off c = off -> (length pairs <= 5)%nat -> (length muls <= 2)%nat ->
  exists c', rec_one_line off pairs constant muls next c = Ok (tt, c').
Proof.
  intros W Ho H1 H2. rewrite rec_one_line_eq.
  unfold mbind at 1. unfold massert at 1.
  rewrite (proj2 (Nat.leb_le (length pairs) VAR_COLUMNS)) by exact H1.
  unfold mbind at 1. unfold massert at 1.
  rewrite (proj2 (Nat.leb_le (length muls) MUL_COLUMNS)) by exact H2.
  assert (N : forall col, (7 <= col)%nat ->
     get_fix (rev_append (mapi (fun i m => WFix (bcell (VAR_COLUMNS + i) off) m) muls)
               (rev_append (concat (mapi (adv_writes off) pairs)) (c_mem c)))
             (bcell col off) = None).
  { intros col Hc. rewrite get_fix_assoc, !fixes_rev_append. unfold mapi at 2. rewrite fixes_concat.
    assert (B : assoc (fixes (c_mem c)) (bcell col off) = None).
    { rewrite <- get_fix_assoc. destruct (get_fix (c_mem c) (bcell col off)) eqn:E; [|auto].
      apply (wf_fix _ W) in E. simpl in E. lia. }
    unfold mapi. rewrite fixes_muls, !rev_append_rev, !assoc_app, B.
    rewrite (assoc_none (rev (mapi_from 0 (fun i m => (bcell (5 + i) off, m)) muls))).
    - rewrite (assoc_none (rev (mapi_from 0 (fun i p => (bcell i off, snd p)) pairs))); [reflexivity|].
      intros y v Hin. apply in_rev in Hin.
      apply in_mapi in Hin as (i & x & Hi & _ & E). injection E as -> _.
      intros K. injection K as K. simpl in Hi. lia.
    - intros y v Hin. apply in_rev in Hin.
      apply in_mapi in Hin as (i & x & Hi & _ & E). injection E as -> _.
      intros K. injection K as K. simpl in Hi. lia. }
  unfold mbind, bump_base_h, push_perms, do_writes.
  cbn [c_mem c_perms base_off range_off select_off base_h range_h select_h].
  rewrite opt_write_ok by (apply N; lia).
  rewrite opt_write_ok; [eexists; reflexivity|].
  cbn [c_mem]. destruct next; cbn [opt_fix rev_append]; [|apply N; lia].
  cbn [get_fix]. rewrite cell_eqb_base. cbn [Nat.eqb andb]. apply N; lia.
Qed.

Definition ol_handles (off : nat) (pairs : list pair_t) : list av :=
  mapi (fun i p => mkAv (bcell i off) (schema_val (fst p))) pairs.

Lemma one_line_inv pairs constant muls next c r c' :
  one_line pairs constant muls next c = Ok (r, c') ->
  (length pairs <= 5)%nat /\ (length muls <= 2)%nat
  /\ block BaseChip 1 (ol_writes (base_off c) pairs constant muls next)
           (ol_perms (base_off c) pairs) c c'
  /\ r = ol_handles (base_off c) pairs.
Proof.
  unfold one_line. intros H.
  apply mbind_inv in H as (c0 & c1 & H1 & H). injection H1 as <- <-.
  apply mbind_inv in H as (u & c1 & H1 & H). apply rec_one_line_run in H1 as (L1 & L2 & ->).
  cbv [mbind incr_base_off mret] in H. injection H as <- <-.
  split; [auto|]. split; [auto|]. split; [|reflexivity].
  constructor; cbn [c_mem c_perms].
  - reflexivity.
  - reflexivity.
  - intros []; simpl; lia.
  - apply ol_writes_in.
Qed.

Lemma one_line_ok pairs constant muls next c :
  wf c -> (length pairs <= 5)%nat -> (length muls <= 2)%nat ->
  exists c', one_line pairs constant muls next c = Ok (ol_handles (base_off c) pairs, c').
Proof.
  intros W H1 H2. unfold one_line.
  destruct (rec_one_line_ok (base_off c) pairs constant muls next c W eq_refl H1 H2) as (c' & E).
  cbv [mbind mget incr_base_off mret]. rewrite E. eexists; reflexivity.
Qed.

Definition olt_writes off pairs tail constant muls next :=
  ol_writes off pairs constant muls next ++ adv_writes off 4 tail.
Definition olt_perms off pairs tail := ol_perms off pairs ++ adv_perms off 4 tail.

Lemma one_line_with_last_inv pairs tail constant muls next c r c' :
  one_line_with_last pairs tail constant muls next c = Ok (r, c') ->
  (length pairs <= 4)%nat /\ (length muls <= 2)%nat
  /\ block BaseChip 1 (olt_writes (base_off c) pairs tail constant muls next)
           (olt_perms (base_off c) pairs tail) c c'
  /\ r = (ol_handles (base_off c) pairs, mkAv (bcell 4 (base_off c)) (schema_val (fst tail))).
Proof.
  unfold one_line_with_last. intros H.
  apply mbind_inv in H as (c0 & c1 & H1 & H). injection H1 as <- <-.
  apply mbind_inv in H as (u & c1 & H1 & H).
  unfold rec_one_line_with_last in H1.
  apply mbind_inv in H1 as (u1 & c2 & H2 & H1). apply massert_inv in H2 as [H2 ->].
  apply mbind_inv in H1 as (u2 & c2 & H3 & H1). apply rec_one_line_run in H3 as (L1 & L2 & ->).
  cbv [mbind push_perms do_writes] in H1. injection H1 as _ <-.
  cbv [mbind incr_base_off mret] in H. injection H as <- <-.
  apply Nat.leb_le in H2.
  split; [exact H2|]. split; [auto|]. split; [|reflexivity].
  constructor; cbn [c_mem c_perms].
  - unfold olt_writes. rewrite <- rev_append_app. reflexivity.
  - unfold olt_perms. rewrite <- rev_append_app. reflexivity.
  - intros []; simpl; lia.
  - apply Forall_app. split; [apply ol_writes_in|apply adv_writes_in].
Qed.

Lemma one_line_with_last_ok pairs tail constant muls next c :
  wf c -> (length pairs <= 4)%nat -> (length muls <= 2)%nat ->
  exists c', one_line_with_last pairs tail constant muls next c
     = Ok ((ol_handles (base_off c) pairs, mkAv (bcell 4 (base_off c)) (schema_val (fst tail))), c').
Proof.
  intros W H1 H2. unfold one_line_with_last.
  destruct (rec_one_line_ok (base_off c) pairs constant muls next c W eq_refl ltac:(lia) H2)
    as (c' & E).
  cbv [mbind mget]. unfold rec_one_line_with_last. cbv [mbind].
  apply Nat.leb_le in H1. unfold massert. replace (length pairs <=? VAR_COLUMNS - 1)%nat with true by auto.
  rewrite E. cbv [push_perms do_writes incr_base_off mret]. eexists; reflexivity.
Qed.

(** The gate equation emitted by a row, over the values [v i] of its cells. *)
Definition gate_sum (v : nat -> Z) (cs : list Z) (constant : option Z) (muls : list Z) : Z :=
  opt0 constant + v 0%nat * nth 0 cs 0 + v 1%nat * nth 1 cs 0 + v 2%nat * nth 2 cs 0
  + v 3%nat * nth 3 cs 0 + v 4%nat * nth 4 cs 0
  + v 0%nat * v 1%nat * nth 0 muls 0 + v 2%nat * v 3%nat * nth 1 muls 0.

(** The copy constraints of a row. *)
Fixpoint copies (A : cell -> Z) (off k : nat) (pairs : list pair_t) : Prop :=
  match pairs with
  | [] => True
  | p :: ps => (match fst p with
                | SAssigned a => A (bcell k off) = A (a_cell a)
                | SUnassigned _ => True
                end) /\ copies A off (S k) ps
  end.

Lemma copies_perms A off k pairs :
  (forall a b, In (a, b) (concat (mapi_from k (adv_perms off) pairs)) -> A a = A b)
  <-> copies A off k pairs.
Proof.
  revert k; induction pairs as [|[s co] ps IH]; intros k; cbn [mapi_from concat copies fst].
  - split; [auto|]. intros _ a b [].
  - rewrite <- IH. unfold adv_perms at 1. cbn [fst]. destruct s as [a|v]; cbn [schema_cell].
    + split.
      * intros H. split; [symmetry; apply H; left; auto|]. intros x y Hin. apply H. right; auto.
      * intros [H1 H2] x y [E|Hin]; [injection E as <- <-; auto|auto].
    + split; [intros H; split; auto|intros [_ H]; auto].
Qed.

Definition with_tail (cs : list Z) (t : Z) : list Z :=
  [nth 0 cs 0; nth 1 cs 0; nth 2 cs 0; nth 3 cs 0; t].

Lemma blk_fixv_fresh c c' ws ps x :
  wf c -> block BaseChip 1 ws ps c c' -> c_chip x = BaseChip -> c_row x = base_off c ->
  get_fix (c_mem c') x = assoc (rev (fixes ws)) x.
Proof.
  intros W B Hc Hr. rewrite get_fix_assoc, (blk_mem _ _ _ _ _ _ B), fixes_rev_append, rev_append_rev.
  assert (N : assoc (fixes (c_mem c)) x = None).
  { rewrite <- get_fix_assoc. destruct (get_fix (c_mem c) x) eqn:E; [|auto].
    apply (wf_fix _ W) in E. rewrite Hc, Hr in E. simpl in E. lia. }
  clear Hc Hr. induction (rev (fixes ws)) as [|[y v] l IH]; simpl; [exact N|].
  rewrite IH. reflexivity.
Qed.
Lemma blk_adv_fresh c c' ch k ws ps x :
  wf c -> block ch k ws ps c c' -> c_chip x = ch -> (off_of c ch <= c_row x)%nat ->
  get_adv (c_mem c') x = assoc (rev (advs ws)) x.
Proof.
  intros W B Hc Hr. rewrite get_adv_assoc, (blk_mem _ _ _ _ _ _ B), advs_rev_append, rev_append_rev.
  assert (N : assoc (advs (c_mem c)) x = None).
  { rewrite <- get_adv_assoc. destruct (get_adv (c_mem c) x) eqn:E; [|auto].
    apply (wf_adv _ W) in E. rewrite Hc in E. lia. }
  clear Hc Hr. induction (rev (advs ws)) as [|[y v] l IH]; simpl; [exact N|].
  rewrite IH. reflexivity.
Qed.
Lemma blk_fix_fresh c c' ch k ws ps x :
  wf c -> block ch k ws ps c c' -> c_chip x = ch -> (off_of c ch <= c_row x)%nat ->
  get_fix (c_mem c') x = assoc (rev (fixes ws)) x.
Proof.
  intros W B Hc Hr. rewrite get_fix_assoc, (blk_mem _ _ _ _ _ _ B), fixes_rev_append, rev_append_rev.
  assert (N : assoc (fixes (c_mem c)) x = None).
  { rewrite <- get_fix_assoc. destruct (get_fix (c_mem c) x) eqn:E; [|auto].
    apply (wf_fix _ W) in E. rewrite Hc in E. lia. }
  clear Hc Hr. induction (rev (fixes ws)) as [|[y v] l IH]; simpl; [exact N|].
  rewrite IH. reflexivity.
Qed.

Lemma fixes_ol_writes off pairs constant muls next :
  fixes (ol_writes off pairs constant muls next)
  = ((mapi_from 0 (fun i p => (bcell i off, snd p)) pairs
      ++ mapi_from 0 (fun i m => (bcell (5 + i) off, m)) muls)
     ++ match next with Some v => [(bcell 7 off, v)] | None => [] end)
    ++ match constant with Some v => [(bcell 8 off, v)] | None => [] end.
Proof.
  unfold ol_writes. rewrite !fixes_app. unfold mapi at 1. rewrite fixes_concat.
  f_equal; [f_equal; [f_equal|]|].
  - apply fixes_muls.
  - destruct next; reflexivity.
  - destruct constant; reflexivity.
Qed.
Lemma advs_ol_writes off pairs constant muls next :
  advs (ol_writes off pairs constant muls next)
  = mapi_from 0 (fun i p => (bcell i off, schema_val (fst p))) pairs.
Proof.
  unfold ol_writes. rewrite !advs_app. unfold mapi at 1. rewrite advs_concat.
  replace (advs (mapi _ muls)) with (@nil (cell * Z)).
  - destruct next, constant; simpl; rewrite !app_nil_r; reflexivity.
  - symmetry. apply advs_muls.
Qed.

Definition ol_fixcol (pairs : list pair_t) (constant : option Z) (muls : list Z) (next : option Z)
  (j : nat) : option Z :=
  if (j <? 5)%nat then nth_error (map snd pairs) j
  else if (j <? 7)%nat then nth_error muls (j - 5)
  else if (j =? 7)%nat then next else if (j =? 8)%nat then constant else None.

Lemma ol_fix_col off pairs constant muls next j :
  (length pairs <= 5)%nat -> (length muls <= 2)%nat ->
  assoc (rev (fixes (ol_writes off pairs constant muls next))) (bcell j off)
  = ol_fixcol pairs constant muls next j.
Proof.
  intros L1 L2. rewrite fixes_ol_writes, !rev_app_distr, !assoc_app.
  assert (P : assoc (rev (mapi_from 0 (fun i (p : pair_t) => (bcell i off, snd p)) pairs)) (bcell j off)
              = nth_error (map snd pairs) j).
  { etransitivity; [exact (assoc_rev_mapi (X:=pair_t) snd (fun i => i) off pairs 0 j (fun a b H => H) (Nat.le_0_l j))|].
    rewrite Nat.sub_0_r. reflexivity. }
  rewrite P. clear P.
  assert (Mu : assoc (rev (mapi_from 0 (fun i (m : Z) => (bcell (5 + i) off, m)) muls)) (bcell j off)
              = if (j <? 5)%nat then None else nth_error muls (j - 5)).
  { destruct (Nat.ltb_spec j 5) as [H|H].
    - apply assoc_none. intros y v Hin. apply in_rev in Hin.
      apply in_mapi in Hin as (i & x & _ & _ & E). injection E as -> _.
      intros K. injection K as K. lia.
    - replace j with (5 + (j - 5))%nat at 1 by lia.
      etransitivity; [refine (assoc_rev_mapi (X:=Z) (fun m => m) (fun i => (5 + i)%nat) off muls 0 (j - 5) _ _); intros; lia|].
      rewrite map_id, Nat.sub_0_r. reflexivity. }
  rewrite Mu. clear Mu. unfold ol_fixcol.
  destruct (Nat.ltb_spec j 5) as [H|H].
  - assert (N : forall k (o : option Z), (5 <= k)%nat ->
      assoc (rev match o with Some v => [(bcell k off, v)] | None => [] end) (bcell j off) = None).
    { intros k [v|] Hk; [|reflexivity]. cbn [rev app assoc]. rewrite cell_eqb_base.
      destruct (Nat.eqb_spec k j); [lia|reflexivity]. }
    rewrite !N by lia. reflexivity.
  - assert (NP : nth_error (map snd pairs) j = None)
      by (apply nth_error_None; rewrite map_length; lia).
    rewrite NP. destruct (Nat.ltb_spec j 7) as [H7|H7].
    + assert (N : forall k (o : option Z), (7 <= k)%nat ->
        assoc (rev match o with Some v => [(bcell k off, v)] | None => [] end) (bcell j off) = None).
      { intros k [v|] Hk; [|reflexivity]. cbn [rev app assoc]. rewrite cell_eqb_base.
        destruct (Nat.eqb_spec k j); [lia|reflexivity]. }
      rewrite !N by lia. destruct (nth_error muls (j - 5)); reflexivity.
    + assert (NM' : nth_error muls (j - 5) = None) by (apply nth_error_None; lia).
      rewrite NM'. destruct next as [nv|], constant as [cv|]; cbn [rev app assoc];
        rewrite ?cell_eqb_base, ?Nat.eqb_refl, ?andb_true_r;
      (destruct (Nat.eqb_spec j 7) as [->|N7]; [reflexivity|]);
      (destruct (Nat.eqb_spec j 8) as [->|N8]; [reflexivity|]);
      rewrite ?(proj2 (Nat.eqb_neq 7 j)), ?(proj2 (Nat.eqb_neq 8 j)) by lia; reflexivity.
Qed.

Lemma olt_fix_col off pairs tail constant muls next j :
  (length pairs <= 4)%nat -> (length muls <= 2)%nat ->
  assoc (rev (fixes (olt_writes off pairs tail constant muls next))) (bcell j off)
  = if (j =? 4)%nat then Some (snd tail) else ol_fixcol pairs constant muls next j.
Proof.
  intros L1 L2. unfold olt_writes. rewrite fixes_app, fixes_adv_writes, rev_app_distr, assoc_app.
  rewrite ol_fix_col by lia. cbn [rev app assoc]. rewrite cell_eqb_base, Nat.eqb_refl, andb_true_r.
  destruct (Nat.eqb_spec 4 j) as [<-|N]; [reflexivity|].
  destruct (Nat.eqb_spec j 4); [lia|reflexivity].
Qed.

Lemma ol_adv_col off pairs constant muls next j :
  assoc (rev (advs (ol_writes off pairs constant muls next))) (bcell j off)
  = nth_error (map (fun p => schema_val (fst p)) pairs) j.
Proof.
  rewrite advs_ol_writes.
  etransitivity; [exact (assoc_rev_mapi (X:=pair_t) (fun p => schema_val (fst p)) (fun i => i) off pairs 0 j (fun a b H => H) (Nat.le_0_l j))|].
  rewrite Nat.sub_0_r. reflexivity.
Qed.
Lemma olt_adv_col off pairs tail constant muls next j :
  (length pairs <= 4)%nat ->
  assoc (rev (advs (olt_writes off pairs tail constant muls next))) (bcell j off)
  = if (j =? 4)%nat then Some (schema_val (fst tail))
    else nth_error (map (fun p => schema_val (fst p)) pairs) j.
Proof.
  intros L. unfold olt_writes. rewrite advs_app, advs_adv_writes, rev_app_distr, assoc_app, ol_adv_col.
  cbn [rev app assoc]. rewrite cell_eqb_base, Nat.eqb_refl, andb_true_r, Nat.eqb_sym.
  destruct (j =? 4)%nat; reflexivity.
Qed.

Lemma ol_fixv c c' pairs constant muls next A :
  wf c -> (length pairs <= 5)%nat -> (length muls <= 2)%nat ->
  block BaseChip 1 (ol_writes (base_off c) pairs constant muls next) (ol_perms (base_off c) pairs) c c' ->
  base_expr (fixv c') A (base_off c)
  = gate_sum (fun i => A (bcell i (base_off c))) (map snd pairs) constant muls
    + A (bcell 4 (S (base_off c))) * opt0 next.
Proof.
  intros W L1 L2 B. unfold base_expr, fixv.
  rewrite !(blk_fixv_fresh _ _ _ _ _ W B) by reflexivity.
  rewrite !ol_fix_col by auto. unfold ol_fixcol. cbn [Nat.ltb Nat.leb Nat.eqb Nat.sub].
  rewrite !opt0_nth_error. unfold gate_sum. ring.
Qed.

Lemma olt_fixv c c' pairs tail constant muls next A :
  wf c -> (length pairs <= 4)%nat -> (length muls <= 2)%nat ->
  block BaseChip 1 (olt_writes (base_off c) pairs tail constant muls next)
        (olt_perms (base_off c) pairs tail) c c' ->
  base_expr (fixv c') A (base_off c)
  = gate_sum (fun i => A (bcell i (base_off c))) (with_tail (map snd pairs) (snd tail)) constant muls
    + A (bcell 4 (S (base_off c))) * opt0 next.
Proof.
  intros W L1 L2 B. unfold base_expr, fixv.
  rewrite !(blk_fixv_fresh _ _ _ _ _ W B) by reflexivity.
  rewrite !olt_fix_col by auto. unfold ol_fixcol. cbn [Nat.ltb Nat.leb Nat.eqb Nat.sub].
  rewrite !opt0_nth_error. unfold gate_sum, with_tail. cbn [opt0 nth]. ring.
Qed.

Definition bitpat (pairs : list pair_t) (constant : option Z) (muls : list Z) (next : option Z) : Prop :=
  map snd pairs = [1; 0] /\ constant = None /\ muls = [fneg 1] /\ next = None.

Lemma bit_row_ol c c' pairs constant muls next :
  wf c -> (length pairs <= 5)%nat -> (length muls <= 2)%nat ->
  block BaseChip 1 (ol_writes (base_off c) pairs constant muls next) (ol_perms (base_off c) pairs) c c' ->
  bit_row c' (base_off c) <-> bitpat pairs constant muls next.
Proof.
  intros W L1 L2 B. unfold bit_row.
  rewrite !(blk_fixv_fresh _ _ _ _ _ W B) by reflexivity.
  rewrite !ol_fix_col by auto. unfold ol_fixcol, bitpat. cbn [Nat.ltb Nat.leb Nat.eqb Nat.sub].
  split.
  - intros (H0 & H1 & H2 & _ & _ & H5 & H6 & H7 & H8). split; [|split; [auto|split; [|auto]]].
    + destruct (map snd pairs) as [|a [|b [|]]]; simpl in *; congruence.
    + destruct muls as [|a [|b]]; simpl in *; congruence.
  - intros (-> & -> & -> & ->). repeat split; reflexivity.
Qed.
Lemma bit_row_olt c c' pairs tail constant muls next :
  wf c -> (length pairs <= 4)%nat -> (length muls <= 2)%nat ->
  block BaseChip 1 (olt_writes (base_off c) pairs tail constant muls next)
        (olt_perms (base_off c) pairs tail) c c' ->
  ~ bit_row c' (base_off c).
Proof.
  intros W L1 L2 B (_ & _ & _ & _ & H4 & _).
  rewrite (blk_fixv_fresh _ _ _ _ _ W B), olt_fix_col in H4 by auto. discriminate.
Qed.

(** Exact meaning of a recorded base row. *)
Lemma one_line_sat T A pairs constant muls next c r c' :
  wf c -> one_line pairs constant muls next c = Ok (r, c') ->
  wf c' /\ extends c c' /\ r = ol_handles (base_off c) pairs /\ base_off c' = S (base_off c)
  /\ (sat T c' A <->
      (sat T c A /\ copies A (base_off c) 0 pairs
       /\ gate_sum (fun i => A (bcell i (base_off c))) (map snd pairs) constant muls
          + A (bcell 4 (S (base_off c))) * opt0 next ≡ 0 ⟨nmod⟩
       /\ (bitc T -> bitpat pairs constant muls next ->
           A (bcell 0 (base_off c)) = A (bcell 1 (base_off c))))).
Proof.
  intros W H. apply one_line_inv in H as (L1 & L2 & B & ->).
  split; [eapply block_wf; eauto|]. split; [eapply block_extends; eauto|].
  split; [reflexivity|]. split.
  { pose proof (blk_off _ _ _ _ _ _ B BaseChip) as Ho. simpl in Ho. lia. }
  rewrite (sat_block T _ _ _ _ _ _ A W B).
  unfold ol_perms, mapi. rewrite copies_perms.
  rewrite <- (ol_fixv c c' pairs constant muls next A W L1 L2 B), eqm_0_iff.
  rewrite <- (bit_row_ol c c' pairs constant muls next W L1 L2 B).
  split.
  - intros (S & H1 & H2). split; [auto|]. split; [auto|]. pose proof (H1 0%nat ltac:(lia)) as [G G'].
    rewrite Nat.add_0_r in G, G'. split; [exact G|exact G'].
  - intros (S & H1 & H2 & H3). split; [auto|]. split; [|auto]. intros i Hi. replace i with 0%nat by lia.
    rewrite Nat.add_0_r. split; [exact H2|exact H3].
Qed.

Lemma one_line_with_last_sat T A pairs tail constant muls next c r c' :
  wf c -> one_line_with_last pairs tail constant muls next c = Ok (r, c') ->
  wf c' /\ extends c c'
  /\ r = (ol_handles (base_off c) pairs, mkAv (bcell 4 (base_off c)) (schema_val (fst tail)))
  /\ base_off c' = S (base_off c)
  /\ (sat T c' A <->
      (sat T c A /\ copies A (base_off c) 0 pairs /\ copies A (base_off c) 4 [tail]
       /\ gate_sum (fun i => A (bcell i (base_off c))) (with_tail (map snd pairs) (snd tail)) constant muls
          + A (bcell 4 (S (base_off c))) * opt0 next ≡ 0 ⟨nmod⟩)).
Proof.
  intros W H. apply one_line_with_last_inv in H as (L1 & L2 & B & ->).
  split; [eapply block_wf; eauto|]. split; [eapply block_extends; eauto|].
  split; [reflexivity|]. split.
  { pose proof (blk_off _ _ _ _ _ _ B BaseChip) as Ho. simpl in Ho. lia. }
  rewrite (sat_block T _ _ _ _ _ _ A W B).
  rewrite <- (olt_fixv c c' pairs tail constant muls next A W L1 L2 B), eqm_0_iff.
  assert (CP : (forall a b, In (a, b) (olt_perms (base_off c) pairs tail) -> A a = A b) <->
               copies A (base_off c) 0 pairs /\ copies A (base_off c) 4 [tail]).
  { rewrite <- !copies_perms. unfold olt_perms, ol_perms. cbn [mapi_from concat].
    rewrite app_nil_r. split.
    - intros H; split; intros a b Hin; apply H; apply in_or_app; auto.
    - intros [H1 H2] a b Hin. apply in_app_or in Hin as [?|?]; auto. }
  rewrite CP.
  split.
  - intros (S & H1 & H2 & H3). split; [auto|]. split; [auto|]. split; [auto|].
    pose proof (H1 0%nat ltac:(lia)) as [G _].
    rewrite Nat.add_0_r in G. exact G.
  - intros (S & H2 & H3 & H4). split; [auto|]. split; [|auto]. intros i Hi. replace i with 0%nat by lia.
    rewrite Nat.add_0_r. split; [exact H4|].
    intros _ HB. destruct (bit_row_olt c c' pairs tail constant muls next W L1 L2 B HB).
Qed.

(** Soundness rules for rows without a next-row term. *)
Lemma ST_one_line T A pairs constant muls :
  ST T A (one_line pairs constant muls None)
     (fun r => exists off, r = ol_handles off pairs /\ copies A off 0 pairs
        /\ gate_sum (fun i => A (bcell i off)) (map snd pairs) constant muls ≡ 0 ⟨nmod⟩
        /\ (bitc T -> bitpat pairs constant muls None -> A (bcell 0 off) = A (bcell 1 off))).
Proof.
  intros c r c' W H S. destruct (one_line_sat T A _ _ _ _ _ _ _ W H) as (_ & _ & Hr & _ & HS).
  apply HS in S as (_ & S1 & S2 & S3). exists (base_off c). split; [auto|]. split; [auto|].
  cbn [opt0] in S2. rewrite Z.mul_0_r, Z.add_0_r in S2. split; [exact S2|exact S3].
Qed.
Lemma ST_one_line_with_last T A pairs tail constant muls :
  ST T A (one_line_with_last pairs tail constant muls None)
     (fun r => exists off,
        r = (ol_handles off pairs, mkAv (bcell 4 off) (schema_val (fst tail)))
        /\ copies A off 0 pairs /\ copies A off 4 [tail]
        /\ gate_sum (fun i => A (bcell i off)) (with_tail (map snd pairs) (snd tail)) constant muls
           ≡ 0 ⟨nmod⟩).
Proof.
  intros c r c' W H S.
  destruct (one_line_with_last_sat T A _ _ _ _ _ _ _ _ W H) as (_ & _ & Hr & _ & HS).
  apply HS in S as (_ & S1 & S2 & S3). exists (base_off c). split; [auto|]. split; [auto|].
  split; [auto|]. cbn [opt0] in S3. rewrite Z.mul_0_r, Z.add_0_r in S3. exact S3.
Qed.

(** Completeness rules. *)
Definition schema_ok (c : ctx) (s : schema) : Prop :=
  match s with SAssigned a => valid c a | SUnassigned v => 0 <= v < nmod end.

Lemma ol_handles_valid c c' pairs :
  wf c' -> Forall (fun p => schema_ok c (fst p)) pairs ->
  (forall i p, nth_error pairs i = Some p ->
     get_adv (c_mem c') (bcell i (base_off c)) = Some (schema_val (fst p))
     /\ exists v, get_fix (c_mem c') (bcell i (base_off c)) = Some v) ->
  Forall (valid c') (ol_handles (base_off c) pairs).
Proof.
  intros W F H. unfold ol_handles, mapi.
  assert (G : forall ps k, (forall i p, nth_error ps i = Some p -> nth_error pairs (k + i) = Some p) ->
     Forall (valid c') (mapi_from k (fun i p => mkAv (bcell i (base_off c)) (schema_val (fst p))) ps)).
  { induction ps as [|p ps IH]; intros k Hk; simpl; constructor.
    - pose proof (Hk 0%nat p eq_refl) as Hp. rewrite Nat.add_0_r in Hp.
      destruct (H _ _ Hp) as [H1 [v H2]]. split; [|split]; simpl.
      + exists k, v. exact H2.
      + exact H1.
      + apply nth_error_In in Hp. rewrite Forall_forall in F. apply F in Hp.
        destruct p as [[a|x] co]; simpl in *; [apply Hp|auto].
    - apply IH. intros i q Hi. replace (S k + i)%nat with (k + S i)%nat by lia. apply Hk. exact Hi. }
  apply (G pairs 0%nat). intros; auto.
Qed.

Definition pair_val (pairs : list pair_t) (i : nat) : Z :=
  nth i (map (fun p => schema_val (fst p)) pairs) 0.

Lemma gate_sum_ext v v' cs constant muls :
  (forall i, (i < 5)%nat -> v i = v' i) -> gate_sum v cs constant muls = gate_sum v' cs constant muls.
Proof. intros H. unfold gate_sum. rewrite !H by lia. reflexivity. Qed.

Lemma copies_honest c A off pairs k :
  agrees c A -> Forall (fun p => schema_ok c (fst p)) pairs ->
  (forall i p, nth_error pairs i = Some p -> A (bcell (k + i) off) = schema_val (fst p)) ->
  copies A off k pairs.
Proof.
  intros G F; revert k; induction F as [|[s co] ps Hp _ IH]; intros k H; cbn [copies fst]; [auto|].
  split.
  - destruct s as [a|v]; [|auto]. pose proof (H 0%nat _ eq_refl) as H0.
    rewrite Nat.add_0_r in H0. rewrite H0. simpl. symmetry. apply (valid_agrees c); auto.
  - apply IH. intros i p Hi. replace (S k + i)%nat with (k + S i)%nat by lia. apply H. exact Hi.
Qed.

Lemma advs_ok_block ch k ws ps c c' x v :
  wf c -> block ch k ws ps c c' -> extends c c' -> advs_ok c -> get_adv (c_mem c') x = Some v ->
  (used c' (c_chip x) (c_row x) /\ 0 <= v < nmod)
  \/ (In (x, v) (advs ws) /\ in_rows ch (off_of c ch) (off_of c ch + k) x).
Proof.
  intros W B E P Hx. rewrite get_adv_assoc, (blk_mem _ _ _ _ _ _ B), advs_rev_append in Hx.
  apply assoc_rev_append_in in Hx as [Hx|Hx].
  - right. split; [auto|]. pose proof (advs_in _ _ _ _ (blk_rows _ _ _ _ _ _ B)) as F.
    rewrite Forall_forall in F. apply F in Hx. exact Hx.
  - left. rewrite <- get_adv_assoc in Hx. apply P in Hx as [U R]. split; [|auto].
    eapply used_extends; eauto.
Qed.

Lemma CT_one_line c pairs constant muls :
  wf c -> (0 < length pairs <= 5)%nat -> (length muls <= 2)%nat ->
  Forall (fun p => schema_ok c (fst p)) pairs ->
  gate_sum (pair_val pairs) (map snd pairs) constant muls ≡ 0 ⟨nmod⟩ ->
  (bitpat pairs constant muls None -> pair_val pairs 0 = pair_val pairs 1) ->
  CT c (one_line pairs constant muls None)
     (fun r c' => r = ol_handles (base_off c) pairs /\ Forall (valid c') r).
Proof.
  intros W L1 L2 F G BP.
  destruct (one_line_ok pairs constant muls None c W ltac:(lia) L2) as (c' & H).
  pose proof (one_line_inv _ _ _ _ _ _ _ H) as (_ & _ & B & _).
  assert (W' : wf c') by (eapply block_wf; eauto).
  assert (E : extends c c') by (eapply block_extends; eauto).
  assert (ADV : forall i, get_adv (c_mem c') (bcell i (base_off c))
           = nth_error (map (fun p => schema_val (fst p)) pairs) i).
  { intros i. rewrite (blk_adv_fresh _ _ _ _ _ _ _ W B) by (simpl; first [reflexivity|lia]). apply ol_adv_col. }
  assert (FIX : forall i, (i < length pairs)%nat ->
           exists v, get_fix (c_mem c') (bcell i (base_off c)) = Some v).
  { intros i Hi. rewrite (blk_fix_fresh _ _ _ _ _ _ _ W B) by (simpl; first [reflexivity|lia]).
    rewrite ol_fix_col by lia. unfold ol_fixcol.
    destruct (Nat.ltb_spec i 5) as [H5|H5]; [|lia].
    rewrite nth_error_map. destruct (nth_error pairs i) eqn:E'; [simpl; eauto|].
    apply nth_error_None in E'. lia. }
  exists (ol_handles (base_off c) pairs), c'.
  split; [exact H|]. split; [exact W'|]. split; [exact E|]. split.
  - assert (U : used c' BaseChip (base_off c)).
    { destruct (FIX 0%nat ltac:(lia)) as [v Hv]. exists 0%nat, v. exact Hv. }
    split.
    { intros P x v Hx. destruct (advs_ok_block _ _ _ _ _ _ _ _ W B E P Hx) as [K|[Hin [Kc Kr]]]; [exact K|].
      simpl in Kr. replace (c_row x) with (base_off c) by lia. rewrite Kc. split; [exact U|].
      rewrite advs_ol_writes in Hin. apply in_mapi in Hin as (i & p & _ & Hp & Ep).
      injection Ep as -> ->. rewrite Forall_forall in F. apply F in Hp.
      destruct p as [[a|y] co]; simpl in *; [apply Hp|auto]. }
    intros T A HA HG HT HS.
    destruct (one_line_sat T A _ _ _ _ _ _ _ W H) as (_ & _ & _ & _ & ->).
    assert (V : forall i, A (bcell i (base_off c)) = pair_val pairs i).
    { intros i. unfold bcell. rewrite (HG _ _ U). unfold honest. unfold bcell in ADV. rewrite ADV.
      unfold pair_val. apply opt0_nth_error. }
    split; [auto|]. split.
    + apply (copies_honest c); auto; [eapply agrees_mono; eauto|].
      intros i p Hp. simpl. rewrite V. unfold pair_val. apply nth_error_nth.
      rewrite nth_error_map, Hp. reflexivity.
    + cbn [opt0]. rewrite Z.mul_0_r, Z.add_0_r.
      rewrite (gate_sum_ext _ (pair_val pairs)) by auto. split; [exact G|]. intros _ HB. rewrite !V. auto.
  - split; [reflexivity|]. apply ol_handles_valid; auto.
    intros i p Hp. split.
    + rewrite ADV, nth_error_map, Hp. reflexivity.
    + apply FIX. apply nth_error_Some. congruence.
Qed.

Definition tail_val (pairs : list pair_t) (tail : pair_t) (i : nat) : Z :=
  match i with
  | 4%nat => schema_val (fst tail)
  | _ => pair_val pairs i
  end.

(** General form (used for chained rows): what the row's cells hold. *)
Lemma olt_honest c pairs tail constant muls next c' r :
  wf c -> Forall (fun p => schema_ok c (fst p)) pairs -> schema_ok c (fst tail) ->
  one_line_with_last pairs tail constant muls next c = Ok (r, c') ->
  Forall (valid c') (fst r) /\ valid c' (snd r)
  /\ used c' BaseChip (base_off c)
  /\ (forall A, agrees c' A -> forall i, (i < 5)%nat ->
        A (bcell i (base_off c)) = tail_val pairs tail i)
  /\ (forall A, agrees c' A -> copies A (base_off c) 0 pairs /\ copies A (base_off c) 4 [tail]).
Proof.
  intros W F Ft H.
  pose proof (one_line_with_last_inv _ _ _ _ _ _ _ _ H) as (L1 & L2 & B & ->).
  assert (W' : wf c') by (eapply block_wf; eauto).
  assert (E : extends c c') by (eapply block_extends; eauto).
  assert (ADV : forall i, (i < 4)%nat -> get_adv (c_mem c') (bcell i (base_off c))
           = nth_error (map (fun p => schema_val (fst p)) pairs) i).
  { intros i Hi. rewrite (blk_adv_fresh _ _ _ _ _ _ _ W B) by (simpl; first [reflexivity|lia]).
    rewrite olt_adv_col by lia. destruct (Nat.eqb_spec i 4); [lia|reflexivity]. }
  assert (ADV4 : get_adv (c_mem c') (bcell 4 (base_off c)) = Some (schema_val (fst tail))).
  { rewrite (blk_adv_fresh _ _ _ _ _ _ _ W B) by (simpl; first [reflexivity|lia]).
    unfold olt_writes. rewrite advs_app, advs_adv_writes, rev_app_distr.
    cbn [rev app assoc]. rewrite cell_eqb_refl. reflexivity. }
  assert (FIX4 : get_fix (c_mem c') (bcell 4 (base_off c)) = Some (snd tail)).
  { rewrite (blk_fix_fresh _ _ _ _ _ _ _ W B) by (simpl; first [reflexivity|lia]).
    unfold olt_writes. rewrite fixes_app, fixes_adv_writes, rev_app_distr.
    cbn [rev app assoc]. rewrite cell_eqb_refl. reflexivity. }
  assert (FIX : forall i, (i < length pairs)%nat ->
           exists v, get_fix (c_mem c') (bcell i (base_off c)) = Some v).
  { intros i Hi. rewrite (blk_fix_fresh _ _ _ _ _ _ _ W B) by (simpl; first [reflexivity|lia]).
    rewrite olt_fix_col by lia. destruct (Nat.eqb_spec i 4); [lia|]. unfold ol_fixcol.
    destruct (Nat.ltb_spec i 5) as [H5|H5]; [|lia].
    rewrite nth_error_map. destruct (nth_error pairs i) eqn:E'; [simpl; eauto|].
    apply nth_error_None in E'. lia. }
  assert (U : used c' BaseChip (base_off c)) by (exists 4%nat, (snd tail); exact FIX4).
  assert (V : forall A, agrees c' A -> forall i, (i < 5)%nat ->
        A (bcell i (base_off c)) = tail_val pairs tail i).
  { intros A HG i Hi. unfold bcell. rewrite (HG _ _ U). unfold honest. unfold bcell in ADV, ADV4.
    destruct (Nat.eq_dec i 4) as [->|N4]; [rewrite ADV4; reflexivity|].
    rewrite ADV, opt0_nth_error by lia.
    do 4 (destruct i as [|i]; [reflexivity|]). lia. }
  split; [|split; [|split; [|split]]].
  - cbn [fst]. apply ol_handles_valid; auto. intros i p Hp.
    assert (Hi : (i < length pairs)%nat) by (apply nth_error_Some; congruence).
    split; [|apply FIX; auto].
    rewrite ADV by lia. rewrite nth_error_map, Hp. reflexivity.
  - cbn [snd]. split; [|split]; simpl.
    + exact U.
    + exact ADV4.
    + destruct tail as [[a|x] co]; simpl in *; [apply Ft|auto].
  - exact U.
  - exact V.
  - intros A HG. assert (HG' : agrees c A) by (eapply agrees_mono; eauto). split.
    + apply (copies_honest c); auto.
      intros i p Hp. assert (Hi : (i < length pairs)%nat) by (apply nth_error_Some; congruence).
      simpl. rewrite V by (auto; lia).
      replace (tail_val pairs tail i) with (pair_val pairs i)
        by (do 5 (destruct i as [|i]; [first [reflexivity|lia]|]); lia).
      unfold pair_val. apply nth_error_nth. rewrite nth_error_map, Hp. reflexivity.
    + apply (copies_honest c); auto. intros i p Hp. destruct i as [|[|]]; [|discriminate|discriminate].
      injection Hp as <-. rewrite V by (auto; simpl; lia). reflexivity.
Qed.

Lemma olt_advs_ok c pairs tail constant muls next c' r :
  wf c -> Forall (fun p => schema_ok c (fst p)) pairs -> schema_ok c (fst tail) ->
  one_line_with_last pairs tail constant muls next c = Ok (r, c') ->
  advs_ok c -> advs_ok c'.
Proof.
  intros W F Ft H P x v Hx.
  destruct (olt_honest _ _ _ _ _ _ _ _ W F Ft H) as (_ & _ & U & _).
  pose proof (one_line_with_last_inv _ _ _ _ _ _ _ _ H) as (L1 & L2 & B & ->).
  assert (E : extends c c') by (eapply block_extends; eauto).
  destruct (advs_ok_block _ _ _ _ _ _ _ _ W B E P Hx) as [K|[Hin [Kc Kr]]]; [exact K|].
  simpl in Kr. replace (c_row x) with (base_off c) by lia. rewrite Kc. split; [exact U|].
  unfold olt_writes in Hin. rewrite advs_app, advs_adv_writes, advs_ol_writes in Hin.
  apply in_app_or in Hin as [Hin|[Hin|[]]].
  - apply in_mapi in Hin as (i & p & _ & Hp & Ep).
    injection Ep as -> ->. rewrite Forall_forall in F. apply F in Hp.
    destruct p as [[a|y] co]; simpl in *; [apply Hp|auto].
  - injection Hin as <- <-. destruct tail as [[a|y] co]; simpl in *; [apply Ft|auto].
Qed.

Lemma CT_one_line_with_last c pairs tail constant muls :
  wf c -> (length pairs <= 4)%nat -> (length muls <= 2)%nat ->
  Forall (fun p => schema_ok c (fst p)) pairs -> schema_ok c (fst tail) ->
  gate_sum (tail_val pairs tail) (with_tail (map snd pairs) (snd tail)) constant muls ≡ 0 ⟨nmod⟩ ->
  CT c (one_line_with_last pairs tail constant muls None)
     (fun r c' => r = (ol_handles (base_off c) pairs,
                       mkAv (bcell 4 (base_off c)) (schema_val (fst tail)))
                  /\ Forall (valid c') (fst r) /\ valid c' (snd r)).
Proof.
  intros W L1 L2 F Ft G.
  destruct (one_line_with_last_ok pairs tail constant muls None c W L1 L2) as (c' & H).
  destruct (olt_honest _ _ _ _ _ _ _ _ W F Ft H) as (V1 & V2 & U & V & CP).
  destruct (one_line_with_last_sat (mkEnv (fun _ _ => True) False) (fun _ => 0) _ _ _ _ _ _ _ _ W H) as (W' & E & _).
  exists (ol_handles (base_off c) pairs, mkAv (bcell 4 (base_off c)) (schema_val (fst tail))), c'.
  split; [exact H|]. split; [exact W'|]. split; [exact E|]. split; [|auto]. split.
  { intros P. exact (olt_advs_ok _ _ _ _ _ _ _ _ W F Ft H P). }
  intros T A HA HG HT HS.
  destruct (one_line_with_last_sat T A _ _ _ _ _ _ _ _ W H) as (_ & _ & _ & _ & ->).
  split; [auto|]. destruct (CP A HG) as [C1 C2]. split; [exact C1|]. split; [exact C2|].
  cbn [opt0]. rewrite Z.mul_0_r, Z.add_0_r.
  rewrite (gate_sum_ext _ (tail_val pairs tail)) by auto. exact G.
Qed.

End Prims.

Lemma appends_one_line pairs constant muls next : appends (one_line pairs constant muls next).
Proof.
  intros c r c' W H. apply one_line_inv in H as (_ & _ & B & _).
  split; [eapply block_wf; eauto|eapply block_extends; eauto].
Qed.
Lemma appends_one_line_with_last pairs tail constant muls next :
  appends (one_line_with_last pairs tail constant muls next).
Proof.
  intros c r c' W H. apply one_line_with_last_inv in H as (_ & _ & B & _).
  split; [eapply block_wf; eauto|eapply block_extends; eauto].
Qed.
