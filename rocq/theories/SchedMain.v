From Verif Require Import Prelude FieldZ Circuit Context Spec Logic Prims BaseChip RangeInfo RangeChip IntegerChip EccChip ScalarChip Msm ParWindows SpecRecorder SpecSched Sched Moduli Fields Progs.
Definition dim (d : offs) (ch : chip) : nat := match ch with BaseChip => o_base d | RangeChip => o_range d | SelectChip => o_select d end.
Definition win_of (c : ctx) (diff : offs) (i : nat) (x : cell) : Prop :=
  (off_of c (c_chip x) + dim diff (c_chip x) * i <= c_row x < off_of c (c_chip x) + dim diff (c_chip x) * S i)%nat.
Definition wnum (c : ctx) (diff : offs) (x : cell) : nat := ((c_row x - off_of c (c_chip x)) / dim diff (c_chip x))%nat.
Lemma win_num c diff i x : win_of c diff i x -> i = wnum c diff x.
Proof.
  unfold win_of, wnum. intros H. apply (Nat.div_unique _ _ _ (c_row x - off_of c (c_chip x) - dim diff (c_chip x) * i)%nat); lia.
Qed.
Definition ev_in (W : cell -> Prop) (e : event) : Prop :=
  match e with
  | EWrite b w => b = true /\ match w with WAdv x _ | WFix x _ => W x | WFlag _ => True end
  | ECheck x => W x
  end.
Definition wr_in (W : cell -> Prop) (w : wr) : Prop := match w with WAdv x _ | WFix x _ => W x | WFlag _ => True end.
Lemma own_in W es : Forall (ev_in W) es -> Forall (wr_in W) (own es).
Proof. induction 1 as [|[[] w|x] es H F IH]; cbn; auto. constructor; auto. apply H. Qed.
Lemma checked_in W es : Forall (ev_in W) es -> forall x, In x (checked es) -> W x.
Proof. induction 1 as [|[[] w|y] es H F IH]; cbn; auto; [tauto|]. intros x [<-|Q]; auto. Qed.
Lemma all_own W es : Forall (ev_in W) es -> all_stores es = own es.
Proof. induction 1 as [|[[] w|y] es H F IH]; cbn; auto; [congruence|]. destruct H. discriminate. Qed.
Lemma rev_append_cancel {X} (a b m : list X) : rev_append a m = rev_append b m -> a = b.
Proof.
  rewrite !rev_append_rev. intros H. apply app_inv_tail in H. rewrite <- (rev_involutive a), H. apply rev_involutive.
Qed.
Lemma own_stores es : own es = map snd (filter fst (stores es)).
Proof. induction es as [|[[] w|x] es IH]; cbn; congruence. Qed.
Lemma win_clone c diff m i c' x : (forall ch, off_of (clone_with_offset m (off_scale i diff) c) ch <= off_of c' ch)%nat ->
  off_sub (offset_of c') (offset_of (clone_with_offset m (off_scale i diff) c)) = diff ->
  win (clone_with_offset m (off_scale i diff) c) c' x -> win_of c diff i x.
Proof.
  intros LE E H. unfold win, win_of in *. specialize (LE (c_chip x)). set (c0 := clone_with_offset m (off_scale i diff) c) in *.
  assert (D : dim (off_sub (offset_of c') (offset_of c0)) (c_chip x) = (off_of c' (c_chip x) - off_of c0 (c_chip x))%nat) by (destruct (c_chip x); reflexivity).
  assert (D2 : off_of c0 (c_chip x) = (off_of c (c_chip x) + dim diff (c_chip x) * i)%nat) by (destruct (c_chip x); reflexivity).
  rewrite E in D. nia.
Qed.
Lemma diff_same c' d' m0 m i diff c D : base_off c' = base_off d' -> range_off c' = range_off d' -> select_off c' = select_off d' ->
  off_sub (offset_of c') (offset_of (clone_with_offset m0 (off_scale i diff) c)) = D ->
  off_sub (offset_of d') (offset_of (clone_with_offset m (off_scale i diff) c)) = D.
Proof. intros P1 P2 P3 <-. unfold off_sub, offset_of. cbn. rewrite P1, P2, P3. reflexivity. Qed.
Lemma same_place_trans a b c : same_place a b -> same_place b c -> same_place a c.
Proof. unfold same_place. intuition congruence. Qed.
Lemma same_place_sym a b : same_place a b -> same_place b a.
Proof. unfold same_place. intuition congruence. Qed.

Section C.
Context {NM : NMod}.
Context {X : Type}.
Variable f : nat -> M (uresult X).
Hypothesis Hf : forall i, gadget (f i).

(** One thread: its own stores are in its window and it does the same on any tables that are as
    empty there. *)
Lemma thread_seq c diff m0 i x c' : f i (clone_with_offset m0 (off_scale i diff) c) = Ok (x, c') ->
  off_sub (offset_of c') (offset_of (clone_with_offset m0 (off_scale i diff) c)) = diff ->
  exists es, trun (f i) (clone_with_offset m0 (off_scale i diff) c) x c' es
    /\ Forall (ev_in (win_of c diff i)) es /\ c_mem c' = rev_append (own es) m0
    /\ forall m, (forall y, win_of c diff i y -> get_fix m0 y = None -> get_fix m y = None) ->
    exists d', f i (clone_with_offset m (off_scale i diff) c) = Ok (x, d') /\ c_mem d' = rev_append (own es) m /\ same_thread c' d'.
Proof.
  intros H D. destruct (gadget_tr _ (Hf i) _ _ _ H) as (O & es & T & F).
  assert (F' : Forall (ev_in (win_of c diff i)) es).
  { eapply Forall_impl; [|exact F]. intros [b w|y]; [intros [-> W]; split; [reflexivity|]|intros W]; [destruct w; auto|]; eapply win_clone; eauto. }
  exists es. split; [exact T|]. split; [exact F'|]. split.
  { rewrite (trun_mem _ _ _ _ _ T), (all_own _ _ F'). reflexivity. }
  intros m Hm. destruct (trun_alone _ _ _ _ _ T) as (ps & E & Al).
  destruct (Al (clone_with_offset m (off_scale i diff) c)) as (d' & H1 & H2 & H3 & H4).
  - repeat split.
  - cbn [clone_with_offset c_mem]. apply (checks_other es m0); [intros y Hy; apply Hm, (checked_in _ _ F' _ Hy)|].
    apply (checks_drop es m0 m0); [auto|]. exact (trun_checks _ _ _ _ _ T).
  - exists d'. split; [exact H1|]. split; [exact H2|]. split; [rewrite E, H3; reflexivity|]. destruct H4 as (?&?&?&?&?&?); repeat split; assumption.
Qed.
Lemma thread_conc c diff m0 i x c' es : trun (f i) (clone_with_offset m0 (off_scale i diff) c) x c' es ->
  off_sub (offset_of c') (offset_of (clone_with_offset m0 (off_scale i diff) c)) = diff ->
  Forall (wr_in (win_of c diff i)) (own es)
    /\ forall m, (forall y, win_of c diff i y -> get_fix m0 y = None -> get_fix m y = None) ->
    exists d', f i (clone_with_offset m (off_scale i diff) c) = Ok (x, d') /\ c_mem d' = rev_append (own es) m /\ same_thread c' d'.
Proof.
  intros T D. destruct (trun_alone _ _ _ _ _ T) as (ps & E & Al).
  destruct (Al (clone_with_offset m0 (off_scale i diff) c)) as (d & H1 & H2 & H3 & H4).
  - repeat split.
  - apply (checks_drop es m0 m0); [auto|]. exact (trun_checks _ _ _ _ _ T).
  - destruct (thread_seq c diff m0 i x d H1) as (es2 & T2 & F2 & M2 & Al2).
    { destruct H4 as (P1 & P2 & P3 & _). eapply diff_same; eauto. }
    assert (EO : own es = own es2).
    { apply (rev_append_cancel _ _ m0). rewrite <- M2. symmetry. exact H2. }
    split; [rewrite EO; apply own_in; exact F2|]. intros m Hm. destruct (Al2 m Hm) as (d' & G1 & G2 & G3). exists d'.
    split; [exact G1|]. split; [rewrite EO; exact G2|]. destruct G3 as (Q1 & Q2 & Q3 & Q4 & Q5 & Q6 & Q7), H4 as (P1 & P2 & P3 & P4 & P5 & P6).
    repeat split; congruence.
Qed.

Definition of_thread (i : nat) (L : list (nat * wr)) : list wr := map snd (filter (fun jw => Nat.eqb (fst jw) i) L).
Lemma own_view es i L : stores es = view i L -> own es = of_thread i L.
Proof.
  intros H. rewrite own_stores, H. unfold of_thread, view. clear H. induction L as [|[j w] L IH]; [reflexivity|].
  cbn [map filter fst snd]. destruct (Nat.eqb j i); cbn [map snd]; congruence.
Qed.
Lemma get_fix_out W ws : forall m x, Forall (wr_in W) ws -> ~ W x -> get_fix (rev_append ws m) x = get_fix m x.
Proof.
  induction ws as [|w ws IH]; intros m x F N; [reflexivity|]. cbn [rev_append]. inversion F as [|? ? F1 F2]; subst. rewrite IH by assumption.
  destruct w as [y v|y v|y]; cbn in *; auto. destruct (cell_eqb y x) eqn:E; [|reflexivity]. apply cell_eqb_eq in E. subst. contradiction.
Qed.
Lemma run_all c diff m0 L : forall is xs, NoDup is ->
  Forall2 (fun i x => exists es,
      trun (f i) (clone_with_offset m0 (off_scale i diff) c) (UOk (fst x)) (snd x) es
      /\ stores es = view i L
      /\ off_sub (offset_of (snd x)) (offset_of (clone_with_offset m0 (off_scale i diff) c)) = diff) is xs ->
  Forall (fun i => Forall (wr_in (win_of c diff i)) (of_thread i L)) is /\
  forall m, (forall i y, In i is -> win_of c diff i y -> get_fix m0 y = None -> get_fix m y = None) ->
  exists xs' m', run_clones f c diff is m = Ok (UOk xs', m')
    /\ Forall2 (fun x x' => fst x = fst x' /\ same_thread (snd x) (snd x')) xs xs'
    /\ m' = rev_append (concat (map (fun i => of_thread i L) is)) m.
Proof.
  intros is xs ND H. induction H as [|i x is xs (es & T & V & D) H IH].
  - split; [constructor|]. intros m _. exists [], m. repeat split; constructor.
  - inversion ND as [|? ? NI ND']; subst. destruct (IH ND') as [F I]. clear IH. destruct (thread_conc _ _ _ _ _ _ _ T D) as [F1 R1].
    rewrite (own_view _ _ _ V) in F1, R1. split; [constructor; assumption|]. intros m Hm.
    destruct (R1 m) as (d' & G1 & G2 & G3). { intros y. apply Hm. left. reflexivity. }
    destruct (I (c_mem d')) as (xs' & m' & R & A & B).
    { intros j y Hj Wy N. rewrite G2. rewrite (get_fix_out (win_of c diff i)); [apply (Hm j); auto; right; exact Hj|exact F1|].
      intros Wi. apply win_num in Wi. apply win_num in Wy. subst. contradiction. }
    exists ((fst x, d') :: xs'), m'. split; [|split].
    + cbn [run_clones]. rewrite G1.
      replace (off_eqb _ _) with true; [rewrite R; reflexivity|]. symmetry. 
      assert (Q : off_sub (offset_of d') (offset_of (clone_with_offset m (off_scale i diff) c)) = diff).
      { destruct G3 as (_ & P1 & P2 & P3 & _). eapply diff_same; eauto. }
      rewrite Q. unfold off_eqb. rewrite !Nat.eqb_refl. reflexivity.
    + constructor; [split; [reflexivity|exact G3]|exact A].
    + rewrite B, G2. cbn [map concat]. apply rev_append_app.
Qed.

(** Tables of two sequences of stores with the same stores of each thread. *)
Lemma get_fix_num (N : cell -> nat) (L : list (nat * wr)) x : forall m m', (forall jw, In jw L -> wr_in (fun y => fst jw = N y) (snd jw)) ->
  get_fix m x = get_fix m' x -> get_fix (rev_append (map snd L) m) x = get_fix (rev_append (of_thread (N x) L) m') x.
Proof.
  induction L as [|[j w] L IH]; intros m m' F E; [exact E|]. unfold of_thread. cbn [map filter fst snd rev_append].
  pose proof (F (j, w) (or_introl eq_refl)) as F1. cbn [fst snd] in F1.
  destruct (Nat.eqb j (N x)) eqn:Ej; cbn [map snd rev_append].
  - apply IH; [intros; apply F; right; assumption|]. destruct w as [y v|y v|y]; cbn; auto. destruct (cell_eqb y x); auto.
  - apply IH; [intros; apply F; right; assumption|]. destruct w as [y v|y v|y]; cbn; auto.
    destruct (cell_eqb y x) eqn:Ey; auto. apply cell_eqb_eq in Ey. subst y. cbn in F1. subst j. rewrite Nat.eqb_refl in Ej. discriminate.
Qed.
Lemma get_adv_num (N : cell -> nat) (L : list (nat * wr)) x : forall m m', (forall jw, In jw L -> wr_in (fun y => fst jw = N y) (snd jw)) ->
  get_adv m x = get_adv m' x -> get_adv (rev_append (map snd L) m) x = get_adv (rev_append (of_thread (N x) L) m') x.
Proof.
  induction L as [|[j w] L IH]; intros m m' F E; [exact E|]. unfold of_thread. cbn [map filter fst snd rev_append].
  pose proof (F (j, w) (or_introl eq_refl)) as F1. cbn [fst snd] in F1.
  destruct (Nat.eqb j (N x)) eqn:Ej; cbn [map snd rev_append].
  - apply IH; [intros; apply F; right; assumption|]. destruct w as [y v|y v|y]; cbn; auto. destruct (cell_eqb y x); auto.
  - apply IH; [intros; apply F; right; assumption|]. destruct w as [y v|y v|y]; cbn; auto.
    destruct (cell_eqb y x) eqn:Ey; auto. apply cell_eqb_eq in Ey. subst y. cbn in F1. subst j. rewrite Nat.eqb_refl in Ej. discriminate.
Qed.
Lemma get_flag_in ws x : forall m, get_flag (rev_append ws m) x = true <-> In (WFlag x) ws \/ get_flag m x = true.
Proof.
  induction ws as [|w ws IH]; intros m; cbn [rev_append In]; [tauto|]. rewrite IH. destruct w as [y v|y v|y]; cbn.
  - split; [tauto|]. intros [[Q|Q]|Q]; auto. discriminate.
  - split; [tauto|]. intros [[Q|Q]|Q]; auto. discriminate.
  - destruct (cell_eqb y x) eqn:E.
    + apply cell_eqb_eq in E. subst. tauto.
    + split; [tauto|]. intros [[Q|Q]|Q]; auto. injection Q as ->. rewrite cell_eqb_refl in E. discriminate.
Qed.
Lemma in_of_thread w i L : In w (of_thread i L) <-> In (i, w) L.
Proof.
  unfold of_thread. rewrite in_map_iff. split.
  - intros ([j v] & <- & H). apply filter_In in H as [H E]. apply Nat.eqb_eq in E. cbn in *. subst. exact H.
  - intros H. exists (i, w). split; [reflexivity|]. apply filter_In. split; [exact H|apply Nat.eqb_refl].
Qed.
Definition in_order (is : list nat) (L : list (nat * wr)) : list (nat * wr) := concat (map (fun i => map (pair i) (of_thread i L)) is).
Lemma of_thread_app i a b : of_thread i (a ++ b) = of_thread i a ++ of_thread i b.
Proof. unfold of_thread. rewrite filter_app, map_app. reflexivity. Qed.
Lemma of_thread_pair i j ws : of_thread i (map (pair j) ws) = if Nat.eqb j i then ws else [].
Proof.
  unfold of_thread. induction ws as [|w ws IH]; cbn; destruct (Nat.eqb j i) eqn:E; auto; cbn in *; rewrite ?E in *; cbn; congruence.
Qed.
Lemma of_in_order is L i : NoDup is -> of_thread i (in_order is L) = if in_dec Nat.eq_dec i is then of_thread i L else [].
Proof.
  intros ND. unfold in_order. induction ND as [|j is NI ND IH]; [reflexivity|].
  cbn [map concat]. rewrite of_thread_app, of_thread_pair, IH.
  destruct (in_dec Nat.eq_dec i (j :: is)) as [H|H], (in_dec Nat.eq_dec i is) as [H1|H1].
  - destruct (Nat.eqb j i) eqn:E; [apply Nat.eqb_eq in E; subst; contradiction|reflexivity].
  - destruct H as [->|H]; [|contradiction]. rewrite Nat.eqb_refl. apply app_nil_r.
  - destruct H. right. exact H1.
  - destruct (Nat.eqb j i) eqn:E; [apply Nat.eqb_eq in E; subst; destruct H; left; reflexivity|reflexivity].
Qed.
Lemma snd_in_order is L : map snd (in_order is L) = concat (map (fun i => of_thread i L) is).
Proof.
  unfold in_order. induction is as [|i is IH]; [reflexivity|]. cbn [map concat]. rewrite map_app, IH, map_map. cbn. rewrite map_id. reflexivity.
Qed.
Lemma tables_same c diff is L m0 : NoDup is -> (forall jw, In jw L -> In (fst jw) is) ->
  Forall (fun i => Forall (wr_in (win_of c diff i)) (of_thread i L)) is ->
  same_tables (rev_append (map snd L) m0) (rev_append (concat (map (fun i => of_thread i L) is)) m0).
Proof.
  intros ND HL F x. rewrite <- snd_in_order.
  assert (N1 : forall jw, In jw L -> wr_in (fun y => fst jw = wnum c diff y) (snd jw)).
  { intros [j w] H. rewrite Forall_forall in F. specialize (F j (HL _ H)). rewrite Forall_forall in F.
    specialize (F w (proj2 (in_of_thread w j L) H)). destruct w; cbn in *; auto; apply win_num; exact F. }
  assert (IN : forall jw, In jw (in_order is L) <-> In jw L).
  { intros [j w]. rewrite <- !in_of_thread, of_in_order by assumption. destruct (in_dec Nat.eq_dec j is) as [H|H]; [tauto|].
    split; [intros []|]. intros Q. apply in_of_thread in Q. apply HL in Q. contradiction. }
  assert (N2 : forall jw, In jw (in_order is L) -> wr_in (fun y => fst jw = wnum c diff y) (snd jw)).
  { intros jw H. apply N1, IN, H. }
  assert (E : of_thread (wnum c diff x) (in_order is L) = of_thread (wnum c diff x) L).
  { rewrite of_in_order by assumption. destruct (in_dec Nat.eq_dec (wnum c diff x) is) as [H|H]; [reflexivity|].
    destruct (of_thread (wnum c diff x) L) as [|w l] eqn:EL; [reflexivity|]. destruct H. apply (HL (wnum c diff x, w)).
    apply in_of_thread. rewrite EL. left. reflexivity. }
  split; [|split].
  - rewrite (get_adv_num (wnum c diff) L x m0 m0), (get_adv_num (wnum c diff) (in_order is L) x m0 m0), E; auto.
  - rewrite (get_fix_num (wnum c diff) L x m0 m0), (get_fix_num (wnum c diff) (in_order is L) x m0 m0), E; auto.
  - apply eq_true_iff_eq. rewrite !get_flag_in, !in_map_iff. split; (intros [(jw & Q & H)|H]; [left; exists jw; split; [exact Q|apply IN, H]|right; exact H]).
Qed.

(** Any interleaving of the threads' stores is a concurrent run. *)
Fixpoint envs (V : list (bool * wr)) : Prop := match V with [] => True | (b, w) :: V' => b = false /\ envs V' end.
Lemma stores_app a b : stores (a ++ b) = stores a ++ stores b.
Proof. induction a as [|[[] w|x] a IH]; cbn; congruence. Qed.
Lemma trun_after {Y} (m : M Y) V : forall c x c' es, trun m c x c' es -> filter fst V = [] ->
  trun m c x (with_mem (rev_append (map snd V) (c_mem c')) c') (es ++ map (fun bw => EWrite false (snd bw)) V).
Proof.
  induction V as [|[[] w] V IH]; intros c x c' es T F; cbn in *.
  - rewrite app_nil_r. destruct c'; exact T.
  - discriminate.
  - pose proof (IH c x (stored w c') _ (t_after _ w _ _ _ _ T) F) as Q. cbn [stored with_mem c_mem] in Q. rewrite <- app_assoc in Q. exact Q.
Qed.
Lemma stores_env V : filter fst V = [] -> stores (map (fun bw => EWrite false (snd bw)) V) = V.
Proof. induction V as [|[[] w] V IH]; cbn; [auto|discriminate|]. intros H. rewrite IH; auto. Qed.
Lemma filter_split (V : list (bool * wr)) : forall a b, map snd (filter fst V) = a ++ b ->
  exists V1 V2, V = V1 ++ V2 /\ map snd (filter fst V1) = a /\ map snd (filter fst V2) = b.
Proof.
  induction V as [|[t w] V IH]; intros a b H; cbn in H.
  - exists [], []. symmetry in H. apply app_eq_nil in H as [-> ->]. auto.
  - destruct t; cbn in H.
    + destruct a as [|z a].
      * exists [], ((true, w) :: V). split; [reflexivity|]. split; [reflexivity|exact H].
      * cbn in H. injection H as <- H. destruct (IH _ _ H) as (V1 & V2 & -> & A & B). exists ((true, w) :: V1), V2. cbn. rewrite A. auto.
    + destruct (IH _ _ H) as (V1 & V2 & -> & A & B). exists ((false, w) :: V1), V2. auto.
Qed.
Section Any.
Variable W : cell -> Prop.
Definition outside (V : list (bool * wr)) : Prop := Forall (fun bw => fst bw = false -> match snd bw with WFix x _ => ~ W x | _ => True end) V.
Definition agree (c d : ctx) : Prop := same_place c d /\ c_perms c = c_perms d /\ forall x, W x -> get_fix (c_mem c) x = get_fix (c_mem d) x.
Lemma agree_env V : forall c d, agree c d -> outside V -> filter fst V = [] -> agree c (with_mem (rev_append (map snd V) (c_mem d)) d).
Proof.
  induction V as [|[[] w] V IH]; intros c d (P & Q & R) O F; [repeat split; try apply P; auto|discriminate|].
  inversion O as [|? ? O1 O2]; subst. cbn in *. apply (IH c (stored w d)); auto. split; [exact P|]. split; [exact Q|].
  intros x Hx. rewrite (R x Hx). cbn [stored with_mem c_mem]. destruct w as [y v|y v|y]; cbn; auto. destruct (cell_eqb y x) eqn:E; auto.
  apply cell_eqb_eq in E. subst. destruct (O1 eq_refl Hx).
Qed.
Lemma map_nil {A B} (g : A -> B) l : map g l = [] -> l = [].
Proof. destruct l; [auto|discriminate]. Qed.
(* Ending a step that stores nothing by the stores of others. *)
Lemma any_leaf {Y} (m : M Y) c x c' es d d' V : stores es = [] -> trun m d x d' es -> agree c' d' -> outside V -> map snd (filter fst V) = [] ->
  agree c d -> exists es' d'', trun m d x d'' es' /\ stores es' = V /\ agree c' d''.
Proof.
  intros E T A O F _. apply map_nil in F. eexists _, _. split; [apply (trun_after _ V _ _ _ _ T F)|].
  split; [rewrite stores_app, E, stores_env by assumption; reflexivity|]. apply agree_env; auto.
Qed.
Lemma trun_any {Y} (m : M Y) c x c' es : trun m c x c' es -> Forall (ev_in W) es -> forall d V, agree c d -> outside V ->
  map snd (filter fst V) = own es -> exists es' d', trun m d x d' es' /\ stores es' = V /\ agree c' d'.
Proof.
  induction 1; intros F d V Ag O E.
  - eapply any_leaf; eauto; [|constructor]; reflexivity.
  - eapply any_leaf; eauto; [|constructor]; reflexivity.
  - apply Forall_app in F as [F1 F2]. rewrite own_app in E. apply filter_split in E as (V1 & V2 & -> & E1 & E2). apply Forall_app in O as [O1 O2].
    destruct (IHtrun1 F1 d V1 Ag O1 E1) as (e1 & d1 & T1 & S1 & A1). destruct (IHtrun2 F2 d1 V2 A1 O2 E2) as (e2 & d2 & T2 & S2 & A2).
    exists (e1 ++ e2), d2. split; [econstructor; eauto|]. split; [rewrite stores_app; congruence|exact A2].
  - apply Forall_inv in F as [Q _]. discriminate.
  - apply Forall_app in F as [_ F]. apply Forall_inv in F as [Q _]. discriminate.
  - cbn in E. assert (E' : map snd (filter fst V) = [] ++ ([w] ++ [])) by exact E. apply filter_split in E' as (V1 & V2 & -> & E1 & E2).
    apply Forall_app in O as [O1 O2]. apply map_nil in E1.
    assert (Q : exists V0 V3, V2 = V0 ++ (true, w) :: V3 /\ filter fst V0 = [] /\ filter fst V3 = []).
    { clear - E2. induction V2 as [|[[] v] V2 IH]; cbn in E2; [discriminate| |].
      - injection E2 as -> E2. exists [], V2. apply map_nil in E2. auto.
      - destruct (IH E2) as (V0 & V3 & -> & A & B). exists ((false, v) :: V0), V3. auto. }
    destruct Q as (V0 & V3 & -> & Q0 & Q3). apply Forall_app in O2 as [O2 O3]. inversion O3 as [|? ? _ O4]; subst.
    pose proof (agree_env V1 _ _ Ag O1 E1) as A1. set (d1 := with_mem (rev_append (map snd V1) (c_mem d)) d) in *.
    pose proof (agree_env V0 _ _ A1 O2 Q0) as A2. set (d2 := with_mem (rev_append (map snd V0) (c_mem d1)) d1) in *.
    assert (A3 : agree (stored w c) (stored w d2)).
    { destruct A2 as (P & R & G). split; [exact P|]. split; [exact R|]. intros x Hx. cbn [stored with_mem c_mem]. 
      destruct w as [y v|y v|y]; cbn; auto. destruct (cell_eqb y x); auto. }
    assert (T2 : trun (do_writes [w]) d tt (stored w d2) (map (fun bw => EWrite false (snd bw)) V1 ++ map (fun bw => EWrite false (snd bw)) V0 ++ [EWrite true w])).
    { assert (Bf : forall V c1 y c2 e2, filter fst V = [] -> trun (do_writes [w]) (with_mem (rev_append (map snd V) (c_mem c1)) c1) y c2 e2 ->
          trun (do_writes [w]) c1 y c2 (map (fun bw => EWrite false (snd bw)) V ++ e2)).
      { clear. induction V as [|[[] v] V IH]; intros c1 y c2 e2 F T; cbn in *; [destruct c1; exact T|discriminate|].
        constructor. apply IH; auto. }
      apply Bf; [exact E1|]. apply Bf; [exact Q0|]. apply t_write. }
    eexists _, _. split; [apply (trun_after _ V3 _ _ _ _ T2 Q3)|]. split; [|apply agree_env; auto].
    rewrite !stores_app, !stores_env by assumption. cbn [stores]. rewrite <- !app_assoc. reflexivity.
  - eapply any_leaf; eauto; [|constructor]; reflexivity.
  - apply Forall_app in F as [F1 F2]. rewrite own_app in E. apply filter_split in E as (V1 & V2 & -> & E1 & E2). apply Forall_app in O as [O1 O2].
    destruct (IHtrun1 F1 d V1 Ag O1 E1) as (e1 & d1 & T1 & S1 & A1). destruct (IHtrun2 F2 d1 V2 A1 O2 E2) as (e2 & d2 & T2 & S2 & A2).
    exists (e1 ++ e2), d2. split; [econstructor; eauto|]. split; [rewrite stores_app; congruence|exact A2].
  - apply Forall_inv in F as Wx. eapply any_leaf; eauto; [|apply t_check; destruct Ag as (_ & _ & G); rewrite <- G; auto]; reflexivity.
  - destruct (IHtrun F d V) as (e1 & d1 & T1 & S1 & A1); auto. exists e1, d1. split; [|auto].
    apply (t_offset ch k). replace (off_of d ch) with (off_of c ch); [exact T1|]. destruct Ag as ((P1 & P2 & P3 & _) & _). destruct ch; assumption.
  - eapply any_leaf; eauto; [|apply t_perms|]; [reflexivity|]. destruct Ag as (P & Q & G). split; [exact P|]. cbn. split; [rewrite Q; reflexivity|exact G].
  - eapply any_leaf; eauto; [|apply t_base_h|]; [reflexivity|]. destruct Ag as ((P1 & P2 & P3 & P4 & P5 & P6) & Q & G). unfold agree, same_place. cbn. rewrite P4. auto 12.
  - eapply any_leaf; eauto; [|apply t_range_h|]; [reflexivity|]. destruct Ag as ((P1 & P2 & P3 & P4 & P5 & P6) & Q & G). unfold agree, same_place. cbn. rewrite P5. auto 12.
  - eapply any_leaf; eauto; [|apply t_select_h|]; [reflexivity|]. destruct Ag as ((P1 & P2 & P3 & P4 & P5 & P6) & Q & G). unfold agree, same_place. cbn. rewrite P6. auto 12.
  - eapply any_leaf; eauto; [|apply t_base_off|]; [reflexivity|]. destruct Ag as ((P1 & P2 & P3 & P4 & P5 & P6) & Q & G). unfold agree, same_place. cbn. rewrite P1. auto 12.
  - eapply any_leaf; eauto; [|apply t_range_off|]; [reflexivity|]. destruct Ag as ((P1 & P2 & P3 & P4 & P5 & P6) & Q & G). unfold agree, same_place. cbn. rewrite P2. auto 12.
  - eapply any_leaf; eauto; [|apply t_select_off|]; [reflexivity|]. destruct Ag as ((P1 & P2 & P3 & P4 & P5 & P6) & Q & G). unfold agree, same_place. cbn. rewrite P3. auto 12.
Qed.
End Any.
Definition ready (c : ctx) (diff : offs) (m0 : mem) (i : nat) (o : list wr) (x : X * ctx) : Prop :=
  exists es, trun (f i) (clone_with_offset m0 (off_scale i diff) c) (UOk (fst x)) (snd x) es
   /\ Forall (ev_in (win_of c diff i)) es /\ own es = o
   /\ off_sub (offset_of (snd x)) (offset_of (clone_with_offset m0 (off_scale i diff) c)) = diff.
Lemma seq_ready c diff : forall is m xs m', run_clones f c diff is m = Ok (UOk xs, m') -> NoDup is ->
  forall m0, (forall i y, In i is -> win_of c diff i y -> get_fix m0 y = get_fix m y) ->
  exists o : nat -> list wr, (forall i, In i is -> exists x, ready c diff m0 i (o i) x) /\ m' = rev_append (concat (map o is)) m.
Proof.
  induction is as [|i is IH]; intros m xs m' H ND m0 Hm.
  - injection H as <- <-. exists (fun _ => []). split; [intros i []|reflexivity].
  - inversion ND as [|? ? NI ND']; subst. cbn [run_clones] in H.
    destruct (f i (clone_with_offset m (off_scale i diff) c)) as [[[x|e] ci']|] eqn:E; try discriminate.
    destruct (off_eqb _ _) eqn:O; [|discriminate].
    destruct (run_clones f c diff is (c_mem ci')) as [[[ys|e] m1]|] eqn:R; try discriminate. injection H as <- <-.
    assert (D : off_sub (offset_of ci') (offset_of (clone_with_offset m (off_scale i diff) c)) = diff).
    { apply off_eqb_eq in O. revert O. generalize (off_sub (offset_of ci') (offset_of (clone_with_offset m (off_scale i diff) c))). intros [a1 a2 a3] (O1 & O2 & O3). clear - O1 O2 O3. destruct diff. cbn in *. congruence. }
    destruct (thread_seq _ _ _ _ _ _ E D) as (es & T & F & M & Al).
    destruct (Al m0) as (d' & H1 & H2 & H3). { intros y Wy N. rewrite (Hm i); auto. left. reflexivity. }
    assert (D0 : off_sub (offset_of d') (offset_of (clone_with_offset m0 (off_scale i diff) c)) = diff).
    { destruct H3 as (_ & P1 & P2 & P3 & _). eapply diff_same; eauto. }
    destruct (thread_seq _ _ _ _ _ _ H1 D0) as (es0 & T0 & F0 & M0 & _).
    assert (EO : own es0 = own es). { apply (rev_append_cancel _ _ m0). rewrite <- M0, <- H2. reflexivity. }
    destruct (IH _ _ _ R ND' m0) as (o & Ho & Mo).
    { intros j y Hj Wy. rewrite (Hm j) by (auto; right; exact Hj). rewrite M. rewrite (get_fix_out (win_of c diff i)); [reflexivity|apply own_in; exact F|].
      intros Wi. apply win_num in Wi. apply win_num in Wy. subst. contradiction. }
    exists (fun j => if Nat.eqb j i then own es else o j). split.
    + intros j Hj. destruct (Nat.eqb j i) eqn:Ej.
      * apply Nat.eqb_eq in Ej. subst j. exists (x, d'), es0. auto.
      * destruct Hj as [->|Hj]; [rewrite Nat.eqb_refl in Ej; discriminate|]. apply Ho, Hj.
    + rewrite Mo, M. cbn [map concat]. rewrite Nat.eqb_refl, rev_append_app. do 3 f_equal.
      apply map_ext_in. intros j Hj. destruct (Nat.eqb j i) eqn:Ej; [|reflexivity]. apply Nat.eqb_eq in Ej. subst. contradiction.
Qed.
End C.

Lemma C38_schedule_independent_main :
  forall (NM : NMod) X (f : nat -> M (uresult X)) c diff is m0 L xs, (forall i, gadget (f i)) -> NoDup is ->
    concurrent f c diff is m0 L xs ->
    exists xs' m', run_clones f c diff is m0 = Ok (UOk xs', m')
      /\ Forall2 (fun x x' => fst x = fst x' /\ same_thread (snd x) (snd x')) xs xs'
      /\ same_tables (rev_append (map snd L) m0) m'.
Proof.
  intros NM X f c diff is m0 L xs G ND (HL & H). destruct (run_all f G c diff m0 L is xs ND H) as [F R].
  destruct (R m0 ltac:(auto)) as (xs' & m' & R1 & R2 & R3). exists xs', m'. split; [exact R1|]. split; [exact R2|].
  rewrite R3. apply (tables_same c diff); assumption.
Qed.

Lemma C38_every_schedule_completes_main :
  forall (NM : NMod) X (f : nat -> M (uresult X)) c diff is m0 xs m', (forall i, gadget (f i)) -> NoDup is ->
    run_clones f c diff is m0 = Ok (UOk xs, m') ->
    exists o : nat -> list wr, m' = rev_append (concat (map o is)) m0
      /\ forall L, (forall jw, In jw L -> In (fst jw) is) ->
           (forall i, In i is -> map snd (filter (fun jw => Nat.eqb (fst jw) i) L) = o i) ->
           exists xs', concurrent f c diff is m0 L xs'
             /\ Forall2 (fun x' x => fst x' = fst x /\ same_thread (snd x') (snd x)) xs' xs
             /\ same_tables (rev_append (map snd L) m0) m'.
Proof.
  intros NM X f c diff is m0 xs m' G ND H. destruct (seq_ready f G c diff is m0 xs m' H ND m0 ltac:(auto)) as (o & Ho & Mo).
  exists o. split; [exact Mo|]. intros L HL HO.
  assert (Q : exists xs', concurrent f c diff is m0 L xs').
  { assert (K : forall js, incl js is -> exists xs', Forall2 (fun i x => exists es,
      trun (f i) (clone_with_offset m0 (off_scale i diff) c) (UOk (fst x)) (snd x) es
      /\ stores es = view i L
      /\ off_sub (offset_of (snd x)) (offset_of (clone_with_offset m0 (off_scale i diff) c)) = diff) js xs').
    { induction js as [|i js IH]; intros I; [exists []; constructor|]. destruct (IH (fun j Hj => I j (or_intror Hj))) as (xs' & Fx).
      pose proof (I i (or_introl eq_refl)) as Ii. destruct (Ho i Ii) as (x & es & T & F & EO & D).
      destruct (trun_any (win_of c diff i) _ _ _ _ _ T F (clone_with_offset m0 (off_scale i diff) c) (view i L)) as (es' & d' & T' & S' & A').
      - split; [repeat split|]. split; [reflexivity|auto].
      - apply Forall_forall. intros [b w] Hb. unfold view in Hb. apply in_map_iff in Hb as ([j v] & Q & Hj). injection Q as <- <-. cbn [fst snd].
        intros Ej. apply Nat.eqb_neq in Ej. destruct (Ho j (HL _ Hj)) as (xj & ej & Tj & Fj & EOj & Dj).
        assert (Iv : In v (own ej)). { rewrite EOj, <- (HO j (HL _ Hj)). apply (in_of_thread v j L). exact Hj. }
        pose proof (own_in _ _ Fj) as Fo. rewrite Forall_forall in Fo. specialize (Fo _ Iv). destruct v as [y z|y z|y]; auto. cbn in Fo.
        intros Wi. apply Ej. rewrite (win_num _ _ _ _ Fo), (win_num _ _ _ _ Wi). reflexivity.
      - rewrite EO, <- (HO i Ii). unfold view. clear. induction L as [|[j w] L IH]; [reflexivity|]. cbn [map filter fst snd].
        destruct (Nat.eqb j i); cbn [map snd]; congruence.
      - exists ((fst x, d') :: xs'). constructor; [|exact Fx]. exists es'. cbn [fst snd]. split; [exact T'|]. split; [exact S'|].
        destruct A' as ((P1 & P2 & P3 & _) & _). eapply diff_same; eauto. }
    destruct (K is ltac:(intros j Hj; exact Hj)) as (xs' & Fx). exists xs'. split; assumption. }
  destruct Q as (xs' & Q). exists xs'. split; [exact Q|].
  destruct (C38_schedule_independent_main NM X f c diff is m0 L xs' G ND Q) as (xs2 & m2 & R1 & R2 & R3).
  rewrite R1 in H. injection H as -> ->. split; assumption.
Qed.

