(** Soundness of the multi-scalar multiplication, for any way of caching and
    picking candidates that meets its specification. *)
From Verif Require Import Prelude FieldZ Circuit Context Spec Logic ModArith Prims BaseChip BaseProofs
  RangeInfo RangeChip IntegerChip SpecInt InfoProofs IntArith RangeProofs IntInv IntSound IntComplete IntBridge
  IntRes EccChip SpecEcc Curve EccArith EccProofs SpecMsm FieldSatz CurveGroup PointSum ScalarChip ScalarProofs Msm ParWindows.

(** ** Append-only *)
Section App.
Context {NM : NMod}.
Variable I : rinfo.

Lemma appends_bisec_pairs b : forall n cs, (length cs <= n)%nat -> appends (bisec_pairs I b cs).
Proof.
  induction n as [|n IH]; intros [|a [|b0 cs]] H; cbn [bisec_pairs]; try solve [app]; cbn [length] in H; try lia.
  apply appends_bind; [app|intros p]. apply appends_bind; [apply IH; lia|intros ps]. app.
Qed.
Lemma appends_bisec_candidate cs bits : appends (bisec_candidate_non_zero I cs bits).
Proof.
  unfold bisec_candidate_non_zero. apply appends_bind; [|intros; app].
  apply appends_foldM. intros. eapply appends_bisec_pairs. reflexivity.
Qed.
Lemma appends_group_candidates cache init chunk : (forall i p, appends (cache i p)) ->
  appends (group_candidates I cache init chunk).
Proof.
  intros Hc. unfold group_candidates. apply appends_bind; [auto|intros _]. apply appends_ufoldM. intros cl i. cbv zeta.
  apply appends_bind; [app|intros c]. apply appends_bind; [app|intros q].
  apply appends_ubind; [app|intros p]. apply appends_bind; [app|intros p']. apply appends_bind; [auto|intros; app].
Qed.
Lemma appends_all_candidates cache l ln gs : (forall g i p, appends (cache g i p)) ->
  appends (all_candidates I cache l ln gs).
Proof.
  intros Hc. unfold all_candidates. apply appends_ufoldM. intros cs gc. cbv zeta.
  apply appends_ubind; [apply appends_group_candidates; auto|intros; app].
Qed.
Lemma appends_window_body pick an cands groups wi : (forall g cs bs, appends (pick g cs bs)) ->
  appends (window_body I pick an cands groups wi).
Proof.
  intros Hp. unfold window_body. apply appends_ufoldM. intros acc gi.
  apply appends_bind; [app|intros g]. apply appends_bind; [apply appends_mapM; intros; app|intros bs].
  apply appends_bind; [app|intros cs]. apply appends_bind; [auto|intros ci]. app.
Qed.

(** A window index that does not exist is a panic. *)
Lemma window_body_none pick an cands groups g0 bits0 gs0 c x c' : groups = (bits0 :: g0) :: gs0 -> bits0 = [] ->
  window_body I pick an cands groups 0 c = Ok (UOk x, c') -> False.
Proof.
  intros -> ->. unfold window_body. cbn [length seq ufoldM]. intros H. apply ubind_inv in H as (y & c1 & H & _).
  apply mbind_inv in H as (g & c2 & H1 & H). apply mopt_inv in H1 as [H1 ->]. cbn in H1. injection H1 as <-.
  apply mbind_inv in H as (gb & c3 & H1 & H). cbn [mapM] in H1. apply mbind_inv in H1 as (z & c4 & H1 & _).
  apply mbind_inv in H1 as (z' & c5 & H1 & _). apply mopt_inv in H1 as [H1 _]. discriminate.
Qed.

Lemma chunks_cons {X} k (x : X) l : (1 <= k)%nat -> exists g gs, chunks k (x :: l) = (x :: g) :: gs.
Proof. intros Hk. unfold chunks. cbn [length chunks_fuel]. destruct k; [lia|]. cbn [firstn]. eauto. Qed.

Lemma par_side pick an cands (n best : nat) bits bits0 :
  negb ((n + best - 1) / best =? 0)%nat = true -> nth_error bits 0 = Some bits0 ->
  length bits0 = O -> forall c x c', wf c ->
  window_body I pick an cands (chunks ((n + (n + best - 1) / best - 1) / ((n + best - 1) / best)) bits) 0 c = Ok (UOk x, c') -> False.
Proof.
  intros NG Hb0 W0 c x c' _ H. destruct bits as [|b bits]; [discriminate|]. injection Hb0 as ->.
  set (ng := ((n + best - 1) / best)%nat) in *. assert (N1 : (ng <> 0)%nat) by (destruct (ng =? 0)%nat eqn:E; [discriminate|apply Nat.eqb_neq; auto]).
  assert (N2 : (1 <= (n + ng - 1) / ng)%nat).
  { apply Nat.div_le_lower_bound; [auto|]. destruct n eqn:L; [|lia]. exfalso. apply N1. unfold ng.
    destruct best; [reflexivity|]. apply Nat.div_small. lia. }
  destruct (chunks_cons _ bits0 bits N2) as (g & gs & E). eapply window_body_none; [exact E| |exact H].
  destruct bits0; [auto|discriminate].
Qed.
End App.
Ltac ua := cbv zeta; repeat first
  [ apply uapp_of, appends_all_candidates; solve [auto]
  | apply uapp_assert_k; intros ?
  | apply uapp_nth_k; intros ? ?
  | match goal with |- uapp (ubind _ _) => apply uapp_ubind; [|intros ?] end
  | match goal with |- uapp (mbind _ _) => idtac end; apply uapp_bind; [solve [auto | app | apply appends_mapM; intros; first [solve [auto] | app]]|intros ?]
  | apply uapp_par_windows; [intros; apply uapp_of, appends_window_body; auto|solve [eapply par_side; eauto]]
  | apply uapp_ufoldM; intros ? ?
  | match goal with |- uapp (if ?b then _ else _) => destruct b end
  | apply uapp_of; solve [app] ].
Section App2.
Context {NM : NMod}.
Variable I : rinfo.
Lemma uapp_msm_batch {S} (dec : S -> M (list (list acond))) pick cache cv_b best points scalars ra rl :
  (forall s, appends (dec s)) -> (forall g cs bs, appends (pick g cs bs)) -> (forall g i p, appends (cache g i p)) ->
  uapp (msm_batch I cv_b dec pick cache best points scalars ra rl).
Proof. intros Hd Hp Hc. unfold msm_batch. ua.
Qed.
End App2.

(** ** Subsets of a list of points *)
Section Sub.
Variable w b : Z.
Hypothesis P : prime w.
Hypothesis w3 : 3 < w.
Hypothesis b0 : b mod w <> 0.
Local Notation cpt := (cpt w b).
Local Notation cadd := (cadd w b P).
Local Notation czero := (czero w b).
Local Notation selb := (selb w b).
Local Notation ssum := (ssum w b P).

Fixpoint sub (ps : list cpt) (i : nat) : cpt :=
  match ps with [] => czero | p :: ps' => cadd (selb (Nat.odd i) p) (sub ps' (Nat.div2 i)) end.
Definition cand (init : cpt) (ps : list cpt) (i : nat) : cpt := cadd init (sub ps i).
Lemma sub_0 ps : sub ps 0 = czero.
Proof. induction ps as [|p ps IH]; [reflexivity|]. cbn [sub Nat.odd Nat.even negb Nat.div2 PointSum.selb]. rewrite IH. apply cadd_0_l. Qed.

Lemma low_pos_odd i : Nat.odd i = true -> low_pos i = 0%nat.
Proof.
  intros H. unfold low_pos. apply Nat.odd_spec in H as [k ->]. destruct k as [|k]; [reflexivity|].
  replace (Pos.of_nat (2 * S k + 1)) with (Pos.of_nat (S k))~1%positive; [reflexivity|].
  apply Pos2Nat.inj. rewrite Pos2Nat.inj_xI, !Nat2Pos.id by lia. lia.
Qed.
Lemma low_pos_double k : k <> 0%nat -> low_pos (2 * k) = S (low_pos k).
Proof.
  intros H. unfold low_pos. replace (Pos.of_nat (2 * k)) with (Pos.of_nat k)~0%positive; [reflexivity|].
  apply Pos2Nat.inj. rewrite Pos2Nat.inj_xO, !Nat2Pos.id by lia. lia.
Qed.
Lemma low_pos_le i : i <> 0%nat -> (2 ^ low_pos i <= i)%nat.
Proof.
  induction i as [i IH] using lt_wf_ind. intros H. destruct (Nat.odd i) eqn:O.
  - rewrite low_pos_odd by auto. cbn. lia.
  - assert (E : Nat.even i = true) by (rewrite <- Nat.negb_odd, O; reflexivity). apply Nat.even_spec in E as [k ->].
    rewrite low_pos_double by lia. specialize (IH k ltac:(lia) ltac:(lia)). rewrite Nat.pow_succ_r'. lia.
Qed.
Lemma sub_low ps : forall i p, i <> 0%nat -> nth_error ps (low_pos i) = Some p ->
  sub ps i = cadd (sub ps (i - 2 ^ low_pos i)) p.
Proof.
  induction ps as [|q ps IH]; intros i p Hi Hp; [destruct (low_pos i); discriminate|]. cbn [sub]. destruct (Nat.odd i) eqn:O.
  - rewrite low_pos_odd in * by auto. cbn in Hp. injection Hp as ->. apply Nat.odd_spec in O as [k ->]. change (2 ^ 0)%nat with 1%nat.
    replace (2 * k + 1 - 1)%nat with (2 * k)%nat by lia. replace (2 * k + 1)%nat with (S (2 * k)) by lia.
    rewrite Nat.div2_succ_double, Nat.div2_double.
    assert (OO : Nat.odd (2 * k) = false).
    { apply Bool.not_true_iff_false. rewrite Nat.odd_spec. intros [j Hj]. lia. }
    rewrite OO. cbn [PointSum.selb]. rewrite cadd_0_l. apply cadd_comm; auto.
  - assert (E : Nat.even i = true) by (rewrite <- Nat.negb_odd, O; reflexivity). apply Nat.even_spec in E as [k ->].
    assert (K0 : k <> 0%nat) by lia. rewrite low_pos_double in * by lia. cbn [nth_error] in Hp. rewrite Nat.pow_succ_r'.
    replace (2 * k - 2 * 2 ^ low_pos k)%nat with (2 * (k - 2 ^ low_pos k))%nat by lia.
    assert (OO : Nat.odd (2 * (k - 2 ^ low_pos k)) = false).
    { apply Bool.not_true_iff_false. rewrite Nat.odd_spec. intros [j Hj]. lia. }
    rewrite OO. rewrite !Nat.div2_double. cbn [PointSum.selb]. rewrite !cadd_0_l. apply IH; auto.
Qed.
Lemma cand_low init ps i p : i <> 0%nat -> nth_error ps (low_pos i) = Some p ->
  cand init ps i = cadd (cand init ps (i - 2 ^ low_pos i)) p.
Proof. intros Hi Hp. unfold cand. rewrite (sub_low ps i p Hi Hp). rewrite cadd_assoc; auto. Qed.

(** All candidates, in index order. *)
Definition table (init : cpt) (ps : list cpt) : list cpt := map (cand init ps) (seq 0 (2 ^ length ps)).
Fixpoint halve {X} (d : bool) (l : list X) : list X :=
  match l with a0 :: a1 :: l' => (if d then a1 else a0) :: halve d l' | _ => [] end.
Lemma halve_seq {X} (g : nat -> X) d n : forall s,
  halve d (map g (seq (2 * s) (2 * n))) = map (fun i => g (2 * i + Nat.b2n d)%nat) (seq s n).
Proof.
  induction n as [|n IH]; intros s; [reflexivity|]. replace (2 * S n)%nat with (S (S (2 * n))) by lia. cbn [seq map halve].
  rewrite <- IH. replace (2 * S s)%nat with (S (S (2 * s))) by lia. f_equal.
  destruct d; cbn [Nat.b2n]; f_equal; lia.
Qed.
Lemma halve_table init p ps d : halve d (table init (p :: ps)) = table (cadd init (selb d p)) ps.
Proof.
  unfold table. cbn [length]. rewrite Nat.pow_succ_r'. rewrite (halve_seq _ d _ 0). apply map_ext. intros i.
  unfold cand. cbn [sub]. assert (O : Nat.odd (2 * i + Nat.b2n d) = d /\ Nat.div2 (2 * i + Nat.b2n d) = i).
  { destruct d; cbn [Nat.b2n].
    - split; [apply Nat.odd_spec; exists i; lia|]. rewrite Nat.add_1_r. apply Nat.div2_succ_double.
    - rewrite Nat.add_0_r. split; [|apply Nat.div2_double]. apply Bool.not_true_iff_false. rewrite Nat.odd_spec. intros [j Hj]. lia. }
  destruct O as [-> ->]. rewrite cadd_assoc; auto.
Qed.
Lemma fold_halve ps : forall init ds, length ps = length ds ->
  fold_left (fun l d => halve d l) ds (table init ps) = [cadd init (ssum ps ds)].
Proof.
  induction ps as [|p ps IH]; intros init [|d ds] L; try discriminate; cbn [fold_left].
  - reflexivity.
  - injection L as L. rewrite halve_table, IH by auto. cbn [PointSum.ssum]. rewrite cadd_assoc; auto.
Qed.
(** The index of a list of bits. *)
Fixpoint index_of (ds : list bool) : nat := match ds with [] => O | d :: ds' => (Nat.b2n d + 2 * index_of ds')%nat end.
Lemma sub_index ps : forall ds, length ps = length ds -> sub ps (index_of ds) = ssum ps ds.
Proof.
  induction ps as [|p ps IH]; intros [|d ds] L; try discriminate; cbn [sub PointSum.ssum index_of]; [reflexivity|].
  injection L as L. rewrite <- IH by auto. f_equal; f_equal.
  - destruct d; cbn [Nat.b2n]; [apply Nat.odd_spec; eexists; apply Nat.add_comm|]. apply Bool.not_true_iff_false. rewrite Nat.odd_spec. intros [j Hj]. lia.
  - destruct d; cbn [Nat.b2n]; [change (1 + 2 * index_of ds)%nat with (S (2 * index_of ds)); apply Nat.div2_succ_double|apply Nat.div2_double].
Qed.
Lemma index_bound ds : (index_of ds < 2 ^ length ds)%nat.
Proof. induction ds as [|d ds IH]; cbn [index_of length]; [cbn; lia|]. rewrite Nat.pow_succ_r'. destruct d; cbn [Nat.b2n]; lia. Qed.
Lemma table_nth init ps i : (i < 2 ^ length ps)%nat -> nth_error (table init ps) i = Some (cand init ps i).
Proof.
  intros H. unfold table. rewrite nth_error_map. assert (E : nth_error (seq 0 (2 ^ length ps)) i = Some i).
  { rewrite (nth_error_nth' _ 0%nat) by (rewrite seq_length; auto). rewrite seq_nth by auto. reflexivity. }
  rewrite E. reflexivity.
Qed.
End Sub.
