(** Soundness of the multi-scalar multiplication. *)
From Verif Require Import Prelude FieldZ Circuit Context Spec Logic ModArith Prims BaseChip BaseProofs
  RangeInfo RangeChip IntegerChip SpecInt InfoProofs IntArith RangeProofs IntInv IntSound IntComplete IntBridge
  IntRes EccChip SpecEcc Curve EccArith EccProofs SpecMsm FieldSatz CurveGroup PointSum ScalarChip ScalarProofs Msm ParWindows MsmProofs.

Lemma F2_len {X Y} {R : X -> Y -> Prop} {l l'} : Forall2 R l l' -> length l = length l'.
Proof. induction 1; cbn; auto. Qed.
Lemma chunks_F2 {X Y} (R : X -> Y -> Prop) k l l' : Forall2 R l l' -> Forall2 (Forall2 R) (chunks k l) (chunks k l').
Proof.
  intros H. unfold chunks. rewrite (F2_len H). generalize (length l'); intros f0.
  revert l l' H. induction f0 as [|f IH]; intros l l' H; cbn [chunks_fuel]; [constructor|].
  inversion H as [|x y l1 l2 Hx Hl]; subst; [constructor|].
  assert (F : forall n l l', Forall2 R l l' -> Forall2 R (firstn n l) (firstn n l') /\ Forall2 R (skipn n l) (skipn n l')).
  { clear. induction n as [|n IH]; intros l l' H; [cbn; split; auto|]. inversion H; subst; cbn [firstn skipn]; [auto|].
    destruct (IH _ _ H1). split; [constructor|]; auto. }
  destruct (F k _ _ H) as [F1 F2]. constructor; auto.
Qed.
Lemma F2_nth {X Y} (R : X -> Y -> Prop) l l' i x : Forall2 R l l' -> nth_error l i = Some x ->
  exists y, nth_error l' i = Some y /\ R x y.
Proof.
  intros H. revert i. induction H as [|a b l l' Hab H IH]; intros [|i] E; try discriminate; cbn in E.
  - injection E as <-. exists b. auto.
  - destruct (IH i E) as (y & Hy & Ry). exists y. auto.
Qed.
Lemma F2_nth_r {X Y} (R : X -> Y -> Prop) l l' i y : Forall2 R l l' -> nth_error l' i = Some y ->
  exists x, nth_error l i = Some x /\ R x y.
Proof.
  intros H. revert i. induction H as [|a b l l' Hab H IH]; intros [|i] E; try discriminate; cbn in E.
  - injection E as <-. exists a. auto.
  - destruct (IH i E) as (x & Hx & Rx). exists x. auto.
Qed.
Lemma firstn_S_nth {X} (l : list X) : forall i x, nth_error l i = Some x -> firstn (S i) l = firstn i l ++ [x].
Proof.
  induction l as [|a l IH]; intros [|i] x H; try discriminate; cbn in H |- *.
  - injection H as ->. reflexivity.
  - f_equal. apply (IH i x H).
Qed.

(** Value of binary digits, most significant first. *)
Definition be (ds : list bool) : Z := fold_left (fun v d => 2 * v + Z.b2z d) ds 0.
Lemma be_app ds d : be (ds ++ [d]) = 2 * be ds + Z.b2z d.
Proof. unfold be. rewrite fold_left_app. reflexivity. Qed.
Lemma be_nonneg ds : 0 <= be ds.
Proof. induction ds as [|d ds IH] using rev_ind; [cbn; lia|]. rewrite be_app. destruct d; cbn [Z.b2z]; lia. Qed.
Lemma be_rev ds : be (rev ds) = bin_le (map Z.b2z ds).
Proof. induction ds as [|d ds IH]; [reflexivity|]. cbn [rev map bin_le]. rewrite be_app, IH. ring. Qed.

Section S.
Context {NM : NMod}.
Variable w : Z.
Variable I : rinfo.
Hypothesis IO : info_ok w I.
Hypothesis n_prime : prime nmod.
Hypothesis w_prime : prime w.
Variable cv_b : Z.
Hypothesis b_range : 0 < cv_b < w.
Hypothesis w3 : 3 < w.
Variable T : env.
Variable A : cell -> Z.
Hypothesis A_range : forall x, 0 <= A x < nmod.
Local Notation ir := (ir w I A).
Local Notation br := (br A).
Local Notation ST := (ST T A).
Local Notation US := (US T A).
Local Notation gn := (gn w I A).
Local Notation gp := (gp w I A).
Local Notation cpt := (cpt w cv_b).
Local Notation cadd := (cadd w cv_b w_prime).
Local Notation cneg := (cneg w cv_b w_prime).
Local Notation czero := (czero w cv_b).
Local Notation selb := (selb w cv_b).
Local Notation ssum := (ssum w cv_b w_prime).
Local Notation lsum := (lsum w cv_b w_prime).
Local Notation table := (table w cv_b w_prime).
Local Notation cp := (cp w cv_b).
Lemma b_nz : cv_b mod w <> 0. Proof. rewrite Z.mod_small; lia. Qed.
Local Notation b0 := b_nz.

(** The handle holds an affine point. *)
Definition gz (a : anz) (c : cpt) : Prop := exists x y, gn a x y /\ cp c = dec w x y false.

Lemma add_gz a b p q : gz a p -> gz b q -> US (ecc_add_unsafe I a b) (fun r => gz r (cadd p q)).
Proof.
  intros (x1 & y1 & H1 & E1) (x2 & y2 & H2 & E2). eapply US_of; [eapply (ecc_add_unsafe_R w I IO); eauto|].
  intros r (_ & p' & x & y & E & G & Ad). injection E as <-. exists x, y. split; [exact G|].
  symmetry. rewrite <- E1, <- E2 in Ad. apply cadd_of. exact Ad.
Qed.
Lemma double_gz a p : gz a p -> US (ecc_double_unsafe I a) (fun r => gz r (cadd p p)).
Proof.
  intros (x1 & y1 & H1 & E1). eapply US_of; [eapply (ecc_double_unsafe_R w I IO); eauto|].
  intros r (_ & p' & x & y & E & G & Ad). injection E as <-. exists x, y. split; [exact G|].
  symmetry. rewrite <- E1 in Ad. apply cadd_of. exact Ad.
Qed.
Lemma neg_gz a p : gz a p -> ST (ecc_neg_non_zero I a) (fun r => gz r (cneg p)).
Proof.
  intros (x & y & H & E). eapply ST_weaken; [eapply (ecc_neg_nz_R w I IO); eauto|]. intros r G. exists x, (- y). split; [exact G|].
  rewrite neg_dec by auto. rewrite <- E. reflexivity.
Qed.
Definition red (a : anz) : Prop := i_times (nz_x a) = 1 /\ i_times (nz_y a) = 1.
Lemma reduce_gz a p : gz a p -> ST (ecc_reduce_non_zero I a) (fun r => gz r p /\ red r).
Proof.
  intros (x & y & H & E). eapply ST_weaken; [eapply (ecc_reduce_nz_R w I IO); eauto|]. intros r (G & Rd). split; [|exact Rd].
  exists x, y. auto.
Qed.
Lemma bisec_gz c k a b p q : br c k -> gz a p -> gz b q -> ST (ecc_bisec_non_zero_point I c a b) (fun r => gz r (if k then p else q)).
Proof.
  intros Hc (x1 & y1 & H1 & E1) (x2 & y2 & H2 & E2). eapply ST_weaken; [eapply (ecc_bisec_nz_R w I IO); eauto|].
  intros r G. destruct k; eexists; eexists; (split; [exact G|auto]).
Qed.
Lemma assign_gz p : ST (assign_non_zero_point I cv_b p) (fun r => exists c, gz r c).
Proof.
  eapply ST_weaken; [eapply (assign_nz_R w I IO); eauto; lia|]. intros r (x & y & G & O).
  exists (mkO w cv_b (Aff x y) O). exists x, y. split; [exact G|]. cbn. destruct O as (R1 & R2 & _).
  unfold dec. rewrite !Z.mod_small by auto. reflexivity.
Qed.

Lemma chunks_length_le {X} k (l : list X) : (1 <= k)%nat -> (length (chunks k l) <= length l)%nat.
Proof.
  intros Hk. unfold chunks. assert (G : forall f (l : list X), (length (chunks_fuel f k l) <= f)%nat).
  { induction f as [|f IH]; intros [|x l']; cbn [chunks_fuel length]; try lia. specialize (IH (skipn k (x :: l'))). lia. }
  apply G.
Qed.
Lemma chunks_size {X} k (l : list X) : Forall (fun q => (length q <= k)%nat) (chunks k l).
Proof.
  unfold chunks. generalize (length l) as f. intros f. revert l. induction f as [|f IH]; intros [|x l]; cbn [chunks_fuel]; constructor; auto.
  rewrite firstn_length. lia.
Qed.

(** *** Candidates *)
Variable K : nat -> nat -> anz -> Prop.
Variable cache : nat -> nat -> anz -> M unit.
Variable pick : nat -> list anz -> list acond -> M anz.
Hypothesis cache_app : forall g i p, appends (cache g i p).
Hypothesis pick_app : forall g cs bs, appends (pick g cs bs).
Hypothesis cache_ok : forall g i p c, gz p c -> ST (cache g i p) (fun _ => K g i p).
Definition kall (g : nat) (cs : list anz) : Prop := forall i p, nth_error cs i = Some p -> K g i p.
(** Bounds on the number of groups and on the size of a group. *)
Variables NG BS : nat.
Hypothesis pick_ok : forall g cs init ps bits ds,
  (g < NG)%nat -> (length ps <= BS)%nat -> Forall2 gz cs (table init ps) -> kall g cs -> length ps = length ds -> Forall2 br bits ds ->
  ST (pick g cs bits) (fun r => gz r (cadd init (ssum ps ds))).

Lemma group_candidates_US g init c chunk ps : gz init c -> Forall2 gz chunk ps ->
  US (group_candidates I (cache g) init chunk) (fun cl => Forall2 gz cl (table c ps) /\ kall g cl).
Proof.
  intros Hi Hc. unfold group_candidates. eapply US_bind; [eapply cache_ok; exact Hi|auto| |].
  { intros _. apply uapp_of. apply appends_ufoldM. intros cl i. cbv zeta.
    apply appends_bind; [app|intros q]. apply appends_bind; [app|intros q0].
    apply appends_ubind; [app|intros p]. apply appends_bind; [app|intros p']. apply appends_bind; [auto|intros; app]. }
  intros u0 K0. cbv beta in K0. clear u0. set (N := (2 ^ length chunk)%nat). assert (N1 : (1 <= N)%nat) by (unfold N; pose proof (Nat.pow_nonzero 2 (length chunk)); lia).
  eapply US_weaken; [apply (US_ufoldM T A _ (fun pre cl => length cl = S (length pre) /\ kall g cl /\
      forall i p, nth_error cl i = Some p -> gz p (cand w cv_b w_prime c ps i)))|].
  - intros cl i. apply uapp_of. cbv zeta.
    apply appends_bind; [app|intros q]. apply appends_bind; [app|intros q0].
    apply appends_ubind; [app|intros p]. apply appends_bind; [app|intros p']. apply appends_bind; [auto|intros; app].
  - split; [reflexivity|]. split.
    + intros [|i] p H; [injection H as <-; exact K0|destruct i; discriminate].
    + intros [|i] p H; [injection H as <-|destruct i; discriminate]. unfold cand. rewrite sub_0, cadd_0_r; auto.
  - intros pre i post cl Es (L & Kc & G). cbv zeta.
    assert (Ei : i = S (length pre)).
    { assert (nth_error (seq 1 (N - 1)) (length pre) = Some i) as Hn by (rewrite Es, nth_error_app2, Nat.sub_diag by lia; reflexivity).
      apply nth_error_nth with (d := 0%nat) in Hn. 
      assert (length pre < N - 1)%nat. { assert (length (seq 1 (N - 1)) = length (pre ++ i :: post)) as Q by (rewrite Es; reflexivity). rewrite seq_length, app_length in Q. cbn in Q. lia. }
      rewrite seq_nth in Hn by lia. lia. }
    apply US_nth_k. intros a Ha. apply US_nth_k. intros q Hq.
    destruct (F2_nth _ _ _ _ _ Hc Hq) as (pq & Hpq & Gq).
    eapply US_ubind; [apply add_gz; [apply G; exact Ha|exact Gq]|apply uapp_of; app| |].
    { intros p. apply uapp_of. apply appends_bind; [app|intros p']. apply appends_bind; [auto|intros; app]. }
    intros p Gp. eapply US_bind; [eapply reduce_gz; exact Gp|app| |].
    { intros p'. apply uapp_of. apply appends_bind; [auto|intros; app]. }
    intros p' (Gp' & _). eapply US_bind; [eapply cache_ok; exact Gp'|auto| |].
    { intros _. apply uapp_of. app. }
    intros u1 Kp. cbv beta in Kp. clear u1. apply US_ret. rewrite <- (cand_low w cv_b w_prime w3 b0) in Gp' by (auto; lia).
    split; [rewrite !app_length; cbn; lia|]. split.
    + intros j r Hj. destruct (Nat.lt_ge_cases j (length cl)) as [Lj|Lj].
      * rewrite nth_error_app1 in Hj by auto. apply Kc; auto.
      * rewrite nth_error_app2 in Hj by auto. destruct (j - length cl)%nat as [|m] eqn:Em; [|destruct m; discriminate].
        injection Hj as <-. replace j with i by lia. exact Kp.
    + intros j r Hj. destruct (Nat.lt_ge_cases j (length cl)) as [Lj|Lj].
      * rewrite nth_error_app1 in Hj by auto. apply G; auto.
      * rewrite nth_error_app2 in Hj by auto. destruct (j - length cl)%nat as [|m] eqn:Em; [|destruct m; discriminate].
        injection Hj as <-. replace j with i by lia. exact Gp'.
  - intros cl (L & Kc & G). split; [|exact Kc]. rewrite seq_length in L.
    assert (LN : length cl = N) by lia. unfold MsmProofs.table. rewrite <- (F2_len Hc).
    clear - G LN. fold N. rewrite <- LN. clear LN.
    assert (forall s, (forall i p, nth_error cl i = Some p -> gz p (cand w cv_b w_prime c ps (s + i))) ->
       Forall2 gz cl (map (cand w cv_b w_prime c ps) (seq s (length cl)))) as X.
    { clear G. induction cl as [|a cl IH]; intros s G; cbn [length seq map]; constructor.
      - specialize (G 0%nat a eq_refl). rewrite Nat.add_0_r in G. exact G.
      - apply IH. intros i p Hp. replace (S s + i)%nat with (s + S i)%nat by lia. apply G. exact Hp. }
    apply (X 0%nat). exact G.
Qed.

Definition init_of (g : nat) (l ln : cpt) : cpt := if Nat.even g then l else ln.

Lemma all_candidates_US line line_neg l ln groups pss : gz line l -> gz line_neg ln -> Forall2 (Forall2 gz) groups pss ->
  US (all_candidates I cache line line_neg groups) (fun css => length css = length pss /\
     forall g cs ps, nth_error css g = Some cs -> nth_error pss g = Some ps -> Forall2 gz cs (table (init_of g l ln) ps) /\ kall g cs).
Proof.
  intros Hl Hln Hg. unfold all_candidates.
  eapply US_weaken; [apply (US_ufoldM T A _ (fun pre css => length css = length pre /\
      forall g cs ps, nth_error css g = Some cs -> nth_error pss g = Some ps -> Forall2 gz cs (table (init_of g l ln) ps) /\ kall g cs))|].
  - intros cs gc. apply uapp_of. cbv zeta. apply appends_ubind; [apply appends_group_candidates; auto|intros; app].
  - split; [reflexivity|]. intros [|g] cs ps H; discriminate.
  - intros pre [g chunk] post css Es (L & G). cbn [fst snd].
    assert (Hgc : g = length pre /\ nth_error groups g = Some chunk).
    { assert (Hn : nth_error (combine (seq 0 (length groups)) groups) (length pre) = Some (g, chunk)) by (rewrite Es, nth_error_app2, Nat.sub_diag by lia; reflexivity).
      clear - Hn. assert (X : forall s gs j, nth_error (combine (seq s (length gs)) gs) j = Some (g, chunk) -> g = (s + j)%nat /\ nth_error gs j = Some chunk).
      { intros s gs. revert s. induction gs as [|x gs IH]; intros s [|j] H; try discriminate; cbn in H.
        - injection H as <- <-. split; [lia|reflexivity].
        - destruct (IH (S s) j H). split; [lia|auto]. }
      destruct (X _ _ _ Hn) as [E1 E2]. cbn in E1. subst g. auto. }
    destruct Hgc as [Eg Hch]. destruct (F2_nth _ _ _ _ _ Hg Hch) as (ps & Hps & Fps).
    eapply US_ubind; [apply (group_candidates_US g _ (init_of g l ln) chunk ps); [unfold init_of; destruct (Nat.even g); auto|exact Fps]
                     |apply uapp_of, appends_group_candidates; auto|intros; apply uapp_of; app|].
    intros cl (Hcl & Kcl). apply US_ret. split; [rewrite !app_length; cbn; lia|].
    intros j cs ps' Hj Hp. destruct (Nat.lt_ge_cases j (length css)) as [Lj|Lj].
    + rewrite nth_error_app1 in Hj by auto. eapply G; eauto.
    + rewrite nth_error_app2 in Hj by auto. destruct (j - length css)%nat as [|m] eqn:Em; [|destruct m; discriminate].
      injection Hj as <-. replace j with g in * by lia. rewrite Hps in Hp. injection Hp as <-. auto.
  - intros css (L & G). split; [|exact G]. rewrite L, combine_length, seq_length, (F2_len Hg). lia.
Qed.

(** *** One window *)
(** Decomposed scalars: windows of one bit each. *)
Definition wdig (nw : nat) (ws : list (list acond)) (ds : list bool) : Prop :=
  length ds = nw /\ Forall2 (fun w d => exists a, w = [a] /\ br a d) ws ds.
Definition dig (wi : nat) (ds : list bool) : bool := nth wi ds false.

Lemma group_bits_ST nw wi g dss : Forall2 (wdig nw) g dss ->
  ST (mapM (fun bits => w <- mnth bits wi ;; mnth w 0) g) (fun bs => Forall2 br bs (map (dig wi) dss)).
Proof.
  intros H. induction H as [|ws ds g dss [L F] H IH]; cbn [mapM map].
  - apply ST_ret. constructor.
  - eapply (ST_bind T A _ _ (fun a => br a (dig wi ds))); [|app| |].
    + apply ST_nth_k. intros x Hx. destruct (F2_nth _ _ _ _ _ F Hx) as (d & Hd & a & -> & Ba).
      apply ST_nth. intros y Hy. cbn in Hy. injection Hy as <-. unfold dig. rewrite (nth_error_nth _ _ false Hd). exact Ba.
    + intros y. apply appends_bind; [apply appends_mapM; intros; app|intros; app].
    + intros a Ba. eapply ST_bind; [exact IH|apply appends_mapM; intros; app|intros; app|]. intros bs Hbs. apply ST_ret. constructor; auto.
Qed.

Definition odd_part (g : nat) (l : cpt) : cpt := if Nat.odd g then l else czero.
Lemma odd_part_step g l ln : cadd l ln = czero -> cadd (odd_part g l) (init_of g l ln) = odd_part (S g) l.
Proof.
  intros E. unfold odd_part, init_of. rewrite Nat.odd_succ. rewrite <- Nat.negb_even. destruct (Nat.even g); cbn [negb]; [apply cadd_0_l|exact E].
Qed.
Definition win (na l : cpt) (g : nat) (ps : list cpt) (ds : list bool) : cpt := cadd (cadd na (odd_part g l)) (ssum ps ds).

Lemma window_body_US nw l ln css pss groups dsss acc_neg na wi :
  cadd l ln = czero -> gz acc_neg na -> length css = length pss ->
  (forall g cs ps, nth_error css g = Some cs -> nth_error pss g = Some ps -> Forall2 gz cs (table (init_of g l ln) ps) /\ kall g cs) ->
  Forall2 (Forall2 (wdig nw)) groups dsss -> Forall2 (fun ps (dss : list (list bool)) => length ps = length dss) pss dsss ->
  (length groups <= NG)%nat -> Forall (fun ps : list cpt => (length ps <= BS)%nat) pss ->
  US (window_body I pick acc_neg css groups wi) (fun r => gz r (win na l (length groups) (concat pss) (map (dig wi) (concat dsss)))).
Proof.
  intros Ell Hna Lc HC HG HL HNG HBS. unfold window_body.
  eapply US_weaken; [apply (US_ufoldM T A _ (fun pre r => gz r (win na l (length pre) (concat (firstn (length pre) pss)) (map (dig wi) (concat (firstn (length pre) dsss))))))|].
  - intros acc gi. apply uapp_of.
    apply appends_bind; [app|intros g]. apply appends_bind; [apply appends_mapM; intros; app|intros bs].
    apply appends_bind; [app|intros cs]. apply appends_bind; [auto|intros ci]. app.
  - cbn [length firstn concat map]. unfold win, odd_part. cbn [Nat.odd Nat.even negb PointSum.ssum]. rewrite !cadd_0_r by auto. exact Hna.
  - intros pre gi post acc Es Hacc.
    assert (Eg : gi = length pre /\ (length pre < length groups)%nat).
    { assert (Hn : nth_error (seq 0 (length groups)) (length pre) = Some gi) by (rewrite Es, nth_error_app2, Nat.sub_diag by lia; reflexivity).
      assert (LL : (length pre < length groups)%nat). { assert (Q : length (seq 0 (length groups)) = length (pre ++ gi :: post)) by (rewrite Es; reflexivity). rewrite seq_length, app_length in Q. cbn in Q. lia. }
      apply nth_error_nth with (d := 0%nat) in Hn. rewrite seq_nth in Hn by lia. lia. }
    destruct Eg as [Eg Lg].
    assert (AP : forall g, uapp (group_bits <- mapM (fun bits => w <- mnth bits wi ;; mnth w 0) g ;; cs <- mnth css gi ;; ci <- pick gi cs group_bits ;; ecc_add_unsafe I ci acc)).
    { intros g. apply uapp_of. apply appends_bind; [apply appends_mapM; intros; app|intros bs].
      apply appends_bind; [app|intros cs]. apply appends_bind; [auto|intros ci]. app. }
    apply US_nth_k. intros g Hgi. destruct (F2_nth _ _ _ _ _ HG Hgi) as (dss & Hdss & Fg).
    destruct (F2_nth_r _ _ _ _ _ HL Hdss) as (ps & Hps & Lps).
    eapply US_bind; [apply (group_bits_ST nw wi g dss Fg)|apply appends_mapM; intros; app| |].
    { intros bs. apply uapp_of. apply appends_bind; [app|intros cs]. apply appends_bind; [auto|intros ci]. app. }
    intros bs Hbs. apply US_nth_k. intros cs Hcs. destruct (HC _ _ _ Hcs Hps) as [Ft Kc].
    eapply US_bind; [apply (pick_ok gi cs (init_of gi l ln) ps bs (map (dig wi) dss)); [lia|rewrite Forall_forall in HBS; apply HBS; eapply nth_error_In; exact Hps|exact Ft|exact Kc|rewrite map_length; exact Lps|exact Hbs]|auto|intros; apply uapp_of; app|].
    intros ci Hci. eapply US_weaken; [apply add_gz; [exact Hci|exact Hacc]|]. intros r Hr.
    rewrite app_length. cbn [length]. rewrite Nat.add_1_r. rewrite <- Eg.
    rewrite (firstn_S_nth pss gi ps Hps), (firstn_S_nth dsss gi dss Hdss), !concat_app, map_app. cbn [concat]. rewrite !app_nil_r.
    unfold win in *. rewrite <- Eg in Hr. rewrite (ssum_app w cv_b w_prime w3 b0).
    + rewrite <- (odd_part_step gi l ln Ell).
      match goal with |- gz r ?R => replace R with (cadd (cadd (init_of gi l ln) (ssum ps (map (dig wi) dss))) (cadd (cadd na (odd_part gi l)) (ssum (concat (firstn gi pss)) (map (dig wi) (concat (firstn gi dsss)))))); [exact Hr|] end.
      set (a := init_of gi l ln). set (s := ssum ps _). set (o := odd_part gi l). set (t := ssum (concat _) _).
      rewrite <- !(cadd_assoc w cv_b w_prime w3 b0). rewrite (cadd_comm w cv_b w_prime (cadd (cadd (cadd a s) na) o) t) .
      rewrite (cadd_comm w cv_b w_prime (cadd (cadd (cadd na o) a) t) s).
      rewrite !(cadd_assoc w cv_b w_prime w3 b0). rewrite (cadd_swap w cv_b w_prime w3 b0 t a). rewrite (cadd_swap w cv_b w_prime w3 b0 t s).
      rewrite (cadd_swap w cv_b w_prime w3 b0 a s). f_equal.
      rewrite (cadd_comm w cv_b w_prime a (cadd t (cadd na o))). rewrite !(cadd_assoc w cv_b w_prime w3 b0).
      rewrite (cadd_comm w cv_b w_prime t). rewrite !(cadd_assoc w cv_b w_prime w3 b0). reflexivity.
    + clear - HL. assert (X : forall k, length (concat (firstn k pss)) = length (concat (firstn k dsss))).
      { induction HL as [|p d pss dsss E HL IH]; intros [|k]; cbn [firstn concat]; auto. rewrite !app_length, IH, E. reflexivity. }
      rewrite map_length. apply X.
  - intros r Hr. rewrite seq_length in Hr.
    assert (E1 : firstn (length groups) pss = pss). { apply firstn_all2. rewrite (F2_len HL), (F2_len HG). auto. }
    assert (E2 : firstn (length groups) dsss = dsss). { apply firstn_all2. rewrite (F2_len HG). auto. }
    rewrite E1, E2 in Hr. exact Hr.
Qed.

(** *** The whole batch *)
Variable Sc : Type.
Variable dec_ : Sc -> M (list (list acond)).
Variable sc_is : Sc -> Z -> Prop.
Variable r : Z.
Variable nw : nat.
Hypothesis nw1 : (1 <= nw)%nat.
Hypothesis dec_app : forall s, appends (dec_ s).
Hypothesis dec_ok : forall s v, sc_is s v -> ST (dec_ s) (fun ws => exists ds, wdig nw ws ds /\ be ds ≡ v ⟨r⟩).

Definition upto (k : nat) (dss : list (list bool)) : list Z := map (fun ds => be (firstn k ds)) dss.
Lemma upto_step k dss : (k < nw)%nat -> Forall (fun ds => length ds = nw) dss ->
  upto (S k) dss = map (fun e => 2 * fst e + Z.b2z (snd e)) (combine (upto k dss) (map (dig k) dss)).
Proof.
  intros Hk F. induction F as [|ds dss L F IH]; [reflexivity|]. unfold upto in *. cbn [map combine fst snd]. f_equal; [|exact IH].
  assert (E : nth_error ds k = Some (dig k ds)) by (unfold dig; apply nth_error_nth'; lia).
  rewrite (firstn_S_nth ds k _ E), be_app. reflexivity.
Qed.

Lemma acc_algebra a l ln na X s (o : bool) : cadd a na = czero -> cadd l ln = czero ->
  (if o then cadd (cadd (cadd (cadd na (if o then l else czero)) s) (cadd (cadd a X) (cadd a X))) ln
   else cadd (cadd (cadd na (if o then l else czero)) s) (cadd (cadd a X) (cadd a X)))
  = cadd a (cadd (cadd X X) s).
Proof.
  intros E1 E2. pose proof w3 as W3.
  assert (Z : cadd (cadd na s) (cadd (cadd a X) (cadd a X)) = cadd a (cadd (cadd X X) s)).
  { rewrite (cadd_aca w cv_b w_prime W3 b0 a X a X). rewrite <- (cadd_assoc w cv_b w_prime W3 b0 (cadd na s)).
    rewrite (cadd_aca w cv_b w_prime W3 b0 na s a a). rewrite (cadd_comm w cv_b w_prime na a), E1, cadd_0_l.
    rewrite (cadd_comm w cv_b w_prime s a). rewrite (cadd_assoc w cv_b w_prime W3 b0). f_equal. apply cadd_comm. }
  destruct o.
  - rewrite (cadd_comm w cv_b w_prime _ ln). rewrite <- (cadd_assoc w cv_b w_prime W3 b0 ln).
    rewrite <- Z. f_equal. rewrite <- (cadd_assoc w cv_b w_prime W3 b0 ln). f_equal.
    rewrite (cadd_swap w cv_b w_prime W3 b0 ln na l). rewrite (cadd_comm w cv_b w_prime ln l), E2. apply cadd_0_r.
  - rewrite cadd_0_r. exact Z.
Qed.

Definition batch_ok (ps : list cpt) (ss : list Z) (x : apoint) : Prop :=
  exists vs, Forall2 (fun v s => 0 <= v /\ v ≡ s ⟨r⟩) vs ss /\
    exists a b z, gp x a b z /\ dec w a b z = cp (lsum (combine ps vs)).

Lemma msm_batch_US best points ps scalars ss ra rl :
  Forall2 gz points ps -> Forall2 sc_is scalars ss -> length ps = length ss ->
  (length ps <= NG)%nat -> (best <= BS)%nat ->
  US (msm_batch I cv_b dec_ pick cache best points scalars ra rl) (batch_ok ps ss).
Proof.
  intros HP HS LP HNG HBS. unfold msm_batch.
  eapply US_bind; [apply (ST_mapM T A _ _ (fun a r => forall p, gz a p -> gz r p))|apply appends_mapM; intros; app|intros; ua|].
  { intros; app. }
  { intros a _. intros c x c' W E S p G. exact (proj1 (reduce_gz a p G c x c' W E S)). }
  intros pts Hpts0.
  assert (Hpts : Forall2 gz pts ps).
  { clear - HP Hpts0. revert ps HP. induction Hpts0 as [|a a' l l' Ha H IH]; intros ps HP; inversion HP; subst; constructor; auto. }
  clear Hpts0.
  eapply US_bind; [apply assign_gz|app|intros; ua|]. intros acc0 (a & Ga).
  eapply US_bind; [apply assign_gz|app|intros; ua|]. intros line (l & Gl).
  eapply US_bind; [eapply neg_gz; exact Ga|app|intros; ua|]. intros an Gan.
  eapply US_bind; [eapply reduce_gz; exact Gan|app|intros; ua|]. intros an' (Gan' & _). clear an Gan.
  eapply US_bind; [eapply neg_gz; exact Gl|app|intros; ua|]. intros ln Gln.
  eapply US_bind; [eapply reduce_gz; exact Gln|app|intros; ua|]. intros ln' (Gln' & _). clear ln Gln.
  set (na := cneg a) in *. set (ln := cneg l) in *.
  assert (Ea : cadd a na = czero) by (apply cadd_neg; auto). assert (El : cadd l ln = czero) by (apply cadd_neg; auto).
  cbv zeta. apply US_assert_k. intros NG0. set (gs := ((length pts + _ - 1) / _)%nat).
  eapply US_ubind; [apply (all_candidates_US line ln' l ln _ (chunks gs ps) Gl Gln'); apply chunks_F2; exact Hpts|apply uapp_of, appends_all_candidates; auto|intros; unfold gs; ua|].
  intros css (Lcs & HC).
  eapply US_bind; [apply (ST_mapM T A _ _ (fun s ws => forall v, sc_is s v -> exists ds, wdig nw ws ds /\ be ds ≡ v ⟨r⟩)); auto|apply appends_mapM; auto|intros; unfold gs; ua|].
  { intros s _. intros c x c' W E S v G. exact (dec_ok s v G c x c' W E S). }
  intros bits Hbits0.
  assert (Hbits : exists dss, Forall2 (wdig nw) bits dss /\ Forall2 (fun ds v => be ds ≡ v ⟨r⟩) dss ss).
  { clear - HS Hbits0. revert ss HS. induction Hbits0 as [|s ws l l' Hs H IH]; intros ss HS; inversion HS; subst.
    - exists []. split; constructor.
    - destruct (IH _ H4) as (dss & F1 & F2). destruct (Hs _ H2) as (ds & D1 & D2). exists (ds :: dss). split; constructor; auto. }
  destruct Hbits as (dss & Hd & Hv). clear Hbits0.
  apply US_nth_k. intros bits0 Hb0.
  assert (Lw : length bits0 = nw).
  { destruct (F2_nth _ _ _ _ _ Hd Hb0) as (ds & _ & L & F). exact (eq_trans (F2_len F) L). }
  assert (FL : Forall (fun ds => length ds = nw) dss).
  { clear - Hd. induction Hd as [|ws ds l l' [L _] H IH]; constructor; auto. }
  assert (Lpd : length ps = length dss) by (rewrite LP; symmetry; exact (F2_len Hv)).
  assert (GS1 : (1 <= gs)%nat).
  { unfold gs. set (ng := ((length pts + best - 1) / best)%nat) in *. assert (N1 : (ng <> 0)%nat) by (destruct (ng =? 0)%nat eqn:E; [discriminate|apply Nat.eqb_neq; auto]).
    apply Nat.div_le_lower_bound; [auto|]. destruct (length pts) eqn:L; [|lia]. exfalso. apply N1. unfold ng.
    destruct best; [reflexivity|]. apply Nat.div_small. lia. }
  assert (GSB : (gs <= BS)%nat).
  { unfold gs. set (ng := ((length pts + best - 1) / best)%nat) in *. assert (N1 : (ng <> 0)%nat) by (destruct (ng =? 0)%nat eqn:E; [discriminate|apply Nat.eqb_neq; auto]).
    transitivity best; [|exact HBS]. assert (B1 : (best <> 0)%nat) by (intros KK; apply N1; unfold ng; rewrite KK; reflexivity).
    pose proof (Nat.div_mod (length pts + best - 1) best B1) as DM. fold ng in DM. pose proof (Nat.mod_upper_bound (length pts + best - 1) best B1).
    apply Nat.lt_succ_r. apply Nat.div_lt_upper_bound; [auto|]. nia. }
  eapply US_ubind.
  - eapply (US_par_windows _ _ T A (fun wi x => gz x (win na l (length (chunks gs bits)) ps (map (dig wi) dss)))); [lia|].
    intros wi _. pose proof (window_body_US nw l ln css (chunks gs ps) (chunks gs bits) (chunks gs dss) an' na wi El Gan' Lcs HC) as WB.
    rewrite !chunks_concat in WB by auto. apply WB.
    + apply chunks_F2. exact Hd.
    + assert (X : Forall2 (fun (_ : cpt) (_ : list bool) => True) ps dss).
      { clear - Lpd. revert dss Lpd. induction ps as [|p q IH]; intros [|d e] L; try discriminate; constructor; auto. }
      apply (chunks_F2 _ gs) in X. clear - X. induction X as [|x y l l' H X IH]; constructor; auto. exact (F2_len H).
    + rewrite (chunks_length_le gs bits GS1). rewrite (F2_len Hd), <- Lpd. exact HNG.
    + eapply Forall_impl; [|apply chunks_size]. intros q Hq. cbv beta in Hq. lia.
  - unfold gs. apply uapp_par_windows; [intros; apply uapp_of, appends_window_body; auto|eapply par_side; eauto].
  - intros; unfold gs; ua.
  - intros lines HL. eapply US_ubind.
    + apply (US_ufoldM T A _ (fun pre acc => gz acc (cadd a (lsum (combine ps (upto (length pre) dss)))))).
      * intros; ua.
      * cbn [length]. assert (Z : lsum (combine ps (upto 0 dss)) = czero).
        { clear. revert dss. induction ps as [|p q IH]; intros [|d e]; try reflexivity. cbn [upto map combine PointSum.lsum firstn].
          unfold upto in IH. rewrite IH. change (be []) with 0. rewrite cmul_0. apply cadd_0_l. }
        rewrite Z, cadd_0_r by auto. exact Ga.
      * intros pre wi post acc Es Hacc. rewrite Lw in Es.
        assert (Ew : wi = length pre /\ (wi < nw)%nat).
        { assert (Hn : nth_error (seq 0 nw) (length pre) = Some wi) by (rewrite Es, nth_error_app2, Nat.sub_diag by lia; reflexivity).
          assert (LL : (length pre < nw)%nat). { assert (Q : length (seq 0 nw) = length (pre ++ wi :: post)) by (rewrite Es; reflexivity). rewrite seq_length, app_length in Q. cbn in Q. lia. }
          apply nth_error_nth with (d := 0%nat) in Hn. rewrite seq_nth in Hn by lia. lia. }
        destruct Ew as [Ew Lwi].
        eapply US_ubind; [apply double_gz; exact Hacc|apply uapp_of; app|intros; ua|]. intros acc1 G1.
        apply US_nth_k. intros ln0 Hln0. destruct (F2_nth_r _ _ _ _ _ HL Hln0) as (wi' & Hwi' & Gln0).
        assert (wi' = wi) as ->. { apply nth_error_nth with (d := 0%nat) in Hwi'. rewrite seq_nth in Hwi' by lia. lia. }
        eapply US_ubind; [apply add_gz; [exact Gln0|exact G1]|apply uapp_of; app|intros; ua|]. intros acc2 G2.
        assert (FIN : forall x, gz x (if Nat.odd (length (chunks gs bits))
             then cadd (cadd (win na l (length (chunks gs bits)) ps (map (dig wi) dss)) (cadd (cadd a (lsum (combine ps (upto (length pre) dss)))) (cadd a (lsum (combine ps (upto (length pre) dss)))))) ln
             else cadd (win na l (length (chunks gs bits)) ps (map (dig wi) dss)) (cadd (cadd a (lsum (combine ps (upto (length pre) dss)))) (cadd a (lsum (combine ps (upto (length pre) dss))))))
           -> gz x (cadd a (lsum (combine ps (upto (length (pre ++ [wi])) dss))))).
        { intros x Hx. rewrite app_length. cbn [length]. rewrite Nat.add_1_r. rewrite upto_step by (auto; lia).
          rewrite (lsum_step w cv_b w_prime w3 b0).
          - unfold win, odd_part in Hx. rewrite (acc_algebra a l ln na _ _ (Nat.odd (length (chunks gs bits))) Ea El) in Hx. rewrite <- Ew in *. exact Hx.
          - unfold upto. rewrite map_length. exact Lpd.
          - rewrite map_length. exact Lpd.
          - apply Forall_forall. intros v Hv0. unfold upto in Hv0. apply in_map_iff in Hv0 as (ds & <- & _). apply be_nonneg. }
        destruct (Nat.odd (length (chunks gs bits))).
        -- eapply US_weaken; [apply add_gz; [exact G2|exact Gln']|]. exact FIN.
        -- apply US_ret. apply FIN. exact G2.
    + ua.
    + intros; ua.
    + intros acc Hacc. rewrite seq_length, Lw in Hacc.
      assert (UP : upto nw dss = map be dss).
      { unfold upto. apply map_ext_in. intros ds Hin. f_equal. apply firstn_all2. rewrite Forall_forall in FL. rewrite (FL _ Hin). auto. }
      rewrite UP in Hacc. set (Sm := lsum (combine ps (map be dss))) in *. destruct Hacc as (x1 & y1 & Gacc & Eacc).
      destruct Gan' as (x2 & y2 & Gan & Ean).
      eapply US_bind; [apply downgrade_R; [auto..|exact Gacc]|app|intros; ua|]. intros p1 Gp1.
      eapply US_bind; [eapply (to_pointc_R w I IO); [auto..|exact Gp1]|app|intros; ua|]. intros p2 (lam & k & Gp2 & TO).
      eapply US_bind; [apply downgrade_R; [auto..|exact Gan]|app|intros; ua|]. intros p3 Gp3.
      eapply US_bind; [eapply (ecc_add_R w I IO n_prime w_prime cv_b); [auto..|exact Gp2|exact Gp3|intros _; exact TO| |]|app|intros; ua|].
      * rewrite <- Eacc. apply cp_oc.
      * rewrite <- Ean. apply cp_oc.
      * intros res (x & y & z & Gres & Ad). apply US_ret. exists (map be dss). split.
        -- clear - Hv. induction Hv as [|ds v l l' E H IH]; cbn [map]; constructor; auto. split; [apply be_nonneg|exact E].
        -- exists x, y, z. split; [exact Gres|]. rewrite <- Eacc, <- Ean in Ad. apply (cadd_of w cv_b w_prime) in Ad. rewrite Ad. f_equal. fold Sm.
           rewrite (cadd_comm w cv_b w_prime a Sm), (cadd_assoc w cv_b w_prime w3 b0), Ea. apply cadd_0_r.
  Unshelve. intros i. apply uapp_of, appends_window_body. auto.
Qed.
End S.
