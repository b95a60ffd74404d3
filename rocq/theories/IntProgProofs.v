(** Programs of integer operations: simulation by the residue semantics. *)
From Verif Require Import Prelude FieldZ Circuit Context Spec Logic ModArith Prims BaseChip BaseProofs
  RangeInfo RangeChip IntegerChip SpecInt InfoProofs IntArith RangeProofs IntInv IntSound IntComplete IntBridge
  SpecProg IntProg.

Lemma Forall2_nth_r {X Y} (R : X -> Y -> Prop) l1 l2 i x :
  Forall2 R l1 l2 -> nth_error l1 i = Some x -> exists y, nth_error l2 i = Some y /\ R x y.
Proof.
  intros H. revert i. induction H as [|a b l1 l2 H1 _ IH]; intros [|i] Hi; cbn in *; try discriminate; eauto.
  injection Hi as ->. eauto.
Qed.
Lemma Forall2_nth_l {X Y} (R : X -> Y -> Prop) l1 l2 i y :
  Forall2 R l1 l2 -> nth_error l2 i = Some y -> exists x, nth_error l1 i = Some x /\ R x y.
Proof.
  intros H. revert i. induction H as [|a b l1 l2 H1 _ IH]; intros [|i] Hi; cbn in *; try discriminate; eauto.
  injection Hi as ->. eauto.
Qed.
Lemma Forall2_snoc {X Y} (R : X -> Y -> Prop) l1 l2 x y :
  Forall2 R l1 l2 -> R x y -> Forall2 R (l1 ++ [x]) (l2 ++ [y]).
Proof. intros H1 H2. apply Forall2_app; auto. Qed.
Lemma Forall2_impl {X Y} (R S : X -> Y -> Prop) l1 l2 :
  (forall x y, R x y -> S x y) -> Forall2 R l1 l2 -> Forall2 S l1 l2.
Proof. intros H. induction 1; constructor; auto. Qed.

Lemma isteps_snoc w l op s s1 s' : isteps w l s s1 -> istep w op s1 s' -> isteps w (l ++ [op]) s s'.
Proof.
  induction 1 as [|op' l s s1 s2 H1 H2 IH]; intros H; cbn.
  - econstructor; [exact H|constructor].
  - econstructor; eauto.
Qed.

Section Prog.
Context {NM : NMod}.
Variable w : Z.
Variable I : rinfo.
Hypothesis IO : info_ok w I.
Hypothesis n_prime : prime nmod.
Hypothesis w_prime : prime w.

Notation iwf := (iwf I).

Definition rel (f : av -> Z) (r : iregs) (s : istate) : Prop :=
  Forall2 (fun x v => iwf f x /\ val f x mod w = v) (fst r) (fst s)
  /\ Forall2 (fun b v => f b = Z.b2z v) (snd r) (snd s).

Lemma rel_push f r s x v : rel f r s -> iwf f x -> val f x mod w = v -> rel f (push r x) (fst s ++ [v], snd s).
Proof. intros [H1 H2] H3 H4. split; [apply Forall2_snoc; auto|exact H2]. Qed.
Lemma rel_pushb f r s x v : rel f r s -> f x = Z.b2z v -> rel f (pushb r x) (fst s, snd s ++ [v]).
Proof. intros [H1 H2] H3. split; [exact H1|apply Forall2_snoc; auto]. Qed.

Lemma mod_rep x v : x mod w = v -> v ≡ x ⟨w⟩.
Proof. intros <-. apply mod_eqm. Qed.
Lemma bit_b2z A x P (b : bool) : bitv A x P -> (P <-> b = true) -> A⟦x⟧ = Z.b2z b.
Proof.
  intros [H1 H2] H3. unfold vA in *. destruct b; cbn [Z.b2z].
  - apply H2, H3. reflexivity.
  - destruct H1 as [H1|H1]; [exact H1|]. apply H2, H3 in H1. discriminate.
Qed.

Lemma appends_run_op r op : appends (run_op I r op).
Proof. destruct op; cbn [run_op]; app. Qed.
Lemma appends_run_ops r l : appends (run_ops I r l).
Proof. unfold run_ops. apply appends_foldM. intros. apply appends_run_op. Qed.

Section Sound.
Variable T : env.
Variable A : cell -> Z.
Hypothesis A_range : forall x, 0 <= A x < nmod.

Ltac regk R i := apply ST_nth_k; let x := fresh "x" in let N := fresh "N" in intros x N;
  let v := fresh "v" in let Nv := fresh "Nv" in let Wx := fresh "Wx" in let Ex := fresh "Ex" in
  destruct (Forall2_nth_r _ _ _ _ _ R N) as (v & Nv & Wx & Ex).
Ltac gad L := eapply ST_bind; [eapply L; eauto|app|app|].

Lemma run_op_ST r s op : iop_ok w op -> rel (vA A) r s ->
  ST T A (run_op I r op) (fun r' => exists s', istep w op s s' /\ rel (vA A) r' s').
Proof.
  intros HO HR. pose proof HR as [R1 R2]. pose proof (w_pos w w_prime) as WP.
  destruct op; cbn [run_op iop_ok] in *; cbv zeta;
    repeat match goal with |- ST _ _ (x <- mnth (fst r) _ ;; _) _ => regk R1 i end.
  - gad assign_int_constant_ST. intros y (W1 & T1 & V1). apply ST_ret. eexists. split; [reflexivity|].
    apply rel_push; auto. rewrite V1. reflexivity.
  - gad int_add_ST. intros y (W1 & T1 & V1). apply ST_ret. eexists. split; [do 2 eexists; eauto|].
    apply rel_push; auto. change (val (vA A) y ≡ v + v0 ⟨w⟩). rewrite V1, (mod_rep _ _ Ex), (mod_rep _ _ Ex0). reflexivity.
  - gad int_sub_ST. intros y (W1 & T1 & V1). apply ST_ret. eexists. split; [do 2 eexists; eauto|].
    apply rel_push; auto. change (val (vA A) y ≡ v - v0 ⟨w⟩). rewrite V1, (mod_rep _ _ Ex), (mod_rep _ _ Ex0). reflexivity.
  - gad int_neg_ST. intros y (W1 & T1 & V1). apply ST_ret. eexists. split; [eexists; eauto|].
    apply rel_push; auto. change (val (vA A) y ≡ - v ⟨w⟩). rewrite V1, (mod_rep _ _ Ex). reflexivity.
  - gad int_mul_ST. intros y (W1 & T1 & V1). apply ST_ret. eexists. split; [do 2 eexists; eauto|].
    apply rel_push; auto. change (val (vA A) y ≡ v * v0 ⟨w⟩). rewrite V1, (mod_rep _ _ Ex), (mod_rep _ _ Ex0). reflexivity.
  - unfold int_square. gad int_mul_ST. intros y (W1 & T1 & V1). apply ST_ret. eexists. split; [eexists; eauto|].
    apply rel_push; auto. change (val (vA A) y ≡ v * v ⟨w⟩). rewrite V1, (mod_rep _ _ Ex). reflexivity.
  - eapply ST_bind; [apply (int_mul_small_ST w I IO n_prime w_prime T A A_range x k Wx); lia|app|app|].
    intros y (W1 & T1 & V1). apply ST_ret. eexists. split; [eexists; eauto|].
    apply rel_push; auto. change (val (vA A) y ≡ v * k ⟨w⟩). rewrite V1, (mod_rep _ _ Ex). reflexivity.
  - gad reduce_ST. intros y (W1 & T1 & V1). apply ST_ret. eexists. split; [eexists; eauto|].
    apply rel_push; auto. change (val (vA A) y ≡ v ⟨w⟩). rewrite V1, (mod_rep _ _ Ex). reflexivity.
  - gad int_div_ST. intros [z q] (Hz & Wq & Tq & HQ & _). cbn [fst snd] in *. apply ST_ret.
    pose proof (Z.mod_pos_bound (val (vA A) q) w ltac:(lia)) as QB.
    assert (E0 : v0 mod w = val (vA A) x0 mod w) by (apply (mod_rep _ _ Ex0)).
    eexists. split.
    + exists v, v0, (val (vA A) q mod w). split; [auto|]. split; [auto|]. split; [auto|]. split; [|reflexivity].
      intros NZ0. change (v0 * (val (vA A) q mod w) ≡ v ⟨w⟩).
      rewrite (mod_rep _ _ Ex), (mod_rep _ _ Ex0), mod_eqm. apply HQ. intros K. apply NZ0. rewrite E0. apply eqm_0_iff. exact K.
    + apply (rel_pushb _ (push r q) (fst s ++ [val (vA A) q mod w], snd s)).
      * apply rel_push; auto.
      * eapply bit_b2z; [exact Hz|]. rewrite E0, Z.eqb_eq. apply eqm_0_iff.
  - gad int_unsafe_invert_ST. intros q (Wq & Tq & HQ). apply ST_ret.
    pose proof (Z.mod_pos_bound (val (vA A) q) w ltac:(lia)) as QB.
    eexists. split.
    + exists v, (val (vA A) q mod w). split; [auto|]. split; [auto|]. split; [|reflexivity].
      rewrite <- (Z.mod_small 1 w) by lia. change (v * (val (vA A) q mod w) ≡ 1 ⟨w⟩).
      rewrite (mod_rep _ _ Ex), mod_eqm. exact HQ.
    + apply rel_push; auto.
  - apply ST_nth_k. intros k Nk. destruct (Forall2_nth_r _ _ _ _ _ R2 Nk) as (cb & Ncb & Ecb).
    regk R1 i. regk R1 j.
    eapply ST_bind; [apply (bisec_int_ST w I IO T A A_range k x x0 Wx Wx0)|app|app|].
    { unfold vA in *. rewrite Ecb. destruct cb; cbn; auto. }
    intros y (W1 & T1 & V1). apply ST_ret. eexists. split; [exists cb, v, v0; auto|].
    apply rel_push; auto. change (val (vA A) y ≡ (if cb then v else v0) ⟨w⟩).
    rewrite V1. unfold vA in *. rewrite Ecb. destruct cb; cbn [Z.b2z Z.eqb Pos.eqb];
      [rewrite (mod_rep _ _ Ex)|rewrite (mod_rep _ _ Ex0)]; reflexivity.
  - eapply ST_bind; [eapply (is_int_zero_ST w I IO); eauto|app|app|]. intros z Hz. cbv beta in Hz. apply ST_ret.
    assert (E0 : v mod w = val (vA A) x mod w) by (apply (mod_rep _ _ Ex)).
    eexists. split; [exists v; split; [auto|reflexivity]|]. apply rel_pushb; [split; auto|].
    eapply bit_b2z; [exact Hz|]. rewrite E0, Z.eqb_eq. apply eqm_0_iff.
  - eapply ST_bind; [eapply (is_int_equal_ST w I IO); eauto|app|app|]. intros z Hz. cbv beta in Hz. apply ST_ret.
    eexists. split; [exists v, v0; split; [auto|split; [auto|reflexivity]]|]. apply rel_pushb; [split; auto|].
    eapply bit_b2z; [exact Hz|]. rewrite Z.eqb_eq, <- eqm_0_iff, (mod_rep _ _ Ex), (mod_rep _ _ Ex0).
    apply eqm_sub_0.
  - eapply ST_bind; [eapply (assert_int_equal_ST w I IO); eauto|app|app|]. intros ? H. cbv beta in H. apply ST_ret.
    exists s. split; [exists v, v0|split; auto].
    split; [auto|]. split; [auto|]. split; [|reflexivity].
    change (v ≡ v0 ⟨w⟩). rewrite (mod_rep _ _ Ex), (mod_rep _ _ Ex0). exact H.
Qed.

Lemma run_ops_ST r s prog : Forall (iop_ok w) prog -> rel (vA A) r s ->
  ST T A (run_ops I r prog) (fun r' => exists s', isteps w prog s s' /\ rel (vA A) r' s').
Proof.
  intros HO HR. unfold run_ops.
  apply (ST_foldM T A (run_op I) (fun pre r' => exists s', isteps w pre s s' /\ rel (vA A) r' s')).
  - intros. apply appends_run_op.
  - exists s. split; [constructor|auto].
  - intros pre op r1 Hin (s1 & H1 & H2). eapply ST_weaken; [apply run_op_ST; [|exact H2]|].
    + rewrite Forall_forall in HO. auto.
    + intros r2 (s2 & H3 & H4). exists s2. split; [eapply isteps_snoc; eauto|auto].
Qed.

Lemma run_prog_ST inputs prog : Forall (iop_ok w) prog ->
  ST T A (run_prog I inputs prog) (fun r => Forall (iwf (vA A)) (fst r) /\ length (fst r) = length inputs
    /\ exists s', isteps w prog (map (fun x => val (vA A) x mod w) (fst r), []) s' /\ rel (vA A) (snd r) s').
Proof.
  intros HO. unfold run_prog. eapply ST_bind.
  - apply (ST_mapM T A (assign_w I) inputs (fun _ x => iwf (vA A) x)); [app|].
    intros x _. eapply ST_weaken; [eapply (assign_w_ST w I IO); eauto|]. intros r [H _]. exact H.
  - app.
  - intros. apply appends_bind; [apply appends_run_ops|]. app.
  - intros xs HX. assert (FX : Forall (iwf (vA A)) xs) by (clear -HX; induction HX; constructor; auto).
    eapply ST_bind; [apply (run_ops_ST (xs, []) (map (fun x => val (vA A) x mod w) xs, []) prog HO)| | |].
    + split; [|constructor]. cbn [fst]. clear -FX. induction FX; constructor; auto.
    + apply appends_run_ops.
    + app.
    + intros r H. apply ST_ret. cbn [fst snd]. split; [exact FX|]. split; [|exact H].
      apply Forall2_length in HX. lia.
Qed.
End Sound.

Section Complete.
Hypothesis HD : ri_d_bits I mod 108 <> 0.

Definition relc (c : ctx) (r : iregs) (s : istate) : Prop :=
  Forall2 (fun x v => hint w I c x /\ val a_val x mod w = v) (fst r) (fst s)
  /\ Forall2 (fun b v => valid c b /\ a_val b = Z.b2z v) (snd r) (snd s).
Lemma relc_mono c c' r s : extends c c' -> relc c r s -> relc c' r s.
Proof.
  intros E [H1 H2]. split.
  - eapply Forall2_impl; [|exact H1]. intros x v [K1 K2]. split; [eapply hint_mono; eauto|auto].
  - eapply Forall2_impl; [|exact H2]. intros x v [K1 K2]. split; [eapply valid_mono; eauto|auto].
Qed.
Lemma relc_push c r s x v : relc c r s -> hint w I c x -> val a_val x mod w = v ->
  relc c (push r x) (fst s ++ [v], snd s).
Proof. intros [H1 H2] H3 H4. split; [apply Forall2_snoc; auto|exact H2]. Qed.
Lemma relc_pushb c r s x v : relc c r s -> valid c x -> a_val x = Z.b2z v ->
  relc c (pushb r x) (fst s, snd s ++ [v]).
Proof. intros [H1 H2] H3 H4. split; [exact H1|apply Forall2_snoc; auto]. Qed.

Ltac regc R N := let x := fresh "x" in let Nx := fresh "Nx" in let Hx := fresh "Hx" in let Ex := fresh "Ex" in
  destruct (Forall2_nth_l _ _ _ _ _ R N) as (x & Nx & Hx & Ex); eapply CT_nth_k; [exact Nx|].
Ltac gad L := eapply CT_bind; [eapply L; eauto|].
Ltac fin1 := let y := fresh "y" in let c1 := fresh "c1" in let W1 := fresh "W1" in let E1 := fresh "E1" in
  let H1 := fresh "H1" in let V1 := fresh "V1" in
  intros y c1 W1 E1 [H1 V1]; apply CT_ret; [auto|]; eexists; split;
  [|apply relc_push; [eapply relc_mono; eauto|exact H1|reflexivity]].

Lemma b2z_eq b : b2z b = Z.b2z b. Proof. reflexivity. Qed.

Lemma run_op_CT c r s op : wf c -> iop_ok w op -> relc c r s -> (exists s1, istep w op s s1) ->
  CT c (run_op I r op) (fun r' c' => exists s', istep w op s s' /\ relc c' r' s').
Proof.
  intros W HO HR (s1 & HS). pose proof HR as [R1 R2]. pose proof (w_pos w w_prime) as WP.
  assert (MB : forall z, 0 <= z mod w < w) by (intros; apply Z.mod_pos_bound; lia).
  destruct op; cbn [run_op iop_ok] in *; cbv zeta; cbn [istep] in HS; cbv zeta in HS.
  - gad assign_int_constant_CT. intros y c1 W1 E1 (H1 & T1 & V1). apply CT_ret; [auto|].
    eexists. split; [reflexivity|]. apply relc_push; [eapply relc_mono; eauto|auto|rewrite V1; auto].
  - destruct HS as (a & b & Na & Nb & _). regc R1 Na. regc R1 Nb. gad int_add_CT.
    intros y c1 W1 E1 (H1 & V1). apply CT_ret; [auto|]. eexists. split; [exists a, b; auto|].
    apply relc_push; [eapply relc_mono; eauto|auto|].
    change (val a_val y ≡ a + b ⟨w⟩). rewrite V1, (mod_rep _ _ Ex), (mod_rep _ _ Ex0). reflexivity.
  - destruct HS as (a & b & Na & Nb & _). regc R1 Na. regc R1 Nb. gad int_sub_CT.
    intros y c1 W1 E1 (H1 & V1). apply CT_ret; [auto|]. eexists. split; [exists a, b; auto|].
    apply relc_push; [eapply relc_mono; eauto|auto|].
    change (val a_val y ≡ a - b ⟨w⟩). rewrite V1, (mod_rep _ _ Ex), (mod_rep _ _ Ex0). reflexivity.
  - destruct HS as (a & Na & _). regc R1 Na. gad int_neg_CT.
    intros y c1 W1 E1 (H1 & V1). apply CT_ret; [auto|]. eexists. split; [exists a; auto|].
    apply relc_push; [eapply relc_mono; eauto|auto|].
    change (val a_val y ≡ - a ⟨w⟩). rewrite V1, (mod_rep _ _ Ex). reflexivity.
  - destruct HS as (a & b & Na & Nb & _). regc R1 Na. regc R1 Nb.
    eapply CT_bind; [apply (int_mul_CT w I IO n_prime w_prime HD c x x0 W); [apply Hx|apply Hx0]|].
    intros y c1 W1 E1 (H1 & T1 & V1). apply CT_ret; [auto|]. eexists. split; [exists a, b; auto|].
    apply relc_push; [eapply relc_mono; eauto|auto|].
    change (val a_val y ≡ a * b ⟨w⟩). rewrite V1, mod_eqm, (mod_rep _ _ Ex), (mod_rep _ _ Ex0). reflexivity.
  - destruct HS as (a & Na & _). regc R1 Na. unfold int_square.
    eapply CT_bind; [apply (int_mul_CT w I IO n_prime w_prime HD c x x W); [apply Hx|apply Hx]|].
    intros y c1 W1 E1 (H1 & T1 & V1). apply CT_ret; [auto|]. eexists. split; [exists a; auto|].
    apply relc_push; [eapply relc_mono; eauto|auto|].
    change (val a_val y ≡ a * a ⟨w⟩). rewrite V1, mod_eqm, (mod_rep _ _ Ex). reflexivity.
  - destruct HS as (a & Na & _). regc R1 Na. gad int_mul_small_CT.
    intros y c1 W1 E1 (H1 & V1). apply CT_ret; [auto|]. eexists. split; [exists a; auto|].
    apply relc_push; [eapply relc_mono; eauto|auto|].
    change (val a_val y ≡ a * k ⟨w⟩). rewrite V1, (mod_rep _ _ Ex). reflexivity.
  - destruct HS as (a & Na & _). regc R1 Na. destruct Hx as (Hx & Tx & Cx).
    eapply CT_bind; [apply (reduce_CT w I IO n_prime w_prime c x W Hx Cx)|].
    intros y c1 W1 E1 (H1 & T1 & V1). apply CT_ret; [auto|]. eexists. split; [exists a; auto|].
    apply relc_push; [eapply relc_mono; eauto| |].
    + split; [auto|]. split; [lia|]. intros _. rewrite V1. apply MB.
    + change (val a_val y ≡ a ⟨w⟩). rewrite V1, mod_eqm, (mod_rep _ _ Ex). reflexivity.
  - destruct HS as (a & b & _ & Na & Nb & _). regc R1 Na. regc R1 Nb.
    destruct Hx as (Hx & Tx & Cx). destruct Hx0 as (Hx0 & Tx0 & Cx0).
    eapply CT_bind; [apply (int_div_CT w I IO n_prime w_prime HD c x x0 W Hx Hx0 Cx Cx0)|].
    intros [z q] c1 W1 E1 (Vz & Ez & Hq & Tq & HQ & HQ0). cbn [fst snd] in *. apply CT_ret; [auto|].
    assert (E0 : b mod w = val a_val x0 mod w) by (apply (mod_rep _ _ Ex0)).
    eexists. split.
    + exists a, b, (val a_val q mod w). split; [auto|]. split; [auto|]. split; [apply MB|]. split; [|reflexivity].
      intros NZ0. change (b * (val a_val q mod w) ≡ a ⟨w⟩).
      rewrite (mod_rep _ _ Ex), (mod_rep _ _ Ex0), mod_eqm. apply HQ. rewrite <- E0. exact NZ0.
    + apply (relc_pushb _ (push r q) (fst s ++ [val a_val q mod w], snd s)).
      * apply relc_push; [eapply relc_mono; eauto|auto|reflexivity].
      * auto.
      * rewrite Ez, E0. reflexivity.
  - destruct HS as (a & q0 & Na & _ & Hinv & _). regc R1 Na.
    assert (NZ : val a_val x mod w <> 0).
    { intros K. rewrite Ex in K. subst a. rewrite K, Z.mul_0_l, Zmod_0_l in Hinv. discriminate. }
    eapply CT_bind; [apply (int_unsafe_invert_CT w I IO n_prime w_prime HD c x W Hx NZ)|].
    intros q c1 W1 E1 (Hq & Tq & HQ). apply CT_ret; [auto|]. eexists. split.
    + exists a, (val a_val q mod w). split; [auto|]. split; [apply MB|]. split; [|reflexivity].
      rewrite <- (Z.mod_small 1 w) by lia. change (a * (val a_val q mod w) ≡ 1 ⟨w⟩).
      rewrite (mod_rep _ _ Ex), mod_eqm. exact HQ.
    + apply relc_push; [eapply relc_mono; eauto|auto|reflexivity].
  - destruct HS as (cb & a & d & Ncb & Na & Nd & _).
    destruct (Forall2_nth_l _ _ _ _ _ R2 Ncb) as (kb & Nkb & Vkb & Ekb). eapply CT_nth_k; [exact Nkb|].
    regc R1 Na. regc R1 Nd.
    eapply CT_bind; [apply (bisec_int_CT w I IO n_prime c kb x x0 W Hx Hx0 Vkb); rewrite Ekb; destruct cb; cbn; auto|].
    intros y c1 W1 E1 (H1 & T1 & V1). apply CT_ret; [auto|]. eexists. split; [exists cb, a, d; auto|].
    apply relc_push; [eapply relc_mono; eauto|auto|].
    change (val a_val y ≡ (if cb then a else d) ⟨w⟩). rewrite V1, Ekb.
    destruct cb; cbn [Z.b2z Z.eqb Pos.eqb]; [rewrite (mod_rep _ _ Ex)|rewrite (mod_rep _ _ Ex0)]; reflexivity.
  - destruct HS as (a & Na & _). regc R1 Na. destruct Hx as (Hx & Tx & Cx).
    eapply CT_bind; [apply (is_int_zero_CT w I IO n_prime w_prime c x W Hx Cx)|].
    intros z c1 W1 E1 (Vz & Ez). apply CT_ret; [auto|].
    assert (E0 : a mod w = val a_val x mod w) by (apply (mod_rep _ _ Ex)).
    eexists. split; [exists a; split; [auto|reflexivity]|].
    apply relc_pushb; [eapply relc_mono; eauto|auto|]. rewrite Ez, E0. reflexivity.
  - destruct HS as (a & b & Na & Nb & _). regc R1 Na. regc R1 Nb.
    eapply CT_bind; [apply (is_int_equal_CT w I IO n_prime w_prime c x x0 W Hx Hx0)|].
    intros z c1 W1 E1 (Vz & Ez). apply CT_ret; [auto|].
    eexists. split; [exists a, b; split; [auto|split; [auto|reflexivity]]|].
    apply relc_pushb; [eapply relc_mono; eauto|auto|]. rewrite Ez.
    assert (EE : (a - b) mod w = (val a_val x - val a_val x0) mod w).
    { change (a - b ≡ val a_val x - val a_val x0 ⟨w⟩). rewrite (mod_rep _ _ Ex), (mod_rep _ _ Ex0). reflexivity. }
    rewrite EE. reflexivity.
  - destruct HS as (a & b & Na & Nb & EQ & _). regc R1 Na. regc R1 Nb.
    eapply CT_bind; [apply (assert_int_equal_CT w I IO n_prime w_prime c x x0 W Hx Hx0)|].
    { change (a ≡ b ⟨w⟩) in EQ. rewrite (mod_rep _ _ Ex), (mod_rep _ _ Ex0) in EQ. exact EQ. }
    intros ? c1 W1 E1 _. apply CT_ret; [auto|]. exists s. split; [exists a, b; auto|]. eapply relc_mono; eauto.
Qed.

Lemma run_ops_CT prog : forall c r s, wf c -> Forall (iop_ok w) prog -> relc c r s -> ican w prog s ->
  CT c (run_ops I r prog) (fun r' c' => exists s', isteps w prog s s' /\ relc c' r' s').
Proof.
  induction prog as [|op l IH]; intros c r s W HO HR HC; unfold run_ops; cbn [foldM].
  - apply CT_ret; [auto|]. exists s. split; [constructor|auto].
  - inversion HO as [|? ? H1 H2]; subst. destruct HC as [C1 C2].
    eapply CT_bind; [apply run_op_CT; eauto|]. intros r1 c1 W1 E1 (s1 & S1 & R1).
    eapply CT_weaken; [apply (IH c1 r1 s1); auto|]. intros r2 c2 _ _ (s2 & S2 & R2).
    exists s2. split; [econstructor; eauto|auto].
Qed.

Lemma run_prog_CT c inputs prog : wf c -> Forall (fun x => 0 <= x < w) inputs -> Forall (iop_ok w) prog ->
  ican w prog (inputs, []) ->
  CT c (run_prog I inputs prog) (fun r c' => exists s', isteps w prog (inputs, []) s' /\ relc c' (snd r) s').
Proof.
  intros W HI HO HC. unfold run_prog. pose proof (w_lt w I IO w_prime) as WL.
  eapply CT_bind.
  - apply (CT_mapM c (assign_w I) inputs (fun v x c' => hint w I c' x /\ val a_val x mod w = v)); [auto| |].
    + intros v x c1 c2 [H1 H2] E. split; [eapply hint_mono; eauto|auto].
    + intros v c' Hv W' E'. rewrite Forall_forall in HI. specialize (HI v Hv).
      eapply CT_weaken; [apply (assign_w_CT w I IO n_prime c' v W'); lia|]. intros x c2 _ _ (H1 & H2 & H3).
      rewrite H3. split; [|apply Z.mod_small; lia]. split; [auto|]. split; [lia|]. intros _. lia.
  - intros xs c1 W1 E1 HX. cbv beta in HX.
    eapply CT_bind; [apply (run_ops_CT prog c1 (xs, []) (inputs, [])); auto|].
    + split; [|constructor]. cbn [fst]. clear -HX. induction HX; constructor; auto.
    + intros r c2 W2 E2 (s' & H1 & H2). apply CT_ret; [auto|]. eauto.
Qed.
End Complete.
End Prog.
