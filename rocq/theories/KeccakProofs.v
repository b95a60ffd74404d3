(** The keccak gadget: append-only behaviour and the value of its results, once for all satisfying assignments and for the recorded witness. *)
From Verif Require Import Prelude FieldZ Circuit Context Spec Logic ModArith Prims BaseChip BaseProofs
  ScalarChip KeccakChip SpecKeccak KeccakPure.
From Coq Require Import Bool.

Section App.
Context {NM : NMod}.
Lemma appends_xor_lanes a b : appends (xor_lanes a b).
Proof. unfold xor_lanes. app. Qed.
Lemma appends_k_init : appends k_init.
Proof. unfold k_init. app. Qed.
Hint Resolve appends_xor_lanes appends_k_init : app.
Lemma appends_theta st : appends (theta st).
Proof. unfold theta. app. Qed.
Lemma appends_xi st : appends (xi st).
Proof. unfold xi. app. Qed.
Lemma appends_iota st r : appends (iota st r).
Proof. unfold iota. app. Qed.
Hint Resolve appends_theta appends_xi appends_iota : app.
Lemma appends_permute st : appends (permute st).
Proof. unfold permute. app. Qed.
Hint Resolve appends_permute : app.
Lemma appends_absorb st i : appends (absorb st i).
Proof. unfold absorb. app. Qed.
Lemma appends_u256_step e st i : appends (u256_step e st i).
Proof. unfold u256_step. app. Qed.
Hint Resolve appends_absorb appends_u256_step : app.
Lemma appends_decompose_u256 e s : appends (decompose_u256_with e s).
Proof. unfold decompose_u256_with. app. Qed.
Lemma appends_compose_loop s acc : appends (compose_loop acc s).
Proof.
  revert acc. assert (G : forall n (s : list acond), (length s <= n)%nat -> forall acc, appends (compose_loop acc s)).
  { induction n as [|n IH]; intros l Hl acc.
    - destruct l; [cbn; app|cbn in Hl; lia].
    - destruct l as [|b1 [|b0 l]]; cbn [compose_loop]; [app|app|]. apply appends_bind; [app|]. intros. apply IH. cbn in Hl. lia. }
  intros acc. apply (G (length s)). auto.
Qed.
Hint Resolve appends_decompose_u256 appends_compose_loop : app.
Lemma appends_compose s : appends (compose_to_scalar_be s).
Proof. unfold compose_to_scalar_be. app. Qed.
Hint Resolve appends_compose : app.
Lemma appends_hash_with i : appends (hash_with i).
Proof. unfold hash_with. app. Qed.
Lemma appends_hash i : appends (hash i).
Proof. apply appends_hash_with. Qed.
End App.
Global Hint Resolve appends_xor_lanes appends_k_init appends_theta appends_xi appends_iota appends_permute appends_absorb
  appends_u256_step appends_decompose_u256 appends_compose_loop appends_compose appends_hash_with appends_hash : app.

(** ** Runs whose final context satisfies P *)
Section GT.
Variable P : ctx -> Prop.
Hypothesis P_mono : forall c c', extends c c' -> P c' -> P c.
Definition GT {X} (m : M X) (Q : X -> Prop) : Prop := forall c x c', wf c -> m c = Ok (x, c') -> P c' -> Q x.
Lemma GT_ret {X} (x : X) (Q : X -> Prop) : Q x -> GT (mret x) Q.
Proof. intros HQ c y c' _ H _. injection H as <- _. exact HQ. Qed.
Lemma GT_bind {X Y} (m : M X) (k : X -> M Y) (Q : X -> Prop) (R : Y -> Prop) :
  GT m Q -> appends m -> (forall x, appends (k x)) -> (forall x, Q x -> GT (k x) R) -> GT (mbind m k) R.
Proof.
  intros Hm Am Ak Hk c y c'' W H S. apply mbind_inv in H as (x & c' & H1 & H2).
  destruct (Am _ _ _ W H1) as [W1 E1]. destruct (Ak _ _ _ _ W1 H2) as [W2 E2].
  eapply Hk; [|exact W1|exact H2|exact S]. eapply Hm; [exact W|exact H1|]. eapply P_mono; eauto.
Qed.
Lemma GT_weaken {X} (m : M X) (Q R : X -> Prop) : GT m Q -> (forall x, Q x -> R x) -> GT m R.
Proof. intros H I c x c' W E S. apply I. eapply H; eauto. Qed.
Lemma GT_assert_k {Y} b (k : unit -> M Y) R : (b = true -> GT (k tt) R) -> GT (mbind (massert b) k) R.
Proof.
  intros H c y c'' W E S. apply mbind_inv in E as ([] & c' & H1 & H2).
  apply massert_inv in H1 as [Hb ->]. eapply H; eauto.
Qed.
Lemma GT_mapM {X Y} (f : X -> M Y) l (Q : X -> Y -> Prop) :
  (forall x, appends (f x)) -> (forall x, In x l -> GT (f x) (Q x)) -> GT (mapM f l) (fun ys => Forall2 Q l ys).
Proof.
  intros Af; induction l as [|x l IH]; intros Hf; simpl; [apply GT_ret; constructor|].
  eapply GT_bind; [apply Hf; left; auto|auto| |].
  - intros; apply appends_bind; [apply appends_mapM; auto|intros; apply appends_ret].
  - intros y Hy. eapply GT_bind; [apply IH; intros; apply Hf; right; auto|apply appends_mapM; auto|intros; apply appends_ret|].
    intros ys Hys. apply GT_ret. constructor; auto.
Qed.
(** Fold over positions. *)
Lemma GT_foldM {X S} (f : S -> X -> M S) (I : nat -> S -> Prop) l s :
  (forall s x, appends (f s x)) -> I 0%nat s ->
  (forall k x s, nth_error l k = Some x -> I k s -> GT (f s x) (I (k + 1)%nat)) ->
  GT (foldM f s l) (I (length l)).
Proof.
  intros Af H0 Hf.
  assert (G : forall l' k s, (forall i, nth_error l' i = nth_error l (k + i)) -> (k + length l' = length l)%nat -> I k s ->
     GT (foldM f s l') (I (length l))).
  { induction l' as [|x l' IH]; intros k s' Hn HL Hs; cbn [foldM].
    - apply GT_ret. cbn in HL. rewrite <- HL, Nat.add_0_r. exact Hs.
    - eapply GT_bind; [apply (Hf k); [|exact Hs]|auto|intros; apply appends_foldM; auto|].
      + rewrite <- (Nat.add_0_r k), <- Hn. reflexivity.
      + intros s2 Hs2. apply (IH (k + 1)%nat); [|cbn in HL; lia|exact Hs2].
        intros i. rewrite <- Nat.add_assoc. apply (Hn (1 + i)%nat). }
  apply (G l 0%nat); auto.
Qed.
End GT.

Definition av0 : av := mkAv (bcell 0 0) 0.

Lemma skipn_skipn {X} a b (l : list X) : skipn a (skipn b l) = skipn (a + b) l.
Proof. revert l; induction b as [|b IH]; intros l; [rewrite Nat.add_0_r; reflexivity|]. rewrite Nat.add_succ_r. destruct l as [|x l]; [rewrite !skipn_nil; reflexivity|]. cbn [skipn]. apply IH. Qed.

Section Gen.
Context {NM : NMod}.
Variable P : ctx -> Prop.
Hypothesis P_mono : forall c c', extends c c' -> P c' -> P c.
Variable v : av -> Z.
Local Notation GT := (GT P).

Definition isb (a : av) (b : bool) : Prop := v a = Z.b2z b.
Hypothesis G_xor : forall a b, GT (xor_ a b) (fun r => forall p q, isb a p -> isb b q -> isb r (xorb p q)).
Hypothesis G_not_and : forall a b, GT (not_and a b) (fun r => forall p q, isb a p -> isb b q -> isb r (negb p && q)).
Hypothesis G_not : forall a, GT (not_ a) (fun r => forall p, isb a p -> isb r (negb p)).
Hypothesis G_const : forall b, GT (assign_constant (Z.b2z b)) (fun r => isb r b).

Ltac gb L := eapply (GT_bind P P_mono); [apply L|solve [app]|solve [app]|].
Tactic Notation "gbu" uconstr(L) := eapply (GT_bind P P_mono); [refine L; try lia|solve [app]|solve [app]|].
Ltac gmap Q := apply (GT_mapM P P_mono _ _ Q); [solve [app]|].

Definition lrep (l : list av) (f : nat -> bool) : Prop :=
  length l = 64%nat /\ forall z, (z < 64)%nat -> isb (nth z l av0) (f z).
Definition srep (st : kstate) (F : kfun) : Prop :=
  length st = 5%nat /\ (forall x, (x < 5)%nat -> length (nth x st []) = 5%nat)
  /\ forall x y, (x < 5)%nat -> (y < 5)%nat -> lrep (lane st x y) (F x y).

Lemma lrep_ext l f g : (forall z, (z < 64)%nat -> f z = g z) -> lrep l f -> lrep l g.
Proof. intros E [L H]. split; [auto|]. intros z Hz. rewrite <- E; auto. Qed.
Lemma srep_ext st F G : (forall x y z, (x < 5)%nat -> (y < 5)%nat -> (z < 64)%nat -> F x y z = G x y z) -> srep st F -> srep st G.
Proof. intros E (L1 & L2 & H). split; [auto|]. split; [auto|]. intros x y Hx Hy. eapply lrep_ext; [|apply H; auto]. auto. Qed.

Lemma xor_lanes_G a b f g : lrep a f -> lrep b g -> GT (xor_lanes a b) (fun r => lrep r (fun z => xorb (f z) (g z))).
Proof.
  intros [La Ha] [Lb Hb]. unfold xor_lanes, acond in *. eapply GT_weaken.
  - gmap (fun (p : av * av) r => forall i j, isb (fst p) i -> isb (snd p) j -> isb r (xorb i j)). intros p _. apply G_xor.
  - intros r Hr. pose proof (F2_length _ _ _ Hr) as L. rewrite combine_length, La, Lb in L. split; [symmetry; exact L|].
    intros z Hz. pose proof (Forall2_nth_d _ _ _ (av0, av0) av0 z Hr) as K. rewrite combine_length, La, Lb in K.
    specialize (K Hz). rewrite nth_combine in K by congruence. cbn [fst snd] in K. apply K; auto.
Qed.
Lemma lrep_rotate l f k : (k < 64)%nat -> lrep l f -> lrep (rotate_left k l) (fun z => f ((z + k) mod 64)%nat).
Proof.
  intros Hk [L H]. split; [rewrite rotate_left_length; exact L|]. intros z Hz. rewrite nth_rotate_left by lia. rewrite L. apply H, mod64.
Qed.
Lemma lrep_rev_bytes l f : lrep l f -> lrep (rev_bytes l) (fun z => f (rho8 z)).
Proof.
  intros [L H]. split; [apply rev_bytes_length; exact L|]. intros z Hz. rewrite nth_rev_bytes by auto. apply H.
  apply Nat.ltb_lt. revert z Hz. apply below. vm_compute. reflexivity.
Qed.

(** A state built by two nested maps over 0..5. *)
Lemma srep_intro st F : length st = 5%nat ->
  (forall x, (x < 5)%nat -> length (nth x st []) = 5%nat /\ forall y, (y < 5)%nat -> lrep (nth y (nth x st []) []) (F x y)) -> srep st F.
Proof. intros L H. split; [auto|]. split; [intros; apply H; auto|]. intros x y Hx Hy. apply H; auto. Qed.
Lemma F2_seq5 {Y} (Q : nat -> Y -> Prop) l d : Forall2 Q (seq 0 5) l -> length l = 5%nat /\ forall x, (x < 5)%nat -> Q x (nth x l d).
Proof.
  intros H. pose proof (F2_length _ _ _ H) as L. split; [symmetry; exact L|]. intros x Hx.
  pose proof (Forall2_nth_d _ _ _ 0%nat d x H Hx) as K. rewrite seq_nth in K by auto. exact K.
Qed.

Lemma theta_G st F : srep st F -> GT (theta st) (fun st' => srep st' (thF F)).
Proof.
  intros (L1 & L2 & H). unfold theta.
  eapply (GT_bind P P_mono).
  { gmap (fun (x : nat) r => (x < 5)%nat -> lrep r (Cf F x)). intros x Hx. apply in_seq in Hx.
    assert (X5 : (x < 5)%nat) by lia. cbn [foldM].
    gbu (xor_lanes_G _ _ _ _ (H x 0%nat X5 _) (H x 1%nat X5 _)). intros c1 H1.
    gbu (xor_lanes_G _ _ _ _ H1 (H x 2%nat X5 _)). intros c2 H2.
    gbu (xor_lanes_G _ _ _ _ H2 (H x 3%nat X5 _)). intros c3 H3.
    gbu (xor_lanes_G _ _ _ _ H3 (H x 4%nat X5 _)). intros c4 H4. apply GT_ret. intros _. exact H4. }
  { app. } { app. }
  intros c Hc. apply F2_seq5 with (d := []) in Hc as [Lc Hc].
  eapply GT_weaken.
  - gmap (fun (x : nat) r => (x < 5)%nat -> length r = 5%nat /\ forall y, (y < 5)%nat -> lrep (nth y r []) (thF F x y)).
    intros x Hx. apply in_seq in Hx. assert (X5 : (x < 5)%nat) by lia.
    eapply (GT_bind P P_mono).
    { apply xor_lanes_G; [apply Hc; apply mod5|apply lrep_rotate; [lia|apply Hc; apply mod5]]; apply mod5. }
    { app. } { app. }
    intros di Hdi. eapply GT_weaken.
    + gmap (fun (y : nat) r => (y < 5)%nat -> lrep r (thF F x y)).
      intros y Hy. apply in_seq in Hy. assert (Y5 : (y < 5)%nat) by lia.
      eapply GT_weaken; [apply xor_lanes_G; [apply H; auto|exact Hdi]|]. intros r Hr _. exact Hr.
    + intros r Hr _. apply F2_seq5 with (d := []) in Hr as [Lr Hr]. split; [exact Lr|]. intros y Hy. apply Hr; auto.
  - intros r Hr. apply F2_seq5 with (d := []) in Hr as [Lr Hr]. apply srep_intro; [exact Lr|]. intros x Hx. apply Hr; auto.
Qed.

Lemma xi_G st F : srep st F -> GT (xi st) (fun st' => srep st' (xiF F)).
Proof.
  intros (L1 & L2 & H). unfold xi. eapply GT_weaken.
  - gmap (fun (x : nat) r => (x < 5)%nat -> length r = 5%nat /\ forall y, (y < 5)%nat -> lrep (nth y r []) (xiF F x y)).
    intros x Hx. apply in_seq in Hx. assert (X5 : (x < 5)%nat) by lia. eapply GT_weaken.
    + gmap (fun (y : nat) r => (y < 5)%nat -> lrep r (xiF F x y)).
      intros y Hy. apply in_seq in Hy. assert (Y5 : (y < 5)%nat) by lia.
      destruct (H x y X5 Y5) as [A0 B0], (H ((x + 1) mod 5)%nat y (mod5 _) Y5) as [A1 B1], (H ((x + 2) mod 5)%nat y (mod5 _) Y5) as [A2 B2].
      unfold acond in *. eapply GT_weaken.
      * gmap (fun (p : av * (av * av)) r => forall i j k, isb (fst p) i -> isb (fst (snd p)) j -> isb (snd (snd p)) k -> isb r (xorb i (negb j && k))).
        intros p _. gb G_not_and. intros t Ht. eapply GT_weaken; [apply G_xor|]. intros r Hr i j k Hi Hj Hk. apply Hr; auto.
      * intros r Hr _. pose proof (F2_length _ _ _ Hr) as L. rewrite !combine_length, A0, A1, A2 in L. split; [symmetry; exact L|].
        intros z Hz. pose proof (Forall2_nth_d _ _ _ (av0, (av0, av0)) av0 z Hr) as K. rewrite !combine_length, A0, A1, A2 in K.
        specialize (K Hz). rewrite nth_combine in K by (rewrite combine_length; lia). rewrite nth_combine in K by lia. cbn [fst snd] in K. apply K; auto.
    + intros r Hr _. apply F2_seq5 with (d := []) in Hr as [Lr Hr]. split; [exact Lr|]. intros y Hy. apply Hr; auto.
  - intros r Hr. apply F2_seq5 with (d := []) in Hr as [Lr Hr]. apply srep_intro; [exact Lr|]. intros x Hx. apply Hr; auto.
Qed.

Lemma srep_set st F x y l f : (x < 5)%nat -> (y < 5)%nat -> srep st F -> lrep l f ->
  srep (set_lane x y l st) (fun x' y' => if (x' =? x)%nat && (y' =? y)%nat then f else F x' y').
Proof.
  intros Hx Hy (L1 & L2 & H) Hl. unfold kstate, acond in *. unfold set_lane. apply srep_intro; [rewrite set_nth_length; exact L1|].
  intros x' Hx'. rewrite nth_set_nth by lia. destruct (Nat.eqb_spec x' x) as [->|N].
  - rewrite set_nth_length. split; [auto|]. intros y' Hy'. rewrite nth_set_nth by (rewrite L2; auto).
    destruct (Nat.eqb_spec y' y) as [->|N']; cbn [andb]; [exact Hl|apply H; auto].
  - split; [auto|]. intros y' Hy'. cbn [andb]. apply H; auto.
Qed.

Lemma iota_G st F r : srep st F -> GT (iota st r) (fun st' => srep st' (ioF r F)).
Proof.
  intros S. pose proof S as (L1 & L2 & H). unfold iota. destruct (H 0%nat 0%nat ltac:(lia) ltac:(lia)) as [A0 B0]. unfold acond in *.
  eapply (GT_bind P P_mono).
  { gmap (fun (p : nat * av) r0 => forall i, isb (snd p) i -> isb r0 (xorb i (Z.testbit (nth r ROUND_CONSTANTS 0) (63 - Z.of_nat (fst p))))).
    intros p _. destruct (Z.testbit _ _).
    - eapply GT_weaken; [apply G_not|]. intros r0 Hr i Hi. rewrite xorb_true_r. auto.
    - apply GT_ret. intros i Hi. rewrite xorb_false_r. exact Hi. }
  { app. } { app. }
  intros l Hl. apply GT_ret. eapply srep_ext; [|apply (srep_set st F 0 0 l); [lia|lia|exact S|]].
  2:{ pose proof (F2_length _ _ _ Hl) as L. rewrite combine_length, seq_length, A0 in L. split; [symmetry; exact L|].
      intros z Hz. pose proof (Forall2_nth_d _ _ _ (0%nat, av0) av0 z Hl) as K. rewrite combine_length, seq_length, A0 in K.
      specialize (K Hz). rewrite nth_combine in K by (rewrite seq_length; auto). cbn [fst snd] in K. rewrite seq_nth in K by auto.
      rewrite Nat.add_0_l in K. apply K. apply B0. exact Hz. }
  intros x y z Hx Hy Hz. unfold ioF. destruct (Nat.eqb_spec x 0) as [->|]; [|reflexivity]. destruct (Nat.eqb_spec y 0) as [->|]; reflexivity.
Qed.

Lemma list5 {X} (l : list X) : length l = 5%nat -> exists a b c d e, l = [a; b; c; d; e].
Proof. intros H. destruct l as [|a [|b [|c [|d [|e [|]]]]]]; try discriminate. eauto 10. Qed.
Lemma lrep_rot0 l f : lrep l f -> lrep l (fun z => f ((z + 0) mod 64)%nat).
Proof. apply lrep_ext. intros z Hz. rewrite Nat.add_0_r, Nat.mod_small; auto. Qed.

Lemma rho_pi_srep st F : srep st F -> srep (rho_and_pi st) (rpF F).
Proof.
  intros (L1 & L2 & H). destruct (list5 st L1) as (r0 & r1 & r2 & r3 & r4 & ->).
  destruct (list5 r0 (L2 0%nat ltac:(lia))) as (a00 & a01 & a02 & a03 & a04 & ->).
  destruct (list5 r1 (L2 1%nat ltac:(lia))) as (a10 & a11 & a12 & a13 & a14 & ->).
  destruct (list5 r2 (L2 2%nat ltac:(lia))) as (a20 & a21 & a22 & a23 & a24 & ->).
  destruct (list5 r3 (L2 3%nat ltac:(lia))) as (a30 & a31 & a32 & a33 & a34 & ->).
  destruct (list5 r4 (L2 4%nat ltac:(lia))) as (a40 & a41 & a42 & a43 & a44 & ->).
  unfold rho_and_pi.
  match goal with |- srep (fst ?t) _ => let t' := eval cbv -[rotate_left] in t in change t with t' end. cbn [fst].
  apply srep_intro; [reflexivity|]. intros x Hx. split; [do 5 (destruct x as [|x]; [reflexivity|]); lia|]. intros y Hy. unfold rpF. cbv zeta.
  do 5 (destruct x as [|x]; [do 5 (destruct y as [|y];
    [match goal with |- lrep ?l ?f => let l' := eval cbn [nth] in l in change l with l' end;
     match goal with |- context [rho_offset ?a ?b] => let a' := eval vm_compute in a in let o := eval vm_compute in (rho_offset a b) in
        change (rho_offset a b) with o; change a with a' end;
     first [apply lrep_rotate; [lia|]; match goal with |- lrep _ (F ?a ?b) => exact (H a b ltac:(lia) ltac:(lia)) end
           |apply lrep_rot0; match goal with |- lrep _ (F ?a ?b) => exact (H a b ltac:(lia) ltac:(lia)) end]
    |]); lia|]); lia.
Qed.

Lemma permute_G st F : srep st F -> GT (permute st) (fun st' => srep st' (fold_left rdF (seq 0 24) F)).
Proof.
  intros S. unfold permute.
  eapply GT_weaken; [apply (GT_foldM P P_mono _ (fun k s => srep s (fold_left rdF (seq 0 k) F)))|].
  - app.
  - exact S.
  - intros k r s Hk Hs. assert (r = k /\ (k < 24)%nat) as [-> HK].
    { assert (k < 24)%nat by (change 24%nat with (length (seq 0 24)); apply nth_error_Some; congruence).
      apply (nth_error_nth _ _ 0%nat) in Hk. rewrite seq_nth in Hk by auto. auto. }
    rewrite seq_app, fold_left_app. cbn [fold_left seq Nat.add].
    gb theta_G; [exact Hs|]. intros s1 H1. gb xi_G; [apply rho_pi_srep; exact H1|]. intros s2 H2. apply iota_G. exact H2.
  - intros s Hs. rewrite seq_length in Hs. exact Hs.
Qed.

(** A list of bits with the bytes most significant bit first, against a message. *)
Definition sw (t : nat) : nat := (t / 8 * 8 + (7 - t mod 8))%nat.
Definition irep (l : list av) (m : list bool) : Prop :=
  length l = length m /\ (length l mod 8 = 0)%nat /\ forall t, (t < length l)%nat -> isb (nth t l av0) (nth (sw t) m false).

Lemma sw_add k t : sw (8 * k + t) = (8 * k + sw t)%nat.
Proof.
  unfold sw. replace (8 * k + t)%nat with (t + k * 8)%nat by lia. rewrite Nat.div_add, Nat.mod_add by discriminate. lia.
Qed.
Lemma div8 n : (n mod 8 = 0)%nat -> n = (8 * (n / 8))%nat.
Proof. intros H. pose proof (Nat.div_mod n 8 ltac:(discriminate)). lia. Qed.
Lemma sw_lt t n : (n mod 8 = 0)%nat -> (t < n)%nat -> (sw t < n)%nat.
Proof.
  intros H Ht. rewrite (div8 _ H) in *. unfold sw. pose proof (Nat.div_mod t 8 ltac:(discriminate)) as E.
  pose proof (Nat.mod_upper_bound t 8 ltac:(discriminate)). set (q := (n / 8)%nat) in *. clearbody q. lia.
Qed.
Lemma irep_app l m l' m' : irep l m -> irep l' m' -> irep (l ++ l') (m ++ m').
Proof.
  intros (L1 & D1 & H1) (L2 & D2 & H2). split; [rewrite !app_length; lia|]. pose proof (div8 _ D1) as E1. pose proof (div8 _ D2) as E2.
  split.
  { rewrite app_length, E1, E2, <- Nat.mul_add_distr_l, Nat.mul_comm. apply Nat.mod_mul. discriminate. }
  intros t Ht. rewrite app_length in Ht. destruct (Nat.lt_ge_cases t (length l)) as [C|C].
  - rewrite app_nth1 by auto. pose proof (sw_lt t _ D1 C). rewrite app_nth1 by lia. apply H1; auto.
  - rewrite app_nth2 by auto. replace t with (8 * (length l / 8) + (t - length l))%nat at 2 by lia. rewrite sw_add.
    rewrite app_nth2 by lia. replace (8 * (length l / 8) + sw (t - length l) - length m)%nat with (sw (t - length l)) by lia. apply H2. lia.
Qed.
Lemma irep_nil : irep [] [].
Proof. split; [reflexivity|]. split; [reflexivity|]. cbn. lia. Qed.
Lemma irep_concat ls ms : Forall2 irep ls ms -> irep (concat ls) (concat ms).
Proof. induction 1; [apply irep_nil|]. cbn [concat]. apply irep_app; auto. Qed.
Lemma irep_skipn l m k : (k mod 8 = 0)%nat -> irep l m -> irep (skipn k l) (skipn k m).
Proof.
  intros K (L & D & H). pose proof (div8 _ K) as EK. pose proof (div8 _ D) as ED. split; [rewrite !skipn_length; lia|]. split.
  { rewrite skipn_length. rewrite ED, EK, <- Nat.mul_sub_distr_l, Nat.mul_comm. apply Nat.mod_mul. discriminate. }
  intros t Ht. rewrite skipn_length in Ht. rewrite !nth_skipn. rewrite EK at 2. rewrite <- sw_add. rewrite <- EK. apply H. lia.
Qed.
Lemma irep_firstn l m k : (k mod 8 = 0)%nat -> (k <= length l)%nat -> irep l m -> irep (firstn k l) (firstn k m).
Proof.
  intros K KL (L & D & H). split; [rewrite !firstn_length; lia|]. rewrite firstn_length. replace (Nat.min k (length l)) with k by lia. split; [exact K|].
  intros t Ht. rewrite !nth_firstn. pose proof (sw_lt _ _ K Ht) as B.
  replace (t <? k)%nat with true by (symmetry; apply Nat.ltb_lt; auto). replace (sw t <? k)%nat with true by (symmetry; apply Nat.ltb_lt; auto).
  apply H. lia.
Qed.

Definition abF (m : list bool) (F : kfun) (k : nat) : kfun := fun x y z =>
  if (5 * y + x <? k)%nat then xorb (nth (64 * (5 * y + x) + (63 - z)) m false) (F x y z) else F x y z.

Lemma sw_rho8 i z : (z < 64)%nat -> sw (64 * i + rho8 z) = (64 * i + (63 - z))%nat.
Proof.
  intros Hz. replace (64 * i)%nat with (8 * (8 * i))%nat by lia. rewrite sw_add. f_equal. apply Nat.eqb_eq. revert z Hz. apply below. vm_compute. reflexivity.
Qed.
Lemma rho8_lt z : (z < 64)%nat -> (rho8 z < 64)%nat.
Proof. intros Hz. apply Nat.ltb_lt. revert z Hz. apply below. vm_compute. reflexivity. Qed.
Lemma rho8_rho8 z : (z < 64)%nat -> rho8 (rho8 z) = z.
Proof. intros Hz. apply Nat.eqb_eq. revert z Hz. apply below. vm_compute. reflexivity. Qed.

Lemma absorb_G st F input m S : irep input m -> srep st F -> agree F S ->
  GT (absorb st input) (fun st' => exists F', srep st' F' /\ agree F' (absorb_block S m)).
Proof.
  intros (LI & DI & HI) HS HA. unfold absorb. apply GT_assert_k. intros E. apply Nat.eqb_eq in E. unfold ABSORB_BITS_RATE in E.
  eapply (GT_bind P P_mono).
  { apply (GT_foldM P P_mono _ (fun k s => srep s (abF m F k))).
    - app.
    - exact HS.
    - intros k i s Hk Hs. assert (i = k /\ (k < 17)%nat) as [-> HK].
      { assert (k < 17)%nat by (change 17%nat with (length (seq 0 17)); apply nth_error_Some; congruence).
        apply (nth_error_nth _ _ 0%nat) in Hk. rewrite seq_nth in Hk by auto. auto. }
      assert (Y5 : (k / 5 < 5)%nat) by (apply Nat.div_lt_upper_bound; lia).
      pose proof (mod5 k) as X5. pose proof (Nat.div_mod k 5 ltac:(discriminate)) as DM.
      set (f := fun z => nth (sw (64 * k + z)) m false).
      assert (LR : lrep (firstn 64 (skipn (64 * k) input)) f).
      { split; [unfold acond in *; rewrite firstn_length, skipn_length; lia|]. intros z Hz. unfold acond in *. rewrite nth_firstn, nth_skipn.
        replace (z <? 64)%nat with true by (symmetry; apply Nat.ltb_lt; auto). apply HI. lia. }
      eapply (GT_bind P P_mono); [apply xor_lanes_G; [exact LR|apply lrep_rev_bytes; apply Hs; auto]|app|app|].
      intros l Hl. apply GT_ret.
      eapply srep_ext; [|apply srep_set; [exact X5|exact Y5|exact Hs|apply lrep_rev_bytes; exact Hl]].
      intros x y z Hx Hy Hz. cbv beta. unfold abF, f.
      destruct (Nat.eqb_spec x (k mod 5)) as [->|NX]; [destruct (Nat.eqb_spec y (k / 5)) as [->|NY]|]; cbn [andb].
      + rewrite <- DM. rewrite (proj2 (Nat.ltb_ge k k)) by lia. rewrite (proj2 (Nat.ltb_lt k (k + 1))) by lia.
        rewrite sw_rho8, rho8_rho8 by auto. reflexivity.
      + assert (5 * y + k mod 5 <> k)%nat by lia.
        destruct (Nat.ltb_spec (5 * y + k mod 5) k), (Nat.ltb_spec (5 * y + k mod 5) (k + 1)); try lia; reflexivity.
      + assert (5 * y + x <> k)%nat by (intros E1; apply NX; rewrite <- E1, Nat.mul_comm, Nat.add_comm, Nat.mod_add, Nat.mod_small; lia).
        destruct (Nat.ltb_spec (5 * y + x) k), (Nat.ltb_spec (5 * y + x) (k + 1)); try lia; reflexivity. }
  { app. } { app. }
  intros st' HS'. rewrite seq_length in HS'. eapply GT_weaken; [apply permute_G; exact HS'|].
  intros st2 H2. eexists. split; [exact H2|]. unfold absorb_block. apply agree_f.
  intros x y z Hx Hy Hz. rewrite get_build by lia. unfold abF. rewrite <- HA by auto.
  destruct (Nat.ltb_spec (5 * y + x) 17); [apply xorb_comm|].
  unfold acond in *. rewrite nth_overflow by lia. rewrite xorb_false_r. reflexivity.
Qed.

Lemma absorb_all_G n : forall st F input m S, length input = (n * ABSORB_BITS_RATE)%nat -> irep input m -> srep st F -> agree F S ->
  GT (foldM absorb st (chunks ABSORB_BITS_RATE input)) (fun st' => exists F', srep st' F' /\ agree F' (absorb_blocks n S m)).
Proof.
  induction n as [|n IH]; intros st F input m S HL HI HS HA.
  - destruct input; [|discriminate]. cbn. apply GT_ret. eauto.
  - assert (HN : input <> []) by (intros ->; unfold ABSORB_BITS_RATE in HL; cbn [length] in HL; lia).
    rewrite chunks_step by (auto; unfold ABSORB_BITS_RATE; lia). cbn [foldM absorb_blocks].
    eapply (GT_bind P P_mono); [|app|app|].
    { eapply absorb_G; [|exact HS|exact HA]. apply irep_firstn; [reflexivity|rewrite HL; lia|exact HI]. }
    intros st' (F' & HS' & HA'). change 1088%nat with ABSORB_BITS_RATE. eapply IH; [|apply irep_skipn; [reflexivity|exact HI]|exact HS'|exact HA'].
    rewrite skipn_length, HL. lia.
Qed.

(** ** Composition and decomposition *)
Hypothesis G_sum : forall a b c ka kb kc, GT (sum_with_constant [(a, ka); (b, kb); (c, kc)] None)
  (fun r => v r ≡ v a * ka + v b * kb + v c * kc ⟨nmod⟩).

Fixpoint bytesn (k : nat) (m : list bool) : list Z :=
  match k with O => [] | S k => bits_byte (firstn 8 m) :: bytesn k (skipn 8 m) end.
Lemma bytesn_spec d k : map (fun i => bits_byte (firstn 8 (skipn (8 * i) d))) (seq 0 k) = bytesn k d.
Proof.
  assert (G : forall k s, map (fun i => bits_byte (firstn 8 (skipn (8 * i) d))) (seq s k) = bytesn k (skipn (8 * s) d)).
  { induction k0 as [|k0 IH]; intros s; [reflexivity|]. cbn [seq map bytesn]. f_equal. rewrite IH. f_equal.
    rewrite skipn_skipn. f_equal. lia. }
  apply (G k 0%nat).
Qed.

Lemma compose_G k : forall l m acc z, irep l m -> length l = (8 * k)%nat -> v acc ≡ z ⟨nmod⟩ ->
  GT (compose_loop acc l) (fun r => v r ≡ fold_left (fun acc b => 256 * acc + b) (bytesn k m) z ⟨nmod⟩).
Proof.
  induction k as [|k IH]; intros l m acc z HI HL HZ.
  - destruct l; [|discriminate]. apply GT_ret. exact HZ.
  - pose proof HI as (L & D & H). do 8 (destruct l as [|? l]; [cbn in HL; lia|]). do 8 (destruct m as [|? m]; [cbn in L; lia|]).
    pose proof (H 0%nat ltac:(cbn; lia)) as B0. pose proof (H 1%nat ltac:(cbn; lia)) as B1. pose proof (H 2%nat ltac:(cbn; lia)) as B2.
    pose proof (H 3%nat ltac:(cbn; lia)) as B3. pose proof (H 4%nat ltac:(cbn; lia)) as B4. pose proof (H 5%nat ltac:(cbn; lia)) as B5.
    pose proof (H 6%nat ltac:(cbn; lia)) as B6. pose proof (H 7%nat ltac:(cbn; lia)) as B7. clear H.
    unfold isb in *. unfold sw in *. cbn in B0, B1, B2, B3, B4, B5, B6, B7.
    cbn [compose_loop]. gb G_sum. intros r1 R1. gb G_sum. intros r2 R2. gb G_sum. intros r3 R3. gb G_sum. intros r4 R4.
    cbn [bytesn fold_left firstn skipn]. apply IH.
    + apply (irep_skipn _ _ 8) in HI; [exact HI|reflexivity].
    + cbn [length] in HL. lia.
    + cbv beta in *. rewrite R4, R3, R2, R1, HZ, B0, B1, B2, B3, B4, B5, B6, B7. unfold bits_byte. cbn [fold_right].
      estrip. apply eqm_eq. ring.
Qed.

Variable Enc : Z -> av -> Z -> Prop.
Hypothesis G_dec : forall e s, GT (decompose_u256_with e s) (fun bs => exists V, Enc e s V /\ 0 <= V < 2 ^ 256
  /\ length bs = 256%nat /\ forall t, (t < 256)%nat -> isb (nth t bs av0) (Z.testbit V (255 - Z.of_nat t))).

Lemma nth_flat8 {X Y} (f : X -> list Y) l j b d d' : (forall x, length (f x) = 8%nat) -> (j < length l)%nat -> (b < 8)%nat ->
  nth (8 * j + b) (flat_map f l) d = nth b (f (nth j l d')) d.
Proof.
  intros Hf. revert j. induction l as [|x l IH]; intros j Hj Hb; [cbn in Hj; lia|]. cbn [flat_map]. destruct j as [|j].
  - rewrite app_nth1 by (rewrite Hf; lia). reflexivity.
  - rewrite app_nth2 by (rewrite Hf; lia). rewrite Hf. replace (8 * S j + b - 8)%nat with (8 * j + b)%nat by lia. cbn [nth]. apply IH; [cbn in Hj; lia|auto].
Qed.
Lemma flat_length {X Y} (f : X -> list Y) k l : (forall x, length (f x) = k) -> length (flat_map f l) = (k * length l)%nat.
Proof. intros Hf. induction l as [|x l IH]; cbn [flat_map length]; [lia|]. rewrite app_length, Hf, IH. lia. Qed.
Lemma byte_bits_length b : length (byte_bits b) = 8%nat.
Proof. reflexivity. Qed.
Lemma be32_length V : length (be32 V) = 32%nat.
Proof. unfold be32. rewrite map_length. apply seq_length. Qed.

Lemma irep_be32 bs V : 0 <= V -> length bs = 256%nat -> (forall t, (t < 256)%nat -> isb (nth t bs av0) (Z.testbit V (255 - Z.of_nat t))) ->
  irep bs (flat_map byte_bits (be32 V)).
Proof.
  intros HV L H. split; [rewrite (flat_length _ 8) by apply byte_bits_length; rewrite be32_length; exact L|]. split; [rewrite L; reflexivity|].
  intros t Ht. rewrite L in Ht. unfold sw. pose proof (Nat.div_mod t 8 ltac:(discriminate)) as DM. pose proof (Nat.mod_upper_bound t 8 ltac:(discriminate)) as MB.
  set (j := (t / 8)%nat) in *. set (b := (t mod 8)%nat) in *. assert (J : (j < 32)%nat) by lia.
  rewrite (Nat.mul_comm j 8), (nth_flat8 byte_bits _ j _ false 0) by (try apply byte_bits_length; rewrite ?be32_length; lia).
  unfold byte_bits. rewrite nth_map_seq by lia. unfold be32. rewrite nth_map_seq by lia.
  change 256 with (2 ^ 8) at 2. rewrite Z.mod_pow2_bits_low by lia. change 256 with (2 ^ 8). rewrite <- Z.pow_mul_r by lia.
  rewrite <- Z.shiftr_div_pow2 by lia. rewrite Z.shiftr_spec by lia.
  replace (Z.of_nat (7 - b) + 8 * Z.of_nat (31 - j)) with (255 - Z.of_nat t) by lia. apply H. exact Ht.
Qed.

Lemma irep_repeat zero k : isb zero false -> (k mod 8 = 0)%nat -> irep (repeat zero k) (repeat false k).
Proof.
  intros Z0 K. split; [rewrite !repeat_length; reflexivity|]. rewrite repeat_length. split; [exact K|]. intros t Ht.
  pose proof (sw_lt t k K Ht) as B. rewrite (nth_indep _ av0 zero) by (rewrite repeat_length; auto). rewrite !nth_repeat. exact Z0.
Qed.
Lemma irep_one one zero : isb one true -> isb zero false ->
  irep [zero; zero; zero; zero; zero; zero; zero; one] (true :: repeat false 7).
Proof. intros H1 H0. split; [reflexivity|]. split; [reflexivity|]. intros t Ht. do 8 (destruct t as [|t]; [assumption|]). cbn in Ht. lia. Qed.
Lemma irep_top one zero : isb one true -> isb zero false ->
  irep [one; zero; zero; zero; zero; zero; zero; zero] (repeat false 7 ++ [true]).
Proof. intros H1 H0. split; [reflexivity|]. split; [reflexivity|]. intros t Ht. do 8 (destruct t as [|t]; [assumption|]). cbn in Ht. lia. Qed.

(** Number of blocks and length of the padding for k inputs. *)
Definition nblocks (k : nat) : nat := ((k * 256 + 8 + ABSORB_BITS_RATE - 1) / ABSORB_BITS_RATE)%nat.
Lemma nblocks_spec k : exists j, (nblocks k * ABSORB_BITS_RATE = k * 256 + 64 * (j + 1) /\ j < 17)%nat.
Proof.
  unfold nblocks. set (q := ((k * 256 + 8 + ABSORB_BITS_RATE - 1) / ABSORB_BITS_RATE)%nat).
  pose proof (Nat.div_mod (k * 256 + 8 + ABSORB_BITS_RATE - 1) ABSORB_BITS_RATE ltac:(discriminate)) as E. fold q in E.
  pose proof (Nat.mod_upper_bound (k * 256 + 8 + ABSORB_BITS_RATE - 1) ABSORB_BITS_RATE ltac:(discriminate)) as B.
  unfold ABSORB_BITS_RATE in *. set (r := ((k * 256 + 8 + 17 * 64 - 1) mod (17 * 64))%nat) in *. clearbody q r.
  exists (17 * q - 4 * k - 1)%nat. lia.
Qed.
Lemma k_padding_irep one zero k : isb one true -> isb zero false -> irep (k_padding one zero (k * 256)) (pad101 (k * 256)).
Proof.
  intros H1 H0. destruct (nblocks_spec k) as (j & E & J). unfold k_padding. fold (nblocks k). rewrite E. cbv zeta.
  replace (k * 256 + 64 * (j + 1) - k * 256)%nat with (64 * (j + 1))%nat by lia.
  replace (64 * (j + 1) =? 8)%nat with false by (symmetry; apply Nat.eqb_neq; lia).
  assert (EP : pad101 (k * 256) = (true :: repeat false 7) ++ repeat false (64 * (j + 1) - 16) ++ (repeat false 7 ++ [true])).
  { unfold pad101. replace (Z.to_nat ((- Z.of_nat (k * 256) - 2) mod 1088)) with (7 + ((64 * (j + 1) - 16) + 7))%nat.
    - rewrite !repeat_app. cbn [app]. rewrite <- !app_assoc. reflexivity.
    - symmetry. apply Nat2Z.inj. rewrite Z2Nat.id by (apply Z.mod_pos_bound; lia). unfold ABSORB_BITS_RATE in E.
      symmetry. apply (Z.mod_unique _ _ (- Z.of_nat (nblocks k))); lia. }
  rewrite EP. apply irep_app; [apply irep_one; auto|]. apply irep_app; [|apply irep_top; auto]. apply irep_repeat; [auto|].
  replace (64 * (j + 1) - 16)%nat with ((8 * j + 6) * 8)%nat by lia. apply Nat.mod_mul. discriminate.
Qed.

Lemma irep_lane l f S x : lrep l f -> (forall z, (z < 64)%nat -> f z = get S x 0 (63 - z)) ->
  irep (rev_bytes l) (map (get S x 0) (seq 0 64)).
Proof.
  intros HL HF. destruct (lrep_rev_bytes _ _ HL) as [L H]. split; [rewrite map_length, seq_length; exact L|]. split; [rewrite L; reflexivity|].
  intros t Ht. rewrite L in Ht. assert (SW : (sw t < 64)%nat) by (apply sw_lt; [reflexivity|exact Ht]). rewrite nth_map_seq by exact SW.
  replace (sw t) with (63 - rho8 t)%nat; [rewrite <- HF by (apply rho8_lt; auto); apply H; auto|].
  apply Nat.eqb_eq. clear -Ht. revert t Ht. apply below. vm_compute. reflexivity.
Qed.

Lemma hash_with_G input :
  GT (hash_with input) (fun r => exists Vs, Forall2 (fun i V => Enc (fst i) (snd i) V /\ 0 <= V < 2 ^ 256) input Vs
     /\ v r ≡ of_be (keccak256 (flat_map be32 Vs)) ⟨nmod⟩).
Proof.
  unfold hash_with. gb (G_const true). intros one H1. gb (G_const false). intros zero H0.
  eapply (GT_bind P P_mono _ _ (fun st => srep st (fun _ _ _ => false))); [|app|app|].
  { unfold k_init. gb (G_const false). intros z Hz. apply GT_ret. apply srep_intro; [reflexivity|]. intros x Hx.
    do 5 (destruct x as [|x]; [split; [reflexivity|]; intros y Hy; do 5 (destruct y as [|y];
      [split; [reflexivity|]; intros w Hw; rewrite (nth_indep _ av0 z) by exact Hw; cbn [nth repeat]; change (isb (nth w (repeat z 64) z) false); rewrite nth_repeat; exact Hz|]); lia|]). lia. }
  intros st HS.
  eapply (GT_bind P P_mono); [gmap (fun (i : Z * av) bs => exists V, (Enc (fst i) (snd i) V /\ 0 <= V < 2 ^ 256) /\ irep bs (flat_map byte_bits (be32 V)) /\ length bs = 256%nat)|app|app|].
  { intros i _. eapply GT_weaken; [apply G_dec|]. intros bs (V & HE & HV & L & HB). exists V. split; [auto|]. split; [|exact L].
    apply irep_be32; auto; lia. }
  intros bss HB.
  assert (X : exists Vs, Forall2 (fun i V => Enc (fst i) (snd i) V /\ 0 <= V < 2 ^ 256) input Vs
     /\ Forall2 irep bss (map (fun V => flat_map byte_bits (be32 V)) Vs) /\ length (concat bss) = (length input * 256)%nat).
  { clear -HB. unfold acond in *. induction HB as [|i bs input bss (V & HE & HI & HL) F (Vs & IH1 & IH2 & IH3)].
    - exists []. repeat constructor.
    - exists (V :: Vs). split; [constructor; auto|]. split; [constructor; auto|]. cbn [concat length]. rewrite app_length, IH3, HL. lia. }
  destruct X as (Vs & HVs & HI & HLen).
  apply irep_concat in HI. rewrite <- flat_map_concat_map in HI.
  assert (LV : length (flat_map (fun V => flat_map byte_bits (be32 V)) Vs) = (length input * 256)%nat) by (destruct HI as [E _]; unfold acond in *; congruence).
  assert (FM : flat_map (fun V => flat_map byte_bits (be32 V)) Vs = flat_map byte_bits (flat_map be32 Vs)).
  { clear. induction Vs as [|V Vs IH]; [reflexivity|]. cbn [flat_map]. rewrite IH, flat_map_app. reflexivity. }
  pose proof (irep_app _ _ _ _ HI (k_padding_irep one zero (length input) H1 H0)) as HP.
  assert (LP : length (concat bss ++ k_padding one zero (length input * 256)) = (nblocks (length input) * ABSORB_BITS_RATE)%nat).
  { destruct (nblocks_spec (length input)) as (j & E & J). rewrite app_length, HLen, E. unfold k_padding. fold (nblocks (length input)). rewrite E. cbv zeta.
    replace (length input * 256 + 64 * (j + 1) - length input * 256)%nat with (64 * (j + 1))%nat by lia.
    replace (64 * (j + 1) =? 8)%nat with false by (symmetry; apply Nat.eqb_neq; lia).
    rewrite !app_length, repeat_length. cbn [length]. lia. }
  eapply (GT_bind P P_mono); [eapply absorb_all_G; [exact LP|exact HP|exact HS|]|app|app|].
  { instantiate (1 := build (fun _ _ _ => false)). intros x y z Hx Hy Hz. rewrite get_build by lia. reflexivity. }
  intros st' (F & HS' & HA'). unfold compose_to_scalar_be. apply GT_assert_k. intros _.
  gb (G_const false). intros acc Hacc.
  set (S := absorb_blocks _ _ _) in *.
  assert (HR : irep (concat (map (fun x => rev_bytes (lane st' x 0)) [0; 1; 2; 3]%nat)) (concat (map (fun x => map (get S x 0) (seq 0 64)) [0; 1; 2; 3]%nat))).
  { apply irep_concat. cbn [map]. destruct HS' as (_ & _ & HL).
    repeat (constructor; [eapply irep_lane; [apply HL; lia|intros z Hz; apply HA'; lia]|]). constructor. }
  assert (LD : length (concat (map (fun x => rev_bytes (lane st' x 0)) [0; 1; 2; 3]%nat)) = (8 * 32)%nat).
  { destruct HR as [E _]. unfold acond in *. rewrite E. clear. cbn [map concat]. rewrite !app_length, !map_length, !seq_length. reflexivity. }
  eapply GT_weaken; [eapply compose_G; [exact HR|exact LD|]|].
  { rewrite Hacc. reflexivity. }
  intros r Hr. exists Vs. split; [exact HVs|]. cbv beta in Hr. rewrite Hr. unfold of_be, keccak256. rewrite <- FM, bytesn_spec.
  apply eqm_eq. f_equal. f_equal. unfold sponge. cbv zeta. rewrite LV.
  assert (NB : (length (flat_map (fun V => flat_map byte_bits (be32 V)) Vs ++ pad101 (length input * 256)) / 1088 = nblocks (length input))%nat).
  { destruct HP as [E _]. unfold acond in *. rewrite <- E, LP. apply Nat.div_mul. discriminate. }
  rewrite NB. fold S. clearbody S. clear. reflexivity.
Qed.

End Gen.
