(** The keccak gadget for satisfying assignments (ST), for the recorded witness, and its honest runs (CT). *)
From Verif Require Import Prelude FieldZ Circuit Context Spec Logic ModArith Prims BaseChip BaseProofs
  RangeInfo RangeChip IntegerChip InfoProofs IntArith RangeProofs IntInv IntSound IntComplete
  ScalarChip SpecMsm ScalarProofs KeccakChip SpecKeccak KeccakPure KeccakProofs.
From Coq Require Import Bool.

Lemma testbit_bin_le (bs : list bool) i : Z.testbit (bin_le (map Z.b2z bs)) (Z.of_nat i) = nth i bs false.
Proof.
  revert i; induction bs as [|b bs IH]; intros i; cbn [map bin_le].
  - rewrite Z.bits_0. destruct i; reflexivity.
  - destruct i as [|i]; cbn [nth].
    + rewrite Z.add_comm. apply Z.testbit_0_r.
    + rewrite <- IH, Nat2Z.inj_succ, Z.add_comm. apply Z.testbit_succ_r. lia.
Qed.
Lemma nth_rev_255 {X} (l : list X) t d : length l = 256%nat -> (t < 256)%nat -> nth t (rev l) d = nth (255 - t) l d.
Proof. intros L H. rewrite rev_nth by (rewrite L; exact H). rewrite L. f_equal. Qed.

Section ST.
Context {NM : NMod}.
Hypothesis n_prime : prime nmod.
Variable T : env.
Variable A : cell -> Z.
Hypothesis A_range : forall x, 0 <= A x < nmod.
Local Notation vA := (vA A).
Local Notation P := (fun c => sat T c A).

Lemma S_mono c c' : extends c c' -> P c' -> P c.
Proof. apply sat_mono. Qed.
Lemma isb_eqm a z b : vA a ≡ z ⟨nmod⟩ -> z = Z.b2z b -> isb vA a b.
Proof.
  intros H ->. unfold isb. apply (eqm_small nmod); auto; [apply A_range|]. pose proof (n_pos n_prime). destruct b; cbn; lia.
Qed.
Lemma S_xor a b : GT P (xor_ a b) (fun r => forall p q, isb vA a p -> isb vA b q -> isb vA r (xorb p q)).
Proof.
  eapply (GT_weaken P); [exact (xor_ST T A a b)|]. intros r Hr p q Hp Hq. cbv beta in Hr. eapply isb_eqm; [exact Hr|]. unfold isb in *. rewrite Hp, Hq. destruct p, q; reflexivity.
Qed.
Lemma S_not_and a b : GT P (not_and a b) (fun r => forall p q, isb vA a p -> isb vA b q -> isb vA r (negb p && q)).
Proof.
  eapply (GT_weaken P); [exact (not_and_ST T A a b)|]. intros r Hr p q Hp Hq. cbv beta in Hr. eapply isb_eqm; [exact Hr|]. unfold isb in *. rewrite Hp, Hq. destruct p, q; reflexivity.
Qed.
Lemma S_not a : GT P (not_ a) (fun r => forall p, isb vA a p -> isb vA r (negb p)).
Proof.
  eapply (GT_weaken P); [exact (not_ST T A a)|]. intros r Hr p Hp. cbv beta in Hr. eapply isb_eqm; [exact Hr|]. unfold isb in *. rewrite Hp. destruct p; reflexivity.
Qed.
Lemma S_const b : GT P (assign_constant (Z.b2z b)) (fun r => isb vA r b).
Proof. eapply (GT_weaken P); [exact (assign_constant_ST T A _)|]. intros r Hr. eapply isb_eqm; [exact Hr|reflexivity]. Qed.
Lemma S_sum a b c ka kb kc : GT P (sum_with_constant [(a, ka); (b, kb); (c, kc)] None) (fun r => vA r ≡ vA a * ka + vA b * kb + vA c * kc ⟨nmod⟩).
Proof.
  eapply (GT_weaken P); [exact (swc_ST T A _ _)|]. intros r Hr. cbv beta in Hr. rewrite Hr. unfold lin. cbn [fold_right fst snd opt0]. apply eqm_eq. ring.
Qed.

Lemma permute_S st F : srep vA st F -> GT P (permute st) (fun st' => srep vA st' (fold_left rdF (seq 0 24) F)).
Proof. apply permute_G; [exact S_mono|exact S_xor|exact S_not_and|exact S_not]. Qed.

Lemma bits_bools l : Forall (isbit A) l -> exists bs, map vA l = map Z.b2z bs.
Proof.
  induction 1 as [|a l [H|H] F (bs & IH)]; [exists []; reflexivity| |]; [exists (false :: bs)|exists (true :: bs)]; cbn [map]; rewrite H, IH; reflexivity.
Qed.

Hypothesis HB : bitc T.
Lemma S_dec e s : GT P (decompose_u256_with e s) (fun bs => exists V, V ≡ vA s ⟨nmod⟩ /\ 0 <= V < 2 ^ 256
  /\ length bs = 256%nat /\ forall t, (t < 256)%nat -> isb vA (nth t bs av0) (Z.testbit V (255 - Z.of_nat t))).
Proof.
  change (ST T A (decompose_u256_with e s) (fun bs => exists V, V ≡ vA s ⟨nmod⟩ /\ 0 <= V < 2 ^ 256
    /\ length bs = 256%nat /\ forall t, (t < 256)%nat -> isb vA (nth t bs av0) (Z.testbit V (255 - Z.of_nat t)))).
  unfold decompose_u256_with.
  eapply ST_bind; [apply (ST_foldM T A _ (fun pre st => dinv T A s st /\ length (snd st) = (2 * length pre)%nat))|app|app|].
  - intros. app.
  - split; [|reflexivity]. split; [|constructor]. cbn [fst snd map length bin_le]. change (2 ^ Z.of_nat 0) with 1. apply eqm_eq. ring.
  - intros pre i st _ [D L]. eapply ST_weaken; [apply (native_step_ST n_prime T A A_range s e st i D)|]. intros st' [D' L'].
    split; [exact D'|]. rewrite L', L, app_length. cbn [length]. lia.
  - intros [v bits] [[H1 H2] L]. cbn [fst snd] in *. rewrite seq_length in L. unfold acond in *. change (2 * (256 / 2))%nat with 256%nat in L.
    eapply ST_bind; [apply assert_constant_ST|app|app|]. intros u Hu. apply ST_ret. cbv beta in Hu.
    destruct (bits_bools bits (H2 HB)) as (bs & EB). rewrite EB in H1. assert (LB : length bs = 256%nat).
    { rewrite <- (map_length Z.b2z bs), <- EB, map_length. exact L. }
    exists (bin_le (map Z.b2z bs)). split; [rewrite H1, Hu; apply eqm_eq; ring|]. split.
    { rewrite <- EB. pose proof (bin_le_bound (map vA bits)) as BB. rewrite map_length, L in BB. apply BB. apply Forall_map. exact (H2 HB). }
    split; [rewrite rev_length; exact L|]. intros t Ht. rewrite nth_rev_255 by auto.
    replace (255 - Z.of_nat t) with (Z.of_nat (255 - t)) by lia. rewrite testbit_bin_le. unfold isb.
    rewrite <- (map_nth vA), EB. rewrite (nth_indep _ _ (Z.b2z false)) by (rewrite map_length; lia). apply map_nth.
Qed.

Lemma hash_S e : GT P (hash_with e) (fun r => exists Vs, Forall2 (fun i V => V ≡ vA (snd i) ⟨nmod⟩ /\ 0 <= V < 2 ^ 256) e Vs
  /\ vA r ≡ of_be (keccak256 (flat_map be32 Vs)) ⟨nmod⟩).
Proof.
  apply (hash_with_G P S_mono vA S_xor S_not_and S_not S_const S_sum (fun e s V => V ≡ vA s ⟨nmod⟩)). exact S_dec.
Qed.
End ST.

Section RT.
Context {NM : NMod}.
Hypothesis n_prime : prime nmod.
Local Notation P := (fun _ : ctx => True).
Lemma R_mono c c' : extends c c' -> P c' -> P c.
Proof. auto. Qed.
Ltac rinv H := apply mbind_inv in H as (? & ? & H & ?); match goal with E : mret _ _ = Ok _ |- _ => injection E as <- _ end;
  apply one_line_with_last_inv in H as (_ & _ & _ & ->).
Lemma small01 z b : z ≡ Z.b2z b ⟨nmod⟩ -> 0 <= z < nmod -> z = Z.b2z b.
Proof. intros H R. apply (eqm_small nmod); auto. pose proof (n_pos n_prime). destruct b; cbn; lia. Qed.
Lemma R_xor a b : GT P (xor_ a b) (fun r => forall p q, isb a_val a p -> isb a_val b q -> isb a_val r (xorb p q)).
Proof.
  intros c x c' _ H _ p q Hp Hq. unfold xor_ in H. cbv zeta in H. rinv H. unfold isb in *. cbn [snd a_val pu fst schema_val]. rewrite Hp, Hq.
  apply small01; [unf; estrip; destruct p, q; apply eqm_eq; reflexivity|unfold fsub; apply mod_range; auto].
Qed.
Lemma R_not_and a b : GT P (not_and a b) (fun r => forall p q, isb a_val a p -> isb a_val b q -> isb a_val r (negb p && q)).
Proof.
  intros c x c' _ H _ p q Hp Hq. unfold not_and in H. rinv H. unfold isb in *. cbn [snd a_val pu fst schema_val]. rewrite Hp, Hq.
  apply small01; [unf; estrip; destruct p, q; apply eqm_eq; reflexivity|unfold fsub; apply mod_range; auto].
Qed.
Lemma swcol_val elems constant c x c' : sum_with_constant_in_one_line elems constant c = Ok (x, c') -> a_val x = lin_val elems constant.
Proof.
  unfold sum_with_constant_in_one_line. intros H. apply mbind_inv in H as (? & ? & H1 & H). apply massert_inv in H1 as [_ ->].
  apply mbind_inv in H as (? & ? & H1 & H). apply massert_inv in H1 as [_ ->]. rinv H. reflexivity.
Qed.
Lemma R_not a : GT P (not_ a) (fun r => forall p, isb a_val a p -> isb a_val r (negb p)).
Proof.
  intros c x c' _ H _ p Hp. unfold not_, sum_with_constant in H. cbn [length Nat.ltb Nat.leb VAR_COLUMNS] in H. apply swcol_val in H.
  unfold isb in *. rewrite H. unfold lin_val. cbn [map fold_left fst snd]. rewrite Hp.
  apply small01; [unf; estrip; destruct p; apply eqm_eq; reflexivity|unfold fadd; apply mod_range; auto].
Qed.
Lemma R_const b : GT P (assign_constant (Z.b2z b)) (fun r => isb a_val r b).
Proof.
  intros c x c' _ H _. unfold assign_constant, one_line_add in H. apply mbind_inv in H as (cs & c1 & H & H1).
  apply one_line_inv in H as (_ & _ & _ & ->). apply mopt_inv in H1 as [H1 _]. injection H1 as <-. reflexivity.
Qed.
Lemma R_sum a b c ka kb kc : GT P (sum_with_constant [(a, ka); (b, kb); (c, kc)] None) (fun r => a_val r ≡ a_val a * ka + a_val b * kb + a_val c * kc ⟨nmod⟩).
Proof.
  intros d x d' _ H _. unfold sum_with_constant in H. cbn [length Nat.ltb Nat.leb VAR_COLUMNS] in H. apply swcol_val in H. rewrite H.
  unfold lin_val. cbn [map fold_left fst snd]. unf. estrip. reflexivity.
Qed.
Lemma assign_bit_val v c x c' : assign_bit v c = Ok (x, c') -> a_val x = v.
Proof.
  unfold assign_bit. intros H. apply mbind_inv in H as (cs & c1 & H & H1). apply one_line_inv in H as (_ & _ & _ & ->).
  apply mopt_inv in H1 as [H1 _]. injection H1 as <-. reflexivity.
Qed.
Lemma R_dec e s : GT P (decompose_u256_with e s) (fun bs => exists V, V = e mod 2 ^ 256 /\ 0 <= V < 2 ^ 256
  /\ length bs = 256%nat /\ forall t, (t < 256)%nat -> isb a_val (nth t bs av0) (Z.testbit V (255 - Z.of_nat t))).
Proof.
  unfold decompose_u256_with.
  eapply (GT_bind P R_mono); [apply (GT_foldM P R_mono _ (fun k st => map a_val (snd st) = map (fun i => bit_of e (Z.of_nat i)) (seq 0 (2 * k))))|app|app|].
  - app.
  - reflexivity.
  - intros k i st Hk HS. assert (i = k) as ->.
    { assert (k < 128)%nat by (change 128%nat with (length (seq 0 (256 / 2))); apply nth_error_Some; congruence).
      apply (nth_error_nth _ _ 0%nat) in Hk. rewrite seq_nth in Hk by auto. auto. }
    intros c x c' _ H _. unfold u256_step in H. cbv zeta in H. apply mbind_inv in H as (b0 & c1 & B0 & H). apply mbind_inv in H as (b1 & c2 & B1 & H).
    apply assign_bit_val in B0, B1. apply mbind_inv in H as (cells & c3 & _ & H). apply mbind_inv in H as (w & c4 & _ & H). injection H as <- _.
    unfold acond in *. cbn [snd]. rewrite map_app, HS. replace (2 * (k + 1))%nat with (2 * k + 2)%nat by lia. rewrite seq_app, map_app. f_equal. cbn [map seq].
    rewrite B0, B1. f_equal; [f_equal; lia|f_equal; f_equal; lia].
  - intros [w bits] HS. cbn [fst snd] in *. rewrite seq_length in HS. change (2 * (256 / 2))%nat with 256%nat in HS.
    eapply (GT_bind P R_mono _ _ (fun _ => True)); [intros c x c' _ _ _; exact I|app|app|]. intros u _. apply GT_ret.
    exists (e mod 2 ^ 256). split; [reflexivity|]. split; [apply Z.mod_pos_bound; lia|].
    assert (L : length bits = 256%nat) by (unfold acond in *; rewrite <- (map_length a_val bits), HS, map_length, seq_length; reflexivity).
    split; [rewrite rev_length; exact L|]. intros t Ht. rewrite nth_rev_255 by auto. unfold isb. unfold acond in *. rewrite <- (map_nth a_val), HS.
    rewrite nth_map_seq by lia. unfold bit_of. replace (Z.of_nat (255 - t)) with (255 - Z.of_nat t) by lia.
    rewrite Z.mod_pow2_bits_low by lia. destruct (Z.testbit _ _); reflexivity.
Qed.
Lemma hash_R e : GT P (hash_with e) (fun r => exists Vs, Forall2 (fun i V => V = fst i mod 2 ^ 256 /\ 0 <= V < 2 ^ 256) e Vs
  /\ a_val r ≡ of_be (keccak256 (flat_map be32 Vs)) ⟨nmod⟩).
Proof.
  apply (hash_with_G P R_mono a_val R_xor R_not_and R_not R_const R_sum (fun e s V => V = e mod 2 ^ 256)). exact R_dec.
Qed.
(** The state and the bits of a run, for the honest proofs. *)
Lemma absorb_all_R n st F input m S : length input = (n * ABSORB_BITS_RATE)%nat -> irep a_val input m -> srep a_val st F -> agree F S ->
  GT P (foldM absorb st (chunks ABSORB_BITS_RATE input)) (fun st' => exists F', srep a_val st' F' /\ agree F' (absorb_blocks n S m)).
Proof. eapply absorb_all_G; [exact R_mono|exact R_xor|exact R_not_and|exact R_not]. Qed.
End RT.

Section CT.
Context {NM : NMod}.
Hypothesis n_prime : prime nmod.

Lemma CT_GT {X} c (m : M X) Q R : wf c -> CT c m Q -> GT (fun _ => True) m R -> CT c m (fun x c' => Q x c' /\ R x).
Proof. intros W (x & c' & H & W' & E & S & HQ) HG. exists x, c'. do 4 (split; [assumption|]). split; [exact HQ|]. exact (HG _ _ _ W H I). Qed.
Lemma F2_Forall_r {X Y} (P : Y -> Prop) (l : list X) ys : Forall2 (fun _ y => P y) l ys -> Forall P ys.
Proof. induction 1; constructor; auto. Qed.

Definition vl c (l : list acond) := length l = 64%nat /\ Forall (valid c) l.
Definition all5 {X} (P : X -> Prop) (l : list X) := length l = 5%nat /\ Forall P l.
Definition vst c (st : kstate) := all5 (all5 (vl c)) st.
Lemma vl_mono c c' l : extends c c' -> vl c l -> vl c' l.
Proof. intros E [L F]. split; [exact L|]. eapply Forall_impl; [|exact F]. intros a. apply valid_mono; auto. Qed.
Lemma all5_impl {X} (P Q : X -> Prop) l : (forall x, P x -> Q x) -> all5 P l -> all5 Q l.
Proof. intros H [L F]. split; [exact L|]. eapply Forall_impl; [|exact F]. exact H. Qed.
Lemma vst_mono c c' st : extends c c' -> vst c st -> vst c' st.
Proof. intros E. apply all5_impl. intros p. apply all5_impl. intros l. apply vl_mono; auto. Qed.
Lemma all5_nth {X} (P : X -> Prop) l i d : all5 P l -> (i < 5)%nat -> P (nth i l d).
Proof. intros [L F] H. rewrite Forall_forall in F. apply F. apply nth_In. lia. Qed.
Lemma vst_lane c st x y : vst c st -> (x < 5)%nat -> (y < 5)%nat -> vl c (lane st x y).
Proof. intros H Hx Hy. unfold lane. apply all5_nth; auto. apply all5_nth; auto. Qed.
Lemma all5_set {X} (P : X -> Prop) i a l : all5 P l -> P a -> all5 P (set_nth i a l).
Proof.
  intros [L F] H. split.
  - rewrite <- L. clear. revert i. induction l as [|b l IH]; intros i; [destruct i; reflexivity|]. destruct i; cbn [set_nth length]; auto.
  - clear L. revert i. induction F as [|b l Hb F IH]; intros i; [destruct i; constructor|]. destruct i; cbn [set_nth]; constructor; auto.
Qed.
Lemma vst_set c st x y l : vst c st -> (x < 5)%nat -> vl c l -> vst c (set_lane x y l st).
Proof. intros H Hx Hl. unfold set_lane. apply all5_set; auto. apply all5_set; auto. apply all5_nth; auto. Qed.
Lemma vl_rotate c k l : vl c l -> vl c (rotate_left k l).
Proof.
  intros [L F]. unfold rotate_left. split; [rewrite app_length, <- L; rewrite <- (firstn_skipn k l) at 3; rewrite app_length; lia|].
  rewrite <- (firstn_skipn k l) in F. apply Forall_app in F as [F1 F2]. apply Forall_app; auto.
Qed.
Lemma Forall_firstn' {X} (P : X -> Prop) k l : Forall P l -> Forall P (firstn k l).
Proof. intros F. rewrite <- (firstn_skipn k l) in F. apply Forall_app in F. apply F. Qed.
Lemma Forall_skipn' {X} (P : X -> Prop) k l : Forall P l -> Forall P (skipn k l).
Proof. intros F. rewrite <- (firstn_skipn k l) in F. apply Forall_app in F. apply F. Qed.
Lemma Forall_concat' {X} (P : X -> Prop) l : Forall (Forall P) l -> Forall P (concat l).
Proof. induction 1; cbn [concat]; [constructor|]. apply Forall_app; auto. Qed.
Lemma Forall_concat_inv {X} (P : X -> Prop) l : Forall P (concat l) -> Forall (Forall P) l.
Proof. induction l as [|a l IH]; cbn [concat]; intros H; constructor; apply Forall_app in H as [H1 H2]; auto. Qed.
Lemma rev_bytes_valid c l : Forall (valid c) l -> Forall (valid c) (rev_bytes l).
Proof.
  intros F. unfold rev_bytes. apply Forall_concat'. apply Forall_rev. apply Forall_concat_inv. unfold acond in *. rewrite chunks_concat by lia. exact F.
Qed.
Lemma concat_rev_length {X} (l : list (list X)) : length (concat (rev l)) = length (concat l).
Proof. induction l as [|a l IH]; [reflexivity|]. cbn [rev concat]. rewrite concat_app. cbn [concat]. rewrite !app_length, IH. cbn. lia. Qed.
Lemma vl_rev_bytes c l : vl c l -> vl c (rev_bytes l).
Proof.
  intros [L F]. split; [|apply rev_bytes_valid; auto]. unfold rev_bytes. unfold acond in *. rewrite concat_rev_length, chunks_concat by lia. exact L.
Qed.
Lemma rho_pi_vst c st : vst c st -> vst c (rho_and_pi st).
Proof.
  intros H. unfold rho_and_pi.
  assert (G : forall l s, (forall i, In i l -> i < 24)%nat -> vst c (fst s) /\ vl c (snd s) ->
    let r := fold_left (fun s i => let px := (nth i PI 0 mod 5)%nat in let py := (nth i PI 0 / 5)%nat in
      (set_lane px py (rotate_left (nth i RHO 0%nat) (snd s)) (fst s), lane (fst s) px py)) l s in vst c (fst r) /\ vl c (snd r)).
  { induction l as [|i l IH]; intros s Hi [H1 H2]; [split; auto|]. cbn [fold_left]. apply IH; [intros j Hj; apply Hi; right; exact Hj|]. cbv zeta. cbn [fst snd].
    assert (Hp : (nth i PI 0 < 25)%nat).
    { specialize (Hi i (or_introl eq_refl)). do 24 (destruct i as [|i]; [cbn; lia|]). lia. }
    assert (nth i PI 0 mod 5 < 5)%nat by (apply Nat.mod_upper_bound; lia).
    assert (nth i PI 0 / 5 < 5)%nat by (apply Nat.div_lt_upper_bound; lia).
    split; [apply vst_set; auto; apply vl_rotate; auto|apply vst_lane; auto]. }
  apply (G (seq 0 24) (st, lane st 1 0)); [intros i Hi; apply in_seq in Hi; lia|]. split; [exact H|]. apply vst_lane; auto; lia.
Qed.

Lemma mapM_valid {X} c (f : X -> M av) l : wf c ->
  (forall x c', In x l -> wf c' -> extends c c' -> CT c' (f x) (fun r c2 => valid c2 r)) ->
  CT c (mapM f l) (fun r c' => length r = length l /\ Forall (valid c') r).
Proof.
  intros W H. eapply CT_weaken; [apply (CT_mapM c f l (fun _ r c' => valid c' r) W); [|exact H]|].
  - intros x y c1 c2 V E. eapply valid_mono; eauto.
  - intros r c' W' E F. split; [symmetry; exact (F2_length _ _ _ F)|]. eapply F2_Forall_r; exact F.
Qed.
Lemma mapM_all5 {X} c (f : nat -> M X) (P : ctx -> X -> Prop) : wf c -> (forall c1 c2 x, extends c1 c2 -> P c1 x -> P c2 x) ->
  (forall i c', (i < 5)%nat -> wf c' -> extends c c' -> CT c' (f i) (fun r c2 => P c2 r)) ->
  CT c (mapM f (seq 0 5)) (fun r c' => all5 (P c') r).
Proof.
  intros W HM H. eapply CT_weaken; [apply (CT_mapM c f (seq 0 5) (fun _ r c' => P c' r) W)|].
  - intros x y c1 c2 V E. eapply HM; eauto.
  - intros x c' Hi. apply in_seq in Hi. apply H. lia.
  - intros r c' W' E F. split; [symmetry; exact (F2_length _ _ _ F)|]. eapply F2_Forall_r; exact F.
Qed.

Lemma In_combine_valid c a b p : Forall (valid c) a -> Forall (valid c) b -> In p (combine a b) -> valid c (fst p) /\ valid c (snd p).
Proof.
  intros F1 F2 H. destruct p as [x y]. rewrite Forall_forall in F1, F2. split; [apply F1; eapply in_combine_l|apply F2; eapply in_combine_r]; exact H.
Qed.
Lemma xor_lanes_V c a b : wf c -> vl c a -> vl c b -> CT c (xor_lanes a b) (fun r c' => vl c' r).
Proof.
  intros W [La Fa] [Lb Fb]. unfold xor_lanes. eapply CT_weaken; [apply mapM_valid; [exact W|]|].
  - intros p c' Hp W' E'. destruct (In_combine_valid _ _ _ _ Fa Fb Hp) as [V1 V2].
    eapply CT_weaken; [apply xor_CT; eauto using valid_mono|]. intros r c2 _ _ [V _]. exact V.
  - intros r c' _ _ [L F]. split; [|exact F]. unfold acond in *. rewrite L, combine_length, La, Lb. reflexivity.
Qed.
Lemma theta_V c st : wf c -> vst c st -> CT c (theta st) (fun r c' => vst c' r).
Proof.
  intros W H. unfold theta. eapply CT_bind; [apply (mapM_all5 c _ vl); [exact W|exact vl_mono|]|].
  - intros x c' Hx W' E'.
    assert (G : forall l ci c1, (forall i, In i l -> (i < 5)%nat) -> wf c1 -> extends c c1 -> vl c1 ci ->
      CT c1 (foldM (fun ci i => xor_lanes ci (lane st x i)) ci l) (fun r c' => vl c' r)).
    { induction l as [|i l IH]; intros ci c1 Hl W1 E1 V1; [apply CT_ret; auto|]. cbn [foldM].
      eapply CT_bind; [apply xor_lanes_V; auto; eapply vl_mono; [exact E1|]; apply vst_lane; auto; apply Hl; left; reflexivity|].
      intros r c2 W2 E2 V2. apply IH; auto; [intros j Hj; apply Hl; right; exact Hj|]. eapply extends_trans; eauto. }
    apply G; auto; [intros i [<-|[<-|[<-|[<-|[]]]]]; lia|]. eapply vl_mono; [exact E'|]. apply vst_lane; auto; lia.
  - intros cc c1 W1 E1 HC. apply (mapM_all5 c1 _ (fun c => all5 (vl c))); [exact W1|intros c2 c3 p E; apply all5_impl; intros; eapply vl_mono; eauto|].
    intros x c2 Hx W2 E2. eapply CT_bind; [apply xor_lanes_V; [exact W2| |]|].
    + eapply vl_mono; [exact E2|]. apply all5_nth; [exact HC|apply Nat.mod_upper_bound; lia].
    + eapply vl_mono; [exact E2|]. apply vl_rotate. apply all5_nth; [exact HC|apply Nat.mod_upper_bound; lia].
    + intros di c3 W3 E3 V3. apply (mapM_all5 c3 _ vl); [exact W3|exact vl_mono|]. intros y c4 Hy W4 E4. apply xor_lanes_V; [exact W4| |].
      * eapply vl_mono; [|apply vst_lane; [exact H|auto|auto]]. eauto using extends_trans.
      * eapply vl_mono; eauto.
Qed.
Lemma xi_V c st : wf c -> vst c st -> CT c (xi st) (fun r c' => vst c' r).
Proof.
  intros W H. unfold xi. apply (mapM_all5 c _ (fun c => all5 (vl c))); [exact W|intros c2 c3 p E; apply all5_impl; intros; eapply vl_mono; eauto|].
  intros x c1 Hx W1 E1. apply (mapM_all5 c1 _ vl); [exact W1|exact vl_mono|]. intros y c2 Hy W2 E2.
  assert (V : forall x', (x' < 5)%nat -> vl c2 (lane st x' y)) by (intros x' Hx'; eapply vl_mono; [|apply vst_lane; [exact H|auto|auto]]; eauto using extends_trans).
  assert (X1 : ((x + 1) mod 5 < 5)%nat) by (apply Nat.mod_upper_bound; lia). assert (X2 : ((x + 2) mod 5 < 5)%nat) by (apply Nat.mod_upper_bound; lia).
  destruct (V x Hx) as [L0 F0], (V _ X1) as [L1 F1], (V _ X2) as [L2 F2].
  eapply CT_weaken; [apply mapM_valid; [exact W2|]|].
  - intros [a [b d]] c' Hp W' E'. cbn [fst snd]. pose proof (in_combine_l _ _ _ _ Hp) as Ia. apply in_combine_r in Hp.
    destruct (In_combine_valid _ _ _ _ F1 F2 Hp) as [Vb Vd]. cbn [fst snd] in Vb, Vd. rewrite Forall_forall in F0. specialize (F0 _ Ia).
    eapply CT_bind; [apply not_and_CT; eauto using valid_mono|]. intros t c3 W3 E3 [Vt _].
    eapply CT_weaken; [apply xor_CT; eauto using valid_mono, extends_trans|]. intros r c4 _ _ [Vr _]. exact Vr.
  - intros r c' _ _ [L F]. split; [|exact F]. unfold acond in *. rewrite L, !combine_length, L0, L1, L2. reflexivity.
Qed.
Lemma iota_V c st i : wf c -> vst c st -> CT c (iota st i) (fun r c' => vst c' r).
Proof.
  intros W H. unfold iota. destruct (vst_lane c st 0 0 H ltac:(lia) ltac:(lia)) as [L F].
  eapply CT_bind; [apply mapM_valid; [exact W|]|].
  - intros [z a] c' Hp W' E'. cbn [fst snd]. apply in_combine_r in Hp. rewrite Forall_forall in F. specialize (F _ Hp). destruct (Z.testbit _ _).
    + eapply CT_weaken; [apply not_CT; eauto using valid_mono|]. intros r c2 _ _ [V _]. exact V.
    + apply CT_ret; eauto using valid_mono.
  - intros l c' W' E' [L' F']. apply CT_ret; [exact W'|]. apply vst_set; [eapply vst_mono; eauto|lia|]. split; [|exact F'].
    unfold acond in *. rewrite L', combine_length, seq_length, L. reflexivity.
Qed.
Lemma permute_V c st : wf c -> vst c st -> CT c (permute st) (fun r c' => vst c' r).
Proof.
  intros W H. unfold permute. apply (CT_foldM_seq _ (fun _ st c => vst c st) 24 0 st c W H). intros i s c1 _ W1 E1 V1.
  eapply CT_bind; [apply theta_V; auto|]. intros s2 c2 W2 E2 V2. eapply CT_bind; [apply xi_V; auto; apply rho_pi_vst; exact V2|].
  intros s3 c3 W3 E3 V3. apply iota_V; auto.
Qed.
Lemma absorb_V c st input : wf c -> vst c st -> length input = ABSORB_BITS_RATE -> Forall (valid c) input -> CT c (absorb st input) (fun r c' => vst c' r).
Proof.
  intros W H L F. unfold absorb. apply CT_assert_k; [apply Nat.eqb_eq; exact L|].
  eapply CT_bind; [apply (CT_foldM_seq _ (fun _ st c => vst c st) 17 0 st c W H)|].
  - intros i s c1 Hi W1 E1 V1. assert (i mod 5 < 5)%nat by (apply Nat.mod_upper_bound; lia). assert (i / 5 < 5)%nat by (apply Nat.div_lt_upper_bound; lia).
    eapply CT_bind; [apply xor_lanes_V; [exact W1| |apply vl_rev_bytes; apply vst_lane; auto]|].
    + split; [unfold acond in *; rewrite firstn_length, skipn_length, L; unfold ABSORB_BITS_RATE; lia|].
      eapply Forall_impl; [intros a; apply valid_mono; exact E1|]. unfold acond in *. apply Forall_firstn', Forall_skipn'. exact F.
    + intros l c2 W2 E2 V2. apply CT_ret; [exact W2|]. apply vst_set; [eapply vst_mono; eauto|auto|apply vl_rev_bytes; exact V2].
  - intros s c1 W1 E1 V1. apply permute_V; auto.
Qed.
Lemma absorb_all_V l : forall c st, wf c -> vst c st -> Forall (fun ch => length ch = ABSORB_BITS_RATE) l -> Forall (Forall (valid c)) l ->
  CT c (foldM absorb st l) (fun r c' => vst c' r).
Proof.
  induction l as [|ch l IH]; intros c st W H L F; cbn [foldM]; [apply CT_ret; auto|].
  inversion_clear L; inversion_clear F. eapply CT_bind; [apply absorb_V; auto|]. intros s c1 W1 E1 V1. apply IH; auto.
  eapply Forall_impl; [|eassumption]. intros x Hx. eapply Forall_impl; [|exact Hx]. intros a. apply valid_mono; auto.
Qed.

Definition uinv e (k : nat) (st : av * list acond) c := valid c (fst st) /\ a_val (fst st) ≡ Z.shiftr e (2 * Z.of_nat k) ⟨nmod⟩ /\ Forall (valid c) (snd st).
Lemma bit_of_01 e i : bit_of e i = 0 \/ bit_of e i = 1.
Proof. unfold bit_of. destruct (Z.testbit e i); auto. Qed.
Lemma shiftr_split e k : 0 <= k -> Z.shiftr e k = 4 * Z.shiftr e (k + 2) + 2 * bit_of e (k + 1) + bit_of e k.
Proof.
  intros Hk. assert (S1 : forall k, 0 <= k -> Z.shiftr e k = 2 * Z.shiftr e (k + 1) + bit_of e k).
  { intros j Hj. rewrite <- Z.shiftr_shiftr by lia. rewrite <- Z.div2_spec. rewrite (Z.div2_odd (Z.shiftr e j)) at 1. f_equal. unfold bit_of.
    rewrite <- Z.bit0_odd, Z.shiftr_spec by lia. rewrite Z.add_0_l. destruct (Z.testbit e j); reflexivity. }
  rewrite (S1 k Hk), (S1 (k + 1)) by lia. replace (k + 1 + 1) with (k + 2) by lia. ring.
Qed.
Lemma u256_step_V e i st c : wf c -> uinv e i st c -> CT c (u256_step e st i) (fun r c' => uinv e (S i) r c').
Proof.
  intros W (V & H & F). unfold u256_step. cbv zeta.
  eapply CT_bind; [apply assign_bit_CT; auto; apply bit_of_01|]. intros b0 c1 W1 E1 [V0 H0].
  eapply CT_bind; [apply assign_bit_CT; auto; apply bit_of_01|]. intros b1 c2 W2 E2 [V1 H1]. pose proof (n_pos n_prime).
  assert (VV : valid c2 (fst st)) by eauto using valid_mono, extends_trans. assert (valid c2 b0) by eauto using valid_mono.
  eapply CT_bind; [apply CT_one_line_with_last; [assumption|cbn;lia|cbn;lia| |exact VV|]|].
  - constructor; [cbn; unfold fof; apply mod_range; auto|]. constructor; [exact V1|]. constructor; [assumption|constructor].
  - unfold gate_sum, with_tail, tail_val, pair_val, pa, pu. cbn [map fst snd nth opt0 schema_val]. rewrite H0, H1. unf. estrip. rewrite H.
    rewrite (shiftr_split e (2 * Z.of_nat i)) by lia. replace (Z.of_nat i * 2) with (2 * Z.of_nat i) by lia. estrip. apply eqm_eq. ring.
  - intros x c3 W3 E3 (-> & FV & _). cbn [fst] in FV. cbn [fst].
    destruct (nth_handles_valid _ _ _ 0%nat _ FV eq_refl) as [EN VN].
    eapply CT_nth_k; [exact EN|]. apply CT_ret; [exact W3|]. split; [exact VN|]. cbn [fst snd a_val pu schema_val]. split.
    + unf. estrip. replace (2 * Z.of_nat (S i)) with (Z.of_nat i * 2 + 2) by lia. reflexivity.
    + apply Forall_app. split; [|constructor; [|constructor; [|constructor]]]; eauto using valid_mono, extends_trans.
      eapply Forall_impl; [|exact F]. intros a. apply valid_mono. eauto using extends_trans.
Qed.
Lemma decompose_V e s c : wf c -> valid c s -> a_val s ≡ e ⟨nmod⟩ -> 0 <= e < 2 ^ 256 -> CT c (decompose_u256_with e s) (fun r c' => Forall (valid c') r).
Proof.
  intros W V H R. unfold decompose_u256_with.
  eapply CT_bind; [apply (CT_foldM_seq _ (uinv e) 128 0 (s, []) c W)|].
  - split; [exact V|]. split; [cbn [fst]; rewrite H; apply eqm_eq; symmetry; apply Z.shiftr_0_r|constructor].
  - intros i st c1 _ W1 _ U. apply u256_step_V; auto.
  - intros st c1 W1 E1 (V1 & H1 & F1). change (2 * Z.of_nat (0 + 128)) with 256 in H1. rewrite Z.shiftr_div_pow2, Z.div_small in H1 by lia.
    eapply CT_bind; [apply assert_constant_CT; auto; apply (eqm_small nmod); auto; [apply V1|pose proof (n_pos n_prime); lia]|].
    intros u c2 W2 E2 _. apply CT_ret; [exact W2|]. apply Forall_rev. eapply Forall_impl; [|exact F1]. intros a. apply valid_mono; auto.
Qed.
Lemma compose_loop_V k : forall l c acc, (length l <= k)%nat -> wf c -> valid c acc -> Forall (valid c) l -> CT c (compose_loop acc l) (fun r c' => valid c' r).
Proof.
  induction k as [|k IH]; intros l c acc L W V F; (destruct l as [|b1 [|b0 l]]; [apply CT_ret; auto|apply CT_ret; auto|]); [cbn in L; lia|].
  cbn [compose_loop]. inversion_clear F as [|? ? V1 F']. inversion_clear F' as [|? ? V0 F].
  eapply CT_bind; [apply swc_CT; [assumption|assumption|repeat (constructor; [assumption|]); constructor|cbn; lia|discriminate]|].
  intros r c1 W1 E1 [V2 _]. apply IH; auto; [cbn in L; lia|]. eapply Forall_impl; [|exact F]. intros a. apply valid_mono; auto.
Qed.
Lemma k_padding_valid c one zero k : valid c one -> valid c zero -> Forall (valid c) (k_padding one zero k).
Proof.
  intros V1 V0. unfold k_padding. cbv zeta. destruct (Nat.eqb _ _); [repeat (constructor; [assumption|]); constructor|].
  apply Forall_app. split; [repeat (constructor; [assumption|]); constructor|]. apply Forall_app. split; [|repeat (constructor; [assumption|]); constructor].
  apply Forall_forall. intros x Hx. apply repeat_spec in Hx as ->. exact V0.
Qed.
Lemma k_padding_length one zero k : length (k_padding one zero (k * 256)) = (nblocks k * ABSORB_BITS_RATE - k * 256)%nat.
Proof.
  destruct (nblocks_spec k) as (j & E & J). unfold k_padding. cbv zeta. fold (nblocks k). set (p := (nblocks k * ABSORB_BITS_RATE - k * 256)%nat).
  assert (Hp : (p = 64 * (j + 1))%nat) by (unfold p; rewrite E; lia). clearbody p. destruct (Nat.eqb_spec p 8); [lia|].
  rewrite !app_length, repeat_length. cbn [length]. lia.
Qed.

Lemma hash_V c e : wf c -> Forall (fun i => valid c (snd i) /\ a_val (snd i) ≡ fst i ⟨nmod⟩ /\ 0 <= fst i < 2 ^ 256) e ->
  CT c (hash_with e) (fun r c' => valid c' r).
Proof.
  intros W F. pose proof (n_pos n_prime). unfold hash_with.
  eapply CT_bind; [apply assign_constant_CT; auto; lia|]. intros one c1 W1 E1 [V1 _].
  eapply CT_bind; [apply assign_constant_CT; auto; lia|]. intros zero c2 W2 E2 [V2 _].
  assert (KI : CT c2 k_init (fun st c' => vst c' st)).
  { unfold k_init. eapply CT_bind; [apply assign_constant_CT; auto; lia|]. intros z c3 W3 E3 [V3 _]. apply CT_ret; [exact W3|].
    repeat (split; [reflexivity|]; apply Forall_forall; intros ? ->%repeat_spec). exact V3. }
  eapply CT_bind; [exact KI|]. intros st c3 W3 E3 V3.
  assert (F3 : Forall (fun i => valid c3 (snd i) /\ a_val (snd i) ≡ fst i ⟨nmod⟩ /\ 0 <= fst i < 2 ^ 256) e).
  { eapply Forall_impl; [|exact F]. intros i (A1 & A2). split; [eauto using valid_mono, extends_trans|exact A2]. }
  rewrite Forall_forall in F3.
  eapply CT_bind; [apply (CT_mapM c3 _ e (fun _ r c' => length r = 256%nat /\ Forall (valid c') r) W3)|].
  - intros x y c4 c5 [L FV] E. split; [exact L|]. eapply Forall_impl; [|exact FV]. intros a. apply valid_mono; auto.
  - intros x c4 Hx W4 E4. destruct (F3 x Hx) as (Vx & Ex & Rx).
    eapply CT_weaken; [apply CT_GT; [exact W4|apply decompose_V; eauto using valid_mono|apply R_dec]|].
    intros r c5 _ _ (FV & V & _ & _ & L & _). split; [exact L|exact FV].
  - intros bits c4 W4 E4 FB. assert (LB : length (concat bits) = (length e * 256)%nat).
    { clear -FB. induction FB as [|x y l l' [H _] FB IH]; [reflexivity|]. cbn [concat]. rewrite app_length, IH. cbn [length]. unfold acond in *. lia. }
    assert (VB : Forall (valid c4) (concat bits ++ k_padding one zero (length e * 256))).
    { apply Forall_app. split; [|apply k_padding_valid; eauto using valid_mono, extends_trans].
      apply Forall_concat'. apply F2_Forall_r in FB. eapply Forall_impl; [|exact FB]. intros a [_ Ha]. exact Ha. }
    assert (LL : length (concat bits ++ k_padding one zero (length e * 256)) = (nblocks (length e) * ABSORB_BITS_RATE)%nat).
    { unfold acond in *. rewrite app_length, k_padding_length, LB. destruct (nblocks_spec (length e)) as (j & EJ & _). lia. }
    eapply CT_bind; [apply absorb_all_V; [exact W4|eapply vst_mono; eauto| |]|].
    + apply (proj1 (chunks_even ABSORB_BITS_RATE (nblocks (length e)) _ ltac:(unfold ABSORB_BITS_RATE; lia) LL)).
    + apply Forall_concat_inv. rewrite chunks_concat by (unfold ABSORB_BITS_RATE; lia). exact VB.
    + intros st' c5 W5 E5 V5. unfold compose_to_scalar_be. cbn [map concat].
      destruct (vl_rev_bytes _ _ (vst_lane _ _ 0 0 V5 ltac:(lia) ltac:(lia))) as [L0 F0].
      destruct (vl_rev_bytes _ _ (vst_lane _ _ 1 0 V5 ltac:(lia) ltac:(lia))) as [L1 F1].
      destruct (vl_rev_bytes _ _ (vst_lane _ _ 2 0 V5 ltac:(lia) ltac:(lia))) as [L2 F2].
      destruct (vl_rev_bytes _ _ (vst_lane _ _ 3 0 V5 ltac:(lia) ltac:(lia))) as [L3 F4].
      apply CT_assert_k; [unfold acond in *; rewrite !app_length, L0, L1, L2, L3; reflexivity|].
      eapply CT_bind; [apply assign_constant_CT; auto; lia|]. intros acc c6 W6 E6 [V6 _]. eapply compose_loop_V; [reflexivity|exact W6|exact V6|].
      eapply Forall_impl; [intros a; apply valid_mono; exact E6|]. repeat (apply Forall_app; split); auto.
Qed.
End CT.
