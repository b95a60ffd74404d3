(** Pairing gadgets: lengths, whole pairings in any world, and the passage to
    statements about assignments and honest runs. *)
From Coq Require Import Znumtheory Setoid Morphisms.
From Verif Require Import Prelude FieldZ Circuit Context Spec Logic ModArith Prims BaseChip BaseProofs
  RangeInfo RangeChip IntegerChip SpecInt InfoProofs IntArith RangeProofs IntInv IntSound IntComplete IntBridge
  IntRes EccChip EccBridge SpecTower TowerRing Frobenius Cyclotomic Moduli PairingConsts Fq12Chip PairingChip TowerProofs TowerInst PairingFacts PairingExp SpecPairing
  PairingProofs SpecAte PairingCurve PairingAte TowerField SpecTowerRep TowerBridge SpecPairingRep NativeMain.

(** ** Successful runs, whatever the circuit *)
Definition PC {NM : NMod} {X} (m : M X) (Q : X -> Prop) : Prop := forall c x c', m c = Ok (x, c') -> Q x.
Section Runs.
Context {NM : NMod}.
Lemma PC_ret {X} (x : X) (Q : X -> Prop) : Q x -> PC (mret x) Q.
Proof. intros H c y c' E. injection E as <- _. exact H. Qed.
Lemma PC_bind {X Y} (m : M X) (f : X -> M Y) P Q : PC m P -> (forall x, P x -> PC (f x) Q) -> PC (mbind m f) Q.
Proof.
  intros H1 H2 c y c' E. unfold mbind in E. destruct (m c) as [[x c1]|] eqn:E1; [|discriminate].
  eapply H2; [eapply H1, E1|exact E].
Qed.
Lemma PC_weaken {X} (m : M X) (P Q : X -> Prop) : PC m P -> (forall x, P x -> Q x) -> PC m Q.
Proof. intros H K c x c' E. eapply K, H, E. Qed.
Lemma PC_any {X} (m : M X) : PC m (fun _ => True). Proof. intros c x c' _. exact Logic.I. Qed.
Lemma PC_skip {X Y} (m : M X) (f : X -> M Y) Q : (forall x, PC (f x) Q) -> PC (mbind m f) Q.
Proof. intros H. eapply PC_bind; [apply PC_any|auto]. Qed.
Lemma PC_foldM {X S} (f : S -> X -> M S) (J : list X -> S -> Prop) :
  (forall x l s, J (x :: l) s -> PC (f s x) (J l)) -> forall l s, J l s -> PC (foldM f s l) (J []).
Proof.
  intros H l. induction l as [|x l IH]; intros s Hs; cbn [foldM]; [apply PC_ret, Hs|].
  eapply PC_bind; [apply H, Hs|]. intros s' Hs'. apply IH, Hs'.
Qed.
Lemma PC_mapM_assert {X} (b : X -> bool) l : PC (mapM (fun x => massert (b x)) l) (fun _ => Forall (fun x => b x = true) l).
Proof.
  induction l as [|x l IH]; cbn [mapM]; [apply PC_ret; constructor|].
  eapply (PC_bind _ _ (fun _ => b x = true)).
  - intros c y c' E. unfold massert in E. destruct (b x); [reflexivity|discriminate].
  - intros u Hx. eapply PC_bind; [exact IH|]. intros us Hl. apply PC_ret. constructor; assumption.
Qed.

(** Remaining coefficients after [n] lines. *)
Definition after (n : nat) (ps qs : apairs) : Prop :=
  Forall2 (fun p q : apoint * list acoeff => length (snd p) = n + length (snd q))%nat ps qs.
Lemma after_trans m n a b c : after m a b -> after n b c -> after (m + n) a c.
Proof.
  intros H. revert c. induction H as [|x y a b E H IH]; intros c K; inversion K; subst; constructor; [lia|]. apply IH. assumption.
Qed.
Lemma after_0 a : after 0 a a. Proof. induction a; constructor; [reflexivity|assumption]. Qed.
Lemma PC_ell_all ell st : PC (ell_all ell st) (fun r => after 1 (snd st) (snd r)).
Proof.
  unfold ell_all. destruct st as [f ps]. cbn [fst snd].
  eapply PC_bind; [eapply (PC_foldM _ (fun l s => exists l0, ps = l0 ++ l /\ after 1 l0 (rev (snd s))))|].
  - intros [p cs] l s (l0 & E & H). cbn [fst snd]. destruct cs as [|c cs]; cbn [hd_error mopt].
    { intros ? ? ? ?. discriminate. }
    eapply PC_bind; [apply PC_any|]. intros k _. apply PC_skip. intros f'. apply PC_ret. exists (l0 ++ [(p, c :: cs)]).
    split; [rewrite <- app_assoc; exact E|]. cbn [snd rev]. apply Forall2_app; [exact H|]. constructor; [reflexivity|constructor].
  - exists []. split; [reflexivity|constructor].
  - intros r (l0 & E & H). rewrite app_nil_r in E. subst l0. apply PC_ret. cbn [snd]. exact H.
Qed.
Variable I : rinfo.

(** *** bn256 *)
Lemma uses_case d : uses d = if d =? 1 then 2%nat else if d =? -1 then 2%nat else 1%nat.
Proof. unfold uses. destruct (d =? 1); [reflexivity|]. destruct (d =? -1); reflexivity. Qed.
Lemma bn_prepare_length g : PC (bn_prepare_g2 I g) (fun r => length r = bn_total).
Proof.
  unfold bn_prepare_g2. apply PC_skip. intros n. apply PC_skip. intros r.
  eapply PC_bind; [eapply (PC_foldM _ (fun l s => length (snd s) + count (map bn_digit l) 0 = count bn_digits 0)%nat)|].
  - intros i l s H. change (count (map bn_digit (i :: l)) 0) with (uses (bn_digit i) + count (map bn_digit l) 0)%nat in H.
    rewrite uses_case in H. apply PC_skip. intros d. cbv zeta. change (nth (i - 1) SIX_U_PLUS_2_NAF 0) with (bn_digit i). destruct (bn_digit i =? 1); [|destruct (bn_digit i =? -1)].
    + apply PC_skip. intros a. apply PC_ret. cbn [snd]. rewrite !app_length. cbn [length]. lia.
    + apply PC_skip. intros a. apply PC_ret. cbn [snd]. rewrite !app_length. cbn [length]. lia.
    + apply PC_ret. cbn [snd]. rewrite !app_length. cbn [length]. lia.
  - rewrite bn_digits_map. reflexivity.
  - intros s H. do 10 (apply PC_skip; intros ?). apply PC_ret. rewrite !app_length, bn_total_count, count_add.
    cbv beta in H. change (count (map bn_digit []) 0) with 0%nat in H. cbn [length]. lia.
Qed.
Lemma bn_miller_length l : PC (bn_multi_miller_loop I l) (fun _ => Forall (fun t => length (snd t) = bn_total) l).
Proof.
  unfold bn_multi_miller_loop. do 2 (apply PC_skip; intros ?).
  eapply PC_bind; [eapply (PC_foldM _ (fun idx s => exists n, after n l (snd s) /\ n + count (map bn_digit idx) 0 = count bn_digits 0)%nat)|].
  - intros i idx s (n & H & E). change (count (map bn_digit (i :: idx)) 0) with (uses (bn_digit i) + count (map bn_digit idx) 0)%nat in E.
    rewrite uses_case in E. apply PC_skip. intros f. eapply PC_bind; [apply PC_ell_all|]. intros s1 H1. cbn [snd] in H1.
    pose proof (after_trans _ _ _ _ _ H H1) as K. cbv zeta. change (nth (i - 1) SIX_U_PLUS_2_NAF 0) with (bn_digit i). destruct (bn_digit i =? 1); [|destruct (bn_digit i =? -1)].
    + eapply PC_weaken; [apply PC_ell_all|]. intros s2 H2. eexists; split; [exact (after_trans _ _ _ _ _ K H2)|lia].
    + eapply PC_weaken; [apply PC_ell_all|]. intros s2 H2. eexists; split; [exact (after_trans _ _ _ _ _ K H2)|lia].
    + apply PC_ret. eexists; split; [exact K|lia].
  - exists 0%nat. split; [apply after_0|]. rewrite bn_digits_map. reflexivity.
  - intros s (n & H & E). eapply PC_bind; [apply PC_ell_all|]. intros s1 H1. eapply PC_bind; [apply PC_ell_all|]. intros s2 H2.
    pose proof (after_trans _ _ _ _ _ (after_trans _ _ _ _ _ H H1) H2) as K.
    eapply PC_bind; [apply (PC_mapM_assert (fun pq : apoint * list acoeff => match snd pq with [] => true | _ => false end))|].
    intros us N. apply PC_ret. rewrite bn_total_count, count_add. cbv beta in E. change (count (map bn_digit []) 0) with 0%nat in E.
    replace (count bn_digits 0 + 2)%nat with (n + 1 + 1)%nat by lia. clear - K N.
    induction K as [|x y a b E K IH]; [constructor|]. inversion N as [|? ? N1 N2]; subst. constructor; [|apply IH, N2].
    rewrite E. destruct (snd y); [cbn [length]; lia|discriminate].
Qed.

(** *** bls12-381 *)
Lemma bls_left_true l : bls_left true l = S (bcount l).
Proof. induction l as [|b l IH]; [reflexivity|]. cbn [bls_left]. rewrite IH. unfold bcount. cbn [map count fold_right]. destruct b; unfold count, uses; cbn [Z.eqb Pos.eqb orb]; lia. Qed.
Lemma bls_prepare_length g : PC (bls_prepare_g2 I g) (fun r => length r = bls_total).
Proof.
  unfold bls_prepare_g2. apply PC_skip. intros f.
  eapply PC_bind; [eapply (PC_foldM _ (fun l s => length (snd (snd s)) + bls_left (fst s) l = bls_total)%nat)|].
  - intros i l [b [p cs]] H. cbn [fst snd bls_left] in *. destruct b; cbn [negb].
    + apply PC_skip. intros d. destruct i.
      * apply PC_skip. intros a. apply PC_ret. cbn [fst snd]. rewrite !app_length. cbn [length]. lia.
      * apply PC_ret. cbn [fst snd]. rewrite !app_length. cbn [length]. lia.
    + apply PC_ret. cbn [fst snd]. exact H.
  - reflexivity.
  - intros s H. apply PC_skip. intros d. apply PC_ret. rewrite app_length. cbn [length bls_left] in *. lia.
Qed.
Lemma bls_miller_length l : PC (bls_multi_miller_loop I l) (fun _ => Forall (fun t => (bls_total <= length (snd t))%nat) l).
Proof.
  unfold bls_multi_miller_loop. do 2 (apply PC_skip; intros ?).
  eapply PC_bind; [eapply (PC_foldM _ (fun bits s => exists n, after n l (snd (snd s)) /\ n + bls_left (fst s) bits = bls_total)%nat)|].
  - intros i bits [b [f ps]] (n & H & E). cbn [fst snd bls_left] in *. destruct b; cbn [negb].
    + eapply PC_bind; [apply PC_ell_all|]. intros s1 H1. cbn [snd] in H1. pose proof (after_trans _ _ _ _ _ H H1) as K. destruct i.
      * eapply PC_bind; [apply PC_ell_all|]. intros s2 H2. apply PC_skip. intros f2. apply PC_ret. cbn [fst snd].
        eexists; split; [exact (after_trans _ _ _ _ _ K H2)|lia].
      * eapply PC_bind; [apply (PC_ret s1 (eq s1)); reflexivity|]. intros s2 <-. apply PC_skip. intros f2. apply PC_ret. cbn [fst snd]. eexists; split; [exact K|lia].
    + apply PC_ret. cbn [fst snd]. exists n. auto.
  - exists 0%nat. split; [apply after_0|reflexivity].
  - intros s (n & H & E). eapply PC_bind; [apply PC_ell_all|]. intros s1 H1.
    pose proof (after_trans _ _ _ _ _ H H1) as K. intros ? ? ? _. cbn [bls_left] in E. rewrite <- E. clear - K.
    induction K as [|x y a b E K IH]; [constructor|]. constructor; [lia|exact IH].
Qed.
End Runs.

(** ** Pairings in any world *)
Lemma F2_impl {A B} (P Q : A -> B -> Prop) l m : (forall a b, P a b -> Q a b) -> Forall2 P l m -> Forall2 Q l m.
Proof. intros K H. induction H; constructor; auto. Qed.
Definition repG1 W (rep : W -> aint -> Z -> Prop) v (p : apoint) (P : Z * Z) : Prop := rep v (p_x p) (fst P) /\ rep v (p_y p) (snd P).
Definition repT W (rep : W -> aint -> Z -> Prop) v (t : apoint * ag2a) (x : (Z * Z) * G2) : Prop :=
  repG1 W rep v (fst t) (fst x) /\ repA W rep v (snd t) (snd x).
Definition bn_prepared (ts : list ((Z * Z) * G2)) : list ((Z * Z) * list F6) := map (fun t => (fst t, bn_lines (snd t))) ts.
Definition bls_prepared (ts : list ((Z * Z) * G2)) : list ((Z * Z) * list F6) := map (fun t => (fst t, bls_lines (snd t))) ts.
Section World.
Context {NM : NMod}.
Variable w : Z.
Variable I : rinfo.
Variable W : Type.
Variable le : W -> W -> Prop.
Variable TR : forall X, W -> M X -> (X -> W -> Prop) -> Prop.
Variable rep : W -> aint -> Z -> Prop.
Variable zok : W -> av -> Prop.
Variable strict : Prop.
Arguments TR {X}.
Hypothesis RU : rules w I W le (@TR) rep zok strict.
Hypothesis le_refl : forall v, le v v.
Hypothesis w_gt1 : 1 < w.
Notation "'$' f" := (f w I W le (@TR) rep zok strict RU) (at level 9).
Notation "'$$' f" := (f w I W le (@TR) rep zok strict RU le_refl w_gt1) (at level 9).

Lemma T_mapM2 {X Y Z1 Z2} (f : X -> M Y) (P : W -> X -> Z1 -> Prop) (Q : W -> Y -> Z2 -> Prop) (g : Z1 -> Z2) :
  (forall x, appends (f x)) -> (forall u v x z, le u v -> P u x z -> P v x z) -> (forall u v x z, le u v -> Q u x z -> Q v x z) ->
  (forall v x z, P v x z -> TR v (f x) (fun y u => Q u y (g z))) ->
  forall l zs v, Forall2 (P v) l zs -> TR v (mapM f l) (fun ys u => Forall2 (Q u) ys (map g zs)).
Proof.
  intros Af HP HQ Hf l. induction l as [|x l IH]; intros zs v H; inversion H; subst; cbn [mapM map].
  - apply ($ T_ret). constructor.
  - eapply ($ T_bind); [apply Hf; eassumption|apply Af|intros; apply appends_bind; [apply appends_mapM; exact Af|intros; apply appends_ret]|]. intros r u L Hr. cbv beta in Hr.
    eapply ($ T_bind); [apply IH|apply appends_mapM; exact Af|intros; apply appends_ret|].
    { eapply F2_impl; [|eassumption]. intros a b K. cbv beta in K. eapply HP; eauto. }
    intros ys u' L' Hys. apply ($ T_ret). constructor; [eapply HQ; eauto|exact Hys].
Qed.
Lemma flags_split v (l : list (apoint * ag2a)) : Forall (zok v) (pair_flags l) <-> Forall (fun t => zok v (p_z (fst t)) /\ zok v (ga_z (snd t))) l.
Proof.
  induction l as [|t l IH]; cbn [pair_flags flat_map app]; [split; constructor|].
  unfold pair_flags in IH. split; intros H.
  - inversion H as [|? ? H1 H2]; subst. inversion H2 as [|? ? H3 H4]; subst. constructor; [auto|]. apply IH, H4.
  - inversion H as [|? ? [H1 H2] H3]; subst. constructor; [exact H1|]. constructor; [exact H2|]. apply IH, H3.
Qed.
Lemma F2_and {A B} (P : A -> B -> Prop) (Q : A -> Prop) l m : Forall2 P l m -> Forall Q l -> Forall2 (fun a b => P a b /\ Q a) l m.
Proof. intros H. induction H; intros K; inversion K; subst; constructor; auto. Qed.
Lemma repT_m u v t x : le u v -> repT W rep u t x -> repT W rep v t x.
Proof. intros L ([H1 H2] & H3). split; [split; eapply ($ rep_mono); eauto|]. eapply ($$ repA_m); eauto. Qed.
Lemma prepared_T (prepare : ag2a -> M (list acoeff)) (lines : G2 -> list F6) :
  (forall g, appends (prepare g)) ->
  (forall v g q, repA W rep v g q -> zok v (ga_z g) -> TR v (prepare g) (fun r u => repL W rep u r (lines q))) ->
  forall l ts v, Forall2 (repT W rep v) l ts -> Forall (zok v) (pair_flags l) ->
  TR v (mapM (fun t => q <- prepare (snd t) ;; mret (fst t, q)) l)
    (fun r u => Forall2 (repP W rep u) r (map (fun t => (fst t, lines (snd t))) ts) /\ Forall (fun t => zok u (p_z (fst t))) r).
Proof.
  intros Ap Hp l ts v H HZ. apply flags_split in HZ. pose proof (F2_and _ _ _ _ H HZ) as K.
  eapply ($ T_weaken).
  - eapply (T_mapM2 _ (fun u t x => repT W rep u t x /\ zok u (p_z (fst t)) /\ zok u (ga_z (snd t)))
      (fun u r x => repP W rep u r x /\ zok u (p_z (fst r))) (fun t => (fst t, lines (snd t)))); [| | | |exact K].
    + intros t. apply appends_bind; [apply Ap|intros; apply appends_ret].
    + intros u u' t x L (H1 & H2 & H3). split; [eapply repT_m; eauto|]. split; eapply ($ zok_mono); eauto.
    + intros u u' t x L (H1 & H2). split; [eapply ($$ repP_m); eauto|]. eapply ($ zok_mono); eauto.
    + intros u t x ((H1 & H2) & H3 & H4). eapply ($ T_bind); [apply Hp; eassumption|apply Ap|intros; apply appends_ret|].
      intros r u' L Hr. cbv beta in Hr. apply ($ T_ret). cbn [fst snd]. destruct H1 as [Hx Hy].
      split; [split; [eapply ($ rep_mono); eauto|split; [eapply ($ rep_mono); eauto|exact Hr]]|]. eapply ($ zok_mono); eauto.
  - intros r u L Hr. split; [eapply F2_impl; [|exact Hr]; cbv beta; tauto|].
    clear - Hr. induction Hr; constructor; [tauto|assumption].
Qed.

Section Bn.
Hypothesis Ew : w = bn256_fq_p.
Notation unit12 := (fun f : F12 => exists y, eq12 w (mul12 bn_xi f y) one12).
Lemma bn_prepared_ok ts : bn_all_ok (bn_prepared ts).
Proof. unfold bn_all_ok, bn_prepared. apply Forall_map. apply Forall_forall. intros t _. apply bn_lines_length. Qed.
Lemma bn_pairing_T v l ts : Forall2 (repT W rep v) l ts -> Forall (zok v) (pair_flags l) ->
  (strict -> unit12 (bn_mresult (bn_prepared ts))) ->
  TR v (bn_pairing I l) (fun r u => unit12 (bn_mresult (bn_prepared ts)) /\
    rep12 W rep u r (pow12 bn_xi (bn_mresult (bn_prepared ts)) ((w ^ 12 - 1) / bn256_fr_p))).
Proof.
  intros H HZ HS. unfold bn_pairing, pairing.
  eapply ($ T_bind); [eapply (prepared_T (bn_prepare_g2 I) bn_lines); [intros; app3|apply ($$ bn_prepare_g2_T); exact Ew|exact H|exact HZ]|app3|intros; app3|].
  intros pr u L [H1 H2]. change (map (fun t => (fst t, bn_lines (snd t))) ts) with (bn_prepared ts) in H1.
  eapply ($ T_bind); [apply ($$ bn_miller_T); [exact Ew|exact H1|apply bn_prepared_ok|exact H2]|app3|intros; app3|].
  intros f u' L' Hf. apply ($$ bn_final_T); [exact Ew|exact Hf|exact HS].
Qed.
Lemma bn_check_pairing_T v l ts : Forall2 (repT W rep v) l ts -> Forall (zok v) (pair_flags l) ->
  (strict -> unit12 (bn_mresult (bn_prepared ts)) /\ eq12 w (pow12 bn_xi (bn_mresult (bn_prepared ts)) ((w ^ 12 - 1) / bn256_fr_p)) one12) ->
  TR v (bn_check_pairing I l) (fun _ _ => eq12 w (pow12 bn_xi (bn_mresult (bn_prepared ts)) ((w ^ 12 - 1) / bn256_fr_p)) one12).
Proof.
  intros H HZ HS. unfold bn_check_pairing.
  eapply ($ T_bind); [apply bn_pairing_T; [exact H|exact HZ|intros K; apply HS, K]|app3|intros; app3|].
  intros r u L [_ Hr]. apply (fq12_assert_one_T w I W le (@TR) rep zok strict RU bn_xi (bn_nonres I) ($$ bn_nonres_T) (appends_bn_nonres I) w_gt1); [exact Hr|]. intros K. apply HS, K.
Qed.
End Bn.
Section Bls.
Hypothesis Ew : w = bls12_381_fq_p.
Notation unit12 := (fun f : F12 => exists y, eq12 w (mul12 bls_xi f y) one12).
Lemma bls_prepared_ok ts : bls_all_ok (bls_prepared ts).
Proof. unfold bls_all_ok, bls_prepared. apply Forall_map. apply Forall_forall. intros t _. cbn [snd]. rewrite bls_lines_length. lia. Qed.
Lemma bls_pairing_T v l ts : Forall2 (repT W rep v) l ts -> Forall (zok v) (pair_flags l) ->
  (strict -> unit12 (bls_mresult (bls_prepared ts))) ->
  TR v (bls_pairing I l) (fun r u => unit12 (bls_mresult (bls_prepared ts)) /\
    rep12 W rep u r (pow12 bls_xi (bls_mresult (bls_prepared ts)) (3 * ((w ^ 12 - 1) / bls12_381_fr_p)))).
Proof.
  intros H HZ HS. unfold bls_pairing, pairing.
  eapply ($ T_bind); [eapply (prepared_T (bls_prepare_g2 I) bls_lines); [intros; app3|apply ($$ bls_prepare_g2_T); exact Ew|exact H|exact HZ]|app3|intros; app3|].
  intros pr u L [H1 H2]. change (map (fun t => (fst t, bls_lines (snd t))) ts) with (bls_prepared ts) in H1.
  eapply ($ T_bind); [apply ($$ bls_miller_T); [exact Ew|exact H1|apply bls_prepared_ok|exact H2]|app3|intros; app3|].
  intros f u' L' Hf. apply ($$ bls_final_T); [exact Ew|exact Hf|exact HS].
Qed.
Lemma bls_check_pairing_T v l ts : Forall2 (repT W rep v) l ts -> Forall (zok v) (pair_flags l) ->
  (strict -> unit12 (bls_mresult (bls_prepared ts)) /\ eq12 w (pow12 bls_xi (bls_mresult (bls_prepared ts)) (3 * ((w ^ 12 - 1) / bls12_381_fr_p))) one12) ->
  TR v (bls_check_pairing I l) (fun _ _ => eq12 w (pow12 bls_xi (bls_mresult (bls_prepared ts)) (3 * ((w ^ 12 - 1) / bls12_381_fr_p))) one12).
Proof.
  intros H HZ HS. unfold bls_check_pairing.
  eapply ($ T_bind); [apply bls_pairing_T; [exact H|exact HZ|intros K; apply HS, K]|app3|intros; app3|].
  intros r u L [_ Hr]. apply (fq12_assert_one_T w I W le (@TR) rep zok strict RU bls_xi (bls_nonres I) ($$ bls_nonres_T) (appends_bls_nonres I) w_gt1); [exact Hr|]. intros K. apply HS, K.
Qed.
End Bls.
End World.

(** ** From lines of the ate pairing to the value of the gadgets *)
Lemma steps_monic w Q ds T T' ls : steps w Q ds T T' ls -> Forall (fun l => fst (fst l) = one2) ls.
Proof. induction 1; repeat constructor; assumption. Qed.
Lemma F2_length {A B} (P : A -> B -> Prop) l m : Forall2 P l m -> length l = length m.
Proof. induction 1; cbn [length]; auto. Qed.
Lemma monic_unit w xi (field12 : forall x, ~ eq12 w x zero12 -> exists y, eq12 w (mul12 xi x y) one12) (f : F12) (y : Z) (a b : F2) :
  eq2 w a (smul2 y one2) -> (eq12 w f zero12 -> eq2 w a zero2) -> y mod w <> 0 -> exists g, eq12 w (mul12 xi f g) one12.
Proof.
  intros H K Y. apply field12. intros E. apply K in E. rewrite H in E. destruct E as [E _]. apply Y.
  change (1 * y ≡ 0 ⟨w⟩) in E. rewrite Z.mul_1_l in E. unfold eqm in E. rewrite E. destruct (Z.eq_dec w 0) as [->|N]; [reflexivity|]. apply Z.mod_0_l, N.
Qed.

(** The exponent, when r divides the cyclotomic value. *)
Lemma exponent_split p r : 0 < p -> 0 < r -> (r | Phi p) ->
  exists m, 0 <= m /\ (p ^ 12 - 1) / r = (p ^ 6 - 1) * m /\ (p ^ 12 - 1) / r = (p ^ 2 - 1) * ((p ^ 4 + p ^ 2 + 1) * m).
Proof.
  intros Hp Hr [q E]. exists ((p ^ 2 + 1) * q). unfold Phi in E.
  assert (Q : 0 <= q) by nia.
  assert (X : (p ^ 12 - 1) / r = (p ^ 6 - 1) * ((p ^ 2 + 1) * q)).
  { replace (p ^ 12 - 1) with ((p ^ 6 - 1) * ((p ^ 2 + 1) * (p ^ 4 - p ^ 2 + 1))) by ring. rewrite E.
    replace ((p ^ 6 - 1) * ((p ^ 2 + 1) * (q * r))) with ((p ^ 6 - 1) * ((p ^ 2 + 1) * q) * r) by ring. apply Z.div_mul. lia. }
  split; [nia|]. split; [exact X|]. rewrite X. ring.
Qed.
Lemma bn_r_div : (bn256_fr_p | Phi bn256_fq_p).
Proof. apply Z.mod_divide; [discriminate|]. vm_cast_no_check (eq_refl 0). Qed.
Lemma bls_r_div : (bls12_381_fr_p | Phi bls12_381_fq_p).
Proof. apply Z.mod_divide; [discriminate|]. vm_cast_no_check (eq_refl 0). Qed.
Lemma bn_exponents : exists m, 0 <= m /\ (bn256_fq_p ^ 12 - 1) / bn256_fr_p = (bn256_fq_p ^ 6 - 1) * m /\
  (bn256_fq_p ^ 12 - 1) / bn256_fr_p = (bn256_fq_p ^ 2 - 1) * ((bn256_fq_p ^ 4 + bn256_fq_p ^ 2 + 1) * m).
Proof. apply exponent_split; [reflexivity|reflexivity|exact bn_r_div]. Qed.
Lemma bls_exponents : exists m, 0 <= m /\ (bls12_381_fq_p ^ 12 - 1) / bls12_381_fr_p = (bls12_381_fq_p ^ 6 - 1) * m /\
  (bls12_381_fq_p ^ 12 - 1) / bls12_381_fr_p = (bls12_381_fq_p ^ 2 - 1) * ((bls12_381_fq_p ^ 4 + bls12_381_fq_p ^ 2 + 1) * m).
Proof. apply exponent_split; [reflexivity|reflexivity|exact bls_r_div]. Qed.

Section BnValue.
Variable w : Z.
Hypothesis Ew : w = bn256_fq_p.
Hypothesis P : prime w.
Hypothesis P4 : w mod 4 = 3.
Hypothesis field2 : forall x, ~ eq2 w x zero2 -> exists y, eq2 w (mul2 x y) one2.
Hypothesis field12 : forall x, ~ eq12 w x zero12 -> exists y, eq12 w (mul12 bn_xi x y) one12.
Hypothesis w_odd : 2 < w.
Variables (ts : list ((Z * Z) * G2)) (ls : list ((Z * Z) * list F6)).
Hypothesis H : Forall2 (fun t l => fst t = fst l /\ bn_ate_lines w bn_digits (snd t) (snd l)) ts ls.
Lemma bn_prepared_sim : Forall2 (tsim w) (bn_prepared ts) ls.
Proof.
  induction H as [|t l ts0 ls0 [E K] HF IH]; cbn [bn_prepared map]; [constructor|]. constructor; [|exact (IH HF)].
  split; [exact E|]. apply (bn_ate_multiple w Ew field2 w_odd), K.
Qed.
Lemma bn_value e n : 0 <= n -> e = (w ^ 2 - 1) * n ->
  eq12 w (pow12 bn_xi (bn_mresult (bn_prepared ts)) e) (pow12 bn_xi (fst (bn_miller bn_digits ls)) e).
Proof.
  intros N E. rewrite bn_mresult_spec. eapply (sim_pow w bn_xi field2 w_odd); try eassumption.
  apply (bn_miller_sim w field2 w_odd). exact bn_prepared_sim.
Qed.
Lemma bn_ate_unit : Forall (fun t : (Z * Z) * G2 => snd (fst t) mod w <> 0) ts ->
  exists y, eq12 w (mul12 bn_xi (fst (bn_miller bn_digits ls)) y) one12.
Proof.
  intros Y. 
  eapply (bn_miller_unit w ls bn_total); [|exact bn_digits_ok|symmetry; exact bn_total_count].
  induction H as [|t l ts0 ls0 [E K] HF IH]; [constructor|]. pose proof (Forall_inv Y) as Y1. pose proof (Forall_inv_tail Y) as Y2. constructor; [|apply IH; assumption].
  pose proof (bn_ate_multiple w Ew field2 w_odd _ _ K) as M. apply F2_length in M. rewrite bn_lines_length in M. split; [symmetry; exact M|].
  assert (L1 : Forall (fun l => fst (fst l) = one2) (snd l)).
  { destruct K as (T & l1 & mu & nu & S & K). cbv zeta in K. destruct K as (_ & _ & _ & _ & ->). apply Forall_app. split; [eapply steps_monic, S|].
    repeat constructor. }
  eapply Forall_impl; [|exact L1]. cbv beta. intros [[a b] c] Ea. cbn [fst snd] in Ea. subst a. unfold good_line, bn_line.
  rewrite <- E. eapply (monic_unit w bn_xi field12 _ (snd (fst t)) (smul2 (snd (fst t)) one2) zero2); [reflexivity| |exact Y1].
  intros [[Q _] _]. exact Q.
Qed.
Lemma bn_value_unit : Forall (fun t : (Z * Z) * G2 => snd (fst t) mod w <> 0) ts ->
  exists y, eq12 w (mul12 bn_xi (bn_mresult (bn_prepared ts)) y) one12.
Proof.
  intros Y. rewrite bn_mresult_spec. eapply (unit_sim w bn_xi field2); [apply (bn_miller_sim w field2 w_odd); exact bn_prepared_sim|]. exact (bn_ate_unit Y).
Qed.
End BnValue.
Section BlsValue.
Variable w : Z.
Hypothesis P : prime w.
Hypothesis P4 : w mod 4 = 3.
Hypothesis field2 : forall x, ~ eq2 w x zero2 -> exists y, eq2 w (mul2 x y) one2.
Hypothesis field12 : forall x, ~ eq12 w x zero12 -> exists y, eq12 w (mul12 bls_xi x y) one12.
Hypothesis w_odd : 2 < w.
Variables (ts : list ((Z * Z) * G2)) (ls : list ((Z * Z) * list F6)).
Hypothesis H : Forall2 (fun t l => fst t = fst l /\ bls_ate_lines w bls_digits (snd t) (snd l)) ts ls.
Lemma bls_prepared_sim : Forall2 (tsim w) (bls_prepared ts) ls.
Proof.
  induction H as [|t l ts0 ls0 [E K] HF IH]; cbn [bls_prepared map]; [constructor|]. constructor; [|exact (IH HF)].
  split; [exact E|]. apply (bls_ate_multiple w field2 w_odd), K.
Qed.
Lemma bls_value e n : 0 <= n -> e = (w ^ 2 - 1) * n ->
  eq12 w (pow12 bls_xi (bls_mresult (bls_prepared ts)) e) (pow12 bls_xi (fst (bls_miller bls_digits ls)) e).
Proof.
  intros N E. rewrite bls_mresult_spec. eapply (sim_pow w bls_xi field2 w_odd); try eassumption.
  apply (bls_miller_sim w field2 w_odd). exact bls_prepared_sim.
Qed.
Lemma bls_ate_unit : Forall (fun t : (Z * Z) * G2 => snd (fst t) mod w <> 0) ts ->
  exists y, eq12 w (mul12 bls_xi (fst (bls_miller bls_digits ls)) y) one12.
Proof.
  intros Y. 
  eapply (bls_miller_unit w ls bls_total); [|symmetry; exact bls_total_count].
  induction H as [|t l ts0 ls0 [E K] HF IH]; [constructor|]. pose proof (Forall_inv Y) as Y1. pose proof (Forall_inv_tail Y) as Y2. constructor; [|apply IH; assumption].
  pose proof (bls_ate_multiple w field2 w_odd _ _ K) as M. apply F2_length in M. rewrite bls_lines_length in M. split; [symmetry; exact M|].
  assert (L1 : Forall (fun l => fst (fst l) = one2) (snd l)).
  { destruct K as (T & l1 & lam & S & _ & _ & ->). apply Forall_app. split; [eapply steps_monic, S|]. repeat constructor. }
  eapply Forall_impl; [|exact L1]. cbv beta. intros [[a b] c] Ea. cbn [fst snd] in Ea. subst a. unfold good_line, bls_line.
  rewrite <- E. eapply (monic_unit w bls_xi field12 _ (snd (fst t)) (smul2 (snd (fst t)) one2) zero2); [reflexivity| |exact Y1].
  intros [_ (_ & Q & _)]. exact Q.
Qed.
Lemma bls_value_unit : Forall (fun t : (Z * Z) * G2 => snd (fst t) mod w <> 0) ts ->
  exists y, eq12 w (mul12 bls_xi (bls_mresult (bls_prepared ts)) y) one12.
Proof.
  intros Y. rewrite bls_mresult_spec. eapply (unit_sim w bls_xi field2); [apply (bls_miller_sim w field2 w_odd); exact bls_prepared_sim|]. exact (bls_ate_unit Y).
Qed.
End BlsValue.

(** ** Bridges *)
Section Bridge.
Context {NM : NMod}.
Variable w : Z.
Variable I : rinfo.
Hypothesis IO : info_ok w I.
Hypothesis n_prime : prime nmod.
Hypothesis w_prime : prime w.
Lemma bjac : bridge w I (jacr w) repJ.
Proof. constructor; intros; unfold repJ; cbn [fst snd jacr]; [rewrite !(br_sat _ _ _ _ (b2 w I IO))|rewrite !(br_hon _ _ _ _ (b2 w I IO))]; reflexivity. Qed.
Lemma bg2 : bridge w I (g2r w) repA.
Proof. constructor; intros; unfold repA; cbn [fst snd g2r]; [rewrite !(br_sat _ _ _ _ (b2 w I IO))|rewrite !(br_hon _ _ _ _ (b2 w I IO))]; reflexivity. Qed.
Lemma bg1 : bridge w I (g1r w) repG1.
Proof. constructor; intros; unfold repG1; cbn [fst snd g1r]; [rewrite !(fq_sat w I IO)|rewrite !(fq_hon w I IO)]; reflexivity. Qed.
Lemma F2_iff {A B} (Q R : A -> B -> Prop) l m : (forall a b, Q a b <-> R a b) -> (Forall2 Q l m <-> Forall2 R l m).
Proof. intros E. split; apply F2_impl; intros; apply E; assumption. Qed.
Lemma blist {X Y} (R : rel X Y) repn (B : bridge w I R repn) : bridge w I (listr R) (fun W rep v => Forall2 (repn W rep v)).
Proof. constructor; intros; cbn [fst snd listr]; apply F2_iff; intros; [apply (br_sat _ _ _ _ B)|apply (br_hon _ _ _ _ B)]. Qed.
Lemma bunit : bridge w I unitr (fun W rep v _ _ => True).
Proof. constructor; intros; reflexivity. Qed.

Lemma cmap {X Y X' Y'} (R : rel X Y) repn (B : bridge w I R repn) (R' : rel X' Y') repn' (B' : bridge w I R' repn')
    (flags : X -> list av) (g : X -> M X') (pre : Y -> Prop) (post : Y -> Y' -> Prop) (dom : X -> Y -> Prop) :
  (forall A a, PC (g a) (fun _ => forall x, fst R (at_ A) a x -> dom a x)) ->
  (forall c a x, snd R c a x -> pre x -> dom a x) ->
  anyworld w I (fun W le TR rep zok strict => forall v a x, dom a x -> repn W rep v a x -> Forall (zok v) (flags a) -> (strict -> pre x) ->
    TR X' v (g a) (fun r u => exists y, repn' W rep u r y /\ post x y)) ->
  maps w R R' flags g pre post.
Proof.
  intros HD HP H. split.
  - intros a. apply ST_sound. intros T A HA. intros c r c' WC E S x Hx. pose proof (HD A a c r c' E x Hx) as D. apply (br_sat _ _ _ _ B) in Hx.
    assert (Z0 : Forall (szok tt) (flags a)) by (apply Forall_forall; intros; exact Logic.I).
    destruct (world_sat w I IO n_prime w_prime _ H T A HA tt a x D Hx Z0 (False_ind _) c r c' WC E S) as (y & Hy & K).
    exists y. split; [apply (br_sat _ _ _ _ B'), Hy|exact K].
  - intros S c a x W Ha HF Hpre. pose proof (HP c a x Ha Hpre) as D. apply (br_hon _ _ _ _ B) in Ha. apply CT_accepts.
    eapply CT_weaken; [apply (world_hon w I IO n_prime w_prime _ S H c a x D Ha HF (fun _ => Hpre)), W|].
    intros r c' _ _ (y & Hy & K). exists y. split; [apply (br_hon _ _ _ _ B'), Hy|exact K].
Qed.
Lemma cmap_total {X Y X' Y'} (R : rel X Y) repn (B : bridge w I R repn) (R' : rel X' Y') repn' (B' : bridge w I R' repn')
    (flags : X -> list av) (g : X -> M X') (pre : Y -> Prop) (post : Y -> Y' -> Prop) :
  anyworld w I (fun W le TR rep zok strict => forall v a x, repn W rep v a x -> Forall (zok v) (flags a) -> (strict -> pre x) ->
    TR X' v (g a) (fun r u => exists y, repn' W rep u r y /\ post x y)) ->
  maps w R R' flags g pre post.
Proof.
  intros H. apply (cmap R repn B R' repn' B' flags g pre post (fun _ _ => True)).
  - intros A a ? ? ? _ ? _. exact Logic.I.
  - intros; exact Logic.I.
  - intros W le TR rep zok strict RU LR v a x _. apply (H W le TR rep zok strict RU LR).
Qed.

(** Flags forced to zero. *)
Lemma ST_skip {X Y} T A (m : M X) (k : X -> M Y) Q : appends m -> (forall x, appends (k x)) -> (forall x, ST T A (k x) Q) -> ST T A (mbind m k) Q.
Proof. intros H1 H2 H3. eapply ST_bind; [|exact H1|exact H2|intros; apply H3]. intros ? ? ? _ _ _. exact Logic.I. Qed.
Lemma ST_first {X Y} T A (m : M X) (k : X -> M Y) (Q : Prop) : appends m -> (forall x, appends (k x)) -> ST T A m (fun _ => Q) -> ST T A (mbind m k) (fun _ => Q).
Proof. intros H1 H2 H3. eapply ST_bind; [exact H3|exact H1|exact H2|]. intros x Hx ? ? ? _ _ _. exact Hx. Qed.
Lemma zero_ST T A a : (forall y, 0 <= A y < nmod) -> ST T A (assert_false a) (fun _ => A⟦a⟧ = 0).
Proof.
  intros HA. pose proof (n_pos n_prime) as N. eapply ST_weaken; [apply assert_false_ST|]. intros r H. cbv beta in H.
  apply (eqm_small nmod); [exact H|apply HA|lia].
Qed.
Lemma mapM_ST {X Y} T A (f : X -> M Y) (Q : X -> Prop) l : (forall x, appends (f x)) -> (forall x, ST T A (f x) (fun _ => Q x)) -> ST T A (mapM f l) (fun _ => Forall Q l).
Proof.
  intros Af H. eapply ST_weaken; [apply (ST_mapM T A f l (fun x _ => Q x)); auto|]. intros ys K. clear - K. induction K; constructor; assumption.
Qed.
Lemma bn_prepare_zero T A g : (forall y, 0 <= A y < nmod) -> ST T A (bn_prepare_g2 I g) (fun _ => A⟦ga_z g⟧ = 0).
Proof.
  intros HA. unfold bn_prepare_g2. apply ST_skip; [app3|intros; app3|]. intros n. apply ST_first; [app3|intros; app3|].
  unfold g2affine_to_g2. apply ST_first; [app3|intros; app3|]. apply zero_ST, HA.
Qed.
Lemma bls_prepare_zero T A g : (forall y, 0 <= A y < nmod) -> ST T A (bls_prepare_g2 I g) (fun _ => A⟦ga_z g⟧ = 0).
Proof.
  intros HA. unfold bls_prepare_g2. apply ST_first; [app3|intros; app3|].
  unfold g2affine_to_g2. apply ST_first; [app3|intros; app3|]. apply zero_ST, HA.
Qed.
Lemma bn_miller_zero T A (l : apairs) : (forall y, 0 <= A y < nmod) -> ST T A (bn_multi_miller_loop I l) (fun _ => Forall (fun t => A⟦p_z (fst t)⟧ = 0) l).
Proof.
  intros HA. unfold bn_multi_miller_loop. apply ST_first; [app3|intros; app3|]. apply mapM_ST; [intros; app3|]. intros t. apply zero_ST, HA.
Qed.
Lemma bls_miller_zero T A (l : apairs) : (forall y, 0 <= A y < nmod) -> ST T A (bls_multi_miller_loop I l) (fun _ => Forall (fun t => A⟦p_z (fst t)⟧ = 0) l).
Proof.
  intros HA. unfold bls_multi_miller_loop. apply ST_first; [app3|intros; app3|]. apply mapM_ST; [intros; app3|]. intros t. apply zero_ST, HA.
Qed.
Lemma pairing_zero T A prepare miller final l :
  (forall g, appends (prepare g)) -> (forall l, appends (miller l)) -> (forall f, appends (final f)) ->
  (forall g, ST T A (prepare g) (fun _ => A⟦ga_z g⟧ = 0)) ->
  (forall l, ST T A (miller l) (fun _ => Forall (fun t : apoint * list acoeff => A⟦p_z (fst t)⟧ = 0) l)) ->
  ST T A (pairing prepare miller final l) (fun _ => Forall (fun z => A⟦z⟧ = 0) (pair_flags l)).
Proof.
  intros A1 A2 A3 H1 H2. unfold pairing.
  eapply ST_bind; [apply (ST_mapM T A _ l (fun t r => fst r = fst t /\ A⟦ga_z (snd t)⟧ = 0))|..].
  - intros x. apply appends_bind; [apply A1|intros; apply appends_ret].
  - intros t _. eapply ST_bind; [apply H1|apply A1|intros; apply appends_ret|]. intros q Hq. apply ST_ret. auto.
  - apply appends_mapM. intros x. apply appends_bind; [apply A1|intros; apply appends_ret].
  - intros x. apply appends_bind; auto.
  - intros pr HP. cbv beta in HP. eapply ST_bind; [apply H2|apply A2|exact A3|]. intros f Hf ? ? ? _ _ _. cbv beta in Hf.
    clear - HP Hf. induction HP as [|t r l pr [E Z1] HP IH]; cbn [pair_flags flat_map app]; [constructor|]. inversion Hf as [|? ? F1 F2']; subst.
    constructor; [rewrite <- E; exact F1|]. constructor; [exact Z1|]. apply IH, F2'.
Qed.
End Bridge.
