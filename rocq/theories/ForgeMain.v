(** A satisfying assignment of the multi-scalar multiplication 2 G on bn256 in which the
    result is not on the curve (C34). *)
From Verif Require Import Prelude FieldZ Circuit Context Spec Logic ModArith Prims BaseChip BaseProofs
  RangeInfo RangeChip IntegerChip SpecInt InfoProofs IntArith RangeProofs IntInv IntSound IntComplete IntBridge
  IntRes EccChip SpecEcc Curve EccArith EccProofs EccHonest EccBridge EccEncode EccMain SpecMsm PointSum ScalarChip ScalarProofs Msm MsmMain
  SpecShape Shape KeccakShape SpecSchedule BnOrder Moduli Fields IntMain HonestMain PropsEcc PropsTotal Forge ForgeDec ForgeRun ForgeMsm.

(** *** The points *)
Definition af (p : Z * Z) : pt := Aff (fst p) (snd p).
Lemma chord_by l x1 y1 x2 y2 x3 y3 :
  negb (x1 =? x2) && (((x1 - x2) * l) mod bn256_fq_p =? (y1 - y2) mod bn256_fq_p) && ((l * l - x1 - x2) mod bn256_fq_p =? x3)
    && ((l * (x1 - x3) - y1) mod bn256_fq_p =? y3) = true -> chord bn256_fq_p (Aff x1 y1) (Aff x2 y2) (Aff x3 y3).
Proof.
  rewrite !Bool.andb_true_iff, Bool.negb_true_iff, !Z.eqb_eq, Z.eqb_neq. intros (((N & E) & E3) & E4). split; [exact N|].
  assert (T : Aff x3 y3 = third bn256_fq_p l x1 y1 x2) by (unfold third; rewrite E3, E4; reflexivity).
  rewrite T. apply add_chord; assumption.
Qed.
Definition fR : Z * Z := (21786368759878672976027795513010934058278635123475048700738707729376287825826, 3288442270860272965558935704931099893127729357018543125960920651435858595070).
Definition fS : Z * Z := (13149026177315733872863280599314975021812763242813375685423010513947577219017, 3456469226556403043265609600133967691723790911541143246905562551164061276376).
Definition fQ : Z * Z := (4511683594752794769698765685619015985346891362151702670107313298518866612208, 3624496182252533120972283495336835490319852466063743367850204450892263957682).
Definition fG2 : Z * Z := (1368015179489954701390400359078579693043519447331113978918064868415326638035, 9918110051302171585080402603319702774565515993150576347155970296011118125764).
Definition fL0 : Z * Z := (12045206808857154683058862728725751692255244395782834932673054149804943251638, 13040511267504872414913923925486727415722280921669685554373308450898644620681).
Definition fL1 : Z * Z := (20186724451846219501450061680512601296794915153403718199638172554306309885397, 16166154685171937394706797902624727901399642724044423160818982526491984865595).
Definition fB : Z * Z := (15849766481840297467263738282566440481219557162789007691853671560690358536149, 2379947669749693506477313389955560063920550946609290096282879022849813063037).
Definition fC : Z * Z := (11009144901570062508528174887202454146254057738625165938410804083214520637193, 9766853672505885189203617144110176261417917462592099195731847996816373712249).
Definition fD : Z * Z := (3081716024110830162602152487101056313681107519147405368066834386797160279361, 14869808215080336815698813035911466865085991809163472491054609558518822310039).
Lemma ch_S : chord bn256_fq_p (af fR) (Aff 1 2) (af fS).
Proof. apply (chord_by 18445604631144488620076421709878997096584170064534312197015523264012040849971). vm_compute. reflexivity. Qed.
Lemma ch_L0 : chord bn256_fq_p (af fR) (pt_neg bn256_fq_p (Aff 1 2)) (af fL0).
Proof. apply (chord_by 5871926023834418599683591505659713116366751153865961082503139221419572699170). vm_compute. reflexivity. Qed.
Lemma ch_back : chord bn256_fq_p (af fL0) (af fG2) (af fS).
Proof. apply (chord_by 18045739325269888825954431640533602752391496699992807030184643516253774702946). vm_compute. reflexivity. Qed.
Lemma ch_A : chord bn256_fq_p (af fS) (pt_neg bn256_fq_p (af fR)) (Aff 1 2).
Proof. apply (chord_by 3442638240694786602169984035378277992112141092763511465673514630633185358612). vm_compute. reflexivity. Qed.
Lemma ch_L1 : chord bn256_fq_p (af fQ) (pt_neg bn256_fq_p (Aff 1 2)) (af fL1).
Proof. apply (chord_by 7214970960930790207089565268965088831830938733649993215294199949986558618137). vm_compute. reflexivity. Qed.
Lemma ch_B : chord bn256_fq_p (af fL1) (af fG2) (af fB).
Proof. apply (chord_by 7945083238574586570341140813791534815054335961966379871397900228566208083636). vm_compute. reflexivity. Qed.
Lemma ch_C : chord bn256_fq_p (af fB) (pt_neg bn256_fq_p (af fR)) (af fC).
Proof. apply (chord_by 2689187777160121476220008524066277416344948606015696558445415360407369526866). vm_compute. reflexivity. Qed.
Lemma ch_D : chord bn256_fq_p (af fC) (pt_neg bn256_fq_p (Aff 1 2)) (af fD).
Proof. apply (chord_by 1088514590588466850626843649398119305769984343370775627818044100312226902819). vm_compute. reflexivity. Qed.
Lemma tan_G : tangent bn256_fq_p (Aff 1 2) (af fG2).
Proof.
  split; [discriminate|].
  assert (T : af fG2 = third bn256_fq_p 16416182153879456416684804308942956316522233367973367747016778420983919656438 1 2 1) by (vm_compute; reflexivity).
  rewrite T. apply add_tangent; [discriminate|reflexivity].
Qed.
Lemma fR_on : on_curve bn256_fq_p 3 (af fR).
Proof. split; [|split]; [split; [discriminate|reflexivity]..|reflexivity]. Qed.
Lemma fD_off : ~ on_curve bn256_fq_p 3 (af fD).
Proof. intros (_ & _ & K). vm_compute in K. discriminate K. Qed.
Lemma twice_by x1 x0 : forallb (fun i => (0 <=? 2 * limb_at x1 i - limb_at x0 i) && (2 * limb_at x1 i - limb_at x0 i <? 2 ^ (if (S i =? 3)%nat then 38 else 108))) [0; 1; 2]%nat
    && (0 <=? 2 * x1 - x0) && (2 * x1 - x0 <? bn256_fq_p) = true -> @twice_ok bn256_fq_p bn_fq_info x1 x0.
Proof.
  rewrite !Bool.andb_true_iff, Z.leb_le, Z.ltb_lt. intros ((F & A) & B). rewrite forallb_forall in F. split; [|auto].
  change (ri_limbs bn_fq_info) with 3%nat. change (ri_w_ceil_bits bn_fq_info mod 108) with 38.
  intros i Hi. specialize (F i). rewrite Bool.andb_true_iff, Z.leb_le, Z.ltb_lt in F. apply F. destruct i as [|[|[|i]]]; cbn; auto. lia.
Qed.
Lemma twice_x : @twice_ok bn256_fq_p bn_fq_info (fst fS) (fst fR).
Proof. apply twice_by. vm_compute. reflexivity. Qed.
Lemma twice_y : @twice_ok bn256_fq_p bn_fq_info (snd fS) (snd fR).
Proof. apply twice_by. vm_compute. reflexivity. Qed.

(** *** Handles on the same cells *)
Section Shape.
Context {NM : NMod}.
Variable A : cell -> Z.
Lemma limbs_value_shape l l' : Forall2 sav l l' -> limbs_value (at_ A) l = limbs_value (at_ A) l'.
Proof. induction 1 as [|a b l l' H _ IH]; [reflexivity|]. cbn. rewrite IH. unfold at_. rewrite H. reflexivity. Qed.
Lemma int_is_shape w x y v : saint x y -> int_is w (at_ A) x v -> int_is w (at_ A) y v.
Proof.
  intros [SL SN ST] [[H1 H2 H3 H4 H5 H6] E]. assert (EV : int_value (at_ A) x = int_value (at_ A) y) by (apply limbs_value_shape; exact SL).
  assert (LL : length (i_limbs x) = length (i_limbs y)) by (clear - SL; induction SL; cbn; congruence).
  split; [|rewrite <- EV; exact E]. constructor.
  - rewrite <- LL. exact H1.
  - rewrite <- ST. exact H2.
  - rewrite <- ST. clear - SL H3. revert H3. generalize (i_times x * 2 ^ 108). intros k. induction SL as [|a b l l' H F IH]; intros H3; [constructor|].
    destruct F as [|a' b' l l' H' F]; [constructor|]. cbn [removelast] in *. inversion H3; subst. constructor; [unfold at_ in *; rewrite <- H; assumption|apply IH; assumption].
  - intros b Hb. rewrite <- ST. rewrite <- LL in Hb.
    assert (X : exists a, nth_error (i_limbs x) (length (i_limbs x) - 1) = Some a /\ sav a b).
    { clear - SL Hb. revert Hb. generalize (length (i_limbs x) - 1)%nat. intros i. revert i. induction SL as [|a b' l l' H F IH]; intros [|i] Hb; try discriminate; cbn in *; [injection Hb as <-; eauto|apply IH, Hb]. }
    destruct X as (a & Ha & Hs). unfold at_. rewrite <- Hs. exact (H4 a Ha).
  - rewrite <- EV, <- ST. exact H5.
  - rewrite <- EV, <- H6. unfold at_. rewrite SN. reflexivity.
Qed.
Lemma point_is_shape w a b x y : spt a b -> point_is w (at_ A) a (Aff x y) -> point_is w (at_ A) b (Aff x y).
Proof.
  intros [S1 S2 S3] (H1 & H2 & H3). split; [unfold at_ in *; rewrite <- S3; exact H1|]. split; eapply int_is_shape; eauto.
Qed.
End Shape.

Lemma sav_refl_l l : Forall2 sav l l.
Proof. induction l; constructor; [reflexivity|assumption]. Qed.
Lemma spt_refl a : spt a a.
Proof. constructor; [constructor| constructor|]; try apply sav_refl_l; reflexivity. Qed.
Lemma multiple_on w b : prime w -> forall g n q, on_curve w b g -> multiple w g n q -> on_curve w b q.
Proof. intros PW g n q Hg H. induction H; [exact Logic.I|]. eapply (pt_add_on w b PW); [exact Hg|exact IHmultiple|eassumption]. Qed.

Lemma ch_L1' : chord bn256_fq_p (Aff (2 * fst fS - fst fR) (2 * snd fS - snd fR)) (pt_neg bn256_fq_p (Aff 1 2)) (af fL1).
Proof.
  assert (E : Aff (2 * fst fS - fst fR) (2 * snd fS - snd fR) = af fQ) by (vm_compute; reflexivity). rewrite E. exact ch_L1.
Qed.
Lemma msm_forged_bn c p s : wf c -> @hp bn256_fr bn256_fq_p bn_fq_info c p 1 2 false -> @valid bn256_fr c s -> a_val s = 2 ->
  @CTF bn256_fr _ c (@msm bn256_fr bn_fq_info 3 _ (@forged_dec bn256_fr 2) (@bisec bn256_fr) (@assign_constant bn256_fr 0) (Some (1, 2)) (Some (1, 2)) (Some (fst fR, snd fR)) None [p] [s])
    (fun r c' => snd r = None /\ exists x y, @hp bn256_fr bn256_fq_p bn_fq_info c' (fst r) x y false /\ dec bn256_fq_p x y false = af fD).
Proof.
  intros W Hp V E.
  assert (HE : Z.odd (@NUM_BITS bn256_fr) = false) by (vm_compute; reflexivity).
  assert (HD' : ri_d_bits bn_fq_info mod 108 <> 0) by (vm_compute; discriminate).
  pose proof bn256_fr_prime as PN. pose proof bn256_fq_p_prime as PW.
  pose proof (@range_info_ok bn256_fr _ _ bn_fq_info_ok) as IO.
  assert (B3 : 0 < 3 < bn256_fq_p) by (split; reflexivity). destruct C26_case as (_ & _ & C & _).
  eapply (@msm_forged bn256_fr bn256_fq_p bn_fq_info IO PN PW HD' HE 3 B3 1 2 (fst fR) (snd fR) (fst fS) (snd fS) (af fG2) (af fL0) (af fL1) (af fB) (af fC) (af fD)
     C fR_on ch_S twice_x twice_y ch_L0 ch_L1' tan_G ch_back ch_A ch_B ch_C ch_D c p s false W Hp eq_refl V E).
Qed.

Lemma sr_forged_msm {NM : NMod} I b (N2 : 2 < nmod) (HE : Z.odd NUM_BITS = false) gen ra ra' rl rl' p s :
  SR smsm (msm I b (forged_dec 2) bisec (assign_constant 0) gen ra rl None [p] [s]) (msm_native I b gen ra' rl' None [p] [s]).
Proof.
  unfold msm_native. apply (sr_msm I b sav).
  - intros u u' Hu. apply sr_forged_dec; [exact N2|exact HE|exact Hu].
  - intros. apply sr_bisec; assumption.
  - apply sr_assign_constant.
  - constructor; [apply spt_refl|constructor].
  - constructor; [reflexivity|constructor].
Qed.
Lemma num_bits_even : Z.odd (@NUM_BITS bn256_fr) = false.
Proof. vm_compute. reflexivity. Qed.

Lemma C34_msm_native_refuted_main :
  exists p s c xa ya xl yl r c' A q,
    (p <- @assign_point bn256_fr bn_fq_info 3 (Some (1, 2)) ;; s <- assign 2 ;; mret (p, s)) ctx_new = Ok ((p, s), c)
  /\ @msm_native bn256_fr bn_fq_info 3 (Some (1, 2)) (Some (xa, ya)) (Some (xl, yl)) None [p] [s] c = Ok ((r, None), c')
  /\ @satisfies bn256_fr c' (honest c')
  /\ (exists d, @point_is bn256_fr bn256_fq_p a_val r d /\ multiple bn256_fq_p (Aff 1 2) 2 d)
  /\ @satisfies bn256_fr c' A /\ @point_is bn256_fr bn256_fq_p (at_ A) p (Aff 1 2) /\ A⟦s⟧ = 2
  /\ @point_is bn256_fr bn256_fq_p (at_ A) r q /\ ~ on_curve bn256_fq_p 3 q /\ ~ multiple bn256_fq_p (Aff 1 2) 2 q.
Proof.
  destruct (C57_case 2 None ltac:(split; [discriminate|reflexivity]) (or_introl eq_refl)) as (p & s & c & xa & ya & xl & yl & r & pf & c' & z & R0 & _ & _ & R & S & Pz & Mz).
  pose proof bn_fq_info_ok as HI. destruct C26_case as (_ & HD & C & _). pose proof bn256_fr_prime as PN. pose proof bn256_fq_p_prime as PW.
  pose proof (@good_new bn256_fr) as G0. assert (RB : 0 <= 3 < bn256_fq_p) by (split; [discriminate|reflexivity]).
  pose proof (@range_info_ok bn256_fr _ _ HI) as IO.
  destruct (C26_honest_points_accepted bn256_fr bn256_fq_p bn_fq_info 3 PN PW HI RB HD ctx_new (Some (1, 2)) (good_wf _ G0) C)
    as ((p' & c1 & R1 & E1 & (O1 & V1) & G1) & _). specialize (G1 G0).
  assert (H5 : 0 <= 2 < @nmod bn256_fr) by (split; [discriminate|reflexivity]).
  destruct (@CT_accepts bn256_fr _ _ _ _ (@assign_CT bn256_fr c1 2 (good_wf _ G1) H5)) as (s' & c2 & R2 & E2 & (V2 & Es) & G2). specialize (G2 G1).
  assert (R0' : (p <- @assign_point bn256_fr bn_fq_info 3 (Some (1, 2)) ;; s <- assign 2 ;; mret (p, s)) ctx_new = Ok ((p', s'), c2))
    by (unfold mbind; rewrite R1; cbv beta iota; rewrite R2; reflexivity).
  rewrite R0 in R0'. injection R0' as <- <- <-.
  assert (O2 : point_ok bn256_fq_p c p valid) by (eapply point_ok_mono; [exact E2|exact O1]).
  destruct (@hp_of bn256_fr bn256_fq_p bn_fq_info IO c p (Aff 1 2) O2 V1) as (x & y & k & Hp & EP).
  assert (k = false) as -> by (destruct k; [discriminate EP|reflexivity]). cbn [dec] in EP. injection EP as EX EY.
  assert (Hp' : @hp bn256_fr bn256_fq_p bn_fq_info c p 1 2 false).
  { destruct Hp as (A1 & A2 & A3). split; [|split; [|exact A3]].
    - eapply cr_res; [|exact A1]. unfold eqm. rewrite EX. vm_compute. reflexivity.
    - eapply cr_res; [|exact A2]. unfold eqm. rewrite EY. vm_compute. reflexivity. }
  pose proof (msm_forged_bn c p s (good_wf _ G2) Hp' V2 Es) as MF.
  destruct (@CTF_runs bn256_fr _ _ _ _ MF) as ([r' pf'] & d' & RF & XF & (EN & x3 & y3 & Hr' & ED) & LG). cbn [fst snd] in EN, Hr'. subst pf'.
  specialize (LG (@loose_of bn256_fr _ G2)).
  assert (N1 : 1 < @nmod bn256_fr) by reflexivity. assert (H2 : 2 < @nmod bn256_fr) by reflexivity.
  pose proof (@loose_satisfies bn256_fr d' N1 LG) as SF.
  assert (SH : smsm (r', None) (r, pf) /\ same_shape d' c').
  { exact (@sr_forged_msm bn256_fr bn_fq_info 3 H2 num_bits_even _ _ _ _ _ p s c c _ _ _ _ (shape_refl c) RF R). }
  destruct SH as [[SP SPF] SH]. cbn [fst snd] in SP, SPF. subst pf.
  assert (AG : agrees d' (honest d')) by (intros ch r0 U col; reflexivity).
  destruct (@hp_to bn256_fr bn256_fq_p bn_fq_info IO d' r' x3 y3 false Hr') as [OR PR]. rewrite ED in PR.
  apply (@point_at bn256_fr d' (honest d') AG bn256_fq_p r' _ OR) in PR.
  exists p, s, c, xa, ya, xl, yl, r, c', (honest d'), (af fD).
  split; [exact R0|]. split; [exact R|]. split; [exact S|]. split; [exists z; split; [exact Pz|exact Mz]|].
  split; [eapply satisfies_shape; [exact SH|exact SF]|].
  split; [apply (@point_at bn256_fr d' (honest d') AG); [eapply point_ok_mono; [exact XF|exact O2]|exact V1]|].
  split; [etransitivity; [exact (@at_valid bn256_fr d' (honest d') AG s (valid_mono _ _ _ XF V2))|exact Es]|].
  split; [eapply point_is_shape; [exact SP|exact PR]|]. split; [exact fD_off|].
  intros K. apply fD_off. eapply multiple_on; [exact PW|exact C|exact K].
Qed.
