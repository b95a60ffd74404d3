(** From the rules of TowerProofs to statements about assignments and honest runs. *)
From Verif Require Import Prelude FieldZ Circuit Context Spec Logic ModArith Prims BaseChip BaseProofs
  RangeInfo RangeChip IntegerChip SpecInt InfoProofs IntArith RangeProofs IntInv IntSound IntComplete IntBridge
  IntRes EccChip EccBridge SpecTower TowerRing Fq12Chip TowerProofs TowerInst PairingChip PairingFacts PairingProofs SpecTowerRep.

Section Bridge.
Context {NM : NMod}.
Variable w : Z.
Variable I : rinfo.
Hypothesis IO : info_ok w I.
Hypothesis n_prime : prime nmod.
Hypothesis w_prime : prime w.

Record bridge {X Y} (R : rel X Y) (repn : forall W : Type, (W -> aint -> Z -> Prop) -> W -> X -> Y -> Prop) : Prop := {
  br_sat : forall A a x, repn unit (srep w I A) tt a x <-> fst R (at_ A) a x;
  br_hon : forall c a x, repn ctx (cr w I) c a x <-> snd R c a x
}.
Lemma fq_sat A a x : srep w I A tt a x <-> fq_is w (at_ A) a x.
Proof. apply (ir_at w I IO). Qed.
Lemma fq_hon c a x : cr w I c a x <-> fq_in w c a x.
Proof. apply (cr_ok w I IO). Qed.
Lemma b2 : bridge (fq2r w) rep2.
Proof. constructor; intros; unfold rep2; [rewrite !fq_sat|rewrite !fq_hon]; reflexivity. Qed.
Lemma b6 : bridge (fq6r w) rep6.
Proof. constructor; intros; unfold rep6; [rewrite !(br_sat _ _ b2)|rewrite !(br_hon _ _ b2)]; reflexivity. Qed.
Lemma b12 : bridge (fq12r w) rep12.
Proof. constructor; intros; unfold rep12; [rewrite !(br_sat _ _ b6)|rewrite !(br_hon _ _ b6)]; reflexivity. Qed.

Definition reppair {X Y X' Y'} (r1 : forall W : Type, (W -> aint -> Z -> Prop) -> W -> X -> Y -> Prop)
    (r2 : forall W : Type, (W -> aint -> Z -> Prop) -> W -> X' -> Y' -> Prop) W rep (v : W) (a : X * X') (x : Y * Y') : Prop :=
  r1 W rep v (fst a) (fst x) /\ r2 W rep v (snd a) (snd x).
Lemma bpair {X Y X' Y'} (R : rel X Y) r1 (B : bridge R r1) (R' : rel X' Y') r2 (B' : bridge R' r2) :
  bridge (pairr R R') (reppair r1 r2).
Proof.
  constructor; intros; unfold reppair; cbn [fst snd pairr]; [rewrite (br_sat _ _ B), (br_sat _ _ B')|rewrite (br_hon _ _ B), (br_hon _ _ B')]; reflexivity.
Qed.

(** A fact about all worlds that satisfy the rules. *)
Definition anyworld (F : forall W (le : W -> W -> Prop) (TR : forall X, W -> M X -> (X -> W -> Prop) -> Prop)
    (rep : W -> aint -> Z -> Prop) (zok : W -> av -> Prop) (strict : Prop), Prop) : Prop :=
  forall W le TR rep zok strict, rules w I W le TR rep zok strict -> (forall v, le v v) -> F W le TR rep zok strict.

Lemma world_sat F : anyworld F -> forall T A, (forall y, 0 <= A y < nmod) -> F unit sle (sTR T A) (srep w I A) szok False.
Proof. intros H T A HA. apply H; [apply sat_rules; auto|intros; exact Logic.I]. Qed.
Lemma world_hon F : honest_size w -> anyworld F -> F ctx hle (@hTR NM) (cr w I) (@hzok NM) True.
Proof.
  intros S H. apply H; [apply honest_rules; auto|intros; apply extends_refl].
  rewrite (hd_bits w I IO). exact S.
Qed.
Lemma ST_forall {X Y} T A (m : M X) (Q : Y -> X -> Prop) : (forall y, ST T A m (Q y)) -> ST T A m (fun x => forall y, Q y x).
Proof. intros H c x c' W R S y. eapply (H y); eauto. Qed.
Lemma ST_imp {X} T A (m : M X) (P : Prop) (Q : X -> Prop) : (P -> ST T A m Q) -> ST T A m (fun x => P -> Q x).
Proof. intros H c x c' W R S HP. eapply (H HP); eauto. Qed.

Lemma c0 {X Y} (R : rel X Y) repn (B : bridge R repn) (g : M X) v :
  anyworld (fun W le TR rep zok strict => forall u, TR X u g (fun r u' => repn W rep u' r v)) -> computes0 w R g v.
Proof.
  intros H. split.
  - apply ST_sound. intros T A HA. eapply ST_weaken; [exact (world_sat _ H T A HA tt)|]. intros r Hr. apply (br_sat _ _ B), Hr.
  - intros S c W. apply CT_accepts. eapply CT_weaken; [apply (world_hon _ S H c), W|]. intros r c' _ _ Hr. apply (br_hon _ _ B), Hr.
Qed.
Lemma c1 {X Y} (R : rel X Y) repn (B : bridge R repn) (g : X -> M X) op :
  anyworld (fun W le TR rep zok strict => forall v a x, repn W rep v a x -> TR X v (g a) (fun r u => repn W rep u r (op x))) ->
  computes1 w R g op.
Proof.
  intros H. split.
  - intros a. apply ST_sound. intros T A HA. apply ST_forall. intros x. apply ST_imp. intros Ha. apply (br_sat _ _ B) in Ha.
    eapply ST_weaken; [exact (world_sat _ H T A HA tt a x Ha)|]. intros r Hr. apply (br_sat _ _ B), Hr.
  - intros S c a x W Ha. apply (br_hon _ _ B) in Ha. apply CT_accepts.
    eapply CT_weaken; [apply (world_hon _ S H c a x Ha), W|]. intros r c' _ _ Hr. apply (br_hon _ _ B), Hr.
Qed.
Lemma c2 {X Y X' Y'} (R : rel X Y) repn (B : bridge R repn) (R' : rel X' Y') repn' (B' : bridge R' repn') (g : X -> X' -> M X) op :
  anyworld (fun W le TR rep zok strict => forall v a b x y, repn W rep v a x -> repn' W rep v b y ->
    TR X v (g a b) (fun r u => repn W rep u r (op x y))) ->
  computes2 w R R' g op.
Proof.
  intros H. split.
  - intros a b. apply ST_sound. intros T A HA. apply ST_forall. intros x. apply ST_forall. intros y.
    apply ST_imp. intros Ha. apply ST_imp. intros Hb. apply (br_sat _ _ B) in Ha. apply (br_sat _ _ B') in Hb.
    eapply ST_weaken; [exact (world_sat _ H T A HA tt a b x y Ha Hb)|]. intros r Hr. apply (br_sat _ _ B), Hr.
  - intros S c a b x y W Ha Hb. apply (br_hon _ _ B) in Ha. apply (br_hon _ _ B') in Hb. apply CT_accepts.
    eapply CT_weaken; [apply (world_hon _ S H c a b x y Ha Hb), W|]. intros r c' _ _ Hr. apply (br_hon _ _ B), Hr.
Qed.
Lemma ceq {X Y} (R : rel X Y) repn (B : bridge R repn) (g : X -> X -> M unit) (eqv : Y -> Y -> Prop) :
  anyworld (fun W le TR rep zok strict => forall v a b x y, repn W rep v a x -> repn W rep v b y -> (strict -> eqv x y) ->
    TR unit v (g a b) (fun _ _ => eqv x y)) ->
  compares w R g eqv.
Proof.
  intros H. split.
  - intros a b. apply ST_sound. intros T A HA. apply ST_forall. intros x. apply ST_forall. intros y.
    apply ST_imp. intros Ha. apply ST_imp. intros Hb. apply (br_sat _ _ B) in Ha. apply (br_sat _ _ B) in Hb.
    eapply ST_weaken; [exact (world_sat _ H T A HA tt a b x y Ha Hb (False_ind _))|]. intros r Hr. exact Hr.
  - intros S c a b x y W Ha Hb E. apply (br_hon _ _ B) in Ha. apply (br_hon _ _ B) in Hb. apply CT_accepts.
    eapply CT_weaken; [apply (world_hon _ S H c a b x y Ha Hb (fun _ => E)), W|]. auto.
Qed.
Lemma cinv {X Y} (R : rel X Y) repn (B : bridge R repn) (g : X -> M X) eqv mul (one : Y) :
  anyworld (fun W le TR rep zok strict => forall v a x, repn W rep v a x -> (strict -> exists y, eqv (mul x y) one) ->
    TR X v (g a) (fun r u => exists y, repn W rep u r y /\ eqv (mul x y) one)) ->
  inverts w R g eqv mul one.
Proof.
  intros H. split.
  - intros a. apply ST_sound. intros T A HA. apply ST_forall. intros x. apply ST_imp. intros Ha. apply (br_sat _ _ B) in Ha.
    eapply ST_weaken; [exact (world_sat _ H T A HA tt a x Ha (False_ind _))|]. intros r (y & Hy & E). exists y.
    split; [apply (br_sat _ _ B), Hy|exact E].
  - intros S c a x W Ha E. apply (br_hon _ _ B) in Ha. apply CT_accepts.
    eapply CT_weaken; [apply (world_hon _ S H c a x Ha (fun _ => E)), W|]. intros r c' _ _ (y & Hy & E'). exists y.
    split; [apply (br_hon _ _ B), Hy|exact E'].
Qed.
Lemma w_gt1 : 1 < w. Proof. pose proof (prime_ge_2 _ w_prime). lia. Qed.
Lemma tower_T nonres xi : tower I nonres xi ->
  anyworld (fun W le TR rep zok strict => forall v a x, rep2 W rep v a x -> TR _ v (nonres a) (fun r u => rep2 W rep u r (mul2 xi x))).
Proof.
  intros [[-> ->]|[-> ->]] W le TR rep zok strict RU LR.
  - exact (bn_nonres_T w I W le TR rep zok strict RU LR w_gt1).
  - exact (bls_nonres_T w I W le TR rep zok strict RU LR w_gt1).
Qed.
Lemma tower_appends nonres xi : tower I nonres xi -> forall a, appends (nonres a).
Proof. intros [[-> _]|[-> _]] a; [apply appends_bn_nonres|apply appends_bls_nonres]. Qed.
End Bridge.
