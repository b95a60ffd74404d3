(** Range rows against base rows, for whole circuits (C64). *)
From Verif Require Import Prelude FieldZ Circuit Context Spec RangeInfo IntegerChip SpecInt InfoProofs IntBridge EccChip Fq12Chip PairingChip Moduli NativeMain IntMain
  Synth SpecRecorder Progs ProgsMore SynthMain Halo2 Configure ConfigProofs ConfigMain SpecHandles Handles HandGadgets HandMore HandMain SpecProg IntProg SpecPointProg PointProg EndToEnd EndMain PairEnd Ratio.

Local Opaque range_table.
Lemma limbs_n {NM : NMod} w I : range_info_new w = Ok I -> Z.of_nat (ri_limbs I) = n_limbs w.
Proof. intros H. info H. pose proof (io_limbs _ _ IO) as L. rewrite (wb_w_bits _ _ IO) in L. exact L. Qed.
Lemma limbs_pos (w : Z) {NM : NMod} I : range_info_new w = Ok I -> 0 <= n_limbs w.
Proof. intros H. rewrite <- (limbs_n _ _ H). lia. Qed.

Lemma C64_point_rows_main :
  forall (NM : NMod) w I b ord, range_info_new w = Ok I ->
  forall zs inputs prog r c, point_circuit I b ord zs inputs prog ctx_new = Ok (r, c) ->
    Z.of_nat (range_h c) <= (3 * n_limbs w + 4) * Z.of_nat (base_h c) + 1.
Proof.
  intros NM w I b ord H zs inputs prog r c E. pose proof (limbs_n _ _ H) as L. pose proof (limbs_pos _ _ H) as P.
  eapply ratio_rows; [|exact E|lia]. apply rt_point_circuit; lia.
Qed.
Lemma C64_point_synthesis_main :
  forall (NM : NMod) w I b ord, range_info_new w = Ok I ->
  forall zs inputs prog r c, point_circuit I b ord zs inputs prog ctx_new = Ok (r, c) ->
    16 * (3 * n_limbs w + 5) <= Z.of_nat (base_h c) ->
    let '(g, s) := configure cs_new in exists F wt, synthesise g s c = Ok (F, wt).
Proof.
  intros NM w I b ord H zs inputs prog r c E B. pose proof (limbs_n _ _ H) as L. pose proof (limbs_pos _ _ H) as P.
  refine (C54_synthesis_succeeds_main NM _ _ _ _ c (p_gadget _ (pg_circuit I b ord zs inputs prog)) (circuit_disciplined I b ord zs inputs prog) E _ _); [lia|].
  eapply (ratio_chunks (3 * n_limbs w + 4)); [lia| |exact E|lia]. apply rt_point_circuit; lia.
Qed.
Lemma C64_pairing_rows_main :
  forall (NM : NMod) w I b check, range_info_new w = Ok I -> check = bn_check_pairing I \/ check = bls_check_pairing I ->
  forall qs inputs r c, pairing_circuit I b check qs inputs ctx_new = Ok (r, c) ->
    Z.of_nat (range_h c) <= (3 * n_limbs w + 4) * Z.of_nat (base_h c) + 1.
Proof.
  intros NM w I b check H CH qs inputs r c E. pose proof (limbs_n _ _ H) as L. pose proof (limbs_pos _ _ H) as P.
  eapply ratio_rows; [|exact E|lia]. apply rt_pairing_circuit; [lia|lia|].
  destruct CH as [->| ->]; intros t; [apply rt_bn_check_pairing|apply rt_bls_check_pairing]; lia.
Qed.

Lemma pg_run_op {NM : NMod} I s op : gadget (run_op I s op).
Proof. unfold run_op. destruct op; cbv zeta; pga. Qed.
Lemma pg_run_prog {NM : NMod} I inputs prog : gadget (run_prog I inputs prog).
Proof.
  assert (H : forall s op, gadget (run_op I s op)) by apply pg_run_op. unfold run_prog, run_ops. pga.
Qed.
Lemma ho_run_op {NM : NMod} {Wd : World} I (P : Prop) (s : iregs) op : (P -> ok (fst s)) -> (P -> ok (snd s)) -> J P (run_op I s op).
Proof. destruct s as [xs bs]. cbn [fst snd]. intros H1 H2. unfold run_op, push, pushb. destruct op; cbv zeta; cbn [fst snd]; hoa. Qed.
Lemma ho_run_ops {NM : NMod} {Wd : World} I prog : forall (P : Prop) (s : iregs), (P -> ok (fst s)) -> (P -> ok (snd s)) -> J P (run_ops I s prog).
Proof.
  unfold run_ops. induction prog as [|op l IH]; intros P s H1 H2; cbn [foldM]; [destruct s; cbn [fst snd] in *; hoa|]. jb; [apply ho_run_op; assumption|]. intros [xs bs]. apply IH; cbn [fst snd]; hrel.
Qed.
Lemma prog_disciplined {NM : NMod} I inputs prog : disciplined tt (run_prog I inputs prog).
Proof.
  apply J_disciplined. intros Wd. unfold run_prog. jb; [hoa|]. intros xs. jb; [apply ho_run_ops; cbn [fst snd]; hrel|]. intros [ys bs]. hoa.
Qed.
Lemma C64_integer_rows_main :
  forall (NM : NMod) w I, range_info_new w = Ok I ->
  forall inputs prog r c, run_prog I inputs prog ctx_new = Ok (r, c) ->
    Z.of_nat (range_h c) <= (3 * n_limbs w + 4) * Z.of_nat (base_h c) + 1.
Proof.
  intros NM w I H inputs prog r c E. pose proof (limbs_n _ _ H) as L. pose proof (limbs_pos _ _ H) as P.
  eapply ratio_rows; [|exact E|lia]. apply rt_run_prog; lia.
Qed.
Lemma C64_integer_synthesis_main :
  forall (NM : NMod) w I, range_info_new w = Ok I ->
  forall inputs prog r c, run_prog I inputs prog ctx_new = Ok (r, c) ->
    16 * (3 * n_limbs w + 5) <= Z.of_nat (base_h c) ->
    let '(g, s) := configure cs_new in exists F wt, synthesise g s c = Ok (F, wt).
Proof.
  intros NM w I H inputs prog r c E B. pose proof (limbs_n _ _ H) as L. pose proof (limbs_pos _ _ H) as P.
  refine (C54_synthesis_succeeds_main NM _ _ _ _ c (p_gadget _ (pg_run_prog I inputs prog)) (prog_disciplined I inputs prog) E _ _); [lia|].
  eapply (ratio_chunks (3 * n_limbs w + 4)); [lia| |exact E|lia]. apply rt_run_prog; lia.
Qed.

(** Small circuits: three bn256 integers and nothing else. *)
Lemma C64_small_circuits_panic_main :
  exists I r c, @range_info_new bn256_fr bn256_fq_p = Ok I /\ @run_prog bn256_fr I [1; 2; 3] [] ctx_new = Ok (r, c)
  /\ base_h c = 3%nat /\ range_h c = 25%nat /\ let '(g, s) := @configure bn256_fr cs_new in @synthesise bn256_fr g s c = Panic.
Proof.
  assert (HT : match @range_info_new bn256_fr bn256_fq_p with
    | Ok J => match @run_prog bn256_fr J [1; 2; 3] [] ctx_new with
      | Ok (_, c) => Some (base_h c, range_h c, match assign_all c with Ok _ => true | Panic => false end) | Panic => None end
    | Panic => None end = Some (3%nat, 25%nat, false)) by (vm_compute; reflexivity).
  destruct (@range_info_new bn256_fr bn256_fq_p) as [J|]; [|discriminate HT].
  destruct (@run_prog bn256_fr J [1; 2; 3] [] ctx_new) as [[r c]|] eqn:E; [|discriminate HT]. injection HT as H1 H2 H3.
  exists J, r, c. split; [reflexivity|]. split; [exact E|]. split; [exact H1|]. split; [exact H2|].
  rewrite (@configured bn256_fr). unfold synthesise. destruct (assign_all c); [discriminate H3|reflexivity].
Qed.
