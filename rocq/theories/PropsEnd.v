(** PROPERTY C62: from the user's circuit to halo2 and back, for circuits of point operations
    (base_chip.rs, range_chip.rs, select_chip.rs, integer_chip.rs, ecc_chip.rs, context.rs, tests/mod.rs together).

    EndToEnd.v: [point_circuit] takes points as witnesses and runs a program of point operations on them; it returns the handles of the
    inputs and of the registers.  Halo2.v: [cs_sat n u F adv s], what halo2 enforces.  Configure.v:
    [configure], [synthesise] (fixed columns and copies F; advice wt that the library fills in).  SpecEnd.v: [read g adv] reads a handle from the
    advice columns; [same_key].  SpecPointProg.v: [psteps], programs in the group of the curve.  SpecEcc.v: [point_is], [on_curve]. *)
From Verif Require Import Prelude FieldZ Circuit Context Spec Logic ModArith BaseChip RangeInfo RangeChip IntegerChip
  SpecInt EccChip SpecEcc Curve EccEncode IntRes Moduli Fields SpecShape Halo2 Configure ConfigProofs SpecPointProg PointProg EndToEnd SpecEnd EndMain PropsEcc.

(** C62, one key.  Runs of the same shape (C25: runs of the same gadgets on other witnesses) are synthesised into the same fixed
    columns and the same copy constraints. *)
Theorem C62_one_key : forall (NM : NMod) g s c d F w F' w', same_shape c d ->
  synthesise g s c = Ok (F, w) -> synthesise g s d = Ok (F', w') -> same_key F F'.
Proof. exact C62_one_key_main. Qed.
Print Assumptions C62_one_key.

(** C62, soundness.  Make the key from any inputs.  Whatever advice columns halo2 accepts for it, the cells of the input handles hold
    points of the curve other than the identity, and the cells of the registers hold the result of the program on these points in the group of the
    curve; in particular the equalities that the program asserts are true of them. *)
Theorem C62_end_to_end_sound :
  forall (NM : NMod) w I b ord, prime nmod -> 2 ^ 18 < nmod -> prime w -> range_info_new w = Ok I -> 0 <= b < w ->
  forall zs inputs prog xs rs c F wt u n adv, Forall (fun op => pop_ok w b (snd op)) prog ->
    point_circuit I b ord zs inputs prog ctx_new = Ok ((xs, rs), c) ->
    let '(g, s) := configure cs_new in
    synthesise g s c = Ok (F, wt) ->
    (base_h c + 2 <= u)%nat -> (range_h c + 2 <= u)%nat -> (select_h c + 2 <= u)%nat -> 2 ^ 19 - 1 <= Z.of_nat u -> (u <= n)%nat ->
    cs_sat n u F adv s ->
    exists points results,
         Forall2 (point_is w (read g adv)) xs (map (fun p => pt_of (Some p)) points)
      /\ Forall (fun p => on_curve w b (pt_of (Some p))) points
      /\ psteps w zs (map snd prog) (map (fun p => pt_of (Some p)) points) results
      /\ Forall2 (point_is w (read g adv)) rs results.
Proof. exact C62_end_to_end_sound_main. Qed.
Print Assumptions C62_end_to_end_sound.

(** C62, completeness.  Make the key from any sample inputs (synthesis succeeds under the chunk condition of C39).  For all
    other inputs on which the program makes sense in the group the library's own run succeeds, yields the same key, and halo2
    accepts its witness under the key made from the sample, with the points and the results in the cells of the
    sample's handles. *)
Theorem C62_end_to_end_complete :
  forall (NM : NMod) w I b ord, prime nmod -> 2 ^ 18 < nmod -> prime w -> range_info_new w = Ok I -> 0 <= b < w ->
    (w_bits w + 13) mod 108 <> 0 -> Z.Odd ord -> 1 < ord ->
  forall zs sample prog xs rs c, Forall (fun op => pop_ok w b (snd op)) prog ->
    point_circuit I b ord zs sample prog ctx_new = Ok ((xs, rs), c) ->
    (0 < base_h c)%nat -> (let chunks := (base_h c + 15) / 16 in range_h c <= chunks * 16 * chunks)%nat ->
    let '(g, s) := configure cs_new in
    (exists F wt, synthesise g s c = Ok (F, wt))
 /\ forall F wt, synthesise g s c = Ok (F, wt) ->
    forall points results, length points = length sample -> Forall (fun p => on_curve w b (pt_of (Some p))) points ->
    psteps w zs (map snd prog) (map (fun p => pt_of (Some p)) points) results ->
    exists r c' F' wt', point_circuit I b ord zs points prog ctx_new = Ok (r, c') /\ synthesise g s c' = Ok (F', wt') /\ same_key F F' /\ (forall col row, 0 <= wt' col row < nmod)
      /\ forall u n adv, (base_h c + 2 <= u)%nat -> (range_h c + 2 <= u)%nat -> (select_h c + 2 <= u)%nat -> 2 ^ 19 - 1 <= Z.of_nat u -> (u <= n)%nat ->
        (forall col row, 0 <= adv col row < nmod) -> (forall col row, (row < u)%nat -> adv col row = wt' col row) ->
        cs_sat n u F adv s
        /\ Forall2 (point_is w (read g adv)) xs (map (fun p => pt_of (Some p)) points)
        /\ Forall2 (point_is w (read g adv)) rs results.
Proof. exact C62_end_to_end_complete_main. Qed.
Print Assumptions C62_end_to_end_complete.

(** Non-vacuous: bn256 G1, key made from P = (1, 2), program: Q = -P, select Q or P by a constant, assert that the selection is Q.
    halo2 accepts the library's table for the other input (1, -2), where the registers read (1, -2), (1, 2), (1, 2). *)
Definition C62_prog := [(false, PNeg 0); (false, PSelect 0 1 0); (false, PAssertEqual 1 2)].
Definition C62_heights : option (nat * nat * nat) :=
  match @point_circuit bn256_fr bn_fq_info 3 bn256_fr_p [true] [(1, 2)] C62_prog ctx_new with
  | Ok (_, c) => Some (base_h c, range_h c, select_h c) | Panic => None end.
Local Opaque point_circuit synthesise configure.
Example C62_case :
  exists xs rs c, @point_circuit bn256_fr bn_fq_info 3 bn256_fr_p [true] [(1, 2)] C62_prog ctx_new = Ok ((xs, rs), c)
  /\ let '(g, s) := @configure bn256_fr cs_new in
     exists F wt adv, @synthesise bn256_fr g s c = Ok (F, wt) /\ forall u n, 2 ^ 19 - 1 <= Z.of_nat u -> (u <= n)%nat ->
       @cs_sat bn256_fr n u F adv s
       /\ Forall2 (@point_is bn256_fr bn256_fq_p (read g adv)) xs [Aff 1 (bn256_fq_p - 2)]
       /\ Forall2 (@point_is bn256_fr bn256_fq_p (read g adv)) rs [Aff 1 (bn256_fq_p - 2); Aff 1 2; Aff 1 2].
Proof.
  assert (HT : C62_heights = Some (127, 137, 0)%nat) by (vm_compute; reflexivity). unfold C62_heights in HT.
  destruct (@point_circuit bn256_fr bn_fq_info 3 bn256_fr_p [true] [(1, 2)] C62_prog ctx_new) as [[[xs rs] c]|] eqn:E; [|discriminate HT].
  assert (H1 : base_h c = 127%nat) by congruence. assert (H2 : range_h c = 137%nat) by congruence. assert (H3 : select_h c = 0%nat) by congruence. clear HT.
  exists xs, rs, c. split; [reflexivity|]. pose proof bn_fq_info_ok as HI. destruct C26_case as (_ & HD & C & _).
  pose proof bn256_fr_prime as PN. pose proof bn256_fq_p_prime as PW.
  assert (RB : 0 <= 3 < bn256_fq_p) by (split; [discriminate|reflexivity]).
  assert (OD : Z.Odd bn256_fr_p) by (exists (bn256_fr_p / 2); vm_compute; reflexivity).
  assert (PO : Forall (fun op => pop_ok bn256_fq_p 3 (snd op)) C62_prog) by (unfold C62_prog; repeat (apply Forall_cons; [exact Logic.I|]); apply Forall_nil).
  assert (CN : on_curve bn256_fq_p 3 (Aff 1 (bn256_fq_p - 2))) by (apply (pt_neg_on _ _ PW (Aff 1 2)); exact C).
  pose proof (C62_end_to_end_complete bn256_fr bn256_fq_p bn_fq_info 3 bn256_fr_p PN ltac:(reflexivity) PW HI RB HD OD ltac:(reflexivity)
    [true] [(1, 2)] C62_prog xs rs c PO E ltac:(lia)) as K.
  rewrite (@configured bn256_fr) in *. destruct K as ((F & wt & HS) & K).
  { rewrite H1, H2. apply Nat.leb_le. reflexivity. }
  destruct (K F wt HS [(1, bn256_fq_p - 2)] [Aff 1 (bn256_fq_p - 2); Aff 1 2; Aff 1 2]) as (r & c' & F' & wt' & E' & HS' & _ & RW & Q).
  { reflexivity. }
  { constructor; [exact CN|constructor]. }
  { unfold C62_prog. cbn [map snd].
    eapply psteps_cons; [eexists; split; [reflexivity|reflexivity]|].
    eapply psteps_cons; [do 3 eexists; split; [reflexivity|]; split; [reflexivity|]; split; reflexivity|].
    eapply psteps_cons; [eexists; split; [reflexivity|]; split; reflexivity|]. apply psteps_nil. }
  exists F, wt, wt'. split; [exact HS|]. intros u n U N. apply Q; [lia|lia|lia|exact U|exact N|exact RW|reflexivity].
Qed.
