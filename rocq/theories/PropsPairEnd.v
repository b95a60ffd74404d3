(** PROPERTY C63: from the user's pairing check to halo2 and back (pairing_chip.rs, bn256_pairing_chip.rs, bls12_381_pairing_chip.rs,
    fq12.rs, ecc_chip.rs, integer_chip.rs, range_chip.rs, base_chip.rs, context.rs, tests/mod.rs together).

    PairEnd.v: [pairing_circuit I b check qs points], the circuit of src/tests/native_scalar_pairing_chip.rs: constants qs in G2, points of G1 as witnesses,
    [check_pairing]; it returns the handles of the points of G1.  SpecPairingRep.v: [bn_ate_terms], [bn_reduced_pairing] and their
    counterparts for bls12-381 (C52).  SpecEnd.v: [read], [same_key].  Halo2.v: [cs_sat].  Configure.v: [configure], [synthesise]. *)
From Verif Require Import Prelude FieldZ Circuit Context Spec RangeInfo IntegerChip SpecInt EccChip SpecEcc SpecTower SpecTowerRep SpecPairing SpecAte SpecPairingRep
  Fq12Chip PairingChip Moduli Fields AteExample SpecShape Halo2 Configure SpecEnd PairEnd PairEndMain PairEndCase PairEndCases.

(** C63, bn256, soundness.  Make the key from any points of G1.  Whatever advice columns halo2 accepts for it, the cells of the handles
    of the points of G1 hold points of the curve (none the identity), and the product of their reduced pairings with the constants in G2 is one, whenever the lines of the
    pairing exist for the constants. *)
Theorem C63_bn256_end_to_end_sound :
  forall (NM : NMod) I, prime nmod -> 2 ^ 18 < nmod -> range_info_new bn256_fq_p = Ok I ->
  forall qs inputs xs c F wt u n adv, length inputs = length qs -> Forall (fun q => reduced2 bn256_fq_p (fst q) /\ reduced2 bn256_fq_p (snd q)) qs ->
    pairing_circuit I 3 (bn_check_pairing I) qs inputs ctx_new = Ok (xs, c) ->
    let '(g, s) := configure cs_new in
    synthesise g s c = Ok (F, wt) ->
    (base_h c + 2 <= u)%nat -> (range_h c + 2 <= u)%nat -> (select_h c + 2 <= u)%nat -> 2 ^ 19 - 1 <= Z.of_nat u -> (u <= n)%nat ->
    cs_sat n u F adv s ->
    exists points, Forall2 (point_is bn256_fq_p (read g adv)) xs (map (fun p => pt_of (Some p)) points)
      /\ Forall (fun p => on_curve bn256_fq_p 3 (pt_of (Some p))) points
      /\ forall ls, bn_ate_terms (combine points qs) ls -> eq12 bn256_fq_p (bn_reduced_pairing ls) one12.
Proof. exact C63_bn256_sound_main. Qed.
Print Assumptions C63_bn256_end_to_end_sound.

(** C63, bn256, completeness.  Make the key from any sample points on which the library's run gets through ; the chunk condition of C39 then holds and synthesis succeeds.  For all other
    points of G1 whose pairings with the constants multiply to one, none with y = 0, the library's own run succeeds, yields the same key, and
    halo2 accepts its witness under the key made from the sample, with the points in the cells of the sample's handles. *)
Theorem C63_bn256_end_to_end_complete :
  forall (NM : NMod) I, prime nmod -> 2 ^ 18 < nmod -> range_info_new bn256_fq_p = Ok I ->
  forall qs sample xs c, length sample = length qs -> Forall (fun q => reduced2 bn256_fq_p (fst q) /\ reduced2 bn256_fq_p (snd q)) qs ->
    pairing_circuit I 3 (bn_check_pairing I) qs sample ctx_new = Ok (xs, c) ->
    let '(g, s) := configure cs_new in
    (exists F wt, synthesise g s c = Ok (F, wt))
 /\ forall F wt, synthesise g s c = Ok (F, wt) ->
    forall points ls, length points = length qs -> Forall (fun p => on_curve bn256_fq_p 3 (pt_of (Some p))) points ->
    let ts := combine points qs in
    bn_ate_terms ts ls -> y_nonzero bn256_fq_p ts -> eq12 bn256_fq_p (bn_reduced_pairing ls) one12 ->
    exists r c' F' wt', pairing_circuit I 3 (bn_check_pairing I) qs points ctx_new = Ok (r, c') /\ synthesise g s c' = Ok (F', wt') /\ same_key F F' /\ (forall col row, 0 <= wt' col row < nmod)
      /\ forall u n adv, (base_h c + 2 <= u)%nat -> (range_h c + 2 <= u)%nat -> (select_h c + 2 <= u)%nat -> 2 ^ 19 - 1 <= Z.of_nat u -> (u <= n)%nat ->
        (forall col row, 0 <= adv col row < nmod) -> (forall col row, (row < u)%nat -> adv col row = wt' col row) ->
        cs_sat n u F adv s /\ Forall2 (point_is bn256_fq_p (read g adv)) xs (map (fun p => pt_of (Some p)) points).
Proof. exact C63_bn256_complete_main. Qed.
Print Assumptions C63_bn256_end_to_end_complete.

(** C63, bls12_381, soundness.  Make the key from any points of G1.  Whatever advice columns halo2 accepts for it, the cells of the handles
    of the points of G1 hold points of the curve (none the identity), and the product of their reduced pairings with the constants in G2 is one, whenever the lines of the
    pairing exist for the constants. *)
Theorem C63_bls12_381_end_to_end_sound :
  forall (NM : NMod) I, prime nmod -> 2 ^ 18 < nmod -> range_info_new bls12_381_fq_p = Ok I ->
  forall qs inputs xs c F wt u n adv, length inputs = length qs -> Forall (fun q => reduced2 bls12_381_fq_p (fst q) /\ reduced2 bls12_381_fq_p (snd q)) qs ->
    pairing_circuit I 4 (bls_check_pairing I) qs inputs ctx_new = Ok (xs, c) ->
    let '(g, s) := configure cs_new in
    synthesise g s c = Ok (F, wt) ->
    (base_h c + 2 <= u)%nat -> (range_h c + 2 <= u)%nat -> (select_h c + 2 <= u)%nat -> 2 ^ 19 - 1 <= Z.of_nat u -> (u <= n)%nat ->
    cs_sat n u F adv s ->
    exists points, Forall2 (point_is bls12_381_fq_p (read g adv)) xs (map (fun p => pt_of (Some p)) points)
      /\ Forall (fun p => on_curve bls12_381_fq_p 4 (pt_of (Some p))) points
      /\ forall ls, bls_ate_terms (combine points qs) ls -> eq12 bls12_381_fq_p (bls_reduced_pairing ls) one12.
Proof. exact C63_bls12_381_sound_main. Qed.
Print Assumptions C63_bls12_381_end_to_end_sound.

(** C63, bls12_381, completeness.  Make the key from any sample points on which the library's run gets through ; the chunk condition of C39 then holds and synthesis succeeds.  For all other
    points of G1 whose pairings with the constants multiply to one, none with y = 0, the library's own run succeeds, yields the same key, and
    halo2 accepts its witness under the key made from the sample, with the points in the cells of the sample's handles. *)
Theorem C63_bls12_381_end_to_end_complete :
  forall (NM : NMod) I, prime nmod -> 2 ^ 18 < nmod -> range_info_new bls12_381_fq_p = Ok I ->
  forall qs sample xs c, length sample = length qs -> Forall (fun q => reduced2 bls12_381_fq_p (fst q) /\ reduced2 bls12_381_fq_p (snd q)) qs ->
    pairing_circuit I 4 (bls_check_pairing I) qs sample ctx_new = Ok (xs, c) ->
    let '(g, s) := configure cs_new in
    (exists F wt, synthesise g s c = Ok (F, wt))
 /\ forall F wt, synthesise g s c = Ok (F, wt) ->
    forall points ls, length points = length qs -> Forall (fun p => on_curve bls12_381_fq_p 4 (pt_of (Some p))) points ->
    let ts := combine points qs in
    bls_ate_terms ts ls -> y_nonzero bls12_381_fq_p ts -> eq12 bls12_381_fq_p (bls_reduced_pairing ls) one12 ->
    exists r c' F' wt', pairing_circuit I 4 (bls_check_pairing I) qs points ctx_new = Ok (r, c') /\ synthesise g s c' = Ok (F', wt') /\ same_key F F' /\ (forall col row, 0 <= wt' col row < nmod)
      /\ forall u n adv, (base_h c + 2 <= u)%nat -> (range_h c + 2 <= u)%nat -> (select_h c + 2 <= u)%nat -> 2 ^ 19 - 1 <= Z.of_nat u -> (u <= n)%nat ->
        (forall col row, 0 <= adv col row < nmod) -> (forall col row, (row < u)%nat -> adv col row = wt' col row) ->
        cs_sat n u F adv s /\ Forall2 (point_is bls12_381_fq_p (read g adv)) xs (map (fun p => pt_of (Some p)) points).
Proof. exact C63_bls12_381_complete_main. Qed.
Print Assumptions C63_bls12_381_end_to_end_complete.

(** Non-vacuous: e(P, G) e(-P, G) = 1.  For every point P of the curve with y not 0 and the generator G of G2 the circuit runs to the end
    and its recorded witness satisfies it, so there are samples, and the conditions on the points are met. *)
Example C63_bn256_case : forall x y, on_curve bn256_fq_p 3 (Aff x y) -> y <> 0 -> let points := [(x, y); (x, bn256_fq_p - y)] in
     (exists xs c, @pairing_circuit bn256_fr bn_fq_info 3 (@bn_check_pairing bn256_fr bn_fq_info) [bn_gen; bn_gen] points ctx_new = Ok (xs, c) /\ @satisfies bn256_fr c (honest c))
  /\ Forall (fun q => reduced2 bn256_fq_p (fst q) /\ reduced2 bn256_fq_p (snd q)) [bn_gen; bn_gen]
  /\ Forall (fun p => on_curve bn256_fq_p 3 (pt_of (Some p))) points
  /\ exists ls, let ts := combine points [bn_gen; bn_gen] in
       bn_ate_terms ts ls /\ y_nonzero bn256_fq_p ts /\ eq12 bn256_fq_p (bn_reduced_pairing ls) one12.
Proof. exact C63_bn256_case_main. Qed.
Example C63_bls12_381_case : forall x y, on_curve bls12_381_fq_p 4 (Aff x y) -> y <> 0 -> let points := [(x, y); (x, bls12_381_fq_p - y)] in
     (exists xs c, @pairing_circuit bn256_fr bls_fq_info 4 (@bls_check_pairing bn256_fr bls_fq_info) [bls_gen; bls_gen] points ctx_new = Ok (xs, c) /\ @satisfies bn256_fr c (honest c))
  /\ Forall (fun q => reduced2 bls12_381_fq_p (fst q) /\ reduced2 bls12_381_fq_p (snd q)) [bls_gen; bls_gen]
  /\ Forall (fun p => on_curve bls12_381_fq_p 4 (pt_of (Some p))) points
  /\ exists ls, let ts := combine points [bls_gen; bls_gen] in
       bls_ate_terms ts ls /\ y_nonzero bls12_381_fq_p ts /\ eq12 bls12_381_fq_p (bls_reduced_pairing ls) one12.
Proof. exact C63_bls12_381_case_main. Qed.
Example C63_points : on_curve bn256_fq_p 3 (Aff 1 2) /\ on_curve bls12_381_fq_p 4 (Aff 0 2).
Proof. split; (split; [split; [discriminate|reflexivity]|split; [split; [discriminate|reflexivity]|reflexivity]]). Qed.

(** So halo2 does accept: for every point P of the curve with y not 0 the table that the library fills in for e(P, G) e(-P, G) = 1 satisfies
    what halo2 enforces, as C63 (soundness) assumes, with P and -P in the cells of the handles. *)
Local Opaque pairing_circuit configure synthesise bn_ate_terms bls_ate_terms bn_reduced_pairing bls_reduced_pairing bn_check_pairing bls_check_pairing.
Example C63_bn256_accepted : forall x y, on_curve bn256_fq_p 3 (Aff x y) -> y <> 0 -> let points := [(x, y); (x, bn256_fq_p - y)] in
  exists xs c, @pairing_circuit bn256_fr bn_fq_info 3 (@bn_check_pairing bn256_fr bn_fq_info) [bn_gen; bn_gen] points ctx_new = Ok (xs, c)
  /\ let '(g, s) := @configure bn256_fr cs_new in
     exists F wt adv, @synthesise bn256_fr g s c = Ok (F, wt)
     /\ forall u n, (base_h c + 2 <= u)%nat -> (range_h c + 2 <= u)%nat -> (select_h c + 2 <= u)%nat -> 2 ^ 19 - 1 <= Z.of_nat u -> (u <= n)%nat ->
          @cs_sat bn256_fr n u F adv s /\ Forall2 (@point_is bn256_fr bn256_fq_p (read g adv)) xs (map (fun p => pt_of (Some p)) points).
Proof.
  intros x y C Y points. destruct (C63_bn256_case x y C Y) as ((xs & c & E & _) & HQ & HC & ls & T1 & T2 & T3). fold points in E, HC, T1, T2, T3.
  exists xs, c. split; [exact E|].
  pose proof (C63_bn256_end_to_end_complete bn256_fr bn_fq_info bn256_fr_prime ltac:(reflexivity) bn_fq_info_ok [bn_gen; bn_gen] points xs c eq_refl HQ E) as K.
  destruct (configure cs_new) as [g s]. destruct K as ((F & wt & HS) & K).
  destruct (K F wt HS points ls eq_refl HC T1 T2 T3) as (r & c' & F' & wt' & _ & _ & _ & RW & Q).
  exists F, wt, wt'. split; [exact HS|]. intros u n U1 U2 U3 U4 U5. exact (Q u n wt' U1 U2 U3 U4 U5 RW (fun _ _ _ => eq_refl)).
Qed.
Example C63_bls12_381_accepted : forall x y, on_curve bls12_381_fq_p 4 (Aff x y) -> y <> 0 -> let points := [(x, y); (x, bls12_381_fq_p - y)] in
  exists xs c, @pairing_circuit bn256_fr bls_fq_info 4 (@bls_check_pairing bn256_fr bls_fq_info) [bls_gen; bls_gen] points ctx_new = Ok (xs, c)
  /\ let '(g, s) := @configure bn256_fr cs_new in
     exists F wt adv, @synthesise bn256_fr g s c = Ok (F, wt)
     /\ forall u n, (base_h c + 2 <= u)%nat -> (range_h c + 2 <= u)%nat -> (select_h c + 2 <= u)%nat -> 2 ^ 19 - 1 <= Z.of_nat u -> (u <= n)%nat ->
          @cs_sat bn256_fr n u F adv s /\ Forall2 (@point_is bn256_fr bls12_381_fq_p (read g adv)) xs (map (fun p => pt_of (Some p)) points).
Proof.
  intros x y C Y points. destruct (C63_bls12_381_case x y C Y) as ((xs & c & E & _) & HQ & HC & ls & T1 & T2 & T3). fold points in E, HC, T1, T2, T3.
  exists xs, c. split; [exact E|].
  pose proof (C63_bls12_381_end_to_end_complete bn256_fr bls_fq_info bn256_fr_prime ltac:(reflexivity) bls_fq_info_ok [bls_gen; bls_gen] points xs c eq_refl HQ E) as K.
  destruct (configure cs_new) as [g s]. destruct K as ((F & wt & HS) & K).
  destruct (K F wt HS points ls eq_refl HC T1 T2 T3) as (r & c' & F' & wt' & _ & _ & _ & RW & Q).
  exists F, wt, wt'. split; [exact HS|]. intros u n U1 U2 U3 U4 U5. exact (Q u n wt' U1 U2 U3 U4 U5 RW (fun _ _ _ => eq_refl)).
Qed.
