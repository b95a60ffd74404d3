(** PROPERTY C65: from the user's circuit to halo2 and back, for circuits of integer operations
    (base_chip.rs, range_chip.rs, select_chip.rs, integer_chip.rs, context.rs, tests/mod.rs together).

    IntProg.v: [run_prog I inputs prog] takes integers as witnesses and runs a program of integer operations; it returns the handles of the inputs
    and the registers (integers and conditions).  SpecProg.v: [isteps], programs over the residues modulo w; [ican]: the program makes sense.
    SpecInt.v: [int_wf], [int_value].  Halo2.v: [cs_sat].  Configure.v: [configure], [synthesise].  SpecEnd.v: [read], [same_key]. *)
From Verif Require Import Prelude FieldZ Circuit Context Spec RangeInfo IntegerChip SpecInt SpecProg IntProg IntRes Moduli Fields Halo2 Configure ConfigProofs SpecEnd PropsInt IntEndMain.

(** C65, soundness.  Make the key from any inputs.  Whatever advice columns halo2 accepts for it, the cells of the input handles hold
    well-formed integers, and the cells of the registers hold a result of the program on their residues. *)
Theorem C65_integers_sound :
  forall (NM : NMod) w I, prime nmod -> 2 ^ 18 < nmod -> prime w -> range_info_new w = Ok I ->
  forall inputs prog xs rs c F wt u n adv, Forall (iop_ok w) prog ->
    run_prog I inputs prog ctx_new = Ok ((xs, rs), c) ->
    let '(g, s) := configure cs_new in
    synthesise g s c = Ok (F, wt) ->
    (base_h c + 2 <= u)%nat -> (range_h c + 2 <= u)%nat -> (select_h c + 2 <= u)%nat -> 2 ^ 19 - 1 <= Z.of_nat u -> (u <= n)%nat ->
    cs_sat n u F adv s ->
    exists ins s', length ins = length inputs /\ Forall2 (fun x v => int_wf w (read g adv) x /\ int_value (read g adv) x mod w = v) xs ins
      /\ isteps w prog (ins, []) s'
      /\ Forall2 (fun x v => int_wf w (read g adv) x /\ int_value (read g adv) x mod w = v) (fst rs) (fst s')
      /\ Forall2 (fun x v => read g adv x = Z.b2z v) (snd rs) (snd s').
Proof. exact C65_integers_sound_main. Qed.
Print Assumptions C65_integers_sound.

(** C65, completeness.  Make the key from any sample inputs (synthesis succeeds under the chunk condition of C39; see C64 for when
    it holds).  For all other canonical inputs on which the program makes sense the library's own run succeeds, yields the same key, and halo2
    accepts its witness under the key made from the sample, with a result of the program in the cells of the sample's registers. *)
Theorem C65_integers_complete :
  forall (NM : NMod) w I, prime nmod -> 2 ^ 18 < nmod -> prime w -> range_info_new w = Ok I -> (w_bits w + 13) mod 108 <> 0 ->
  forall sample prog xs rs c, Forall (iop_ok w) prog -> run_prog I sample prog ctx_new = Ok ((xs, rs), c) ->
    (0 < base_h c)%nat -> (let chunks := (base_h c + 15) / 16 in range_h c <= chunks * 16 * chunks)%nat ->
    let '(g, s) := configure cs_new in
    (exists F wt, synthesise g s c = Ok (F, wt))
 /\ forall F wt, synthesise g s c = Ok (F, wt) ->
    forall inputs, length inputs = length sample -> Forall (fun x => 0 <= x < w) inputs -> ican w prog (inputs, []) ->
    exists r c' F' wt' s', run_prog I inputs prog ctx_new = Ok (r, c') /\ synthesise g s c' = Ok (F', wt') /\ same_key F F' /\ (forall col row, 0 <= wt' col row < nmod)
      /\ isteps w prog (inputs, []) s'
      /\ forall u n adv, (base_h c + 2 <= u)%nat -> (range_h c + 2 <= u)%nat -> (select_h c + 2 <= u)%nat -> 2 ^ 19 - 1 <= Z.of_nat u -> (u <= n)%nat ->
        (forall col row, 0 <= adv col row < nmod) -> (forall col row, (row < u)%nat -> adv col row = wt' col row) ->
        cs_sat n u F adv s
        /\ Forall2 (fun x v => int_wf w (read g adv) x /\ int_value (read g adv) x mod w = v) (fst rs) (fst s')
        /\ Forall2 (fun x v => read g adv x = Z.b2z v) (snd rs) (snd s').
Proof. exact C65_integers_complete_main. Qed.
Print Assumptions C65_integers_complete.

(** Non-vacuous: bn256, key made from 2 and 3, program: x * y, x * y - x, is it zero?  halo2 accepts the library's table for every other pair of
    canonical inputs, with the residues in the registers. *)
Definition C65_prog := [IMul 0 1; ISub 2 0; IIsZero 3].
Local Opaque run_prog synthesise configure.
Example C65_case :
  exists xs rs c, @run_prog bn256_fr bn_fq_info [2; 3] C65_prog ctx_new = Ok ((xs, rs), c)
  /\ let '(g, s) := @configure bn256_fr cs_new in
     exists F wt, @synthesise bn256_fr g s c = Ok (F, wt) /\ forall x y, 0 <= x < bn256_fq_p -> 0 <= y < bn256_fq_p ->
       exists adv, forall u n, 2 ^ 19 - 1 <= Z.of_nat u -> (u <= n)%nat ->
       @cs_sat bn256_fr n u F adv s
       /\ map (fun a => int_value (read g adv) a mod bn256_fq_p) (fst rs) = [x; y; (x * y) mod bn256_fq_p; ((x * y) mod bn256_fq_p - x) mod bn256_fq_p].
Proof.
  assert (HT : match @run_prog bn256_fr bn_fq_info [2; 3] C65_prog ctx_new with
    | Ok (_, c) => Some (base_h c <=? 1000, range_h c <=? 1000, select_h c <=? 1000, 0 <? base_h c, range_h c <=? ((base_h c + 15) / 16) * 16 * ((base_h c + 15) / 16))%nat
    | Panic => None end = Some (true, true, true, true, true)) by (vm_compute; reflexivity).
  destruct (@run_prog bn256_fr bn_fq_info [2; 3] C65_prog ctx_new) as [[[xs rs] c]|] eqn:E; [|discriminate HT].
  injection HT as H1 H2 H3 H4 H5. apply Nat.leb_le in H1, H2, H3, H5. apply Nat.ltb_lt in H4.
  exists xs, rs, c. split; [reflexivity|].
  assert (PO : Forall (iop_ok bn256_fq_p) C65_prog) by (unfold C65_prog; repeat (apply Forall_cons; [exact Logic.I|]); apply Forall_nil).
  pose proof (C65_integers_complete bn256_fr bn256_fq_p bn_fq_info bn256_fr_prime ltac:(reflexivity) bn256_fq_p_prime bn_fq_info_ok (proj1 C22_fields)
    [2; 3] C65_prog xs rs c PO E H4 H5) as K.
  rewrite (@configured bn256_fr) in *. destruct K as ((F & wt & HS) & K). exists F, wt. split; [exact HS|]. intros x y Rx Ry.
  destruct (K F wt HS [x; y] eq_refl ltac:(repeat constructor; lia)) as (r & c' & F' & wt' & s' & _ & _ & _ & RW & ST & Q).
  { unfold C65_prog. split; [eexists; do 2 eexists; split; [reflexivity|]; split; [reflexivity|]; reflexivity|]. intros s1 (a & b & Ea & Eb & ->). cbn in Ea, Eb. injection Ea as <-. injection Eb as <-.
    split; [eexists; do 2 eexists; split; [reflexivity|]; split; [reflexivity|]; reflexivity|]. intros s1 (a & b & Ea & Eb & ->). cbn in Ea, Eb. injection Ea as <-. injection Eb as <-.
    split; [eexists; eexists; split; [reflexivity|]; reflexivity|]. intros; exact Logic.I. }
  exists wt'. intros u n U N. destruct (Q u n wt' ltac:(lia) ltac:(lia) ltac:(lia) U N RW ltac:(reflexivity)) as (Q1 & Q2 & _). split; [exact Q1|].
  assert (ES : fst s' = [x; y; (x * y) mod bn256_fq_p; ((x * y) mod bn256_fq_p - x) mod bn256_fq_p]).
  { unfold C65_prog in ST. inversion ST as [|? ? ? ? ? A1 B1]; subst. destruct A1 as (a & b & Ea & Eb & ->). cbn in Ea, Eb. injection Ea as <-. injection Eb as <-.
    inversion B1 as [|? ? ? ? ? A2 B2]; subst. destruct A2 as (a & b & Ea & Eb & ->). cbn in Ea, Eb. injection Ea as <-. injection Eb as <-.
    inversion B2 as [|? ? ? ? ? A3 B3]; subst. destruct A3 as (a & Ea & ->). inversion B3; subst. reflexivity. }
  rewrite <- ES. clear -Q2. induction Q2 as [|a v l l' [_ V] _ IH]; cbn [map]; [reflexivity|]. rewrite V, IH. reflexivity.
Qed.
