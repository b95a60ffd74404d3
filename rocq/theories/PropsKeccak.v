(** PROPERTIES C40-C42: the keccak gadgets (src/circuit/keccak_chip.rs).

    SpecKeccak.v is Keccak-f[1600] and Keccak-256 written after FIPS 202, independently of the gadget; its test
    vector is checked below. *)
From Verif Require Import Prelude FieldZ Circuit Context Spec Logic BaseChip ScalarChip KeccakChip SpecKeccak SpecKeccakState Moduli Fields KeccakMain.
(** C40.  If the cells of the state hold the bits of S then in every satisfying assignment the cells of the
    state returned by [permute] hold the bits of Keccak-f[1600](S). *)
Theorem C40_permutation_sound :
  forall (NM : NMod), prime nmod -> forall st,
    sound (permute st) (fun A st' => forall S, state_holds (fun a => A⟦a⟧) st S -> state_holds (fun a => A⟦a⟧) st' (keccak_f S)).
Proof. exact C40_permutation_sound_main. Qed.
Print Assumptions C40_permutation_sound.
(** The hypothesis on the state is met by the state of any hash, and by the freshly initialised one. *)
Example state_holds_init : forall (NM : NMod) (a : av), state_holds (fun _ => 0) (repeat (repeat (repeat a 64) 5) 5) (build (fun _ _ _ => false)).
Proof.
  intros NM a. split; [reflexivity|]. split; [intros x Hx; do 5 (destruct x as [|x]; [reflexivity|]); lia|].
  split; [intros x y Hx Hy; do 5 (destruct x as [|x]; [do 5 (destruct y as [|y]; [reflexivity|]); lia|]); lia|].
  intros x y z Hx Hy Hz. replace (get _ x y z) with false; [reflexivity|].
  unfold get, build. rewrite (nth_indep _ [] (map (fun y => map (fun _ => false) (seq 0 64)) (seq 0 5))) by (rewrite map_length; exact Hx).
  rewrite (map_nth (fun x => map (fun y => map (fun _ => false) (seq 0 64)) (seq 0 5)) _ 0%nat).
  rewrite (nth_indep _ [] (map (fun _ => false) (seq 0 64))) by (rewrite map_length; exact Hy).
  rewrite (map_nth (fun y => map (fun _ => false) (seq 0 64)) _ 0%nat). cbn. do 64 (destruct z as [|z]; [reflexivity|]). lia.
Qed.

(** C40, honest runs: from recorded cells holding bits, [permute] does not panic, its witness is accepted, and the recorded
    values of the result are the bits of Keccak-f[1600]. *)
Theorem C40_permutation_honest :
  forall (NM : NMod), prime nmod -> forall c st S, wf c -> state_valid c st -> state_holds a_val st S ->
    accepts c (permute st) (fun st' c' => state_valid c' st' /\ state_holds a_val st' (keccak_f S)).
Proof. exact C40_permutation_honest_main. Qed.
Print Assumptions C40_permutation_honest.
(** The specification gives the known digest of 32 zero bytes. *)
Example keccak256_vector : of_be (keccak256 (repeat 0 32)) = 0x290decd9548b62a8d60345a988386fc84ba6bc95484008f6362f93160ef3e563.
Proof. exact digest_zeros. Qed.

(** C41.  For any number of inputs, in every satisfying assignment whose bit rows are consistent (see C51), the output is, modulo n, the Keccak-256
    digest of the concatenated 32-byte big-endian encodings of integers below 2^256 congruent to the inputs.  Partial: bit consistency is not enforced by the
    circuit (C51), and nothing is claimed for other assignments. *)
Theorem C41_hash_partial :
  forall (NM : NMod), prime nmod -> forall input,
    sound_bits (hash input) (fun A r => exists vs,
      Forall2 (fun a v => 0 <= v < 2 ^ 256 /\ v mod nmod = A⟦a⟧) input vs /\ A⟦r⟧ = digest vs mod nmod).
Proof. exact C41_hash_partial_main. Qed.
Print Assumptions C41_hash_partial.

(** C41, honest runs: on recorded inputs [hash] does not panic, its witness is accepted, and the recorded result is the digest of the
    canonical encodings of the inputs. *)
Theorem C41_hash_honest :
  forall (NM : NMod), prime nmod -> nmod <= 2 ^ 256 -> forall c input, wf c -> Forall (valid c) input ->
    accepts c (hash input) (fun r c' => valid c' r /\ a_val r = digest (map a_val input) mod nmod).
Proof. exact C41_hash_honest_main. Qed.
Print Assumptions C41_hash_honest.
(** Its hypotheses are met: a run from the empty context that assigns 0 and hashes it, whose result is the known digest. *)
Example C41_hash_run : let NM := bn256_fr in
  exists a r c', (a <- assign 0 ;; r <- hash [a] ;; mret (a, r)) ctx_new = Ok ((a, r), c') /\ satisfies c' (honest c')
    /\ a_val a = 0 /\ a_val r = 0x290decd9548b62a8d60345a988386fc84ba6bc95484008f6362f93160ef3e563 mod bn256_fr_p.
Proof. exact hash_run. Qed.

(** C42 is false.  The 256-bit decomposition is not unique: in the circuit that assigns one value and hashes it, two satisfying assignments, both with
    consistent bit rows, give the same input (0) and different outputs (the digests of the encodings 0 and n). *)
Theorem C42_hash_determined_refuted :
  exists (NM : NMod) a r c' A A', nmod = bn256_fr_p
    /\ (a <- assign 0 ;; r <- hash [a] ;; mret (a, r)) ctx_new = Ok ((a, r), c')
    /\ satisfies c' A /\ satisfies c' A' /\ bit_consistent c' A /\ bit_consistent c' A'
    /\ A⟦a⟧ = 0 /\ A'⟦a⟧ = 0 /\ A⟦r⟧ = digest [0] mod nmod /\ A'⟦r⟧ = digest [bn256_fr_p] mod nmod /\ A⟦r⟧ <> A'⟦r⟧.
Proof. exact C42_hash_determined_refuted_main. Qed.
Print Assumptions C42_hash_determined_refuted.

