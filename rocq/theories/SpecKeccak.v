(** Specification: Keccak-f[1600] and Keccak-256, after FIPS 202 (sections 3.1 to 3.4, 4, 5.1, B.1), with the padding of the original
    Keccak submission (no domain separation bits), as used by Ethereum. *)
From Coq Require Import ZArith List Bool Arith.
Import ListNotations.

(** The state A[x, y, z]. *)
Definition kst := list (list (list bool)).
Definition get (A : kst) (x y z : nat) : bool := nth z (nth y (nth x A []) []) false.
Definition build (f : nat -> nat -> nat -> bool) : kst :=
  map (fun x => map (fun y => map (f x y) (seq 0 64)) (seq 0 5)) (seq 0 5).

(** (z - o) mod 64, for z < 64 and o < 64 *)
Definition back (z o : nat) : nat := if o <=? z then z - o else z + 64 - o.

Definition f_theta (A : kst) : kst :=
  let C := map (fun x => map (fun z => xorb (get A x 0 z) (xorb (get A x 1 z) (xorb (get A x 2 z) (xorb (get A x 3 z) (get A x 4 z))))) (seq 0 64)) (seq 0 5) in
  let C x z := nth z (nth x C []) false in
  let D x := let x4 := (x + 4) mod 5 in let x1 := (x + 1) mod 5 in fun z => xorb (C x4 z) (C x1 (back z 1)) in
  build (fun x y => let D := D x in fun z => xorb (get A x y z) (D z)).

(** Rho: starting at (1, 0), step t rotates the lane (x, y) by (t+1)(t+2)/2 and moves on to (y, 2x+3y). *)
Fixpoint rho_pos (t : nat) : nat * nat :=
  match t with O => (1, 0) | S t => let (x, y) := rho_pos t in (y, (2 * x + 3 * y) mod 5) end.
Definition rho_offset (x y : nat) : nat :=
  match find (fun t => (fst (rho_pos t) =? x) && (snd (rho_pos t) =? y)) (seq 0 24) with
  | Some t => ((t + 1) * (t + 2) / 2) mod 64
  | None => 0
  end.
Definition f_rho (A : kst) : kst :=
  build (fun x y => let o := rho_offset x y in fun z => get A x y (back z o)).

Definition f_pi (A : kst) : kst := build (fun x y => let x' := (x + 3 * y) mod 5 in fun z => get A x' x z).

Definition f_chi (A : kst) : kst :=
  build (fun x y => let x1 := (x + 1) mod 5 in let x2 := (x + 2) mod 5 in
                    fun z => xorb (get A x y z) (negb (get A x1 y z) && get A x2 y z)).

(** The round constants from the shift register. *)
Definition rc_step (R : list bool) : list bool :=
  match R with
  | [r0; r1; r2; r3; r4; r5; r6; r7] =>
      (* R = 0 || R; R[8] is r7 *)
      [xorb false r7; r0; r1; r2; xorb r3 r7; xorb r4 r7; xorb r5 r7; r6]
  | _ => R
  end.
Definition rc (t : nat) : bool := nth 0 (Nat.iter (t mod 255) rc_step [true; false; false; false; false; false; false; false]) false.
Definition RC (ir : nat) (z : nat) : bool :=
  existsb (fun j => (z =? 2 ^ j - 1) && rc (j + 7 * ir)) (seq 0 7).
Definition f_iota (ir : nat) (A : kst) : kst :=
  let K := map (RC ir) (seq 0 64) in
  build (fun x y z => if (x =? 0) && (y =? 0) then xorb (get A x y z) (nth z K false) else get A x y z).

Definition f_round (A : kst) (ir : nat) : kst := f_iota ir (f_chi (f_pi (f_rho (f_theta A)))).
(** Keccak-f[1600]: 24 rounds. *)
Definition keccak_f (A : kst) : kst := fold_left f_round (seq 0 24) A.

(** ** The sponge with rate 1088 *)
(** pad10*1 *)
Definition pad101 (m : nat) : list bool := true :: repeat false (Z.to_nat ((- Z.of_nat m - 2) mod 1088)) ++ [true].
(** S xor (P || 0^512), bit 64 (5 y + x) + z of the string being A[x, y, z], and the permutation. *)
Definition absorb_block (S : kst) (P : list bool) : kst :=
  keccak_f (build (fun x y z => xorb (get S x y z) (nth (64 * (5 * y + x) + z) P false))).
Fixpoint absorb_blocks (n : nat) (S : kst) (P : list bool) : kst :=
  match n with O => S | S n => absorb_blocks n (absorb_block S (firstn 1088 P)) (skipn 1088 P) end.
Definition sponge (m : list bool) : list bool :=
  let P := m ++ pad101 (length m) in
  let S := absorb_blocks (length P / 1088) (build (fun _ _ _ => false)) P in
  map (fun i => get S (i / 64) 0 (i mod 64)) (seq 0 256).

(** Bytes, least significant bit first. *)
Definition byte_bits (b : Z) : list bool := map (fun i => Z.testbit b (Z.of_nat i)) (seq 0 8).
Definition bits_byte (bs : list bool) : Z := fold_right (fun b acc => Z.b2z b + 2 * acc)%Z 0%Z bs.
Definition keccak256 (msg : list Z) : list Z :=
  let d := sponge (flat_map byte_bits msg) in
  map (fun i => bits_byte (firstn 8 (skipn (8 * i) d))) (seq 0 32).

(** Big-endian integers. *)
Definition be32 (v : Z) : list Z := map (fun i => (v / 256 ^ Z.of_nat (31 - i)) mod 256)%Z (seq 0 32).
Definition of_be (bs : list Z) : Z := fold_left (fun acc b => 256 * acc + b)%Z bs 0%Z.
