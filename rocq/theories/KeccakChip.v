(** Model of src/circuit/keccak_chip.rs:10-301 (trait [KeccakChipOps]).
    [AssignedState] is an array of 5 x 5 lanes of 64 conditions, [state[x][y][z]]; the model uses lists of lists, and
    the loops that assign every element of an array once are maps in the order of the loop. *)
From Verif Require Import Prelude FieldZ Circuit Context BaseChip ScalarChip.

Definition kstate := list (list (list acond)).

(** keccak_chip.rs:16-22 *)
Definition RHO : list nat := [1; 3; 6; 10; 15; 21; 28; 36; 45; 55; 2; 14; 27; 41; 56; 8; 25; 43; 62; 18; 39; 61; 20; 44]%nat.
Definition PI : list nat := [10; 7; 11; 17; 18; 3; 5; 16; 8; 21; 24; 4; 15; 23; 19; 13; 12; 2; 20; 14; 22; 9; 6; 1]%nat.
(** keccak_chip.rs:26-51 *)
Definition ROUND_CONSTANTS : list Z :=
  [0x0000000000000001; 0x0000000000008082; 0x800000000000808A; 0x8000000080008000; 0x000000000000808B; 0x0000000080000001;
   0x8000000080008081; 0x8000000000008009; 0x000000000000008A; 0x0000000000000088; 0x0000000080008009; 0x000000008000000A;
   0x000000008000808B; 0x800000000000008B; 0x8000000000008089; 0x8000000000008003; 0x8000000000008002; 0x8000000000000080;
   0x000000000000800A; 0x800000008000000A; 0x8000000080008081; 0x8000000000008080; 0x0000000080000001; 0x8000000080008008].
(** keccak_chip.rs:10-12 and 24 *)
Definition ABSORB_BITS_RATE : nat := 17 * 64.
Definition N_R : nat := 24.

(** state[x][y] and state[x][y] = l *)
Definition lane {X} (st : list (list (list X))) (x y : nat) : list X := nth y (nth x st []) [].
Fixpoint set_nth {X} (i : nat) (a : X) (l : list X) : list X :=
  match l, i with [], _ => [] | _ :: l, O => a :: l | b :: l, S i => b :: set_nth i a l end.
Definition set_lane {X} (x y : nat) (l : list X) (st : list (list (list X))) : list (list (list X)) :=
  set_nth x (set_nth y l (nth x st [])) st.
(** <[T]>::rotate_left *)
Definition rotate_left {X} (k : nat) (l : list X) : list X := skipn k l ++ firstn k l.

Section KeccakChip.
Context {NM : NMod}.

(** A loop over z in 0..W of xor. *)
Definition xor_lanes (a b : list acond) : M (list acond) := mapM (fun p => xor_ (fst p) (snd p)) (combine a b).

(** keccak_chip.rs:55-59 *)
Definition k_init : M kstate :=
  zero <- assign_constant 0 ;; mret (repeat (repeat (repeat zero 64) 5) 5).

(** keccak_chip.rs:61-89 *)
Definition theta (st : kstate) : M kstate :=
  c <- mapM (fun x => foldM (fun ci i => xor_lanes ci (lane st x i)) (lane st x 0) [1; 2; 3; 4]%nat) (seq 0 5) ;;
  mapM (fun x =>
    di <- xor_lanes (nth ((x + 4) mod 5) c []) (rotate_left 1 (nth ((x + 1) mod 5) c [])) ;;
    mapM (fun y => xor_lanes (lane st x y) di) (seq 0 5)) (seq 0 5).

(** keccak_chip.rs:91-101; no rows are recorded. *)
Definition rho_and_pi {X} (st : list (list (list X))) : list (list (list X)) :=
  fst (fold_left (fun s i =>
    let px := (nth i PI 0 mod 5)%nat in let py := (nth i PI 0 / 5)%nat in
    (set_lane px py (rotate_left (nth i RHO 0%nat) (snd s)) (fst s), lane (fst s) px py))
    (seq 0 24) (st, lane st 1 0)).

(** keccak_chip.rs:103-121 *)
Definition xi (st : kstate) : M kstate :=
  mapM (fun x => mapM (fun y =>
    mapM (fun p => t <- not_and (fst (snd p)) (snd (snd p)) ;; xor_ (fst p) t)
      (combine (lane st x y) (combine (lane st ((x + 1) mod 5) y) (lane st ((x + 2) mod 5) y))))
    (seq 0 5)) (seq 0 5).

(** keccak_chip.rs:123-131 *)
Definition iota (st : kstate) (round : nat) : M kstate :=
  l <- mapM (fun p => if Z.testbit (nth round ROUND_CONSTANTS 0) (63 - Z.of_nat (fst p)) then not_ (snd p) else mret (snd p))
         (combine (seq 0 64) (lane st 0 0)) ;;
  mret (set_lane 0 0 l st).

(** keccak_chip.rs:133-140 *)
Definition permute (st : kstate) : M kstate :=
  foldM (fun st i => st <- theta st ;; st <- xi (rho_and_pi st) ;; iota st i) st (seq 0 24).

(** The order of the bytes of a lane reversed (keccak_chip.rs:152, 290-291). *)
Definition rev_bytes {X} (l : list X) : list X := concat (rev (chunks 8 l)).

(** keccak_chip.rs:142-165: lane i of the input goes to (x, y) = (i mod 5, i / 5) and
    its bit 8 j + k to bit 8 (7 - j) + k of the lane. *)
Definition absorb (st : kstate) (input : list acond) : M kstate :=
  massert (length input =? ABSORB_BITS_RATE)%nat ;;;
  st <- foldM (fun st i =>
      l <- xor_lanes (firstn 64 (skipn (64 * i) input)) (rev_bytes (lane st (i mod 5) (i / 5))) ;;
      mret (set_lane (i mod 5) (i / 5) (rev_bytes l) st)) st (seq 0 17) ;;
  permute st.

(** keccak_chip.rs:178-204: the state is (v, bits). *)
Definition u256_step (s_bn : Z) (st : av * list acond) (i : nat) : M (av * list acond) :=
  let i := Z.of_nat i in
  b0 <- assign_bit (bit_of s_bn (i * 2)) ;;
  b1 <- assign_bit (bit_of s_bn (i * 2 + 1)) ;;
  let v_next := fof (Z.shiftr s_bn (i * 2 + 2)) in
  cells <- one_line_with_last [pu v_next (fadd (fadd 1 1) (fadd 1 1)); pa b1 (fadd 1 1); pa b0 1]
             (pa (fst st) (fneg 1)) None [] None ;;
  v <- mnth (fst cells) 0 ;;
  mret (v, snd st ++ [b0; b1]).

(** keccak_chip.rs:168-209, with the integer [s_bn] of :175 as a parameter; the code
    takes [field_to_bn(&s.val)], [decompose_scalar_as_u256_be] below. *)
Definition decompose_u256_with (s_bn : Z) (s : av) : M (list acond) :=
  r <- foldM (u256_step s_bn) (s, []) (seq 0 (256 / 2)) ;;
  assert_constant (fst r) 0 ;;;
  mret (rev (snd r)).
Definition decompose_scalar_as_u256_be (s : av) : M (list acond) := decompose_u256_with (a_val s) s.

(** keccak_chip.rs:211-229 *)
Fixpoint compose_loop (acc : av) (s : list acond) : M av :=
  match s with
  | b1 :: b0 :: s => acc <- sum_with_constant [(b0, 1); (b1, fadd 1 1); (acc, fadd (fadd 1 1) (fadd 1 1))] None ;; compose_loop acc s
  | _ => mret acc
  end.
Definition compose_to_scalar_be (s : list acond) : M av :=
  massert (length s mod 2 =? 0)%nat ;;;
  acc <- assign_constant 0 ;;
  compose_loop acc s.

(** keccak_chip.rs:242-281: what is pushed to [input_bits] after the inputs. *)
Definition k_padding (one zero : acond) (raw_len : nat) : list acond :=
  let aligned_len := ((raw_len + 8 + ABSORB_BITS_RATE - 1) / ABSORB_BITS_RATE * ABSORB_BITS_RATE)%nat in
  let padding_len := (aligned_len - raw_len)%nat in
  if (padding_len =? 8)%nat then [one; zero; zero; zero; zero; zero; zero; one]
  else [zero; zero; zero; zero; zero; zero; zero; one] ++ repeat zero (padding_len - 16)
       ++ [one; zero; zero; zero; zero; zero; zero; zero].

(** keccak_chip.rs:231-300, with the integers decomposed as a parameter; the code takes
    those of [hash] below.  [chunks_exact] drops an incomplete last chunk, on which the model's [absorb] panics; there is none. *)
Definition hash_with (input : list (Z * av)) : M av :=
  one <- assign_constant 1 ;;
  zero <- assign_constant 0 ;;
  st <- k_init ;;
  input_bits <- mapM (fun v => decompose_u256_with (fst v) (snd v)) input ;;
  st <- foldM absorb st (chunks ABSORB_BITS_RATE (concat input_bits ++ k_padding one zero (length input * 256))) ;;
  compose_to_scalar_be (concat (map (fun x => rev_bytes (lane st x 0)) [0; 1; 2; 3]%nat)).
Definition hash (input : list av) : M av := hash_with (map (fun v => (a_val v, v)) input).

End KeccakChip.
