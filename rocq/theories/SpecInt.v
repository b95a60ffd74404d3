(** SPECIFICATION vocabulary for foreign-field integers: what integer a limb
    vector stands for, and when it is well formed.  Nothing here depends on how
    the gadgets work. *)
From Verif Require Import Prelude FieldZ Circuit Context RangeInfo IntegerChip.

(** Number of bits of the largest field element w - 1, and of limbs used. *)
Definition w_bits (w : Z) : Z := bits (w - 1).
Definition n_limbs (w : Z) : Z := (w_bits w + 107) / 108.

(** Weighted sum of limbs, 108 bits each, least significant first.  [f] gives the
    value of a handle: its cell's value in some assignment, or its witness. *)
Fixpoint limbs_value (f : av -> Z) (l : list av) : Z :=
  match l with [] => 0 | x :: l' => f x + 2 ^ 108 * limbs_value f l' end.
Definition int_value (f : av -> Z) (x : aint) : Z := limbs_value f (i_limbs x).

(** Value of a handle in an assignment. *)
Definition at_ (A : cell -> Z) : av -> Z := fun a => A (a_cell a).

(** A well-formed integer with overflow count t: the right number of limbs, each
    below t * 2^108, the leading one below t * 2^(w_bits mod 108), the whole below
    t * 2^w_bits, and the native cell holding the residue of the value. *)
Record int_wf {NM : NMod} (w : Z) (f : av -> Z) (x : aint) : Prop := {
  iw_len : Z.of_nat (length (i_limbs x)) = n_limbs w;
  iw_times : 1 <= i_times x < 64;
  iw_low : Forall (fun a => 0 <= f a < i_times x * 2 ^ 108) (removelast (i_limbs x));
  iw_lead : forall a, nth_error (i_limbs x) (length (i_limbs x) - 1) = Some a ->
            0 <= f a < i_times x * 2 ^ (w_bits w mod 108);
  iw_val : 0 <= int_value f x < i_times x * 2 ^ w_bits w;
  iw_native : f (i_native x) = int_value f x mod nmod
}.

(** An integer whose handles are recorded in [c] and whose witness is well
    formed; overflow at most 16 (what every operation returns) and, when the
    overflow count is 1, the canonical representative. *)
Record int_ok {NM : NMod} (w : Z) (c : ctx) (x : aint) (valid : ctx -> av -> Prop) : Prop := {
  ik_limbs : Forall (valid c) (i_limbs x);
  ik_native : valid c (i_native x);
  ik_wf : int_wf w a_val x;
  ik_times : i_times x <= 16;
  ik_canon : i_times x = 1 -> int_value a_val x < w
}.

(** The same weighted sum on plain integers. *)
Fixpoint weighted (l : list Z) : Z :=
  match l with [] => 0 | x :: l' => x + 2 ^ 108 * weighted l' end.

(** All limbs of [x] and its native cell are recorded in [c], and the recorded
    witness is well formed. *)
Record int_recorded {NM : NMod} (w : Z) (c : ctx) (x : aint) (valid : ctx -> av -> Prop) : Prop := {
  ir_limbs : Forall (valid c) (i_limbs x);
  ir_native : valid c (i_native x);
  ir_wf : int_wf w a_val x
}.
