(** Model of src/circuit/range_chip.rs:262-348 (limb assignment) and
    src/circuit/select_chip.rs:100-162 (cached table lookup). *)
From Verif Require Import Prelude FieldZ Circuit Context RangeInfo.

Section RangeChip.
Context {NM : NMod}.

(** range_chip.rs:270-280 [decompose_bn]. *)
Definition decompose_bn (bn : Z) (k : nat) : Z * list Z :=
  (fof bn,
   map (fun i => fof (Z.land (Z.shiftr bn (Z.of_nat i * COMMON_RANGE_BITS)) COMMON_MASK)) (seq 0 k)).

(** range_chip.rs:287-298 *)
Definition assign_common (bn : Z) : M av :=
  let v := fof bn in
  c <- mget ;;
  res <- assign_one_line_range_value (range_off c) [v] v COMMON_RANGE_BITS ;;
  add_range_off 1 ;;;
  mret res.

(** The body shared by the three functions below: decompose, record at the
    current range offset, advance it. *)
Definition assign_limb (bn : Z) (decompose : nat) (nbits : Z) : M av :=
  let v := decompose_bn bn decompose in
  c <- mget ;;
  r <- assign_range_value (range_off c) (snd v) (fst v) nbits ;;
  add_range_off (snd r) ;;;
  mret (fst r).

(** range_chip.rs:300-315; MAX_CHUNKS * RANGE_CHIP_RANGE_COLUMNS = 3 * 2. *)
Definition assign_nonleading_limb (bn : Z) : M av := assign_limb bn 6 LIMB_BITS.
(** range_chip.rs:317-333 *)
Definition assign_w_ceil_leading_limb (I : rinfo) (bn : Z) : M av :=
  assign_limb bn (ri_w_decompose I) (ri_w_ceil_bits I mod LIMB_BITS).
(** range_chip.rs:335-347 *)
Definition assign_d_leading_limb (I : rinfo) (bn : Z) : M av :=
  assign_limb bn (ri_d_decompose I) (ri_d_bits I mod LIMB_BITS).

(** select_chip.rs:118-122 *)
Definition encode_offset (g offset limb_offset : Z) : Z :=
  fof (offset * 2 ^ 128 + g * 2 ^ 64 + limb_offset).

(** select_chip.rs:129-143 *)
Definition assign_cache_value (v : av) (offset group_index selector : Z) : M unit :=
  c <- mget ;;
  rec_assign_cache_value (select_off c) v (encode_offset group_index selector offset) ;;;
  incr_select_off.
(** select_chip.rs:144-161 *)
Definition assign_selected_value (v : av) (offset group_index : Z) (selector : av) : M av :=
  c <- mget ;;
  r <- rec_assign_select_value (select_off c) v (encode_offset group_index 0 offset) selector ;;
  incr_select_off ;;;
  mret r.

End RangeChip.
