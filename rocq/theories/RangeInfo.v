(** Model of src/range_info.rs and src/utils.rs: parameters of the foreign-field
    arithmetic.  The foreign field W is the integers modulo [w]; the native
    field is the integers modulo [nmod].  [field_to_bn] (utils.rs:4-8) is the
    identity on canonical representatives and [bn_to_field] (utils.rs:10-17) is
    [fof] for N and [_ mod w] for W. *)
From Verif Require Import Prelude FieldZ Circuit.

(** range_info.rs:107 and the constants asserted at 79-80 (common_bits = 18,
    overflow_bits = 6; every caller passes these, other values panic). *)
Definition LIMB_BITS : Z := 108.
Definition LIMB : Z := 2 ^ 108.                          (* limb_modulus *)
Definition LIMB_MASK : Z := 2 ^ 108 - 1.                 (* limb_mask *)
Definition COMMON_MASK : Z := 2 ^ 18 - 1.                (* common_range_mask *)
Definition OVERFLOW_BITS : Z := 6.
Definition OVERFLOW_LIMIT : Z := 64.
Definition THRESHOLD : Z := 16.        (* 1 << (overflow_bits - 2), integer_chip.rs:376 *)

(** range_info.rs:13-53.  Fields that never vary (see the constants above), the
    n_floor_leading_* and *_leading_bits fields (never read) are left out;
    counts used as loop bounds are [nat]. *)
Record rinfo := mkRI {
  ri_limbs : nat;
  ri_w_decompose : nat;           (* w_ceil_leading_decompose *)
  ri_d_decompose : nat;           (* d_leading_decompose *)
  ri_w_ceil_bits : Z;
  ri_d_bits : Z;
  ri_w_ceil : Z;
  ri_w : Z;                       (* w_modulus *)
  ri_w_limbs_bn : list Z;         (* w_modulus_limbs_le_bn *)
  ri_w_limbs : list Z;            (* w_modulus_limbs_le *)
  ri_coeffs : list Z;             (* limb_coeffs *)
  ri_limb_n : Z;                  (* limb_modulus_n *)
  ri_w_native : Z;
  ri_pure : nat;                  (* pure_w_check_limbs *)
  ri_reduce : nat;                (* reduce_check_limbs *)
  ri_mul : nat;                   (* mul_check_limbs *)
  ri_pad : list (option (list Z)) (* w_modulus_of_ceil_times *)
}.

(** BigUint::bits *)
Definition bits (x : Z) : Z := if x =? 0 then 0 else Z.log2 x + 1.

(** The expression [(w >> (i * limb_bits)) & limb_mask] (range_info.rs:118, 318, 327). *)
Definition limb_at (x : Z) (i : nat) : Z :=
  Z.land (Z.shiftr x (Z.of_nat i * LIMB_BITS)) LIMB_MASK.

Section RangeInfo.
Context {NM : NMod}.

(** range_info.rs:57-75, with common_bits = 18. *)
Definition bits_to_leading (b : Z) : res (Z * Z) :=
  let leading := if b mod LIMB_BITS =? 0 then LIMB_BITS else b mod LIMB_BITS in
  let! _ := res_assert (2 * COMMON_RANGE_BITS <=? leading) in
  let! _ := res_assert (leading <=? RANGE_VALUE_DECOMPOSE * COMMON_RANGE_BITS) in
  let chunk := leading mod COMMON_RANGE_BITS in
  if chunk =? 0 then Ok (COMMON_RANGE_BITS, leading / COMMON_RANGE_BITS)
  else Ok (chunk, leading / COMMON_RANGE_BITS + 1).

(** range_info.rs:299-314. *)
Definition d_bits_of (w : Z) : res Z :=
  let wb := bits (w - 1) in
  let d := wb + OVERFLOW_BITS * 2 + 1 in
  let max_a := 2 ^ (wb + OVERFLOW_BITS) in
  let! _ := res_assert (max_a * max_a <=? 2 ^ d * w) in
  Ok d.

(** range_info.rs:316-332. *)
Definition bn_to_limb_le (limbs : nat) (x : Z) : list Z := map (limb_at x) (seq 0 limbs).
Definition bn_to_limb_le_n (limbs : nat) (x : Z) : list Z := map fof (bn_to_limb_le limbs x).

(** range_info.rs:346-352, the loop of [find_w_modulus_of_ceil_times]; a negative
    BigUint difference is a panic. *)
Fixpoint pad_loop (k : nat) (times upper : Z) : res (list Z * Z) :=
  match k with
  | O => Ok ([], upper)
  | S k' =>
      let rem := Z.land upper LIMB_MASK + LIMB * times in
      let! _ := res_assert (rem <=? upper) in
      let upper' := Z.shiftr (upper - rem) LIMB_BITS in
      let! _ := res_assert (LIMB * times - 1 <=? rem) in
      let! _ := res_assert (rem <? LIMB * (times + 1)) in
      let! r := pad_loop k' times upper' in
      Ok (fof rem :: fst r, snd r)
  end.
(** range_info.rs:334-359. *)
Definition find_w_modulus_of_ceil_times (limbs : nat) (w wb : Z) (times : Z) : res (list Z) :=
  let max := 2 ^ wb * times in
  let n := if 0 <? max mod w then max / w + 1 else max / w in
  let! r := pad_loop (limbs - 1) times (w * n) in
  let! _ := res_assert (2 ^ (wb mod LIMB_BITS) * times <=? snd r) in
  let! _ := res_assert (snd r <? 2 ^ (wb mod LIMB_BITS) * (times + 1)) in
  Ok (fst r ++ [fof (snd r)]).

Fixpoint res_map {X Y} (f : X -> res Y) (l : list X) : res (list Y) :=
  match l with
  | [] => Ok []
  | x :: l' => let! y := f x in let! ys := res_map f l' in Ok (y :: ys)
  end.

(** range_info.rs:186-297. *)
Definition pre_check (I : rinfo) : res unit :=
  let wc := ri_w_ceil I in
  let max_wi := fold_right Z.max 0 (ri_w_limbs_bn I) in
  (* is_pure_w_modulus *)
  let! _ := res_assert (wc <=? Z.lcm nmod (2 ^ (LIMB_BITS * Z.of_nat (ri_pure I)))) in
  (* reduce *)
  let max_a := wc * (OVERFLOW_LIMIT - 1) - 1 in
  let max_dr := 2 ^ COMMON_RANGE_BITS - 1 in
  let! _ := res_assert (max_a <=? max_dr * ri_w I) in
  let! _ := res_assert (max_dr * ri_w I + wc
                        <=? Z.lcm nmod (2 ^ (LIMB_BITS * Z.of_nat (ri_reduce I)))) in
  let max_v := LIMB - 1 in
  let! _ := res_assert (max_dr * max_wi + (LIMB - 1) + max_v + OVERFLOW_LIMIT * LIMB
                        <=? max_v * LIMB) in
  let! _ := res_assert (max_v * LIMB <? nmod) in
  let! _ := res_assert (max_dr * max_wi + (LIMB - 1) + max_v + OVERFLOW_LIMIT * LIMB <? nmod) in
  let! _ := res_assert (LIMB * (OVERFLOW_LIMIT - 1) - 1
                        <=? OVERFLOW_LIMIT * LIMB - OVERFLOW_LIMIT) in
  (* mul *)
  let max_d := 2 ^ ri_d_bits I - 1 in
  let! _ := res_assert (max_a * max_a <=? max_d * ri_w I) in
  let lcm := Z.lcm nmod (2 ^ (LIMB_BITS * Z.of_nat (ri_mul I))) in
  let! _ := res_assert (max_a * max_a <? lcm) in
  let! _ := res_assert (max_d * ri_w I + (wc - 1) <? lcm) in
  let borrow := Z.of_nat (ri_limbs I) * LIMB + 2 in
  let! _ := res_assert (Z.of_nat (ri_limbs I) * (LIMB - 1) * max_wi + (LIMB - 1)
                        <=? borrow * LIMB - borrow) in
  let max_vm := LIMB * 2 ^ COMMON_RANGE_BITS - 1 in
  let max_aj := LIMB * (OVERFLOW_LIMIT - 1) in
  let! _ := res_assert (max_aj * max_aj * Z.of_nat (ri_limbs I) + LIMB * borrow
                        <=? max_vm * LIMB) in
  let! _ := res_assert (max_vm * LIMB <? nmod) in
  res_assert (3 <=? ri_limbs I)%nat.

(** range_info.rs:77-184, for the foreign modulus [w] (field_to_bn(-W::one()) is
    w - 1).  u64 subtractions that would go below zero are panics. *)
Definition range_info_new (w : Z) : res rinfo :=
  let w_max := w - 1 in
  let wb := bits w_max in
  let! _ := res_assert (w_max <? 2 ^ wb) in
  let! _ := res_assert (1 <=? wb) in
  let! _ := res_assert (2 ^ (wb - 1) <=? w_max) in
  let! wl := bits_to_leading wb in
  let n_max := nmod - 1 in
  let! _ := res_assert (1 <=? bits n_max) in
  let nb := bits n_max - 1 in
  let! _ := res_assert (2 ^ nb <? n_max) in
  let! _ := res_assert (n_max <=? 2 ^ (nb + 1)) in
  let! _ := bits_to_leading nb in
  let! d_bits := d_bits_of w in
  let! dl := bits_to_leading d_bits in
  let limbs := Z.to_nat ((wb + LIMB_BITS - 1) / LIMB_BITS) in
  let! _ := res_assert (nb <=? wb) in
  let! pads := res_map (find_w_modulus_of_ceil_times limbs w wb)
                 (map Z.of_nat (seq 1 (Z.to_nat (OVERFLOW_LIMIT - 1)))) in
  let I := {|
    ri_limbs := limbs;
    ri_w_decompose := Z.to_nat (snd wl);
    ri_d_decompose := Z.to_nat (snd dl);
    ri_w_ceil_bits := wb;
    ri_d_bits := d_bits;
    ri_w_ceil := 2 ^ wb;
    ri_w := w_max + 1;
    ri_w_limbs_bn := bn_to_limb_le limbs w;
    ri_w_limbs := map fof (bn_to_limb_le limbs w);
    ri_coeffs := map (fun i => fof (2 ^ (Z.of_nat i * LIMB_BITS))) (seq 0 limbs);
    ri_limb_n := fof LIMB;
    ri_w_native := fof (w mod nmod);
    ri_pure := Z.to_nat ((wb - nb + LIMB_BITS - 1) / LIMB_BITS);
    ri_reduce := Z.to_nat ((Z.max (wb + OVERFLOW_BITS) (COMMON_RANGE_BITS + wb) - nb
                            + LIMB_BITS - 1) / LIMB_BITS);
    ri_mul := Z.to_nat ((Z.max (wb * 2 + OVERFLOW_BITS * 2) (d_bits + wb) - nb
                         + LIMB_BITS - 1) / LIMB_BITS);
    ri_pad := None :: map Some pads
  |} in
  let! _ := pre_check I in
  Ok I.

End RangeInfo.
