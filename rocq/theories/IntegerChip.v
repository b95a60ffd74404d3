(** Model of src/circuit/integer_chip.rs: arithmetic modulo a foreign modulus on
    limbs.  [I] is the [RangeInfo] of the [IntegerContext]. *)
From Verif Require Import Prelude FieldZ Circuit Context RangeInfo BaseChip RangeChip.

(** src/assign.rs:32-37 [AssignedInteger]. *)
Record aint := mkInt { i_limbs : list av; i_native : av; i_times : Z }.

Section IntegerChip.
Context {NM : NMod}.
Variable I : rinfo.

(** [limbs.iter().zip(limb_coeffs)] summed (e.g. integer_chip.rs:251-255). *)
Definition native_of (limbs : list av) : M av :=
  sum_with_constant (combine limbs (ri_coeffs I)) None.

(** integer_chip.rs:217-224 [get_w_bn]. *)
Definition get_w_bn (a : aint) : Z :=
  fold_right (fun x acc => acc * LIMB + a_val x) 0 (firstn (ri_limbs I) (i_limbs a)).

(** integer_chip.rs:93-107: one convolution column
    sum_i a_i * b_(pos-i) - d_i * w_(pos-i). *)
Definition mul_column (a b : aint) (d : list av) (pos : nat) : M av :=
  let r_bound := Nat.min (pos + 1) (ri_limbs I) in
  let l_bound := (pos - (ri_limbs I - 1))%nat in
  terms <- mapM (fun i =>
      ai <- mnth (i_limbs a) i ;;
      bi <- mnth (i_limbs b) (pos - i) ;;
      di <- mnth d i ;;
      wi <- mnth (ri_w_limbs I) (pos - i) ;;
      mret (ai, bi, di, fneg wi)) (seq l_bound (r_bound - l_bound)) ;;
  mul_add_with_next_line terms.

(** integer_chip.rs:116-131, 146-161 and 176-191 (the same code three times):
    u = (v_h * 2^108 + v_l) * 2^108 with v_h, v_l range checked. *)
Definition mul_carry (u : av) : M (av * av) :=
  let v := a_val u / LIMB in
  massert (a_val u mod LIMB =? 0) ;;;
  v_h <- assign_common (v / LIMB) ;;
  v_l <- assign_nonleading_limb (v mod LIMB) ;;
  c2 <- mnth (ri_coeffs I) 2 ;;
  c1 <- mnth (ri_coeffs I) 1 ;;
  one_line_with_last [pa v_h c2; pa v_l c1] (pa u (fneg 1)) None [] None ;;;
  mret (v_h, v_l).

(** integer_chip.rs:73-193 *)
Definition mul_equation_on_limbs (a b : aint) (d : list av) (rem : aint) : M unit :=
  massert (i_times a <? OVERFLOW_LIMIT) ;;;
  massert (i_times b <? OVERFLOW_LIMIT) ;;;
  massert (i_times rem =? 1) ;;;
  limbs <- mapM (mul_column a b d) (seq 0 (ri_mul I)) ;;
  let borrow := fadd (fmul (fof (Z.of_nat (ri_limbs I))) (ri_limb_n I)) (fof 2) in
  l0 <- mnth limbs 0 ;;
  r0 <- mnth (i_limbs rem) 0 ;;
  u <- sum_with_constant [(l0, 1); (r0, fneg 1)] (Some (fmul (ri_limb_n I) borrow)) ;;
  v <- mul_carry u ;;
  v <- foldM (fun (v : av * av) i =>
      li <- mnth limbs i ;;
      r <- mnth (i_limbs rem) i ;;
      c1 <- mnth (ri_coeffs I) 1 ;;
      c0 <- mnth (ri_coeffs I) 0 ;;
      u <- sum_with_constant [(li, 1); (r, fneg 1); (fst v, c1); (snd v, c0)]
             (Some (fsub (fmul (ri_limb_n I) borrow) borrow)) ;;
      mul_carry u) v (seq 1 (ri_limbs I - 1)) ;;
  massert (ri_limbs I <=? ri_mul I)%nat ;;;
  foldM (fun (v : av * av) i =>
      li <- mnth limbs i ;;
      c1 <- mnth (ri_coeffs I) 1 ;;
      c0 <- mnth (ri_coeffs I) 0 ;;
      u <- sum_with_constant [(li, 1); (fst v, c1); (snd v, c0)]
             (Some (fsub (fmul (ri_limb_n I) borrow) borrow)) ;;
      mul_carry u) v (seq (ri_limbs I) (ri_mul I - ri_limbs I)) ;;;
  mret tt.

(** integer_chip.rs:195-215 *)
Definition mul_equation_on_native (a b : aint) (d_native : av) (rem : aint) : M unit :=
  one_line [pa (i_native a) 0; pa (i_native b) 0; pa d_native (ri_w_native I);
            pa (i_native rem) 1] None [fneg 1] None ;;;
  mret tt.

(** integer_chip.rs:236-258 *)
Definition assign_w (w : Z) : M aint :=
  ls <- mapM (fun i => assign_nonleading_limb (limb_at w i)) (seq 0 (ri_limbs I - 1)) ;;
  l <- assign_w_ceil_leading_limb I (limb_at w (ri_limbs I - 1)) ;;
  let limbs := ls ++ [l] in
  native <- native_of limbs ;;
  mret (mkInt limbs native 1).

(** integer_chip.rs:260-281 *)
Definition assign_d (d : Z) : M (list av * av) :=
  ls <- mapM (fun i => assign_nonleading_limb (limb_at d i)) (seq 0 (ri_limbs I - 1)) ;;
  l <- assign_d_leading_limb I (limb_at d (ri_limbs I - 1)) ;;
  let limbs := ls ++ [l] in
  native <- native_of limbs ;;
  mret (limbs, native).

(** integer_chip.rs:330-368, one iteration of the limb loop of [reduce];
    [d], [rem] are the honest quotient and remainder. *)
Definition reduce_step (a : aint) (d rem : Z) (ad : av) (arem : aint) (last : option av) (i : nat)
  : M (option av) :=
  let last_borrow := if (i =? 0)%nat then 0 else OVERFLOW_LIMIT in
  let carry := match last with Some v => a_val v | None => 0 end in
  wi_bn <- mnth (ri_w_limbs_bn I) i ;;
  ri <- mnth (bn_to_limb_le (ri_limbs I) rem) i ;;
  ai <- mnth (i_limbs a) i ;;
  let pos := d * wi_bn + ri + LIMB * OVERFLOW_LIMIT in
  massert (a_val ai <=? pos) ;;;
  massert (last_borrow <=? pos - a_val ai + carry) ;;;
  let u := pos - a_val ai + carry - last_borrow in
  massert (u mod LIMB =? 0) ;;;
  v <- assign_nonleading_limb (u / LIMB) ;;
  wi <- mnth (ri_w_limbs I) i ;;
  remi <- mnth (i_limbs arem) i ;;
  one_line_with_last
    [pa ad wi; pa remi 1; pa ai (fneg 1);
     match last with Some lv => pa lv 1 | None => pu 0 0 end]
    (pa v (fneg (fof LIMB)))
    (Some (fof (LIMB * OVERFLOW_LIMIT - (if (i =? 0)%nat then 0 else OVERFLOW_LIMIT))))
    [] None ;;;
  mret (Some v).

(** integer_chip.rs:283-373 *)
Definition reduce (a : aint) : M aint :=
  if i_times a =? 1 then mret a else
  massert (i_times a <? OVERFLOW_LIMIT) ;;;
  let a_bn := get_w_bn a in
  let d := a_bn / ri_w I in
  let rem := a_bn mod ri_w I in
  arem <- assign_w rem ;;
  ad <- assign_common d ;;
  one_line_with_last [pa ad (ri_w_native I); pa (i_native arem) 1]
    (pa (i_native a) (fneg 1)) None [] None ;;;
  foldM (reduce_step a d rem ad arem) None (seq 0 (ri_reduce I)) ;;;
  mret arem.

(** integer_chip.rs:375-382 *)
Definition conditionally_reduce (a : aint) : M aint :=
  if THRESHOLD <? i_times a then reduce a else mret a.

(** integer_chip.rs:384-406 *)
Definition int_add (a b : aint) : M aint :=
  limbs <- mapM (fun i =>
      x <- mnth (i_limbs a) i ;; y <- mnth (i_limbs b) i ;; add x y) (seq 0 (ri_limbs I)) ;;
  native <- native_of limbs ;;
  conditionally_reduce (mkInt limbs native (i_times a + i_times b)).

(** [w_modulus_of_ceil_times[times].clone().unwrap()] (integer_chip.rs:414-416). *)
Definition pad_of (times : Z) : M (list Z) :=
  o <- mnth (ri_pad I) (Z.to_nat times) ;; mopt o.

(** integer_chip.rs:408-437 *)
Definition int_sub (a b : aint) : M aint :=
  upper <- pad_of (i_times b) ;;
  limbs <- mapM (fun i =>
      x <- mnth (i_limbs a) i ;; y <- mnth (i_limbs b) i ;; u <- mnth upper i ;;
      sum_with_constant [(x, 1); (y, fneg 1)] (Some u)) (seq 0 (ri_limbs I)) ;;
  native <- native_of limbs ;;
  conditionally_reduce (mkInt limbs native (i_times a + i_times b + 1)).

(** integer_chip.rs:439-464 *)
Definition int_neg (a : aint) : M aint :=
  upper <- pad_of (i_times a) ;;
  limbs <- mapM (fun i =>
      x <- mnth (i_limbs a) i ;; u <- mnth upper i ;;
      sum_with_constant [(x, fneg 1)] (Some u)) (seq 0 (ri_limbs I)) ;;
  native <- native_of limbs ;;
  conditionally_reduce (mkInt limbs native (i_times a + 1)).

(** integer_chip.rs:466-483 *)
Definition int_mul (a b : aint) : M aint :=
  let p := get_w_bn a * get_w_bn b in
  rem <- assign_w (p mod ri_w I) ;;
  d <- assign_d (p / ri_w I) ;;
  mul_equation_on_limbs a b (fst d) rem ;;;
  mul_equation_on_native a b (snd d) rem ;;;
  mret rem.

(** integer_chip.rs:540-548 *)
Definition is_pure_zero (a : aint) : M acond :=
  sum <- sum_with_constant (map (fun v => (v, 1)) (i_limbs a)) None ;;
  is_zero sum.

(** integer_chip.rs:550-570 *)
Definition is_pure_w_modulus (a : aint) : M acond :=
  massert (i_times a =? 1) ;;;
  nd <- add_constant (i_native a) (fneg (ri_w_native I)) ;;
  is_eq <- is_zero nd ;;
  foldM (fun is_eq i =>
      ai <- mnth (i_limbs a) i ;;
      wi <- mnth (ri_w_limbs I) i ;;
      ld <- add_constant ai (fneg wi) ;;
      e <- is_zero ld ;;
      and_ is_eq e) is_eq (seq 0 (ri_pure I)).

(** integer_chip.rs:572-578 *)
Definition is_int_zero (a : aint) : M acond :=
  a <- reduce a ;;
  z <- is_pure_zero a ;;
  m <- is_pure_w_modulus a ;;
  or_ z m.

(** integer_chip.rs:47-54 *)
Definition is_int_equal (a b : aint) : M acond :=
  diff <- int_sub a b ;; is_int_zero diff.

(** integer_chip.rs:493-538; [invert] in W is [zinv] modulo w, and a negative
    BigUint difference is a panic. *)
Definition int_div (a b : aint) : M (acond * aint) :=
  b <- reduce b ;;
  is_b_zero <- is_int_zero b ;;
  a_coeff <- not_ is_b_zero ;;
  a0 <- reduce a ;;
  limbs <- mapM (fun i => x <- mnth (i_limbs a0) i ;; mul x a_coeff) (seq 0 (ri_limbs I)) ;;
  native <- mul (i_native a0) a_coeff ;;
  let a := mkInt limbs native (i_times a0) in
  let a_bn := get_w_bn a in
  let b_bn := get_w_bn b in
  let w := ri_w I in
  let c_bn := match zinv w (b_bn mod w) with
              | Some bi => ((a_bn mod w) * bi) mod w
              | None => 0
              end in
  massert (a_bn <=? b_bn * c_bn) ;;;
  let d_bn := (b_bn * c_bn - a_bn) / w in
  c <- assign_w c_bn ;;
  d <- assign_d d_bn ;;
  mul_equation_on_limbs b c (fst d) a ;;;
  mul_equation_on_native b c (snd d) a ;;;
  mret (is_b_zero, c).

(** integer_chip.rs:580-598; [w] is the canonical representative of the constant. *)
Definition assign_int_constant (w : Z) : M aint :=
  limbs <- mapM assign_constant (bn_to_limb_le_n (ri_limbs I) w) ;;
  native <- assign_constant (fof (w mod nmod)) ;;
  mret (mkInt limbs native 1).

(** integer_chip.rs:485-491 *)
Definition int_unsafe_invert (x : aint) : M aint :=
  one <- assign_int_constant 1 ;;
  r <- int_div one x ;;
  assert_false (fst r) ;;;
  mret (snd r).

(** integer_chip.rs:600-612 *)
Definition assert_int_equal (a b : aint) : M unit :=
  diff <- int_sub a b ;;
  diff <- reduce diff ;;
  sum <- sum_with_constant (map (fun v => (v, 1)) (i_limbs diff)) None ;;
  assert_constant sum 0.

(** integer_chip.rs:614-616 *)
Definition int_square (a : aint) : M aint := int_mul a a.

(** integer_chip.rs:618-658; [b] is a u64. *)
Definition int_mul_small_constant (a : aint) (b : Z) : M aint :=
  massert (b <? THRESHOLD) ;;;
  a <- (if OVERFLOW_LIMIT <=? i_times a * b then reduce a else mret a) ;;
  limbs <- mapM (fun i =>
      x <- mnth (i_limbs a) i ;; sum_with_constant [(x, fof b)] None) (seq 0 (ri_limbs I)) ;;
  native <- native_of limbs ;;
  conditionally_reduce (mkInt limbs native (i_times a * b)).

(** integer_chip.rs:660-681 *)
Definition bisec_int (cond : acond) (a b : aint) : M aint :=
  limbs <- mapM (fun i =>
      x <- mnth (i_limbs a) i ;; y <- mnth (i_limbs b) i ;; bisec cond x y) (seq 0 (ri_limbs I)) ;;
  native <- bisec cond (i_native a) (i_native b) ;;
  mret (mkInt limbs native (Z.max (i_times a) (i_times b))).

(** integer_chip.rs:683-685 *)
Definition get_w (a : aint) : Z := get_w_bn a mod ri_w I.

End IntegerChip.
