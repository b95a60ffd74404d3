(** Model of src/circuit/fq12.rs: gadgets of the tower F_w2, F_w6, F_w12 over the
    foreign integer chip with [RangeInfo] [I].  Tuples are evaluated left to right
    as in Rust.  [nonres] is the curve-specific [fq2_mul_by_nonresidue]
    (bn256_pairing_chip.rs, bls12_381_pairing_chip.rs). *)
From Verif Require Import Prelude FieldZ Circuit Context RangeInfo BaseChip RangeChip IntegerChip.

(** src/assign.rs:165-167; Rust's (a, b, c) is the Coq triple ((a, b), c). *)
Definition afq2 : Type := aint * aint.
Definition afq6 : Type := afq2 * afq2 * afq2.
Definition afq12 : Type := afq6 * afq6.
(** [x.0], [x.1], [x.2] of a triple. *)
Definition t0 {X} (x : X * X * X) : X := fst (fst x).
Definition t1 {X} (x : X * X * X) : X := snd (fst x).
Definition t2 {X} (x : X * X * X) : X := snd x.

Section Fq2.
Context {NM : NMod}.
Variable I : rinfo.

(** fq12.rs:25-30 *)
Definition fq2_reduce (x : afq2) : M afq2 :=
  a <- reduce I (fst x) ;; b <- reduce I (snd x) ;; mret (a, b).
(** fq12.rs:31-34 *)
Definition fq2_assert_equal (x y : afq2) : M unit :=
  assert_int_equal I (fst x) (fst y) ;;; assert_int_equal I (snd x) (snd y).
(** fq12.rs:35-38 *)
Definition fq2_assign_zero : M afq2 := z <- assign_int_constant I 0 ;; mret (z, z).
(** fq12.rs:39-44 *)
Definition fq2_assign_one : M afq2 :=
  a <- assign_int_constant I 1 ;; b <- assign_int_constant I 0 ;; mret (a, b).
(** fq12.rs:45-50 *)
Definition fq2_assign_constant (c : Z * Z) : M afq2 :=
  a <- assign_int_constant I (fst c) ;; b <- assign_int_constant I (snd c) ;; mret (a, b).
(** fq12.rs:51-56 *)
Definition fq2_add (a b : afq2) : M afq2 :=
  x <- int_add I (fst a) (fst b) ;; y <- int_add I (snd a) (snd b) ;; mret (x, y).
(** fq12.rs:57-69 *)
Definition fq2_mul (a b : afq2) : M afq2 :=
  ab00 <- int_mul I (fst a) (fst b) ;;
  ab11 <- int_mul I (snd a) (snd b) ;;
  c0 <- int_sub I ab00 ab11 ;;
  a01 <- int_add I (fst a) (snd a) ;;
  b01 <- int_add I (fst b) (snd b) ;;
  c1 <- int_mul I a01 b01 ;;
  c1 <- int_sub I c1 ab00 ;;
  c1 <- int_sub I c1 ab11 ;;
  mret (c0, c1).
(** fq12.rs:70-75 *)
Definition fq2_sub (a b : afq2) : M afq2 :=
  x <- int_sub I (fst a) (fst b) ;; y <- int_sub I (snd a) (snd b) ;; mret (x, y).
(** fq12.rs:76-81 *)
Definition fq2_double (a : afq2) : M afq2 :=
  x <- int_add I (fst a) (fst a) ;; y <- int_add I (snd a) (snd a) ;; mret (x, y).
(** fq12.rs:82-84 *)
Definition fq2_square (a : afq2) : M afq2 := fq2_mul a a.
(** fq12.rs:85-90 *)
Definition fq2_neg (a : afq2) : M afq2 :=
  x <- int_neg I (fst a) ;; y <- int_neg I (snd a) ;; mret (x, y).
(** fq12.rs:91-93 *)
Definition fq2_conjugate (a : afq2) : M afq2 :=
  y <- int_neg I (snd a) ;; mret (fst a, y).
(** fq12.rs:94-103 *)
Definition fq2_unsafe_invert (x : afq2) : M afq2 :=
  s0 <- int_square I (fst x) ;;
  s1 <- int_square I (snd x) ;;
  s <- int_add I s0 s1 ;;
  t <- int_unsafe_invert I s ;;
  c0 <- int_mul I (fst x) t ;;
  c1 <- int_mul I (snd x) t ;;
  c1 <- int_neg I c1 ;;
  mret (c0, c1).

Section Fq6.
Variable nonres : afq2 -> M afq2.

(** fq12.rs:107-113 *)
Definition fq6_reduce (x : afq6) : M afq6 :=
  a <- fq2_reduce (t0 x) ;; b <- fq2_reduce (t1 x) ;; c <- fq2_reduce (t2 x) ;; mret (a, b, c).
(** fq12.rs:114-118 *)
Definition fq6_assert_equal (x y : afq6) : M unit :=
  fq2_assert_equal (t0 x) (t0 y) ;;; fq2_assert_equal (t1 x) (t1 y) ;;; fq2_assert_equal (t2 x) (t2 y).
(** fq12.rs:119-122 *)
Definition fq6_assign_zero : M afq6 := z <- fq2_assign_zero ;; mret (z, z, z).
(** fq12.rs:123-127 *)
Definition fq6_assign_one : M afq6 :=
  o <- fq2_assign_one ;; z <- fq2_assign_zero ;; mret (o, z, z).
(** fq12.rs:128-134 *)
Definition fq6_add (a b : afq6) : M afq6 :=
  x <- fq2_add (t0 a) (t0 b) ;; y <- fq2_add (t1 a) (t1 b) ;; z <- fq2_add (t2 a) (t2 b) ;; mret (x, y, z).
(** fq12.rs:135-170 *)
Definition fq6_mul (a b : afq6) : M afq6 :=
  ab00 <- fq2_mul (t0 a) (t0 b) ;;
  ab11 <- fq2_mul (t1 a) (t1 b) ;;
  ab22 <- fq2_mul (t2 a) (t2 b) ;;
  b12 <- fq2_add (t1 b) (t2 b) ;;
  a12 <- fq2_add (t1 a) (t2 a) ;;
  t <- fq2_mul a12 b12 ;;
  t <- fq2_sub t ab11 ;;
  t <- fq2_sub t ab22 ;;
  t <- nonres t ;;
  c0 <- fq2_add t ab00 ;;
  b01 <- fq2_add (t0 b) (t1 b) ;;
  a01 <- fq2_add (t0 a) (t1 a) ;;
  t <- fq2_mul a01 b01 ;;
  t <- fq2_sub t ab00 ;;
  t <- fq2_sub t ab11 ;;
  xab22 <- nonres ab22 ;;
  c1 <- fq2_add t xab22 ;;
  b02 <- fq2_add (t0 b) (t2 b) ;;
  a02 <- fq2_add (t0 a) (t2 a) ;;
  t <- fq2_mul a02 b02 ;;
  t <- fq2_sub t ab00 ;;
  t <- fq2_add t ab11 ;;
  c2 <- fq2_sub t ab22 ;;
  mret (c0, c1, c2).
(** fq12.rs:171-177 *)
Definition fq6_sub (a b : afq6) : M afq6 :=
  x <- fq2_sub (t0 a) (t0 b) ;; y <- fq2_sub (t1 a) (t1 b) ;; z <- fq2_sub (t2 a) (t2 b) ;; mret (x, y, z).
(** fq12.rs:178-184 *)
Definition fq6_double (a : afq6) : M afq6 :=
  x <- fq2_double (t0 a) ;; y <- fq2_double (t1 a) ;; z <- fq2_double (t2 a) ;; mret (x, y, z).
(** fq12.rs:185-187 *)
Definition fq6_square (a : afq6) : M afq6 := fq6_mul a a.
(** fq12.rs:188-190 *)
Definition fq6_neg (a : afq6) : M afq6 :=
  x <- fq2_neg (t0 a) ;; y <- fq2_neg (t1 a) ;; z <- fq2_neg (t2 a) ;; mret (x, y, z).
(** fq12.rs:191-212 *)
Definition fq6_mul_by_1 (a : afq6) (b1 : afq2) : M afq6 :=
  ab11 <- fq2_mul (t1 a) b1 ;;
  a12 <- fq2_add (t1 a) (t2 a) ;;
  t <- fq2_mul a12 b1 ;;
  t <- fq2_sub t ab11 ;;
  c0 <- nonres t ;;
  a01 <- fq2_add (t0 a) (t1 a) ;;
  t <- fq2_mul a01 b1 ;;
  c1 <- fq2_sub t ab11 ;;
  mret (c0, c1, ab11).
(** fq12.rs:213-248 *)
Definition fq6_mul_by_01 (a : afq6) (b0 b1 : afq2) : M afq6 :=
  ab00 <- fq2_mul (t0 a) b0 ;;
  ab11 <- fq2_mul (t1 a) b1 ;;
  a12 <- fq2_add (t1 a) (t2 a) ;;
  t <- fq2_mul a12 b1 ;;
  t <- fq2_sub t ab11 ;;
  t <- nonres t ;;
  c0 <- fq2_add t ab00 ;;
  b01 <- fq2_add b0 b1 ;;
  a01 <- fq2_add (t0 a) (t1 a) ;;
  t <- fq2_mul a01 b01 ;;
  t <- fq2_sub t ab00 ;;
  c1 <- fq2_sub t ab11 ;;
  a02 <- fq2_add (t0 a) (t2 a) ;;
  t <- fq2_mul a02 b0 ;;
  t <- fq2_sub t ab00 ;;
  c2 <- fq2_add t ab11 ;;
  mret (c0, c1, c2).
(** fq12.rs:249-279 *)
Definition fq6_unsafe_invert (x : afq6) : M afq6 :=
  c0 <- nonres (t2 x) ;;
  c0 <- fq2_mul c0 (t1 x) ;;
  c0 <- fq2_neg c0 ;;
  x0s <- fq2_square (t0 x) ;;
  c0 <- fq2_add c0 x0s ;;
  c1 <- fq2_square (t2 x) ;;
  c1 <- nonres c1 ;;
  x01 <- fq2_mul (t0 x) (t1 x) ;;
  c1 <- fq2_sub c1 x01 ;;
  c2 <- fq2_square (t1 x) ;;
  x02 <- fq2_mul (t0 x) (t2 x) ;;
  c2 <- fq2_sub c2 x02 ;;
  c0x0 <- fq2_mul c0 (t0 x) ;;
  c1x2 <- fq2_mul c1 (t2 x) ;;
  c2x1 <- fq2_mul c2 (t1 x) ;;
  t <- fq2_add c1x2 c2x1 ;;
  t <- nonres t ;;
  t <- fq2_add t c0x0 ;;
  t <- fq2_unsafe_invert t ;;
  a <- fq2_mul t c0 ;; b <- fq2_mul t c1 ;; c <- fq2_mul t c2 ;;
  mret (a, b, c).
(** fq12.rs:280-286 *)
Definition fq6_assign_constant (c : (Z * Z) * (Z * Z) * (Z * Z)) : M afq6 :=
  x <- fq2_assign_constant (t0 c) ;; y <- fq2_assign_constant (t1 c) ;; z <- fq2_assign_constant (t2 c) ;;
  mret (x, y, z).
(** bn256_pairing_chip.rs:59-61 and bls12_381_pairing_chip.rs:47-49 (same text). *)
Definition fq6_mul_by_nonresidue (a : afq6) : M afq6 :=
  x <- nonres (t2 a) ;; mret (x, t0 a, t1 a).

(** fq12.rs:290-295 *)
Definition fq12_reduce (x : afq12) : M afq12 :=
  a <- fq6_reduce (fst x) ;; b <- fq6_reduce (snd x) ;; mret (a, b).
(** fq12.rs:300-303 *)
Definition fq12_assert_eq (x y : afq12) : M unit :=
  fq6_assert_equal (fst x) (fst y) ;;; fq6_assert_equal (snd x) (snd y).
(** fq12.rs:304-307 *)
Definition fq12_assign_zero : M afq12 := z <- fq6_assign_zero ;; mret (z, z).
(** fq12.rs:308-312 *)
Definition fq12_assign_one : M afq12 :=
  o <- fq6_assign_one ;; z <- fq6_assign_zero ;; mret (o, z).
(** fq12.rs:296-299 *)
Definition fq12_assert_one (x : afq12) : M unit :=
  one <- fq12_assign_one ;; fq12_assert_eq x one.
(** fq12.rs:313-315 *)
Definition fq12_add (a b : afq12) : M afq12 :=
  x <- fq6_add (fst a) (fst b) ;; y <- fq6_add (snd a) (snd b) ;; mret (x, y).
(** fq12.rs:316-330 *)
Definition fq12_mul (a b : afq12) : M afq12 :=
  ab00 <- fq6_mul (fst a) (fst b) ;;
  ab11 <- fq6_mul (snd a) (snd b) ;;
  a01 <- fq6_add (fst a) (snd a) ;;
  b01 <- fq6_add (fst b) (snd b) ;;
  c1 <- fq6_mul a01 b01 ;;
  c1 <- fq6_sub c1 ab00 ;;
  c1 <- fq6_sub c1 ab11 ;;
  xab11 <- fq6_mul_by_nonresidue ab11 ;;
  c0 <- fq6_add ab00 xab11 ;;
  mret (c0, c1).
(** fq12.rs:331-333 *)
Definition fq12_sub (a b : afq12) : M afq12 :=
  x <- fq6_sub (fst a) (fst b) ;; y <- fq6_sub (snd a) (snd b) ;; mret (x, y).
(** fq12.rs:334-336 *)
Definition fq12_double (a : afq12) : M afq12 :=
  x <- fq6_double (fst a) ;; y <- fq6_double (snd a) ;; mret (x, y).
(** fq12.rs:337-339 *)
Definition fq12_square (a : afq12) : M afq12 := fq12_mul a a.
(** fq12.rs:340-342 *)
Definition fq12_neg (a : afq12) : M afq12 :=
  x <- fq6_neg (fst a) ;; y <- fq6_neg (snd a) ;; mret (x, y).
(** fq12.rs:343-345 *)
Definition fq12_conjugate (x : afq12) : M afq12 :=
  y <- fq6_neg (snd x) ;; mret (fst x, y).
(** fq12.rs:346-366 *)
Definition fq12_mul_by_014 (x : afq12) (c0 c1 c4 : afq2) : M afq12 :=
  s0 <- fq6_mul_by_01 (fst x) c0 c1 ;;
  s1 <- fq6_mul_by_1 (snd x) c4 ;;
  o <- fq2_add c1 c4 ;;
  x0 <- fq6_mul_by_nonresidue s1 ;;
  x0 <- fq6_add x0 s0 ;;
  x1 <- fq6_add (fst x) (snd x) ;;
  x1 <- fq6_mul_by_01 x1 c0 o ;;
  x1 <- fq6_sub x1 s0 ;;
  x1 <- fq6_sub x1 s1 ;;
  mret (x0, x1).
(** fq12.rs:367-388 *)
Definition fq12_mul_by_034 (x : afq12) (c0 c3 c4 : afq2) : M afq12 :=
  s00 <- fq2_mul (t0 (fst x)) c0 ;;
  s01 <- fq2_mul (t1 (fst x)) c0 ;;
  s02 <- fq2_mul (t2 (fst x)) c0 ;;
  let s0 := (s00, s01, s02) in
  s1 <- fq6_mul_by_01 (snd x) c3 c4 ;;
  s2 <- fq6_add (fst x) (snd x) ;;
  o <- fq2_add c0 c3 ;;
  s2 <- fq6_mul_by_01 s2 o c4 ;;
  s2 <- fq6_sub s2 s0 ;;
  x1 <- fq6_sub s2 s1 ;;
  s1 <- fq6_mul_by_nonresidue s1 ;;
  x0 <- fq6_add s0 s1 ;;
  mret (x0, x1).
(** fq12.rs:389-404; the two [&mut] results are returned as a pair. *)
Definition fp4_square (a0 a1 : afq2) : M (afq2 * afq2) :=
  s0 <- fq2_square a0 ;;
  s1 <- fq2_square a1 ;;
  s2 <- nonres s1 ;;
  c0 <- fq2_add s2 s0 ;;
  s2 <- fq2_add a0 a1 ;;
  s2 <- fq2_square s2 ;;
  s2 <- fq2_sub s2 s0 ;;
  c1 <- fq2_sub s2 s1 ;;
  mret (c0, c1).
(** fq12.rs:405-440; t3..t6 start as clones of an assigned zero that is
    overwritten before use. *)
Definition fq12_cyclotomic_square (x : afq12) : M afq12 :=
  _ <- fq2_assign_zero ;;
  s34 <- fp4_square (t0 (fst x)) (t1 (snd x)) ;;
  s2 <- fq2_sub (fst s34) (t0 (fst x)) ;;
  s2 <- fq2_double s2 ;;
  c00 <- fq2_add s2 (fst s34) ;;
  s2 <- fq2_add (snd s34) (t1 (snd x)) ;;
  s2 <- fq2_double s2 ;;
  c11 <- fq2_add s2 (snd s34) ;;
  s34 <- fp4_square (t0 (snd x)) (t2 (fst x)) ;;
  s56 <- fp4_square (t1 (fst x)) (t2 (snd x)) ;;
  s2 <- fq2_sub (fst s34) (t1 (fst x)) ;;
  s2 <- fq2_double s2 ;;
  c01 <- fq2_add s2 (fst s34) ;;
  s2 <- fq2_add (snd s34) (t2 (snd x)) ;;
  s2 <- fq2_double s2 ;;
  c12 <- fq2_add s2 (snd s34) ;;
  s3 <- nonres (snd s56) ;;
  s2 <- fq2_add s3 (t0 (snd x)) ;;
  s2 <- fq2_double s2 ;;
  c10 <- fq2_add s2 s3 ;;
  s2 <- fq2_sub (fst s56) (t2 (fst x)) ;;
  s2 <- fq2_double s2 ;;
  c02 <- fq2_add s2 (fst s56) ;;
  mret ((c00, c01, c02), (c10, c11, c12)).
(** fq12.rs:441-452 *)
Definition fq12_unsafe_invert (x : afq12) : M afq12 :=
  x0s <- fq6_square (fst x) ;;
  x1s <- fq6_square (snd x) ;;
  t <- fq6_mul_by_nonresidue x1s ;;
  t <- fq6_sub x0s t ;;
  t <- fq6_unsafe_invert t ;;
  c0 <- fq6_mul t (fst x) ;;
  c1 <- fq6_mul t (snd x) ;;
  c1 <- fq6_neg c1 ;;
  mret (c0, c1).
(** fq12.rs:453-458 *)
Definition fq12_assign_constant (c : ((Z * Z) * (Z * Z) * (Z * Z)) * ((Z * Z) * (Z * Z) * (Z * Z))) : M afq12 :=
  x <- fq6_assign_constant (fst c) ;; y <- fq6_assign_constant (snd c) ;; mret (x, y).
End Fq6.
End Fq2.
