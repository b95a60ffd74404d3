(** Model of src/circuit/ecc_chip.rs, trait [EccChipBaseOps] (lines 438-1009):
    point gadgets over the foreign base field.  [I] is the [RangeInfo] of the base
    integer chip, [cv_b] the curve constant [C::b()], [ord] the modulus of
    [C::ScalarExt].  A curve point given as a witness ([C::CurveExt]) is
    [None] for the identity and [Some (x, y)] otherwise. *)
From Verif Require Import Prelude FieldZ Circuit Context RangeInfo BaseChip RangeChip IntegerChip.

(** src/assign.rs:39-68. *)
Record acurv := mkCurv { k_v : aint; k_z : acond }.
Record apoint := mkPt { p_x : aint; p_y : aint; p_z : acond }.
Record anz := mkNz { nz_x : aint; nz_y : aint }.
Record apointc := mkPtc { pc_x : aint; pc_y : aint; pc_z : acond; pc_c : acurv }.
(** src/assign.rs:70-74 *)
Definition to_point (a : apointc) : apoint := mkPt (pc_x a) (pc_y a) (pc_z a).

(** ecc_chip.rs:23-34 [UnsafeError], and Rust's [Result]. *)
Inductive uerr := AddSameOrNegPoint | AddIdentity | AssignIdentity.
Inductive uresult (X : Type) := UOk (x : X) | UErr (e : uerr).
Arguments UOk {X} x.
Arguments UErr {X} e.
(** Rust's [?]. *)
Definition ubind {X Y} (m : M (uresult X)) (k : X -> M (uresult Y)) : M (uresult Y) :=
  r <- m ;; match r with UOk x => k x | UErr e => mret (UErr e) end.

Section EccChip.
Context {NM : NMod}.
Variable I : rinfo.
Variable cv_b : Z.
Variable ord : Z.

(** ecc_chip.rs:441-443, 459-461: affine coordinates of a witness, (0, 0) for the identity. *)
Definition coords (p : option (Z * Z)) : Z * Z := match p with Some q => q | None => (0, 0) end.
Definition is_identity (p : option (Z * Z)) : bool := match p with Some _ => false | None => true end.
Definition b2n (b : bool) : Z := if b then 1 else 0.

(** ecc_chip.rs:440-456 *)
Definition assign_constant_point (p : option (Z * Z)) : M apoint :=
  x <- assign_int_constant I (fst (coords p)) ;;
  y <- assign_int_constant I (snd (coords p)) ;;
  z <- assign_constant (b2n (is_identity p)) ;;
  mret (mkPt x y z).

(** ecc_chip.rs:474-478 and 503-507: y^2 and x^3 + b. *)
Definition curve_sides (x y : aint) : M (aint * aint) :=
  b <- assign_int_constant I cv_b ;;
  y2 <- int_square I y ;;
  x2 <- int_square I x ;;
  x3 <- int_mul I x2 x ;;
  right <- int_add I x3 b ;;
  mret (y2, right).

(** ecc_chip.rs:458-487 *)
Definition assign_point (p : option (Z * Z)) : M apoint :=
  x <- assign_w I (fst (coords p)) ;;
  y <- assign_w I (snd (coords p)) ;;
  z <- assign_bit (b2n (is_identity p)) ;;
  s <- curve_sides x y ;;
  eq <- is_int_equal I (fst s) (snd s) ;;
  eq_or_identity <- or_ eq z ;;
  assert_true eq_or_identity ;;;
  mret (mkPt x y z).

(** ecc_chip.rs:489-511 *)
Definition assign_non_zero_point (p : option (Z * Z)) : M anz :=
  q <- mopt p ;;
  x <- assign_w I (fst q) ;;
  y <- assign_w I (snd q) ;;
  s <- curve_sides x y ;;
  assert_int_equal I (fst s) (snd s) ;;;
  mret (mkNz x y).

(** ecc_chip.rs:513-528 *)
Definition assign_identity : M apointc :=
  zero <- assign_int_constant I 0 ;;
  one <- assign_constant 1 ;;
  mret (mkPtc zero zero one (mkCurv zero one)).

(** ecc_chip.rs:530-544 *)
Definition bisec_point (cond : acond) (a b : apoint) : M apoint :=
  x <- bisec_int I cond (p_x a) (p_x b) ;;
  y <- bisec_int I cond (p_y a) (p_y b) ;;
  z <- bisec_cond cond (p_z a) (p_z b) ;;
  mret (mkPt x y z).

(** ecc_chip.rs:546-559 *)
Definition bisec_curvature (cond : acond) (a b : acurv) : M acurv :=
  v <- bisec_int I cond (k_v a) (k_v b) ;;
  z <- bisec_cond cond (k_z a) (k_z b) ;;
  mret (mkCurv v z).

(** ecc_chip.rs:561-577 *)
Definition bisec_point_with_curvature (cond : acond) (a b : apointc) : M apointc :=
  x <- bisec_int I cond (pc_x a) (pc_x b) ;;
  y <- bisec_int I cond (pc_y a) (pc_y b) ;;
  z <- bisec_cond cond (pc_z a) (pc_z b) ;;
  c <- bisec_curvature cond (pc_c a) (pc_c b) ;;
  mret (mkPtc x y z c).

(** The coordinates computed from the slope, the same code in
    ecc_chip.rs:585-601 and 818-833. *)
Definition lambda_xy (l ax ay bx : aint) : M (aint * aint) :=
  l_square <- int_square I l ;;
  t <- int_sub I l_square ax ;;
  cx <- int_sub I t bx ;;
  t <- int_sub I ax cx ;;
  t <- int_mul I t l ;;
  cy <- int_sub I t ay ;;
  mret (cx, cy).

(** ecc_chip.rs:579-602 *)
Definition lambda_to_point (lambda : acurv) (a b : apoint) : M apoint :=
  c <- lambda_xy (k_v lambda) (p_x a) (p_y a) (p_x b) ;;
  mret (mkPt (fst c) (snd c) (k_z lambda)).

(** ecc_chip.rs:604-627 *)
Definition ecc_add (a : apointc) (b : apoint) : M apoint :=
  diff_x <- int_sub I (pc_x a) (p_x b) ;;
  diff_y <- int_sub I (pc_y a) (p_y b) ;;
  t <- int_div I diff_y diff_x ;;
  let x_eq := fst t in
  y_eq <- is_int_zero I diff_y ;;
  eq <- and_ x_eq y_eq ;;
  lambda <- bisec_curvature eq (pc_c a) (mkCurv (snd t) x_eq) ;;
  let a_p := to_point a in
  p <- lambda_to_point lambda a_p b ;;
  p <- bisec_point (pc_z a) b p ;;
  bisec_point (p_z b) a_p p.

(** ecc_chip.rs:629-641 *)
Definition ecc_double (a : apointc) : M apoint :=
  massert (negb (Z.odd ((- 1) mod ord))) ;;;
  let a_p := to_point a in
  p <- lambda_to_point (pc_c a) a_p a_p ;;
  z <- bisec_cond (pc_z a) (pc_z a) (p_z p) ;;
  mret (mkPt (p_x p) (p_y p) z).

(** ecc_chip.rs:643-657 *)
Definition ecc_assert_equal (a b : apoint) : M unit :=
  eq_x <- is_int_equal I (p_x a) (p_x b) ;;
  eq_y <- is_int_equal I (p_y a) (p_y b) ;;
  eq_z <- xnor_ (p_z a) (p_z b) ;;
  eq_xy <- and_ eq_x eq_y ;;
  eq_xyz <- and_ eq_xy eq_z ;;
  is_both_identity <- and_ (p_z a) (p_z b) ;;
  eq <- or_ eq_xyz is_both_identity ;;
  assert_true eq.

(** ecc_chip.rs:659-665 *)
Definition ecc_neg (a : apoint) : M apoint :=
  y <- int_neg I (p_y a) ;;
  mret (mkPt (p_x a) y (p_z a)).

(** ecc_chip.rs:667-674 *)
Definition ecc_reduce (a : apoint) : M apoint :=
  x <- reduce I (p_x a) ;;
  y <- reduce I (p_y a) ;;
  identity <- assign_identity ;;
  bisec_point (p_z a) (to_point identity) (mkPt x y (p_z a)).

(** ecc_chip.rs:683-690, 700-707 and 870-877: 3 x^2 / 2 y. *)
Definition curvature_of (x y : aint) : M (acond * aint) :=
  x_square <- int_square I x ;;
  numerator <- int_mul_small_constant I x_square 3 ;;
  denominator <- int_mul_small_constant I y 2 ;;
  int_div I numerator denominator.

(** ecc_chip.rs:676-693 *)
Definition ecc_reduce_with_curvature (a : apoint) : M apointc :=
  a <- ecc_reduce a ;;
  r <- curvature_of (p_x a) (p_y a) ;;
  v <- reduce I (snd r) ;;
  mret (mkPtc (p_x a) (p_y a) (p_z a) (mkCurv v (fst r))).

(** ecc_chip.rs:695-708 *)
Definition to_point_with_curvature (a : apoint) : M apointc :=
  r <- curvature_of (p_x a) (p_y a) ;;
  mret (mkPtc (p_x a) (p_y a) (p_z a) (mkCurv (snd r) (fst r))).

(** ecc_chip.rs:710-732 *)
Definition ecc_encode (p : apoint) : M (list av) :=
  p <- ecc_reduce p ;;
  let shift := fof LIMB in
  x0 <- mnth (i_limbs (p_x p)) 0 ;; x1 <- mnth (i_limbs (p_x p)) 1 ;;
  s0 <- sum_with_constant [(x0, 1); (x1, shift)] None ;;
  x2 <- mnth (i_limbs (p_x p)) 2 ;; y0 <- mnth (i_limbs (p_y p)) 0 ;;
  s1 <- sum_with_constant [(x2, 1); (y0, shift)] None ;;
  y1 <- mnth (i_limbs (p_y p)) 1 ;; y2 <- mnth (i_limbs (p_y p)) 2 ;;
  s2 <- sum_with_constant [(y1, 1); (y2, shift)] None ;;
  mret [s0; s1; s2].

(** ecc_chip.rs:734-751; returns the next limb offset. *)
Definition assign_cache_integer (p : aint) (sc g offset : Z) : M Z :=
  massert (i_times p =? 1) ;;;
  offset <- foldM (fun offset j =>
      l <- mnth (i_limbs p) j ;;
      assign_cache_value l offset g sc ;;;
      mret (offset + 1)) offset (seq 0 (ri_limbs I)) ;;
  assign_cache_value (i_native p) offset g sc ;;;
  mret (offset + 1).

(** ecc_chip.rs:753-777 *)
Definition assign_selected_integer (p : aint) (sc : av) (g offset : Z) : M (aint * Z) :=
  r <- foldM (fun (s : list av * Z) j =>
      l <- mnth (i_limbs p) j ;;
      v <- assign_selected_value l (snd s) g sc ;;
      mret (fst s ++ [v], snd s + 1)) ([], offset) (seq 0 (ri_limbs I)) ;;
  native <- assign_selected_value (i_native p) (snd r) g sc ;;
  mret (mkInt (fst r) native 1, snd r + 1).

(** ecc_chip.rs:779-788 *)
Definition assign_cache_point (p : apointc) (g sc : Z) : M unit :=
  i <- assign_cache_integer (pc_x p) sc g 0 ;;
  i <- assign_cache_integer (pc_y p) sc g i ;;
  assign_cache_value (pc_z p) i g sc ;;;
  i <- assign_cache_integer (k_v (pc_c p)) sc g (i + 1) ;;
  assign_cache_value (k_z (pc_c p)) i g sc.

(** ecc_chip.rs:790-812 *)
Definition assign_selected_point (p : apointc) (sc : av) (g : Z) : M apointc :=
  x <- assign_selected_integer (pc_x p) sc g 0 ;;
  y <- assign_selected_integer (pc_y p) sc g (snd x) ;;
  z <- assign_selected_value (pc_z p) (snd y) g sc ;;
  c_v <- assign_selected_integer (k_v (pc_c p)) sc g (snd y + 1) ;;
  c_z <- assign_selected_value (k_z (pc_c p)) (snd c_v) g sc ;;
  mret (mkPtc (fst x) (fst y) z (mkCurv (fst c_v) c_z)).

(** ecc_chip.rs:814-836 *)
Definition lambda_to_point_non_zero (lambda : aint) (a b : anz) : M anz :=
  c <- lambda_xy lambda (nz_x a) (nz_y a) (nz_x b) ;;
  mret (mkNz (fst c) (snd c)).

(** ecc_chip.rs:838-857 *)
Definition ecc_add_unsafe (a b : anz) : M (uresult anz) :=
  diff_x <- int_sub I (nz_x a) (nz_x b) ;;
  diff_y <- int_sub I (nz_y a) (nz_y b) ;;
  t <- int_div I diff_y diff_x ;;
  succeed <- try_assert_false (fst t) ;;
  res <- lambda_to_point_non_zero (snd t) a b ;;
  mret (if succeed then UOk res else UErr AddSameOrNegPoint).

(** ecc_chip.rs:859-881 *)
Definition ecc_double_unsafe (a : anz) : M (uresult anz) :=
  r <- curvature_of (nz_x a) (nz_y a) ;;
  succeed <- try_assert_false (fst r) ;;
  res <- lambda_to_point_non_zero (snd r) a a ;;
  mret (if succeed then UOk res else UErr AddIdentity).

(** ecc_chip.rs:883-888 *)
Definition ecc_neg_non_zero (a : anz) : M anz :=
  y <- int_neg I (nz_y a) ;;
  mret (mkNz (nz_x a) y).

(** ecc_chip.rs:890-898 *)
Definition ecc_reduce_non_zero (a : anz) : M anz :=
  x <- reduce I (nz_x a) ;;
  y <- reduce I (nz_y a) ;;
  mret (mkNz x y).

(** ecc_chip.rs:900-910 *)
Definition ecc_bisec_non_zero_point (cond : acond) (a b : anz) : M anz :=
  x <- bisec_int I cond (nz_x a) (nz_x b) ;;
  y <- bisec_int I cond (nz_y a) (nz_y b) ;;
  mret (mkNz x y).

(** ecc_chip.rs:919-929, one bit: [chunks(2)]; an odd last chunk is an index panic. *)
Fixpoint bisec_pairs (bit : acond) (cs : list anz) : M (list anz) :=
  match cs with
  | [] => mret []
  | a0 :: a1 :: cs' =>
      p <- ecc_bisec_non_zero_point bit a1 a0 ;;
      ps <- bisec_pairs bit cs' ;;
      mret (p :: ps)
  | [_] => mpanic
  end.

(** ecc_chip.rs:912-933 *)
Definition bisec_candidate_non_zero (candidates : list anz) (group_bits : list acond) : M anz :=
  cs <- foldM (fun cs bit => bisec_pairs bit cs) candidates group_bits ;;
  massert (length cs =? 1)%nat ;;;
  mnth cs 0.

(** ecc_chip.rs:935-953; [index_i] is the lowest byte of the index. *)
Definition pick_candidate_non_zero (candidates : list anz) (group_bits : list acond) : M (av * anz) :=
  index <- sum_with_constant (mapi (fun i x => (x, fof (2 ^ Z.of_nat i))) group_bits) None ;;
  ci <- mnth candidates (Z.to_nat (a_val index mod 256)) ;;
  mret (index, ci).

(** ecc_chip.rs:955-967 *)
Definition assign_selected_point_non_zero (p : anz) (sc : av) (g : Z) : M anz :=
  x <- assign_selected_integer (nz_x p) sc g 0 ;;
  y <- assign_selected_integer (nz_y p) sc g (snd x) ;;
  mret (mkNz (fst x) (fst y)).

(** ecc_chip.rs:969-973 *)
Definition assign_cache_point_non_zero (p : anz) (g sc : Z) : M unit :=
  i <- assign_cache_integer (nz_x p) sc g 0 ;;
  assign_cache_integer (nz_y p) sc g i ;;;
  mret tt.

(** ecc_chip.rs:975-982 *)
Definition ecc_assert_equal_non_zero (a b : anz) : M unit :=
  assert_int_equal I (nz_x a) (nz_x b) ;;;
  assert_int_equal I (nz_y a) (nz_y b).

(** ecc_chip.rs:984-997 *)
Definition ecc_non_zero_point_downgrade (a : anz) : M apoint :=
  zero <- assign_constant 0 ;;
  mret (mkPt (nz_x a) (nz_y a) zero).

(** ecc_chip.rs:999-1008 *)
Definition ecc_bisec_to_non_zero_point (a : apoint) (b : anz) : M anz :=
  x <- bisec_int I (p_z a) (nz_x b) (p_x a) ;;
  y <- bisec_int I (p_z a) (nz_y b) (p_y a) ;;
  mret (mkNz x y).

End EccChip.
