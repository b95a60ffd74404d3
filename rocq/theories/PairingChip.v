(** Model of src/circuit/pairing_chip.rs, src/circuit/bn256_pairing_chip.rs and
    src/circuit/bls12_381_pairing_chip.rs. *)
From Verif Require Import Prelude FieldZ Circuit Context RangeInfo BaseChip RangeChip IntegerChip
  EccChip Moduli PairingConsts Fq12Chip.

(** src/assign.rs:171-214 *)
Record ag2a := mkG2a { ga_x : afq2; ga_y : afq2; ga_z : acond }.
Record ag2 := mkG2 { gj_x : afq2; gj_y : afq2; gj_z : afq2 }.
(** src/assign.rs:216-229: [[AssignedFq2; 3]] and its vector. *)
Definition acoeff : Type := afq2 * afq2 * afq2.

Section Chip.
Context {NM : NMod}.
Variable I : rinfo.

(** ** pairing_chip.rs *)

(** pairing_chip.rs:13-76; [*pt = ...] is returned as first component.  [_3x2_x]
    (line 44) is computed and not used. *)
Definition doubling_step (pt : ag2) : M (ag2 * acoeff) :=
  x2 <- fq2_square I (gj_x pt) ;;
  y2 <- fq2_square I (gj_y pt) ;;
  _2y2 <- fq2_double I y2 ;;
  _4y2 <- fq2_double I _2y2 ;;
  _4y4 <- fq2_square I _2y2 ;;
  _8y4 <- fq2_double I _4y4 ;;
  z2 <- fq2_square I (gj_z pt) ;;
  t <- fq2_mul I y2 (gj_x pt) ;;
  t <- fq2_double I t ;;
  _4xy2 <- fq2_double I t ;;
  t <- fq2_double I x2 ;;
  _3x2 <- fq2_add I t x2 ;;
  _6x2 <- fq2_double I _3x2 ;;
  _9x4 <- fq2_square I _3x2 ;;
  _3x2_x <- fq2_add I _3x2 (gj_x pt) ;;
  t <- fq2_sub I _9x4 _4xy2 ;;
  rx <- fq2_sub I t _4xy2 ;;
  t <- fq2_sub I _4xy2 rx ;;
  t <- fq2_mul I t _3x2 ;;
  ry <- fq2_sub I t _8y4 ;;
  yz <- fq2_mul I (gj_y pt) (gj_z pt) ;;
  rz <- fq2_double I yz ;;
  t <- fq2_mul I z2 rz ;;
  c0 <- fq2_double I t ;;
  _6x2z2 <- fq2_mul I z2 _6x2 ;;
  c1 <- fq2_neg I _6x2z2 ;;
  _6x3 <- fq2_mul I _6x2 (gj_x pt) ;;
  c2 <- fq2_sub I _6x3 _4y2 ;;
  mret (mkG2 rx ry rz, (c0, c1, c2)).

(** pairing_chip.rs:78-133 *)
Definition addition_step (pt : ag2) (pq : ag2a) : M (ag2 * acoeff) :=
  zt2 <- fq2_square I (gj_z pt) ;;
  yqzt <- fq2_mul I (ga_y pq) (gj_z pt) ;;
  yqzt3 <- fq2_mul I yqzt zt2 ;;
  yqzt3_yt <- fq2_sub I yqzt3 (gj_y pt) ;;
  _2yqzt3_2yt <- fq2_double I yqzt3_yt ;;
  xqzt2 <- fq2_mul I (ga_x pq) zt2 ;;
  xqzt2_xt <- fq2_sub I xqzt2 (gj_x pt) ;;
  _2_xqzt2_xt <- fq2_double I xqzt2_xt ;;
  _4_xqzt2_xt_2 <- fq2_square I _2_xqzt2_xt ;;
  s0 <- fq2_mul I _4_xqzt2_xt_2 xqzt2_xt ;;
  s1 <- fq2_double I _4_xqzt2_xt_2 ;;
  s2 <- fq2_mul I s1 (gj_x pt) ;;
  t <- fq2_square I _2yqzt3_2yt ;;
  t <- fq2_sub I t s0 ;;
  rx <- fq2_sub I t s2 ;;
  s0 <- fq2_mul I _4_xqzt2_xt_2 (gj_x pt) ;;
  s0 <- fq2_sub I s0 rx ;;
  s0 <- fq2_mul I _2yqzt3_2yt s0 ;;
  s1 <- fq2_mul I _2_xqzt2_xt _4_xqzt2_xt_2 ;;
  s1 <- fq2_mul I s1 (gj_y pt) ;;
  ry <- fq2_sub I s0 s1 ;;
  rz <- fq2_mul I (gj_z pt) _2_xqzt2_xt ;;
  c0 <- fq2_double I rz ;;
  t <- fq2_double I _2yqzt3_2yt ;;
  c1 <- fq2_neg I t ;;
  s0 <- fq2_double I _2yqzt3_2yt ;;
  s0 <- fq2_mul I s0 (ga_x pq) ;;
  s1 <- fq2_mul I (ga_y pq) rz ;;
  s1 <- fq2_double I s1 ;;
  c2 <- fq2_sub I s0 s1 ;;
  mret (mkG2 rx ry rz, (c0, c1, c2)).

(** pairing_chip.rs:135-141 *)
Definition g2affine_to_g2 (g : ag2a) : M ag2 :=
  assert_false (ga_z g) ;;;
  z <- fq2_assign_one I ;;
  mret (mkG2 (ga_x g) (ga_y g) z).
(** pairing_chip.rs:143-146 *)
Definition g2_neg (g : ag2a) : M ag2a :=
  y <- fq2_neg I (ga_y g) ;; mret (mkG2a (ga_x g) y (ga_z g)).

(** ** Inner loop over the pairs, common to both curves
    (bn256_pairing_chip.rs:196-198, 202-204, ..., bls12_381_pairing_chip.rs:215-217, ...):
    every pair advances its iterator; [unwrap] of an exhausted one panics. *)
Definition apairs : Type := list (apoint * list acoeff).
Definition ell_all (ell : afq12 -> acoeff -> apoint -> M afq12) (st : afq12 * apairs) : M (afq12 * apairs) :=
  r <- foldM (fun (s : afq12 * apairs) (pq : apoint * list acoeff) =>
         k <- mopt (hd_error (snd pq)) ;;
         f <- ell (fst s) k (fst pq) ;;
         mret (f, (fst pq, tl (snd pq)) :: snd s))
       (fst st, []) (snd st) ;;
  mret (fst r, rev (snd r)).

(** ** bn256_pairing_chip.rs *)

(** bn256_pairing_chip.rs:32-44 *)
Definition bn_nonres (a : afq2) : M afq2 :=
  a2 <- fq2_double I a ;;
  a4 <- fq2_double I a2 ;;
  a8 <- fq2_double I a4 ;;
  t <- int_add I (fst a8) (fst a) ;;
  c0 <- int_sub I t (snd a) ;;
  t <- int_add I (snd a8) (fst a) ;;
  c1 <- int_add I t (snd a) ;;
  mret (c0, c1).
(** bn256_pairing_chip.rs:46-53; [bn_to_field] reduces below the modulus, which
    all the constants already are (utils.rs:10-17). *)
Definition bn_to_fq (x : Z) : Z := x mod bn256_fq_p.
Definition bn_to_fq2 (x : Z * Z) : Z * Z := (bn_to_fq (fst x), bn_to_fq (snd x)).
Definition bn_fq2_frobenius_map (x : afq2) (power : nat) : M afq2 :=
  v <- assign_int_constant I (bn_to_fq (nth (power mod 2) FROBENIUS_COEFF_FQ2_C1 0)) ;;
  y <- int_mul I (snd x) v ;;
  mret (fst x, y).
(** bn256_pairing_chip.rs:63-78 *)
Definition bn_fq6_frobenius_map (x : afq6) (power : nat) : M afq6 :=
  c0 <- bn_fq2_frobenius_map (t0 x) power ;;
  c1 <- bn_fq2_frobenius_map (t1 x) power ;;
  c2 <- bn_fq2_frobenius_map (t2 x) power ;;
  k1 <- fq2_assign_constant I (bn_to_fq2 (nth (power mod 6) FROBENIUS_COEFF_FQ6_C1 (0, 0))) ;;
  c1 <- fq2_mul I c1 k1 ;;
  k2 <- fq2_assign_constant I (bn_to_fq2 (nth (power mod 6) FROBENIUS_COEFF_FQ6_C2 (0, 0))) ;;
  c2 <- fq2_mul I c2 k2 ;;
  mret (c0, c1, c2).
(** bn256_pairing_chip.rs:84-96 *)
Definition bn_fq12_frobenius_map (x : afq12) (power : nat) : M afq12 :=
  c0 <- bn_fq6_frobenius_map (fst x) power ;;
  c1 <- bn_fq6_frobenius_map (snd x) power ;;
  k <- fq2_assign_constant I (bn_to_fq2 (nth (power mod 12) FROBENIUS_COEFF_FQ12_C1 (0, 0))) ;;
  c1c0 <- fq2_mul I (t0 c1) k ;;
  c1c1 <- fq2_mul I (t1 c1) k ;;
  c1c2 <- fq2_mul I (t2 c1) k ;;
  mret (c0, (c1c0, c1c1, c1c2)).

(** bn256_pairing_chip.rs:114-126: [for i in (1..len).rev()]. *)
Definition bn_loop_indices : list nat := rev (seq 1 (length SIX_U_PLUS_2_NAF - 1)).
Definition bn_prepare_loop (g2 neg_g2 : ag2a) (r : ag2) : M (ag2 * list acoeff) :=
  foldM (fun (s : ag2 * list acoeff) (i : nat) =>
    d <- doubling_step (fst s) ;;
    let coeffs := snd s ++ [snd d] in
    let x := nth (i - 1) SIX_U_PLUS_2_NAF 0 in
    if x =? 1 then
      a <- addition_step (fst d) g2 ;; mret (fst a, coeffs ++ [snd a])
    else if x =? -1 then
      a <- addition_step (fst d) neg_g2 ;; mret (fst a, coeffs ++ [snd a])
    else mret (fst d, coeffs)) (r, []) bn_loop_indices.
(** bn256_pairing_chip.rs:104-155 *)
Definition bn_prepare_g2 (g2 : ag2a) : M (list acoeff) :=
  neg_g2 <- g2_neg g2 ;;
  r <- g2affine_to_g2 g2 ;;
  s <- bn_prepare_loop g2 neg_g2 r ;;
  c11 <- fq2_assign_constant I (bn_to_fq2 (nth 1 FROBENIUS_COEFF_FQ6_C1 (0, 0))) ;;
  c12 <- fq2_assign_constant I (bn_to_fq2 (nth 2 FROBENIUS_COEFF_FQ6_C1 (0, 0))) ;;
  xi <- fq2_assign_constant I (bn_to_fq2 XI_TO_Q_MINUS_1_OVER_2) ;;
  q1x1 <- int_neg I (snd (ga_x g2)) ;;
  q1x <- fq2_mul I (fst (ga_x g2), q1x1) c11 ;;
  q1y1 <- int_neg I (snd (ga_y g2)) ;;
  q1y <- fq2_mul I (fst (ga_y g2), q1y1) xi ;;
  a <- addition_step (fst s) (mkG2a q1x q1y (ga_z g2)) ;;
  m2x <- fq2_mul I (ga_x g2) c12 ;;
  b <- addition_step (fst a) (mkG2a m2x (ga_y g2) (ga_z g2)) ;;
  mret (snd s ++ [snd a] ++ [snd b]).
(** bn256_pairing_chip.rs:157-174 *)
Definition bn_ell (f : afq12) (k : acoeff) (p : apoint) : M afq12 :=
  c00 <- int_mul I (fst (t0 k)) (p_y p) ;;
  c01 <- int_mul I (snd (t0 k)) (p_y p) ;;
  c10 <- int_mul I (fst (t1 k)) (p_x p) ;;
  c11 <- int_mul I (snd (t1 k)) (p_x p) ;;
  fq12_mul_by_034 I bn_nonres f (c00, c01) (c10, c11) (t2 k).
(** bn256_pairing_chip.rs:176-228 *)
Definition bn_multi_miller_loop (terms : list (apoint * list acoeff)) : M afq12 :=
  _ <- mapM (fun t => assert_false (p_z (fst t))) terms ;;
  one <- fq12_assign_one I ;;
  s <- foldM (fun (s : afq12 * apairs) (i : nat) =>
    f <- (if negb (i =? length SIX_U_PLUS_2_NAF - 1)%nat then fq12_square I bn_nonres (fst s) else mret (fst s)) ;;
    s <- ell_all bn_ell (f, snd s) ;;
    let x := nth (i - 1) SIX_U_PLUS_2_NAF 0 in
    if x =? 1 then ell_all bn_ell s
    else if x =? -1 then ell_all bn_ell s
    else mret s) (one, terms) bn_loop_indices ;;
  s <- ell_all bn_ell s ;;
  s <- ell_all bn_ell s ;;
  _ <- mapM (fun pq : apoint * list acoeff => massert (match snd pq with [] => true | _ => false end)) (snd s) ;;
  mret (fst s).
(** bn256_pairing_chip.rs:230-240 *)
Definition bn_exp_by_x (f : afq12) : M afq12 :=
  one <- fq12_assign_one I ;;
  foldM (fun res i =>
    res <- fq12_cyclotomic_square I bn_nonres res ;;
    if Z.testbit BN_X (Z.of_nat i) then fq12_mul I bn_nonres res f else mret res)
    one (rev (seq 0 64)).
(** bn256_pairing_chip.rs:242-323 *)
Definition bn_final_exponentiation (f : afq12) : M afq12 :=
  let mul := fq12_mul I bn_nonres in
  let csq := fq12_cyclotomic_square I bn_nonres in
  f1 <- fq12_conjugate I f ;;
  f2 <- fq12_unsafe_invert I bn_nonres f ;;
  r <- mul f1 f2 ;;
  let f2 := r in
  r <- bn_fq12_frobenius_map r 2 ;;
  r <- mul r f2 ;;
  fp <- bn_fq12_frobenius_map r 1 ;;
  fp2 <- bn_fq12_frobenius_map r 2 ;;
  fp3 <- bn_fq12_frobenius_map fp2 1 ;;
  fu <- bn_exp_by_x r ;;
  fu2 <- bn_exp_by_x fu ;;
  fu3 <- bn_exp_by_x fu2 ;;
  y3 <- bn_fq12_frobenius_map fu 1 ;;
  fu2p <- bn_fq12_frobenius_map fu2 1 ;;
  fu3p <- bn_fq12_frobenius_map fu3 1 ;;
  y2 <- bn_fq12_frobenius_map fu2 2 ;;
  y0 <- mul fp fp2 ;;
  y0 <- mul y0 fp3 ;;
  y1 <- fq12_conjugate I r ;;
  y5 <- fq12_conjugate I fu2 ;;
  y3 <- fq12_conjugate I y3 ;;
  y4 <- mul fu fu2p ;;
  y4 <- fq12_conjugate I y4 ;;
  y6 <- mul fu3 fu3p ;;
  y6 <- fq12_conjugate I y6 ;;
  y6 <- csq y6 ;;
  y6 <- mul y6 y4 ;;
  y6 <- mul y6 y5 ;;
  s1 <- mul y3 y5 ;;
  s1 <- mul s1 y6 ;;
  y6 <- mul y6 y2 ;;
  s1 <- csq s1 ;;
  s1 <- mul s1 y6 ;;
  s1 <- csq s1 ;;
  s0 <- mul s1 y1 ;;
  s1 <- mul s1 y0 ;;
  s0 <- csq s0 ;;
  mul s0 s1.

(** ** bls12_381_pairing_chip.rs *)

(** bls12_381_pairing_chip.rs:32-37 *)
Definition bls_nonres (a : afq2) : M afq2 :=
  c0 <- int_sub I (fst a) (snd a) ;;
  c1 <- int_add I (fst a) (snd a) ;;
  mret (c0, c1).
(** bls12_381_pairing_chip.rs:39-41: the power is ignored. *)
Definition bls_fq2_frobenius_map (x : afq2) (_power : nat) : M afq2 := fq2_conjugate I x.
(** bls12_381_pairing_chip.rs:51-83 *)
Definition bls_fq6_frobenius_map (x : afq6) (power : nat) : M afq6 :=
  c0 <- bls_fq2_frobenius_map (t0 x) power ;;
  c1 <- bls_fq2_frobenius_map (t1 x) power ;;
  c2 <- bls_fq2_frobenius_map (t2 x) power ;;
  k1 <- fq2_assign_constant I (0, BLS_FQ6_C1) ;;
  c1 <- fq2_mul I c1 k1 ;;
  k2 <- fq2_assign_constant I (BLS_FQ6_C2, 0) ;;
  c2 <- fq2_mul I c2 k2 ;;
  mret (c0, c1, c2).
(** bls12_381_pairing_chip.rs:88-115 *)
Definition bls_fq12_frobenius_map (x : afq12) (power : nat) : M afq12 :=
  c0 <- bls_fq6_frobenius_map (fst x) power ;;
  c1 <- bls_fq6_frobenius_map (snd x) power ;;
  k <- fq2_assign_constant I (BLS_FQ12_C1_0, BLS_FQ12_C1_1) ;;
  c1c0 <- fq2_mul I (t0 c1) k ;;
  c1c1 <- fq2_mul I (t1 c1) k ;;
  c1c2 <- fq2_mul I (t2 c1) k ;;
  mret (c0, (c1c0, c1c1, c1c2)).
(** bls12_381_pairing_chip.rs:123-140 *)
Definition bls_ell (f : afq12) (k : acoeff) (p : apoint) : M afq12 :=
  c00 <- int_mul I (fst (t0 k)) (p_y p) ;;
  c01 <- int_mul I (snd (t0 k)) (p_y p) ;;
  c10 <- int_mul I (fst (t1 k)) (p_x p) ;;
  c11 <- int_mul I (snd (t1 k)) (p_x p) ;;
  fq12_mul_by_014 I bls_nonres f (t2 k) (c10, c11) (c00, c01).
(** bls12_381_pairing_chip.rs:142-159 *)
Definition bls_bits (x : Z) : list bool := map (fun b => Z.testbit x (Z.of_nat b)) (rev (seq 0 64)).
Definition bls_cycolotomic_exp (f : afq12) : M afq12 :=
  one <- fq12_assign_one I ;;
  s <- foldM (fun (s : bool * afq12) (i : bool) =>
    s <- (if fst s then r <- fq12_cyclotomic_square I bls_nonres (snd s) ;; mret (true, r)
          else mret (i, snd s)) ;;
    if i then r <- fq12_mul I bls_nonres (snd s) f ;; mret (fst s, r) else mret s)
    (false, one) (bls_bits BLS_X) ;;
  fq12_conjugate I (snd s).
(** bls12_381_pairing_chip.rs:165-189 *)
Definition bls_prepare_g2 (g2 : ag2a) : M (list acoeff) :=
  f <- g2affine_to_g2 g2 ;;
  s <- foldM (fun (s : bool * (ag2 * list acoeff)) (i : bool) =>
    if negb (fst s) then mret (i, snd s)
    else
      d <- doubling_step (fst (snd s)) ;;
      let coeffs := snd (snd s) ++ [snd d] in
      if i then a <- addition_step (fst d) g2 ;; mret (true, (fst a, coeffs ++ [snd a]))
      else mret (true, (fst d, coeffs)))
    (false, (f, [])) (bls_bits (Z.shiftr BLS_X 1)) ;;
  d <- doubling_step (fst (snd s)) ;;
  mret (snd (snd s) ++ [snd d]).
(** bls12_381_pairing_chip.rs:191-234 *)
Definition bls_multi_miller_loop (terms : list (apoint * list acoeff)) : M afq12 :=
  _ <- mapM (fun t => assert_false (p_z (fst t))) terms ;;
  one <- fq12_assign_one I ;;
  s <- foldM (fun (s : bool * (afq12 * apairs)) (i : bool) =>
    if negb (fst s) then mret (i, snd s)
    else
      r <- ell_all bls_ell (snd s) ;;
      r <- (if i then ell_all bls_ell r else mret r) ;;
      f <- fq12_square I bls_nonres (fst r) ;;
      mret (true, (f, snd r)))
    (false, (one, terms)) (bls_bits (Z.shiftr BLS_X 1)) ;;
  r <- ell_all bls_ell (snd s) ;;
  fq12_conjugate I (fst r).
(** bls12_381_pairing_chip.rs:236-290 *)
Definition bls_final_exponentiation (f : afq12) : M afq12 :=
  let mul := fq12_mul I bls_nonres in
  let csq := fq12_cyclotomic_square I bls_nonres in
  let frob x := bls_fq12_frobenius_map x 1 in
  s0 <- frob f ;;
  s0 <- frob s0 ;;
  s0 <- frob s0 ;;
  s0 <- frob s0 ;;
  s0 <- frob s0 ;;
  s0 <- frob s0 ;;
  s1 <- fq12_unsafe_invert I bls_nonres f ;;
  s2 <- mul s0 s1 ;;
  let s1 := s2 in
  s2 <- frob s2 ;;
  s2 <- frob s2 ;;
  s2 <- mul s2 s1 ;;
  s1 <- csq s2 ;;
  s1 <- fq12_conjugate I s1 ;;
  s3 <- bls_cycolotomic_exp s2 ;;
  s4 <- csq s3 ;;
  s5 <- mul s1 s3 ;;
  s1 <- bls_cycolotomic_exp s5 ;;
  s0 <- bls_cycolotomic_exp s1 ;;
  s6 <- bls_cycolotomic_exp s0 ;;
  s6 <- mul s6 s4 ;;
  s4 <- bls_cycolotomic_exp s6 ;;
  s5 <- fq12_conjugate I s5 ;;
  t <- mul s5 s2 ;;
  s4 <- mul s4 t ;;
  s5 <- fq12_conjugate I s2 ;;
  s1 <- mul s1 s2 ;;
  s1 <- frob s1 ;;
  s1 <- frob s1 ;;
  s1 <- frob s1 ;;
  s6 <- mul s6 s5 ;;
  s6 <- frob s6 ;;
  s3 <- mul s3 s0 ;;
  s3 <- frob s3 ;;
  s3 <- frob s3 ;;
  s3 <- mul s3 s1 ;;
  s3 <- mul s3 s6 ;;
  mul s3 s4.

(** pairing_chip.rs:157-171 *)
Definition pairing (prepare : ag2a -> M (list acoeff)) (miller : list (apoint * list acoeff) -> M afq12)
    (final : afq12 -> M afq12) (terms : list (apoint * ag2a)) : M afq12 :=
  prepared <- mapM (fun t => q <- prepare (snd t) ;; mret (fst t, q)) terms ;;
  res <- miller prepared ;;
  final res.
Definition bn_pairing := pairing bn_prepare_g2 bn_multi_miller_loop bn_final_exponentiation.
Definition bls_pairing := pairing bls_prepare_g2 bls_multi_miller_loop bls_final_exponentiation.
(** pairing_chip.rs:173-176 *)
Definition bn_check_pairing (terms : list (apoint * ag2a)) : M unit :=
  res <- bn_pairing terms ;; fq12_assert_one I res.
Definition bls_check_pairing (terms : list (apoint * ag2a)) : M unit :=
  res <- bls_pairing terms ;; fq12_assert_one I res.
End Chip.
