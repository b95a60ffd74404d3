(** Constants of src/circuit/bn256_constants.rs, transcribed byte by byte (this
    file is generated from it), and the Montgomery words of
    src/circuit/bls12_381_pairing_chip.rs. *)
From Verif Require Import Prelude Moduli.

(** num_bigint [BigUint::from_bytes_le]. *)
Fixpoint from_bytes_le (l : list Z) : Z :=
  match l with [] => 0 | b :: l' => b + 256 * from_bytes_le l' end.
(** Little-endian 64-bit words. *)
Fixpoint from_words_le (l : list Z) : Z :=
  match l with [] => 0 | b :: l' => b + 2 ^ 64 * from_words_le l' end.

(** bn256_constants.rs:6 *)
Definition BN_X : Z := 4965661367192848881.

(** bn256_constants.rs:8-12 *)
Definition SIX_U_PLUS_2_NAF : list Z :=
  [0; 0; 0; 1; 0; 1; 0; (-1); 0; 0; 1; (-1); 0; 0; 1; 0; 0; 1; 1; 0; (-1); 0; 0; 1; 0; (-1); 0; 0; 0; 0; 1; 1; 1; 0; 0; (-1); 0; 0; 1; 0; 0; 0; 0; 0; (-1); 0; 0; 1; 1; 0; 0; (-1); 0; 0; 0; 1; 1; 0; (-1); 0; 0; 1; 0; 1; 1].

(** bn256_constants.rs:14-23 *)
Definition XI_TO_Q_MINUS_1_OVER_2 : Z * Z :=
  (from_bytes_le [90; 19; 160; 113; 70; 1; 84; 220; 152; 89; 201; 169; 237; 224; 170; 219; 185; 249; 226; 182; 152; 198; 94; 220; 220; 245; 154; 72; 5; 243; 60; 6],
   from_bytes_le [227; 176; 35; 38; 99; 127; 211; 130; 210; 91; 162; 143; 201; 125; 128; 33; 43; 111; 121; 236; 167; 181; 4; 7; 154; 4; 65; 172; 188; 60; 192; 7]).

(** bn256_constants.rs:25-34 *)
Definition FROBENIUS_COEFF_FQ2_C1 : list Z :=
  [from_bytes_le [1; 0; 0; 0; 0; 0; 0; 0; 0; 0; 0; 0; 0; 0; 0; 0; 0; 0; 0; 0; 0; 0; 0; 0; 0; 0; 0; 0; 0; 0; 0; 0];
   from_bytes_le [70; 253; 124; 216; 22; 140; 32; 60; 141; 202; 113; 104; 145; 106; 129; 151; 93; 88; 129; 129; 182; 69; 80; 184; 41; 160; 49; 225; 114; 78; 100; 48]].

(** bn256_constants.rs:36-97 *)
Definition FROBENIUS_COEFF_FQ6_C1 : list (Z * Z) :=
  [(from_bytes_le [1; 0; 0; 0; 0; 0; 0; 0; 0; 0; 0; 0; 0; 0; 0; 0; 0; 0; 0; 0; 0; 0; 0; 0; 0; 0; 0; 0; 0; 0; 0; 0],
    from_bytes_le [0; 0; 0; 0; 0; 0; 0; 0; 0; 0; 0; 0; 0; 0; 0; 0; 0; 0; 0; 0; 0; 0; 0; 0; 0; 0; 0; 0; 0; 0; 0; 0]);
   (from_bytes_le [61; 85; 111; 23; 87; 149; 227; 153; 12; 51; 195; 194; 16; 195; 140; 183; 67; 177; 89; 245; 60; 236; 11; 76; 247; 17; 121; 79; 152; 71; 179; 47],
    from_bytes_le [162; 203; 15; 100; 28; 213; 101; 22; 206; 157; 124; 11; 29; 42; 174; 50; 148; 7; 90; 215; 139; 204; 164; 75; 32; 174; 235; 97; 80; 229; 201; 22]);
   (from_bytes_le [72; 253; 124; 96; 229; 68; 189; 228; 61; 110; 150; 187; 159; 6; 143; 194; 176; 204; 172; 224; 231; 217; 109; 94; 41; 160; 49; 225; 114; 78; 100; 48],
    from_bytes_le [0; 0; 0; 0; 0; 0; 0; 0; 0; 0; 0; 0; 0; 0; 0; 0; 0; 0; 0; 0; 0; 0; 0; 0; 0; 0; 0; 0; 0; 0; 0; 0]);
   (from_bytes_le [109; 251; 220; 123; 232; 110; 116; 123; 211; 66; 105; 93; 61; 253; 95; 128; 172; 37; 159; 149; 119; 28; 255; 186; 10; 239; 85; 183; 120; 224; 86; 8],
    from_bytes_le [222; 134; 165; 170; 43; 171; 12; 56; 49; 38; 255; 152; 191; 49; 223; 15; 79; 9; 38; 236; 109; 14; 243; 169; 111; 118; 209; 179; 65; 222; 241; 4]);
   (from_bytes_le [254; 255; 255; 119; 49; 71; 99; 87; 79; 92; 219; 172; 241; 99; 242; 212; 172; 139; 212; 160; 206; 107; 226; 89; 0; 0; 0; 0; 0; 0; 0; 0],
    from_bytes_le [0; 0; 0; 0; 0; 0; 0; 0; 0; 0; 0; 0; 0; 0; 0; 0; 0; 0; 0; 0; 0; 0; 0; 0; 0; 0; 0; 0; 0; 0; 0; 0]);
   (from_bytes_le [228; 169; 173; 29; 238; 19; 233; 98; 58; 31; 183; 176; 212; 20; 22; 247; 202; 217; 9; 120; 184; 130; 149; 105; 81; 63; 148; 187; 212; 116; 190; 40],
    from_bytes_le [199; 170; 199; 201; 206; 11; 174; 237; 141; 6; 246; 195; 180; 14; 244; 84; 122; 71; 1; 190; 188; 106; 184; 194; 153; 123; 116; 203; 224; 138; 168; 20])].

(** bn256_constants.rs:99-160 *)
Definition FROBENIUS_COEFF_FQ6_C2 : list (Z * Z) :=
  [(from_bytes_le [1; 0; 0; 0; 0; 0; 0; 0; 0; 0; 0; 0; 0; 0; 0; 0; 0; 0; 0; 0; 0; 0; 0; 0; 0; 0; 0; 0; 0; 0; 0; 0],
    from_bytes_le [0; 0; 0; 0; 0; 0; 0; 0; 0; 0; 0; 0; 0; 0; 0; 0; 0; 0; 0; 0; 0; 0; 0; 0; 0; 0; 0; 0; 0; 0; 0; 0]);
   (from_bytes_le [98; 167; 30; 146; 85; 31; 138; 132; 114; 236; 148; 190; 247; 101; 51; 211; 132; 30; 24; 90; 183; 192; 243; 128; 1; 168; 238; 100; 94; 79; 181; 5],
    from_bytes_le [38; 129; 43; 205; 17; 71; 59; 193; 99; 199; 222; 27; 234; 210; 133; 54; 146; 28; 11; 59; 176; 128; 58; 159; 238; 138; 253; 231; 219; 94; 20; 44]);
   (from_bytes_le [254; 255; 255; 119; 49; 71; 99; 87; 79; 92; 219; 172; 241; 99; 242; 212; 172; 139; 212; 160; 206; 107; 226; 89; 0; 0; 0; 0; 0; 0; 0; 0],
    from_bytes_le [0; 0; 0; 0; 0; 0; 0; 0; 0; 0; 0; 0; 0; 0; 0; 0; 0; 0; 0; 0; 0; 0; 0; 0; 0; 0; 0; 0; 0; 0; 0; 0]);
   (from_bytes_le [102; 240; 203; 60; 188; 146; 26; 14; 203; 107; 176; 117; 69; 9; 51; 230; 78; 68; 178; 181; 247; 224; 190; 25; 171; 141; 192; 17; 102; 140; 197; 11],
    from_bytes_le [159; 35; 12; 115; 157; 237; 227; 95; 229; 150; 127; 115; 8; 158; 74; 164; 4; 29; 210; 12; 239; 246; 176; 254; 18; 10; 145; 225; 153; 233; 213; 35]);
   (from_bytes_le [72; 253; 124; 96; 229; 68; 189; 228; 61; 110; 150; 187; 159; 6; 143; 194; 176; 204; 172; 224; 231; 217; 109; 94; 41; 160; 49; 225; 114; 78; 100; 48],
    from_bytes_le [0; 0; 0; 0; 0; 0; 0; 0; 0; 0; 0; 0; 0; 0; 0; 0; 0; 0; 0; 0; 0; 0; 0; 0; 0; 0; 0; 0; 0; 0; 0; 0]);
   (from_bytes_le [127; 101; 146; 9; 5; 218; 123; 169; 79; 114; 44; 52; 84; 251; 26; 222; 137; 245; 182; 113; 7; 164; 157; 29; 125; 106; 130; 106; 174; 114; 233; 30],
    from_bytes_le [201; 85; 194; 112; 126; 227; 33; 87; 209; 54; 133; 65; 48; 100; 50; 84; 36; 119; 37; 187; 205; 19; 181; 210; 81; 171; 212; 248; 111; 84; 222; 16])].

(** bn256_constants.rs:162-283 *)
Definition FROBENIUS_COEFF_FQ12_C1 : list (Z * Z) :=
  [(from_bytes_le [1; 0; 0; 0; 0; 0; 0; 0; 0; 0; 0; 0; 0; 0; 0; 0; 0; 0; 0; 0; 0; 0; 0; 0; 0; 0; 0; 0; 0; 0; 0; 0],
    from_bytes_le [0; 0; 0; 0; 0; 0; 0; 0; 0; 0; 0; 0; 0; 0; 0; 0; 0; 0; 0; 0; 0; 0; 0; 0; 0; 0; 0; 0; 0; 0; 0; 0]);
   (from_bytes_le [112; 228; 201; 220; 218; 53; 11; 214; 118; 33; 47; 41; 8; 30; 82; 92; 96; 139; 230; 118; 221; 159; 185; 232; 223; 167; 101; 40; 28; 183; 132; 18],
    from_bytes_le [172; 98; 243; 128; 95; 240; 92; 202; 229; 199; 238; 142; 119; 146; 121; 116; 142; 11; 21; 18; 254; 124; 50; 166; 230; 231; 250; 180; 243; 150; 105; 36]);
   (from_bytes_le [73; 253; 124; 96; 229; 68; 189; 228; 61; 110; 150; 187; 159; 6; 143; 194; 176; 204; 172; 224; 231; 217; 109; 94; 41; 160; 49; 225; 114; 78; 100; 48],
    from_bytes_le [0; 0; 0; 0; 0; 0; 0; 0; 0; 0; 0; 0; 0; 0; 0; 0; 0; 0; 0; 0; 0; 0; 0; 0; 0; 0; 0; 0; 0; 0; 0; 0]);
   (from_bytes_le [127; 166; 212; 30; 57; 125; 111; 232; 74; 210; 85; 190; 141; 179; 76; 137; 144; 170; 172; 208; 140; 96; 233; 239; 187; 228; 130; 204; 207; 129; 220; 25],
    from_bytes_le [1; 193; 192; 244; 43; 170; 148; 118; 236; 57; 212; 151; 227; 165; 3; 127; 157; 19; 118; 53; 227; 238; 203; 6; 115; 125; 231; 11; 182; 248; 171; 0]);
   (from_bytes_le [72; 253; 124; 96; 229; 68; 189; 228; 61; 110; 150; 187; 159; 6; 143; 194; 176; 204; 172; 224; 231; 217; 109; 94; 41; 160; 49; 225; 114; 78; 100; 48],
    from_bytes_le [0; 0; 0; 0; 0; 0; 0; 0; 0; 0; 0; 0; 0; 0; 0; 0; 0; 0; 0; 0; 0; 0; 0; 0; 0; 0; 0; 0; 0; 0; 0; 0]);
   (from_bytes_le [15; 194; 10; 66; 94; 71; 100; 18; 212; 176; 38; 149; 133; 149; 250; 44; 48; 31; 198; 89; 175; 192; 47; 7; 220; 60; 29; 164; 179; 202; 87; 7],
    from_bytes_le [156; 91; 74; 76; 227; 69; 88; 232; 147; 60; 87; 113; 253; 125; 11; 162; 108; 96; 226; 164; 155; 183; 233; 24; 182; 53; 30; 56; 53; 176; 166; 12]);
   (from_bytes_le [70; 253; 124; 216; 22; 140; 32; 60; 141; 202; 113; 104; 145; 106; 129; 151; 93; 88; 129; 129; 182; 69; 80; 184; 41; 160; 49; 225; 114; 78; 100; 48],
    from_bytes_le [0; 0; 0; 0; 0; 0; 0; 0; 0; 0; 0; 0; 0; 0; 0; 0; 0; 0; 0; 0; 0; 0; 0; 0; 0; 0; 0; 0; 0; 0; 0; 0]);
   (from_bytes_le [215; 24; 179; 251; 59; 86; 21; 102; 22; 169; 66; 63; 137; 76; 47; 59; 253; 204; 154; 10; 217; 165; 150; 207; 73; 248; 203; 184; 86; 151; 223; 29],
    from_bytes_le [155; 154; 137; 87; 183; 155; 195; 113; 167; 2; 131; 217; 25; 216; 7; 35; 207; 76; 108; 111; 184; 200; 29; 18; 67; 184; 54; 44; 127; 183; 250; 11]);
   (from_bytes_le [254; 255; 255; 119; 49; 71; 99; 87; 79; 92; 219; 172; 241; 99; 242; 212; 172; 139; 212; 160; 206; 107; 226; 89; 0; 0; 0; 0; 0; 0; 0; 0],
    from_bytes_le [0; 0; 0; 0; 0; 0; 0; 0; 0; 0; 0; 0; 0; 0; 0; 0; 0; 0; 0; 0; 0; 0; 0; 0; 0; 0; 0; 0; 0; 0; 0; 0]);
   (from_bytes_le [200; 86; 168; 185; 221; 14; 177; 83; 66; 248; 27; 170; 3; 183; 52; 14; 205; 173; 212; 176; 41; 229; 102; 200; 109; 187; 174; 20; 163; 204; 135; 22],
    from_bytes_le [70; 60; 188; 227; 234; 225; 139; 197; 160; 144; 157; 208; 173; 196; 125; 24; 192; 68; 11; 76; 211; 86; 132; 177; 182; 34; 74; 213; 188; 85; 184; 47]);
   (from_bytes_le [255; 255; 255; 119; 49; 71; 99; 87; 79; 92; 219; 172; 241; 99; 242; 212; 172; 139; 212; 160; 206; 107; 226; 89; 0; 0; 0; 0; 0; 0; 0; 0],
    from_bytes_le [0; 0; 0; 0; 0; 0; 0; 0; 0; 0; 0; 0; 0; 0; 0; 0; 0; 0; 0; 0; 0; 0; 0; 0; 0; 0; 0; 0; 0; 0; 0; 0]);
   (from_bytes_le [56; 59; 114; 150; 184; 68; 188; 41; 185; 25; 75; 211; 11; 213; 134; 106; 45; 57; 187; 39; 7; 133; 32; 177; 77; 99; 20; 61; 191; 131; 12; 41],
    from_bytes_le [171; 161; 50; 140; 51; 70; 200; 83; 249; 141; 26; 247; 147; 236; 117; 245; 240; 247; 158; 220; 26; 142; 102; 159; 115; 106; 19; 169; 61; 158; 189; 35])].

(** halo2_proofs::pairing::bls12_381 [Fq::from_raw_unchecked] takes the words of
    the internal (Montgomery) representation: the element denoted is
    words * 2^(-384) mod p.  That library is not part of /repo; this reading is an
    assumption of the model (DESIGN.md).  [bls_rinv] is the inverse of 2^384. *)
Definition bls_rinv : Z := 3231460744492646417066832100176244795738767926513225105051837195607029917124509527734802654356338138714468589979680.
Definition from_raw_unchecked (l : list Z) : Z := from_words_le l * bls_rinv mod bls12_381_fq_p.
Lemma bls_rinv_ok : 2 ^ 384 * bls_rinv mod bls12_381_fq_p = 1.
Proof. vm_compute. reflexivity. Qed.

(** bls12_381_pairing_chip.rs:58-65 *)
Definition BLS_FQ6_C1 : Z := from_raw_unchecked
  [0xcd03c9e48671f071; 0x5dab22461fcda5d2; 0x587042afd3851b95; 0x8eb60ebe01bacb9e; 0x03f97d6e83d050d2; 0x18f0206554638741].
(** bls12_381_pairing_chip.rs:69-76 *)
Definition BLS_FQ6_C2 : Z := from_raw_unchecked
  [0x890dc9e4867545c3; 0x2af322533285a5d5; 0x50880866309b7e2c; 0xa20d1b8c7e881024; 0x14e4f04fe2db9068; 0x14e56d3f1564853a].
(** bls12_381_pairing_chip.rs:93-100 *)
Definition BLS_FQ12_C1_0 : Z := from_raw_unchecked
  [0x07089552b319d465; 0xc6695f92b50a8313; 0x97e83cccd117228f; 0xa35baecab2dc29ee; 0x1ce393ea5daace4d; 0x08f2220fb0fb66eb].
(** bls12_381_pairing_chip.rs:101-108 *)
Definition BLS_FQ12_C1_1 : Z := from_raw_unchecked
  [0xb2f66aad4ce5d646; 0x5842a06bfc497cec; 0xcf4895d42599d394; 0xc11b9cba40a8e8d0; 0x2e3813cbe5a0de89; 0x110eefda88847faf].
(** bls12_381_pairing_chip.rs:162 *)
Definition BLS_X : Z := 0xd201000000010000.
