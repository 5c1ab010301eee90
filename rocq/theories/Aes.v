(** * AES (FIPS 197): a concrete block function for [p_aes_enc] / [p_aes_dec].
    It shows that [aes_law] is satisfiable and lets the examples run real test vectors. *)
From Coq Require Import ZArith List Bool Lia ZifyBool Ring.
From Verif Require Import Base BaseProofs Prims KeyWrapProofs Extra ExtraProofs.
Import ListNotations.
Open Scope Z_scope.

Definition sbox_t : list Z :=
  [99; 124; 119; 123; 242; 107; 111; 197; 48; 1; 103; 43; 254; 215; 171; 118; 202; 130; 201; 125; 250; 89; 71; 240; 173; 212; 162; 175; 156; 164; 114; 192;
   183; 253; 147; 38; 54; 63; 247; 204; 52; 165; 229; 241; 113; 216; 49; 21; 4; 199; 35; 195; 24; 150; 5; 154; 7; 18; 128; 226; 235; 39; 178; 117;
   9; 131; 44; 26; 27; 110; 90; 160; 82; 59; 214; 179; 41; 227; 47; 132; 83; 209; 0; 237; 32; 252; 177; 91; 106; 203; 190; 57; 74; 76; 88; 207;
   208; 239; 170; 251; 67; 77; 51; 133; 69; 249; 2; 127; 80; 60; 159; 168; 81; 163; 64; 143; 146; 157; 56; 245; 188; 182; 218; 33; 16; 255; 243; 210;
   205; 12; 19; 236; 95; 151; 68; 23; 196; 167; 126; 61; 100; 93; 25; 115; 96; 129; 79; 220; 34; 42; 144; 136; 70; 238; 184; 20; 222; 94; 11; 219;
   224; 50; 58; 10; 73; 6; 36; 92; 194; 211; 172; 98; 145; 149; 228; 121; 231; 200; 55; 109; 141; 213; 78; 169; 108; 86; 244; 234; 101; 122; 174; 8;
   186; 120; 37; 46; 28; 166; 180; 198; 232; 221; 116; 31; 75; 189; 139; 138; 112; 62; 181; 102; 72; 3; 246; 14; 97; 53; 87; 185; 134; 193; 29; 158;
   225; 248; 152; 17; 105; 217; 142; 148; 155; 30; 135; 233; 206; 85; 40; 223; 140; 161; 137; 13; 191; 230; 66; 104; 65; 153; 45; 15; 176; 84; 187; 22].
Definition isbox_t : list Z :=
  [82; 9; 106; 213; 48; 54; 165; 56; 191; 64; 163; 158; 129; 243; 215; 251; 124; 227; 57; 130; 155; 47; 255; 135; 52; 142; 67; 68; 196; 222; 233; 203;
   84; 123; 148; 50; 166; 194; 35; 61; 238; 76; 149; 11; 66; 250; 195; 78; 8; 46; 161; 102; 40; 217; 36; 178; 118; 91; 162; 73; 109; 139; 209; 37;
   114; 248; 246; 100; 134; 104; 152; 22; 212; 164; 92; 204; 93; 101; 182; 146; 108; 112; 72; 80; 253; 237; 185; 218; 94; 21; 70; 87; 167; 141; 157; 132;
   144; 216; 171; 0; 140; 188; 211; 10; 247; 228; 88; 5; 184; 179; 69; 6; 208; 44; 30; 143; 202; 63; 15; 2; 193; 175; 189; 3; 1; 19; 138; 107;
   58; 145; 17; 65; 79; 103; 220; 234; 151; 242; 207; 206; 240; 180; 230; 115; 150; 172; 116; 34; 231; 173; 53; 133; 226; 249; 55; 232; 28; 117; 223; 110;
   71; 241; 26; 113; 29; 41; 197; 137; 111; 183; 98; 14; 170; 24; 190; 27; 252; 86; 62; 75; 198; 210; 121; 32; 154; 219; 192; 254; 120; 205; 90; 244;
   31; 221; 168; 51; 136; 7; 199; 49; 177; 18; 16; 89; 39; 128; 236; 95; 96; 81; 127; 169; 25; 181; 74; 13; 45; 229; 122; 159; 147; 201; 156; 239;
   160; 224; 59; 77; 174; 42; 245; 176; 200; 235; 187; 60; 131; 83; 153; 97; 23; 43; 4; 126; 186; 119; 214; 38; 225; 105; 20; 99; 85; 33; 12; 125].
Definition sbox (b : Z) : Z := nth (Z.to_nat b) sbox_t 0.
Definition isbox (b : Z) : Z := nth (Z.to_nat b) isbox_t 0.

(** multiplication by X in GF(2^8) and by the constants of MixColumns *)
Definition m2 (a : Z) : Z := Z.lxor (2 * a) (if a <? 128 then 0 else 283).
Definition m3 (a : Z) : Z := Z.lxor (m2 a) a.
Definition m4 (a : Z) : Z := m2 (m2 a).
Definition m8 (a : Z) : Z := m2 (m4 a).
Definition m9 (a : Z) : Z := Z.lxor (m8 a) a.
Definition m11 (a : Z) : Z := Z.lxor (m8 a) (Z.lxor (m2 a) a).
Definition m13 (a : Z) : Z := Z.lxor (m8 a) (Z.lxor (m4 a) a).
Definition m14 (a : Z) : Z := Z.lxor (m8 a) (Z.lxor (m4 a) (m2 a)).
Definition x4 (a b c d : Z) : Z := Z.lxor (Z.lxor a b) (Z.lxor c d).

Fixpoint mix (s : bytes) : bytes :=
  match s with
  | a :: b :: c :: d :: r =>
      x4 (m2 a) (m3 b) c d :: x4 a (m2 b) (m3 c) d :: x4 a b (m2 c) (m3 d) :: x4 (m3 a) b c (m2 d) :: mix r
  | _ => []
  end.
Fixpoint imix (s : bytes) : bytes :=
  match s with
  | a :: b :: c :: d :: r =>
      x4 (m14 a) (m11 b) (m13 c) (m9 d) :: x4 (m9 a) (m14 b) (m11 c) (m13 d) ::
      x4 (m13 a) (m9 b) (m14 c) (m11 d) :: x4 (m11 a) (m13 b) (m9 c) (m14 d) :: imix r
  | _ => []
  end.

Definition shift (s : bytes) : bytes := map (fun i => nth i s 0) [0; 5; 10; 15; 4; 9; 14; 3; 8; 13; 2; 7; 12; 1; 6; 11]%nat.
Definition ishift (s : bytes) : bytes := map (fun i => nth i s 0) [0; 13; 10; 7; 4; 1; 14; 11; 8; 5; 2; 15; 12; 9; 6; 3]%nat.

(** key schedule *)
Fixpoint rcon (i : nat) : Z := match i with O => 1 | S j => m2 (rcon j) end.
Definition next_word (nk : nat) (ws : list bytes) : bytes :=
  let i := length ws in
  let t := nth (i - 1) ws [] in
  let t := if Nat.eqb (i mod nk) 0
           then match map sbox t with
                | a :: r => let t := r ++ [a] in bxor t [rcon (i / nk - 1); 0; 0; 0]
                | [] => []
                end
           else if Nat.ltb 6 nk && Nat.eqb (i mod nk) 4 then map sbox t else t in
  bxor (nth (i - nk) ws []) t.
Fixpoint expand (n nk : nat) (ws : list bytes) : list bytes :=
  match n with O => ws | S m => expand m nk (ws ++ [next_word nk ws]) end.
Fixpoint words (n : nat) (k : bytes) : list bytes := match n with O => [] | S m => firstn 4 k :: words m (skipn 4 k) end.
Definition round_keys (key : bytes) : list bytes :=
  let nk := (length key / 4)%nat in
  let ws := expand (4 * (nk + 7) - nk) nk (words nk key) in
  blocks16_n (nk + 7) (concat ws).

Definition enc_round (s k : bytes) : bytes := bxor (mix (shift (map sbox s))) k.
Definition dec_round (s k : bytes) : bytes := map isbox (ishift (imix (bxor s k))).

Definition aes_enc (key b : bytes) : bytes :=
  match round_keys key with
  | [] => b
  | k0 :: ks => let s := fold_left enc_round (removelast ks) (bxor b k0) in bxor (shift (map sbox s)) (last ks [])
  end.
Definition aes_dec (key b : bytes) : bytes :=
  match round_keys key with
  | [] => b
  | k0 :: ks => let s := map isbox (ishift (bxor b (last ks []))) in bxor (fold_left dec_round (rev (removelast ks)) s) k0
  end.

(** FIPS 197, appendix C *)
Example aes128_vector : aes_enc (map Z.of_nat (seq 0 16)) (map (fun i => 17 * Z.of_nat i) (seq 0 16)) =
  z2be 16 0x69c4e0d86a7b0430d8cdb78070b4c55a.
Proof. vm_compute. reflexivity. Qed.
Example aes192_vector : aes_enc (map Z.of_nat (seq 0 24)) (map (fun i => 17 * Z.of_nat i) (seq 0 16)) =
  z2be 16 0xdda97ca4864cdfe06eaf70a0ec0d7191.
Proof. vm_compute. reflexivity. Qed.
Example aes256_vector : aes_enc (map Z.of_nat (seq 0 32)) (map (fun i => 17 * Z.of_nat i) (seq 0 16)) =
  z2be 16 0x8ea2b7ca516745bfeafc49904b496089.
Proof. vm_compute. reflexivity. Qed.
