(** Model of src/crypto/aes256.cpp.  Arrays are lists updated in place. *)
From Verif Require Import Base.

(** 58-92 sbox *)
Definition sbox : list Z :=
  [99; 124; 119; 123; 242; 107; 111; 197; 48; 1; 103; 43; 254; 215; 171; 118;
   202; 130; 201; 125; 250; 89; 71; 240; 173; 212; 162; 175; 156; 164; 114; 192;
   183; 253; 147; 38; 54; 63; 247; 204; 52; 165; 229; 241; 113; 216; 49; 21;
   4; 199; 35; 195; 24; 150; 5; 154; 7; 18; 128; 226; 235; 39; 178; 117;
   9; 131; 44; 26; 27; 110; 90; 160; 82; 59; 214; 179; 41; 227; 47; 132;
   83; 209; 0; 237; 32; 252; 177; 91; 106; 203; 190; 57; 74; 76; 88; 207;
   208; 239; 170; 251; 67; 77; 51; 133; 69; 249; 2; 127; 80; 60; 159; 168;
   81; 163; 64; 143; 146; 157; 56; 245; 188; 182; 218; 33; 16; 255; 243; 210;
   205; 12; 19; 236; 95; 151; 68; 23; 196; 167; 126; 61; 100; 93; 25; 115;
   96; 129; 79; 220; 34; 42; 144; 136; 70; 238; 184; 20; 222; 94; 11; 219;
   224; 50; 58; 10; 73; 6; 36; 92; 194; 211; 172; 98; 145; 149; 228; 121;
   231; 200; 55; 109; 141; 213; 78; 169; 108; 86; 244; 234; 101; 122; 174; 8;
   186; 120; 37; 46; 28; 166; 180; 198; 232; 221; 116; 31; 75; 189; 139; 138;
   112; 62; 181; 102; 72; 3; 246; 14; 97; 53; 87; 185; 134; 193; 29; 158;
   225; 248; 152; 17; 105; 217; 142; 148; 155; 30; 135; 233; 206; 85; 40; 223;
   140; 161; 137; 13; 191; 230; 66; 104; 65; 153; 45; 15; 176; 84; 187; 22].
(** sbox_inverse *)
Definition sbox_inverse : list Z :=
  [82; 9; 106; 213; 48; 54; 165; 56; 191; 64; 163; 158; 129; 243; 215; 251;
   124; 227; 57; 130; 155; 47; 255; 135; 52; 142; 67; 68; 196; 222; 233; 203;
   84; 123; 148; 50; 166; 194; 35; 61; 238; 76; 149; 11; 66; 250; 195; 78;
   8; 46; 161; 102; 40; 217; 36; 178; 118; 91; 162; 73; 109; 139; 209; 37;
   114; 248; 246; 100; 134; 104; 152; 22; 212; 164; 92; 204; 93; 101; 182; 146;
   108; 112; 72; 80; 253; 237; 185; 218; 94; 21; 70; 87; 167; 141; 157; 132;
   144; 216; 171; 0; 140; 188; 211; 10; 247; 228; 88; 5; 184; 179; 69; 6;
   208; 44; 30; 143; 202; 63; 15; 2; 193; 175; 189; 3; 1; 19; 138; 107;
   58; 145; 17; 65; 79; 103; 220; 234; 151; 242; 207; 206; 240; 180; 230; 115;
   150; 172; 116; 34; 231; 173; 53; 133; 226; 249; 55; 232; 28; 117; 223; 110;
   71; 241; 26; 113; 29; 41; 197; 137; 111; 183; 98; 14; 170; 24; 190; 27;
   252; 86; 62; 75; 198; 210; 121; 32; 154; 219; 192; 254; 120; 205; 90; 244;
   31; 221; 168; 51; 136; 7; 199; 49; 177; 18; 16; 89; 39; 128; 236; 95;
   96; 81; 127; 169; 25; 181; 74; 13; 45; 229; 122; 159; 147; 201; 156; 239;
   160; 224; 59; 77; 174; 42; 245; 176; 200; 235; 187; 60; 131; 83; 153; 97;
   23; 43; 4; 126; 186; 119; 214; 38; 225; 105; 20; 99; 85; 33; 12; 125].
Definition get (l : list Z) (i : nat) : Z := nth i l 0.
Fixpoint put (l : list Z) (i : nat) (v : Z) : list Z :=
  match l, i with
  | [], _ => []
  | _ :: l', O => v :: l'
  | x :: l', S i' => x :: put l' i' v
  end.
Definition lookup (table : list Z) (b : Z) : Z := nth (Z.to_nat b) table 0.
(** 130-134, 136-140: uint8_t shifts *)
Definition f_enc_key (b : Z) : Z := Z.lxor (2 * b mod 256) (if Z.testbit b 7 then 0x1b else 0).
Definition f_dec_key (b : Z) : Z := Z.lxor (b / 2) (if Z.testbit b 0 then 0x8d else 0).
(** while (i--) from block_size *)
Definition down (n : nat) : list nat := rev (seq 0 n).
(** 142-147; 149-154 *)
Definition sub_bytes (b : list Z) : list Z := fold_left (fun b i => put b i (lookup sbox (get b i))) (down 16) b.
Definition sub_bytes_inverse (b : list Z) : list Z := fold_left (fun b i => put b i (lookup sbox_inverse (get b i))) (down 16) b.
(** 156-162; 164-170; 172-183 (the key is also copied to the working key) *)
Definition add_round_key_lower (b key : list Z) : list Z := fold_left (fun b i => put b i (Z.lxor (get b i) (get key i))) (down 16) b.
Definition add_round_key_upper (b key : list Z) : list Z := fold_left (fun b i => put b i (Z.lxor (get b i) (get key (i + 16)))) (down 16) b.
Definition add_round_key_copy (b key : list Z) : list Z * list Z := (add_round_key_lower b key, key).
(** Sequences of assignments: to, from *)
Definition move (b : list Z) (to from : nat) : list Z := put b to (get b from).
(** 185-206 *)
Definition shift_rows (b : list Z) : list Z :=
  let i := get b 1 in let b := move b 1 5 in let b := move b 5 9 in let b := move b 9 13 in let b := put b 13 i in
  let i := get b 10 in let b := move b 10 2 in let b := put b 2 i in
  let j := get b 3 in let b := move b 3 15 in let b := move b 15 11 in let b := move b 11 7 in let b := put b 7 j in
  let j := get b 14 in let b := move b 14 6 in put b 6 j.
(** 208-229 *)
Definition shift_rows_inverse (b : list Z) : list Z :=
  let i := get b 1 in let b := move b 1 13 in let b := move b 13 9 in let b := move b 9 5 in let b := put b 5 i in
  let i := get b 2 in let b := move b 2 10 in let b := put b 10 i in
  let j := get b 3 in let b := move b 3 7 in let b := move b 7 11 in let b := move b 11 15 in let b := put b 15 j in
  let j := get b 6 in let b := move b 6 14 in put b 14 j.
Definition xor_at (b : list Z) (i : nat) (v : Z) : list Z := put b i (Z.lxor (get b i) v).
(** 231-246 *)
Definition mix_column (b : list Z) (i : nat) : list Z :=
  let a := get b (i + 0) in let b1 := get b (i + 1) in let c := get b (i + 2) in let d := get b (i + 3) in
  let e := Z.lxor (Z.lxor (Z.lxor a b1) c) d in
  let b := xor_at b (i + 0) (Z.lxor e (f_enc_key (Z.lxor a b1))) in
  let b := xor_at b (i + 1) (Z.lxor e (f_enc_key (Z.lxor b1 c))) in
  let b := xor_at b (i + 2) (Z.lxor e (f_enc_key (Z.lxor c d))) in
  xor_at b (i + 3) (Z.lxor e (f_enc_key (Z.lxor d a))).
Definition mix_columns (b : list Z) : list Z := fold_left mix_column [0; 4; 8; 12]%nat b.
(** 248-267 *)
Definition mix_column_inverse (b : list Z) (i : nat) : list Z :=
  let a := get b (i + 0) in let b1 := get b (i + 1) in let c := get b (i + 2) in let d := get b (i + 3) in
  let e := Z.lxor (Z.lxor (Z.lxor a b1) c) d in
  let z := f_enc_key e in
  let x := Z.lxor e (f_enc_key (f_enc_key (Z.lxor (Z.lxor z a) c))) in
  let y := Z.lxor e (f_enc_key (f_enc_key (Z.lxor (Z.lxor z b1) d))) in
  let b := xor_at b (i + 0) (Z.lxor x (f_enc_key (Z.lxor a b1))) in
  let b := xor_at b (i + 1) (Z.lxor y (f_enc_key (Z.lxor b1 c))) in
  let b := xor_at b (i + 2) (Z.lxor x (f_enc_key (Z.lxor c d))) in
  xor_at b (i + 3) (Z.lxor y (f_enc_key (Z.lxor d a))).
Definition mix_columns_inverse (b : list Z) : list Z := fold_left mix_column_inverse [0; 4; 8; 12]%nat b.
(** the loop bodies of 277-283, 290-296, 301-307, 314-320 *)
Definition chain_word (k : list Z) (i : nat) : list Z :=
  let k := xor_at k (i + 0) (get k (i - 4)) in let k := xor_at k (i + 1) (get k (i - 3)) in
  let k := xor_at k (i + 2) (get k (i - 2)) in xor_at k (i + 3) (get k (i - 1)).
(** 285-288, 309-312 *)
Definition middle_word (k : list Z) : list Z :=
  let k := xor_at k 16 (lookup sbox (get k 12)) in let k := xor_at k 17 (lookup sbox (get k 13)) in
  let k := xor_at k 18 (lookup sbox (get k 14)) in xor_at k 19 (lookup sbox (get k 15)).
(** 271-274, 323-326 *)
Definition first_word (k : list Z) (round : Z) : list Z :=
  let k := xor_at k 0 (Z.lxor (lookup sbox (get k 29)) round) in let k := xor_at k 1 (lookup sbox (get k 30)) in
  let k := xor_at k 2 (lookup sbox (get k 31)) in xor_at k 3 (lookup sbox (get k 28)).
(** 269-297 *)
Definition expand_key (k : list Z) (round : Z) : list Z * Z :=
  let k := first_word k round in
  let round := f_enc_key round in
  let k := fold_left chain_word [4; 8; 12]%nat k in
  let k := middle_word k in
  (fold_left chain_word [20; 24; 28]%nat k, round).
(** 299-327 *)
Definition expand_key_inverse (k : list Z) (round : Z) : list Z * Z :=
  let k := fold_left chain_word [28; 24; 20]%nat k in
  let k := middle_word k in
  let k := fold_left chain_word [12; 8; 4]%nat k in
  let round := f_dec_key round in
  (first_word k round, round).
(** 332-340 initialize: the encryption and decryption keys *)
Definition initialize (key : list Z) : list Z * list Z :=
  let '(deckey, _) := fold_left (fun '(k, r) _ => expand_key k r) (seq 0 7) (key, 1) in (key, deckey).
(** 346-362: the loop body *)
Definition encrypt_round (state : list Z * list Z * Z) (i : nat) : list Z * list Z * Z :=
  let '(bytes, key, round) := state in
  let bytes := mix_columns (shift_rows (sub_bytes bytes)) in
  if Nat.even i then (add_round_key_upper bytes key, key, round)
  else let '(key, round) := expand_key key round in (add_round_key_lower bytes key, key, round).
(** 342-368 *)
Definition encrypt_context (enckey bytes : list Z) : list Z :=
  let '(bytes, key) := add_round_key_copy bytes enckey in
  let '(bytes, key, round) := fold_left encrypt_round (seq 0 13) (bytes, key, 1) in
  let bytes := shift_rows (sub_bytes bytes) in
  let '(key, round) := expand_key key round in
  add_round_key_lower bytes key.
(** 377-392: the loop body *)
Definition decrypt_round (state : list Z * list Z * Z) (i : nat) : list Z * list Z * Z :=
  let '(bytes, key, round) := state in
  let '(bytes, key, round) :=
    if Nat.even i then let '(key, round) := expand_key_inverse key round in (add_round_key_upper bytes key, key, round)
    else (add_round_key_lower bytes key, key, round) in
  (sub_bytes_inverse (shift_rows_inverse (mix_columns_inverse bytes)), key, round).
(** 370-395 *)
Definition decrypt_context (deckey bytes : list Z) : list Z :=
  let '(bytes, key) := add_round_key_copy bytes deckey in
  let bytes := sub_bytes_inverse (shift_rows_inverse bytes) in
  let '(bytes, key, round) := fold_left decrypt_round (seq 0 13) (bytes, key, 128) in
  add_round_key_lower bytes key.
(** 400-405; 407-412 *)
Definition encrypt_ecb (bytes key : list Z) : list Z := encrypt_context (fst (initialize key)) bytes.
Definition decrypt_ecb (bytes key : list Z) : list Z := decrypt_context (snd (initialize key)) bytes.
