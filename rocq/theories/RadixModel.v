(** Model of the radix codecs: impl/radix/base_16.ipp, src/radix/base_58.cpp,
    base_64.cpp, base_85.cpp, base_32.cpp.  Text is a list of character codes
    (the unsigned value of each char, 0..255). *)
From Coq Require Import String Ascii.
From Verif Require Import Base Bytes StreamModel BitStreamModel.

(** A string literal as character codes. *)
Definition chars (s : String.string) : list Z :=
  map (fun a => Z.of_N (Ascii.N_of_ascii a)) (String.list_ascii_of_string s).

(** * base16 *)
(** impl/radix/base_16.ipp:40-43 is_between *)
Definition is_between (v lo hi : Z) : bool := (lo <=? v) && (v <=? hi).
(** 45-48 to_base16_character: '0' = 48, 'a' - 10 = 87 *)
Definition to_base16_character (digit : Z) : Z := (if is_between digit 0 9 then 48 else 97 - 10) + digit.
(** 50-58 hi and lo characters *)
Definition to_base16_hi_character (octet : Z) : Z := to_base16_character (Z.shiftr octet 4).
Definition to_base16_lo_character (octet : Z) : Z := to_base16_character (Z.land octet 15).
(** 60-76 from_base16_characters (the result is converted to uint8_t) *)
Definition from_base16_digit (c : Z) : Z :=
  if is_between c 65 70 then wrap u8 (c - 65 + 10)
  else if is_between c 97 102 then wrap u8 (c - 97 + 10)
  else wrap u8 (c - 48).
Definition from_base16_characters (high low : Z) : Z :=
  wrap u8 (Z.lor (Z.shiftl (from_base16_digit high) 4) (from_base16_digit low)).
(** 88-95 is_base16 *)
Definition is_base16 (c : Z) : bool := is_between c 48 57 || is_between c 97 102 || is_between c 65 70.
(** 107-120 encode_base16 *)
Definition encode_base16 (data : list Z) : list Z :=
  flat_map (fun o => [to_base16_hi_character o; to_base16_lo_character o]) data.
(** 122-136 encode_hash *)
Definition encode_hash (hash : list Z) : list Z := encode_base16 (rev hash).
(** 151-156 / 170-175 the decoding loop over pairs (the length is even) *)
Fixpoint decode_pairs (l : list Z) : list Z :=
  match l with
  | hi :: lo :: r => from_base16_characters hi lo :: decode_pairs r
  | _ => []
  end.
(** 141-159 decode_base16 (data_chunk) *)
Definition decode_base16 (l : list Z) : option (list Z) :=
  if negb (len l mod 2 =? 0) then None
  else if negb (forallb is_base16 l) then None
  else Some (decode_pairs l).
(** 161-180 decode_base16 (data_array<Size>) *)
Definition decode_base16_array (size : Z) (l : list Z) : option (list Z) :=
  if negb (len l =? 2 * size) then None
  else if negb (forallb is_base16 l) then None
  else Some (decode_pairs l).
(** 193-198: from the end of the text, lo then hi. *)
Fixpoint decode_pairs_reverse (l : list Z) : list Z :=
  match l with
  | lo :: hi :: r => from_base16_characters hi lo :: decode_pairs_reverse r
  | _ => []
  end.
(** 182-201 decode_hash *)
Definition decode_hash (size : Z) (l : list Z) : option (list Z) :=
  if negb (len l =? size * 2) then None
  else if negb (forallb is_base16 l) then None
  else Some (decode_pairs_reverse (rev l)).

(** * base58 *)
(** src/radix/base_58.cpp:30-31 *)
Definition base58_chars : list Z := chars "123456789ABCDEFGHJKLMNPQRSTUVWXYZabcdefghijkmnopqrstuvwxyz"%string.
(** 33-38: std::binary_search of the (sorted) character list, as membership. *)
Definition is_base58 (c : Z) : bool := existsb (Z.eqb c) base58_chars.
(** std::string::find of a character: its first index *)
Fixpoint index_of (c : Z) (l : list Z) : option Z :=
  match l with
  | [] => None
  | x :: r => if x =? c then Some 0 else omap (fun i => i + 1) (index_of c r)
  end.
(** 51-60 find_first_nonzero: the suffix from the first non-zero element *)
Fixpoint from_first_nonzero (l : list Z) : list Z :=
  match l with [] => [] | x :: r => if x =? 0 then from_first_nonzero r else l end.
(** 62-75 / 127-143 count_leading_zeros: of data, and of '1' characters *)
Fixpoint count_leading (z : Z) (l : list Z) : Z :=
  match l with [] => 0 | x :: r => if x =? z then 1 + count_leading z r else 0 end.
(** 77-88 pack_value and 145-155 unpack_char: over the reversed array.  The
    carry stays below 256 * 58 + 256, so size_t arithmetic is exact. *)
Fixpoint mul_add (m b : Z) (le : list Z) (carry : Z) : list Z * Z :=
  match le with
  | [] => ([], carry)
  | d :: r => let carry := carry + m * d in
              let (r', c') := mul_add m b r (carry / b) in (carry mod b :: r', c')
  end.
Definition pack_value (indexes : list Z) (carry : Z) : list Z := rev (fst (mul_add 256 58 (rev indexes) carry)).
Definition unpack_char (data : list Z) (carry : Z) : list Z := rev (fst (mul_add 58 256 (rev data) carry)).
(** 90-125 encode_base58 *)
Definition encode_base58 (unencoded : list Z) : list Z :=
  let leading := count_leading 0 unencoded in
  let number_nonzero := len unencoded - leading in
  let size := number_nonzero * 138 / 100 + 1 in
  let indexes := fold_left pack_value (skipn (Z.to_nat leading) unencoded) (repeat 0 (Z.to_nat size)) in
  repeat 49 (Z.to_nat leading) ++ map (fun i => nth (Z.to_nat i) base58_chars 0) (from_first_nonzero indexes).
(** 157-190 decode_base58 *)
Definition decode_base58 (l : list Z) : option (list Z) :=
  let leading := count_leading 49 l in
  let size := len l * 733 / 1000 + 1 in
  omap (fun data => repeat 0 (Z.to_nat leading) ++ from_first_nonzero data)
    (fold_left (fun acc c => do data <- acc; do carry <- index_of c base58_chars; Some (unpack_char data carry))
       (skipn (Z.to_nat leading) l) (Some (repeat 0 (Z.to_nat size)))).
(** impl/radix/base_58.ipp:30-39 decode_base58 (data_array<Size>) *)
Definition decode_base58_array (size : Z) (l : list Z) : option (list Z) :=
  do d <- decode_base58 l; if len d =? size then Some d else None.

(** * base64 *)
(** src/radix/base_64.cpp:38-41 *)
Definition pad64 : Z := 61.
Definition table64 : list Z := chars "ABCDEFGHIJKLMNOPQRSTUVWXYZabcdefghijklmnopqrstuvwxyz0123456789+/"%string.
Definition at64 (i : Z) : Z := nth (Z.to_nat i) table64 0.
(** 43-85 encode_base64: whole groups, then the switch on size % 3. *)
Fixpoint encode_base64 (l : list Z) : list Z :=
  match l with
  | a :: b :: c :: r =>
      let value := Z.shiftl a 16 + Z.shiftl b 8 + c in
      [at64 (Z.shiftr (Z.land value 16515072) 18); at64 (Z.shiftr (Z.land value 258048) 12);
       at64 (Z.shiftr (Z.land value 4032) 6); at64 (Z.land value 63)] ++ encode_base64 r
  | [a; b] =>
      let value := Z.shiftl a 16 + Z.shiftl b 8 in
      [at64 (Z.shiftr (Z.land value 16515072) 18); at64 (Z.shiftr (Z.land value 258048) 12);
       at64 (Z.shiftr (Z.land value 4032) 6); pad64]
  | [a] =>
      let value := Z.shiftl a 16 in
      [at64 (Z.shiftr (Z.land value 16515072) 18); at64 (Z.shiftr (Z.land value 258048) 12); pad64; pad64]
  | [] => []
  end.
(** 111-121, 139-140 the value of a character other than the pad.  Characters
    are compared as signed char; codes above 127 fail every comparison, as here. *)
Definition digit64 (c : Z) : option Z :=
  if is_between c 65 90 then Some (c - 65)
  else if is_between c 97 122 then Some (c - 71)
  else if is_between c 48 57 then Some (c + 4)
  else if c =? 43 then Some 62
  else if c =? 47 then Some 63
  else None.
(** 108-151: [value] is a uint32_t. *)
Definition mask8 (v : Z) : Z := Z.land v 255.
Fixpoint decode64 (l : list Z) (position : nat) (value : Z) (decoded : list Z) : option (list Z) :=
  match l with
  | [] => Some decoded
  | c :: r =>
      let value := wrap u32 (Z.shiftl value 6) in
      match digit64 c with
      | Some d =>
          let value := Z.lor value d in
          match position with
          | 3%nat => decode64 r 0 value (decoded ++ [mask8 (Z.shiftr value 16); mask8 (Z.shiftr value 8); mask8 value])
          | p => decode64 r (S p) value decoded
          end
      | None =>
          if c =? pad64 then
            match length l with
            | 1%nat => Some (decoded ++ [mask8 (Z.shiftr value 16); mask8 (Z.shiftr value 8)])
            | 2%nat => Some (decoded ++ [mask8 (Z.shiftr value 10)])
            | _ => None
            end
          else None
      end
  end.
(** 87-156 decode_base64 *)
Definition decode_base64 (l : list Z) : option (list Z) :=
  if negb (len l mod 4 =? 0) then None else decode64 l 0 0 [].

(** * base85 *)
(** src/radix/base_85.cpp:50-62 *)
Definition encoder85 : list Z :=
  chars "0123456789abcdefghijklmnopqrstuvwxyzABCDEFGHIJKLMNOPQRSTUVWXYZ.-:+=^!/*?&<>()[]{}@%$#"%string.
(** 65-79 *)
Definition decoder85 : list Z :=
  [0x00; 0x44; 0x00; 0x54; 0x53; 0x52; 0x48; 0x00;
   0x4B; 0x4C; 0x46; 0x41; 0x00; 0x3F; 0x3E; 0x45;
   0x00; 0x01; 0x02; 0x03; 0x04; 0x05; 0x06; 0x07;
   0x08; 0x09; 0x40; 0x00; 0x49; 0x42; 0x4A; 0x47;
   0x51; 0x24; 0x25; 0x26; 0x27; 0x28; 0x29; 0x2A;
   0x2B; 0x2C; 0x2D; 0x2E; 0x2F; 0x30; 0x31; 0x32;
   0x33; 0x34; 0x35; 0x36; 0x37; 0x38; 0x39; 0x3A;
   0x3B; 0x3C; 0x3D; 0x4D; 0x00; 0x4E; 0x43; 0x00;
   0x00; 0x0A; 0x0B; 0x0C; 0x0D; 0x0E; 0x0F; 0x10;
   0x11; 0x12; 0x13; 0x14; 0x15; 0x16; 0x17; 0x18;
   0x19; 0x1A; 0x1B; 0x1C; 0x1D; 0x1E; 0x1F; 0x20;
   0x21; 0x22; 0x23; 0x4F; 0x00; 0x50; 0x00; 0x00].
(** 85-114 encode_base85: [acc] and [index] as in the loop. *)
Definition digits85 (acc : Z) : list Z :=
  map (fun x => nth (Z.to_nat ((acc / x) mod 85)) encoder85 0) [52200625; 614125; 7225; 85; 1].
Fixpoint encode85 (l : list Z) (acc index : Z) : list Z :=
  match l with
  | [] => []
  | b :: r => let acc := acc * 256 + b in let index := index + 1 in
              if index mod 4 =? 0 then digits85 acc ++ encode85 r 0 index else encode85 r acc index
  end.
Definition encode_base85 (l : list Z) : option (list Z) :=
  if negb (len l mod 4 =? 0) then None else Some (encode85 l 0 0).
(** 116-153 decode_base85: the character is read as a signed char. *)
Definition signed_char (c : Z) : Z := if c <? 128 then c else c - 256.
Fixpoint decode85 (l : list Z) (acc index : Z) (out : list Z) : option (list Z) :=
  match l with
  | [] => Some out
  | c :: r =>
      let position := signed_char c - 32 in
      if (position <? 0) || (position >? 96) then None
      else
        let acc := acc * 85 + nth (Z.to_nat position) decoder85 0 in
        let index := index + 1 in
        if index mod 5 =? 0
        then decode85 r 0 index (out ++ map (fun x => (acc / x) mod 256) [16777216; 65536; 256; 1])
        else decode85 r acc index out
  end.
Definition decode_base85 (l : list Z) : option (list Z) :=
  if negb (len l mod 5 =? 0) then None else decode85 l 0 0 [].

(** * base32 (the bech32 alphabet) *)
(** src/radix/base_32.cpp:36 *)
Definition encode32 : list Z := chars "qpzry9x8gf2tvdw0s3jn54khce6mua7l"%string.
(** 37-55: 128 elements *)
Definition decode32 : list Z :=
  [255; 255; 255; 255; 255; 255; 255; 255;  255; 255; 255; 255; 255; 255; 255; 255;
   255; 255; 255; 255; 255; 255; 255; 255;  255; 255; 255; 255; 255; 255; 255; 255;
   255; 255; 255; 255; 255; 255; 255; 255;  255; 255; 255; 255; 255; 255; 255; 255;
   15; 255; 10; 17; 21; 20; 26; 30;  7; 5; 255; 255; 255; 255; 255; 255;
   255; 29; 255; 24; 13; 25; 9; 8;  23; 255; 18; 22; 31; 27; 19; 255;
   1; 0; 3; 16; 11; 28; 12; 14;  6; 4; 2; 255; 255; 255; 255; 255;
   255; 29; 255; 24; 13; 25; 9; 8;  23; 255; 18; 22; 31; 27; 19; 255;
   1; 0; 3; 16; 11; 28; 12; 14;  6; 4; 2; 255; 255; 255; 255; 255].
(** src/unicode/ascii.cpp:88-101 has_mixed_ascii_case (is_ascii_upper/lower:
    'A'..'Z', 'a'..'z', impl/unicode/ascii.ipp) *)
Definition is_ascii_upper (c : Z) : bool := is_between c 65 90.
Definition is_ascii_lower (c : Z) : bool := is_between c 97 122.
Definition has_mixed_ascii_case (l : list Z) : bool := existsb is_ascii_lower l && existsb is_ascii_upper l.
(** 59-69 encode_base32 (base32_chunk): uint5 values *)
Definition encode_base32_chunk (data : list Z) : list Z := map (fun v => nth (Z.to_nat v) encode32 0) data.
(** 81-98 decode_base32 (base32_chunk).  Outer None: the table is read out of
    its bounds (undefined behaviour); inner None: rejected. *)
Fixpoint decode_symbols (l : list Z) : option (option (list Z)) :=
  match l with
  | [] => Some (Some [])
  | c :: r =>
      match nth_error decode32 (Z.to_nat c) with
      | None => None
      | Some v => if v =? 255 then Some None
                  else match decode_symbols r with
                       | Some (Some t) => Some (Some (v :: t))
                       | x => x
                       end
      end
  end.
Definition decode_base32_chunk (l : list Z) : option (option (list Z)) :=
  if has_mixed_ascii_case l then Some None else decode_symbols l.
(** 112-137 base32_pack *)
Definition base32_pack (unpacked : list Z) : list Z :=
  let packed := bout (bit_flush (fold_left (fun w v => write_bits v 5 w) unpacked bit_writer)) in
  if (len unpacked * 5) mod 8 =? 0 then packed
  else if last packed 0 =? 0 then removelast packed else [].
(** 139-152 base32_unpack: fuel is an upper bound of the number of reads. *)
Fixpoint unpack_loop (width : Z) (fuel : nat) (b : brd) : list Z :=
  match fuel with
  | O => []
  | S f => if bit_exhausted b then [] else let (v, b') := read_bits width b in v :: unpack_loop width f b'
  end.
Definition base32_unpack (packed : list Z) : list Z :=
  unpack_loop 5 (2 * length packed + 1) (bit_reader (fresh packed)).
(** 71-74 encode_base32 (data_chunk), 100-108 decode_base32 (data_chunk) *)
Definition encode_base32 (data : list Z) : list Z := encode_base32_chunk (base32_unpack data).
Definition decode_base32 (l : list Z) : option (option (list Z)) :=
  omap (omap base32_pack) (decode_base32_chunk l).
