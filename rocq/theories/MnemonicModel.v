(** Model of src/wallet/mnemonics/mnemonic.cpp and src/radix/base_2048.cpp.
    The unicode normalizations (ICU-style NFKD and lower casing, src/unicode)
    are parameters: [normal] is try_normalize of one word, [nfkd] is
    to_compatibility_decomposition. *)
From Coq Require Import String.
From Verif Require Import Base Bytes StreamModel BitStreamModel RadixModel ShaModel AccModel KdfModel WordsModel WordsData.

(** base_2048.cpp:127-150 base2048_pack: 11-bit reads until exhausted; a last
    element that is only padding is dropped, one that is not clears the result *)
Definition base2048_pack (unpacked : list Z) : list Z :=
  let packed := unpack_loop 11 (length unpacked + 1) (bit_reader (fresh unpacked)) in
  if (len unpacked * 8) mod 11 =? 0 then packed
  else if last packed 0 =? 0 then removelast packed else [].
(** 152-167 base2048_unpack *)
Definition base2048_unpack (packed : list Z) : list Z :=
  bout (bit_flush (fold_left (fun w v => write_bits v 11 w) packed bit_writer)).
(** 58-75 encode_base2048, 77-86 encode_base2048_list *)
Definition encode_base2048_list (words : list string) (id : language) : option (list Z) :=
  let indexes := dicts_index dictionaries words id in
  if (match indexes with [] => true | _ => false end) && negb (match words with [] => true | _ => false end) then None
  else if existsb (fun index => index <? 0) indexes then None
  else Some (base2048_unpack indexes).
(** 98-108 decode_base2048, 110-114 decode_base2048_list *)
Definition decode_base2048_list (data : list Z) (id : language) : list string :=
  dicts_at dictionaries (base2048_pack data) id.

Section Mnemonic.
Variables (checked s8 : bool) (widths : list nat).
Variables (normal nfkd : string -> string).

(** mnemonic.cpp:115-123 checksum_byte (the int result is returned as uint8_t),
    128-131 checksum_bits *)
Definition checksum_byte (entropy : list Z) : Z :=
  let mask_bits := 8 - len entropy / 4 in
  Z.land (hd 0 (hash (sha_algorithm sha256 s8 widths) checked entropy)) (Z.shiftl 255 mask_bits) mod 256.
(** 67-73 encoder *)
Definition encoder (entropy : list Z) (id : language) : list string :=
  decode_base2048_list (entropy ++ [checksum_byte entropy]) id.
(** 76-88 decoder: {} is the empty list *)
Definition decoder (words : list string) (id : language) : list Z :=
  match encode_base2048_list words id with
  | None => []
  | Some buffer => let entropy := removelast buffer in if last buffer 0 =? checksum_byte entropy then entropy else []
  end.
(** 90-103 seeder *)
Definition seeder (words : list string) (passphrase : string) : list Z :=
  pbkd_key (sha_algorithm sha512 s8 widths) checked 64 64 (chars (String.concat " " words)) (chars ("mnemonic" ++ nfkd passphrase)) 2048.

(** 163-167 is_ambiguous *)
Definition is_ambiguous (words : list string) (requested derived : language) : bool :=
  language_eqb derived en && language_eqb requested none && language_eqb (dicts_contains dictionaries words fr) fr.
(** 184-194 is_valid_entropy_size, is_valid_word_count *)
Definition is_valid_entropy_size (size : Z) : bool := (size mod 4 =? 0) && (16 <=? size) && (size <=? 32).
Definition is_valid_word_count (count : Z) : bool := (count mod 3 =? 0) && (12 <=? count) && (count <=? 24).

(** The object: entropy, words, language; the default object is None. *)
Record mnemonic := mkmnemonic { entropy_ : list Z; words_ : list string; lingo_ : language }.
(** 232-243 from_entropy *)
Definition from_entropy (entropy : list Z) (id : language) : option mnemonic :=
  if negb (is_valid_entropy_size (len entropy)) then None
  else if negb (dicts_exists dictionaries id) then None
  else Some (mkmnemonic entropy (encoder entropy id) id).
(** 245-273 from_words *)
Definition from_words (words : list string) (id : language) : option mnemonic :=
  if negb (is_valid_word_count (len words)) then None
  else
    let tokens := map normal words in
    let lexicon := dicts_contains dictionaries tokens id in
    if language_eqb lexicon none then None
    else if negb (language_eqb id none) && negb (language_eqb lexicon id) then None
    else if is_ambiguous tokens id lexicon then None
    else match decoder tokens lexicon with
         | [] => None
         | entropy => Some (mkmnemonic entropy tokens lexicon)
         end.
(** 278-284 to_seed *)
Definition to_seed (m : option mnemonic) (passphrase : string) : list Z :=
  match m with None => repeat 0 64 | Some m => seeder (words_ m) passphrase end.
End Mnemonic.
