(** Model of src/wallet/mnemonics/electrum.cpp (seed words of the second Electrum
    implementation), over the models of base_2048.cpp and mnemonic.cpp
    (MnemonicModel.v) and electrum_v1.cpp (ElectrumModel.v).  The dictionaries of
    src/words/catalogs/electrum.cpp:34-43 are those of mnemonic.cpp.  The unicode
    normalizations are parameters: [normal] is try_normalize of one word, [form] is
    to_compressed_form of to_non_combining_form, [phrase_form] what is done to a
    passphrase (electrum.cpp 173-201). *)
From Coq Require Import String.
From Verif Require Import Base Bytes RadixModel ShaModel AccModel KdfModel WordsModel WordsData MnemonicModel ElectrumModel.

(** electrum.hpp:51-63 *)
Inductive seed_prefix := p_old | p_bip39 | p_standard | p_witness | p_two_factor | p_two_factor_witness | p_none.
Definition prefix_eqb (a b : seed_prefix) : bool :=
  match a, b with
  | p_old, p_old | p_bip39, p_bip39 | p_standard, p_standard | p_witness, p_witness
  | p_two_factor, p_two_factor | p_two_factor_witness, p_two_factor_witness | p_none, p_none => true
  | _, _ => false
  end.
(** electrum.cpp:44-50, 448-465 to_version *)
Definition to_version (p : seed_prefix) : list Z :=
  chars match p with
        | p_old => "old" | p_bip39 => "bip39" | p_standard => "01" | p_witness => "100"
        | p_two_factor => "101" | p_two_factor_witness => "102" | p_none => "none"
        end%string.
(** string.cpp starts_with *)
Fixpoint starts_with (value prefix : list Z) : bool :=
  match prefix with
  | [] => true
  | p :: prefix => match value with v :: value => (v =? p) && starts_with value prefix | [] => false end
  end.

(** 213-264 sizers: index_bits is 11 *)
Definition unused_bits (entropy : list Z) : Z := (len entropy * 8) mod 11.
Definition unused_bytes (entropy : list Z) : Z := unused_bits entropy / 8.
Definition usable_size (entropy : list Z) : Z := len entropy - unused_bytes entropy.
Definition entropy_word_count (entropy : list Z) : Z := len entropy * 8 / 11.
(** 269-283 is_ambiguous (count, prefix): word_count(strength_minimum) is 12 *)
Definition is_ambiguous_count (count : Z) (p : seed_prefix) : bool :=
  if negb (prefix_eqb p p_two_factor) then false else negb (count =? 12) && (count <? 20).
(** 371-391: entropy_size(132) is 17, entropy_size(506) is 64, word counts 12, 46 *)
Definition e2_valid_entropy_size (size : Z) : bool := (17 <=? size) && (size <=? 64).
Definition e2_valid_word_count (count : Z) : bool := (12 <=? count) && (count <=? 46).
(** 393-406 is_seedable *)
Definition is_seedable (p : seed_prefix) : bool :=
  match p with p_standard | p_witness | p_two_factor | p_two_factor_witness => true | _ => false end.

(** 80-96 encoder, decoder: {} is the empty list *)
Definition e2_encoder (entropy : list Z) (id : language) : list string := decode_base2048_list entropy id.
Definition e2_decoder (words : list string) (id : language) : list Z :=
  match encode_base2048_list words id with Some out => out | None => [] end.
(** 129: hash[entropy_size - 1] &= 0xff << unused_bits *)
Definition mask_last (mask_bits : Z) (hash : list Z) : list Z :=
  removelast hash ++ [Z.land (last hash 0) (Z.shiftl 255 mask_bits) mod 256].

(** The object; a default object is None. *)
Record electrum := mke2 { e2_entropy : list Z; e2_overflows : list bool; e2_words : list string; e2_lingo : language; e2_prefix : seed_prefix }.
(** 473-476 electrum(electrum_v1) *)
Definition of_v1 (old : electrum_v1) : electrum := mke2 (v1_entropy old) (v1_overflows old) (v1_words old) (v1_lingo old) p_old.

Section Electrum.
Variables (checked s8 : bool) (widths : list nat).
Variables (normal form phrase_form : string -> string).
Notation A512 := (sha_algorithm sha512 s8 widths).
Notation bip39_words := (MnemonicModel.from_words checked s8 widths normal).
Notation v1_words_of := (v1_from_words normal).

(** 147-157 validator *)
Definition validator (words : list string) (p : seed_prefix) : bool :=
  starts_with (encode_base16 (hmac_code A512 checked (chars (form (String.concat " " words))) (chars "Seed version"))) (to_version p).
(** 296-314 to_conflict, is_conflict *)
Definition to_conflict (words : list string) : seed_prefix :=
  match v1_words_of words en with
  | Some _ => p_old
  | None => match bip39_words words none with Some _ => p_bip39 | None => p_none end
  end.
Definition is_conflict (words : list string) : bool := negb (prefix_eqb (to_conflict words) p_none).
(** 106-144 grinder: entropy and words; [limit] more attempts after the first *)
Fixpoint grind (size : nat) (mask_bits : Z) (p : seed_prefix) (id : language) (limit : nat) (hash : list Z) : option (list Z * list string) :=
  let hash := mask_last mask_bits hash in
  let words := e2_encoder hash id in
  if validator words p && negb (is_conflict words) then Some (hash, words)
  else match limit with
       | O => None
       | S limit => grind size mask_bits p id limit (firstn size (AccModel.hash A512 checked hash))
       end.
Definition grinder (entropy : list Z) (p : seed_prefix) (id : language) (limit : nat) : option (list Z * list string) :=
  let size := Z.to_nat (usable_size entropy) in
  let hash := firstn size entropy in
  grind size (unused_bits hash) p id limit hash.
(** 285-294 is_ambiguous (words, requested, derived): as mnemonic.cpp's *)
(** 316-333 normalized_is_prefix *)
Definition normalized_is_prefix (words : list string) (p : seed_prefix) : bool :=
  match p with
  | p_old => match v1_words_of words en with Some _ => true | None => false end
  | p_bip39 => match bip39_words words none with Some _ => true | None => false end
  | _ => if is_ambiguous_count (len words) p then false else validator words p || prefix_eqb p p_none
  end.
(** 335-357 normalized_to_prefix *)
Definition normalized_to_prefix (words : list string) : seed_prefix :=
  let conflict := to_conflict words in
  if negb (prefix_eqb conflict p_none) then conflict
  else if normalized_is_prefix words p_standard then p_standard
  else if normalized_is_prefix words p_witness then p_witness
  else if normalized_is_prefix words p_two_factor then p_two_factor
  else if normalized_is_prefix words p_two_factor_witness then p_two_factor_witness
  else p_none.
(** 408-418 is_prefix, 426-436 to_prefix *)
Definition is_prefix (words : list string) (p : seed_prefix) : bool :=
  let tokens := map normal words in
  if language_eqb (dicts_contains dictionaries tokens none) none then prefix_eqb p p_none else normalized_is_prefix tokens p.
Definition to_prefix (words : list string) : seed_prefix :=
  let tokens := map normal words in
  if language_eqb (dicts_contains dictionaries tokens none) none then p_none else normalized_to_prefix words.

(** 505-538 from_entropy; the first Electrum's constructor takes its default, en *)
Definition e2_from_entropy (entropy : list Z) (p : seed_prefix) (id : language) (limit : nat) : option electrum :=
  match p with
  | p_none | p_bip39 => None
  | p_old => omap of_v1 (v1_from_entropy entropy en)
  | _ =>
    if negb (e2_valid_entropy_size (len entropy)) then None
    else if negb (dicts_exists dictionaries id) then None
    else if is_ambiguous_count (entropy_word_count entropy) p then None
    else match grinder entropy p id limit with
         | None => None
         | Some (entropy, words) => match words with [] => None | _ => Some (mke2 entropy [] words id p) end
         end
  end.
(** 541-573 from_words; an object without entropy is a default one *)
Definition e2_from_words (words : list string) (id : language) : option electrum :=
  if negb (e2_valid_word_count (len words)) then None
  else match v1_words_of words id with
  | Some old => Some (of_v1 old)
  | None =>
    let tokens := map normal words in
    let lexicon := dicts_contains dictionaries tokens id in
    if language_eqb lexicon none then None
    else if negb (language_eqb id none) && negb (language_eqb lexicon id) then None
    else if is_ambiguous tokens id lexicon then None
    else match e2_decoder tokens lexicon with
         | [] => None
         | entropy => Some (mke2 entropy [] tokens lexicon (normalized_to_prefix tokens))
         end
  end.
(** 161-207 seeder, 583-592 to_seed *)
Definition e2_seeder (words : list string) (passphrase : string) : list Z :=
  pbkd_key A512 checked 64 64 (chars (form (String.concat " " words))) (chars ("electrum" ++ phrase_form passphrase)) 2048.
Definition e2_to_seed (m : option electrum) (passphrase : string) : list Z :=
  match m with
  | None => repeat 0 64
  | Some m => if is_seedable (e2_prefix m) then e2_seeder (e2_words m) passphrase else repeat 0 64
  end.
End Electrum.
