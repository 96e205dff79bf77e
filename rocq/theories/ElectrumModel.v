(** Model of src/wallet/mnemonics/electrum_v1.cpp (seed words of the first
    Electrum implementation). *)
From Coq Require Import String.
From Verif Require Import Base Bytes MathModel RadixModel ShaModel AccModel WordsModel WordsV1En WordsV1Pt.

(** electrum_v1.cpp:129-135; flags: src/words/catalogs/electrum_v1.cpp:29, 1663 *)
Definition v1_dictionaries : list dictionary := [mkdictionary en false words_v1_en; mkdictionary pt false words_v1_pt].
(** 121-124: the dictionary size to the powers 0, 1, 2 in int64_t *)
Definition size0 : Z := 1.
Definition size1 : Z := 1626.
Definition size2 : Z := 1626 * 1626.

(** 152-160: the three indexes of a 32-bit value.  % of nonnegative values is the
    remainder. *)
Definition to_triple (value : Z) : option (list Z) :=
  do u <- floored_divide i64 value size0; let uno := (u + 0) mod size1 in
  do d <- floored_divide i64 value size1; let dos := (d + uno) mod size1 in
  do t <- floored_divide i64 value size2; let tre := (t + dos) mod size1 in
  Some [uno; dos; tre].
(** 141-171 encoder.  The entropy size was verified to be a multiple of four. *)
Fixpoint v1_indexes (entropy : list Z) : option (list Z) :=
  match entropy with
  | a :: b :: c :: d :: rest => do t <- to_triple (be_value [a; b; c; d]); do r <- v1_indexes rest; Some (t ++ r)
  | _ => Some []
  end.
Definition v1_encoder (entropy : list Z) (id : language) : option (list string) :=
  omap (fun indexes => dicts_at v1_dictionaries indexes id) (v1_indexes entropy).
(** 189-200: the value of three indexes *)
Definition from_triple (uno dos tre : Z) : option Z :=
  do a <- floored_modulo i64 (uno - 0) size1; do b <- floored_modulo i64 (dos - uno) size1; do c <- floored_modulo i64 (tre - dos) size1;
  Some (a * size0 + b * size1 + c * size2).
(** 174-210 decoder: entropy and overflow flags.  Word count and dictionary
    membership were verified. *)
Fixpoint v1_decode (indexes : list Z) : option (list Z * list bool) :=
  match indexes with
  | uno :: dos :: tre :: rest =>
    do value <- from_triple uno dos tre;
    do r <- v1_decode rest;
    Some (be_bytes 4 (wrap u32 value) ++ fst r, (2 ^ 32 - 1 <? value) :: snd r)
  | _ => Some ([], [])
  end.
Definition v1_decoder (words : list string) (id : language) : option (list Z * list bool) :=
  v1_decode (dicts_index v1_dictionaries words id).
(** 83-109 seed_entropy: the base16 text, a 1 before each overflowed value *)
Fixpoint v1_hex (entropy : list Z) (overflows : list bool) : list Z :=
  match overflows with
  | [] => []
  | o :: overflows => (if o : bool then [49] else []) ++ encode_base16 (firstn 4 entropy) ++ v1_hex (skipn 4 entropy) overflows
  end.
Definition seed_entropy (entropy : list Z) (overflows : list bool) : list Z :=
  match overflows with
  | [] => encode_base16 entropy
  | _ => if negb (len overflows * 4 =? len entropy) then [] else v1_hex entropy overflows
  end.
Section V1.
Variables (checked s8 : bool) (widths : list nat).
(** 213-222 strecher *)
Definition strecher (seed : list Z) : list Z :=
  fold_left (fun streched _ => hash (sha_algorithm sha256 s8 widths) checked (streched ++ seed)) (seq 0 (Z.to_nat 100000)) seed.
End V1.

(** 261-270 is_valid_entropy_size, is_valid_word_count *)
Definition v1_valid_entropy_size (size : Z) : bool := (size =? 16) || (size =? 32).
Definition v1_valid_word_count (count : Z) : bool := (count =? 12) || (count =? 24).
Record electrum_v1 := mkelectrum { v1_entropy : list Z; v1_overflows : list bool; v1_words : list string; v1_lingo : language }.
(** 327-338 from_entropy *)
Definition v1_from_entropy (entropy : list Z) (id : language) : option electrum_v1 :=
  if negb (v1_valid_entropy_size (len entropy)) then None
  else if negb (dicts_exists v1_dictionaries id) then None
  else do ws <- v1_encoder entropy id; Some (mkelectrum entropy [] ws id).
(** 340-359 from_words; [normal] is try_normalize of one word *)
Definition v1_from_words (normal : string -> string) (words : list string) (id : language) : option electrum_v1 :=
  if negb (v1_valid_word_count (len words)) then None
  else
    let tokens := map normal words in
    let lexicon := dicts_contains v1_dictionaries tokens id in
    if language_eqb lexicon none then None
    else if negb (language_eqb id none) && negb (language_eqb lexicon id) then None
    else do d <- v1_decoder tokens lexicon; Some (mkelectrum (fst d) (snd d) tokens lexicon).
(** 365-371 overflow *)
Definition v1_overflow (m : electrum_v1) : bool := existsb (fun o : bool => o) (v1_overflows m).
