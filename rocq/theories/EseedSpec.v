(** What an Electrum (2.0 and later) seed is. *)
From Coq Require Import String.
From Verif Require Import Base Bytes BitStreamSpec ShaSpec KdfSpec WordsModel MnemonicSpec EseedModel.

(** [e] holds [bits], and then fewer than eight zeros *)
Definition padded (bits : list bool) (e : list Z) : Prop := bytes_ok e /\ exists n, (n < 8)%nat /\ bits_of e = bits ++ repeat false n.
(** [ws] is the sentence of [e] in the word list [dict]: the 11-bit indexes of the words *)
Definition spells (dict : list string) (e : list Z) (ws : list string) : Prop :=
  exists indexes, Forall (fun i => 0 <= i < 2048) indexes /\ padded (flat_map (fun i => low_bits i 11) indexes) e /\
    ws = map (fun i => nth (Z.to_nat i) dict ""%string) indexes.
(** The seed version: HMAC-SHA512 of the sentence, keyed "Seed version", begins with
    hexadecimal 01, 100, 101 or 102. *)
Definition version_is (p : seed_prefix) (h : list Z) : Prop :=
  match p with
  | p_standard => nth 0 h 0 = 1
  | p_witness => nth 0 h 0 = 16 /\ nth 1 h 0 / 16 = 0
  | p_two_factor => nth 0 h 0 = 16 /\ nth 1 h 0 / 16 = 1
  | p_two_factor_witness => nth 0 h 0 = 16 /\ nth 1 h 0 / 16 = 2
  | _ => False
  end.
Definition native (p : seed_prefix) : Prop := p = p_standard \/ p = p_witness \/ p = p_two_factor \/ p = p_two_factor_witness.
(** the two factor prefix is understood with 12 words, or 20 and more *)
Definition two_factor_count (p : seed_prefix) (count : Z) : Prop := p = p_two_factor -> count = 12 \/ 20 <= count.
(** The bits of [e] that make whole words. *)
Definition whole (e : list Z) : list bool := firstn (11 * (length (bits_of e) / 11)) (bits_of e).
(** The entropies tried from [e]: its whole words, and then again and again the
    whole words in as many bytes of the SHA-512 of the last. *)
Inductive candidate (e : list Z) : nat -> list Z -> Prop :=
| candidate_first c : padded (whole e) c -> candidate e 0 c
| candidate_next k p c : candidate e k p -> padded (whole (firstn (length p) (SHA512 p))) c -> candidate e (S k) c.
