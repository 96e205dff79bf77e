(** BIP39: the bits of the entropy (ENT of them), most significant first,
    followed by the first ENT/32 bits of its SHA-256, are split into 11-bit
    numbers, each the index of a word in a list of 2048. *)
From Coq Require Import String.
From Verif Require Import Base Bytes BitStreamSpec ShaSpec.

(** the bits of bytes: [low_bits v n] are the n low bits of v, most significant first *)
Definition bits_of (d : list Z) : list bool := flat_map (fun b => low_bits b 8) d.
Definition checksum (entropy : list Z) : list bool := firstn (length (bits_of entropy) / 32) (bits_of (SHA256 entropy)).
(** [ws] is the sentence of [entropy] in the word list [dict] *)
Definition bip39 (dict : list string) (entropy : list Z) (ws : list string) : Prop :=
  exists indexes, Forall (fun i => 0 <= i < 2048) indexes /\
    flat_map (fun i => low_bits i 11) indexes = bits_of entropy ++ checksum entropy /\
    ws = map (fun i => nth (Z.to_nat i) dict ""%string) indexes.
(** ENT is 128 to 256 bits, a multiple of 32 *)
Definition entropy_ok (e : list Z) : Prop := bytes_ok e /\ exists n, 4 <= n <= 8 /\ len e = 4 * n.
