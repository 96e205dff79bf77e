(** What a script is evaluated against, shared by the model of the interpreter and
    by the reference evaluator: the active rules, the spending transaction's
    fields that are read, and the cryptographic functions, which stay abstract. *)
From Verif Require Import Base.

(** chain/enums/script_version.hpp. *)
Inductive script_version := unversioned | segwit | taproot | reserved_version.

Record ctx := mkctx {
  eflags : Z;                    (* the active rules, one bit each *)
  eversion : script_version;
  e_sequence : Z;  e_locktime : Z;  e_txversion : Z;
  h_ripemd160 : list Z -> list Z;  h_sha1 : list Z -> list Z;  h_sha256 : list Z -> list Z;
  h_hash160 : list Z -> list Z;  h_hash256 : list Z -> list Z;
  (* DER bytes, strict (BIP66) or lax parsing -> parsed signature *)
  decode_signature : list Z -> bool -> option (list Z);
  verify_ecdsa : list Z -> list Z -> list Z -> bool;     (* key, hash, signature *)
  verify_schnorr : list Z -> list Z -> list Z -> bool;
  (* script code bytes, hash type -> signature hash *)
  sighash_unversioned : list Z -> Z -> list Z;
  sighash_v0 : list Z -> Z -> list Z;
  (* position of the last executed code separator, hash type *)
  sighash_v1 : Z -> Z -> option (list Z)
}.
(** chain/enums/flags.hpp bit positions. *)
Definition bip66_rule := 5.  Definition bip65_rule := 6.  Definition bip112_rule := 9.
Definition bip141_rule := 11.  Definition bip143_rule := 12.  Definition bip147_rule := 13.
Definition bip342_rule := 16.  Definition nops_rule := 17.  Definition cats_rule := 19.
