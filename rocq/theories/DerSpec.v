(** DER, independent of the model. *)
From Verif Require Import Base Bytes.

(** Big-endian contents of a DER INTEGER (X.690 8.3): two's complement, fewest
    bytes; non-negative means the first bit is clear. *)
Definition der_contents (v : Z) (l : list Z) : Prop :=
  bytes_ok l /\ be_value l = v /\
  match l with
  | [] => False
  | [a] => a < 128
  | a :: b :: _ => a < 128 /\ (a = 0 -> 128 <= b)
  end.
(** SEQUENCE { INTEGER r, INTEGER s } with one-byte lengths. *)
Definition der_signature (r s : Z) (sig : list Z) : Prop :=
  exists R S, der_contents r R /\ der_contents s S /\
    sig = [48; len R + len S + 4; 2; len R] ++ R ++ [2; len S] ++ S.

(** Pre-BIP66 tolerance: a length is one byte below 128, or a count of length
    bytes (any number of zeros then at most seven others). *)
Inductive lax_length : Z -> list Z -> Prop :=
| lax_short n : 0 <= n < 128 -> lax_length n [n]
| lax_long zeros bytes : bytes_ok bytes -> hd 1 bytes <> 0 -> len bytes < 8 -> Z.of_nat zeros + len bytes < 128 ->
    lax_length (be_value bytes) ((128 + Z.of_nat zeros + len bytes) :: repeat 0 zeros ++ bytes).
(** The length of the sequence is skipped, not interpreted. *)
Inductive lax_header : list Z -> Prop :=
| header_short n : 0 <= n < 128 -> lax_header [n]
| header_long bytes : len bytes < 128 -> lax_header (128 + len bytes :: bytes).
Definition lax_signature (r s : Z) (sig : list Z) : Prop :=
  exists header Lr R Ls S trailing,
    lax_header header /\ lax_length (len R) Lr /\ lax_length (len S) Ls /\
    sig = [48] ++ header ++ [2] ++ Lr ++ R ++ [2] ++ Ls ++ S ++ trailing /\
    r = be_value R /\ s = be_value S.
