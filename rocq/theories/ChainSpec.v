(** Specification of the wire format of transactions, headers and blocks (the
    Bitcoin protocol and BIP144), and of the values it can carry. *)
From Verif Require Import Base Bytes OpModel ChainModel.

(** CompactSize. *)
Definition compact_size (n : Z) : list Z :=
  if n <=? 252 then [n] else if n <=? 65535 then 253 :: le_bytes 2 n
  else if n <=? 4294967295 then 254 :: le_bytes 4 n else 255 :: le_bytes 8 n.
Definition counted {A} (f : A -> list Z) (l : list A) : list Z := compact_size (len l) ++ concat (map f l).
Definition var_bytes (b : list Z) : list Z := compact_size (len b) ++ b.
Definition u32_bytes := le_bytes 4.
Definition u64_bytes := le_bytes 8.

(** The bytes of a script are those of its operations (C14). *)
Definition script_bytes (s : script) : list Z := script_to_data false s.
Definition wire_input (i : input) : list Z :=
  in_hash i ++ u32_bytes (in_index i) ++ var_bytes (script_bytes (in_script i)) ++ u32_bytes (in_sequence i).
Definition wire_output (o : output) : list Z := u64_bytes (out_value o) ++ var_bytes (script_bytes (out_script o)).
Definition wire_witness (i : input) : list Z := counted var_bytes (in_witness i).
(** Original serialization, and BIP144 with marker, flag and witnesses. *)
Definition wire_legacy (t : tx) : list Z :=
  u32_bytes (tx_version t) ++ counted wire_input (tx_inputs t) ++ counted wire_output (tx_outputs t) ++
  u32_bytes (tx_locktime t).
Definition wire_segwit (t : tx) : list Z :=
  u32_bytes (tx_version t) ++ [0; 1] ++ counted wire_input (tx_inputs t) ++ counted wire_output (tx_outputs t) ++
  concat (map wire_witness (tx_inputs t)) ++ u32_bytes (tx_locktime t).
(** BIP144: the extended form is used iff some input has a witness. *)
Definition carries_witness (t : tx) : Prop := exists i, In i (tx_inputs t) /\ in_witness i <> [].

Definition u32_ok (n : Z) : Prop := 0 <= n < 2 ^ 32.
Definition u64_ok (n : Z) : Prop := 0 <= n < 2 ^ 64.
Definition hash_ok (h : list Z) : Prop := length h = 32%nat /\ bytes_ok h.
(** The script is the parse of some byte string, so its object form is canonical. *)
Definition script_ok (s : script) : Prop :=
  exists l, bytes_ok l /\ len l < 2 ^ 63 /\ s = fst (script_from_data false (StreamModel.fresh l)).
Definition input_ok (i : input) : Prop :=
  hash_ok (in_hash i) /\ u32_ok (in_index i) /\ script_ok (in_script i) /\ u32_ok (in_sequence i) /\
  len (in_witness i) <= 4000000 /\ Forall (fun e => bytes_ok e /\ len e <= 4000000) (in_witness i).
Definition output_ok (o : output) : Prop := u64_ok (out_value o) /\ script_ok (out_script o).
(** A transaction object with representable fields, whose segregation flag is
    that of its witnesses (true of every constructed transaction). *)
Definition tx_ok (t : tx) : Prop :=
  u32_ok (tx_version t) /\ u32_ok (tx_locktime t) /\
  len (tx_inputs t) <= 1000000 /\ Forall input_ok (tx_inputs t) /\
  len (tx_outputs t) <= 1000000 /\ Forall output_ok (tx_outputs t) /\
  (tx_segregated t = true <-> carries_witness t).
Definition header_ok (h : header) : Prop :=
  u32_ok (h_version h) /\ hash_ok (h_previous h) /\ hash_ok (h_merkle h) /\
  u32_ok (h_time h) /\ u32_ok (h_bits h) /\ u32_ok (h_nonce h).
Definition wire_header (h : header) : list Z :=
  u32_bytes (h_version h) ++ h_previous h ++ h_merkle h ++
  u32_bytes (h_time h) ++ u32_bytes (h_bits h) ++ u32_bytes (h_nonce h).
(** The same transaction without its witnesses. *)
Definition strip_input (i : input) : input := set_witness i [].
Definition strip (t : tx) : tx :=
  mktx (tx_version t) (map strip_input (tx_inputs t)) (tx_outputs t) (tx_locktime t) false.
