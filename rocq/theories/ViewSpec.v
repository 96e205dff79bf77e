(** Specification for block views: the bytes of a block in the protocol's
    layout, and the blocks a view indexes. *)
From Verif Require Import Base Bytes OpModel ChainModel ChainSpec.

Definition wire_tx (t : tx) : list Z := if tx_segregated t then wire_segwit t else wire_legacy t.
Definition wire_block (b : block) : list Z := wire_header (b_header b) ++ counted wire_tx (b_txs b).
Definition legacy_block (b : block) : list Z := wire_header (b_header b) ++ counted wire_legacy (b_txs b).

Definition indexed_tx (t : tx) : Prop :=
  tx_ok t /\ tx_inputs t <> [] /\ tx_outputs t <> [] /\
  Forall (fun i => len (script_bytes (in_script i)) <= 4000000) (tx_inputs t) /\
  Forall (fun o => len (script_bytes (out_script o)) <= 4000000) (tx_outputs t) /\
  (carries_witness t -> exists i e, In i (tx_inputs t) /\ In e (in_witness i) /\ e <> []).
Definition indexed_block (b : block) : Prop :=
  header_ok (b_header b) /\ b_txs b <> [] /\ len (b_txs b) <= 1000000 /\ Forall indexed_tx (b_txs b).

(** Archive table contributions: each script with its prefix; each output value
    as a CompactSize; each input's witness, or one byte where it is absent. *)
Definition sum (l : list Z) : Z := fold_right Z.add 0 l.
Definition prefixed_script (s : script) : Z := len (var_bytes (script_bytes s)).
Definition input_table (witness : bool) (t : tx) : Z :=
  sum (map (fun i => prefixed_script (in_script i)) (tx_inputs t)) +
  (if tx_segregated t && witness then len (concat (map wire_witness (tx_inputs t))) else len (tx_inputs t)).
Definition output_table (t : tx) : Z :=
  sum (map (fun o => len (compact_size (out_value o)) + prefixed_script (out_script o)) (tx_outputs t)).
