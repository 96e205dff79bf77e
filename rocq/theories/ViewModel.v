(** Model of the raw block views: src/chain/views/transaction_view.cpp and
    block_view.cpp.  A view indexes a block buffer without building objects.
    The view record holds the members of transaction_view; pointers into the
    buffer are offsets ([v_start] for tx_ptr_).  The sizes are size_t: at most
    10^6 elements of at most 4*10^6 + 18 bytes are summed, so the sums are left
    unwrapped; subtractions are only observed on a valid view, where they are
    not negative.  [v_marked] is the constructor local has_witness, kept because
    the identifier hashes are computed from it. *)
From Verif Require Import Base Bytes MathModel StreamModel StateModel OpModel ChainModel BlockModel.

Record txview := mkview {
  v_start : Z; v_size : Z; v_in : Z; v_out : Z; v_in_count : Z; v_out_count : Z;
  v_wits : Z; v_in_table : Z; v_out_table : Z; v_marked : bool; v_segregated : bool; v_coinbase : bool }.

(** byte_reader get_read_position, skip_bytes. *)
Definition tell : rd -> Z * rd := fun s => (position s, s).
Definition skip_bytes (n : Z) : rd -> unit * rd := fun s => (tt, do_skip n s).

(** transaction_view.cpp:68-74: one input; returns its script size. *)
Definition view_input : rd -> Z * rd :=
  _ <- skip_bytes 36 ;; size <- read_size max_bytes ;; _ <- skip_bytes (size + 4) ;; ret size.
(** transaction_view.cpp:79-86: one output; returns value and script size. *)
Definition view_output : rd -> (Z * Z) * rd :=
  value <- read_le 8 ;; size <- read_size max_bytes ;; _ <- skip_bytes size ;; ret (value, size).
Definition input_entry (size : Z) : Z := variable_size size + size.
Definition output_entry (p : Z * Z) : Z := variable_size (fst p) + variable_size (snd p) + snd p.
Definition total (l : list Z) : Z := fold_left Z.add l 0.

(** transaction_view.cpp:45-118 constructor (indexing). *)
Definition view_tx (coinbase witness : bool) : rd -> txview * rd :=
  start <- tell ;;
  _ <- skip_bytes 4 ;;
  count <- read_size max_count ;;
  has_witness <- (if count =? witness_marker then (b <- peek_byte ;; ret (b =? witness_enabled)) else ret false) ;;
  ins <- (if has_witness then (_ <- skip_byte ;; read_size max_count) else ret count) ;;
  in_at <- tell ;;
  sizes <- read_n (Z.to_nat ins) view_input ;;
  outs <- read_size max_count ;;
  out_at <- tell ;;
  pairs <- read_n (Z.to_nat outs) view_output ;;
  wit_at <- tell ;;
  _ <- (if has_witness
        then (found <- read_n (Z.to_nat ins) witness_skip ;; invalidate_if (negb (existsb (fun b => b) found)))
        else ret tt) ;;
  _ <- skip_bytes 4 ;;
  end_at <- tell ;;
  _ <- invalidate_if ((ins =? 0) || (outs =? 0)) ;;
  let size := end_at - start in
  let wits := size - (wit_at - start + 4) in
  let segregated := has_witness && witness in
  ret (mkview start size (in_at - start) (out_at - start) ins outs wits
        (total (map input_entry sizes) + (if segregated then wits else ins))
        (total (map output_entry pairs)) has_witness segregated coinbase).

(** block_view.cpp:40-59 constructor: no views when the count is zero or the
    stream failed.  [None] for a view is an empty txs_. *)
Definition view_txs (witness : bool) : rd -> list txview * rd :=
  _ <- skip_bytes header_size ;;
  count <- read_size max_count ;;
  if count =? 0 then ret []
  else first <- view_tx true witness ;;
       others <- read_n (Z.to_nat count - 1) (view_tx false witness) ;;
       ret (first :: others).
Definition block_view (witness : bool) (buffer : list Z) : list txview :=
  let (views, s) := view_txs witness (fresh buffer) in if good s then views else [].

Section Views.
Variable D : list Z -> list Z.
Variable buffer : list Z.

(** tx_ptr_ *)
Definition at_tx (v : txview) : list Z := skipn (Z.to_nat (v_start v)) buffer.

(** transaction_view.cpp:438-462 *)
Definition stripped_size (v : txview) : Z := if v_wits v =? 0 then v_size v else v_size v - (v_wits v + 2).
Definition outputs_size (v : txview) : Z := v_size v - v_out v - (v_wits v + 4).
Definition inputs_size (v : txview) : Z := v_size v - v_in v - (v_wits v + 4).
(** transaction_view.cpp:120-133 *)
Definition view_txid (v : txview) : list Z :=
  if v_marked v then desegregated_hash D (v_size v) (stripped_size v) (at_tx v)
  else D (sub_bytes (at_tx v) 0 (v_size v)).
Definition view_wtxid (v : txview) : list Z :=
  if v_segregated v && negb (v_coinbase v) then D (sub_bytes (at_tx v) 0 (v_size v)) else null_hash.
(** transaction_view.cpp:230-233 *)
Definition view_hash (witness : bool) (v : txview) : list Z :=
  if witness && v_segregated v then view_wtxid v else view_txid v.
(** transaction_view.cpp:150-158 (at_inputs 415-419) *)
Definition view_null_point (v : txview) : bool :=
  bytes_eq (sub_bytes (at_tx v) (v_in v) 32) null_hash &&
  (le_value (sub_bytes (at_tx v) (v_in v + 32) 4) =? null_index).
(** transaction_view.cpp:175-186 *)
Definition view_version (v : txview) : Z := le_value (sub_bytes (at_tx v) 0 4).
Definition view_locktime (v : txview) : Z := le_value (sub_bytes (at_tx v) (v_size v - 4) 4).
(** transaction_view.cpp:188-191 *)
Definition view_size (witness : bool) (v : txview) : Z :=
  if witness && v_segregated v then v_size v else stripped_size v.
(** transaction_view.cpp:209-228, and 193-200 the buffer it fills. *)
Definition view_to_data (witness : bool) (v : txview) : list Z :=
  if witness && v_segregated v then sub_bytes (at_tx v) 0 (v_size v)
  else let sentinels := if v_wits v =? 0 then 0 else 2 in
       sub_bytes (at_tx v) 0 4 ++
       sub_bytes (at_tx v) (4 + sentinels) (v_size v - v_wits v - 4 - 4 - sentinels) ++
       sub_bytes (at_tx v) (v_size v - 4) 4.
Definition view_data (witness : bool) (v : txview) : list Z := fill (view_size witness v) (view_to_data witness v).
(** transaction_view.cpp:239-248 *)
Definition view_input_table (pruned : bool) (v : txview) : Z := if pruned then 2 * v_in_count v else v_in_table v.

(** transaction_view.cpp:381-405.  Bytes past the end are not read: the size is tested first. *)
Definition is_commitment_bytes (script : list Z) (size : Z) : bool :=
  if 6 + 32 >? size then false
  else bytes_eq (firstn 6 script) ([106; 36] ++ witness_head).
Definition is_reserved_bytes (stack : list Z) (size : Z) : bool :=
  if 2 + 32 >? size then false else bytes_eq (firstn 2 stack) [1; 32].
(** transaction_view.cpp:255-280: [output] is at_outputs, the reader runs over it. *)
Fixpoint commitment_loop (n : nat) (output : list Z) (s : rd) (found : option (list Z)) : option (list Z) :=
  match n with
  | O => found
  | S m =>
    let s1 := do_skip 8 s in
    let (size, s2) := read_size max_size_t s1 in
    let script := skipn (Z.to_nat (position s2)) output in
    let found := if is_commitment_bytes script size then Some (sub_bytes script 6 32) else found in
    commitment_loop m output (do_skip size s2) found
  end.
Definition view_commitment (v : txview) : option (list Z) :=
  let output := skipn (Z.to_nat (v_out v)) (at_tx v) in
  commitment_loop (Z.to_nat (v_out_count v)) output (fresh (firstn (Z.to_nat (outputs_size v)) output)) None.
(** transaction_view.cpp:283-293, 427-432 *)
Definition view_reservation (v : txview) : option (list Z) :=
  let stack := skipn (Z.to_nat (v_size v - (v_wits v + 4))) (at_tx v) in
  if is_reserved_bytes stack (v_wits v) then Some (sub_bytes stack 2 32) else None.

(** block_view.cpp:64-93, 127-137 *)
Definition blockview_size (witness : bool) (txs : list txview) : Z :=
  if witness then len buffer
  else header_size + variable_size (len txs) + total (map (view_size false) txs).
Definition blockview_to_data (witness : bool) (txs : list txview) : list Z :=
  if witness then buffer
  else sub_bytes buffer 0 header_size ++ write_variable (len txs) ++ concat (map (view_to_data false) txs).
Definition blockview_data (witness : bool) (txs : list txview) : list Z :=
  fill (blockview_size witness txs) (blockview_to_data witness txs).
(** block_view.cpp:103-115 *)
Definition blockview_segregated (witness : bool) (txs : list txview) : bool := witness && existsb v_segregated txs.
Definition blockview_hash : list Z := D (sub_bytes buffer 0 header_size).
(** block_view.cpp:246-269 *)
Definition header_merkle_root (txs : list txview) : list Z :=
  match txs with [] => null_hash | _ => sub_bytes buffer 36 32 end.
Definition blockview_hashes (witness : bool) (txs : list txview) : list (list Z) := map (view_hash witness) txs.
Definition blockview_root (witness : bool) (txs : list txview) : list Z := merkle_root D (blockview_hashes witness txs).
(** block_view.cpp:163-240 *)
Definition blockview_malleated64 (txs : list txview) : bool :=
  match txs with
  | [] => false
  | first :: _ => negb (view_null_point first) && forallb (fun v => view_size false v =? 2 * 32) txs
  end.
Definition blockview_malleated32_size (txs : list txview) : Z :=
  let hashes := blockview_hashes false txs in malleated32_loop (S (length hashes)) 1 hashes.
Definition blockview_malleated (txs : list txview) : bool :=
  blockview_malleated64 txs || negb (blockview_malleated32_size txs =? 0).
(** block_view.cpp:139-148 *)
Definition blockview_identify (txs : list txview) : errc :=
  match txs with
  | [] => empty_block
  | _ => if blockview_malleated txs || negb (bytes_eq (blockview_root false txs) (header_merkle_root txs))
         then invalid_transaction_commitment else success
  end.
(** block_view.cpp:173-187, 275-283 *)
Definition blockview_invalid_commitment (witness : bool) (txs : list txview) : bool :=
  match txs with
  | [] => false
  | first :: _ =>
    match view_commitment first with
    | None => blockview_segregated witness txs
    | Some commit =>
      match view_reservation first with
      | None => true
      | Some reserve => negb (bytes_eq commit (D (blockview_root true txs ++ reserve)))
      end
    end
  end.
(** block_view.cpp:150-158 identify(ctx) *)
Definition blockview_identify_ctx (bip141 witness : bool) (txs : list txview) : errc :=
  if bip141 && blockview_invalid_commitment witness txs then invalid_witness_commitment else success.
End Views.
