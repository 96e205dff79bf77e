(** Model of the chain object codecs: src/chain/point.cpp, input.cpp,
    output.cpp, witness.cpp, transaction.cpp, transaction_cache.cpp, header.cpp
    and block.cpp.  Objects are immutable records; shared pointers and the
    (never observable) memory reservations are dropped.  An object's is_valid()
    flag is the validity of the reader it was built from, kept here as the
    reader state.  Hashes are byte lists (32 bytes when built by the codec). *)
From Verif Require Import Base Bytes MathModel StreamModel OpModel.

(** ceilinged_add<size_t> / floored_subtract<size_t> (impl/math/overflow.ipp);
    unsigned, so never undefined: the default is not reached. *)
Definition cadd (x y : Z) : Z := match ceilinged_add u64 x y with Some r => r | None => 0 end.
Definition fsub (x y : Z) : Z := match floored_subtract u64 x y with Some r => r | None => 0 end.
Definition cmul (x y : Z) : Z := match ceilinged_multiply u64 x y with Some r => r | None => 0 end.
Definition cdiv (x y : Z) : Z := match ceilinged_divide u64 x y with Some r => r | None => 0 end.

(** chain/enums/magic_numbers.hpp: max_count = max_block_size, witness marker/flag. *)
Definition max_count : Z := 1000000.
Definition witness_marker : Z := 0.
Definition witness_enabled : Z := 1.

Record input := mkinput {
  in_hash : list Z; in_index : Z; in_script : script; in_sequence : Z; in_witness : list (list Z) }.
Record output := mkoutput { out_value : Z; out_script : script }.
Record tx := mktx {
  tx_version : Z; tx_inputs : list input; tx_outputs : list output; tx_locktime : Z; tx_segregated : bool }.
Record header := mkheader {
  h_version : Z; h_previous : list Z; h_merkle : list Z; h_time : Z; h_bits : Z; h_nonce : Z }.
Record block := mkblock { b_header : header; b_txs : list tx }.

(** Sequencing of reads. *)
Definition bind {A B} (r : rd -> A * rd) (f : A -> rd -> B * rd) : rd -> B * rd :=
  fun s => let (x, s') := r s in f x s'.
Definition ret {A} (a : A) : rd -> A * rd := fun s => (a, s).
Notation "x <- r ;; f" := (bind r (fun x => f)) (at level 61, r at next level, right associativity).

(** for (...; element < count; ...) push_back(read): transaction.cpp:150-159. *)
Fixpoint read_n {A} (n : nat) (r : rd -> A * rd) : rd -> list A * rd :=
  match n with
  | O => ret []
  | S m => a <- r ;; l <- read_n m r ;; ret (a :: l)
  end.
Definition read_list {A} (limit : Z) (r : rd -> A * rd) : rd -> list A * rd :=
  count <- read_size limit ;; read_n (Z.to_nat count) r.

(** byte_reader.ipp:341-344 read_hash, 243-254 read_forward<32>. *)
Definition read_hash : rd -> list Z * rd := do_read 32.

(** point.cpp:139-147 and input.cpp:227-239 from_data (witness left empty). *)
Definition input_from_data : rd -> input * rd :=
  hash <- read_hash ;; index <- read_le 4 ;; sc <- script_from_data true ;;
  sequence <- read_le 4 ;; ret (mkinput hash index sc sequence []).
(** point.cpp:166-170, input.cpp:259-264 to_data. *)
Definition input_to_data (i : input) : list Z :=
  in_hash i ++ write_le 4 (in_index i) ++ script_to_data true (in_script i) ++ write_le 4 (in_sequence i).
(** output.cpp:129-137 from_data, 155-159 to_data. *)
Definition output_from_data : rd -> output * rd :=
  value <- read_le 8 ;; sc <- script_from_data true ;; ret (mkoutput value sc).
Definition output_to_data (o : output) : list Z :=
  write_le 8 (out_value o) ++ script_to_data true (out_script o).

(** witness.cpp:152-156 read_element, 159-186 from_data(prefix = true). *)
Definition read_element : rd -> list Z * rd := size <- read_size max_bytes ;; read_bytes size.
Definition witness_from_data : rd -> list (list Z) * rd := read_list max_bytes read_element.
(** witness.cpp:189-219 skip(prefix = true): true when some element is not empty. *)
Definition skip_element : rd -> bool * rd :=
  size <- read_size max_bytes ;; _ <- read_bytes size ;; ret (negb (size =? 0)).
Definition witness_skip : rd -> bool * rd :=
  found <- read_list max_bytes skip_element ;; ret (existsb (fun b => b) found).
(** witness.cpp:239-252 to_data(prefix = true). *)
Definition element_to_data (e : list Z) : list Z := write_variable (len e) ++ e.
Definition witness_to_data (w : list (list Z)) : list Z :=
  write_variable (len w) ++ concat (map element_to_data w).
(** witness.cpp:145-150 element_size, 326-345 serialized_size(prefix = true).  A
    parsed witness sums its element sizes without the ceiling (181): the two
    agree below 2^64. *)
Definition element_size (e : list Z) : Z := cadd (variable_size (len e)) (len e).
Definition witness_size (w : list (list Z)) : Z :=
  cadd (variable_size (len w)) (fold_left (fun total e => cadd total (element_size e)) w 0).

(** input.cpp:326-333 set_witness. *)
Definition set_witness (i : input) (w : list (list Z)) : input :=
  mkinput (in_hash i) (in_index i) (in_script i) (in_sequence i) w.
Definition nonempty {A} (l : list A) : bool := match l with [] => false | _ => true end.

(** transaction.cpp:186-203: the witnesses are read (or skipped) per input;
    returns the inputs and whether some witness was not superfluous. *)
Fixpoint read_witnesses (witness : bool) (l : list input) : rd -> (list input * bool) * rd :=
  match l with
  | [] => ret ([], false)
  | i :: l' =>
    if witness then
      w <- witness_from_data ;; p <- read_witnesses witness l' ;;
      ret (set_witness i w :: fst p, nonempty w || snd p)
    else
      found <- witness_skip ;; p <- read_witnesses witness l' ;; ret (i :: fst p, found || snd p)
  end.

(** byte_reader skip_byte (do_skip_bytes(1)). *)
Definition skip_byte : rd -> unit * rd := fun s => (tt, do_skip 1 s).
(** transaction.cpp:207-210 *)
Definition invalidate_if (b : bool) : rd -> unit * rd := fun s => (tt, if b then invalid s else s).

(** transaction.cpp:163-222 from_data.  peek_byte is only called when there
    are no inputs (short-circuit, 172-174). *)
Definition tx_from_data (witness : bool) : rd -> tx * rd :=
  version <- read_le 4 ;;
  inputs <- read_list max_count input_from_data ;;
  has_witness <- (if len inputs =? witness_marker
                  then (b <- peek_byte ;; ret (b =? witness_enabled)) else ret false) ;;
  if has_witness then
    _ <- skip_byte ;;
    inputs <- read_list max_count input_from_data ;;
    outputs <- read_list max_count output_from_data ;;
    p <- read_witnesses witness inputs ;;
    _ <- invalidate_if (negb (snd p)) ;;
    locktime <- read_le 4 ;;
    ret (mktx version (fst p) outputs locktime witness)
  else
    outputs <- read_list max_count output_from_data ;;
    locktime <- read_le 4 ;;
    ret (mktx version inputs outputs locktime false).

(** transaction.cpp:246-274 to_data. *)
Definition tx_to_data (witness : bool) (t : tx) : list Z :=
  let witness := witness && tx_segregated t in
  write_le 4 (tx_version t) ++
  (if witness then [witness_marker; witness_enabled] else []) ++
  write_variable (len (tx_inputs t)) ++ concat (map input_to_data (tx_inputs t)) ++
  write_variable (len (tx_outputs t)) ++ concat (map output_to_data (tx_outputs t)) ++
  (if witness then concat (map (fun i => witness_to_data (in_witness i)) (tx_inputs t)) else []) ++
  write_le 4 (tx_locktime t).

(** input.cpp:267-300 serialized_size, output.cpp:161-166. *)
Definition input_nominal_size (i : input) : Z := cadd (cadd 36 4) (script_size true (in_script i)).
Definition input_witnessed_size (i : input) : Z := cadd (input_nominal_size i) (witness_size (in_witness i)).
Definition output_size (o : output) : Z := cadd 8 (script_size true (out_script o)).
(** transaction.cpp:276-314 serialized_size. *)
Definition sum_sizes {A} (f : A -> Z) (l : list A) : Z := fold_left (fun total a => cadd total (f a)) l 0.
Definition tx_base_size (t : tx) : Z :=
  cadd (cadd (cadd 8 (variable_size (len (tx_inputs t)))) (variable_size (len (tx_outputs t))))
       (sum_sizes output_size (tx_outputs t)).
Definition tx_size (witness : bool) (t : tx) : Z :=
  if witness && tx_segregated t
  then cadd (cadd (tx_base_size t) 2) (sum_sizes input_witnessed_size (tx_inputs t))
  else cadd (tx_base_size t) (sum_sizes input_nominal_size (tx_inputs t)).
(** transaction.cpp:228-237: the buffer returned by to_data(witness): allocated
    (zeroed) with serialized_size bytes, then filled through a bounded sink.  An
    overflowing write leaves some prefix (simplified to zeros here): the size
    theorems show that branch is not taken. *)
Definition fill (size : Z) (bytes : list Z) : list Z :=
  if len bytes >? size then zeros size else bytes ++ zeros (size - len bytes).
Definition tx_data (witness : bool) (t : tx) : list Z := fill (tx_size witness t) (tx_to_data witness t).

(** transaction.cpp:554-573 segregated: some input has a non-empty witness; and
    73-77 construction from parts. *)
Definition has_witness_data (l : list input) : bool := existsb (fun i => nonempty (in_witness i)) l.
Definition make_tx (version : Z) (ins : list input) (outs : list output) (locktime : Z) : tx :=
  mktx version ins outs locktime (has_witness_data ins).

(** header.cpp:145-156 from_data, 178-186 to_data. *)
Definition header_from_data : rd -> header * rd :=
  version <- read_le 4 ;; previous <- read_hash ;; merkle <- read_hash ;;
  time <- read_le 4 ;; bits <- read_le 4 ;; nonce <- read_le 4 ;;
  ret (mkheader version previous merkle time bits nonce).
Definition header_to_data (h : header) : list Z :=
  write_le 4 (h_version h) ++ h_previous h ++ h_merkle h ++
  write_le 4 (h_time h) ++ write_le 4 (h_bits h) ++ write_le 4 (h_nonce h).
(** header.hpp:43 serialized_size. *)
Definition header_size : Z := 80.

(** block.cpp:134-155 from_data, 174-181 to_data, 338-360 serialized_size. *)
Definition block_from_data (witness : bool) : rd -> block * rd :=
  h <- header_from_data ;; txs <- read_list max_count (tx_from_data witness) ;; ret (mkblock h txs).
Definition block_to_data (witness : bool) (b : block) : list Z :=
  header_to_data (b_header b) ++ write_variable (len (b_txs b)) ++
  concat (map (tx_to_data witness) (b_txs b)).
Definition block_size (witness : bool) (b : block) : Z :=
  cadd (cadd header_size (variable_size (len (b_txs b)))) (sum_sizes (tx_size witness) (b_txs b)).
Definition block_data (witness : bool) (b : block) : list Z :=
  fill (block_size witness b) (block_to_data witness b).

(** transaction.cpp:581-600, block.cpp:474-491: weight, virtual size, limits
    (magic_numbers: base contribution 3, total contribution 1). *)
Definition weight_of (nominal witnessed : Z) : Z := cadd (cmul 3 nominal) (cmul 1 witnessed).
Definition tx_weight (t : tx) : Z := weight_of (tx_size false t) (tx_size true t).
Definition tx_virtual_size (t : tx) : Z := cdiv (tx_weight t) 4.
Definition max_block_weight : Z := 4000000.
Definition tx_is_overweight (t : tx) : bool := tx_weight t >? max_block_weight.
Definition block_weight (b : block) : Z := weight_of (block_size false b) (block_size true b).
Definition block_virtual_size (b : block) : Z := cdiv (block_weight b) 4.
Definition block_is_overweight (b : block) : bool := block_weight b >? max_block_weight.

(** Identity hashes: transaction_cache.cpp:40-58 desegregated_hash over the wire
    bytes, 61-89 hash, block.cpp:288-325 set_hashes.  [H] is double sha256; the
    hash sink is the hash of the bytes written to it (C48). *)
Section Hashes.
Variable H : list Z -> list Z.
Definition null_hash : list Z := zeros 32.
Definition null_index : Z := 4294967295.
(** point.cpp:195-198, transaction.cpp:533-536 *)
Definition input_is_null (i : input) : bool := (in_index i =? null_index) && bytes_eq (in_hash i) null_hash.
Definition is_coinbase (t : tx) : bool :=
  match tx_inputs t with [i] => input_is_null i | _ => false end.
(** transaction_cache.cpp:61-89 without a cached value. *)
Definition tx_hash (witness : bool) (t : tx) : list Z :=
  if tx_segregated t && witness && is_coinbase t then null_hash else H (tx_to_data witness t).
(** sink.write_bytes(data + from, size) *)
Definition sub_bytes (data : list Z) (from size : Z) : list Z :=
  firstn (Z.to_nat size) (skipn (Z.to_nat from) data).
Definition desegregated_hash (witnessed unwitnessed : Z) (data : list Z) : list Z :=
  H (sub_bytes data 0 4 ++ sub_bytes data 6 (fsub unwitnessed 8) ++ sub_bytes data (fsub witnessed 4) 4).
(** funclets.hpp:191-203 size_variable(prefix byte). *)
Definition size_variable (prefix : Z) : Z :=
  if prefix =? 253 then 3 else if prefix =? 254 then 5 else if prefix =? 255 then 9 else 1.
(** block.cpp:301-324: per transaction the cached (nominal, witness) hashes. *)
Fixpoint cache_hashes (coinbase : bool) (txs : list tx) (data : list Z) : list (list Z * option (list Z)) :=
  match txs with
  | [] => []
  | t :: txs' =>
    let witness_size := tx_size true t in
    let entry :=
      if tx_segregated t then
        (desegregated_hash witness_size (tx_size false t) data,
         if coinbase then None else Some (H (sub_bytes data 0 witness_size)))
      else (H (sub_bytes data 0 witness_size), None) in
    entry :: cache_hashes false txs' (skipn (Z.to_nat witness_size) data)
  end.
Definition set_hashes (b : block) (data : list Z) : list Z * list (list Z * option (list Z)) :=
  let start := skipn (Z.to_nat header_size) data in
  (H (sub_bytes data 0 header_size),
   cache_hashes true (b_txs b) (skipn (Z.to_nat (size_variable (hd 0 start))) start)).
(** transaction_cache.cpp:61-81 hash(witness) with those cached values. *)
Definition cached_hash (witness : bool) (t : tx) (c : list Z * option (list Z)) : list Z :=
  if tx_segregated t then
    if witness then match snd c with
                    | Some h => h
                    | None => if is_coinbase t then null_hash else H (tx_to_data true t) end
    else fst c
  else fst c.
End Hashes.
