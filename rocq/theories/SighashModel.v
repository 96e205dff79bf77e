(** Model of src/chain/transaction_sighash.cpp, transaction_sighash_v0.cpp,
    transaction_sighash_v1.cpp, the signature hash caches of
    src/chain/transaction_cache.cpp, transaction::signature_hash
    (src/chain/transaction.cpp:472-528) and the hash writers
    (impl/stream/streamers/sha256_writer.ipp, sha256x2_writer.ipp,
    sha256t_writer.ipp).

    A write to a sink is one element of the list of writes; to_data calls are
    one element (any chunking of the same bytes gives the same hash, C48).  The
    input iterator is an index.  [None] is undefined behaviour (a null prevout
    dereferenced, at() or an iterator out of range). *)
From Verif Require Import Base Bytes MathModel ShaModel AccModel KdfModel StreamModel OpModel ChainModel InterpEnv.

Section Sinks.
Variables (checked s8 : bool) (widths : list nat).
Definition sha := sha_algorithm sha256 s8 widths.
Definition writes (a : acc) (ds : list (list Z)) : acc := fold_left (fun a d => snd (write sha checked a d)) ds a.
(** sha256_writer.ipp:54-84 *)
Definition sha256_sink (ds : list (list Z)) : list Z := fst (flush sha checked (writes (construct sha) ds)).
(** sha256x2_writer.ipp:54-91 *)
Definition sha256x2_sink (ds : list (list Z)) : list Z :=
  let (h, a) := flush sha checked (writes (construct sha) ds) in
  fst (flush sha checked (snd (write sha checked (reset sha a) h))).
(** impl/hash/sha/algorithm_single.ipp:133-146 midstate(left, right) *)
Definition midstate (left right : list Z) : list Z :=
  compress sha256 (ShaModel.H sha256) (schedule sha256 s8 (input_right sha256 (input_left sha256 (zero_buffer sha256) left) right)).
(** sha256t_writer.ipp:41-45, 57-100 *)
Definition sha256t_sink (tag : list Z) (ds : list (list Z)) : list Z :=
  let tag1 := simple_hash sha256 s8 tag in
  fst (flush sha checked (writes (construct_at sha checked (midstate tag1 tag1) 1) ds)).

(** hash/functions.hpp:77 one_hash: from_uintx is little-endian *)
Definition one_hash : list Z := le_bytes 32 1.

(** A transaction with the metadata signature hashing reads: per input the
    populated previous output (a null pointer is None), and the mutable offset
    of that output's script object (script.hpp:212: the operation following the
    last executed code separator), from which script::to_data writes
    (script.cpp:343-353).  The transaction's own output scripts have offset zero. *)
Record meta := mkmeta { body : tx; prevouts : list (option output); offsets : list nat }.
Definition script_data (s : script) (offset : nat) : list Z := script_to_data true (skipn offset s).
(** point.cpp:166-170 *)
Definition point_data (i : input) : list Z := in_hash i ++ write_le 4 (in_index i).
Definition null_output : list Z := output_to_data (mkoutput (2 ^ 64 - 1) []).
Definition empty_script : list Z := script_to_data true [].
Definition zero_sequence : list Z := write_le 4 0.

(** transaction_patterns.ipp:35-51 (coverage.hpp: mask is the low five bits) *)
Inductive coverage := hash_all | hash_none | hash_single.
Definition mask_sighash (flags : Z) : coverage :=
  let masked := Z.land flags 31 in
  if masked =? 3 then hash_single else if masked =? 2 then hash_none else hash_all.
Definition is_anyone_can_pay (flags : Z) : bool := Z.testbit flags 7.
Definition is_all (c : coverage) : bool := match c with hash_all => true | _ => false end.
Definition is_single (c : coverage) : bool := match c with hash_single => true | _ => false end.

Variable m : meta.
Definition inputs := tx_inputs (body m).
Definition outputs := tx_outputs (body m).
(** transaction.cpp:475-489 *)
Definition input_index (n : nat) : Z := wrap u32 (Z.of_nat n).
Definition output_overflow (index : Z) : bool := index >=? len outputs.

(** transaction_sighash.cpp:58-85, 110-134, 149-173 write_inputs; [sequence] is
    what is written for the other inputs. *)
Definition write_inputs (n : nat) (i : input) (subscript : list Z) (flags : Z) (sequence : input -> list Z) : list (list Z) :=
  let anyone := is_anyone_can_pay flags in
  let other j := [point_data j; empty_script; sequence j] in
  [write_variable (if anyone then 1 else len inputs)] ++
  (if anyone then [] else flat_map other (firstn n inputs)) ++
  [point_data i; subscript; write_le 4 (in_sequence i)] ++
  (if anyone then [] else flat_map other (skipn (S n) inputs)).
(** 49-104 signature_hash_single, 106-141 signature_hash_none, 143-188 signature_hash_all *)
Definition signature_hash_single (n : nat) (i : input) (subscript : list Z) (flags : Z) : option (list (list Z)) :=
  do o <- nth_error outputs (Z.to_nat (input_index n));
  Some ([write_le 4 (tx_version (body m))] ++ write_inputs n i subscript flags (fun _ => zero_sequence) ++
        [write_variable (input_index n + 1)] ++ repeat null_output (Z.to_nat (input_index n)) ++ [output_to_data o] ++
        [write_le 4 (tx_locktime (body m)); write_le 4 flags]).
Definition signature_hash_none (n : nat) (i : input) (subscript : list Z) (flags : Z) : list (list Z) :=
  [write_le 4 (tx_version (body m))] ++ write_inputs n i subscript flags (fun _ => zero_sequence) ++
  [write_variable 0] ++ [write_le 4 (tx_locktime (body m)); write_le 4 flags].
Definition signature_hash_all (n : nat) (i : input) (subscript : list Z) (flags : Z) : list (list Z) :=
  [write_le 4 (tx_version (body m))] ++ write_inputs n i subscript flags (fun j => write_le 4 (in_sequence j)) ++
  [write_variable (len outputs)] ++ map output_to_data outputs ++
  [write_le 4 (tx_locktime (body m)); write_le 4 flags].
(** 190-222 unversioned_sighash *)
Definition unversioned_sighash (n : nat) (subscript : list Z) (flags : Z) : option (list Z) :=
  do i <- nth_error inputs n;
  match mask_sighash flags with
  | hash_single =>
    if output_overflow (input_index n) then Some one_hash
    else omap sha256x2_sink (signature_hash_single n i subscript flags)
  | hash_none => Some (sha256x2_sink (signature_hash_none n i subscript flags))
  | hash_all => Some (sha256x2_sink (signature_hash_all n i subscript flags))
  end.

(** transaction_cache.cpp:110-181, 185-213: the caches, filled on demand. *)
Record base_cache := mkbase { c_points : list Z; c_sequences : list Z; c_outputs : list Z }.
Record only_cache := mkonly { c_amounts : list Z; c_scripts : list Z }.
(** with output::cache_ (output.cpp:212-220) per output *)
Record caches := mkcaches { x1 : option base_cache; x2 : option base_cache; only : option only_cache; output_hashes : list (option (list Z)) }.
Definition no_caches : caches := mkcaches None None None (map (fun _ => None) outputs).
Definition x1_base_hash : base_cache :=
  mkbase (sha256_sink (map point_data inputs)) (sha256_sink (map (fun i => write_le 4 (in_sequence i)) inputs))
         (sha256_sink (map output_to_data outputs)).
Definition set_x1 (c : caches) : base_cache * caches :=
  match x1 c with
  | Some b => (b, c)
  | None => (x1_base_hash, mkcaches (Some x1_base_hash) (x2 c) (only c) (output_hashes c))
  end.
Definition set_x2 (c : caches) : base_cache * caches :=
  match x2 c with
  | Some b => (b, c)
  | None =>
    let (b, c) := set_x1 c in
    let h := hash sha checked in
    let b2 := mkbase (h (c_points b)) (h (c_sequences b)) (h (c_outputs b)) in
    (b2, mkcaches (x1 c) (Some b2) (only c) (output_hashes c))
  end.
(** 158-181: every prevout is dereferenced *)
Fixpoint all_some {A} (l : list (option A)) : option (list A) :=
  match l with
  | [] => Some []
  | Some a :: l' => omap (cons a) (all_some l')
  | None :: _ => None
  end.
Definition spent_scripts (l : list output) : list (list Z) :=
  map (fun p => script_data (out_script (fst p)) (snd p)) (combine l (offsets m)).
Definition set_only (c : caches) : option (only_cache * caches) :=
  match only c with
  | Some o => Some (o, c)
  | None =>
    do l <- all_some (prevouts m);
    let o := mkonly (sha256_sink (map (fun o => write_le 8 (out_value o)) l)) (sha256_sink (spent_scripts l)) in
    Some (o, mkcaches (x1 c) (x2 c) (Some o) (output_hashes c))
  end.
(** output.cpp:202-220 *)
Definition get_output_hash (n : nat) (c : caches) : option (list Z * caches) :=
  do o <- nth_error outputs n;
  do cached <- nth_error (output_hashes c) n;
  match cached with
  | Some h => Some (h, c)
  | None =>
    let h := sha256_sink [output_to_data o] in
    Some (h, mkcaches (x1 c) (x2 c) (only c) (firstn n (output_hashes c) ++ [Some h] ++ skipn (S n) (output_hashes c)))
  end.

(** transaction_sighash_v0.cpp:33-47 output_hash_v0 *)
Definition output_hash_v0 (n : nat) : option (list Z) :=
  if output_overflow (input_index n) then Some null_hash
  else omap (fun o => sha256x2_sink [output_to_data o]) (nth_error outputs (Z.to_nat (input_index n))).
(** 56-92 version0_sighash *)
Definition version0_sighash (c : caches) (n : nat) (subscript : list Z) (value flags : Z) : option (list Z * caches) :=
  do i <- nth_error inputs n;
  let flag := mask_sighash flags in
  let anyone := is_anyone_can_pay flags in
  let (points, c) := if anyone then (null_hash, c) else let (b, c) := set_x2 c in (c_points b, c) in
  let (sequences, c) := if negb anyone && is_all flag then let (b, c) := set_x2 c in (c_sequences b, c) else (null_hash, c) in
  do (outs, c) <- (if is_single flag then omap (fun h => (h, c)) (output_hash_v0 n)
                   else if is_all flag then let (b, c) := set_x2 c in Some (c_outputs b, c) else Some (null_hash, c));
  Some (sha256x2_sink
    [write_le 4 (tx_version (body m)); points; sequences; point_data i; subscript; write_le 8 value;
     write_le 4 (in_sequence i); outs; write_le 4 (tx_locktime (body m)); write_le 4 flags], c).

(** annex.ipp:79-99, witness.cpp:102-126 *)
Definition annex (w : list (list Z)) : option (list Z) :=
  if len w <=? 1 then None
  else let top := last w [] in
       match top with b :: _ => if b =? 80 then Some top else None | [] => None end.
(** transaction_sighash_v1.cpp:58-64: set_right(shift_left(ext_flag), 0, annex) *)
Definition spend_type_v1 (annex tapscript : bool) : Z :=
  let ext := if tapscript then 1 else 0 in
  if annex then Z.lor (Z.shiftl ext 1) 1 else Z.land (Z.shiftl ext 1) 254.
(** "TapSighash" *)
Definition tap_sighash : list Z := [84; 97; 112; 83; 105; 103; 104; 97; 115; 104].
(** 69-153 version1_sighash; [separator] is subscript_v1 of the script (45-55,
    InterpModel.subscript_v1).  The result is Some None when it returns false. *)
Definition version1_sighash (c : caches) (n : nat) (separator value : Z) (tapleaf : option (list Z)) (flags : Z) :
  option (option (list Z) * caches) :=
  do i <- nth_error inputs n;
  do prevout <- nth_error (prevouts m) n;
  do offset <- nth_error (offsets m) n;
  let flag := mask_sighash flags in
  let anyone := is_anyone_can_pay flags in
  let an := annex (in_witness i) in
  if anyone && match prevout with None => true | Some _ => false end then Some (None, c)
  else if is_single flag && output_overflow (input_index n) then Some (None, c)
  else
    do (head, c) <- (if anyone then Some ([], c)
                     else let (b, c) := set_x1 c in
                          do (o, c) <- set_only c;
                          Some ([c_points b; c_amounts o; c_scripts o; c_sequences b], c));
    let (outs, c) := if is_all flag then let (b, c) := set_x1 c in ([c_outputs b], c) else ([], c) in
    do own <- (if anyone
               then omap (fun p => [point_data i; write_le 8 value; script_data (out_script p) offset; write_le 4 (in_sequence i)]) prevout
               else Some [write_le 4 (input_index n)]);
    do (single, c) <- (if is_single flag
                       then omap (fun p => ([fst p], snd p)) (get_output_hash (Z.to_nat (input_index n)) c)
                       else Some ([], c));
    Some (Some (sha256t_sink tap_sighash
      ([[0]; [flags]; write_le 4 (tx_version (body m)); write_le 4 (tx_locktime (body m))] ++ head ++ outs ++
       [[spend_type_v1 (match an with Some _ => true | None => false end) (match tapleaf with Some _ => true | None => false end)]] ++
       own ++
       match an with Some a => [sha256_sink [write_variable (len a); a]] | None => [] end ++
       single ++
       match tapleaf with Some h => [h; [0]; write_le 4 separator] | None => [] end)), c).

(** transaction.cpp:493-528 signature_hash.  The subscript is its operations and
    offset; [sub_bytes] its prefixed serialization from the offset. *)
Record request := mkrequest {
  r_input : nat; r_script : script; r_offset : nat; r_value : Z; r_tapleaf : option (list Z);
  r_version : script_version; r_flags : Z; r_rules : Z }.
Definition separator (q : request) : Z :=
  match r_script q, r_offset q with [], _ => 4294967295 | _, O => 4294967295 | _, S k => wrap u32 (Z.of_nat k) end.
Definition tx_signature_hash (c : caches) (q : request) : option (option (list Z) * caches) :=
  let sub := script_data (r_script q) (r_offset q) in
  if Z.testbit (r_rules q) bip143_rule && match r_version q with segwit => true | _ => false end
  then do (h, c) <- version0_sighash c (r_input q) sub (r_value q) (r_flags q); Some (Some h, c)
  else if Z.testbit (r_rules q) bip342_rule && match r_version q with taproot => true | _ => false end
  then version1_sighash c (r_input q) (separator q) (r_value q) (r_tapleaf q) (r_flags q)
  else do h <- unversioned_sighash (r_input q) sub (r_flags q); Some (Some h, c).
(** A history of calls on one transaction object. *)
Fixpoint history (c : caches) (qs : list request) : option (list (option (list Z))) :=
  match qs with
  | [] => Some []
  | q :: qs' => do (h, c) <- tx_signature_hash c q; omap (cons h) (history c qs')
  end.
End Sinks.
