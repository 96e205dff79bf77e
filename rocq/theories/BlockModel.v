(** Model of the context free block checks and block identity:
    src/chain/block.cpp (check, identify, malleation, merkle root and branch,
    witness commitment), src/chain/transaction.cpp check(), and
    impl/hash/sha/algorithm_merkle.ipp.  [D] is double sha256 over a byte
    string; the two-digest overload hashes the concatenation.  Unordered sets
    are lists with membership tests. *)
From Verif Require Import Base Bytes MathModel StreamModel NumberModel OpModel ChainModel.

(** error/op codes used here (error/error_t.hpp). *)
Inductive errc :=
  | success
  | empty_block | block_size_limit | first_not_coinbase | extra_coinbases
  | forward_reference | block_internal_double_spend | invalid_transaction_commitment
  | empty_transaction | invalid_coinbase_script_size | previous_output_null
  | block_weight_limit | coinbase_height_mismatch | temporary_hash_limit
  | invalid_witness_commitment | absolute_time_locked
  | coinbase_value_limit | block_sigop_limit | missing_previous_output | spend_exceeds_value
  | relative_time_locked | coinbase_maturity_error | unconfirmed_spend | confirmed_double_spend
  | coinbase_transaction | transaction_internal_double_spend | transaction_size_limit
  | unexpected_witness_transaction | transaction_weight_limit | transaction_sigop_limit.

Definition max_block_size : Z := 1000000.
Definition min_coinbase_size : Z := 2.
Definition max_coinbase_size : Z := 100.
Definition hash_limit : Z := 4500.

(** std::vector::back. *)
Definition back {A} (d : A) (l : list A) : A := last l d.
(** unordered_set<hash>::contains. *)
Definition has_hash (h : list Z) (l : list (list Z)) : bool := existsb (bytes_eq h) l.
(** point: (hash, index), operator==. *)
Definition point := (list Z * Z)%type.
Definition point_of (i : input) : point := (in_hash i, in_index i).
Definition point_eq (p q : point) : bool := bytes_eq (fst p) (fst q) && (snd p =? snd q).
Definition has_point (p : point) (l : list point) : bool := existsb (point_eq p) l.

Section Block.
Variable D : list Z -> list Z.

(** algorithm_merkle.ipp:333-342 merkle_hash_ (the vectorized path writes the
    same digests); element i is written after elements 2i, 2i+1 are read. *)
Fixpoint merkle_hash (l : list (list Z)) : list (list Z) :=
  match l with a :: b :: l' => D (a ++ b) :: merkle_hash l' | _ => [] end.
(** algorithm_merkle.ipp:442-443: odd sets repeat their last element. *)
Definition pad_odd (l : list (list Z)) : list (list Z) :=
  if Z.odd (len l) then l ++ [back [] l] else l.
(** algorithm_merkle.ipp:431-449 merkle_root.  Each round halves the set, so
    the length bounds the rounds (out of fuel is not reached). *)
Fixpoint root_loop (fuel : nat) (l : list (list Z)) : list Z :=
  match fuel with
  | O => []
  | S f => if len l =? 1 then hd [] l else root_loop f (merkle_hash (pad_odd l))
  end.
Definition merkle_root (l : list (list Z)) : list Z :=
  if len l =? 0 then zeros 32 else root_loop (length l) l.

(** block.cpp:446-462 merkle_branch(position, leaves). *)
Fixpoint branch_loop (fuel : nat) (at_ : Z) (l : list (list Z)) : list (list Z) :=
  match fuel with
  | O => []
  | S f =>
    if len l >? 1 then
      let l' := pad_odd l in
      nth (Z.to_nat (if Z.even at_ then at_ + 1 else at_ - 1)) l' [] ::
      branch_loop f (at_ / 2) (merkle_hash l')
    else []
  end.
Definition merkle_branch (position : Z) (l : list (list Z)) : list (list Z) :=
  if position >=? len l then [] else branch_loop (length l) position l.

(** transaction.cpp:533-536 via ChainModel; transaction_cache.cpp:61-89 hash(false). *)
Definition txid (t : tx) : list Z := tx_hash D false t.
(** block.cpp:227-243 *)
Definition transaction_hashes (witness : bool) (b : block) : list (list Z) := map (tx_hash D witness) (b_txs b).
(** block.cpp:433-443 *)
Definition generate_merkle_root (witness : bool) (b : block) : list Z := merkle_root (transaction_hashes witness b).
Definition is_invalid_merkle_root (b : block) : bool :=
  negb (bytes_eq (generate_merkle_root false b) (h_merkle (b_header b))).

(** block.cpp:365-431 context free checks. *)
Definition is_empty_block (b : block) : bool := len (b_txs b) =? 0.
Definition is_oversized_block (b : block) : bool := block_size false b >? max_block_size.
Definition is_first_non_coinbase (b : block) : bool :=
  match b_txs b with [] => false | t :: _ => negb (is_coinbase t) end.
Definition is_extra_coinbases (b : block) : bool :=
  match b_txs b with [] => false | _ :: l => existsb is_coinbase l end.
(** block.cpp:398-415: txs walked in reverse, first excluded. *)
Fixpoint forward_loop (hashes : list (list Z)) (l : list tx) : bool :=
  match l with
  | [] => false
  | t :: l' =>
    if existsb (fun i => has_hash (in_hash i) hashes) (tx_inputs t) then true
    else forward_loop (txid t :: hashes) l'
  end.
Definition is_forward_reference (b : block) : bool :=
  match b_txs b with [] => false | _ :: l => forward_loop [] (rev l) end.
(** block.cpp:420-431: emplace(...).second is false for a repeated point. *)
Fixpoint points_loop (points : list point) (l : list input) : bool * list point :=
  match l with
  | [] => (false, points)
  | i :: l' => if has_point (point_of i) points then (true, points) else points_loop (point_of i :: points) l'
  end.
Fixpoint double_loop (points : list point) (l : list tx) : bool :=
  match l with
  | [] => false
  | t :: l' => let (dup, points') := points_loop points (tx_inputs t) in
               if dup then true else double_loop points' l'
  end.
Definition is_internal_double_spend (b : block) : bool :=
  match b_txs b with [] => false | _ :: l => double_loop [] l end.

(** block.cpp:583-592 static is_malleable32(set, width): depth doubles while
    depth <= width.  [fuel] bounds the doublings. *)
Fixpoint malleable32_loop (fuel : nat) (depth set width : Z) : bool :=
  match fuel with
  | O => false
  | S f =>
    if depth <=? width then
      if Z.odd set then (depth =? width) && negb (set =? 1)
      else malleable32_loop f (depth * 2) (set / 2) width
    else false
  end.
Definition is_malleable32_set (set width : Z) : bool := malleable32_loop (S (Z.to_nat width)) 1 set width.
(** block.cpp:594-609 is_malleated32(width): the last width hashes repeat. *)
Fixpoint repeats (width : nat) (mally legit : list (list Z)) : bool :=
  match width with
  | O => true
  | S w => match mally, legit with
           | m :: ms, l :: ls => bytes_eq m l && repeats w ms ls
           | _, _ => false
           end
  end.
Definition is_malleated32_width (width : Z) (hashes : list (list Z)) : bool :=
  if (width =? 0) || (width >? len hashes / 2) then false
  else repeats (Z.to_nat width) (rev hashes) (skipn (Z.to_nat width) (rev hashes)).
(** block.cpp:569-580 malleated32_size. *)
Fixpoint malleated32_loop (fuel : nat) (mally : Z) (hashes : list (list Z)) : Z :=
  match fuel with
  | O => 0
  | S f =>
    if mally <=? len hashes / 2 then
      if is_malleable32_set (len hashes - mally) mally && is_malleated32_width mally hashes then mally
      else malleated32_loop f (mally * 2) hashes
    else 0
  end.
Definition malleated32_size (b : block) : Z :=
  let hashes := transaction_hashes false b in malleated32_loop (S (length hashes)) 1 hashes.
Definition is_malleated32 (b : block) : bool := negb (malleated32_size b =? 0).
(** block.cpp:550-558 is_malleable32. *)
Fixpoint malleable_loop (fuel : nat) (mally set : Z) : bool :=
  match fuel with
  | O => false
  | S f => if mally <=? set then
             if is_malleable32_set set mally then true else malleable_loop f (mally * 2) set
           else false
  end.
Definition is_malleable32 (b : block) : bool := malleable_loop (S (length (b_txs b))) 1 (len (b_txs b)).
(** block.cpp:612-642 *)
Definition is_malleable64 (b : block) : bool :=
  nonempty (b_txs b) && forallb (fun t => tx_size false t =? 2 * 32) (b_txs b).
Definition is_malleated64 (b : block) : bool := is_first_non_coinbase b && is_malleable64 b.
(** block.cpp:538-547 *)
Definition is_malleated (b : block) : bool := is_malleated64 b || is_malleated32 b.
Definition malleated_or (ec : errc) (b : block) : errc :=
  if is_malleated b then invalid_transaction_commitment else ec.

(** transaction.cpp:608-635 and 844-857 check(): is_empty, coinbase script
    size, null previous output. *)
Definition is_empty_tx (t : tx) : bool := (len (tx_inputs t) =? 0) || (len (tx_outputs t) =? 0).
Definition is_null_non_coinbase (t : tx) : bool := existsb input_is_null (tx_inputs t).
Definition is_invalid_coinbase_size (t : tx) : bool :=
  match tx_inputs t with
  | i :: _ => let n := script_size false (in_script i) in (n <? min_coinbase_size) || (n >? max_coinbase_size)
  | [] => false
  end.
Definition tx_check (t : tx) : errc :=
  if is_empty_tx t then empty_transaction
  else if is_coinbase t && is_invalid_coinbase_size t then invalid_coinbase_script_size
  else if negb (is_coinbase t) && is_null_non_coinbase t then previous_output_null
  else success.
(** The first non-success code of a loop over transactions (block.cpp:828-850). *)
Fixpoint first_error {A} (f : A -> errc) (l : list A) : errc :=
  match l with [] => success | a :: l' => match f a with success => first_error f l' | ec => ec end end.

(** block.cpp:889-895 identify(). *)
Definition identify (b : block) : errc :=
  if is_malleated b || is_invalid_merkle_root b then invalid_transaction_commitment else success.
(** block.cpp:915-936 check(identity). *)
Definition block_check (identity : bool) (b : block) : errc :=
  if is_empty_block b then empty_block
  else if is_oversized_block b then block_size_limit
  else if is_first_non_coinbase b then malleated_or first_not_coinbase b
  else if is_extra_coinbases b then extra_coinbases
  else if is_forward_reference b then forward_reference
  else if is_internal_double_spend b then malleated_or block_internal_double_spend b
  else if identity && is_invalid_merkle_root b then invalid_transaction_commitment
  else first_error tx_check (b_txs b).

(** script_patterns.ipp:82-93 is_commitment_pattern, output.cpp:222-234
    committed_hash: the 32 bytes after the four byte head. *)
Definition witness_head : list Z := [170; 33; 169; 237].
Definition committed_hash (o : output) : option (list Z) :=
  match out_script o with
  | a :: b :: _ =>
    if (code a =? 106) && (code b =? 36) && (len (data b) >=? 4) &&
       bytes_eq (firstn 4 (data b)) witness_head
    then Some (firstn 32 (skipn 4 (data b))) else None
  | _ => None
  end.
(** block.cpp:669-680: the outputs are searched in reverse. *)
Fixpoint first_committed (l : list output) : option (list Z) :=
  match l with [] => None | o :: l' => match committed_hash o with Some h => Some h | None => first_committed l' end end.
Definition get_witness_commitment (b : block) : option (list Z) :=
  match b_txs b with [] => None | t :: _ => first_committed (rev (tx_outputs t)) end.
(** block.cpp:683-690, input.cpp:438-447, witness_patterns.ipp:43-46. *)
Definition reserved_hash (i : input) : option (list Z) :=
  match in_witness i with [e] => if len e =? 32 then Some e else None | _ => None end.
Definition get_witness_reservation (b : block) : option (list Z) :=
  match b_txs b with t :: _ => match tx_inputs t with i :: _ => reserved_hash i | [] => None end | [] => None end.
(** block.cpp:649-657 *)
Definition block_is_segregated (b : block) : bool := existsb tx_segregated (b_txs b).
(** block.cpp:696-717 *)
Definition is_invalid_witness_commitment (b : block) : bool :=
  if is_empty_block b then false
  else match get_witness_commitment b with
       | None => block_is_segregated b
       | Some commit =>
         match get_witness_reservation b with
         | None => true
         | Some reserve => negb (bytes_eq commit (D (generate_merkle_root true b ++ reserve)))
         end
       end.

(** script.cpp:49-55 is_coinbase_pattern, block.cpp:493-500.  chunk::from_integer
    is undefined only at INT64_MIN (height 2^63), simplified to false here. *)
Definition is_coinbase_pattern (ops : script) (height : Z) : bool :=
  match ops with
  | [] => false
  | o :: _ => is_nominal_push o && match chunk_from_integer (wrap i64 height) with
                                   | Some d => bytes_eq (data o) d
                                   | None => false end
  end.
Definition is_invalid_coinbase_script (height : Z) (b : block) : bool :=
  match b_txs b with
  | t :: _ => match tx_inputs t with
              | i :: _ => negb (is_coinbase_pattern (in_script i) height)
              | [] => false end
  | [] => false
  end.

(** block.cpp:506-530 is_hash_limit_exceeded: the number of distinct hashes. *)
Definition insert_hash (h : list Z) (l : list (list Z)) : list (list Z) := if has_hash h l then l else h :: l.
Definition is_hash_limit_exceeded (b : block) : bool :=
  match b_txs b with
  | [] => false
  | t :: l =>
    let hashes := fold_left (fun s t => fold_left (fun s i => insert_hash (in_hash i) s) (tx_inputs t)
                                                  (insert_hash (txid t) s)) l (insert_hash (txid t) []) in
    len hashes >? hash_limit
  end.
End Block.
