(** Model of src/hash/siphash.cpp, src/filter/golomb.cpp and src/wallet/neutrino.cpp. *)
From Verif Require Import Base Bytes MathModel StreamModel BitStreamModel OpModel ChainModel BlockModel ValidModel.

(** ** SipHash *)
Definition add64 (a b : Z) : Z := wrap u64 (a + b).
Definition sipstate := (Z * Z * Z * Z)%type.
(** siphash.cpp:44-63 sip_round *)
Definition sip_round (v : sipstate) : sipstate :=
  let '(v0, v1, v2, v3) := v in
  let v0 := add64 v0 v1 in
  let v2 := add64 v2 v3 in
  let v1 := rotate_left u64 v1 13 in
  let v3 := rotate_left u64 v3 16 in
  let v1 := bit_xor u64 v1 v0 in
  let v3 := bit_xor u64 v3 v2 in
  let v0 := rotate_left u64 v0 32 in
  let v2 := add64 v2 v1 in
  let v0 := add64 v0 v3 in
  let v1 := rotate_left u64 v1 17 in
  let v3 := rotate_left u64 v3 21 in
  let v1 := bit_xor u64 v1 v2 in
  let v3 := bit_xor u64 v3 v0 in
  let v2 := rotate_left u64 v2 32 in
  (v0, v1, v2, v3).
(** 66-73 compression_round *)
Definition compression_round (v : sipstate) (word : Z) : sipstate :=
  let '(v0, v1, v2, v3) := v in
  let '(v0, v1, v2, v3) := sip_round (sip_round (v0, v1, v2, bit_xor u64 v3 word)) in
  (bit_xor u64 v0 word, v1, v2, v3).
(** 88-94: whole words, then the zero padded remainder with the length. *)
Fixpoint sip_words (n : nat) (m : list Z) (v : sipstate) : sipstate * list Z :=
  match n with
  | O => (v, m)
  | S n' => sip_words n' (skipn 8 m) (compression_round v (le_value (firstn 8 m)))
  end.
(** 76-106 siphash *)
Definition siphash (key : Z * Z) (m : list Z) : Z :=
  let (k0, k1) := key in
  let v := (bit_xor u64 8317987319222330741 k0, bit_xor u64 7237128888997146477 k1,
            bit_xor u64 7816392313619706465 k0, bit_xor u64 8387220255154660723 k1) in
  let (v, r) := sip_words (Z.to_nat (len m / 8)) m v in
  let last := bit_xor u64 (le_value r) (shift_left u64 (len m mod 256) 56 true) in
  let '(v0, v1, v2, v3) := compression_round v last in
  let '(v0, v1, v2, v3) := sip_round (sip_round (sip_round (sip_round (v0, v1, bit_xor u64 v2 255, v3)))) in
  bit_xor u64 (bit_xor u64 (bit_xor u64 v0 v1) v2) v3.
(** siphash.hpp:41-47 to_siphash_key *)
Definition to_siphash_key (half_hash : list Z) : Z * Z :=
  (le_value (firstn 8 half_hash), le_value (firstn 8 (skipn 8 half_hash))).

(** ** Golomb coded sets *)
(** golomb.cpp:171-180 encode *)
Fixpoint write_ones (n : nat) (w : bwr) : bwr := match n with O => w | S n' => write_ones n' (write_bit true w) end.
Definition encode (value exponent : Z) (w : bwr) : bwr :=
  let quotient := shift_right u64 value exponent true in
  write_bits value exponent (write_bit false (write_ones (Z.to_nat quotient) w)).
(** golomb.cpp:182-190 decode.  The loop ends at the end of the stream, where
    read_bit returns the pad (false): fuel for every remaining bit. *)
Fixpoint read_ones (fuel : nat) (quotient : Z) (b : brd) : Z * brd :=
  match fuel with
  | O => (quotient, b)
  | S f => let (v, b') := read_bit b in if v then read_ones f (add64 quotient 1) b' else (quotient, b')
  end.
Definition remaining_bits (b : brd) : nat := (8 * length (rest (bbase b)) + 9)%nat.
Definition decode (exponent : Z) (b : brd) : Z * brd :=
  let (quotient, b1) := read_ones (remaining_bits b) 0 b in
  let (remainder, b2) := read_bits exponent b1 in
  (add64 (shift_left u64 quotient exponent true) remainder, b2).

Section Golomb.
Variable key : Z * Z.
(** golomb.cpp:192-198 hash_to_range (128 bit product). *)
Definition hash_to_range (item : list Z) (bound : Z) : Z := wrap u64 (Z.shiftr (siphash key item * bound) 64).
(** std::sort of integers: the sorted permutation. *)
Fixpoint insert (x : Z) (l : list Z) : list Z := match l with [] => [x] | y :: l' => if x <=? y then x :: l else y :: insert x l' end.
Definition sort (l : list Z) : list Z := fold_right insert [] l.
(** golomb.cpp:200-219 hashed_set_construct *)
Definition hashed_set_construct (items : list (list Z)) (set_size rate : Z) : list Z :=
  if is_multiply_overflow u64 rate set_size then []
  else let bound := wrap u64 (rate * set_size) in sort (map (fun i => hash_to_range i bound) items).
(** golomb.cpp:38-51 construct *)
Fixpoint construct_loop (set : list Z) (previous exponent : Z) (w : bwr) : bwr :=
  match set with [] => w | value :: set' => construct_loop set' value exponent (encode (wrap u64 (value - previous)) exponent w) end.
Definition construct_into (w : bwr) (items : list (list Z)) (exponent rate : Z) : bwr :=
  construct_loop (hashed_set_construct items (len items) rate) 0 exponent w.
(** golomb.cpp:53-64 *)
Definition construct (items : list (list Z)) (exponent rate : Z) : list Z :=
  bout (bit_flush (construct_into bit_writer items exponent rate)).
(** golomb.cpp:78-101 match_single *)
Fixpoint single_loop (n : nat) (range previous exponent : Z) (b : brd) : bool :=
  match n with
  | O => false
  | S n' =>
    let (delta, b') := decode exponent b in
    let value := add64 previous delta in
    if value =? range then true else if value >? range then false else single_loop n' range value exponent b'
  end.
Definition match_single_reader (b : brd) (target : list Z) (set_size exponent rate : Z) : bool :=
  single_loop (Z.to_nat set_size) (hash_to_range target (wrap u64 (rate * set_size))) 0 exponent b.
Definition match_single (compressed target : list Z) (set_size exponent rate : Z) : bool :=
  match_single_reader (bit_reader (fresh compressed)) target set_size exponent rate.
(** golomb.cpp:126-157 match_stack.  The iterator is the suffix it points at;
    the inner loop assigns value = *(it++). *)
Fixpoint stack_inner (range value : Z) (it : list Z) : bool * list Z :=
  match it with
  | [] => (false, [])
  | x :: it' => if value =? range then (true, it) else if value >? range then (false, it) else stack_inner range x it'
  end.
Fixpoint stack_loop (n : nat) (range exponent : Z) (it : list Z) (b : brd) : bool :=
  match n with
  | O => false
  | S n' =>
    match it with
    | [] => false
    | x :: _ =>
      let (delta, b') := decode exponent b in
      let range := add64 range delta in
      match stack_inner range x it with
      | (true, _) => true
      | (false, it') => stack_loop n' range exponent it' b'
      end
    end
  end.
Definition match_stack_reader (b : brd) (targets : list (list Z)) (set_size exponent rate : Z) : bool :=
  if len targets =? 0 then false
  else stack_loop (Z.to_nat set_size) 0 exponent (hashed_set_construct targets set_size rate) b.
Definition match_stack (compressed : list Z) (targets : list (list Z)) (set_size exponent rate : Z) : bool :=
  match_stack_reader (bit_reader (fresh compressed)) targets set_size exponent rate.
End Golomb.

(** ** Block filters *)
(** neutrino.cpp:34-36 *)
Definition golomb_bits : Z := 19.
Definition golomb_rate : Z := 784931.
(** script_patterns.ipp:127-131 *)
Definition is_pay_op_return_pattern (s : script) : bool := match s with o :: _ => code o =? 106 | [] => false end.
(** neutrino.cpp:42-70: the scripts of the filter, none if a previous output is
    not populated; distinct leaves one of each (its order is not observable). *)
Definition non_empty (s : script) : bool := match s with [] => false | _ => true end.
Fixpoint prevout_scripts (l : list (input * meta)) : option (list (list Z)) :=
  match l with
  | [] => Some []
  | (_, m) :: l' =>
    match prevout m, prevout_scripts l' with
    | Some o, Some r => Some (if non_empty (out_script o) then script_to_data false (out_script o) :: r else r)
    | _, _ => None
    end
  end.
Definition output_scripts (l : list output) : list (list Z) :=
  map (fun o => script_to_data false (out_script o))
    (filter (fun o => non_empty (out_script o) && negb (is_pay_op_return_pattern (out_script o))) l).
Fixpoint filter_scripts (l : list ptx) : option (list (list Z)) :=
  match l with
  | [] => Some []
  | t :: l' =>
    match (if is_coinbase (p_tx t) then Some [] else prevout_scripts (pins t)), filter_scripts l' with
    | Some i, Some r => Some (i ++ output_scripts (poutputs t) ++ r)
    | _, _ => None
    end
  end.
(** byte_writer write_variable and byte_reader.ipp:203-225 read_variable on the
    bit streamers' bytes. *)
Definition bit_write_variable (v : Z) (w : bwr) : bwr := bit_write_bytes (write_variable v) w.
Definition bit_invalidate (b : brd) : brd := mkbrd (mkrd (past (bbase b)) (rest (bbase b)) false (lim (bbase b))) (bbyte b) (boff b).
Definition bit_read_variable (b : brd) : Z * brd :=
  let (d, b1) := bit_read_bytes 1 b in
  let size := hd 0 d in
  let wide n least := let (d, b2) := bit_read_bytes n b1 in
    if least <=? le_value d then (le_value d, b2) else (0, bit_invalidate b2) in
  if size =? 255 then wide 8%nat 4294967296
  else if size =? 254 then wide 4%nat 65536
  else if size =? 253 then wide 2%nat 253
  else (size, b1).
(** neutrino.cpp:38-82 compute_filter; the block hash is a parameter. *)
Definition filter_key (hash : list Z) : Z * Z := to_siphash_key (firstn 16 hash).
Definition compute_filter (hash : list Z) (txs : list ptx) : option (list Z) :=
  match filter_scripts txs with
  | None => None
  | Some l =>
    let scripts := nodup (list_eq_dec Z.eq_dec) l in
    Some (bout (bit_flush (construct_into (filter_key hash) (bit_write_variable (len scripts) bit_writer) scripts golomb_bits golomb_rate)))
  end.
(** neutrino.cpp:99-119 match_filter (script), 121-155 (scripts). *)
Definition match_filter (hash filter : list Z) (s : script) : bool :=
  if negb (non_empty s) then false
  else
    let (set_size, b) := bit_read_variable (bit_reader (fresh filter)) in
    if negb (bit_valid b) then false
    else match_single_reader (filter_key hash) b (script_to_data false s) set_size golomb_bits golomb_rate.
Definition match_filters (hash filter : list Z) (l : list script) : bool :=
  let stack := map (script_to_data false) (List.filter non_empty l) in
  if (len l =? 0) || (len stack =? 0) then false
  else
    let (set_size, b) := bit_read_variable (bit_reader (fresh filter)) in
    if negb (bit_valid b) then false
    else match_stack_reader (filter_key hash) b stack set_size golomb_bits golomb_rate.
(** SipHash-2-4 reference vector: key 00..0f, message 00..0e. *)
Example sip_vector : siphash (to_siphash_key (map Z.of_nat (seq 0 16))) (map Z.of_nat (seq 0 15)) = 11613035633349379557. Proof. vm_compute. reflexivity. Qed.
