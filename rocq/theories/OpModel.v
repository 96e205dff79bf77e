(** Model of chain::operation and of the script (de)serializer:
    src/chain/operation.cpp, include/bitcoin/system/impl/chain/operation_patterns.ipp,
    src/chain/script.cpp.  Opcodes are their byte values.  An operation's data
    pointer is modelled by the bytes it holds (null and empty are
    indistinguishable through get_data(), operation.cpp:83-92). *)
From Verif Require Import Base Bytes MathModel StreamModel.

Record op := mkop { code : Z; data : list Z; underflow : bool }.

(** chain/enums/opcode.hpp *)
Definition push_size_75 : Z := 75.
Definition push_one_size : Z := 76.
Definition push_two_size : Z := 77.
Definition push_four_size : Z := 78.
Definition op_verif : Z := 101.
(** operation.cpp:54 *)
Definition any_invalid : Z := op_verif.
(** chain/enums/magic_numbers.hpp:37-90 *)
Definition max_push_data_size : Z := 520.
Definition max_script_size : Z := 10000.
Definition max_bytes : Z := 4000000.

(** operation_patterns.ipp:51-69 opcode_to_maximum_size. *)
Definition opcode_to_maximum_size (c : Z) : Z :=
  if c =? push_one_size then 255 else if c =? push_two_size then 65535
  else if c =? push_four_size then 4294967295
  else if c <=? push_size_75 then c else 0.
(** operation_patterns.ipp:71-90 opcode_from_size. *)
Definition opcode_from_size (size : Z) : Z :=
  if size <=? push_size_75 then size else if size <=? 255 then push_one_size
  else if size <=? 65535 then push_two_size else push_four_size.
(** operation_patterns.ipp:110-134 minimal_opcode_from_data, 136-142 nominal. *)
Definition minimal_opcode_from_data (d : list Z) : Z :=
  match d with
  | [value] => if value =? 129 then 79
               else if value =? 0 then 0
               else if (1 <=? value) && (value <=? 16) then wrap u8 (value + 80)
               else opcode_from_size 1
  | _ => opcode_from_size (len d)
  end.
Definition nominal_opcode_from_data (d : list Z) : Z := opcode_from_size (len d).
(** operation_patterns.ipp:147-330 opcode categories. *)
Definition is_relaxed_push (c : Z) : bool := c <=? 96.
Definition is_push (c : Z) : bool := is_relaxed_push c && negb (c =? 80).
Definition is_payload (c : Z) : bool := (1 <=? c) && (c <=? 78).
Definition is_positive_op (c : Z) : bool := (81 <=? c) && (c <=? 96).
Definition is_counted (c : Z) : bool := 97 <=? c.
Definition one_of (c : Z) (l : list Z) : bool := existsb (Z.eqb c) l.
Definition is_success_op (c : Z) : bool :=
  one_of c [80; 98; 126; 127; 128; 129; 131; 132; 133; 134; 137; 138; 141; 142; 149; 150; 151; 152; 153]
  || (187 <=? c) && (c <=? 254).
Definition is_invalid_op (c : Z) : bool :=
  one_of c [101; 102; 126; 127; 128; 129; 131; 132; 133; 134; 141; 142; 149; 150; 151; 152; 153].
Definition is_conditional (c : Z) : bool := one_of c [99; 100; 103; 104].
Definition is_reserved_op (c : Z) : bool := one_of c [98; 106; 80; 137; 138] || (186 <=? c).
(** operation_patterns.ipp:499-525 per-operation predicates. *)
Definition is_minimal_push (o : op) : bool := code o =? minimal_opcode_from_data (data o).
Definition is_nominal_push (o : op) : bool := code o =? nominal_opcode_from_data (data o).
Definition is_underclaimed (o : op) : bool := len (data o) >? opcode_to_maximum_size (code o).
Definition is_oversized_op (o : op) : bool := len (data o) >? max_push_data_size.

(** operation.cpp:244-256 from_push_data. *)
Definition from_push_data (d : list Z) (minimal : bool) : op :=
  let c := if minimal then minimal_opcode_from_data d else nominal_opcode_from_data d in
  mkop c (if is_payload c then d else []) false.

(** operation.cpp:590-609 read_data_size. *)
Definition read_data_size (c : Z) (s : rd) : Z * rd :=
  if c =? push_one_size then read_byte s
  else if c =? push_two_size then read_le 2 s
  else if c =? push_four_size then read_le 4 s
  else ((if c <=? push_size_75 then c else 0), s).

(** operation.cpp:189-240 from_data. *)
Definition default_op : op := mkop any_invalid [66] false.
Definition op_from_data (s : rd) : op * rd :=
  if negb (good s) then (default_op, s)
  else
    let start := position s in
    let (c, s1) := read_byte s in
    let (size, s2) := read_data_size c s1 in
    let s3 := if size >? max_bytes then invalid s2 else s2 in
    let (push, s4) := if good s3 then read_bytes size s3 else ([], s3) in
    if negb (good s4) then
      let (all, s5) := read_all (set_position start s4) in
      (mkop any_invalid all true, s5)
    else (mkop c push false, s4).

(** operation.cpp:275-307 to_data. *)
Definition op_to_data (o : op) : list Z :=
  if underflow o then data o
  else code o ::
    (if code o =? push_one_size then write_le 1 (wrap u8 (len (data o)))
     else if code o =? push_two_size then write_le 2 (wrap u16 (len (data o)))
     else if code o =? push_four_size then write_le 4 (wrap u32 (len (data o)))
     else []) ++ data o.
(** operation.cpp:552-573 serialized_size. *)
Definition op_size (o : op) : Z :=
  if underflow o then len (data o)
  else if code o =? push_one_size then 1 + 1 + len (data o)
  else if code o =? push_two_size then 1 + 2 + len (data o)
  else if code o =? push_four_size then 1 + 4 + len (data o)
  else 1 + len (data o).
(** operation.cpp:164-169 operator==. *)
Definition bytes_eq (a b : list Z) : bool := if list_eq_dec Z.eq_dec a b then true else false.
Definition op_eqb (a b : op) : bool :=
  (code a =? code b) && bytes_eq (data a) (data b) && Bool.eqb (underflow a) (underflow b).

(** operation.cpp:580-588 count_op; script.cpp:190-204 op_count.  The count only
    reserves memory; the reader state it leaves is what matters. *)
Definition count_op (s : rd) : bool * rd :=
  if exhausted s then (false, s)
  else let (c, s1) := read_byte s in
       let (size, s2) := read_data_size c s1 in (true, do_skip size s2).
Fixpoint count_ops (fuel : nat) (s : rd) : rd :=
  match fuel with
  | O => s
  | S f => match count_op s with (true, s') => count_ops f s' | (false, s') => s' end
  end.
Definition op_count (s : rd) : rd :=
  if negb (good s) then s
  else let start := position s in set_position start (count_ops (S (length (rest s))) s).

(** script.cpp:255-291 from_data.  The loop is bounded by the source: every
    operation consumes at least one byte of a source that is not exhausted. *)
Fixpoint read_ops (fuel : nat) (s : rd) : list op * rd :=
  match fuel with
  | O => ([], s)
  | S f => if exhausted s then ([], s)
           else let (o, s1) := op_from_data s in
                let (os, s2) := read_ops f s1 in (o :: os, s2)
  end.
Definition script := list op.
Definition script_from_data (prefix : bool) (s : rd) : script * rd :=
  let (expected, s1) := if prefix then
      let (e, s') := read_size max_size_t s in (e, set_limit e s') else (0, s) in
  let s2 := op_count s1 in
  let start := position s2 in
  let (ops, s3) := read_ops (S (length (rest s2))) s2 in
  let size := wrap u64 (position s3 - start) in
  if prefix then
    let s4 := set_limit max_size_t s3 in
    (ops, if negb (size =? expected) then invalid s4 else s4)
  else (ops, s3).

(** script.cpp:440-471: serialized size, and 343-353 to_data with offset zero.
    The offset (code separator) variant is [skipn offset ops]. *)
Definition ops_size (ops : script) : Z := fold_left (fun n o => n + op_size o) ops 0.
Definition ops_to_data (ops : script) : list Z := concat (map op_to_data ops).
Definition script_size (prefix : bool) (ops : script) : Z :=
  if prefix then match ceilinged_add u64 (ops_size ops) (variable_size (ops_size ops)) with
                 | Some r => r | None => 0 end
  else ops_size ops.
Definition script_to_data (prefix : bool) (ops : script) : list Z :=
  (if prefix then write_variable (script_size false ops) else []) ++ ops_to_data ops.

(** script.cpp:206-253, 385-421: properties computed at construction. *)
Definition is_prevalid (ops : script) : bool := existsb (fun o => is_success_op (code o)) ops.
Definition is_prefail (ops : script) : bool := existsb (fun o => is_invalid_op (code o)) ops.
Definition is_underflow (ops : script) : bool :=
  is_prefail ops && match rev ops with o :: _ => underflow o | [] => false end.
Definition is_oversized (ops : script) : bool := script_size false ops >? max_script_size.
