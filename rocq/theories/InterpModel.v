(** Model of the script interpreter: machine::program, machine::interpreter and
    machine::stack (include/bitcoin/system/impl/machine/*.ipp).

    The primary stack is a list of variants, top first (container_.back() is the
    head); the alternate and condition stacks likewise.  [None] results model
    undefined behaviour: any access outside a container, an assertion of the
    source that fails, or signed overflow.  Pointers to chunks (chunk_xptr and
    the tether that owns computed chunks) are modelled by the bytes they refer
    to.  Signature batching (program_batch.ipp) is only active with a capture
    callback; without one try_batch_multisig_verification returns false and the
    ecdsa/schnorr calls verify directly, which is what is modelled. *)
From Verif Require Import Base Bytes MathModel NumberModel OpModel InterpEnv.

(** error/op_error_t.hpp (codes returned by the handlers). *)
Inductive ec :=
| op_success | op_invalid | op_reserved | op_not_implemented
| e_push_size | e_push_one_size | e_push_two_size | e_push_four_size
| e_if1 | e_if2 | e_notif1 | e_notif2 | e_else | e_endif | e_verify1 | e_verify2
| e_to_alt_stack | e_from_alt_stack | e_drop2 | e_dup2 | e_dup3 | e_over2 | e_rot2 | e_swap2
| e_if_dup | e_drop | e_dup | e_nip | e_over | e_pick | e_roll | e_rot | e_swap | e_tuck
| e_size | e_equal | e_equal_verify1 | e_equal_verify2
| e_unary | e_binary | e_num_equal_verify1 | e_num_equal_verify2 | e_within | e_hash
| e_cs_low_stack | e_cs_decode_signature | e_cs_empty_key | e_cs_schnorr1 | e_cs_schnorr2 | e_cs_schnorr3
| e_cs_budget | e_cs_verify1 | e_cs_verify2 | e_cs_verify3 | e_cs_verify4
| e_cms_verify1 | e_cms_verify2 | e_cms_verify3 | e_cms_verify4 | e_cms_verify5 | e_cms_verify6
| e_cms_verify7 | e_cms_verify8 | e_cms_verify9 | e_cms_decode_signature | e_cms_mismatch
| e_cltv1 | e_cltv2 | e_cltv3 | e_cltv4 | e_csv1 | e_csv2 | e_csv3 | e_csv4 | e_csv5
| e_csa1 | e_csa2 | e_csa3 | e_csa4 | e_csa5 | e_csa6 | e_csa7.
Definition ec_eqb (a b : ec) : bool.
Proof. refine (if _ : {a = b} + {a <> b} then true else false). decide equality. Defined.
Definition succeeded (e : ec) : bool := ec_eqb e op_success.

(** Result of a whole run (error/script_error_t.hpp). *)
Inductive sc :=
| script_success | prevalid_script | invalid_script | invalid_stack_size | invalid_witness_stack
| invalid_script_size | prefail_script | invalid_push_data_size | invalid_operation_count
| invalid_stack_scope | op_failure (e : ec).

(** The running program: its context, the parsed script and, for segwit programs,
    the initial witness stack (program.hpp script_, witness_). *)
Record env := mkenv { ectx :> ctx; escript : list op; ewitness : option (list (list Z)) }.

(** program.hpp members: primary_, alternate_, condition_, negative_conditions_,
    operations_, budget_, script_->offset (as an index) and multisig_. *)
Record st := mkst {
  prim : list variant; alt : list variant; cond : list bool; neg : Z;
  operations : Z; budget : Z; offset : nat; cache : option (Z * list Z)
}.
Definition set_prim (p : list variant) (s : st) := mkst p (alt s) (cond s) (neg s) (operations s) (budget s) (offset s) (cache s).
Definition set_alt (a : list variant) (s : st) := mkst (prim s) a (cond s) (neg s) (operations s) (budget s) (offset s) (cache s).
Definition set_cond (c : list bool) (n : Z) (s : st) := mkst (prim s) (alt s) c n (operations s) (budget s) (offset s) (cache s).
Definition set_operations (n : Z) (s : st) := mkst (prim s) (alt s) (cond s) (neg s) n (budget s) (offset s) (cache s).
Definition set_budget (n : Z) (s : st) := mkst (prim s) (alt s) (cond s) (neg s) (operations s) n (offset s) (cache s).
Definition set_offset (n : nat) (s : st) := mkst (prim s) (alt s) (cond s) (neg s) (operations s) (budget s) n None.
Definition set_cache (c : option (Z * list Z)) (s : st) := mkst (prim s) (alt s) (cond s) (neg s) (operations s) (budget s) (offset s) c.

Notation outcome := (option (ec * st)).
Definition ret (e : ec) (s : st) : outcome := Some (e, s).

(** stack.ipp:46-73 top, pop, drop; 142-187 erase, swap, peek. *)
Definition top (s : st) : option variant := hd_error (prim s).
Definition drop_ (s : st) : option st :=
  match prim s with [] => None | _ :: r => Some (set_prim r s) end.
Definition pop_ (s : st) : option (variant * st) :=
  match prim s with [] => None | v :: r => Some (v, set_prim r s) end.
Definition peek_ (i : nat) (s : st) : option variant := nth_error (prim s) i.
Definition erase_ (i : nat) (s : st) : option st :=
  if (i <? length (prim s))%nat then Some (set_prim (firstn i (prim s) ++ skipn (S i) (prim s)) s) else None.
Definition set_nth {A} (i : nat) (a : A) (l : list A) : list A := firstn i l ++ a :: skipn (S i) l.
Definition swap_ (i j : nat) (s : st) : option st :=
  do a <- nth_error (prim s) i;
  do b <- nth_error (prim s) j;
  Some (set_prim (set_nth j a (set_nth i b (prim s))) s).
Definition push_variant (v : variant) (s : st) : st := set_prim (v :: prim s) s.
Definition push_bool (b : bool) := push_variant (VBool b).
Definition push_signed64 (i : Z) := push_variant (VInt i).
Definition push_chunk (c : list Z) := push_variant (VChunk c).
(** program.ipp:207-216 push_length (asserts value <= max_int64). *)
Definition push_length (n : Z) (s : st) : option st :=
  if n <=? imax i64 then Some (push_signed64 n s) else None.
Definition stack_size (s : st) : Z := len (prim s).
Definition is_stack_empty (s : st) : bool := match prim s with [] => true | _ => false end.

(** program.ipp:221-360 the typed pops. *)
Definition pop_chunk_ (s : st) : option (list Z * st) :=
  do v <- top s; do c <- variant_chunk v; do s' <- drop_ s; Some (c, s').
Fixpoint pop_n (n : nat) (s : st) : option (list (list Z) * st) :=
  match n with
  | O => Some ([], s)
  | S m => do (c, s1) <- pop_chunk_ s; do (l, s2) <- pop_n m s1; Some (c :: l, s2)
  end.
Definition pop_chunks (count : Z) (s : st) : option (option (list (list Z)) * st) :=
  if stack_size s <? count then Some (None, s)
  else do (l, s') <- pop_n (Z.to_nat count) s; Some (Some l, s').
Definition pop_strict_bool_ (s : st) : option (bool * st) :=
  do v <- top s; do s' <- drop_ s; Some (variant_strict_bool v, s').
Definition pop_bool_ (minimal : bool) (s : st) : option (option bool * st) :=
  do v <- top s;
  if negb minimal then do s' <- drop_ s; Some (Some (variant_bool v), s')
  else let (good, value) := variant_minimal_bool v in
       if negb good then Some (None, s) else do s' <- drop_ s; Some (Some value, s').
Definition peek_bool_ (s : st) : option bool := do v <- top s; Some (variant_bool v).
Definition pop_signed32_ (s : st) : option (option Z * st) :=
  do v <- top s; do (good, value) <- variant_signed 4 v; do s' <- drop_ s;
  Some (if good : bool then Some value else None, s').
Definition pop_signed32 (s : st) : option (option Z * st) :=
  if is_stack_empty s then Some (None, s) else pop_signed32_ s.
Definition pop_binary32 (s : st) : option (option (Z * Z) * st) :=
  if stack_size s <? 2 then Some (None, s)
  else
    do (rr, s1) <- pop_signed32_ s;
    match rr with
    | None => Some (None, s1)
    | Some r => do (ll, s2) <- pop_signed32_ s1;
                Some (match ll with None => None | Some l => Some (l, r) end, s2)
    end.
Definition pop_ternary32 (s : st) : option (option (Z * Z * Z) * st) :=
  if stack_size s <? 3 then Some (None, s)
  else
    do (upper, s1) <- pop_signed32_ s;
    match upper with
    | None => Some (None, s1)
    | Some u => do (lower, s2) <- pop_signed32_ s1;
      match lower with
      | None => Some (None, s2)
      | Some l => do (value, s3) <- pop_signed32_ s2;
                  Some (match value with None => None | Some v => Some (u, l, v) end, s3)
      end
    end.
Definition pop_index32 (s : st) : option (option Z * st) :=
  do (value, s1) <- pop_signed32 s;
  Some (match value with
        | None => None
        | Some v => if v <? 0 then None else if v <? stack_size s1 then Some v else None
        end, s1).
(** program.ipp:347-401 peek_unsigned32 and peek_unsigned40. *)
Definition peek_unsigned40 (s : st) : option (option Z) :=
  if is_stack_empty s then Some None
  else do v <- top s; do (good, value) <- variant_signed 5 v;
       Some (if negb good || (value <? 0) then None else Some value).
Definition peek_unsigned32 (s : st) : option (option Z) :=
  do v <- peek_unsigned40 s; Some (omap (wrap u32) v).

(** program.ipp:497-577 alternate and condition stacks. *)
Definition begin_if (value : bool) (s : st) : st :=
  set_cond (value :: cond s) (neg s + (if value then 0 else 1)) s.
Definition else_if_ (s : st) : option st :=
  match cond s with [] => None
  | b :: r => Some (set_cond (negb b :: r) (neg s + (if b then 1 else -1)) s) end.
Definition end_if_ (s : st) : option st :=
  match cond s with [] => None
  | b :: r => Some (set_cond r (neg s + (if b then 0 else -1)) s) end.
Definition is_balanced (s : st) : bool := match cond s with [] => true | _ => false end.
Definition is_success (s : st) : bool := neg s =? 0.
(** program.ipp:472-481 is_stack_overflow. *)
Definition is_stack_overflow (s : st) : bool := len (prim s) + len (alt s) >? 1000.

Section Program.
Variable e : env.
Definition enabled (bit : Z) : bool := Z.testbit (eflags e) bit.

(** program.ipp:609-659 sigops_increment, ops_increment (both overloads). *)
Definition sigops_increment (s : st) : bool * st :=
  let b := match floored_subtract u64 (budget s) 50 with Some b => b | None => 0 end in
  (negb (b =? 0), set_budget b s).
Definition ops_increment_op (o : op) (s : st) : bool * st :=
  if enabled bip342_rule then (true, s)
  else let s' := if is_counted (code o) then set_operations (operations s + 1) s else s in
       (operations s' <=? 201, s').
Definition ops_increment_keys (keys : Z) (s : st) : bool * st :=
  if enabled bip342_rule then (true, s)
  else (negb (operations s + keys >? 201), set_operations (operations s + keys) s).

(** interpreter.ipp:37-57 op_unevaluated, op_nop. *)
Definition op_unevaluated (c : Z) : ec := if is_invalid_op c then op_invalid else op_reserved.
Definition ruled (rule c : Z) : ec := if enabled rule then op_unevaluated c else op_not_implemented.
Definition op_nop (s : st) : outcome := ret op_success s.
(** interpreter.ipp:59-110 pushes. *)
Definition op_push_number (n : Z) (s : st) : outcome := ret op_success (push_signed64 n s).
Definition op_push (err : ec) (o : op) (s : st) : outcome :=
  if is_underclaimed o then ret err s else ret op_success (push_chunk (data o) s).
(** interpreter.ipp:129-207 conditionals. *)
Definition op_if (s : st) : outcome :=
  if is_success s then
    if is_stack_empty s then ret e_if1 s
    else do (value, s1) <- pop_bool_ (enabled bip342_rule) s;
         match value with None => ret e_if2 s1 | Some v => ret op_success (begin_if v s1) end
  else ret op_success (begin_if false s).
Definition op_notif (s : st) : outcome :=
  if is_success s then
    if is_stack_empty s then ret e_notif1 s
    else do (value, s1) <- pop_bool_ (enabled bip342_rule) s;
         match value with None => ret e_notif2 s1 | Some v => ret op_success (begin_if (negb v) s1) end
  else ret op_success (begin_if (negb false) s).
Definition op_else (s : st) : outcome :=
  if is_balanced s then ret e_else s else do s1 <- else_if_ s; ret op_success s1.
Definition op_endif (s : st) : outcome :=
  if is_balanced s then ret e_endif s else do s1 <- end_if_ s; ret op_success s1.
(** interpreter.ipp:209-255 verify, alternate stack. *)
Definition op_verify (s : st) : outcome :=
  if is_stack_empty s then ret e_verify1 s
  else do b <- peek_bool_ s; if negb b then ret e_verify2 s else do s1 <- drop_ s; ret op_success s1.
Definition op_to_alt_stack (s : st) : outcome :=
  if is_stack_empty s then ret e_to_alt_stack s
  else do (v, s1) <- pop_ s; ret op_success (set_alt (v :: alt s1) s1).
Definition op_from_alt_stack (s : st) : outcome :=
  match alt s with
  | [] => ret e_from_alt_stack s
  | v :: r => ret op_success (push_variant v (set_alt r s))
  end.
(** interpreter.ipp:257-494 stack manipulation. *)
Definition dup_at (i : nat) (s : st) : option st := do v <- peek_ i s; Some (push_variant v s).
Definition op_drop2 (s : st) : outcome :=
  if stack_size s <? 2 then ret e_drop2 s else do s1 <- drop_ s; do s2 <- drop_ s1; ret op_success s2.
Definition op_dup2 (s : st) : outcome :=
  if stack_size s <? 2 then ret e_dup2 s else do s1 <- dup_at 1 s; do s2 <- dup_at 1 s1; ret op_success s2.
Definition op_dup3 (s : st) : outcome :=
  if stack_size s <? 3 then ret e_dup3 s
  else do s1 <- dup_at 2 s; do s2 <- dup_at 2 s1; do s3 <- dup_at 2 s2; ret op_success s3.
Definition op_over2 (s : st) : outcome :=
  if stack_size s <? 4 then ret e_over2 s else do s1 <- dup_at 3 s; do s2 <- dup_at 3 s1; ret op_success s2.
Definition op_rot2 (s : st) : outcome :=
  if stack_size s <? 6 then ret e_rot2 s
  else do s1 <- swap_ 0 4 s; do s2 <- swap_ 1 5 s1; do s3 <- swap_ 2 4 s2; do s4 <- swap_ 3 5 s3; ret op_success s4.
Definition op_swap2 (s : st) : outcome :=
  if stack_size s <? 4 then ret e_swap2 s
  else do s1 <- swap_ 1 3 s; do s2 <- swap_ 0 2 s1; ret op_success s2.
Definition op_if_dup (s : st) : outcome :=
  if is_stack_empty s then ret e_if_dup s
  else do b <- peek_bool_ s; if b : bool then do v <- top s; ret op_success (push_variant v s) else ret op_success s.
Definition op_depth (s : st) : outcome := do s1 <- push_length (stack_size s) s; ret op_success s1.
Definition op_drop (s : st) : outcome :=
  if is_stack_empty s then ret e_drop s else do s1 <- drop_ s; ret op_success s1.
Definition op_dup (s : st) : outcome :=
  if is_stack_empty s then ret e_dup s else do v <- top s; ret op_success (push_variant v s).
Definition op_nip (s : st) : outcome :=
  if stack_size s <? 2 then ret e_nip s else do s1 <- swap_ 0 1 s; do s2 <- drop_ s1; ret op_success s2.
Definition op_over (s : st) : outcome :=
  if stack_size s <? 2 then ret e_over s else do s1 <- dup_at 1 s; ret op_success s1.
Definition op_pick (s : st) : outcome :=
  do (index, s1) <- pop_index32 s;
  match index with None => ret e_pick s1 | Some i => do s2 <- dup_at (Z.to_nat i) s1; ret op_success s2 end.
Definition op_roll (s : st) : outcome :=
  do (index, s1) <- pop_index32 s;
  match index with
  | None => ret e_roll s1
  | Some i => do v <- peek_ (Z.to_nat i) s1; do s2 <- erase_ (Z.to_nat i) s1; ret op_success (push_variant v s2)
  end.
Definition op_rot (s : st) : outcome :=
  if stack_size s <? 3 then ret e_rot s else do s1 <- swap_ 1 2 s; do s2 <- swap_ 0 1 s1; ret op_success s2.
Definition op_swap (s : st) : outcome :=
  if stack_size s <? 2 then ret e_swap s else do s1 <- swap_ 0 1 s; ret op_success s1.
Definition op_tuck (s : st) : outcome :=
  if stack_size s <? 2 then ret e_tuck s else do s1 <- swap_ 0 1 s; do s2 <- dup_at 1 s1; ret op_success s2.
(** interpreter.ipp:535-545 size; 586-607 equality. *)
Definition op_size_ (s : st) : outcome :=
  if is_stack_empty s then ret e_size s
  else do v <- top s; do n <- variant_size v; do s1 <- push_length n s; ret op_success s1.
Definition op_equal (s : st) : outcome :=
  if stack_size s <? 2 then ret e_equal s
  else do (a, s1) <- pop_ s; do (b, s2) <- pop_ s1; do r <- equal_chunks a b; ret op_success (push_bool r s2).
Definition op_equal_verify (s : st) : outcome :=
  if stack_size s <? 2 then ret e_equal_verify1 s
  else do (a, s1) <- pop_ s; do (b, s2) <- pop_ s1; do r <- equal_chunks a b;
       ret (if r : bool then op_success else e_equal_verify2) s2.
(** interpreter.ipp:609-702 unary, 703-925 binary and ternary arithmetic. *)
Inductive unary := UAdd1 | USub1 | UNegate | UAbs | UNot | UNonzero.
Definition op_unary (u : unary) (s : st) : outcome :=
  do (number, s1) <- pop_signed32 s;
  match number with
  | None => ret e_unary s1
  | Some n =>
    match u with
    | UAdd1 => do r <- arith i64 (n + 1); ret op_success (push_signed64 r s1)
    | USub1 => do r <- arith i64 (n - 1); ret op_success (push_signed64 r s1)
    | UNegate => do r <- arith i64 (- n); ret op_success (push_signed64 r s1)
    | UAbs => do r <- arith i64 (if n <? 0 then - n else n); ret op_success (push_signed64 r s1)
    | UNot => ret op_success (push_bool (n =? 0) s1)
    | UNonzero => ret op_success (push_bool (negb (n =? 0)) s1)
    end
  end.
Inductive binary := BAdd | BSub | BAnd | BOr | BEq | BNe | BLt | BGt | BLe | BGe | BMin | BMax.
Definition op_binary (b : binary) (s : st) : outcome :=
  do (operands, s1) <- pop_binary32 s;
  match operands with
  | None => ret e_binary s1
  | Some (l, r) =>
    match b with
    | BAdd => do v <- arith i64 (l + r); ret op_success (push_signed64 v s1)
    | BSub => do v <- arith i64 (l - r); ret op_success (push_signed64 v s1)
    | BAnd => ret op_success (push_bool (negb (l =? 0) && negb (r =? 0)) s1)
    | BOr => ret op_success (push_bool (negb (l =? 0) || negb (r =? 0)) s1)
    | BEq => ret op_success (push_bool (l =? r) s1)
    | BNe => ret op_success (push_bool (negb (l =? r)) s1)
    | BLt => ret op_success (push_bool (l <? r) s1)
    | BGt => ret op_success (push_bool (l >? r) s1)
    | BLe => ret op_success (push_bool (negb (l >? r)) s1)
    | BGe => ret op_success (push_bool (negb (l <? r)) s1)
    | BMin => ret op_success (push_signed64 (if l <? r then l else r) s1)
    | BMax => ret op_success (push_signed64 (if l >? r then l else r) s1)
    end
  end.
Definition op_num_equal_verify (s : st) : outcome :=
  do (operands, s1) <- pop_binary32 s;
  match operands with
  | None => ret e_num_equal_verify1 s1
  | Some (l, r) => ret (if l =? r then op_success else e_num_equal_verify2) s1
  end.
Definition op_within (s : st) : outcome :=
  do (operands, s1) <- pop_ternary32 s;
  match operands with
  | None => ret e_within s1
  | Some (u, l, v) => ret op_success (push_bool (negb (v <? l) && (v <? u)) s1)
  end.
(** interpreter.ipp:927-976 hashes. *)
Definition op_hash (h : list Z -> list Z) (s : st) : outcome :=
  if is_stack_empty s then ret e_hash s
  else do (c, s1) <- pop_chunk_ s; ret op_success (push_chunk (h c) s1).
(** interpreter.ipp:978-985, program_verify.ipp:125-137 set_subscript. *)
Definition op_codeseparator (position : nat) (s : st) : outcome := ret op_success (set_offset (S position) s).

(** ** Signatures. *)
(** chain/stripper.hpp:37-71, program_verify.ipp:139-206, collection.ipp:213-256:
    the subscript object, as its operations and its offset. *)
Definition strip_eq (o : op) (strip : Z * list Z) : bool := (code o =? fst strip) && bytes_eqb (data o) (snd strip).
Definition strips (endorsements : list (list Z)) : list (Z * list Z) :=
  map (fun d => (nominal_opcode_from_data d, d)) endorsements ++ [(171, [])].
Definition contains (strip : list (Z * list Z)) (o : op) : bool := existsb (strip_eq o) strip.
Definition subscript (endorsements : list (list Z)) (s : st) : list op * nat :=
  if enabled bip143_rule && match eversion e with segwit => true | _ => false end
  then (escript e, offset s)
  else
    let strip := strips endorsements in
    let sub := skipn (offset s) (escript e) in
    if negb (existsb (contains strip) sub) then (escript e, offset s)
    else (filter (fun o => negb (contains strip o)) sub, O).

(** transaction_sighash_v1.cpp:46-55 subscript_v1; transaction.cpp:493-528
    signature_hash (script::to_data writes the operations from the offset). *)
Definition subscript_v1 (sub : list op * nat) : Z :=
  match fst sub, snd sub with [], _ => 4294967295 | _, O => 4294967295 | _, S n => wrap u32 (Z.of_nat n) end.
Definition signature_hash (sub : list op * nat) (flags : Z) : option (list Z) :=
  let script_bytes := ops_to_data (skipn (snd sub) (fst sub)) in
  if enabled bip143_rule && match eversion e with segwit => true | _ => false end
  then Some (sighash_v0 e script_bytes flags)
  else if enabled bip342_rule && match eversion e with taproot => true | _ => false end
  then sighash_v1 e (subscript_v1 sub) flags
  else Some (sighash_unversioned e script_bytes flags).

(** program_verify.ipp:39-122 schnorr_split (None: invalid flags; otherwise the
    signature bytes and flags), ecdsa_split. *)
Definition is_schnorr_sighash (f : Z) : bool := one_of f [1; 2; 3; 129; 130; 131].
Definition schnorr_split (endorsement : list Z) : option (list Z * Z) :=
  if len endorsement =? 64 then Some (firstn 64 endorsement, 0)
  else if len endorsement =? 65 then
    let byte := last endorsement 0 in
    if is_schnorr_sighash byte then Some (firstn 64 endorsement, byte) else None
  else None.
Definition ecdsa_split (endorsement : list Z) : list Z * Z := (removelast endorsement, last endorsement 0).

(** interpreter.ipp:1014-1087 op_check_sig_verify; 987-1012 op_check_sig. *)
Definition op_check_sig_verify (s : st) : outcome :=
  if stack_size s <? 2 then ret e_cs_low_stack s
  else
    do (key, s1) <- pop_chunk_ s;
    do (endorsement, s2) <- pop_chunk_ s1;
    if enabled bip342_rule then
      if len key =? 0 then ret e_cs_empty_key s2
      else if len endorsement =? 0 then ret e_cs_verify1 s2
      else
        let charge :=
          let (good, s3) := sigops_increment s2 in if good : bool then ret op_success s3 else ret e_cs_budget s3 in
        if len key =? 32 then
          match schnorr_split endorsement with
          | None => ret e_cs_schnorr1 s2
          | Some (sig, flags) =>
            match signature_hash (escript e, offset s2) flags with
            | None => ret e_cs_schnorr2 s2
            | Some hash => if negb (verify_schnorr e key hash sig) then ret e_cs_schnorr3 s2 else charge
            end
          end
        else charge
    else if len endorsement =? 0 then ret e_cs_verify2 s2
    else
      let (der, flags) := ecdsa_split endorsement in
      match decode_signature e der (enabled bip66_rule) with
      | None => ret e_cs_decode_signature s2
      | Some sig =>
        match signature_hash (subscript [endorsement] s2) flags with
        | None => ret e_cs_verify3 s2
        | Some hash => ret (if verify_ecdsa e key hash sig then op_success else e_cs_verify4) s2
        end
      end.
Definition op_check_sig (s : st) : outcome :=
  do (code, s1) <- op_check_sig_verify s;
  match code with
  | e_cs_low_stack => ret code s1
  | _ =>
    if enabled bip66_rule && ec_eqb code e_cs_decode_signature then ret code s1
    else if enabled bip342_rule &&
            (ec_eqb code e_cs_empty_key || ec_eqb code e_cs_schnorr1 || ec_eqb code e_cs_schnorr2 ||
             ec_eqb code e_cs_schnorr3 || ec_eqb code e_cs_budget) then ret code s1
    else ret op_success (push_bool (succeeded code) s1)
  end.

(** interpreter.ipp:1165-1204 the key/endorsement matching loop with the
    signature hash cache (program_verify.ipp:240-283). *)
Definition cached_hash (sub : list op * nat) (flags : Z) (c : option (Z * list Z)) : list Z * option (Z * list Z) :=
  match c with
  | Some (f, h) => if f =? flags then (h, c) else
      let h' := match signature_hash sub flags with Some x => x | None => [] end in (h', Some (flags, h'))
  | None => let h' := match signature_hash sub flags with Some x => x | None => [] end in (h', Some (flags, h'))
  end.
Fixpoint multisig_loop (sub : list op * nat) (keys endorsements : list (list Z)) (c : option (Z * list Z)) :
  option (list (list Z)) * option (Z * list Z) :=
  match keys with
  | [] => (Some endorsements, c)
  | key :: keys' =>
    match endorsements with
    | [] => (Some [], c)
    | endorsement :: rest =>
      match endorsement with
      | [] => multisig_loop sub keys' endorsements c
      | _ =>
        let (der, flags) := ecdsa_split endorsement in
        match decode_signature e der (enabled bip66_rule) with
        | None => (None, c)
        | Some sig =>
          let (hash, c') := cached_hash sub flags c in
          multisig_loop sub keys' (if verify_ecdsa e key hash sig then rest else endorsements) c'
        end
      end
    end
  end.
(** interpreter.ipp:1117-1204 op_check_multisig_verify; 1089-1115 op_check_multisig. *)
Definition op_check_multisig_verify (s : st) : outcome :=
  if enabled bip342_rule then ret (op_unevaluated 175) s
  else
    do (count, s1) <- pop_index32 s;
    match count with
    | None => ret e_cms_verify1 s1
    | Some n =>
      if n >? 20 then ret e_cms_verify2 s1
      else
        let (counted, s2) := ops_increment_keys n s1 in
        if negb counted then ret e_cms_verify3 s2
        else
          do (keys, s3) <- pop_chunks n s2;
          match keys with
          | None => ret e_cms_verify4 s3
          | Some keys =>
            do (count, s4) <- pop_index32 s3;
            match count with
            | None => ret e_cms_verify5 s4
            | Some m =>
              if m >? len keys then ret e_cms_verify6 s4
              else
                do (endorsements, s5) <- pop_chunks m s4;
                match endorsements with
                | None => ret e_cms_verify7 s5
                | Some endorsements =>
                  if is_stack_empty s5 then ret e_cms_verify8 s5
                  else
                    do (dummy, s6) <- pop_strict_bool_ s5;
                    if dummy && enabled bip147_rule then ret e_cms_verify9 s6
                    else
                      match multisig_loop (subscript endorsements s6) keys endorsements None with
                      | (None, c) => ret e_cms_decode_signature (set_cache c s6)
                      | (Some [], c) => ret op_success (set_cache c s6)
                      | (Some _, c) => ret e_cms_mismatch (set_cache c s6)
                      end
                end
            end
          end
    end.
Definition op_check_multisig (s : st) : outcome :=
  if enabled bip342_rule then ret (op_unevaluated 174) s
  else
    do (code, s1) <- op_check_multisig_verify s;
    match code with
    | e_cms_verify1 | e_cms_verify2 | e_cms_verify3 | e_cms_verify4 | e_cms_verify5
    | e_cms_verify6 | e_cms_verify7 | e_cms_verify8 | e_cms_verify9 => ret code s1
    | _ => if enabled bip66_rule && ec_eqb code e_cms_decode_signature then ret code s1
           else ret op_success (push_bool (succeeded code) s1)
    end.

(** interpreter.ipp:1206-1240 op_check_locktime_verify. *)
Definition op_check_locktime_verify (s : st) : outcome :=
  if negb (enabled bip65_rule) then op_nop s
  else if e_sequence e =? 4294967295 then ret e_cltv1 s
  else
    do v <- peek_unsigned40 s;
    match v with
    | None => ret e_cltv2 s
    | Some locktime =>
      if negb (Bool.eqb (locktime <? 500000000) (e_locktime e <? 500000000)) then ret e_cltv3 s
      else if locktime >? e_locktime e then ret e_cltv4 s
      else ret op_success s
    end.
(** interpreter.ipp:1242-1286 op_check_sequence_verify. *)
Definition op_check_sequence_verify (s : st) : outcome :=
  if negb (enabled bip112_rule) then op_nop s
  else
    do v <- peek_unsigned32 s;
    match v with
    | None => ret e_csv1 s
    | Some sequence =>
      if get_right u32 sequence 31 then op_nop s
      else if e_txversion e <? 2 then ret e_csv2 s
      else if get_right u32 (e_sequence e) 31 then ret e_csv3 s
      else if negb (Bool.eqb (get_right u32 sequence 22) (get_right u32 (e_sequence e) 22)) then ret e_csv4 s
      else if bit_and u32 sequence (mask_left u32 16) >? bit_and u32 (e_sequence e) (mask_left u32 16) then ret e_csv5 s
      else ret op_success s
    end.
(** interpreter.ipp:1287-1352 op_check_sig_add. *)
Definition op_check_sig_add (s : st) : outcome :=
  if negb (enabled bip342_rule) then ret (op_unevaluated 186) s
  else if stack_size s <? 3 then ret e_csa1 s
  else
    do (key, s1) <- pop_chunk_ s;
    if len key =? 0 then ret e_csa2 s1
    else
      do (number, s2) <- pop_signed32_ s1;
      match number with
      | None => ret e_csa3 s2
      | Some n =>
        do (endorsement, s3) <- pop_chunk_ s2;
        if len endorsement =? 0 then ret op_success (push_signed64 n s3)
        else
          let charge (s4 : st) : outcome :=
            let (good, s5) := sigops_increment s4 in
            if good : bool then do r <- arith i64 (n + 1); ret op_success (push_signed64 r s5) else ret e_csa7 s5 in
          if len key =? 32 then
            match schnorr_split endorsement with
            | None => ret e_csa4 s3
            | Some (sig, flags) =>
              let verify (hash : list Z) (s4 : st) : outcome :=
                if negb (verify_schnorr e key hash sig) then ret e_csa6 s4 else charge s4 in
              let miss :=
                match signature_hash (escript e, offset s3) flags with
                | None => ret e_csa5 (set_cache None s3)
                | Some hash => verify hash (set_cache (Some (flags, hash)) s3)
                end in
              match cache s3 with
              | Some (f, h) => if f =? flags then verify h s3 else miss
              | None => miss
              end
            end
          else charge s3
      end.

(** interpreter_run.ipp:78-379 run_op.  [position] is the index of the operation
    in the script (the op_iterator). *)
Definition unary_table : list (Z * unary) :=
  [(139, UAdd1); (140, USub1); (143, UNegate); (144, UAbs); (145, UNot); (146, UNonzero)].
Definition binary_table : list (Z * binary) :=
  [(147, BAdd); (148, BSub); (154, BAnd); (155, BOr); (156, BEq); (158, BNe); (159, BLt); (160, BGt);
   (161, BLe); (162, BGe); (163, BMin); (164, BMax)].
Definition hash_table : list (Z * (list Z -> list Z)) :=
  [(166, h_ripemd160 e); (167, h_sha1 e); (168, h_sha256 e); (169, h_hash160 e); (170, h_hash256 e)].
Definition simple_table : list (Z * (st -> outcome)) :=
  [(97, op_nop); (99, op_if); (100, op_notif); (103, op_else); (104, op_endif); (105, op_verify);
   (107, op_to_alt_stack); (108, op_from_alt_stack); (109, op_drop2); (110, op_dup2); (111, op_dup3);
   (112, op_over2); (113, op_rot2); (114, op_swap2); (115, op_if_dup); (116, op_depth); (117, op_drop);
   (118, op_dup); (119, op_nip); (120, op_over); (121, op_pick); (122, op_roll); (123, op_rot);
   (124, op_swap); (125, op_tuck); (130, op_size_); (135, op_equal); (136, op_equal_verify);
   (157, op_num_equal_verify); (165, op_within); (172, op_check_sig); (173, op_check_sig_verify);
   (174, op_check_multisig); (175, op_check_multisig_verify); (176, op_nop);
   (177, op_check_locktime_verify); (178, op_check_sequence_verify); (179, op_nop); (180, op_nop);
   (181, op_nop); (182, op_nop); (183, op_nop); (184, op_nop); (185, op_nop); (186, op_check_sig_add)].
Fixpoint lookup {A} (c : Z) (t : list (Z * A)) : option A :=
  match t with [] => None | (k, a) :: r => if k =? c then Some a else lookup c r end.
Definition run_op (position : nat) (o : op) (s : st) : outcome :=
  let c := code o in
  if c =? 0 then op_push_number 0 s
  else if (1 <=? c) && (c <=? 75) then op_push e_push_size o s
  else if c =? 76 then op_push e_push_one_size o s
  else if c =? 77 then op_push e_push_two_size o s
  else if c =? 78 then op_push e_push_four_size o s
  else if c =? 79 then op_push_number (-1) s
  else if (81 <=? c) && (c <=? 96) then op_push_number (c - 80) s
  else if one_of c [98; 101; 102; 106] then ret (ruled nops_rule c) s
  else if one_of c [126; 127; 128; 129; 131; 132; 133; 134; 141; 142; 149; 150; 151; 152; 153]
  then ret (ruled cats_rule c) s
  else if c =? 171 then op_codeseparator position s
  else match lookup c simple_table with
  | Some f => f s
  | None => match lookup c unary_table with
    | Some u => op_unary u s
    | None => match lookup c binary_table with
      | Some b => op_binary b s
      | None => match lookup c hash_table with
        | Some h => op_hash h s
        | None => ret (op_unevaluated c) s
        end end end end.

(** program.ipp:55-98 initialize; None when the run should proceed. *)
Definition initialize (s : st) : option sc :=
  if enabled bip342_rule && is_prevalid (escript e) then Some prevalid_script
  else if is_underflow (escript e) then Some invalid_script
  else if enabled bip342_rule && is_stack_overflow s then Some invalid_stack_size
  else if (enabled bip342_rule || enabled bip141_rule) &&
          match ewitness e with Some w => existsb (fun d => len d >? 520) w | None => false end
  then Some invalid_witness_stack
  else if negb (enabled bip342_rule) && is_oversized (escript e) then Some invalid_script_size
  else if is_prefail (escript e) then Some prefail_script
  else None.

(** interpreter_run.ipp:38-72 run. *)
Fixpoint run_loop (position : nat) (ops : list op) (s : st) : option (sc * st) :=
  match ops with
  | [] => Some (if is_balanced s then script_success else invalid_stack_scope, s)
  | o :: rest =>
    if is_oversized_op o then Some (invalid_push_data_size, s)
    else
      let (counted, s1) := ops_increment_op o s in
      if negb counted then Some (invalid_operation_count, s1)
      else if is_conditional (code o) || is_success s1 then
        do (code, s2) <- run_op position o s1;
        match code with
        | op_success => if is_stack_overflow s2 then Some (invalid_stack_size, s2)
                        else run_loop (S position) rest s2
        | _ => Some (op_failure code, s2)
        end
      else run_loop (S position) rest s1
  end.
Definition run (s : st) : option (sc * st) :=
  match initialize s with Some c => Some (c, s) | None => run_loop 0 (escript e) s end.
(** program_construct.ipp:36-137: initial states.  The legacy and p2sh programs
    start from a given stack; the segwit programs from the witness (top last). *)
Definition initial (stack : list variant) (b : Z) : st := mkst stack [] [] 0 0 b 0 None.
Definition initial_witness (w : list (list Z)) : list variant := map VChunk (rev w).
(** program.ipp:35-41 is_true. *)
Definition is_true (clean : bool) (s : st) : bool :=
  (negb clean || (stack_size s =? 1)) && negb (is_stack_empty s) &&
  match top s with Some v => variant_bool v | None => false end.
End Program.
