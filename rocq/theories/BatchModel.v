(** Model of signature capture and batch verification:
    impl/machine/program_batch.ipp, chain/batch/{signatures,multisig,cursor,
    threshold}.hpp, src/chain/signatures.cpp, src/crypto/secp256k1/batch.cpp and
    the calls of impl/machine/interpreter.ipp (op_check_sig_verify,
    op_check_multisig_verify, op_check_sig_add) when a capture is passed.

    The thread's two accumulators are the record [log], threaded through the run.
    Telemetry (fire, log, faulted, batched, counters) is not modelled.  [None] is
    undefined behaviour (an array of sixteen exceeded). *)
From Verif Require Import Base Bytes MathModel ShaModel AccModel KdfModel SigopSpec StreamModel NumberModel StateModel OpModel ChainModel BlockModel ValidModel PatternModel InterpEnv InterpModel SighashModel ConnectSpec ConnectModel.

(** signatures.hpp:50-56, 128-214: a row (digest, point, signature); a group
    (digest, keys, signatures).  cursor.hpp:56-58: rows and row of an open cursor. *)
Definition row : Type := list Z * list Z * list Z.
Definition group : Type := list Z * list (list Z) * list (list Z).
Record log := mklog { l_groups : list group; l_rows : list row; l_sink : option (Z * Z) }.

(** signatures.hpp:222-242 put: false at more than max_uint16 groups; multisig.hpp:
    34-38 check is asserted. *)
Definition multisig_check (sigs keys : Z) : bool := negb (sigs =? 0) && negb (keys =? 0) && negb (keys >? 16) && negb (sigs >? keys).
Definition put_group (digest : list Z) (keys sigs : list (list Z)) (l : log) : option (bool * log) :=
  if negb (multisig_check (len sigs) (len keys)) then None
  else if len (l_groups l) >? 65535 then Some (false, l)
  else Some (true, mklog (l_groups l ++ [(digest, keys, sigs)]) (l_rows l) (l_sink l)).
(** signatures.hpp:59-63 append *)
Definition put_row (digest point sig : list Z) (l : log) : log :=
  mklog (l_groups l) (l_rows l ++ [(digest, point, sig)]) (l_sink l).

(** script_patterns.ipp:196-319 *)
Definition is_key_path_pattern (s : script) : bool := match s with [a] => code a =? 172 | _ => false end.
Definition is_tapscript_single_pattern (s : script) : bool := match s with [a; b] => (len (data a) =? 32) && (code b =? 172) | _ => false end.
Definition is_tapscript_timelock_pattern (s : script) : bool :=
  match s with
  | [a; b; c; d; e] => is_nonnegative_op (code a) && ((code b =? 177) || (code b =? 178)) && (code c =? 117) && (len (data d) =? 32) && (code e =? 172)
  | _ => false
  end.
Definition is_tapscript_inscription_pattern (s : script) : bool :=
  (len s >? 4) && (len (data (nth_op 0 s)) =? 32) && (code (nth_op 1 s) =? 172) && (code (nth_op 2 s) =? 0) && (code (nth_op 3 s) =? 99) &&
  (code (last s (mkop 0 [] false)) =? 104).
Fixpoint key_pairs (c : Z) (s : script) : bool :=
  match s with
  | [] => true
  | a :: b :: s' => (len (data a) =? 32) && (code b =? c) && key_pairs c s'
  | _ => false
  end.
Definition is_some {A} (o : option A) : bool := match o with Some _ => true | None => false end.
Definition is_threshold_code (c : Z) : bool := one_of c [156; 157; 158; 159; 160; 161; 162; 165].
Definition is_tapscript_threshold_pattern (s : script) : bool :=
  let within := code (last s (mkop 0 [] false)) =? 165 in
  let extra := if within then 1%nat else 0%nat in
  if (len s =? 0) || Bool.eqb (len s mod 2 =? 0) within || (len s <? 4 + Z.of_nat extra) then false
  else
    (len (data (nth_op 0 s)) =? 32) && (code (nth_op 1 s) =? 172) &&
    key_pairs 186 (firstn (length s - 2 - extra - 2) (skipn 2 s)) &&
    is_some (as_unsigned32 (nth_op (length s - 2 - extra) s)) &&
    (negb within || is_some (as_unsigned32 (nth_op (length s - 2) s))) &&
    is_threshold_code (code (last s (mkop 0 [] false))).
Definition is_tapscript_multisig_pattern (s : script) : bool :=
  if (len s <? 2) || negb (len s mod 2 =? 0) then false
  else key_pairs 173 (firstn (length s - 2) s) && (len (data (nth_op (length s - 2) s)) =? 32) && (code (last s (mkop 0 [] false)) =? 172).
Definition is_multisig_standard_pattern (s : script) : bool :=
  if (len s <? 4) || negb (code (last s (mkop 0 [] false)) =? 174) then false
  else
    let m_op := nth_op 0 s in let n_op := nth_op (length s - 2) s in
    if negb (is_positive_op (code m_op)) || negb (is_positive_op (code n_op)) then false
    else
      let m := code m_op - 80 in let n := code n_op - 80 in
      if (m =? 0) || (n =? 0) || (m >? n) || (n >? 16) || negb (n =? len s - 3) then false
      else forallb (fun o => is_public_key (data o)) (firstn (length s - 3) (skipn 1 s)).

(** script_extract.cpp:180-208 extract_tapscript_threshold: code, min, max; the
    sentinel op_xor is None. *)
Definition extract_threshold (s : script) : option (Z * Z * Z) :=
  if is_tapscript_multisig_pattern s then Some (172, len s / 2, len s / 2)
  else if is_tapscript_threshold_pattern s then
    match as_unsigned32 (nth_op (length s - 2) s) with
    | None => None
    | Some value =>
      let condition := code (last s (mkop 0 [] false)) in
      if negb (condition =? 165) then Some (condition, value, value)
      else match as_unsigned32 (nth_op (length s - 3) s) with Some least => Some (condition, least, value) | None => None end
    end
  else None.
(** threshold.hpp:37-76 is_satisfied *)
Definition is_satisfied (t : option (Z * Z * Z)) (expected : Z) : bool :=
  match t with
  | None => false
  | Some (c, minimum, maximum) =>
    if (c =? 172) || (c =? 156) then expected =? minimum
    else if c =? 157 then false
    else if c =? 158 then negb (expected =? minimum)
    else if c =? 159 then expected <? minimum
    else if c =? 160 then expected >? minimum
    else if c =? 161 then expected <=? minimum
    else if c =? 162 then expected >=? minimum
    else if c =? 165 then (expected >=? minimum) && (expected <? maximum)
    else false
  end.
(** stack_variant.ipp:240-265 peek_nonempty *)
Definition variant_nonempty (v : variant) : bool :=
  match v with VBool b => b | VInt i => negb (i =? 0) | VChunk c => negb (len c =? 0) end.
Definition stack_nonempty (s : st) : Z := len (filter variant_nonempty (prim s)).

Section Capture.
Variable e : env.
Variables (on spends : bool).                      (* capture_.enabled, spender_ *)
Variable compress : list Z -> option (list Z).     (* secp256k1/keys.cpp compress *)

(** program_batch.ipp:252-268 to_compressed *)
Definition to_compressed (point : list Z) : option (list Z) :=
  if len point =? 33 then Some point else if len point =? 65 then compress point else None.
(** 280-319 *)
Definition is_ecdsa_batchable : bool :=
  negb spends && (is_pay_public_key_pattern (escript e) || is_pay_key_hash_pattern (escript e)).
Definition is_multisig_batchable : bool := negb spends && is_multisig_standard_pattern (escript e).
Definition is_schnorr_batchable : bool :=
  negb spends && (is_key_path_pattern (escript e) || is_tapscript_single_pattern (escript e) ||
                  is_tapscript_timelock_pattern (escript e) || is_tapscript_inscription_pattern (escript e)).
(** 158-184 is_threshold_batchable *)
Definition is_threshold_batchable (s : st) (l : log) : bool * log :=
  if spends then (false, l)
  else match l_sink l with
  | Some _ => (true, l)
  | None =>
    let expected := 1 + stack_nonempty s in
    if is_satisfied (extract_threshold (escript e)) expected
    then (true, mklog (l_groups l) (l_rows l) (Some (expected, 0)))
    else (false, l)
  end.
(** cursor.hpp:47-57 write *)
Definition sink_write (digest point sig : list Z) (l : log) : log :=
  let l := put_row digest point sig l in
  mklog (l_groups l) (l_rows l)
    (match l_sink l with Some (rows, row) => if row + 1 =? rows then None else Some (rows, row + 1) | None => None end).

(** 38-76 verify_ecdsa_signature (capture true; a single is a 1 of 1 group) *)
Definition capture_ecdsa (key hash sig : list Z) (l : log) : option (bool * log) :=
  if on && is_ecdsa_batchable then
    match to_compressed key with
    | None => Some (verify_ecdsa (ectx e) key hash sig, l)
    | Some k =>
      do (taken, l) <- put_group hash [k] [sig] l;
      if taken : bool then Some (true, l) else Some (verify_ecdsa (ectx e) key hash sig, l)
    end
  else Some (verify_ecdsa (ectx e) key hash sig, l).
(** 118-155 verify_schnorr_signature *)
Definition capture_schnorr (key hash sig : list Z) (s : st) (l : log) : bool * log :=
  if on then
    let (thresholded, l) := is_threshold_batchable s l in
    if thresholded : bool then (true, sink_write hash key sig l)
    else if is_schnorr_batchable then (true, put_row hash key sig l)
    else (verify_schnorr (ectx e) key hash sig, l)
  else (verify_schnorr (ectx e) key hash sig, l).
(** 206-237 parse_ecdsa_signatures: the common hash type and the signatures *)
Fixpoint parse_signatures (byte : option Z) (endorsements : list (list Z)) : option (option Z * list (list Z)) :=
  match endorsements with
  | [] => Some (byte, [])
  | endorsement :: rest =>
    if len endorsement =? 0 then None
    else
      let (der, flags) := ecdsa_split endorsement in
      if match byte with Some b => negb (b =? flags) | None => false end then None
      else
        do sig <- decode_signature (ectx e) der (enabled e bip66_rule);
        do (b, sigs) <- parse_signatures (Some flags) rest;
        Some (b, sig :: sigs)
  end.
(** 239-250 compress_public_keys *)
Fixpoint compress_keys (keys : list (list Z)) : option (list (list Z)) :=
  match keys with
  | [] => Some []
  | key :: rest => do k <- to_compressed key; do ks <- compress_keys rest; Some (k :: ks)
  end.
(** 191-204 parse_ecdsa_multisig *)
Definition parse_multisig (keys endorsements : list (list Z)) (s : st) : option group :=
  do (byte, sigs) <- parse_signatures None endorsements;
  do flags <- byte;
  do ks <- compress_keys keys;
  do hash <- signature_hash e (subscript e endorsements s) flags;
  Some (hash, ks, sigs).
(** 79-116 try_batch_multisig_verification.  keys_array and sigs_array have
    sixteen elements (211, 245). *)
Definition capture_multisig (keys endorsements : list (list Z)) (s : st) (l : log) : option (bool * log) :=
  if negb on then Some (false, l)
  else if negb is_multisig_batchable then Some (false, l)
  else if (len endorsements >? 16) || (len keys >? 16) then None
  else match parse_multisig keys endorsements s with
  | None => Some (false, l)
  | Some (hash, ks, sigs) => put_group hash ks sigs l
  end.

(** interpreter.ipp:1014-1087, 987-1012 *)
Definition outcome_c : Type := option (ec * st * log).
Definition retc (c : ec) (s : st) (l : log) : outcome_c := Some (c, s, l).
Definition op_check_sig_verify_c (s : st) (l : log) : outcome_c :=
  if stack_size s <? 2 then retc e_cs_low_stack s l
  else
    do (key, s1) <- pop_chunk_ s;
    do (endorsement, s2) <- pop_chunk_ s1;
    if enabled e bip342_rule then
      if len key =? 0 then retc e_cs_empty_key s2 l
      else if len endorsement =? 0 then retc e_cs_verify1 s2 l
      else
        let charge (l : log) :=
          let (good, s3) := sigops_increment s2 in if good : bool then retc op_success s3 l else retc e_cs_budget s3 l in
        if len key =? 32 then
          match schnorr_split endorsement with
          | None => retc e_cs_schnorr1 s2 l
          | Some (sig, flags) =>
            match signature_hash e (escript e, offset s2) flags with
            | None => retc e_cs_schnorr2 s2 l
            | Some hash =>
              let (verified, l) := capture_schnorr key hash sig s2 l in
              if negb verified then retc e_cs_schnorr3 s2 l else charge l
            end
          end
        else charge l
    else if len endorsement =? 0 then retc e_cs_verify2 s2 l
    else
      let (der, flags) := ecdsa_split endorsement in
      match decode_signature (ectx e) der (enabled e bip66_rule) with
      | None => retc e_cs_decode_signature s2 l
      | Some sig =>
        match signature_hash e (subscript e [endorsement] s2) flags with
        | None => retc e_cs_verify3 s2 l
        | Some hash =>
          do (verified, l) <- capture_ecdsa key hash sig l;
          retc (if verified : bool then op_success else e_cs_verify4) s2 l
        end
      end.
Definition op_check_sig_c (s : st) (l : log) : outcome_c :=
  do (r, l) <- op_check_sig_verify_c s l;
  let (code, s1) := (r : ec * st) in
  match code with
  | e_cs_low_stack => retc code s1 l
  | _ =>
    if enabled e bip66_rule && ec_eqb code e_cs_decode_signature then retc code s1 l
    else if enabled e bip342_rule &&
            (ec_eqb code e_cs_empty_key || ec_eqb code e_cs_schnorr1 || ec_eqb code e_cs_schnorr2 ||
             ec_eqb code e_cs_schnorr3 || ec_eqb code e_cs_budget) then retc code s1 l
    else retc op_success (push_bool (succeeded code) s1) l
  end.
(** interpreter.ipp:1117-1204, 1089-1115 *)
Definition op_check_multisig_verify_c (s : st) (l : log) : outcome_c :=
  if enabled e bip342_rule then retc (op_unevaluated 175) s l
  else
    do (count, s1) <- pop_index32 s;
    match count with
    | None => retc e_cms_verify1 s1 l
    | Some n =>
      if n >? 20 then retc e_cms_verify2 s1 l
      else
        let (counted, s2) := ops_increment_keys e n s1 in
        if negb counted then retc e_cms_verify3 s2 l
        else
          do (keys, s3) <- pop_chunks n s2;
          match keys with
          | None => retc e_cms_verify4 s3 l
          | Some keys =>
            do (count, s4) <- pop_index32 s3;
            match count with
            | None => retc e_cms_verify5 s4 l
            | Some m =>
              if m >? len keys then retc e_cms_verify6 s4 l
              else
                do (endorsements, s5) <- pop_chunks m s4;
                match endorsements with
                | None => retc e_cms_verify7 s5 l
                | Some endorsements =>
                  if is_stack_empty s5 then retc e_cms_verify8 s5 l
                  else
                    do (dummy, s6) <- pop_strict_bool_ s5;
                    if dummy && enabled e bip147_rule then retc e_cms_verify9 s6 l
                    else
                      do (captured, l) <- capture_multisig keys endorsements s6 l;
                      if captured : bool then retc op_success s6 l
                      else
                        match multisig_loop e (subscript e endorsements s6) keys endorsements None with
                        | (None, c) => retc e_cms_decode_signature (set_cache c s6) l
                        | (Some [], c) => retc op_success (set_cache c s6) l
                        | (Some _, c) => retc e_cms_mismatch (set_cache c s6) l
                        end
                end
            end
          end
    end.
Definition op_check_multisig_c (s : st) (l : log) : outcome_c :=
  if enabled e bip342_rule then retc (op_unevaluated 174) s l
  else
    do (r, l) <- op_check_multisig_verify_c s l;
    let (code, s1) := (r : ec * st) in
    match code with
    | e_cms_verify1 | e_cms_verify2 | e_cms_verify3 | e_cms_verify4 | e_cms_verify5
    | e_cms_verify6 | e_cms_verify7 | e_cms_verify8 | e_cms_verify9 => retc code s1 l
    | _ => if enabled e bip66_rule && ec_eqb code e_cms_decode_signature then retc code s1 l
           else retc op_success (push_bool (succeeded code) s1) l
    end.
(** interpreter.ipp:1287-1352 *)
Definition op_check_sig_add_c (s : st) (l : log) : outcome_c :=
  if negb (enabled e bip342_rule) then retc (op_unevaluated 186) s l
  else if stack_size s <? 3 then retc e_csa1 s l
  else
    do (key, s1) <- pop_chunk_ s;
    if len key =? 0 then retc e_csa2 s1 l
    else
      do (number, s2) <- pop_signed32_ s1;
      match number with
      | None => retc e_csa3 s2 l
      | Some n =>
        do (endorsement, s3) <- pop_chunk_ s2;
        if len endorsement =? 0 then retc op_success (push_signed64 n s3) l
        else
          let charge (s4 : st) (l : log) : outcome_c :=
            let (good, s5) := sigops_increment s4 in
            if good : bool then do r <- arith i64 (n + 1); retc op_success (push_signed64 r s5) l else retc e_csa7 s5 l in
          if len key =? 32 then
            match schnorr_split endorsement with
            | None => retc e_csa4 s3 l
            | Some (sig, flags) =>
              let verify (hash : list Z) (s4 : st) : outcome_c :=
                let (verified, l) := capture_schnorr key hash sig s4 l in
                if negb verified then retc e_csa6 s4 l else charge s4 l in
              let miss :=
                match signature_hash e (escript e, offset s3) flags with
                | None => retc e_csa5 (set_cache None s3) l
                | Some hash => verify hash (set_cache (Some (flags, hash)) s3)
                end in
              match cache s3 with
              | Some (f, h) => if f =? flags then verify h s3 else miss
              | None => miss
              end
            end
          else charge s3 l
      end.
(** interpreter_run.ipp: the dispatch, the loop, and program.ipp:55-98 *)
Definition run_op_c (position : nat) (o : op) (s : st) (l : log) : outcome_c :=
  if code o =? 172 then op_check_sig_c s l
  else if code o =? 173 then op_check_sig_verify_c s l
  else if code o =? 174 then op_check_multisig_c s l
  else if code o =? 175 then op_check_multisig_verify_c s l
  else if code o =? 186 then op_check_sig_add_c s l
  else do (c, s') <- run_op e position o s; retc c s' l.
Fixpoint run_loop_c (position : nat) (ops : list op) (s : st) (l : log) : option (sc * st * log) :=
  match ops with
  | [] => Some (if is_balanced s then script_success else invalid_stack_scope, s, l)
  | o :: rest =>
    if is_oversized_op o then Some (invalid_push_data_size, s, l)
    else
      let (counted, s1) := ops_increment_op e o s in
      if negb counted then Some (invalid_operation_count, s1, l)
      else if is_conditional (code o) || is_success s1 then
        do (r, l) <- run_op_c position o s1 l;
        let (code, s2) := (r : ec * st) in
        match code with
        | op_success => if is_stack_overflow s2 then Some (invalid_stack_size, s2, l)
                        else run_loop_c (S position) rest s2 l
        | _ => Some (op_failure code, s2, l)
        end
      else run_loop_c (S position) rest s1 l
  end.
(** The cursor belongs to the program. *)
Definition run_c (s : st) (l : log) : option (sc * st * log) :=
  let l := mklog (l_groups l) (l_rows l) None in
  match initialize e s with Some c => Some (c, s, l) | None => run_loop_c 0 (escript e) s l end.
End Capture.

(** interpreter_connect.ipp:50-225 with a capture *)
Section Connect.
Variables (checked s8 : bool) (widths : list nat) (on : bool).
Variable compress : list Z -> option (list Z).
Definition connect_witness_c (sp : spender) (w : list (list Z)) (prevout : script) (embedded : bool) (l : log) : option (connect_code * log) :=
  match ValidModel.script_version prevout with
  | ValidModel.segwit =>
    match extract_segwit checked s8 widths w prevout with
    | inl c => Some (c, l)
    | inr (s, stack) =>
      do (r, l) <- run_c (segwit_program sp s stack) on false compress (initial (initial_witness stack) 0) l;
      Some (match fst r with
            | script_success => if is_true true (snd r) then c_success else c_stack_false
            | c => c_script c
            end, l)
    end
  | ValidModel.taproot =>
    if negb (Z.testbit (eflags (base sp)) 15) || embedded then Some (c_success, l)
    else
    match extract_taproot checked s8 widths sp w prevout with
    | inl c => Some (c, l)
    | inr (leaf, s, stack) =>
      do (r, l) <- run_c (taproot_program sp leaf s stack) on false compress (initial (initial_witness stack) (initial_budget w)) l;
      Some (match fst r with
            | script_success => if is_true true (snd r) then c_success else c_stack_false
            | prevalid_script => c_success
            | c => c_script c
            end, l)
    end
  | ValidModel.reserved => Some (c_success, l)
  | ValidModel.unversioned => Some (c_unversioned_script, l)
  end.
Definition connect_embedded_c (sp : spender) (s : script) (w : list (list Z)) (final : st) (l : log) : option (connect_code * log) :=
  if negb (is_relaxed_push_pattern s) then Some (c_invalid_script_embed, l)
  else
    do (d, rest) <- pop_chunk_ final;
    let embedded := to_script d in
    do (r, l) <- run_c (legacy_program sp embedded) on false compress (initial (prim rest) 0) l;
    match fst r with
    | script_success =>
      if negb (is_true false (snd r)) then Some (c_stack_false, l)
      else if is_pay_to_witness sp embedded then
        if negb (is_nominal_push_pattern s) then Some (c_dirty_embed, l)
        else connect_witness_c sp w embedded true l
      else if negb (len w =? 0) then Some (c_unexpected_witness, l)
      else Some (c_success, l)
    | c => Some (c_script c, l)
    end.
Definition connect_c (sp : spender) (s : script) (w : list (list Z)) (prevout : option script) (l : log) : option (connect_code * log) :=
  match prevout with
  | None => Some (c_missing_previous_output, l)
  | Some p =>
    do (r, l) <- run_c (legacy_program sp s) on true compress (initial [] 0) l;
    match fst r with
    | script_success =>
      do (r2, l) <- run_c (legacy_program sp p) on false compress (initial (prim (snd r)) 0) l;
      match fst r2 with
      | script_success =>
        if negb (is_true false (snd r2)) then Some (c_stack_false, l)
        else if is_pay_to_script_hash sp p then connect_embedded_c sp s w (snd r) l
        else if is_pay_to_witness sp p then
          if negb (len s =? 0) then Some (c_dirty_witness, l)
          else connect_witness_c sp w p false l
        else if negb (len w =? 0) then Some (c_unexpected_witness, l)
        else Some (c_success, l)
      | c => Some (c_script c, l)
      end
    | c => Some (c_script c, l)
    end
  end.
(** transaction.cpp:972-987 connect, block.cpp:844-854 connect_transactions: the
    inputs in order, until one fails.  An input is its spender context, script,
    witness and previous output script (parsed from bytes). *)
Definition spent_input : Type := spender * script * list (list Z) * list Z.
Fixpoint connect_inputs_c (inputs : list spent_input) (l : log) : option (connect_code * log) :=
  match inputs with
  | [] => Some (c_success, l)
  | (sp, s, w, d) :: rest =>
    do (c, l) <- connect_c sp s w (Some (to_script d)) l;
    match c with c_success => connect_inputs_c rest l | _ => Some (c, l) end
  end.
Fixpoint connect_inputs (inputs : list spent_input) : option connect_code :=
  match inputs with
  | [] => Some c_success
  | (sp, s, w, d) :: rest =>
    do c <- connect checked s8 widths sp s w (Some (to_script d));
    match c with c_success => connect_inputs rest | _ => Some c end
  end.
End Connect.

(** ** Verification of captured signatures *)
Section Verify.
Variables ve vs : list Z -> list Z -> list Z -> bool.  (* ecdsa, schnorr verify_signature: key, digest, signature *)
(** signatures.hpp:250-267 verify_group: the two iterators as the lists left *)
Fixpoint group_loop (digest : list Z) (keys sigs : list (list Z)) : list (list Z) :=
  match keys with
  | [] => sigs
  | key :: rest =>
    match sigs with
    | [] => []
    | sig :: more => if len keys >=? len sigs then group_loop digest rest (if ve key digest sig then more else sigs) else sigs
    end
  end.
Definition verify_group (g : group) : bool :=
  let '(digest, keys, sigs) := g in match group_loop digest keys sigs with [] => true | _ => false end.
Definition verify_row (r : row) : bool := let '(digest, point, sig) := r in vs point digest sig.
(** signatures.hpp:83-92, 187-199 verify (the store failure fallback) *)
Definition verify_rows (l : log) : bool := forallb verify_row (l_rows l).
Definition verify_groups (l : log) : bool := fold_left (fun success g => verify_group g && success) (l_groups l) true.

(** secp256k1_batch.hpp:56-62 correlate_t with the row's columns *)
Record ecdsa_row := mkrow { r_id : Z; r_pair : Z; r_group : Z; r_digest : list Z; r_point : list Z; r_signature : list Z }.
Definition terminal : Z := 0xffffff.
(** batch.cpp:137-165 batch_verify (not cancelled): empty when no row fails *)
Definition batch_results {A} (verify : A -> bool) (rows : list A) : list bool :=
  let results := map verify rows in if forallb (fun b => b) results then [] else results.
(** batch.cpp:185-205 meets_threshold: successes has a 16 bit mask per signature *)
Fixpoint match_key (mask : Z) (keys : Z) (fuel : nat) (key : Z) : bool * Z :=
  match fuel with
  | O => (false, key)
  | S fuel => if key <? keys then (if Z.testbit mask key then (true, key + 1) else match_key mask keys fuel (key + 1)) else (false, key)
  end.
Fixpoint threshold_loop (successes : list Z) (keys : Z) (sigs : list nat) (key : Z) : bool :=
  match sigs with
  | [] => true
  | sig :: rest =>
    let (matched, key) := match_key (nth sig successes 0) keys (Z.to_nat keys) key in
    if matched : bool then threshold_loop successes keys rest key else false
  end.
Definition meets_threshold (signatures keys : Z) (successes : list Z) : bool :=
  if signatures >? keys then false else threshold_loop successes keys (seq 0 (Z.to_nat signatures)) 0.
(** batch.cpp:245-265 one group's rows with their results *)
Definition set_success (successes : list Z) (sig : nat) (key : Z) : list Z :=
  firstn sig successes ++ [Z.lor (nth sig successes 0) (2 ^ key)] ++ skipn (S sig) successes.
Definition matrix_step (m : list Z * Z * Z) (p : ecdsa_row * bool) : list Z * Z * Z :=
  let '(successes, max_sig, max_key) := m in
  let (r, good) := p in
  let sig := r_pair r / 16 in let key := r_pair r mod 16 in
  (if good : bool then set_success successes (Z.to_nat sig) key else successes, Z.max sig max_sig, Z.max key max_key).
Definition group_success (rows : list (ecdsa_row * bool)) : bool :=
  match rows with
  | [p] => snd p
  | _ => let '(successes, max_sig, max_key) := fold_left matrix_step rows (repeat 0 16, 0, 0) in
         meets_threshold (max_sig + 1) (max_key + 1) successes
  end.
(** batch.cpp:170-175 push_fail *)
Definition push_fail (fails : list Z) (id : Z) : list Z := if id =? terminal then fails else fails ++ [id].
(** batch.cpp:209-271 get_failures: [current] is the rows since the group's start *)
Definition same_group (a b : ecdsa_row) : bool := (r_id a =? r_id b) && (r_group a =? r_group b).
Fixpoint failures_loop (rows : list (ecdsa_row * bool)) (current : list (ecdsa_row * bool)) (fails : list Z) : list Z :=
  let close := match current with
               | [] => fails
               | first :: _ => if group_success current then fails else push_fail fails (r_id (fst first))
               end in
  match rows with
  | [] => close
  | p :: rest =>
    match current with
    | first :: _ => if same_group (fst p) (fst first) then failures_loop rest (current ++ [p]) fails else failures_loop rest [p] close
    | [] => failures_loop rest [p] fails
    end
  end.
Definition ecdsa_failures (out : list bool) (rows : list ecdsa_row) : list Z :=
  match out with [] => [] | _ => nodup Z.eq_dec (failures_loop (combine rows out) [] []) end.
Definition verify_ecdsa_row (r : ecdsa_row) : bool := ve (r_point r) (r_digest r) (r_signature r).
Definition ecdsa_batch_verify (rows : list ecdsa_row) : list Z := ecdsa_failures (batch_results verify_ecdsa_row rows) rows.
(** batch.cpp:284-301 *)
Definition schnorr_failures (out : list bool) (rows : list (Z * row)) : list Z :=
  match out with
  | [] => []
  | _ => nodup Z.eq_dec (fold_left (fun fails p => if snd p : bool then fails else push_fail fails (fst (fst p))) (combine rows out) [])
  end.
Definition schnorr_batch_verify (rows : list (Z * row)) : list Z :=
  schnorr_failures (batch_results (fun p => verify_row (snd p)) rows) rows.
End Verify.
