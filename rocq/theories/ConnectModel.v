(** Model of impl/machine/interpreter_connect.ipp, the constructors of
    impl/machine/program_construct.ipp, src/chain/witness_extract.cpp:113-261,
    src/chain/taproot.cpp, impl/chain/tapscript.ipp and impl/chain/annex.ipp.

    Signature capture (batching) is off (the default).  The transaction's
    signature hashing and the curve operations are the fields of [spender].
    [None] is undefined behaviour. *)
From Verif Require Import Base Bytes ShaModel AccModel KdfModel SigopSpec StreamModel NumberModel StateModel OpModel ChainModel BlockModel ValidModel PatternModel InterpEnv InterpModel SighashModel ConnectSpec.

(** The error codes of error/error_t.hpp the functions return. *)
Inductive connect_code :=
| c_success | c_missing_previous_output | c_stack_false | c_dirty_witness | c_unexpected_witness | c_invalid_script_embed
| c_dirty_embed | c_invalid_witness | c_invalid_commitment | c_unversioned_script | c_script (c : sc).

Section Connect.
Variables (checked s8 : bool) (widths : list nat).

(** tapscript.ipp:50-60 is_control, 72-120 *)
Definition is_control (c : list Z) : bool :=
  negb ((len c <? 33) || (len c >? 1 + 32 * 129)) && ((len c - 1) mod 32 =? 0).
Definition parity (c : list Z) : bool := negb (Z.land (hd 0 c) 1 =? 0).
Definition control_version (c : list Z) : Z := Z.land (hd 0 c) 254.
Definition control_key (c : list Z) : list Z := firstn 32 (skipn 1 c).
Definition key_count (c : list Z) : Z := (if len c <? 33 then 0 else len c - 33) / 32.
Definition nth_key (c : list Z) (i : nat) : list Z := firstn 32 (skipn (33 + 32 * i) c).

(** taproot.cpp:49-74 branch_hash, tweak_hash; 41-47 sorted_branch_hash; 31-39
    merkle_root; 80-90 leaf_hash; 104-115 verify_commit *)
Definition branch_hash (a b : list Z) : list Z := sha256t_sink checked s8 widths [84; 97; 112; 66; 114; 97; 110; 99; 104] [a; b].
Definition tweak_hash (key merkle : list Z) : list Z := sha256t_sink checked s8 widths [84; 97; 112; 84; 119; 101; 97; 107] [key; merkle].
Fixpoint lexicographical (a b : list Z) : bool :=
  match a, b with
  | _, [] => false
  | [], _ :: _ => true
  | x :: a', y :: b' => if x <? y then true else if y <? x then false else lexicographical a' b'
  end.
Definition sorted_branch_hash (a b : list Z) : list Z := if lexicographical a b then branch_hash a b else branch_hash b a.
Definition merkle_root (c : list Z) (leaf : list Z) : list Z :=
  fold_left (fun hash i => sorted_branch_hash hash (nth_key c i)) (seq 0 (Z.to_nat (key_count c))) leaf.
Definition leaf_hash (version : Z) (s : script) : list Z :=
  sha256t_sink checked s8 widths [84; 97; 112; 76; 101; 97; 102] [[version]; script_data s 0].
Definition verify_commit (sp : spender) (c key leaf : list Z) : bool :=
  tweaks_to sp (control_key c) (tweak_hash (control_key c) (merkle_root c leaf)) key (parity c).

(** script.cpp:438-450 script::hash (an unprefixed parse is valid) *)
Definition script_hash (s : script) : list Z := sha256_sink checked s8 widths [ops_to_data s].

(** witness_extract.cpp:113-164; the stack has its top last. *)
Definition extract_segwit (w : list (list Z)) (prevout : script) : (connect_code + (script * list (list Z))) :=
  let program := witness_program prevout in
  if len program =? 20 then
    if len w =? 2 then inr (to_pay_key_hash program, w) else inl c_invalid_witness
  else if len program =? 32 then
    match w with
    | [] => inl c_invalid_witness
    | _ => let s := to_script (last w []) in
           if bytes_eqb program (script_hash s) then inr (s, removelast w) else inl c_invalid_witness
    end
  else inl c_invalid_witness.

(** witness_extract.cpp:168-261, annex.ipp:90-101 *)
Definition is_annex_pattern (w : list (list Z)) : bool :=
  if len w <=? 1 then false else match last w [] with [] => false | x :: _ => x =? 80 end.
Definition success_script : script := [mkop 80 [] false].
Definition extract_taproot (sp : spender) (w : list (list Z)) (prevout : script) :
  (connect_code + (option (list Z) * script * list (list Z))) :=
  let program := witness_program prevout in
  if len program =? 32 then
    let stack := if is_annex_pattern w then removelast w else w in
    if len stack >? 1 then
      let control := last stack [] in
      let stack := removelast stack in
      if negb (is_control control) then inl c_invalid_witness
      else
        let tapleaf := to_script (last stack []) in
        let stack := removelast stack in
        let leaf := leaf_hash (control_version control) tapleaf in
        if negb (verify_commit sp control program leaf) then inl c_invalid_commitment
        else if control_version control =? 192 then inr (Some leaf, tapleaf, stack)
        else inr (None, success_script, [])
    else if len stack =? 1 then inr (None, [mkop 172 [] false], stack ++ [program])
    else inl c_invalid_witness
  else inr (None, success_script, []).

(** program_construct.ipp:36-137: the contexts (bip342_mask clears the bip342 bit),
    and the budget of a tapscript. *)
Definition masked (flags : Z) : Z := Z.land flags (Z.lxor (2 ^ 32 - 1) (2 ^ 16)).
Definition legacy_program (sp : spender) (s : script) : env :=
  mkenv (with_context (masked (eflags (base sp))) InterpEnv.unversioned (v1_hash sp None) (base sp)) s None.
Definition segwit_program (sp : spender) (s : script) (w : list (list Z)) : env :=
  mkenv (with_context (masked (eflags (base sp))) InterpEnv.segwit (v1_hash sp None) (base sp)) s (Some w).
Definition taproot_program (sp : spender) (leaf : option (list Z)) (s : script) (w : list (list Z)) : env :=
  mkenv (with_context (eflags (base sp)) InterpEnv.taproot (v1_hash sp leaf) (base sp)) s (Some w).
Definition initial_budget (w : list (list Z)) : Z := cadd 51 (witness_size w).

(** interpreter_connect.ipp:143-225 connect_witness *)
Definition connect_witness (sp : spender) (w : list (list Z)) (prevout : script) (embedded : bool) : option connect_code :=
  match ValidModel.script_version prevout with
  | ValidModel.segwit =>
    match extract_segwit w prevout with
    | inl c => Some c
    | inr (s, stack) =>
      do (c, final) <- run (segwit_program sp s stack) (initial (initial_witness stack) 0);
      Some match c with
           | script_success => if is_true true final then c_success else c_stack_false
           | _ => c_script c
           end
    end
  | ValidModel.taproot =>
    if negb (Z.testbit (eflags (base sp)) 15) || embedded then Some c_success
    else
    match extract_taproot sp w prevout with
    | inl c => Some c
    | inr (leaf, s, stack) =>
      do (c, final) <- run (taproot_program sp leaf s stack) (initial (initial_witness stack) (initial_budget w));
      Some match c with
           | script_success => if is_true true final then c_success else c_stack_false
           | prevalid_script => c_success
           | _ => c_script c
           end
    end
  | ValidModel.reserved => Some c_success
  | ValidModel.unversioned => Some c_unversioned_script
  end.

(** script_patterns.ipp:73-77, 520-531 *)
Definition is_nominal_push_pattern (s : script) : bool := match s with [o] => is_nominal_push o | _ => false end.
Definition is_pay_to_witness (sp : spender) (s : script) : bool := Z.testbit (eflags (base sp)) 11 && is_witness_program_pattern s.
Definition is_pay_to_script_hash (sp : spender) (s : script) : bool := Z.testbit (eflags (base sp)) 2 && is_pay_script_hash_pattern s.

(** 101-140 connect_embedded; [final] is the state the input script left. *)
Definition connect_embedded (sp : spender) (s : script) (w : list (list Z)) (final : st) : option connect_code :=
  if negb (is_relaxed_push_pattern s) then Some c_invalid_script_embed
  else
    do (d, rest) <- pop_chunk_ final;
    let embedded := to_script d in
    do (c, out) <- run (legacy_program sp embedded) (initial (prim rest) 0);
    match c with
    | script_success =>
      if negb (is_true false out) then Some c_stack_false
      else if is_pay_to_witness sp embedded then
        if negb (is_nominal_push_pattern s) then Some c_dirty_embed
        else connect_witness sp w embedded true
      else if negb (len w =? 0) then Some c_unexpected_witness
      else Some c_success
    | _ => Some (c_script c)
    end.

(** 50-98 connect; [prevout] is the input's previous output script, if set. *)
Definition connect (sp : spender) (s : script) (w : list (list Z)) (prevout : option script) : option connect_code :=
  match prevout with
  | None => Some c_missing_previous_output
  | Some p =>
    do (c, final) <- run (legacy_program sp s) (initial [] 0);
    match c with
    | script_success =>
      do (c, out) <- run (legacy_program sp p) (initial (prim final) 0);
      match c with
      | script_success =>
        if negb (is_true false out) then Some c_stack_false
        else if is_pay_to_script_hash sp p then connect_embedded sp s w final
        else if is_pay_to_witness sp p then
          if negb (len s =? 0) then Some c_dirty_witness
          else connect_witness sp w p false
        else if negb (len w =? 0) then Some c_unexpected_witness
        else Some c_success
      | _ => Some (c_script c)
      end
    | _ => Some (c_script c)
    end
  end.
End Connect.
