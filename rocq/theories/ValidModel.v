(** Model of contextual transaction and block validation: values, fees,
    subsidy, locktimes, maturity, internal prevout population and signature
    operation counts (src/chain/transaction.cpp, input.cpp, output.cpp,
    block.cpp, script_extract.cpp, witness_extract.cpp).  Script evaluation
    (connect) is in InterpModel.v. *)
From Verif Require Import Base Bytes MathModel StreamModel NumberModel StateModel OpModel ChainModel BlockModel.

(** chain/input.hpp:158-161 and chain/prevout.hpp:31-52: the mutable members of
    an input; the node's database links are dropped. *)
Record meta := mkmeta {
  prevout : option output; m_coinbase : bool; m_mtp : Z; prevout_height : Z; spender_height : Z }.
(** Default member values. *)
Definition null_meta : meta := mkmeta None true 4294967295 4294967295 4294967295.
(** A transaction and the metadata of its inputs, in order. *)
Record ptx := mkptx { p_tx : tx; p_meta : list meta }.
Fixpoint pair_meta (ins : list input) (ms : list meta) : list (input * meta) :=
  match ins, ms with
  | [], _ => []
  | i :: is, [] => (i, null_meta) :: pair_meta is []
  | i :: is, m :: ms' => (i, m) :: pair_meta is ms'
  end.
Definition pins (t : ptx) : list (input * meta) := pair_meta (tx_inputs (p_tx t)) (p_meta t).
Definition poutputs (t : ptx) : list output := tx_outputs (p_tx t).

(** ** Transactions *)
(** transaction.cpp:676-688 value, 691-702 spend, 704-710 is_overspent,
    355-360 fee. *)
Definition value (t : ptx) : Z :=
  fold_left (fun total (p : input * meta) =>
    cadd total (match prevout (snd p) with Some o => out_value o | None => 0 end)) (pins t) 0.
Definition spend (t : ptx) : Z := fold_left (fun total o => cadd total (out_value o)) (poutputs t) 0.
Definition is_overspent (t : ptx) : bool := spend t >? value t.
Definition fee (t : ptx) : Z := fsub (value t) (spend t).
(** transaction.cpp:662-673 *)
Definition is_missing_prevouts (t : ptx) : bool :=
  existsb (fun p : input * meta => match prevout (snd p) with None => true | Some _ => false end) (pins t).
(** transaction.cpp:728-747 is_coinbase_immature, is_immature (712-716). *)
Definition coinbase_maturity : Z := 100.
Definition is_coinbase_immature (coinbase_height height : Z) : bool :=
  (coinbase_height =? 0) || (height <? cadd coinbase_height coinbase_maturity).
Definition is_immature (height : Z) (t : ptx) : bool :=
  existsb (fun p : input * meta =>
    let m := snd p in
    if m_coinbase m then is_coinbase_immature (prevout_height m) height
    else height <? prevout_height m) (pins t).
(** transaction.cpp:640-660, input.cpp is_final. *)
Definition locktime_threshold : Z := 500000000.
Definition input_is_final (i : input) : bool := in_sequence i =? 4294967295.
Definition is_absolute_locked (height timestamp mtp : Z) (bip113 : bool) (t : tx) : bool :=
  let time := if bip113 then mtp else timestamp in
  let height_time := if tx_locktime t <? locktime_threshold then height else time in
  negb ((tx_locktime t =? 0) || (tx_locktime t <? height_time) || forallb input_is_final (tx_inputs t)).
(** input.cpp:397-427 is_relative_locked; the sequence, median times are
    uint32_t, heights size_t. *)
Definition is_relative_locked_seq (sequence height mtp prev_height prev_mtp : Z) : bool :=
  if get_right u32 sequence 31 then false
  else
    let blocks := bit_and u32 sequence (mask_left u32 16) in
    if get_right u32 sequence 22 then
      let time := shift_left u32 blocks 9 false in
      u32_fsub mtp prev_mtp <? time
    else fsub height prev_height <? blocks.
Definition input_relative_locked (height mtp : Z) (p : input * meta) : bool :=
  is_relative_locked_seq (in_sequence (fst p)) height mtp (prevout_height (snd p)) (m_mtp (snd p)).
(** transaction.cpp:756-787 is_internally_locked, is_relative_locked. *)
Definition is_internally_locked (t : tx) (p : input * meta) : bool :=
  if tx_version t <? 2 then false else input_relative_locked (prevout_height (snd p)) (m_mtp (snd p)) p.
Definition is_relative_locked (height mtp : Z) (t : ptx) : bool :=
  if tx_version (p_tx t) <? 2 then false else existsb (input_relative_locked height mtp) (pins t).
(** transaction.cpp:789-815 *)
Definition is_unconfirmed_spend (height : Z) (t : ptx) : bool :=
  existsb (fun p : input * meta => height <? prevout_height (snd p)) (pins t).
Definition is_confirmed_double_spend (height : Z) (t : ptx) : bool :=
  existsb (fun p : input * meta => height >? spender_height (snd p)) (pins t).
(** transaction.cpp:880-889 check(ctx), 893-906 accept, 916-934 confirm. *)
Definition tx_check_context (c : context) (t : tx) : errc :=
  if is_absolute_locked (c_height c) (c_timestamp c) (c_mtp c) (is_enabled c fl_bip113) t
  then absolute_time_locked else success.
Definition tx_accept (t : ptx) : errc :=
  if is_coinbase (p_tx t) then success
  else if is_missing_prevouts t then missing_previous_output
  else if is_overspent t then spend_exceeds_value
  else success.
Definition tx_confirm (c : context) (t : ptx) : errc :=
  if is_coinbase (p_tx t) then success
  else if is_enabled c fl_bip68 && is_relative_locked (c_height c) (c_mtp c) t then relative_time_locked
  else if is_immature (c_height c) t then coinbase_maturity_error
  else if is_unconfirmed_spend (c_height c) t then unconfirmed_spend
  else if is_confirmed_double_spend (c_height c) t then confirmed_double_spend
  else success.

(** ** Signature operations *)
(** script_extract.cpp:119-159 script::signature_operations. *)
Definition multisig_sigops (accurate : bool) (last : Z) : Z :=
  if accurate && is_positive_op last then last - 80 else 20.
Fixpoint sigops_loop (accurate : bool) (last total : Z) (ops : script) : Z :=
  match ops with
  | [] => total
  | o :: ops' =>
    let c := code o in
    let total' :=
      if (c =? 172) || (c =? 173) then cadd total 1
      else if (c =? 174) || (c =? 175) then cadd total (multisig_sigops accurate last)
      else total in
    sigops_loop accurate c total' ops'
  end.
Definition script_sigops (accurate : bool) (s : script) : Z := sigops_loop accurate 79 0 s.
(** script { data, false }: script.cpp constructor from unprefixed data. *)
Definition to_script (d : list Z) : script := fst (script_from_data false (fresh d)).
(** script_patterns.ipp:98-106 is_witness_program_pattern, 155-162
    is_pay_script_hash_pattern, 62-70 is_relaxed_push_pattern. *)
Definition is_nonnegative_op (c : Z) : bool := (c =? 0) || is_positive_op c.
Definition is_witness_program_pattern (s : script) : bool :=
  match s with
  | [a; b] => is_nonnegative_op (code a) && is_minimal_push b && (len (data b) >=? 2) && (len (data b) <=? 40)
  | _ => false
  end.
Definition is_pay_script_hash_pattern (s : script) : bool :=
  match s with [a; b; c] => (code a =? 169) && (code b =? 20) && (code c =? 135) | _ => false end.
Definition is_relaxed_push_pattern (s : script) : bool := forallb (fun o => is_relaxed_push (code o)) s.
(** script_extract.cpp:36-56 witness_program, version. *)
Inductive version := unversioned | segwit | taproot | reserved.
Definition script_version (s : script) : version :=
  if is_witness_program_pattern s then
    match s with a :: _ => if code a =? 0 then segwit else if code a =? 81 then taproot else reserved | [] => unversioned end
  else unversioned.
Definition witness_program (s : script) : list Z :=
  if is_witness_program_pattern s then match s with [_; b] => data b | _ => [] end else [].
(** witness_extract.cpp:65-105 witness::extract_sigop_script. *)
Definition witness_sigop_script (w : list (list Z)) (program : script) : option script :=
  match script_version program with
  | segwit =>
    let n := len (witness_program program) in
    if n =? 20 then Some [mkop 172 [] false]
    else if n =? 32 then Some (if len w =? 0 then [] else to_script (last w []))
    else Some []
  | taproot | reserved => Some []
  | unversioned => None
  end.
(** script_extract.cpp:161-177 script::extract_sigop_script. *)
Definition embedded_sigop_script (s prevout_script : script) : option script :=
  if negb (is_pay_script_hash_pattern prevout_script) then None
  else if (len s =? 0) || negb (is_relaxed_push_pattern s) then None
  else Some (to_script (data (last s (mkop 0 [] false)))).
(** size_t multiplication. *)
Definition umul (a b : Z) : Z := wrap u64 (a * b).
(** input.cpp:456-493 *)
Definition input_sigops (bip16 bip141 : bool) (p : input * meta) : Z :=
  let factor := if bip141 then 4 else 1 in
  let (i, m) := p in
  let sigops := umul (script_sigops false (in_script i)) factor in
  match prevout m with
  | None => sigops
  | Some o =>
    let ws := if bip141 then witness_sigop_script (in_witness i) (out_script o) else None in
    match ws with
    | Some s => cadd sigops (script_sigops true s)
    | None =>
      let es := if bip16 then embedded_sigop_script (in_script i) (out_script o) else None in
      match es with
      | None => sigops
      | Some e =>
        let ews := if bip141 then witness_sigop_script (in_witness i) e else None in
        match ews with
        | Some s => cadd sigops (script_sigops true s)
        | None => cadd sigops (umul (script_sigops true e) factor)
        end
      end
    end
  end.
(** output.cpp:236-245 *)
Definition output_sigops (bip141 : bool) (o : output) : Z :=
  umul (script_sigops false (out_script o)) (if bip141 then 4 else 1).
(** transaction.cpp:377-397 *)
Definition tx_sigops (bip16 bip141 : bool) (t : ptx) : Z :=
  cadd (fold_left (fun total p => cadd total (input_sigops bip16 bip141 p)) (pins t) 0)
       (fold_left (fun total o => cadd total (output_sigops bip141 o)) (poutputs t) 0).

(** ** Blocks: a populated block is its header and populated transactions. *)
Record pblock := mkpblock { pb_header : header; pb_txs : list ptx }.
Definition unpopulated (b : pblock) : block := mkblock (pb_header b) (map p_tx (pb_txs b)).
(** block.cpp:707-713 subsidy. *)
Definition subsidy (height interval initial : Z) (bip42 : bool) : Z :=
  shift_right u64 initial (height / interval) bip42.
(** block.cpp:718-727 fees, 730-733 claim, 736-742 reward, 744-749. *)
Definition fees (b : pblock) : Z := fold_left (fun total t => cadd total (fee t)) (pb_txs b) 0.
Definition claim (b : pblock) : Z := match pb_txs b with [] => 0 | t :: _ => spend t end.
Definition reward (height interval initial : Z) (bip42 : bool) (b : pblock) : Z :=
  cadd (fees b) (subsidy height interval initial bip42).
Definition block_overspent (height interval initial : Z) (bip42 : bool) (b : pblock) : bool :=
  claim b >? reward height interval initial bip42 b.
(** block.cpp:751-768 *)
Definition block_sigops (bip16 bip141 : bool) (b : pblock) : Z :=
  fold_left (fun total t => cadd total (tx_sigops bip16 bip141 t)) (pb_txs b) 0.
Definition max_block_sigops : Z := 20000.
Definition max_fast_sigops : Z := 80000.
Definition block_sigops_limited (bip16 bip141 : bool) (b : pblock) : bool :=
  block_sigops bip16 bip141 b >? (if bip141 then max_fast_sigops else max_block_sigops).
(** block.cpp:853-861 accept_transactions: the first is skipped; 968-984 accept. *)
Definition skip_first {A} (f : A -> errc) (l : list A) : errc := match l with [] => success | _ :: l' => first_error f l' end.
Definition block_accept (c : context) (interval initial : Z) (b : pblock) : errc :=
  if block_overspent (c_height c) interval initial (is_enabled c fl_bip42) b then coinbase_value_limit
  else if block_sigops_limited (is_enabled c fl_bip16) (is_enabled c fl_bip141) b then block_sigop_limit
  else skip_first tx_accept (pb_txs b).
(** block.cpp:991-994 confirm. *)
Definition block_confirm (c : context) (b : pblock) : errc := skip_first (tx_confirm c) (pb_txs b).

Section Populate.
Variable D : list Z -> list Z.
(** block.cpp:784-788: the outputs of all transactions by point; emplace keeps
    the first of equal keys, and so does a search from the front. *)
Fixpoint index_outputs (hash : list Z) (index : Z) (outs : list output) : list (point * output) :=
  match outs with [] => [] | o :: outs' => ((hash, index), o) :: index_outputs hash (wrap u32 (index + 1)) outs' end.
Definition tx_points (t : tx) : list (point * output) := index_outputs (txid D t) 0 (tx_outputs t).
Definition block_points (l : list ptx) : list (point * output) := concat (map (fun t => tx_points (p_tx t)) l).
Fixpoint find_point (p : point) (l : list (point * output)) : option output :=
  match l with [] => None | (q, o) :: l' => if point_eq p q then Some o else find_point p l' end.
(** block.cpp:791-809: an error leaves the loop. *)
Definition set_prevout (o : output) (m : meta) : meta :=
  mkmeta (Some o) (m_coinbase m) (m_mtp m) (prevout_height m) (spender_height m).
Fixpoint populate_inputs (self : list Z) (points : list (point * output)) (bip68 : bool) (t : tx)
  (l : list (input * meta)) : errc * list meta :=
  match l with
  | [] => (success, [])
  | (i, m) :: l' =>
    match find_point (point_of i) points with
    | None => let (ec, ms) := populate_inputs self points bip68 t l' in (ec, m :: ms)
    | Some o =>
      if bytes_eq (in_hash i) self then (coinbase_maturity_error, m :: map snd l')
      else if bip68 && is_internally_locked t (i, m) then (relative_time_locked, m :: map snd l')
      else let (ec, ms) := populate_inputs self points bip68 t l' in (ec, set_prevout o m :: ms)
    end
  end.
Fixpoint populate_txs (self : list Z) (points : list (point * output)) (bip68 : bool) (l : list ptx) : errc * list ptx :=
  match l with
  | [] => (success, [])
  | t :: l' =>
    match populate_inputs self points bip68 (p_tx t) (pins t) with
    | (success, ms) => let (ec, ts) := populate_txs self points bip68 l' in (ec, mkptx (p_tx t) ms :: ts)
    | (ec, ms) => (ec, mkptx (p_tx t) ms :: l')
    end
  end.
(** block.cpp:775-812 populate. *)
Definition populate (c : context) (b : pblock) : errc * pblock :=
  match pb_txs b with
  | [] => (success, b)
  | first :: l =>
    let (ec, ts) := populate_txs (txid D (p_tx first)) (block_points (pb_txs b)) (is_enabled c fl_bip68) l in
    (ec, mkpblock (pb_header b) (first :: ts))
  end.
(** block.cpp:945-962 check(ctx, identity). *)
Definition block_check_context (c : context) (identity : bool) (b : block) : errc :=
  let bip141 := is_enabled c fl_bip141 in
  if bip141 && block_is_overweight b then block_weight_limit
  else if is_enabled c fl_bip34 && is_invalid_coinbase_script (c_height c) b then coinbase_height_mismatch
  else if is_enabled c 24 && is_hash_limit_exceeded D b then temporary_hash_limit
  else if bip141 && identity && is_invalid_witness_commitment D b then invalid_witness_commitment
  else first_error (tx_check_context c) (b_txs b).
End Populate.
