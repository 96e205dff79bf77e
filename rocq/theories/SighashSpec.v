(** Specification of the three signature hashes: the original algorithm (the
    SignatureHash function of the reference client: a modified copy of the
    transaction is serialized with the hash type), BIP143 and BIP341/BIP342.
    Written over plain values; independent of the model. *)
From Verif Require Import Base Bytes ChainModel ChainSpec ShaSpec KdfSpec.

Definition dSHA256 (m : list Z) : list Z := SHA256 (SHA256 m).
Definition zero_hash : list Z := repeat 0 32.
(** The number one as a 256 bit little-endian integer. *)
Definition uint256_one : list Z := 1 :: repeat 0 31.

(** Hash type byte: the low five bits select, the top bit is ANYONECANPAY. *)
Definition selects (type which : Z) : bool := type mod 32 =? which.
Definition NONE : Z := 2.
Definition SINGLE : Z := 3.
Definition anyone_can_pay (type : Z) : bool := 128 <=? type.

(** ** Original algorithm *)
Record tin := mktin { t_point : list Z; t_script : list Z; t_sequence : Z }.
Record tout := mktout { t_value : Z; t_pubkey : list Z }.
Definition point_bytes (i : input) : list Z := in_hash i ++ u32_bytes (in_index i).
Definition tin_bytes (i : tin) : list Z := t_point i ++ var_bytes (t_script i) ++ u32_bytes (t_sequence i).
Definition tout_bytes (o : tout) : list Z := u64_bytes (t_value o) ++ var_bytes (t_pubkey o).
Definition plain_input (i : input) : tin := mktin (point_bytes i) [] (in_sequence i).
Definition plain_output (o : output) : tout := mktout (out_value o) (script_bytes (out_script o)).
(** CTxOut::SetNull: value -1, empty script. *)
Definition null_tout : tout := mktout (2 ^ 64 - 1) [].

(** Element [n] kept, the others changed by [f]. *)
Definition others {A} (n : nat) (f : A -> A) (l : list A) : list A :=
  map f (firstn n l) ++ firstn 1 (skipn n l) ++ map f (skipn (S n) l).
Definition sign_inputs (t : tx) (n : nat) (code : list Z) (type : Z) : list tin :=
  let ins := map plain_input (tx_inputs t) in
  let ins := firstn n ins ++ map (fun i => mktin (t_point i) code (t_sequence i)) (firstn 1 (skipn n ins)) ++ skipn (S n) ins in
  let ins := if selects type NONE || selects type SINGLE then others n (fun i => mktin (t_point i) (t_script i) 0) ins else ins in
  if anyone_can_pay type then firstn 1 (skipn n ins) else ins.
Definition sign_outputs (t : tx) (n : nat) (type : Z) : list tout :=
  let outs := map plain_output (tx_outputs t) in
  if selects type NONE then []
  else if selects type SINGLE then map (fun _ => null_tout) (firstn n outs) ++ firstn 1 (skipn n outs)
  else outs.
Definition legacy_message (t : tx) (n : nat) (code : list Z) (type : Z) : list Z :=
  u32_bytes (tx_version t) ++ counted tin_bytes (sign_inputs t n code type) ++ counted tout_bytes (sign_outputs t n type) ++
  u32_bytes (tx_locktime t) ++ u32_bytes type.
Definition legacy_sighash (t : tx) (n : nat) (code : list Z) (type : Z) : list Z :=
  if selects type SINGLE && (len (tx_outputs t) <=? Z.of_nat n) then uint256_one
  else dSHA256 (legacy_message t n code type).

(** ** BIP143 *)
Definition all_points (t : tx) : list Z := flat_map point_bytes (tx_inputs t).
Definition all_sequences (t : tx) : list Z := flat_map (fun i => u32_bytes (in_sequence i)) (tx_inputs t).
Definition all_outputs (t : tx) : list Z := flat_map wire_output (tx_outputs t).
Definition hashPrevouts (t : tx) (type : Z) : list Z := if anyone_can_pay type then zero_hash else dSHA256 (all_points t).
Definition hashSequence (t : tx) (type : Z) : list Z :=
  if anyone_can_pay type || selects type SINGLE || selects type NONE then zero_hash else dSHA256 (all_sequences t).
Definition hashOutputs (t : tx) (n : nat) (type : Z) : list Z :=
  if negb (selects type SINGLE) && negb (selects type NONE) then dSHA256 (all_outputs t)
  else match nth_error (tx_outputs t) n with
       | Some o => if selects type SINGLE then dSHA256 (wire_output o) else zero_hash
       | None => zero_hash
       end.
Definition v0_message (t : tx) (n : nat) (i : input) (code : list Z) (amount type : Z) : list Z :=
  u32_bytes (tx_version t) ++ hashPrevouts t type ++ hashSequence t type ++
  point_bytes i ++ var_bytes code ++ u64_bytes amount ++ u32_bytes (in_sequence i) ++
  hashOutputs t n type ++ u32_bytes (tx_locktime t) ++ u32_bytes type.
Definition v0_sighash (t : tx) (n : nat) (code : list Z) (amount type : Z) : option (list Z) :=
  option_map (fun i => dSHA256 (v0_message t n i code amount type)) (nth_error (tx_inputs t) n).

(** ** BIP341, with the extension of BIP342 *)
Definition v1_type (type : Z) : Prop := In type [0; 1; 2; 3; 129; 130; 131].
(** The annex: the last of at least two witness elements, if it starts with 0x50. *)
Definition annex_of (w : list (list Z)) : option (list Z) :=
  match rev w with
  | (80 :: rest) :: _ :: _ => Some (80 :: rest)
  | _ => None
  end.
(** The leaf hash and the position of the last executed code separator. *)
Record extension := mkextension { leaf : list Z; codesep_pos : Z }.
Definition SigMsg (t : tx) (spent : list output) (n : nat) (i : input) (o : output) (type : Z) (ext : option extension) : list Z :=
  [type] ++ u32_bytes (tx_version t) ++ u32_bytes (tx_locktime t) ++
  (if type <? 128 then SHA256 (all_points t) ++ SHA256 (flat_map (fun o => u64_bytes (out_value o)) spent) ++
     SHA256 (flat_map (fun o => var_bytes (script_bytes (out_script o))) spent) ++ SHA256 (all_sequences t)
   else []) ++
  (if (type mod 4 =? 2) || (type mod 4 =? 3) then [] else SHA256 (all_outputs t)) ++
  [2 * (match ext with Some _ => 1 | None => 0 end) + (match annex_of (in_witness i) with Some _ => 1 | None => 0 end)] ++
  (if type <? 128 then u32_bytes (Z.of_nat n)
   else point_bytes i ++ u64_bytes (out_value o) ++ var_bytes (script_bytes (out_script o)) ++ u32_bytes (in_sequence i)) ++
  (match annex_of (in_witness i) with Some a => SHA256 (var_bytes a) | None => [] end) ++
  (if type mod 4 =? 3 then match nth_error (tx_outputs t) n with Some x => SHA256 (wire_output x) | None => [] end else []) ++
  (match ext with Some e => leaf e ++ [0] ++ u32_bytes (codesep_pos e) | None => [] end).
Definition TapSighash : list Z := [84; 97; 112; 83; 105; 103; 104; 97; 115; 104].
Definition v1_sighash (t : tx) (spent : list output) (n : nat) (type : Z) (ext : option extension) : option (list Z) :=
  if (type mod 4 =? 3) && (len (tx_outputs t) <=? Z.of_nat n) then None
  else match nth_error (tx_inputs t) n, nth_error spent n with
       | Some i, Some o => Some (tagged TapSighash ([0] ++ SigMsg t spent n i o type ext))
       | _, _ => None
       end.
