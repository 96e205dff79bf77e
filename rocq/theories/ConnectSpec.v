(** Specification of input validation: the VerifyScript, VerifyWitnessProgram and
    ExecuteWitnessScript functions of the reference client, over bytes, with the
    reference evaluator of InterpSpec as EvalScript; BIPs 16, 141, 341, 342. *)
From Verif Require Import Base Bytes ShaSpec KdfSpec ChainModel ChainSpec NumberSpec OpSpec SigopSpec InterpEnv InterpSpec.

(** The spender: rules, transaction fields, hash and signature functions; the
    BIP341 signature hash of a leaf hash (None: key path), separator position and
    hash type; and the tweak check of internal key, tweak, output key and parity. *)
Record spender := mkspender {
  base : ctx;
  v1_hash : option (list Z) -> Z -> Z -> option (list Z);
  tweaks_to : list Z -> list Z -> list Z -> bool -> bool }.
Definition active (sp : spender) (rule : Z) : bool := Z.testbit (eflags (base sp)) rule.
Definition P2SH : Z := 2.  Definition WITNESS : Z := 11.  Definition TAPROOT : Z := 15.

(** Evaluation contexts. *)
Definition with_context (flags : Z) (v : script_version) (h1 : Z -> Z -> option (list Z)) (k : ctx) : ctx :=
  mkctx flags v (e_sequence k) (e_locktime k) (e_txversion k) (h_ripemd160 k) (h_sha1 k) (h_sha256 k) (h_hash160 k) (h_hash256 k)
    (decode_signature k) (verify_ecdsa k) (verify_schnorr k) (sighash_unversioned k) (sighash_v0 k) h1.
Definition without_tapscript (flags : Z) : Z := if Z.testbit flags bip342_rule then flags - 2 ^ bip342_rule else flags.
Definition legacy_context (sp : spender) : ctx :=
  with_context (without_tapscript (eflags (base sp))) unversioned (v1_hash sp None) (base sp).
Definition v0_context (sp : spender) : ctx :=
  with_context (without_tapscript (eflags (base sp))) segwit (v1_hash sp None) (base sp).
Definition tapscript_context (sp : spender) (leaf : list Z) : ctx :=
  with_context (eflags (base sp)) taproot (v1_hash sp (Some leaf)) (base sp).

Definition top_true (s : list (list Z)) : bool := match s with a :: _ => cast_to_bool a | [] => false end.

(** ** BIP341 *)
Definition TapLeaf : list Z := [84; 97; 112; 76; 101; 97; 102].
Definition TapBranch : list Z := [84; 97; 112; 66; 114; 97; 110; 99; 104].
Definition TapTweak : list Z := [84; 97; 112; 84; 119; 101; 97; 107].
Definition leaf_of (version : Z) (code : list Z) : list Z := tagged TapLeaf ([version] ++ var_bytes code).
(** Smaller first. *)
Definition branch_of (a b : list Z) : list Z := if be_value a <? be_value b then tagged TapBranch (a ++ b) else tagged TapBranch (b ++ a).
Fixpoint in_32s (n : nat) (l : list Z) : list (list Z) :=
  match n with O => [] | S m => firstn 32 l :: in_32s m (skipn 32 l) end.
Definition control_ok (c : list Z) : bool := (33 <=? len c) && (len c <=? 33 + 32 * 128) && ((len c - 33) mod 32 =? 0).
Definition path_of (c : list Z) : list (list Z) := in_32s (Z.to_nat ((len c - 33) / 32)) (skipn 33 c).
Definition leaf_version (c : list Z) : Z := nth 0 c 0 - nth 0 c 0 mod 2.
Definition committed (sp : spender) (program c leaf : list Z) : bool :=
  let internal := firstn 32 (skipn 1 c) in
  let root := fold_left branch_of (path_of c) leaf in
  tweaks_to sp internal (tagged TapTweak (internal ++ root)) program (nth 0 c 0 mod 2 =? 1).
(** The witness without the annex. *)
Definition without_annex (w : list (list Z)) : list (list Z) :=
  if (2 <=? len w) && match last w [] with 80 :: _ => true | _ => false end then removelast w else w.
(** CheckSchnorrSignature of the key path. *)
Definition key_path (sp : spender) (program sig : list Z) : bool :=
  let try (type : Z) := match v1_hash sp None 4294967295 type with Some h => verify_schnorr (base sp) program h (firstn 64 sig) | None => false end in
  if len sig =? 64 then try 0
  else if len sig =? 65 then let t := last sig 0 in ((1 <=? t) && (t <=? 3) || (129 <=? t) && (t <=? 131)) && try t
  else false.

(** ** ExecuteWitnessScript; [w] has its top last. *)
Definition execute (early : bool) (k : ctx) (code : list Z) (w : list (list Z)) (weight : Z) : bool :=
  match evaluate k early code (rev w) (Some w) weight with
  | Fails => false
  | Succeeds_unconditionally => true
  | Completes r => (len (stk r) =? 1) && top_true (stk r)
  end.
(** DUP HASH160 <program> EQUALVERIFY CHECKSIG *)
Definition key_hash_code (program : list Z) : list Z := [118; 169; 20] ++ program ++ [136; 172].
(** Serialized size of the witness. *)
Definition witness_bytes (w : list (list Z)) : list Z := counted var_bytes w.

(** ** VerifyWitnessProgram *)
Definition VerifyWitnessProgram (early : bool) (sp : spender) (w : list (list Z)) (v : Z) (program : list Z) (nested : bool) : bool :=
  if v =? 0 then
    if len program =? 32 then
      match rev w with
      | [] => false
      | code :: _ => same_bytes (SHA256 code) program && execute early (v0_context sp) code (removelast w) 0
      end
    else if len program =? 20 then (len w =? 2) && execute early (v0_context sp) (key_hash_code program) w 0
    else false
  else if (v =? 1) && (len program =? 32) && negb nested then
    if negb (active sp TAPROOT) then true
    else match rev (without_annex w) with
    | [] => false
    | [sig] => key_path sp program sig
    | control :: code :: _ =>
      control_ok control &&
      let leaf := leaf_of (leaf_version control) code in
      committed sp program control leaf &&
      if leaf_version control =? 192
      then execute early (tapscript_context sp leaf) code (removelast (removelast (without_annex w))) (50 + len (witness_bytes w))
      else true
    end
  else true.

(** ** VerifyScript *)
Definition push_only (l : list Z) : bool :=
  let (ops, tail) := script_scan l in (len tail =? 0) && forallb (fun o : Z * list Z => fst o <=? 96) ops.
Definition program_of (sp : spender) (l : list Z) : option (Z * list Z) := if active sp WITNESS then reference_program l else None.
Definition VerifyScript (early : bool) (sp : spender) (sig pub : list Z) (w : list (list Z)) : bool :=
  let k := legacy_context sp in
  match evaluate k early sig [] None 0 with
  | Completes r1 =>
    match evaluate k early pub (stk r1) None 0 with
    | Completes r2 =>
      top_true (stk r2) &&
      (* bare witness program *)
      match program_of sp pub with
      | Some (v, program) => (len sig =? 0) && VerifyWitnessProgram early sp w v program false
      | None => true
      end &&
      (* pay to script hash *)
      (if active sp P2SH && reference_p2sh pub then
         push_only sig &&
         match stk r1 with
         | [] => false
         | redeem :: rest =>
           match evaluate k early redeem rest None 0 with
           | Completes r3 =>
             top_true (stk r3) &&
             match program_of sp redeem with
             | Some (v, program) => same_bytes sig (direct_push redeem) && VerifyWitnessProgram early sp w v program true
             | None => true
             end
           | _ => false
           end
         end
       else true) &&
      (* a witness must have been used *)
      (negb (active sp WITNESS) || (len w =? 0) ||
       match program_of sp pub with Some _ => true | None => false end ||
       (active sp P2SH && reference_p2sh pub &&
        match stk r1 with redeem :: _ => match program_of sp redeem with Some _ => true | None => false end | [] => false end))
    | _ => false
    end
  | _ => false
  end.
