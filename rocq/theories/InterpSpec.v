(** Reference script evaluator, written from the Bitcoin protocol (EvalScript of
    the reference client and BIPs 65, 66, 112, 141-143, 147, 341, 342): a stack of
    byte vectors, raw script bytes decoded one operation at a time, and only two
    results: failure ([None]) or the final state.  It shares with the model only
    the context [ctx] (rules, transaction fields, cryptographic functions). *)
From Verif Require Import Base Bytes NumberSpec OpSpec InterpEnv.

(** ** Elements *)

(** CScriptNum serialization: the fewest bytes that hold the magnitude and a sign
    bit, little-endian, the sign in the most significant bit. *)
Definition script_num (v : Z) : list Z :=
  if v =? 0 then []
  else let n := (Z.log2 (Z.abs v) + 1) / 8 + 1 in
       le_bytes (Z.to_nat n) (Z.abs v + if v <? 0 then 2 ^ (8 * n - 1) else 0).
Definition number (limit : Z) (b : list Z) : option Z :=
  if len b <=? limit then Some (script_value b) else None.
(** CastToBool. *)
Fixpoint cast_to_bool (b : list Z) : bool :=
  match b with
  | [] => false
  | [x] => negb ((x =? 0) || (x =? 128))
  | x :: r => negb (x =? 0) || cast_to_bool r
  end.
(** MINIMALIF. *)
Definition cast_to_bool_minimal (b : list Z) : option bool :=
  match b with [] => Some false | [x] => if x =? 1 then Some true else None | _ => None end.
Definition bool_bytes (b : bool) : list Z := if b then [1] else [].
Fixpoint same_bytes (a b : list Z) : bool :=
  match a, b with [], [] => true | x :: r, y :: t => (x =? y) && same_bytes r t | _, _ => false end.

(** ** State *)
Record rst := mkr {
  stk : list (list Z);  astk : list (list Z);     (* top first *)
  vf : list bool;                                  (* condition stack, top first *)
  nops : Z;  weight : Z;                           (* counted operations; validation weight left *)
  code_from : list Z;                              (* script bytes after the last code separator *)
  sep_pos : Z                                      (* its position, or 2^32 - 1 *)
}.
Definition with_stk s r := mkr s (astk r) (vf r) (nops r) (weight r) (code_from r) (sep_pos r).
Definition with_alt s a r := mkr s a (vf r) (nops r) (weight r) (code_from r) (sep_pos r).
Definition with_vf s v r := mkr s (astk r) v (nops r) (weight r) (code_from r) (sep_pos r).
Definition with_nops n r := mkr (stk r) (astk r) (vf r) n (weight r) (code_from r) (sep_pos r).
Definition with_weight w r := mkr (stk r) (astk r) (vf r) (nops r) w (code_from r) (sep_pos r).
Definition with_code c p r := mkr (stk r) (astk r) (vf r) (nops r) (weight r) c p.

(** ** Pure stack operations: opcode and stack to new stack. *)
Notation stack := (list (list Z)).
Definition stack_word (c : Z) (s : stack) : option stack :=
  match c, s with
  | 109 (* 2DROP *), _ :: _ :: r => Some r
  | 110 (* 2DUP *), a :: b :: r => Some (a :: b :: a :: b :: r)
  | 111 (* 3DUP *), a :: b :: c :: r => Some (a :: b :: c :: a :: b :: c :: r)
  | 112 (* 2OVER *), a :: b :: c :: d :: r => Some (c :: d :: a :: b :: c :: d :: r)
  | 113 (* 2ROT *), a :: b :: c :: d :: e :: f :: r => Some (e :: f :: a :: b :: c :: d :: r)
  | 114 (* 2SWAP *), a :: b :: c :: d :: r => Some (c :: d :: a :: b :: r)
  | 115 (* IFDUP *), a :: r => Some (if cast_to_bool a then a :: a :: r else a :: r)
  | 116 (* DEPTH *), r => Some (script_num (len r) :: r)
  | 117 (* DROP *), _ :: r => Some r
  | 118 (* DUP *), a :: r => Some (a :: a :: r)
  | 119 (* NIP *), a :: _ :: r => Some (a :: r)
  | 120 (* OVER *), a :: b :: r => Some (b :: a :: b :: r)
  | 121 (* PICK *), a :: r =>
      match number 4 a with
      | Some n => if (0 <=? n) && (n <? len r) then Some (nth (Z.to_nat n) r [] :: r) else None
      | None => None
      end
  | 122 (* ROLL *), a :: r =>
      match number 4 a with
      | Some n => if (0 <=? n) && (n <? len r)
                  then Some (nth (Z.to_nat n) r [] :: firstn (Z.to_nat n) r ++ skipn (S (Z.to_nat n)) r) else None
      | None => None
      end
  | 123 (* ROT *), a :: b :: c :: r => Some (c :: a :: b :: r)
  | 124 (* SWAP *), a :: b :: r => Some (b :: a :: r)
  | 125 (* TUCK *), a :: b :: r => Some (a :: b :: a :: r)
  | 130 (* SIZE *), a :: r => Some (script_num (len a) :: a :: r)
  | 135 (* EQUAL *), a :: b :: r => Some (bool_bytes (same_bytes a b) :: r)
  | 136 (* EQUALVERIFY *), a :: b :: r => if same_bytes a b then Some r else None
  | 105 (* VERIFY *), a :: r => if cast_to_bool a then Some r else None
  | _, _ => None
  end.
Definition unary_word (c : Z) (n : Z) : option (list Z) :=
  match c with
  | 139 (* 1ADD *) => Some (script_num (n + 1))
  | 140 (* 1SUB *) => Some (script_num (n - 1))
  | 143 (* NEGATE *) => Some (script_num (- n))
  | 144 (* ABS *) => Some (script_num (Z.abs n))
  | 145 (* NOT *) => Some (bool_bytes (n =? 0))
  | 146 (* 0NOTEQUAL *) => Some (bool_bytes (negb (n =? 0)))
  | _ => None
  end.
(** [a] is below [b] on the stack. *)
Definition binary_word (c : Z) (a b : Z) : option (list Z) :=
  match c with
  | 147 (* ADD *) => Some (script_num (a + b))
  | 148 (* SUB *) => Some (script_num (a - b))
  | 154 (* BOOLAND *) => Some (bool_bytes (negb (a =? 0) && negb (b =? 0)))
  | 155 (* BOOLOR *) => Some (bool_bytes (negb (a =? 0) || negb (b =? 0)))
  | 156 (* NUMEQUAL *) => Some (bool_bytes (a =? b))
  | 158 (* NUMNOTEQUAL *) => Some (bool_bytes (negb (a =? b)))
  | 159 (* LESSTHAN *) => Some (bool_bytes (a <? b))
  | 160 (* GREATERTHAN *) => Some (bool_bytes (b <? a))
  | 161 (* LESSTHANOREQUAL *) => Some (bool_bytes (a <=? b))
  | 162 (* GREATERTHANOREQUAL *) => Some (bool_bytes (b <=? a))
  | 163 (* MIN *) => Some (script_num (Z.min a b))
  | 164 (* MAX *) => Some (script_num (Z.max a b))
  | _ => None
  end.
Definition arithmetic_word (c : Z) (s : stack) : option stack :=
  match s with
  | [] => None
  | x :: r =>
    match number 4 x with
    | None => None
    | Some n =>
      match unary_word c n with
      | Some y => Some (y :: r)
      | None =>
        match r with
        | [] => None
        | y :: t =>
          match number 4 y with
          | None => None
          | Some m =>
            match binary_word c m n with
            | Some z => Some (z :: t)
            | None =>
              if c =? 157 (* NUMEQUALVERIFY *) then if m =? n then Some t else None
              else if c =? 165 (* WITHIN: value min max *) then
                match t with
                | [] => None
                | z :: u => match number 4 z with
                            | None => None
                            | Some v => Some (bool_bytes ((m <=? v) && (v <? n)) :: u)
                            end
                end
              else None
            end
          end
        end
      end
    end
  end.
Section Reference.
Variable k : ctx.
Definition rule (b : Z) : bool := Z.testbit (eflags k) b.
Definition tapscript : bool := rule bip342_rule.
Definition witness_v0 : bool := rule bip143_rule && match eversion k with segwit => true | _ => false end.

Definition hash_word (c : Z) (s : stack) : option stack :=
  match c, s with
  | 166, a :: r => Some (h_ripemd160 k a :: r)
  | 167, a :: r => Some (h_sha1 k a :: r)
  | 168, a :: r => Some (h_sha256 k a :: r)
  | 169, a :: r => Some (h_hash160 k a :: r)
  | 170, a :: r => Some (h_hash256 k a :: r)
  | _, _ => None
  end.

(** ** Script code of legacy signature hashes: at operation boundaries, every
    occurrence of the push of each signature is deleted (FindAndDelete), then
    every code separator. *)
Fixpoint is_prefix (a l : list Z) : bool :=
  match a, l with [], _ => true | x :: a', y :: l' => (x =? y) && is_prefix a' l' | _, [] => false end.
Definition direct_push (d : list Z) : list Z :=
  let n := len d in
  (if n <? 76 then [n] else if n <=? 255 then [76; n] else if n <=? 65535 then 77 :: le_bytes 2 n
   else 78 :: le_bytes 4 n) ++ d.
Fixpoint find_and_delete (fuel : nat) (pat l : list Z) : list Z :=
  match fuel with
  | O => l
  | S f =>
    if is_prefix pat l then find_and_delete f pat (skipn (length pat) l)
    else match next_op l with
         | Some (_, _, r) => firstn (length l - length r) l ++ find_and_delete f pat r
         | None => l
         end
  end.
Fixpoint delete_separators (fuel : nat) (l : list Z) : list Z :=
  match fuel with
  | O => l
  | S f => match next_op l with
           | Some (c, _, r) => (if c =? 171 then [] else firstn (length l - length r) l) ++ delete_separators f r
           | None => l
           end
  end.
Definition script_code (sigs : list (list Z)) (l : list Z) : list Z :=
  let l' := fold_left (fun x s => find_and_delete (length x) (direct_push s) x) sigs l in
  delete_separators (length l') l'.
Definition ecdsa_sighash (sigs : list (list Z)) (r : rst) (flags : Z) : list Z :=
  if witness_v0 then sighash_v0 k (code_from r) flags
  else sighash_unversioned k (script_code sigs (code_from r)) flags.

(** ** ECDSA signatures: the last byte is the hash type. *)
Definition der_of (sig : list Z) := removelast sig.
Definition type_of (sig : list Z) := last sig 0.
(** BIP66: a non-empty signature must be strictly encoded. *)
Definition encoding_ok (sig : list Z) : bool :=
  match sig with
  | [] => true
  | _ => negb (rule bip66_rule) || match decode_signature k (der_of sig) true with Some _ => true | None => false end
  end.
Definition ecdsa_ok (key sig : list Z) (r : rst) (sigs : list (list Z)) : bool :=
  match sig with
  | [] => false
  | _ => match decode_signature k (der_of sig) (rule bip66_rule) with
         | Some s => verify_ecdsa k key (ecdsa_sighash sigs r (type_of sig)) s
         | None => false
         end
  end.
(** Multiple signatures, keys and signatures in stack order: each signature is
    tried against the keys in turn.  [early]: stop as soon as fewer keys than
    signatures remain (as the reference client does).  None: hard failure. *)
Fixpoint multi_ok (early : bool) (keys sigs : list (list Z)) (ok : list Z -> list Z -> bool) : option bool :=
  match sigs with
  | [] => Some true
  | sig :: sigs' =>
    match keys with
    | [] => Some false
    | key :: keys' =>
      if early && (len keys <? len sigs) then Some false
      else if negb (encoding_ok sig) then None
      else multi_ok early keys' (if ok key sig then sigs' else sigs) ok
    end
  end.
(** CHECKMULTISIG: resulting stack (without the result), counted operations, result. *)
Definition check_multisig (early : bool) (r : rst) : option (rst * bool) :=
  match stk r with
  | [] => None
  | a :: s1 =>
    match number 4 a with
    | None => None
    | Some n =>
      if negb ((0 <=? n) && (n <=? 20)) then None
      else if nops r + n >? 201 then None
      else if len s1 <? n then None
      else
        let keys := firstn (Z.to_nat n) s1 in
        match skipn (Z.to_nat n) s1 with
        | [] => None
        | b :: s2 =>
          match number 4 b with
          | None => None
          | Some m =>
            if negb ((0 <=? m) && (m <=? n)) then None
            else if len s2 <? m then None
            else
              let sigs := firstn (Z.to_nat m) s2 in
              match skipn (Z.to_nat m) s2 with
              | [] => None
              | dummy :: s3 =>
                match multi_ok early keys sigs (fun key sig => ecdsa_ok key sig r sigs) with
                | None => None
                | Some result =>
                  if rule bip147_rule && negb (len dummy =? 0) then None
                  else Some (with_stk s3 (with_nops (nops r + n) r), result)
                end
              end
          end
        end
    end
  end.

(** ** Schnorr signatures (BIP341/342). *)
Definition schnorr_ok (key sig : list Z) (r : rst) : bool :=
  let try (flags : Z) :=
    match sighash_v1 k (sep_pos r) flags with
    | Some h => verify_schnorr k key h (firstn 64 sig)
    | None => false
    end in
  if len sig =? 64 then try 0
  else if len sig =? 65 then
    let t := last sig 0 in
    ((1 <=? t) && (t <=? 3) || (129 <=? t) && (t <=? 131)) && try t
  else false.
(** Failure, or the remaining weight and whether the signature is valid. *)
Definition check_tapscript (key sig : list Z) (r : rst) : option (rst * bool) :=
  let charged := match sig with [] => r | _ => with_weight (weight r - 50) r end in
  if weight charged <? 0 then None
  else match key with
  | [] => None
  | _ => match sig with
         | [] => Some (charged, false)
         | _ => if (len key =? 32) && negb (schnorr_ok key sig r) then None else Some (charged, true)
         end
  end.
Definition check_sig (r : rst) : option (rst * bool) :=
  match stk r with
  | key :: sig :: s =>
    if tapscript then match check_tapscript key sig r with Some (r', b) => Some (with_stk s r', b) | None => None end
    else if negb (encoding_ok sig) then None
    else Some (with_stk s r, ecdsa_ok key sig r [sig])
  | _ => None
  end.

(** BIP65 and BIP112. *)
Definition lock_time_ok (b : list Z) : bool :=
  match number 5 b with
  | None => false
  | Some n =>
    let threshold := 500000000 in
    (0 <=? n) &&
    ((n <? threshold) && (e_locktime k <? threshold) || (threshold <=? n) && (threshold <=? e_locktime k)) &&
    (n <=? e_locktime k) && negb (e_sequence k =? 4294967295)
  end.
Definition sequence_ok (b : list Z) : bool :=
  match number 5 b with
  | None => false
  | Some n =>
    let type_flag := 2 ^ 22 in
    let mask := type_flag + 65535 in
    (0 <=? n) &&
    (Z.testbit n 31 ||
     (2 <=? e_txversion k) && negb (Z.testbit (e_sequence k) 31) &&
     (let a := Z.land n mask in let s := Z.land (e_sequence k) mask in
      ((a <? type_flag) && (s <? type_flag) || (type_flag <=? a) && (type_flag <=? s)) && (a <=? s)))
  end.

(** ** One operation.  [rest]: script bytes after it; [pos]: its index. *)
Definition disabled (c : Z) : bool :=
  existsb (Z.eqb c) [126; 127; 128; 129; 131; 132; 133; 134; 141; 142; 149; 150; 151; 152; 153].
Definition executing (r : rst) : bool := forallb (fun b => b) (vf r).
Definition push_result (x : option (rst * bool)) : option rst :=
  match x with Some (r, b) => Some (with_stk (bool_bytes b :: stk r) r) | None => None end.
Definition verify_result (x : option (rst * bool)) : option rst :=
  match x with Some (r, true) => Some r | _ => None end.
Definition lift (f : stack -> option stack) (r : rst) : option rst :=
  match f (stk r) with Some s => Some (with_stk s r) | None => None end.
Definition branch (invert : bool) (r : rst) : option rst :=
  if executing r then
    match stk r with
    | [] => None
    | a :: s =>
      match (if tapscript then cast_to_bool_minimal a else Some (cast_to_bool a)) with
      | None => None
      | Some b => Some (with_vf s (xorb invert b :: vf r) r)
      end
    end
  else Some (with_vf (stk r) (false :: vf r) r).
Definition exec (early : bool) (c : Z) (d rest : list Z) (pos : Z) (r : rst) : option rst :=
  if c <=? 78 then Some (with_stk (d :: stk r) r)
  else if (81 <=? c) && (c <=? 96) || (c =? 79) then Some (with_stk (script_num (c - 80) :: stk r) r)
  else match c with
  | 97 | 176 | 179 | 180 | 181 | 182 | 183 | 184 | 185 => Some r
  | 99 => branch false r
  | 100 => branch true r
  | 103 => match vf r with b :: v => Some (with_vf (stk r) (negb b :: v) r) | [] => None end
  | 104 => match vf r with _ :: v => Some (with_vf (stk r) v r) | [] => None end
  | 107 => match stk r with a :: s => Some (with_alt s (a :: astk r) r) | [] => None end
  | 108 => match astk r with a :: t => Some (with_alt (a :: stk r) t r) | [] => None end
  | 105 | 109 | 110 | 111 | 112 | 113 | 114 | 115 | 116 | 117 | 118 | 119 | 120 | 121 | 122 | 123 | 124 | 125
  | 130 | 135 | 136 => lift (stack_word c) r
  | 139 | 140 | 143 | 144 | 145 | 146 | 147 | 148 | 154 | 155 | 156 | 157 | 158 | 159 | 160 | 161 | 162 | 163
  | 164 | 165 => lift (arithmetic_word c) r
  | 166 | 167 | 168 | 169 | 170 => lift (hash_word c) r
  | 171 => Some (with_code rest pos r)
  | 172 => push_result (check_sig r)
  | 173 => verify_result (check_sig r)
  | 174 => if tapscript then None else push_result (check_multisig early r)
  | 175 => if tapscript then None else verify_result (check_multisig early r)
  | 177 => if negb (rule bip65_rule) then Some r
           else match stk r with a :: _ => if lock_time_ok a then Some r else None | [] => None end
  | 178 => if negb (rule bip112_rule) then Some r
           else match stk r with a :: _ => if sequence_ok a then Some r else None | [] => None end
  | 186 => if tapscript then
             match stk r with
             | key :: num :: sig :: s =>
               match number 4 num with
               | None => None
               | Some n => match check_tapscript key sig r with
                           | Some (r', b) => Some (with_stk (script_num (if b then n + 1 else n) :: s) r')
                           | None => None
                           end
               end
             | _ => None
             end
           else None
  | _ => None
  end.

(** ** The whole script. *)
Fixpoint eval (early : bool) (fuel : nat) (pos : Z) (l : list Z) (r : rst) : option rst :=
  match l with
  | [] => match vf r with [] => Some r | _ => None end
  | _ =>
    match fuel with
    | O => None
    | S f =>
      match next_op l with
      | None => None
      | Some (c, d, rest) =>
        if len d >? 520 then None
        else
          let r1 := if negb tapscript && (96 <? c) then with_nops (nops r + 1) r else r in
          if nops r1 >? 201 then None
          else if disabled c then None
          else
            match (if executing r1 || (99 <=? c) && (c <=? 104) then exec early c d rest pos r1 else Some r1) with
            | None => None
            | Some r2 => if len (stk r2) + len (astk r2) >? 1000 then None else eval early f (pos + 1) rest r2
            end
      end
    end
  end.

Inductive verdict := Fails | Succeeds_unconditionally | Completes (r : rst).
(** BIP342: opcodes that make a tapscript succeed when met while decoding. *)
Definition op_success_code (c : Z) : bool :=
  (c =? 80) || (c =? 98) || (126 <=? c) && (c <=? 129) || (131 <=? c) && (c <=? 134) || (137 <=? c) && (c <=? 138)
  || (141 <=? c) && (c <=? 142) || (149 <=? c) && (c <=? 153) || (187 <=? c) && (c <=? 254).
(** Script bytes, initial stack, witness elements when run from a witness,
    initial validation weight. *)
Definition start (stack0 : stack) (w : Z) (l : list Z) : rst := mkr stack0 [] [] 0 w l 4294967295.
Definition evaluate (early : bool) (l : list Z) (stack0 : stack) (witness : option stack) (w : Z) : verdict :=
  let (ops, tail) := script_scan l in
  if tapscript && existsb (fun o => op_success_code (fst o)) ops then Succeeds_unconditionally
  else if tapscript && (len stack0 >? 1000) then Fails
  else if match witness with Some e => existsb (fun d => len d >? 520) e | None => false end then Fails
  else if negb tapscript && (len l >? 10000) then Fails
  else match eval early (length l) 0 l (start stack0 w l) with Some r => Completes r | None => Fails end.
End Reference.
