(** Specification of the script byte format (Bitcoin's GetScriptOp): an opcode
    byte, for 1..75 that many bytes of data, for 76/77/78 a 1/2/4 byte
    little-endian size and that many bytes of data. *)
From Verif Require Import Base Bytes.

Definition size_bytes (c : Z) : nat :=
  if c =? 76 then 1 else if c =? 77 then 2 else if c =? 78 then 4 else 0.

(** opcode, data, remaining bytes; None at the end or when truncated. *)
Definition next_op (l : list Z) : option (Z * list Z * list Z) :=
  match l with
  | [] => None
  | c :: t =>
    let h := size_bytes c in
    if (length t <? h)%nat then None
    else
      let size := match h with O => (if c <=? 75 then c else 0) | _ => le_value (firstn h t) end in
      let body := skipn h t in
      if len body <? size then None
      else Some (c, firstn (Z.to_nat size) body, skipn (Z.to_nat size) body)
  end.

(** All complete operations and the truncated tail. *)
Fixpoint scan (fuel : nat) (l : list Z) : list (Z * list Z) * list Z :=
  match fuel with
  | O => ([], l)
  | S f => match next_op l with
           | None => ([], l)
           | Some (c, d, r) => let (ops, tail) := scan f r in ((c, d) :: ops, tail)
           end
  end.
Definition script_scan (l : list Z) := scan (length l) l.

(** A complete operation: opcode byte, and the data its size field can express. *)
Definition complete_op (c : Z) (d : list Z) : Prop :=
  byte_ok c /\ bytes_ok d /\
  (c = 76 -> len d <= 255) /\ (c = 77 -> len d <= 65535) /\ (c = 78 -> len d <= 4294967295) /\
  (c <= 75 -> len d = c) /\ (78 < c -> d = []).
(** Its bytes. *)
Definition complete_op_bytes (c : Z) (d : list Z) : list Z := c :: le_bytes (size_bytes c) (len d) ++ d.

(** What a push operation leaves on the stack (Bitcoin's EvalScript). *)
Definition pushed (c : Z) (d : list Z) : option (list Z) :=
  if c <=? 78 then Some d                       (* OP_0 has no data: the empty string *)
  else if c =? 79 then Some [129]               (* OP_1NEGATE *)
  else if (81 <=? c) && (c <=? 96) then Some [c - 80]   (* OP_1 .. OP_16 *)
  else None.
(** Bitcoin's CheckMinimalPush, for opcodes up to OP_PUSHDATA4. *)
Definition core_minimal_push (c : Z) (d : list Z) : bool :=
  match d with
  | [] => c =? 0
  | [b] => if (1 <=? b) && (b <=? 16) then c =? 80 + b
           else if b =? 129 then c =? 79 else c =? 1
  | _ => if len d <=? 75 then c =? len d
         else if len d <=? 255 then c =? 76
         else if len d <=? 65535 then c =? 77 else true
  end.
