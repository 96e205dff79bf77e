(** Specification of the byte reader, independent of its implementation: an
    array [src], an index into it, and a budget of bytes that may be read. *)
From Verif Require Import Base Bytes.

Definition slice (src : list Z) (pos n : Z) : list Z :=
  firstn (Z.to_nat n) (skipn (Z.to_nat pos) src).

Inductive rop :=
| RRead (n : Z)      (* read n bytes *)
| RLittle (n : Z)    (* read an n byte little-endian integer *)
| RBig (n : Z)       (* read an n byte big-endian integer *)
| RPeek              (* peek one byte *)
| RSkip (n : Z)
| RRewind (n : Z).
Definition rop_ok (o : rop) : Prop :=
  match o with
  | RRead n | RLittle n | RBig n | RSkip n | RRewind n => 0 <= n < 2 ^ 63
  | RPeek => True end.
Definition is_rewind (o : rop) : Prop := match o with RRewind _ => True | _ => False end.

(** The only acceptable outcome of a sequence of operations starting at [pos]
    with [lim] bytes of budget: [None] when some operation exceeds the source or
    the budget, otherwise the outputs, final index and final budget. *)
Fixpoint expect (src : list Z) (ops : list rop) (pos lim : Z)
  : option (list (list Z) * Z * Z) :=
  match ops with
  | [] => Some ([], pos, lim)
  | o :: ops' =>
    let next out p l :=
      match expect src ops' p l with
      | Some (outs, p', l') => Some (out :: outs, p', l')
      | None => None
      end in
    let room n := (n <=? lim) && (pos + n <=? len src) in
    match o with
    | RRead n => if room n then next (slice src pos n) (pos + n) (lim - n) else None
    | RLittle n => if room n then next [le_value (slice src pos n)] (pos + n) (lim - n) else None
    | RBig n => if room n then next [be_value (slice src pos n)] (pos + n) (lim - n) else None
    | RPeek => if room 1 then next (slice src pos 1) pos lim else None
    | RSkip n => if room n then next [] (pos + n) (lim - n) else None
    | RRewind n => if n <=? pos then next [] (pos - n) (Z.min (2 ^ 64 - 1) (lim + n)) else None
    end
  end.

(** [pat] occurs in [s] at offset k; k is its first occurrence. *)
Definition occurs (pat s : list Z) (k : nat) : Prop :=
  firstn (length pat) (skipn k s) = pat.
Definition first_occurrence (pat s : list Z) (k : nat) : Prop :=
  occurs pat s k /\ forall j, (j < k)%nat -> ~ occurs pat s j.
