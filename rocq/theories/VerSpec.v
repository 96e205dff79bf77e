(** Specification of version numbers and checkpoints. *)
From Coq Require Import String.
From Verif Require Import Base Bytes TextSpec.

(** Texts joined by a delimiter. *)
Fixpoint joined (d : Z) (ts : list (list Z)) : list Z :=
  match ts with [] => [] | t :: r => match r with [] => t | _ => t ++ d :: joined d r end end.
(** A number: some decimal digits. *)
Definition number (t : list Z) (n : Z) : Prop := t <> [] /\ digits_mean t n.
(** Its canonical text: without leading zeros. *)
Definition canonical_number (t : list Z) (n : Z) : Prop := number t n /\ (t = [48] \/ exists c r, t = c :: r /\ c <> 48).
(** Four segments of 32 bits. *)
Definition segments (v : list Z) : Prop := length v = 4%nat /\ Forall (fun x => 0 <= x < 2 ^ 32) v.
(** The order of versions: the first segment that differs decides. *)
Definition before (a b : list Z) : Prop := exists p x y r s, a = p ++ x :: r /\ b = p ++ y :: s /\ x < y.
