(** Specification of bit streams: a byte string read as a string of bits, most
    significant bit of each byte first, with a bit cursor. *)
From Verif Require Import Base Bytes.

Definition bit_at (src : list Z) (k : Z) : bool := Z.testbit (nth (Z.to_nat (k / 8)) src 0) (7 - k mod 8).
(** Big-endian value of a bit string. *)
Definition bits_value (l : list bool) : Z := fold_left (fun a b => 2 * a + Z.b2z b) l 0.
(** The n bits from position k, and their value. *)
Definition bit_slice (src : list Z) (k n : Z) : list bool :=
  map (fun i => bit_at src (k + Z.of_nat i)) (seq 0 (Z.to_nat n)).
Definition field (src : list Z) (k n : Z) : Z := bits_value (bit_slice src k n).
(** The n low bits of v, most significant first. *)
Definition low_bits (v n : Z) : list bool := map (fun i => Z.testbit v (n - 1 - Z.of_nat i)) (seq 0 (Z.to_nat n)).

Inductive bop := BRead (n : Z) | BSkip (n : Z) | BRewind (n : Z).
Definition bop_ok (o : bop) : Prop := match o with BRead n => 0 <= n <= 64 | BSkip n | BRewind n => 0 <= n end.
(** Outcome of a sequence of operations from bit position k; [used] tells
    whether any bit was consumed before. *)
Inductive bresult := Done (outs : list Z) (k : Z) | OutOfRange | RewindsUnread.
Fixpoint bexpect (src : list Z) (ops : list bop) (k : Z) (used : bool) : bresult :=
  match ops with
  | [] => Done [] k
  | o :: ops' =>
    let next v p u := match bexpect src ops' p u with
                      | Done outs k' => Done (v ++ outs) k' | r => r end in
    match o with
    | BRead n => if k + n <=? 8 * len src then next [field src k n] (k + n) (used || (0 <? n)) else OutOfRange
    | BSkip n => if k + n <=? 8 * len src then next [] (k + n) (used || (0 <? n)) else OutOfRange
    | BRewind n => if n <=? k then next [] (k - n) used else if used then OutOfRange else RewindsUnread
    end
  end.
