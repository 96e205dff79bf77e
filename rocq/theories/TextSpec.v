(** Specification of the text forms: the words of a text, decimal numerals. *)
From Verif Require Import Base Bytes.

(** The ASCII white space characters: tab, line feed, vertical tab, form feed,
    carriage return, space. *)
Definition white (c : Z) : Prop := 9 <= c <= 13 \/ c = 32.

(** The words of a text: its maximal runs of characters that are not white space. *)
Inductive reads : list Z -> list (list Z) -> Prop :=
| reads_end w : Forall white w -> reads w []
| reads_word w t r ts : Forall white w -> t <> [] -> Forall (fun c => ~ white c) t ->
    (r = [] \/ exists c r', r = c :: r' /\ white c) -> reads r ts -> reads (w ++ t ++ r) (t :: ts).

(** Positional decimal value of a digit string. *)
Inductive digits_mean : list Z -> Z -> Prop :=
| mean_nil : digits_mean [] 0
| mean_snoc ds c v : digits_mean ds v -> 48 <= c <= 57 -> digits_mean (ds ++ [c]) (10 * v + (c - 48)).
(** A numeral: one or more digits (leading zeroes allowed), possibly after '-'. *)
Definition numeral (t : list Z) (v : Z) : Prop :=
  exists ds n, ds <> [] /\ digits_mean ds n /\ ((t = ds /\ v = n) \/ (t = 45 :: ds /\ v = - n)).
