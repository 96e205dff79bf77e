(** Specification of decimal amounts. *)
From Verif Require Import Base Bytes TextSpec.

(** Digits with at most one decimal point: the integer and the fraction digits. *)
Definition amount_form (text whole fraction : list Z) : Prop :=
  (text = whole /\ fraction = []) \/ text = whole ++ [46] ++ fraction.
(** The amount is n / 10^(number of fraction digits) units of 10^places; an
    integer number of base units is exact when it equals it, and rounds up when it
    is the least one that is not below. *)
Definition exact_units (n fraction_digits places r : Z) : Prop := r * 10 ^ fraction_digits = n * 10 ^ places.
Definition round_up_units (n fraction_digits places r : Z) : Prop :=
  n * 10 ^ places <= r * 10 ^ fraction_digits /\ (r - 1) * 10 ^ fraction_digits < n * 10 ^ places.
(** The canonical text: some digits before the point, no superfluous zero on either side. *)
Definition canonical_amount (text whole fraction : list Z) : Prop :=
  (whole = [48] \/ exists c r, whole = c :: r /\ c <> 48) /\
  (fraction = [] /\ text = whole \/ (exists a x, fraction = a ++ [x] /\ x <> 48) /\ text = whole ++ [46] ++ fraction).
