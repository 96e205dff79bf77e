(** Model of decimal amounts: src/radix/base_10.cpp. *)
From Coq Require Import String.
From Verif Require Import Base Bytes RadixModel OpModel TextModel.

(** base_10.cpp:69-71: find and erase the first decimal point; the characters
    before and after it (no point: all before). *)
Fixpoint split_point (value : list Z) : list Z * list Z :=
  match value with
  | [] => ([], [])
  | c :: r => if c =? 46 then ([], r) else let (a, b) := split_point r in (c :: a, b)
  end.
(** impl/serial/deserialize.ipp:103-129 deserialize(uint64_t) of a digit string *)
Definition deserialize_u64 (digits : list Z) : option Z :=
  match digits with
  | [] => None
  | _ => let v := decimal_value digits in if v <=? 18446744073709551615 then Some v else None
  end.
(** base_10.cpp:61-101 decode_base10.  The iterator [point] is used after
    string::append; it is read only when nothing was appended. *)
Definition decode_base10 (amount : list Z) (decimal_places : Z) (strict : bool) : option Z :=
  let (before, after) := split_point amount in
  if negb (forallb is_ascii_number (before ++ after)) then None
  else
    let actual_places := len after in
    let value := before ++ after ++ repeat 48 (Z.to_nat (decimal_places - actual_places)) in
    let truncated := (actual_places >? decimal_places) && negb (forallb (fun c => c =? 48) (skipn (Z.to_nat decimal_places) after)) in
    let value := if actual_places >? decimal_places then before ++ firstn (Z.to_nat decimal_places) after else value in
    if strict && truncated then None
    else
      do number <- match value with [] => Some 0 | _ => deserialize_u64 value end;
      if truncated && (number =? 18446744073709551615) then None
      else Some (number + (if truncated then 1 else 0)).

(** base_10.cpp:103-114 encode_base10: ostream with fill '0' and a width *)
Definition encode_base10 (amount decimal_places : Z) : list Z :=
  let digits := serialize_decimal amount in
  let text := repeat 48 (Z.to_nat (decimal_places + 1 - len digits)) ++ digits in
  let at_ := Z.to_nat (len text - decimal_places) in
  let text := firstn at_ text ++ [46] ++ skipn at_ text in
  trim_right [46] (trim_right [48] text).
