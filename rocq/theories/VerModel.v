(** Model of src/config/version.cpp and src/chain/checkpoint.cpp. *)
From Coq Require Import String.
From Verif Require Import Base Bytes RadixModel OpModel TextModel AddressModel.

(** istream >> std::string: skip white space, take up to the next *)
Fixpoint skip_white (t : list Z) : list Z :=
  match t with [] => [] | x :: r => if existsb (Z.eqb x) ascii_whitespace then skip_white r else t end.
Fixpoint until_white (t : list Z) : list Z :=
  match t with [] => [] | x :: r => if existsb (Z.eqb x) ascii_whitespace then [] else x :: until_white r end.
Definition first_word (t : list Z) : list Z := until_white (skip_white t).
(** istream >> unsigned: the digits up to the first other character *)
Fixpoint take_digits (t : list Z) : list Z :=
  match t with [] => [] | x :: r => if is_ascii_number x then x :: take_digits r else [] end.
(** impl/serial/deserialize.ipp:103-129 deserialize of an unsigned integer with
    maximum [max]: trimmed, no '-', an optional '+', some digits, the rest of the
    text is not looked at. *)
Definition deserialize_number (max : Z) (text : list Z) : option Z :=
  let t := trim ascii_whitespace text in
  match t with
  | [] => None
  | c :: r => if c =? 45 then None
              else let d := take_digits (if c =? 43 then r else t) in
                   match d with
                   | [] => None
                   | _ => if decimal_value d <=? max then Some (decimal_value d) else None
                   end
  end.
(** a loop that stops (throws) at the first failure *)
Fixpoint all_some {A B} (f : A -> option B) (l : list A) : option (list B) :=
  match l with [] => Some [] | x :: r => do y <- f x; do ys <- all_some f r; Some (y :: ys) end.

(** ** version: the four segments *)
Definition max_uint32 : Z := 4294967295.
(** version.cpp:113-133 operator>>; None = an exception *)
Definition version_read (text : list Z) : option (list Z) :=
  let tokens := split_on (first_word text) 46 true true in
  if (len tokens <? 2) || (len tokens >? 4) then None
  else do l <- all_some (deserialize_number max_uint32) tokens; Some (l ++ repeat 0 (4 - length l)).
(** 135-151 operator<<: [last] goes down from 3 *)
Fixpoint version_last (n : nat) (v : list Z) : nat :=
  match n with
  | O => O
  | S n' => if (1 <? Z.of_nat n) && (nth n v 0 =? 0) then version_last n' v else n
  end.
Definition version_text (v : list Z) : list Z :=
  flat_map (fun i => (if (i =? 0)%nat then [] else [46]) ++ serialize_decimal (nth i v 0)) (seq 0 (S (version_last 3 v))).
(** 65-70 is_default *)
Definition version_default (v : list Z) : bool := list_eqb v [0; 0; 0; 0].
(** 83-111 operators *)
Fixpoint lexicographical (a b : list Z) : bool :=
  match a, b with
  | _, [] => false
  | [], _ :: _ => true
  | x :: a', y :: b' => if x <? y then true else if y <? x then false else lexicographical a' b'
  end.
Definition version_eq (a b : list Z) : bool := list_eqb a b.
Definition version_ne (a b : list Z) : bool := negb (version_eq a b).
Definition version_lt (a b : list Z) : bool := lexicographical a b.
Definition version_le (a b : list Z) : bool := version_lt a b || version_eq a b.
Definition version_gt (a b : list Z) : bool := version_lt b a.
Definition version_ge (a b : list Z) : bool := version_le b a.

(** ** checkpoint *)
Record checkpoint := mkCheck { c_hash : list Z; c_height : Z; c_valid : bool }.
Definition max_size_t : Z := 18446744073709551615.
(** checkpoint.cpp:32-39 is_at; 41-49 is_under; 51-63 is_conflict *)
Definition check_at (l : list checkpoint) (height : Z) : bool := existsb (fun c => height =? c_height c) l.
Definition check_under (l : list checkpoint) (height : Z) : bool := existsb (fun c => height <=? c_height c) (rev l).
Definition check_conflict (l : list checkpoint) (hash : list Z) (height : Z) : bool :=
  match find (fun c => height =? c_height c) l with Some c => negb (list_eqb (c_hash c) hash) | None => false end.
(** 151-159 from_string *)
Definition no_checkpoint := mkCheck (repeat 0 32) 0 false.
Definition check_from (hash : list Z) (height : Z) : checkpoint :=
  match decode_hash 32 hash with Some h => mkCheck h height true | None => no_checkpoint end.
(** 131-148 operator>> *)
Definition check_read (text : list Z) : option checkpoint :=
  let tokens := split_on (first_word text) 58 true true in
  if negb (len tokens =? 2) then None
  else do h <- decode_hash 32 (hd [] tokens); do n <- deserialize_number max_size_t (last tokens []); Some (mkCheck h n true).
(** 175-178 to_string *)
Definition check_text (c : checkpoint) : list Z := encode_hash (c_hash c) ++ [58] ++ serialize_decimal (c_height c).
(** 105-124 operators *)
Definition check_lt (a b : checkpoint) : bool := c_height a <? c_height b.
Definition check_eq (a b : checkpoint) : bool := list_eqb (c_hash a) (c_hash b) && (c_height a =? c_height b).
