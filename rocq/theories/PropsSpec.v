(** Specification: JSON (RFC 8259) texts, over bytes. The escapes \uXXXX are left out:
    these are some of the JSON texts. *)
From Coq Require Import String.
From Verif Require Import Base Bytes TextSpec VerSpec.

(** A JSON value; numbers are integers, an object is its members in order. *)
Inductive json :=
| Jnull | Jbool (b : bool) | Jstring (s : list Z) | Jnumber (n : Z)
| Jarray (vs : list json) | Jobject (ms : list (list Z * json)).
(** Whitespace: space, tab, line feed, return. *)
Definition blank (t : list Z) : Prop := Forall (fun c => In c [32; 9; 10; 13]) t.
(** What is between the quotes of a string: control characters, the quote and the
    backslash only by an escape. *)
Inductive spells : list Z -> list Z -> Prop :=
| spells_end : spells [] []
| spells_plain c s t : 32 <= c -> c <> 34 -> c <> 92 -> spells s t -> spells (c :: s) (c :: t)
| spells_escape e c s t :
    In (e, c) [(34, 34); (92, 92); (47, 47); (98, 8); (102, 12); (110, 10); (114, 13); (116, 9)] ->
    spells s t -> spells (c :: s) (92 :: e :: t).
(** An integer: no leading zeros, a minus when below zero (minus zero is zero). *)
Definition integer (t : list Z) (n : Z) : Prop :=
  canonical_number t n \/ exists t', t = 45 :: t' /\ canonical_number t' (- n).
(** The texts of a value (the first lists of codes are null, true, false). *)
Inductive says : json -> list Z -> Prop :=
| says_blank v t w w' : blank w -> blank w' -> says v t -> says v (w ++ t ++ w')
| says_null : says Jnull [110; 117; 108; 108] 
| says_true : says (Jbool true) [116; 114; 117; 101] 
| says_false : says (Jbool false) [102; 97; 108; 115; 101] 
| says_string s t : spells s t -> says (Jstring s) (34 :: t ++ [34])
| says_number n t : integer t n -> says (Jnumber n) t
| says_array vs t : items vs t -> says (Jarray vs) (91 :: t ++ [93])
| says_object ms t : members ms t -> says (Jobject ms) (123 :: t ++ [125])
with items : list json -> list Z -> Prop :=
| items_none t : blank t -> items [] t
| items_one v t : says v t -> items [v] t
| items_more v t v' vs t' : says v t -> items (v' :: vs) t' -> items (v :: v' :: vs) (t ++ 44 :: t')
with members : list (list Z * json) -> list Z -> Prop :=
| members_none t : blank t -> members [] t
| members_one m t : member m t -> members [m] t
| members_more m t m' ms t' : member m t -> members (m' :: ms) t' -> members (m :: m' :: ms) (t ++ 44 :: t')
with member : list Z * json -> list Z -> Prop :=
| member_pair s t v u w w' : blank w -> blank w' -> spells s t -> says v u ->
    member (s, v) (w ++ 34 :: t ++ 34 :: w' ++ 58 :: u).
(** Texts without control characters, quotes or backslashes. *)
Definition plain (s : list Z) : Prop := Forall (fun c => 32 <= c /\ c <> 34 /\ c <> 92) s.
(** A condition on every number, string and name in a value. *)
Inductive all_in (N : Z -> Prop) (T : list Z -> Prop) : json -> Prop :=
| all_null : all_in N T Jnull
| all_bool b : all_in N T (Jbool b)
| all_string s : T s -> all_in N T (Jstring s)
| all_number n : N n -> all_in N T (Jnumber n)
| all_array vs : (forall v, In v vs -> all_in N T v) -> all_in N T (Jarray vs)
| all_object ms : (forall s v, In (s, v) ms -> T s /\ all_in N T v) -> all_in N T (Jobject ms).
