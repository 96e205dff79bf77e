(** Specification: IP addresses with optional port and subnet. *)
From Verif Require Import Base Bytes AuthModel.

(** An IPv4 address in IPv6: ::ffff:a.b.c.d. *)
Definition mapped (ip : address) : Prop := match ip with V6 x => x / 2 ^ 32 = 65535 | V4 _ => False end.
Definition ranged (ip : address) : Prop := match ip with V4 x => 0 <= x < 2 ^ 32 | V6 x => 0 <= x < 2 ^ 128 end.
(** What is taken of the library: text of an address, other than a mapped one, is
    digits and points, or lower case hexadecimal digits and at least one colon, and
    parses to the address. *)
Definition digit (c : Z) : Prop := 48 <= c <= 57.
Definition lawful (l : library) : Prop :=
  (forall x, ranged (V4 x) -> text_of l (V4 x) <> [] /\ Forall (fun c => digit c \/ c = 46) (text_of l (V4 x)) /\ make_address l (text_of l (V4 x)) = Some (V4 x)) /\
  (forall x, ranged (V6 x) -> ~ mapped (V6 x) -> In 58 (text_of l (V6 x)) /\ Forall (fun c => digit c \/ 97 <= c <= 102 \/ c = 58) (text_of l (V6 x)) /\ make_address l (text_of l (V6 x)) = Some (V6 x)).
(** Subnet bits usable for the kind of address. *)
Definition usable (ip : address) (cidr : Z) : Prop := match ip with V4 _ => 0 <= cidr <= 32 | V6 _ => 0 <= cidr <= 128 end.
(** One of two is unspecified or they are the same. *)
Definition compatible (a b : Z) : Prop := a = 0 \/ b = 0 \/ a = b.
