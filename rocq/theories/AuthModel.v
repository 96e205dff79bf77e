(** Model of src/config/authority.cpp and of the parts of src/config/utilities.cpp it
    uses. Addresses are those of Boost.ASIO: an oracle parses and writes their text
    and knows the hosts of a subnet. *)
From Coq Require Import String.
From Verif Require Import Base Bytes RadixModel OpModel TextModel AddressModel VerModel.

(** asio::address: of 32 or of 128 bits (scopes are not modelled) *)
Inductive address := V4 (a : Z) | V6 (a : Z).
Record library := mkLibrary {
  text_of : address -> list Z;                       (* to_string *)
  make_address : list Z -> option address;           (* make_address; None = throws *)
  hosts_have : address -> address -> Z -> bool }.    (* make_network(net, cidr).hosts() finds ip *)
Definition address_eqb (a b : address) : bool :=
  match a, b with V4 x, V4 y => x =? y | V6 x, V6 y => x =? y | _, _ => false end.
(** utilities.cpp:189-204 denormalize: ::ffff:a.b.c.d is a.b.c.d *)
Definition denormalize (ip : address) : address :=
  match ip with V6 x => if x / 2 ^ 32 =? 65535 then V4 (x mod 2 ^ 32) else ip | V4 _ => ip end.
(** 209-252 to_host, to_literal *)
Definition to_host (l : library) (ip : address) : list Z := text_of l (denormalize ip).
Definition to_literal (l : library) (ip : address) : list Z :=
  let host := to_host l ip in if existsb (Z.eqb 58) host then 91 :: host ++ [93] else host.

Record authority := mkAuth { a_ip : address; a_port : Z; a_cidr : Z }.
(** authority.cpp:46-50 the constructor *)
Definition make_authority (ip : address) (port cidr : Z) : authority := mkAuth (denormalize ip) port cidr.
(** 148-158 operator<< *)
Definition auth_text (l : library) (a : authority) : list Z :=
  to_literal l (a_ip a) ++
  (if negb (a_port a =? 0) then 58 :: serialize_decimal (a_port a) else []) ++
  (if negb (a_cidr a =? 0) then 47 :: serialize_decimal (a_cidr a) else []).
(** utilities.cpp:67-74 the characters of the regular expressions *)
Definition ip4_char (c : Z) : bool := is_ascii_number c || (c =? 46).
Definition ip6_char (c : Z) : bool := is_ascii_number c || ((97 <=? c) && (c <=? 102)) || (c =? 58).
(** the longest beginning of such characters, and the rest *)
Fixpoint span (p : Z -> bool) (t : list Z) : list Z * list Z :=
  match t with x :: r => if p x then let (a, b) := span p r in (x :: a, b) else ([], t) | [] => ([], []) end.
(** (m([1-9][0-9]{0,k}))? : the number's text ([] when absent) and the rest; None =
    the mark is there but no such number ends before the next part *)
Definition numbered (mark k : Z) (t : list Z) : option (list Z * list Z) :=
  match t with
  | c :: r => if c =? mark then
      let (d, rest) := span is_ascii_number r in
      match d with
      | [] => None
      | x :: _ => if (x =? 48) || (len d >? k + 1) then None else Some (d, rest)
      end
    else Some ([], t)
  | [] => Some ([], [])
  end.
(** 30-40 to_integer: empty is zero *)
Definition to_integer (max : Z) (t : list Z) : option Z := match t with [] => Some 0 | _ => deserialize_number max t end.
(** 97-119 parse_authority; authority.cpp:136-146 operator>> *)
Definition parse_authority (l : library) (value : list Z) : option authority :=
  do (host, r) <- match value with
                  | [] => None
                  | c :: v => if c =? 91 then
                      let (h, r) := span ip6_char v in
                      match h, r with _ :: _, x :: r' => if x =? 93 then Some (h, r') else None | _, _ => None end
                    else let (h, r) := span ip4_char value in match h with [] => None | _ => Some (h, r) end
                  end;
  do (port, r) <- numbered 58 4 r;
  do (cidr, r) <- numbered 47 2 r;
  match r with
  | _ :: _ => None
  | [] =>
      do ip <- make_address l host;
      do p <- to_integer 65535 port;
      do n <- to_integer 255 cidr;
      if n <=? (match ip with V4 _ => 32 | V6 _ => 128 end) then Some (mkAuth ip p n) else None
  end.
Definition read_authority (l : library) (text : list Z) : option authority := parse_authority l (first_word text).
(** utilities.cpp:281-298 is_member *)
Definition is_member (l : library) (ip subnet : address) (cidr : Z) : bool :=
  match ip, subnet with V4 _, V4 _ | V6 _, V6 _ => hosts_have l ip subnet cidr | _, _ => false end.
(** authority.cpp:107-134 operators *)
Definition auth_eq (l : library) (a b : authority) : bool :=
  if (negb (a_port a =? 0) && negb (a_port b =? 0)) && negb (a_port a =? a_port b) then false
  else if (negb (a_cidr a =? 0) && negb (a_cidr b =? 0)) && negb (a_cidr a =? a_cidr b) then false
  else if a_cidr a =? a_cidr b then address_eqb (a_ip a) (a_ip b)
  else if a_cidr a =? 0 then is_member l (a_ip a) (a_ip b) (a_cidr b)
  else is_member l (a_ip b) (a_ip a) (a_cidr a).
