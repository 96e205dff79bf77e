(** Model of src/wallet/addresses/bitcoin_uri.cpp, of uri_reader::parse
    (include/.../wallet/addresses/uri_reader.hpp) and of the calls they make to
    src/wallet/addresses/uri.cpp.  Boost.URL is not modelled: [url_parse] gives the
    components it finds in a text and [url_render] is the text it builds. *)
From Coq Require Import String.
From Verif Require Import Base Bytes RadixModel OpModel TextModel AmountModel AddressModel StealthModel.

(** ** std::map<std::string, std::string>: the terms in key order *)
(** std::char_traits<char>::compare, of unsigned characters *)
Fixpoint text_lt (a b : list Z) : bool :=
  match a, b with
  | _, [] => false
  | [], _ :: _ => true
  | x :: a', y :: b' => (x <? y) || ((x =? y) && text_lt a' b')
  end.
Definition terms := list (list Z * list Z).
(** operator[] and assignment *)
Fixpoint map_set (k v : list Z) (m : terms) : terms :=
  match m with
  | [] => [(k, v)]
  | (k', v') :: r => if text_lt k k' then (k, v) :: m else if text_lt k' k then (k', v') :: map_set k v r else (k', v) :: r
  end.
(** find *)
Fixpoint map_get (k : list Z) (m : terms) : option (list Z) :=
  match m with
  | [] => None
  | (k', v') :: r => if text_lt k k' then None else if text_lt k' k then map_get k r else Some v'
  end.

(** the components of uri.cpp:82-185 (scheme as Boost.URL has it, before
    ascii_to_lower; params decoded and in order) *)
Record url_parts := mkParts { p_scheme : list Z; p_authority : option (list Z); p_path : list Z; p_fragment : option (list Z); p_params : terms }.
(** uri.cpp:208-219 decode_query *)
Definition decode_query (params : terms) : terms := fold_left (fun out p => map_set (fst p) (snd p) out) params [].

(** bitcoin_uri.hpp:88-91 the members *)
Record uri := mkUri { u_scheme : list Z; u_address : list Z; u_query : terms }.
(** bitcoin_uri.cpp:32-37 the names; 38-40 default constructor *)
Definition bitcoin_scheme := chars "bitcoin"%string.
Definition k_amount := chars "amount"%string.
Definition k_label := chars "label"%string.
Definition k_message := chars "message"%string.
Definition k_r := chars "r"%string.
Definition k_req := chars "req-"%string.
Definition no_uri := mkUri [] [] [].
(** 52-56 operator bool *)
Definition uri_bool (u : uri) : bool :=
  negb (match u_address u with [] => true | _ => false end) ||
  negb (match u_query u with [] => true | _ => false end) ||
  negb (match u_scheme u with [] => true | _ => false end).
(** 110-119 parameter, address *)
Definition parameter (u : uri) (key : list Z) : list Z := match map_get key (u_query u) with Some v => v | None => [] end.
(** 75-80 amount: None is the unset local (decode_base10 leaves it when it fails) *)
Definition uri_amount (u : uri) : option Z := decode_base10 (parameter u k_amount) 8 false.
(** 82-95 label, message, r *)
Definition uri_label (u : uri) := parameter u k_label.
Definition uri_message (u : uri) := parameter u k_message.
Definition uri_r (u : uri) := parameter u k_r.
(** 124-143 set_amount(uint64_t), set_label, set_message, set_r *)
Definition set_term (u : uri) (k v : list Z) : uri := mkUri (u_scheme u) (u_address u) (map_set k v (u_query u)).
Definition set_amount (u : uri) (satoshis : Z) : uri := set_term u k_amount (encode_base10 satoshis 8).
Definition set_label (u : uri) (v : list Z) : uri := set_term u k_label v.
Definition set_message (u : uri) (v : list Z) : uri := set_term u k_message v.
Definition set_r (u : uri) (v : list Z) : uri := set_term u k_r v.

Section Uri.
Variable hash : list Z -> list Z.
Variable url_parse : list Z -> option url_parts.
Variable url_render : list Z -> list Z -> terms -> list Z.

(** 60-69 encoded: out.set_scheme, out.set_path, out.encode_query *)
Definition uri_encoded (u : uri) : list Z := url_render bitcoin_scheme (u_address u) (u_query u).
(** 145-162 set_address(std::string) *)
Definition set_address (u : uri) (address : list Z) : bool * uri :=
  match payment_from_string hash address with
  | Some _ => (true, mkUri (u_scheme u) address (u_query u))
  | None => match stealth_from_string hash address with
            | Some _ => (true, mkUri (u_scheme u) address (u_query u))
            | None => (false, u)
            end
  end.
(** 164-172 set_address(payment_address), set_address(stealth_address) *)
Definition set_payment (u : uri) (value : list Z) : uri := mkUri (u_scheme u) (payment_encoded value) (u_query u).
Definition set_stealth (u : uri) (a : saddress) : uri := mkUri (u_scheme u) (encode_base58 (stealth_to_chunk hash a)) (u_query u).
(** 174-183 set_amount(std::string), strict *)
Definition set_amount_text (u : uri) (satoshis : list Z) : bool * uri :=
  match decode_base10 satoshis 8 true with Some n => (true, set_amount u n) | None => (false, u) end.
(** 188-197 set_scheme *)
Definition set_scheme (u : uri) (scheme : list Z) : bool * uri :=
  if list_eqb scheme bitcoin_scheme then (true, mkUri scheme (u_address u) (u_query u)) else (false, u).
(** 206-210 set_path; 199-204 set_authority *)
Definition set_path (u : uri) (path : list Z) : bool * uri :=
  match u_address u with [] => set_address u path | _ => (false, u) end.
Definition set_authority (u : uri) (authority : list Z) : bool * uri := set_path u authority.
(** 212-215 set_fragment *)
Definition set_fragment (u : uri) (fragment : list Z) : bool * uri := (false, u).
(** 217-238 set_parameter *)
Definition required (key : list Z) : bool := list_eqb (firstn 4 key) k_req.
Definition set_parameter (u : uri) (key value : list Z) : bool * uri :=
  if list_eqb key k_amount then set_amount_text u value
  else
    let u' := if list_eqb key k_label then set_label u value
              else if list_eqb key k_message then set_message u value
              else if list_eqb key k_r then set_r u value else u in
    (negb (required key), u').
(** 255-259 operator== *)
Definition terms_eqb (a b : terms) : bool :=
  (length a =? length b)%nat && forallb (fun p => list_eqb (fst (fst p)) (fst (snd p)) && list_eqb (snd (fst p)) (snd (snd p))) (combine a b).
Definition uri_eqb (a b : uri) : bool :=
  list_eqb (u_scheme a) (u_scheme b) && list_eqb (u_address a) (u_address b) && terms_eqb (u_query a) (u_query b).
(** uri_reader.hpp:66-76 the loop over the query *)
Fixpoint read_terms (query : terms) (u : uri) : option uri :=
  match query with
  | [] => Some u
  | (k, v) :: r => match k with
                   | [] => read_terms r u
                   | _ => let (ok, u') := set_parameter u k v in if ok then read_terms r u' else None
                   end
  end.
(** uri_reader.hpp:42-79 parse; a failing setter returns the default instance *)
Definition uri_read (text : list Z) : option uri :=
  do parsed <- url_parse text;
  let (ok, u) := set_scheme no_uri (ascii_to_lower (p_scheme parsed)) in
  if negb ok then None
  else
    let (ok, u) := match p_authority parsed with Some a => set_authority u a | None => (true, u) end in
    if negb ok then None
    else
      let (ok, u) := match p_path parsed with [] => (true, u) | _ => set_path u (p_path parsed) end in
      if negb ok then None
      else
        let (ok, u) := match p_fragment parsed with Some f => set_fragment u f | None => (true, u) end in
        if negb ok then None
        else read_terms (decode_query (p_params parsed)) u.
(** bitcoin_uri.cpp:42-45 from text *)
Definition uri_from (text : list Z) : uri := match uri_read text with Some u => u | None => no_uri end.
End Uri.
