(** Specification of bitcoin URIs (BIP21, BIP72), of the components a URL parser
    found in the text. *)
From Coq Require Import String.
From Verif Require Import Base Bytes RadixModel TextSpec AmountSpec AddressModel StealthModel AmountModel UriModel.

(** The scheme, in any letter case. *)
Definition same_letter (x y : Z) : Prop := x = y \/ (65 <= x <= 90 /\ y = x + 32).
Definition is_bitcoin (scheme : list Z) : Prop := Forall2 same_letter scheme (chars "bitcoin"%string).
(** The text of a payment address or of a stealth address (C56 and C82 say which). *)
Definition is_address (hash : list Z -> list Z) (t : list Z) : Prop :=
  payment_from_string hash t <> None \/ stealth_from_string hash t <> None.
(** Where the address is: absent, in the authority or in the path, never in both. *)
Definition located (hash : list Z -> list Z) (p : url_parts) (address : list Z) : Prop :=
  (p_authority p = None /\ p_path p = [] /\ address = []) \/
  (p_authority p = Some address /\ p_path p = [] /\ is_address hash address) \/
  (p_authority p = None /\ p_path p = address /\ is_address hash address).
(** The value of a parameter: that of its last occurrence. *)
Definition last_value (ps : list (list Z * list Z)) (k v : list Z) : Prop :=
  exists a b, ps = a ++ (k, v) :: b /\ ~ In k (map fst b).
(** A number of bitcoins that is exactly n satoshis. *)
Definition btc_amount (t : list Z) (n : Z) : Prop :=
  exists whole fraction m, amount_form t whole fraction /\ digits_mean (whole ++ fraction) m /\ exact_units m (len fraction) 8 n /\ n < 2 ^ 64.
(** The parameters a reader must refuse when it does not know them: none is known. *)
Definition must_know (k : list Z) : Prop := exists r, k = chars "req-"%string ++ r.
(** The text is a payment request for [address]. *)
Definition request (hash : list Z -> list Z) (p : url_parts) (address : list Z) : Prop :=
  is_bitcoin (p_scheme p) /\ p_fragment p = None /\ located hash p address /\
  (forall k, In k (map fst (p_params p)) -> ~ must_know k) /\
  (forall v, last_value (p_params p) (chars "amount"%string) v -> exists n, btc_amount v n).
(** Objects made by the public interface: from any text, and by the setters. *)
Inductive made (hash : list Z -> list Z) (url_parse : list Z -> option url_parts) : uri -> Prop :=
| made_default : made hash url_parse no_uri
| made_text t : made hash url_parse (uri_from hash url_parse t)
| made_amount u n : made hash url_parse u -> 0 <= n < 2 ^ 64 -> made hash url_parse (set_amount u n)
| made_label u v : made hash url_parse u -> made hash url_parse (set_label u v)
| made_message u v : made hash url_parse u -> made hash url_parse (set_message u v)
| made_r u v : made hash url_parse u -> made hash url_parse (set_r u v)
| made_address u t : made hash url_parse u -> made hash url_parse (snd (set_address hash u t))
| made_payment u v : made hash url_parse u -> is_address hash (payment_encoded v) -> made hash url_parse (set_payment u v)
| made_stealth u a : made hash url_parse u -> is_address hash (encode_base58 (stealth_to_chunk hash a)) -> made hash url_parse (set_stealth hash u a)
| made_scheme u s : made hash url_parse u -> made hash url_parse (snd (set_scheme u s))
| made_path u t : made hash url_parse u -> made hash url_parse (snd (set_path hash u t))
| made_authority u t : made hash url_parse u -> made hash url_parse (snd (set_authority hash u t))
| made_parameter u k v : made hash url_parse u -> made hash url_parse (snd (set_parameter u k v)).
(** What Boost.URL is taken to do: a text it builds from an empty or base58 path
    parses to the same components. *)
Definition url_law (url_parse : list Z -> option url_parts) (url_render : list Z -> list Z -> list (list Z * list Z) -> list Z) : Prop :=
  forall path params, Forall (fun c => In c (chars "123456789ABCDEFGHJKLMNPQRSTUVWXYZabcdefghijkmnopqrstuvwxyz"%string)) path ->
  url_parse (url_render (chars "bitcoin"%string) path params) = Some (mkParts (chars "bitcoin"%string) None path None params).
