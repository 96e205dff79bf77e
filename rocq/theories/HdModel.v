(** Model of src/wallet/keys/hd_public.cpp and hd_private.cpp. *)
From Coq Require Import String.
From Verif Require Import Base Bytes RadixModel AddressModel EcModel.

(** hd_public.hpp:44-53 hd_lineage *)
Record lineage := mklineage { l_prefixes : Z; l_depth : Z; l_parent : Z; l_child : Z }.
Record hdpub := mkhdpub { p_valid : bool; p_chain : list Z; p_lineage : lineage; p_point : list Z }.
Record hdprv := mkhdprv { v_public : hdpub; v_secret : list Z }.
Definition null32 : list Z := repeat 0 32.
(** hd_public.cpp:48-52; hd_private.cpp:39-42 *)
Definition no_public : hdpub := mkhdpub false null32 (mklineage 0 0 0 0) (repeat 0 33).
Definition no_private : hdprv := mkhdprv no_public null32.
(** hd_public.hpp:66-69; hd_private.hpp:46-56 *)
Definition public_prefix (prefixes : Z) : Z := prefixes mod 2 ^ 32.
Definition private_prefix (prefixes : Z) : Z := (prefixes / 2 ^ 32) mod 2 ^ 32.
Definition to_prefixes (private public : Z) : Z := Z.lor ((private * 2 ^ 32) mod 2 ^ 64) public.

Section Hd.
Variable c : curve.
Variable hmac512 : list Z -> list Z -> list Z.  (* hmac<sha512>::code(data, key) *)
Variable short_hash : list Z -> list Z.         (* bitcoin_short_hash *)
Variable hash256 : list Z -> list Z.            (* bitcoin_hash *)

(** hd_public.cpp:87-93 from_secret *)
Definition public_from_secret (secret chain : list Z) (l : lineage) : hdpub :=
  match secret_to_public c secret with Some point => mkhdpub true chain l point | None => no_public end.
(** hd_private.cpp:94-99 private constructor *)
Definition private_of (secret chain : list Z) (l : lineage) : hdprv :=
  mkhdprv (public_from_secret secret chain l) secret.
(** hd_private.cpp:86-91, 104-120: constructor from secret and chain code *)
Definition private_make (secret chain : list Z) (prefixes : Z) : hdprv :=
  mkhdprv (v_public (if verify_secret secret then private_of secret chain (mklineage prefixes 0 0 0) else no_private)) secret.
(** hd_private.cpp:122-130 from_entropy *)
Definition private_from_entropy (entropy : list Z) (prefixes : Z) : hdprv :=
  let i := hmac512 entropy (chars "Bitcoin seed"%string) in private_make (firstn 32 i) (skipn 32 i) prefixes.
(** hd_private.cpp:139-168 from_key(key, prefixes): the 82 bytes are read in
    order; the last four are not read. *)
Definition field (from size : nat) (key : list Z) : list Z := firstn size (skipn from key).
Definition private_from_key (key : list Z) (prefixes : Z) : hdprv :=
  let l := mklineage prefixes (be_value (field 4 1 key)) (be_value (field 5 4 key)) (be_value (field 9 4 key)) in
  if negb (be_value (field 0 4 key) =? private_prefix prefixes) then no_private
  else if negb (be_value (field 45 1 key) =? 0) then no_private
  else private_of (field 46 32 key) (field 13 32 key) l.
(** 132-137 from_key(key, public_prefix) *)
Definition private_from_key32 (key : list Z) (public : Z) : hdprv :=
  private_from_key key (to_prefixes (be_value (field 0 4 key)) public).
(** 170-186 from_string *)
Definition private_from_string (text : list Z) (prefixes : Z) : hdprv :=
  match decode_base58_array 82 text with Some key => private_from_key key prefixes | None => no_private end.
Definition private_from_string32 (text : list Z) (public : Z) : hdprv :=
  match decode_base58_array 82 text with Some key => private_from_key32 key public | None => no_private end.
(** hd_public.cpp:109-134 from_key(key, prefix); 95-107; 136-144 *)
Definition public_from_key (key : list Z) (prefix : Z) : hdpub :=
  let l := mklineage prefix (be_value (field 4 1 key)) (be_value (field 5 4 key)) (be_value (field 9 4 key)) in
  if negb (be_value (field 0 4 key) =? prefix) then no_public
  else mkhdpub true (field 13 32 key) l (field 45 33 key).
Definition public_from_string (text : list Z) (prefix : Z) : hdpub :=
  match decode_base58_array 82 text with Some key => public_from_key key prefix | None => no_public end.
Definition public_from_any_string (text : list Z) : hdpub :=
  match decode_base58_array 82 text with Some key => public_from_key key (be_value (field 0 4 key)) | None => no_public end.

(** hd_public.cpp:191-202 to_hd_key: build_array of the slices with four zero
    bytes to spare, then the checksum. *)
Definition public_to_key (p : hdpub) : list Z :=
  insert_checksum hash256 4
    (be_bytes 4 (public_prefix (l_prefixes (p_lineage p))) ++ [l_depth (p_lineage p)] ++ be_bytes 4 (l_parent (p_lineage p)) ++
     be_bytes 4 (l_child (p_lineage p)) ++ p_chain p ++ p_point p ++ repeat 0 4).
(** hd_private.cpp:218-232 to_hd_key *)
Definition private_to_key (v : hdprv) : list Z :=
  let p := v_public v in
  insert_checksum hash256 4
    (be_bytes 4 (private_prefix (l_prefixes (p_lineage p))) ++ [l_depth (p_lineage p)] ++ be_bytes 4 (l_parent (p_lineage p)) ++
     be_bytes 4 (l_child (p_lineage p)) ++ p_chain p ++ [0] ++ v_secret v ++ repeat 0 4).
(** hd_public.cpp:162-165; hd_private.cpp:199-202 encoded *)
Definition public_encoded (p : hdpub) : list Z := encode_base58 (public_to_key p).
Definition private_encoded (v : hdprv) : list Z := encode_base58 (private_to_key v).
(** hd_public.cpp:234-237 fingerprint *)
Definition fingerprint (p : hdpub) : Z := be_value (firstn 4 (short_hash (p_point p))).
(** hd_private.cpp:234-241 to_public *)
Definition to_public (v : hdprv) : hdpub :=
  if negb (p_valid (v_public v)) then no_public
  else public_from_key (public_to_key (v_public v)) (public_prefix (l_prefixes (p_lineage (v_public v)))).
(** hd_private.cpp:243-270 derive_private *)
Definition hd_first_hardened_key : Z := 2 ^ 31.
Definition derive_private (v : hdprv) (index : Z) : hdprv :=
  let p := v_public v in
  let data := if index >=? hd_first_hardened_key then [0] ++ v_secret v ++ be_bytes 4 index else p_point p ++ be_bytes 4 index in
  let i := hmac512 data (p_chain p) in
  match secret_add (v_secret v) (firstn 32 i) with
  | None => no_private
  | Some child =>
    if l_depth (p_lineage p) =? 255 then no_private
    else private_of child (skipn 32 i) (mklineage (l_prefixes (p_lineage p)) (l_depth (p_lineage p) + 1) (fingerprint p) index)
  end.
(** 272-275 *)
Definition private_derive_public (v : hdprv) (index : Z) : hdpub := to_public (derive_private v index).
(** hd_public.cpp:204-229 derive_public *)
Definition derive_public (p : hdpub) (index : Z) : hdpub :=
  if index >=? hd_first_hardened_key then no_public
  else let i := hmac512 (p_point p ++ be_bytes 4 index) (p_chain p) in
       match point_tweak c (p_point p) (firstn 32 i) with
       | None => no_public
       | Some child =>
         if l_depth (p_lineage p) =? 255 then no_public
         else mkhdpub true (skipn 32 i) (mklineage (l_prefixes (p_lineage p)) (l_depth (p_lineage p) + 1) (fingerprint p) index) child
       end.
(** hd_private.cpp:300-310 and hd_public.cpp:258-268 operator>>: the static
    factory's result is discarded; the second component is "throws". *)
Definition private_stream_in (to : hdprv) (text : list Z) : hdprv * bool := (to, negb (p_valid (v_public to))).
Definition public_stream_in (to : hdpub) (text : list Z) : hdpub * bool := (to, negb (p_valid to)).
End Hd.
