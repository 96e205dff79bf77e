(** Model of src/crypto/der_parser.cpp and of decode_signature
    (src/crypto/secp256k1/ecdsa.cpp:109-134). *)
From Verif Require Import Base Bytes.

(** data_slice::operator[] (impl/data/data_slice.ipp:255-259): zero past the end. *)
Definition sat (sig : list Z) (i : Z) : Z := nth (Z.to_nat i) sig 0.
(** der_parser.cpp:36-87 is_valid_bip66_signature_encoding *)
Definition is_valid_bip66 (sig : list Z) : bool :=
  let size := len sig in
  if size <? 8 then false
  else if size >? 72 then false
  else if negb (sat sig 0 =? 48) then false
  else if negb (sat sig 1 =? size - 2) then false
  else
    let lenR := sat sig 3 in
    if 5 + lenR >=? size then false
    else
      let lenS := sat sig (5 + lenR) in
      if negb (lenR + lenS + 6 =? size) then false
      else if negb (sat sig 2 =? 2) then false
      else if lenR =? 0 then false
      else if negb (Z.land (sat sig 4) 128 =? 0) then false
      else if (lenR >? 1) && (sat sig 4 =? 0) && (Z.land (sat sig 5) 128 =? 0) then false
      else if negb (sat sig (4 + lenR) =? 2) then false
      else if lenS =? 0 then false
      else if negb (Z.land (sat sig (6 + lenR)) 128 =? 0) then false
      else if (lenS >? 1) && (sat sig (6 + lenR) =? 0) && (Z.land (sat sig (7 + lenR)) 128 =? 0) then false
      else true.

(** ecdsa_signature_parse_der_lax (95-253).  The position is represented by the
    remaining input, so inputlen - pos is its length.  In [option (option A)]
    the outer None is a read beyond the input, the inner None is [return false]. *)
(** 134-138 / 176-180: skip zero length bytes. *)
Fixpoint skip_zeros (n : nat) (rest : list Z) : option (nat * list Z) :=
  match n with
  | O => Some (O, rest)
  | S m => match rest with
           | [] => None
           | b :: r => if b =? 0 then skip_zeros m r else Some (n, rest)
           end
  end.
(** 144-149 / 186-191: accumulate the length (size_t). *)
Fixpoint accumulate (n : nat) (value : Z) (rest : list Z) : option (Z * list Z) :=
  match n with
  | O => Some (value, rest)
  | S m => match rest with
           | [] => None
           | b :: r => accumulate m (wrap u64 (Z.shiftl value 8 + b)) r
           end
  end.
(** 115-163 / 168-208: integer tag, length, and the bound of the content. *)
Definition parse_integer (rest : list Z) : option (option (Z * list Z)) :=
  match rest with
  | [] => Some None
  | tag :: rest =>
    if negb (tag =? 2) then Some None
    else match rest with
    | [] => Some None
    | lenbyte :: rest =>
      let length_ :=
        if negb (Z.land lenbyte 128 =? 0) then
          let lenbyte := lenbyte - 128 in
          if lenbyte >? len rest then Some None
          else match skip_zeros (Z.to_nat lenbyte) rest with
               | None => None
               | Some (n, rest) =>
                   if Z.of_nat n >=? 8 then Some None
                   else match accumulate n 0 rest with None => None | Some p => Some (Some p) end
               end
        else Some (Some (lenbyte, rest)) in
      match length_ with
      | Some (Some (n, rest)) => if n >? len rest then Some None else Some (Some (n, rest))
      | x => x
      end
    end
  end.
(** 214-227 / 230-243: ignore leading zeros, copy at most 32 bytes to the end of
    a zeroed 32 byte field; None inside marks overflow. *)
Definition copy_value (n : Z) (rest : list Z) : option (option (list Z)) :=
  match skip_zeros (Z.to_nat n) rest with
  | None => None
  | Some (m, rest) =>
      if Z.of_nat m >? 32 then Some None
      else if (Nat.ltb (length rest) m) then None
      else Some (Some (repeat 0 (32 - m) ++ firstn m rest))
  end.
Section Lax.
(** secp256k1_ecdsa_signature_parse_compact: the library rejects a value not
    below the group order; the parsed signature is the pair of values. *)
Variable order : Z.
Definition parse_compact (r s : list Z) : option (Z * Z) :=
  if (be_value r <? order) && (be_value s <? order) then Some (be_value r, be_value s) else None.
(** 95-253 *)
Definition parse_der_lax (input : list Z) : option (option (Z * Z)) :=
  match input with
  | [] => Some None
  | tag :: rest =>
    if negb (tag =? 48) then Some None
    else match rest with
    | [] => Some None
    | lenbyte :: rest =>
      let skipped :=
        if negb (Z.land lenbyte 128 =? 0)
        then let lenbyte := lenbyte - 128 in
             if lenbyte >? len rest then None else Some (skipn (Z.to_nat lenbyte) rest)
        else Some rest in
      match skipped with
      | None => Some None
      | Some rest =>
        match parse_integer rest with
        | Some (Some (rlen, rpos)) =>
          match parse_integer (skipn (Z.to_nat rlen) rpos) with
          | Some (Some (slen, spos)) =>
            match copy_value rlen rpos, copy_value slen spos with
            | Some (Some r), Some (Some s) =>
                match parse_compact r s with Some p => Some (Some p) | None => Some (Some (0, 0)) end
            | Some _, Some _ => Some (Some (0, 0))
            | _, _ => None
            end
          | x => match x with None => None | _ => Some None end
          end
        | x => match x with None => None | _ => Some None end
        end
      end
    end
  end.
(** ecdsa.cpp:109-134 decode_signature *)
Definition decode_signature (strict : bool) (der : list Z) : option (option (Z * Z)) :=
  if len der =? 0 then Some None
  else if strict && negb (is_valid_bip66 der) then Some None
  else parse_der_lax der.
End Lax.
