(** Model of script numbers and typed stack elements:
    include/bitcoin/system/impl/machine/number_chunk.ipp, number_integer.ipp,
    number_boolean.ipp and the conversions of stack_variant.ipp. *)
From Verif Require Import Base Bytes MathModel EndianModel.

(** machine/number.hpp:30-31. *)
Definition positive_sign_byte : Z := 0.
Definition negative_sign_byte : Z := 128.

(** number_chunk.ipp:34-40 chunk::from_bool. *)
Definition chunk_from_bool (b : bool) : list Z := if b then [1] else [].

(** Replace the last element (bytes.back() = f(bytes.back())). *)
Fixpoint map_last (f : Z -> Z) (l : list Z) : list Z :=
  match l with [] => [] | [x] => [f x] | x :: t => x :: map_last f t end.

(** number_chunk.ipp:42-71 chunk::from_integer; None = undefined behaviour
    (the asserted negation overflow of the minimum int64). *)
Definition chunk_from_integer (vary : Z) : option (list Z) :=
  if vary =? 0 then Some []
  else
    do value <- absolute i64 vary;
    let negated := is_negated u64 value in
    let negative := vary <? 0 in
    let bytes := to_little_endian_chunk u64 value in
    Some (if negated && negative then bytes ++ [negative_sign_byte]
          else if negated then bytes ++ [positive_sign_byte]
          else if negative then map_last (to_negated u8) bytes
          else bytes).

(** types.hpp:74-79 signed_type<Bytes>. *)
Definition signed_type (n : Z) : ity :=
  if n =? 1 then i8 else if n =? 2 then i16 else if n <=? 4 then i32 else i64.

(** math/limits.hpp:100-114 bitcoin_max/bitcoin_min. *)
Definition bitcoin_max (n : Z) : Z := 2 ^ (8 * n - 1) - 1.
Definition bitcoin_min (n : Z) : Z := - bitcoin_max n.

(** number_integer.ipp:93-98, 45-51: integer<Size>::from_integer.  The result is
    (success, out). *)
Definition integer_from_integer (n : Z) (vary : Z) : bool * Z :=
  (negb (is_limited3 (signed_type n) i64 vary (bitcoin_min n) (bitcoin_max n)),
   wrap (signed_type n) vary).

(** number_integer.ipp:53-75 integer<Size>::from_chunk; None = undefined. *)
Definition integer_from_chunk (n : Z) (vary : list Z) : option (bool * Z) :=
  match vary with
  | [] => Some (true, 0)
  | _ =>
    if len vary >? n then Some (false, 0)
    else
      let T := signed_type n in
      let out := from_little_data T (Z.to_nat (bits T / 8)) vary in
      if is_negated u8 (last vary 0) then omap (fun o => (true, o)) (to_unnegated T out)
      else Some (true, out)
  end.

(** number_boolean.ipp:96-101 is_sign_byte; 40-63 from_chunk; 33-38, 65-73
    from_integer; 75-88 from_chunk (minimal); 90-94 from_chunk_strict. *)
Definition is_sign_byte (b : Z) : bool :=
  (b =? positive_sign_byte) || (b =? negative_sign_byte).
Definition boolean_from_chunk (vary : list Z) : bool :=
  match vary with
  | [] => false
  | _ => if negb (is_sign_byte (last vary 0)) then true
         else existsb (fun b => negb (b =? 0)) (removelast vary)
  end.
Definition boolean_from_integer (vary : Z) : bool := negb (vary =? 0).
Definition boolean_from_integer_minimal (vary : Z) : bool * bool :=
  ((vary =? 0) || (vary =? 1), negb (vary =? 0)).
Definition boolean_from_chunk_minimal (vary : list Z) : bool * bool :=
  match vary with
  | [] => (true, false)
  | b :: _ => ((len vary =? 1) && (b =? 1), boolean_from_chunk vary)
  end.
Definition boolean_from_chunk_strict (vary : list Z) : bool :=
  match vary with [] => false | _ => true end.

(** machine/stack.hpp: stack_variant.  chunk_xptr is a pointer to immutable
    bytes; it is modelled by the bytes. *)
Inductive variant := VBool (b : bool) | VInt (i : Z) | VChunk (c : list Z).

(** stack_variant.ipp:31-65 peek_signed<Bytes> of the top element. *)
Definition variant_signed (n : Z) (v : variant) : option (bool * Z) :=
  match v with
  | VBool b => Some (true, if b then 1 else 0)
  | VInt i => Some (integer_from_integer n i)
  | VChunk c => integer_from_chunk n c
  end.
(** stack_variant.ipp:72-97 peek_bool; 100-124 peek_strict_bool; 128-152
    peek_minimal_bool (result, value). *)
Definition variant_bool (v : variant) : bool :=
  match v with VBool b => b | VInt i => boolean_from_integer i | VChunk c => boolean_from_chunk c end.
Definition variant_strict_bool (v : variant) : bool :=
  match v with VBool b => b | VInt i => boolean_from_integer i | VChunk c => boolean_from_chunk_strict c end.
Definition variant_minimal_bool (v : variant) : bool * bool :=
  match v with
  | VBool b => (true, b)
  | VInt i => boolean_from_integer_minimal i
  | VChunk c => boolean_from_chunk_minimal c
  end.
(** stack_variant.ipp:155-180 peek_size; 183-224 peek_chunk. *)
Definition variant_chunk (v : variant) : option (list Z) :=
  match v with
  | VBool b => Some (chunk_from_bool b)
  | VInt i => chunk_from_integer i
  | VChunk c => Some c
  end.
Definition variant_size (v : variant) : option Z := omap len (variant_chunk v).
(** stack_variant.ipp:226-253 peek_nonempty contribution of one element. *)
Definition variant_nonempty (v : variant) : bool :=
  match v with VBool b => b | VInt i => negb (i =? 0) | VChunk c => negb (len c =? 0) end.

Fixpoint bytes_eqb (a b : list Z) : bool :=
  match a, b with
  | [], [] => true
  | x :: a', y :: b' => (x =? y) && bytes_eqb a' b'
  | _, _ => false
  end.
(** stack_variant.ipp:262-335 equal_chunks. *)
Definition to_int (b : bool) : Z := if b then 1 else 0.
Definition equal_chunks (left right : variant) : option bool :=
  match left, right with
  | VBool a, VBool b => Some (Bool.eqb b a)
  | VBool a, VInt b => Some (b =? to_int a)
  | VBool a, VChunk b => Some (bytes_eqb b (chunk_from_bool a))
  | VInt a, VBool b => Some (to_int b =? a)
  | VInt a, VInt b => Some (b =? a)
  | VInt a, VChunk b => omap (fun x => bytes_eqb b x) (chunk_from_integer a)
  | VChunk a, VBool b => Some (bytes_eqb (chunk_from_bool b) a)
  | VChunk a, VInt b => omap (fun x => bytes_eqb x a) (chunk_from_integer b)
  | VChunk a, VChunk b => Some (bytes_eqb b a)
  end.
