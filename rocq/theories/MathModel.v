(** Model of include/bitcoin/system/impl/math/*.ipp (integral arithmetic).

    Every function takes the [ity] of its template parameter.  [None] is
    undefined behaviour (signed overflow, division by zero, oversized shift).
    Operands of types narrower than int are promoted, as in C++. *)
From Verif Require Import Base.

Inductive outcome := Val (z : Z) | Throws | UB.

(** impl/math/sign.ipp:100-112 is_negative (signed / unsigned overloads). *)
Definition is_negative (T : ity) (v : Z) : bool := if sg T then v <? 0 else false.

(** impl/math/overflow.ipp:59-67 (signed), 69-73 (unsigned) is_add_overflow.
    The subtraction inside the comparison is performed in the promoted type. *)
Definition is_add_overflow (T : ity) (left right : Z) : option bool :=
  if sg T then
    let negative_right := right <? 0 in
    if right =? 0 then Some false
    else
      do c1 <- (if negative_right
                then omap (fun m => left <? m) (arith (promote T) (imin T - right))
                else Some true);
      if c1 then
        if negative_right then Some true
        else omap (fun m => m <? left) (arith (promote T) (imax T - right))
      else Some false
  else omap (fun m => m <? right) (arith (promote T) (imax T - left)).

(** impl/math/overflow.ipp:75-83 (signed), 85-89 (unsigned) is_subtract_overflow. *)
Definition is_subtract_overflow (T : ity) (left right : Z) : option bool :=
  if sg T then
    let negative_right := right <? 0 in
    if right =? 0 then Some false
    else
      do c1 <- (if negative_right
                then omap (fun m => m <? left) (arith (promote T) (imax T + right))
                else Some true);
      if c1 then
        if negative_right then Some true
        else omap (fun m => left <? m) (arith (promote T) (imin T + right))
      else Some false
  else Some (left <? right).

(** impl/math/overflow.ipp:94-98 is_multiply_overflow (unsigned only). *)
Definition is_multiply_overflow (T : ity) (left right : Z) : bool :=
  negb (right =? 0) && (imax T / right <? left).

(** impl/math/overflow.ipp:53-57 is_negate_overflow. *)
Definition is_negate_overflow (T : ity) (v : Z) : bool := v =? imin T.

(** impl/math/addition.ipp:35-41 add, 80-86 subtract (single type): operate in
    the promoted type, then convert back (depromote). *)
Definition add (T : ity) (left right : Z) : option Z :=
  omap (wrap T) (arith (promote T) (left + right)).
Definition subtract (T : ity) (left right : Z) : option Z :=
  omap (wrap T) (arith (promote T) (left - right)).

(** impl/math/sign.ipp:60-64 negate (signed), 68-72 (unsigned, twos_complement
    84-95: add1(~value)). *)
Definition negate (T : ity) (v : Z) : option Z :=
  if sg T then omap (wrap T) (arith (promote T) (- v))
  else Some (wrap T (wrap T (Z.lnot v) + 1)).

(** impl/math/sign.ipp:46-57 absolute. *)
Definition absolute (T : ity) (v : Z) : option Z :=
  if sg T then
    omap (wrap (unsigned_of T)) (if v <? 0 then negate T v else Some v)
  else Some v.

(** impl/math/overflow.ipp:152-223 the throwing wrappers. *)
Definition safe (guard : option bool) (r : option Z) : outcome :=
  match guard with
  | None => UB
  | Some true => Throws
  | Some false => match r with Some z => Val z | None => UB end
  end.
Definition safe_negate T v := safe (Some (is_negate_overflow T v))
  (omap (wrap T) (arith (promote T) (- v))).
Definition safe_add T l r := safe (is_add_overflow T l r) (add T l r).
Definition safe_subtract T l r := safe (is_subtract_overflow T l r) (subtract T l r).
Definition safe_multiply T l r := safe (Some (is_multiply_overflow T l r))
  (omap (wrap T) (arith (promote T) (l * r))).

(** impl/math/addition.ipp:124-137 ceilinged_add; 173-187 floored_subtract. *)
Definition ceilinged_add (T : ity) (left right : Z) : option Z :=
  do o <- is_add_overflow T left right;
  if o then Some (if sg T then (if right <? 0 then imin T else imax T) else imax T)
  else add T left right.
Definition floored_subtract (T : ity) (left right : Z) : option Z :=
  do o <- is_subtract_overflow T left right;
  if o then Some (if sg T then (if right <? 0 then imax T else imin T) else imin T)
  else subtract T left right.

(** impl/math/multiplication.ipp:44-49 ceilinged_multiply; 30-42. *)
Definition ceilinged_multiply (T : ity) (left right : Z) : option Z :=
  if is_multiply_overflow T left right then Some (imax T)
  else omap (wrap T) (arith (promote T) (left * right)).
Definition is_multiple (product value : Z) : bool :=
  if value =? 0 then product =? 0 else Z.rem product value =? 0.
Definition is_product (product left right : Z) : bool :=
  if (left =? 0) || (right =? 0) then product =? 0
  else (Z.rem product left =? 0) && (Z.quot product left =? right).

(** impl/math/sign.ipp:114-154 mixed-sign comparison.  [L], [R] are the types
    of the operands; to_unsigned is a same-width conversion. *)
Definition is_greater (L R : ity) (left right : Z) : bool :=
  match sg L, sg R with
  | false, true => (right <? 0) || (wrap (unsigned_of R) right <? left)
  | true, false => negb (left <? 0) && (right <? wrap (unsigned_of L) left)
  | _, _ => right <? left
  end.
Definition is_lesser (L R : ity) (left right : Z) : bool :=
  match sg L, sg R with
  | true, false => (left <? 0) || (wrap (unsigned_of L) left <? right)
  | false, true => negb (right <? 0) && (left <? wrap (unsigned_of R) right)
  | _, _ => left <? right
  end.

(** impl/math/limits.ipp:69-76 limit; 46-51 is_limited; 55-67 and 32-44 the
    overloads with defaulted bounds. [R] = Result/By, [I] = Integer. *)
Definition limit3 (R I : ity) (value lo hi : Z) : Z :=
  if is_lesser I R value lo then lo
  else if is_greater I R value hi then hi else wrap R value.
Definition is_limited3 (R I : ity) (value lo hi : Z) : bool :=
  is_lesser I R value lo || is_greater I R value hi.
Definition limit (R I : ity) (value : Z) : Z := limit3 R I value (imin R) (imax R).
Definition is_limited (R I : ity) (value : Z) : bool :=
  is_limited3 R I value (imin R) (imax R).

(** impl/math/sign.ipp:74-82 floored_negate. *)
Definition floored_negate (S U : ity) (value : Z) : option Z :=
  if imax S <? value then Some (imin S) else negate S (wrap S value).

(** impl/math/addition.ipp:241-250 delta over unsigned operands (same type
    U, explicit signed result E). *)
Definition delta_unsigned (E U : ity) (left right : Z) : option Z :=
  if left <? right
  then do d <- subtract U right left; floored_negate E U d
  else do d <- subtract U left right; Some (limit E U d).

(** impl/math/division.ipp:31-57. *)
Definition is_negative_ (T : ity) (a b : Z) : bool :=
  xorb (is_negative T a) (is_negative T b).
(** Native / and %: undefined on zero divisor and on quotient overflow. *)
Definition native_div (T : ity) (a b : Z) : option Z :=
  if b =? 0 then None else arith (promote T) (Z.quot a b).
Definition native_mod (T : ity) (a b : Z) : option Z :=
  if b =? 0 then None
  else if fitsb (promote T) (Z.quot a b) then Some (Z.rem a b) else None.
Definition no_remainder_ (T : ity) (a b : Z) : option bool :=
  omap (fun r => r =? 0) (native_mod T a b).
Definition is_ceilinged_ (T : ity) (a b : Z) : option bool :=
  if is_negative_ T a b then Some true else no_remainder_ T a b.
Definition is_floored_ (T : ity) (a b : Z) : option bool :=
  if negb (is_negative_ T a b) then Some true else no_remainder_ T a b.

(** impl/math/division.ipp:101-115 (common type of T and T is T). *)
Definition truncated_divide (T : ity) (a b : Z) : option Z :=
  omap (wrap T) (native_div T a b).
Definition truncated_modulo (T : ity) (a b : Z) : option Z :=
  omap (wrap T) (native_mod T a b).
(** impl/math/division.ipp:62-69 ceilinged_divide, 73-80 ceilinged_modulo
    (signed result type), 82-89 floored_divide, 92-99 floored_modulo. *)
Definition ceilinged_divide (T : ity) (a b : Z) : option Z :=
  do q <- truncated_divide T a b; do c <- is_ceilinged_ T a b;
  omap (wrap T) (arith (promote T) (q + (if c then 0 else 1))).
Definition ceilinged_modulo (T : ity) (a b : Z) : option Z :=
  do r <- truncated_modulo T a b; do c <- is_ceilinged_ T a b;
  omap (wrap (signed_of T)) (arith (promote T) (r - (if c then 0 else b))).
Definition floored_divide (T : ity) (a b : Z) : option Z :=
  do q <- truncated_divide T a b; do c <- is_floored_ T a b;
  omap (wrap T) (arith (promote T) (q - (if c then 0 else 1))).
Definition floored_modulo (T : ity) (a b : Z) : option Z :=
  do r <- truncated_modulo T a b; do c <- is_floored_ T a b;
  omap (wrap T) (arith (promote T) (r + (if c then 0 else b))).

(** impl/math/power.ipp:37-51 power_ for an unsigned Value type of at least 32
    bits (no promotion): the loop multiplies with wrap-around; 0^0 is 0. *)
Fixpoint power_loop (T : ity) (factor : Z) (n : nat) (product : Z) : Z :=
  match n with
  | O => product
  | S k => power_loop T factor k (wrap T (product * factor))
  end.
Definition power_ (T : ity) (base : Z) (exponent : nat) : Z :=
  if (base =? 0) && (Nat.eqb exponent 0) then 0
  else power_loop T (wrap T base) exponent 1.

(** std::bit_width (C++20): position of the highest set bit plus one. *)
Definition std_bit_width (v : Z) : Z := if v =? 0 then 0 else Z.log2 v + 1.

(** impl/math/logarithm.ipp:118-129 ceilinged_log2 (integral); 224-235
    floored_log2.  is_log_overflow (overflow.ipp:130-135): value < 1. *)
Definition ceilinged_log2 (v : Z) : Z := if v <? 1 then 0 else std_bit_width (v - 1).
Definition floored_log2 (v : Z) : Z := if v <? 1 then 0 else std_bit_width v - 1.

(** impl/math/logarithm.ipp:132-143 and 238-249, the uintx overloads
    (boost msb = index of the highest set bit). *)
Definition ceilinged_log2_uintx (v : Z) : Z :=
  if (v <? 1) || (v =? 1) then 0 else Z.log2 (v - 1) + 1.
Definition floored_log2_uintx (v : Z) : Z := if v <? 1 then 0 else Z.log2 v.

(** impl/math/logarithm.ipp:147-180 ceilinged_log256; 252-284 floored_log256
    (integral types, threshold chains selected by the width in bytes). *)
Definition ceilinged_log256 (T : ity) (v : Z) : Z :=
  if v <? 1 then 0
  else if (bits T =? 64) && (0x0100000000000000 <? v) then 8
  else if (bits T =? 64) && (0x0001000000000000 <? v) then 7
  else if (bits T =? 64) && (0x0000010000000000 <? v) then 6
  else if (bits T =? 64) && (0x0000000100000000 <? v) then 5
  else if (32 <=? bits T) && (0x01000000 <? v) then 4
  else if (32 <=? bits T) && (0x00010000 <? v) then 3
  else if (16 <=? bits T) && (0x0100 <? v) then 2
  else if 0x01 <? v then 1 else 0.
Definition floored_log256 (T : ity) (v : Z) : Z :=
  if v <? 1 then 0
  else if (bits T =? 64) && (0x00ffffffffffffff <? v) then 7
  else if (bits T =? 64) && (0x0000ffffffffffff <? v) then 6
  else if (bits T =? 64) && (0x000000ffffffffff <? v) then 5
  else if (32 <=? bits T) && (0x00ffffffff <? v) then 4
  else if (32 <=? bits T) && (0x0000ffffff <? v) then 3
  else if (16 <=? bits T) && (0xffff <? v) then 2
  else if 0xff <? v then 1 else 0.
(** impl/math/logarithm.ipp:183-194 and 287-298, the uintx overloads. *)
Definition ceilinged_log256_uintx (v : Z) : Z :=
  if v <? 1 then 0
  else let n := ceilinged_log2_uintx v in
       n / 8 + (if n mod 8 =? 0 then 0 else 1).
Definition floored_log256_uintx (v : Z) : Z :=
  if v <? 1 then 0 else floored_log2_uintx v / 8.

(** impl/math/logarithm.ipp:41-59 ceilinged_log_, 65-83 floored_log_ (general
    base).  The loops are bounded by explicit fuel; [log_fuel] = bit width of
    the value, which is shown sufficient. *)
Fixpoint ceilinged_log_loop (fuel : nat) (factor value exponent : Z) : option Z :=
  match fuel with
  | O => None
  | S k => if 1 <? value then ceilinged_log_loop k factor (value / factor) (exponent + 1)
           else Some exponent
  end.
Definition log_fuel (v : Z) : nat := S (S (Z.to_nat (Z.log2 v))).
Definition ceilinged_log_ (base v : Z) : option Z :=
  if (base <? 2) || (v <? 1) then Some 0 else ceilinged_log_loop (log_fuel v) base v 0.
Fixpoint floored_log_loop (fuel : nat) (factor value exponent : Z) : option Z :=
  match fuel with
  | O => None
  | S k => let value' := value / factor in
           if 0 <? value' then floored_log_loop k factor value' (exponent + 1)
           else Some exponent
  end.
Definition floored_log_ (base v : Z) : option Z :=
  if (base <? 2) || (v <? 1) then Some 0 else floored_log_loop (log_fuel v) base v 0.

(** impl/math/bits.ipp:39-51 bit_width (unsigned / signed). *)
Definition bit_width (T : ity) (v : Z) : Z :=
  if sg T && (v <? 0) then bits T
  else if v =? 0 then 0 else floored_log2 v + 1.

(** impl/math/bits.ipp:299-305, 314-320 shift_left; 329-335, 344-350
    shift_right.  Signed operands transit the unsigned type, so both overloads
    agree on the bit pattern. *)
Definition shift_left (T : ity) (v shift : Z) (overflow : bool) : Z :=
  if overflow && (bits T <=? shift) then 0
  else wrap T (Z.shiftl (wrap (unsigned_of T) v) (shift mod bits T)).
Definition shift_right (T : ity) (v shift : Z) (overflow : bool) : Z :=
  if overflow && (bits T <=? shift) then 0
  else wrap T (Z.shiftr (wrap (unsigned_of T) v) (shift mod bits T)).

(** impl/math/bits.ipp:93-124 bitwise operators. *)
Definition bit_not (T : ity) (v : Z) : Z := wrap T (Z.lnot v).
Definition bit_and (T : ity) (a b : Z) : Z := wrap T (Z.land a b).
Definition bit_or (T : ity) (a b : Z) : Z := wrap T (Z.lor a b).
Definition bit_xor (T : ity) (a b : Z) : Z := wrap T (Z.lxor a b).

(** bit_lo<Value> = 1, bit_all<Value> = all ones (math/bits.hpp). *)
Definition bit_all (T : ity) : Z := wrap T (-1).

(** impl/math/bits.ipp:144-153 bit_right (overflow defaulted false), 129-142
    bit_left. *)
Definition bit_right (T : ity) (offset : Z) : Z := shift_left T 1 offset false.
Definition bit_left (T : ity) (offset : Z) : Z :=
  if bits T <=? offset then 0 else bit_right T (bits T - offset - 1).
(** impl/math/bits.ipp:158-199 get / set. *)
Definition get_left (T : ity) (v offset : Z) : bool :=
  negb (bit_and T v (bit_left T offset) =? 0).
Definition get_right (T : ity) (v offset : Z) : bool :=
  negb (bit_and T v (bit_right T offset) =? 0).
Definition set_left (T : ity) (v offset : Z) (state : bool) : Z :=
  if state then bit_or T v (bit_left T offset)
  else bit_and T v (bit_not T (bit_left T offset)).
Definition set_right (T : ity) (v offset : Z) (state : bool) : Z :=
  if state then bit_or T v (bit_right T offset)
  else bit_and T v (bit_not T (bit_right T offset)).
(** impl/math/bits.ipp:211-284 mask / unmask. *)
Definition mask_left (T : ity) (n : Z) : Z := shift_right T (bit_all T) n true.
Definition mask_right (T : ity) (n : Z) : Z := shift_left T (bit_all T) n true.
Definition unmask_left (T : ity) (n : Z) : Z := bit_not T (mask_left T n).
Definition unmask_right (T : ity) (n : Z) : Z := bit_not T (mask_right T n).

(** impl/math/bits.ipp:364-411 rotate_left / rotate_right, signed branch
    (373-376, 406-409).  The unsigned branch is std::rotl/rotr with the same
    value. *)
Definition rotate_left (T : ity) (v shift : Z) : Z :=
  let cycle := shift mod bits T in
  bit_or T (shift_left T v cycle false) (shift_right T v (bits T - cycle) false).
Definition rotate_right (T : ity) (v shift : Z) : Z :=
  let cycle := shift mod bits T in
  bit_or T (shift_right T v cycle false) (shift_left T v (bits T - cycle) false).

(** intrinsics/rotate.hpp:51-75 rotl_nominal<Shift> / rotr_nominal<Shift>,
    unsigned. *)
Definition rotl_nominal (T : ity) (v shift : Z) : Z :=
  let cycle := shift mod bits T in
  if cycle =? 0 then v
  else wrap T (Z.lor (Z.shiftl v cycle) (Z.shiftr v (bits T - cycle))).
Definition rotr_nominal (T : ity) (v shift : Z) : Z :=
  let cycle := shift mod bits T in
  if cycle =? 0 then v
  else wrap T (Z.lor (Z.shiftr v cycle) (Z.shiftl v (bits T - cycle))).

(** impl/math/overflow.ipp:38-48 shift overflow predicates (unsigned). *)
Definition is_left_shift_overflow (T : ity) (v n : Z) : bool :=
  negb (bit_and T v (unmask_left T n) =? 0).
Definition is_right_shift_overflow (T : ity) (v n : Z) : bool :=
  negb (bit_and T v (unmask_right T n) =? 0).

(** impl/math/bits.ipp:468-492 pack_word / unpack_word (unsigned, To of width
    2h from halves of width h). *)
Definition pack_word (T : ity) (high low : Z) : Z :=
  let half := bits T / 2 in
  bit_or T (shift_left T high half false) (bit_and T (unmask_right T half) low).
Definition unpack_word (T H : ity) (v : Z) : Z * Z :=
  let half := bits T / 2 in
  (wrap H (shift_right T v half false), wrap H (bit_and T (unmask_right T half) v)).

(** intrinsics/byte_swap.hpp:28-65 nominal byte swaps. *)
Definition byte_swap16 (v : Z) : Z := wrap u16 (Z.lor (Z.shiftl v 8) (Z.shiftr v 8)).
Definition byte_swap32 (v : Z) : Z :=
  Z.lor (wrap u32 (Z.shiftl v 24))
  (Z.lor (Z.land (wrap u32 (Z.shiftl v 8)) 0x00ff0000)
  (Z.lor (Z.land (Z.shiftr v 8) 0x0000ff00) (Z.shiftr v 24))).
Definition byte_swap64 (v : Z) : Z :=
  Z.lor (wrap u64 (Z.shiftl v 56))
  (Z.lor (Z.land (wrap u64 (Z.shiftl v 40)) 0xff000000000000)
  (Z.lor (Z.land (wrap u64 (Z.shiftl v 24)) 0x00ff0000000000)
  (Z.lor (Z.land (wrap u64 (Z.shiftl v 8)) 0x0000ff00000000)
  (Z.lor (Z.land (Z.shiftr v 8) 0x000000ff000000)
  (Z.lor (Z.land (Z.shiftr v 24) 0x00000000ff0000)
  (Z.lor (Z.land (Z.shiftr v 40) 0x0000000000ff00) (Z.shiftr v 56))))))).

(** impl/math/bytes.ipp:34-50 byte_width. *)
Definition byte_width (T : ity) (v : Z) : Z :=
  if sg T && (v <? 0) then bits T / 8
  else if v =? 0 then 0 else floored_log256 T v + 1.

(** impl/math/bytes.ipp:87-106 is_negated, to_negated, to_unnegated. *)
Definition is_negated (T : ity) (v : Z) : bool :=
  negb (v =? 0) && (bit_width T v mod 8 + 1 =? 1).
Definition to_negated (T : ity) (v : Z) : Z := set_left T v 0 true.
Definition to_unnegated (T : ity) (v : Z) : option Z :=
  if negb (is_negated T v) then Some v
  else negate T (set_right T v (bit_width T v - 1) false).
