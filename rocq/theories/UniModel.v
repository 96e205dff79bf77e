(** Model of src/unicode/normalization.cpp:34-318, 407-445 and of the get_canonical trie
    (src/unicode/code_points.cpp:417-3400): Unicode normal forms.

    A std::u32string is a list of code points, positions held by the code as indices are
    represented by splitting the list there (prefix already done, current element, rest);
    erasing an element drops it from the list.  Array reads outside an array are [None]. *)
From Verif Require Import Base UniData.
From Coq Require Import FMapPositive.

(** A table written as runs (value, count). *)
Definition expand (runs : list (Z * Z)) : list Z := flat_map (fun r => repeat (fst r) (Z.to_nat (snd r))) runs.
Definition decomposition_pool : list Z := decomposition_pool_data.
Definition decomposition_index1 : list Z := expand decomposition_index1_runs.
Definition decomposition_index2 : list Z := expand decomposition_index2_runs.
Definition composition_pairs : list Z := composition_pairs_data.
Definition combining_index : list Z := expand combining_index_runs.
Definition unicode_data1 : list Z := expand unicode_data1_runs.
Definition unicode_data2 : list Z := expand unicode_data2_runs.

(** A read of array element i, None when outside of the array. *)
Definition at_ (l : list Z) (i : Z) : option Z := if i <? 0 then None else nth_error l (Z.to_nat i).

(** 34 max_unicode_point; 37-48 the Hangul constants *)
Definition max_unicode_point := 1114111.
Definition syllable_base := 44032.
Definition leading_base := 4352.
Definition vowel_base := 4449.
Definition trailing_base := 4519.
Definition leading_count := 19.
Definition vowel_count := 21.
Definition trailing_count := 28.
Definition nucleus_count := vowel_count * trailing_count.
Definition syllable_count := leading_count * nucleus_count.

(** 57-63 components, 66-70 is_compatible: bits 24..30 and bit 31 of the header *)
Definition components (header : Z) : Z := Z.land (Z.shiftr header 24) 127.
Definition is_compatible (header : Z) : bool := Z.testbit header 31.

(** 53-129; the two tries are parameters here so that the tables can be read in more than one
    way by the proofs. *)
Section Tables.
Variables pool index1 index2 : Z -> option Z.
(** 72-80 decompose: level 1 selects a block of 128, level 2 the entry *)
Definition decompose (point : Z) : option Z :=
  do block <- index1 (Z.shiftr point 7);
  index2 (Z.shiftl block 7 + Z.land point 127).
(** 88-101 the algorithmic decomposition of a Hangul syllable *)
Definition hangul_decompose (point : Z) : list Z :=
  let syllable := point - syllable_base in
  let modulo := syllable mod nucleus_count in
  let trailing := syllable mod trailing_count in
  [leading_base + syllable / nucleus_count; vowel_base + modulo / trailing_count]
  ++ (if trailing =? 0 then [] else [trailing_base + trailing]).
(** The components of one entry, pool[index + 1 .. index + n] *)
Fixpoint pool_list (index : Z) (n : nat) : option (list Z) :=
  match n with
  | O => Some []
  | S n' => do c <- pool index; do r <- pool_list (index + 1) n'; Some (c :: r)
  end.
(** Concatenate the results of f, None if one of them is. *)
Fixpoint concat_map (f : Z -> option (list Z)) (l : list Z) : option (list Z) :=
  match l with
  | [] => Some []
  | c :: r => do a <- f c; do b <- concat_map f r; Some (a ++ b)
  end.
(** 82-129 decompose_one.  The recursion of the code has no bound; [fuel] is that bound here
    and running out of it is [None] (proved not to happen). *)
Fixpoint decompose_one (fuel : nat) (compatible : bool) (point : Z) : option (list Z) :=
  match fuel with
  | O => None
  | S f =>
    if (syllable_base <=? point) && (point <? syllable_base + syllable_count) then Some (hangul_decompose point)
    else if max_unicode_point <? point then Some [point]
    else do index <- decompose point;
         if index =? 0 then Some [point]
         else do header <- pool index;
              if is_compatible header && negb compatible then Some [point]
              else do cs <- pool_list (index + 1) (Z.to_nat (components header));
                   concat_map (decompose_one f compatible) cs
  end.
(** 132-143 get_canonical, the canonical combining class *)
Variables data1 data2 combining : Z -> option Z.
Definition get_canonical (point : Z) : option Z :=
  if max_unicode_point <? point then Some 0
  else do d1 <- data1 (Z.shiftr point 7);
       do d2 <- data2 (Z.shiftl d1 7 + Z.land point 127);
       combining d2.
End Tables.

(** The tables of the library. *)
Definition lib_decompose_one : nat -> bool -> Z -> option (list Z) :=
  decompose_one (at_ decomposition_pool) (at_ decomposition_index1) (at_ decomposition_index2).
Definition lib_get_canonical : Z -> option Z :=
  get_canonical (at_ unicode_data1) (at_ unicode_data2) (at_ combining_index).
(** The combining class as a plain value (0 where the read above would be out of range, which
    C86_in_range excludes). *)
Definition canonical_class (point : Z) : Z := match lib_get_canonical point with Some c => c | None => 0 end.

Section Order.
Variable ccc : Z -> Z.
(** std::stable_sort by combining class (166-172): every element goes after the elements whose
    class is smaller and before those whose class is equal and that followed it. *)
Fixpoint insert_stable (x : Z) (l : list Z) : list Z :=
  match l with
  | [] => [x]
  | y :: r => if ccc y <? ccc x then y :: insert_stable x r else x :: l
  end.
Fixpoint stable_sort (l : list Z) : list Z :=
  match l with [] => [] | x :: r => insert_stable x (stable_sort r) end.
(** The longest prefix satisfying f, and the rest. *)
Fixpoint span (f : Z -> bool) (l : list Z) : list Z * list Z :=
  match l with
  | [] => ([], [])
  | x :: r => if f x then let (a, b) := span f r in (x :: a, b) else ([], l)
  end.
(** 153-176 the loop of canonical_order: skip starters, find the run of combining characters,
    sort it, go on after it.  Each pass consumes at least one element. *)
Fixpoint order_loop (fuel : nat) (l : list Z) : list Z :=
  match fuel, l with
  | _, [] => []
  | O, _ => l
  | S f, _ =>
    let (starters, rest) := span (fun x => ccc x =? 0) l in
    let (run, rest) := span (fun x => negb (ccc x =? 0)) rest in
    starters ++ (if 1 <? Z.of_nat (length run) then stable_sort run else run) ++ order_loop f rest
  end.
(** 146-177 canonical_order *)
Definition canonical_order (l : list Z) : list Z :=
  if Z.of_nat (length l) <? 2 then l else order_loop (length l) l.
End Order.

Section Compose.
Variable pairs : Z -> option Z.
(** 204-226 the binary search in composition_pairs, rows (a, b, composition) *)
Fixpoint pair_search (fuel : nat) (lo hi a b : Z) : option Z :=
  match fuel with
  | O => None
  | S f =>
    if lo <? hi then
      let middle := (lo + hi) / 2 in
      let base := middle * 3 in
      do alpha <- pairs base;
      do bravo <- pairs (base + 1);
      if (alpha <? a) || ((alpha =? a) && (bravo <? b)) then pair_search f (middle + 1) hi a b
      else if (a <? alpha) || ((alpha =? a) && (b <? bravo)) then pair_search f lo middle a b
      else pairs (base + 2)
    else Some 0
  end.
(** 180-229 composition_lookup (0 if there is no composition) *)
Definition composition_lookup (count a b : Z) : option Z :=
  if (leading_base <=? a) && (a <? leading_base + leading_count) && (vowel_base <=? b) && (b <? vowel_base + vowel_count) then
    Some (syllable_base + (a - leading_base) * nucleus_count + (b - vowel_base) * trailing_count)
  else if (syllable_base <=? a) && (a <? syllable_base + syllable_count) && ((a - syllable_base) mod trailing_count =? 0)
          && (trailing_base <? b) && (b <? trailing_base + trailing_count) then
    Some (a + (b - trailing_base))
  else pair_search (S (Z.to_nat count)) 0 count a b.
End Compose.
(** The library's table has 941 rows (unicode_tables.hpp:35). *)
Definition lib_composition_lookup (a b : Z) : option Z := composition_lookup (at_ composition_pairs) 941 a b.
(** The composition as a plain value (C86_in_range: the search never reads outside the table). *)
Definition composition (a b : Z) : Z := match lib_composition_lookup a b with Some y => y | None => 0 end.

Section Pass.
Variable ccc : Z -> Z.
Variable lookup : Z -> Z -> Z.
(** 250-292 the scan from a starter: [starter] is sequence[index], [between] the elements kept
    after it so far, [last] the class of the last of those (0 initially and after each
    composition), [rest] the elements from sequence[inner].  The result is the new starter and
    the elements that follow it. *)
Fixpoint scan (starter : Z) (between : list Z) (last : Z) (rest : list Z) : Z * list Z :=
  match rest with
  | [] => (starter, between)
  | c :: r =>
    let current := ccc c in
    let blocked := negb (last =? 0) && (current <=? last) in
    if current =? 0 then
      if negb blocked then
        let point := lookup starter c in
        if negb (point =? 0) then scan point between 0 r else (starter, between ++ rest)
      else (starter, between ++ rest)
    else
      let point := if blocked then 0 else lookup starter c in
      if negb (point =? 0) then scan point between 0 r
      else scan starter (between ++ [c]) current r
  end.
(** 238-296 the loop of compose *)
Fixpoint compose_loop (fuel : nat) (l : list Z) : list Z :=
  match fuel, l with
  | _, [] => []
  | O, _ => l
  | S f, x :: r =>
    if negb (ccc x =? 0) then x :: compose_loop f r
    else let (y, r') := scan x [] 0 r in y :: compose_loop f r'
  end.
(** 232-297 compose *)
Definition compose (l : list Z) : list Z :=
  if Z.of_nat (length l) <? 2 then l else compose_loop (length l) l.
End Pass.

(** 300-318 normal_form on code points; None would be a read outside of a table *)
Definition normal_points (points : list Z) (compatible recompose : bool) : option (list Z) :=
  do out <- concat_map (lib_decompose_one 4 compatible) points;
  let out := canonical_order canonical_class out in
  Some (if recompose then compose canonical_class composition out else out).

(** boost::locale::conv::utf_to_utf with method_type::stop (external code; its documented
    behaviour, the strict UTF-8 of RFC 3629): the code point of a lead byte and its
    continuation bytes, refused when it is an overlong form, a surrogate or above U+10FFFF. *)
Definition is_trail (b : Z) : bool := (128 <=? b) && (b <? 192).
Definition valid_point (c : Z) : bool := (c <=? max_unicode_point) && negb ((55296 <=? c) && (c <=? 57343)).
Definition utf8_width (c : Z) : Z := if c <=? 127 then 1 else if c <=? 2047 then 2 else if c <=? 65535 then 3 else 4.
Fixpoint utf8_points (l : list Z) : option (list Z) :=
  match l with
  | [] => Some []
  | a :: r0 =>
    if a <? 128 then do p <- utf8_points r0; Some (a :: p)
    else if a <? 194 then None
    else match r0 with
    | [] => None
    | b :: r1 =>
      if negb (is_trail b) then None
      else if a <? 224 then do p <- utf8_points r1; Some (((a mod 32) * 64 + b mod 64) :: p)
      else match r1 with
      | [] => None
      | c :: r2 =>
        if negb (is_trail c) then None
        else if a <? 240 then
          let v := ((a mod 16) * 64 + b mod 64) * 64 + c mod 64 in
          if negb (valid_point v) || negb (utf8_width v =? 3) then None
          else do p <- utf8_points r2; Some (v :: p)
        else match r2 with
        | [] => None
        | d :: r3 =>
          if negb (is_trail d) || (244 <? a) then None
          else let v := (((a mod 8) * 64 + b mod 64) * 64 + c mod 64) * 64 + d mod 64 in
               if negb (valid_point v) || negb (utf8_width v =? 4) then None
               else do p <- utf8_points r3; Some (v :: p)
        end
      end
    end
  end.
Definition utf8_char (c : Z) : list Z :=
  if c <=? 127 then [c]
  else if c <=? 2047 then [192 + c / 64; 128 + c mod 64]
  else if c <=? 65535 then [224 + c / 4096; 128 + c / 64 mod 64; 128 + c mod 64]
  else [240 + c / 262144; 128 + c / 4096 mod 64; 128 + c / 64 mod 64; 128 + c mod 64].
(** src/unicode/conversion.cpp:28-50 to_utf (empty when the conversion fails), 86-89 to_utf32,
    71-74 to_utf8 *)
Definition to_utf32 (text : list Z) : list Z := match utf8_points text with Some p => p | None => [] end.
Definition to_utf8 (points : list Z) : list Z := if forallb valid_point points then flat_map utf8_char points else [].

(** src/unicode/ascii.cpp:30-33 is_ascii *)
Definition is_ascii_text (text : list Z) : bool := forallb (fun c => c <? 128) text.
(** 300-318 normal_form, and 425-443 the four public functions on a std::string *)
Definition normal_form (value : list Z) (compatible recompose : bool) : option (list Z) :=
  if is_ascii_text value then Some value
  else do p <- normal_points (to_utf32 value) compatible recompose; Some (to_utf8 p).
Definition to_canonical_composition (value : list Z) := normal_form value false true.
Definition to_canonical_decomposition (value : list Z) := normal_form value false false.
Definition to_compatibility_composition (value : list Z) := normal_form value true true.
Definition to_compatibility_decomposition (value : list Z) := normal_form value true false.
