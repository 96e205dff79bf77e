(** Model of the text forms of operations, scripts and witnesses:
    src/chain/operation.cpp, src/chain/script.cpp, src/chain/witness.cpp,
    src/chain/enums/opcode.cpp, and of the string functions they use
    (src/data/string.cpp, src/unicode/ascii.cpp, impl/serial/serialize.ipp and
    deserialize.ipp).  Text is a list of character codes 0..255. *)
From Coq Require Import String.
From Verif Require Import Base Bytes MathModel NumberModel StreamModel RadixModel OpModel TextTable.

(** * Strings
    The token and delimiter lists used here hold one-character strings only; a
    token is modelled by its character. *)

(** src/unicode/code_points.cpp:42-61 ascii_whitespace *)
Definition ascii_whitespace : list Z := [9; 10; 11; 12; 13; 32].

(** src/data/string.cpp:161-172 trim_left (one token); starts_with is 252-255. *)
Fixpoint trim_left_token (c : Z) (text : list Z) : list Z :=
  match text with [] => [] | x :: r => if x =? c then trim_left_token c r else text end.
Definition trimmed (before after : list Z) : bool := negb (len before =? len after).
(** one pass of the for loop, 193-195: the text and whether any token was found *)
Definition trim_pass (tokens text : list Z) : list Z * bool :=
  fold_left (fun '(t, found) c => let t' := trim_left_token c t in (t', found || trimmed t t')) tokens (text, false).
(** string.cpp:187-199 trim_left; every repeated pass has removed a character. *)
Fixpoint trim_left_loop (fuel : nat) (tokens text : list Z) : list Z :=
  let (t, found) := trim_pass tokens text in
  match fuel with
  | O => t
  | S f => if found then trim_left_loop f tokens t else t
  end.
Definition trim_left (tokens text : list Z) : list Z := trim_left_loop (length text) tokens text.
(** string.cpp:174-185, 201-213 trim_right: the same from the other end *)
Definition trim_right (tokens text : list Z) : list Z := rev (trim_left tokens (rev text)).
(** string.cpp:215-219 trim *)
Definition trim (tokens text : list Z) : list Z := trim_right tokens (trim_left tokens text).
(** string.cpp:77-93 replace, from and to of one character *)
Definition replace (text : list Z) (from to : Z) : list Z := map (fun x => if x =? from then to else x) text.
(** string.cpp:104-119 splitter before reduce: cur is the token under way, reversed *)
Fixpoint cut (delimiter : Z) (text cur : list Z) : list (list Z) :=
  match text with
  | [] => [rev cur]
  | x :: r => if x =? delimiter then rev cur :: cut delimiter r [] else cut delimiter r (x :: cur)
  end.
Definition is_empty (t : list Z) : bool := match t with [] => true | _ => false end.
(** string.cpp:52-68 reduce *)
Definition reduce (tokens : list (list Z)) (trim_tokens : list Z) (compress : bool) : list (list Z) :=
  match tokens with
  | [] => []
  | _ =>
    let l := map (trim trim_tokens) tokens in
    let l := if compress then filter (fun t => negb (is_empty t)) l else l in
    match l with [] => [[]] | _ => l end
  end.
(** string.cpp:125-145 split *)
Definition split_tokens (text delimiters trim_tokens : list Z) (compress : bool) : list (list Z) :=
  match delimiters with
  | [] => [trim trim_tokens text]
  | d :: others =>
    let t := trim trim_tokens text in
    let t := fold_left (fun t c => replace t c d) others t in
    reduce (cut d t []) trim_tokens compress
  end.
(** string.cpp:147-152 split on one delimiter; 154-159 split on white space *)
Definition split_on (text : list Z) (delimiter : Z) (trimming compress : bool) : list (list Z) :=
  split_tokens text [delimiter] (if trimming then ascii_whitespace else []) compress.
Definition split_white (text : list Z) : list (list Z) := split_tokens text ascii_whitespace ascii_whitespace true.

(** src/unicode/ascii.cpp:45-53 is_ascii_numeric; ascii.ipp:38-41 is_ascii_number *)
Definition is_ascii_number (c : Z) : bool := (48 <=? c) && (c <=? 57).
Definition is_ascii_numeric (text : list Z) : bool :=
  match text with
  | [] => true
  | c :: r => if c =? 45 then forallb is_ascii_number r else forallb is_ascii_number text
  end.
(** ascii.cpp:55-65 ascii_to_lower *)
Definition ascii_to_lower (text : list Z) : list Z := map (fun c => if is_ascii_upper c then c + 32 else c) text.

(** impl/serial/serialize.ipp: an unsigned integer printed by an ostream *)
Fixpoint decimal_loop (fuel : nat) (n : Z) (acc : list Z) : list Z :=
  match fuel with
  | O => acc
  | S f => let acc := (48 + n mod 10) :: acc in if n / 10 =? 0 then acc else decimal_loop f (n / 10) acc
  end.
Definition serialize_decimal (n : Z) : list Z := decimal_loop 20 n [].
(** impl/serial/deserialize.ipp:103-129 deserialize(int64_t): istream >> of a text
    that is_ascii_numeric (no white space to trim): fails without a digit or when
    the value is not an int64_t. *)
Definition decimal_value (digits : list Z) : Z := fold_left (fun v c => 10 * v + (c - 48)) digits 0.
Definition deserialize_i64 (text : list Z) : option Z :=
  let (negative, digits) :=
    match text with
    | c :: r => if c =? 45 then (true, r) else (false, text)
    | [] => (false, []) end in
  match digits with
  | [] => None
  | _ => let v := if negative then - decimal_value digits else decimal_value digits in
         if fitsb i64 v then Some v else None
  end.

(** * Operation names *)
(** opcode.cpp:680-683 opcode_to_hexadecimal *)
Definition opcode_to_hexadecimal (c : Z) : list Z := chars "0x" ++ encode_base16 [c].
(** opcode.cpp:685-701 opcode_from_hexadecimal *)
Definition opcode_from_hexadecimal (text : list Z) : option Z :=
  if negb (len text =? 4) || negb (bytes_eq (firstn 2 text) (chars "0x")) then None
  else match decode_base16 (skipn 2 text) with Some (c :: _) => Some c | _ => None end.
Fixpoint assoc_code (c : Z) (l : list (Z * list Z)) : option (list Z) :=
  match l with [] => None | (k, t) :: r => if k =? c then Some t else assoc_code c r end.
Fixpoint assoc_name (t : list Z) (l : list (list Z * Z)) : option Z :=
  match l with [] => None | (k, c) :: r => if bytes_eq t k then Some c else assoc_name t r end.
(** opcode.cpp:39-406 opcode_to_mnemonic (script::is_enabled tests the flag bit:
    bip65 = 6, bip112 = 9, bip342 = 16) *)
Definition opcode_to_mnemonic (c flags : Z) : list Z :=
  if (1 <=? c) && (c <=? 75) then chars "push_" ++ serialize_decimal c
  else if (81 <=? c) && (c <=? 96) then serialize_decimal (c - 80)
  else if c =? 177 then (if Z.testbit flags 6 then chars "checklocktimeverify" else chars "nop2")
  else if c =? 178 then (if Z.testbit flags 9 then chars "checksequenceverify" else chars "nop3")
  else if c =? 186 then (if Z.testbit flags 16 then chars "checksigadd" else opcode_to_hexadecimal c)
  else match assoc_code c named_opcodes with Some t => t | None => opcode_to_hexadecimal c end.
(** opcode.cpp:410-678 opcode_from_mnemonic *)
Definition opcode_from_mnemonic (value : list Z) : option Z :=
  match assoc_name (ascii_to_lower value) opcode_names with
  | Some c => Some c
  | None => opcode_from_hexadecimal value
  end.

(** * Operations *)
(** operation.cpp:308-321 is_push_token, is_text_token, is_underflow_token *)
Definition is_delimited (front back : Z) (token : list Z) : bool :=
  (len token >? 1) && (nth 0 token 0 =? front) && (last token 0 =? back).
Definition is_push_token : list Z -> bool := is_delimited 91 93.
Definition is_text_token : list Z -> bool := is_delimited 39 39.
Definition is_underflow_token : list Z -> bool := is_delimited 60 62.
(** operation.cpp:323-327 remove_token_delimiters *)
Definition remove_token_delimiters (token : list Z) : list Z := removelast (tl token).
(** operation.cpp:329-332 split_push_token *)
Definition split_push_token (token : list Z) : list (list Z) := split_on (remove_token_delimiters token) 46 false false.
(** operation.cpp:334-364 opcode_from_data_prefix *)
Definition opcode_from_data_prefix (prefix data : list Z) : option Z :=
  let size := len data in
  if bytes_eq prefix (chars "0") then (if size <=? push_size_75 then Some (opcode_from_size size) else None)
  else if bytes_eq prefix (chars "1") then (if size <=? 255 then Some push_one_size else None)
  else if bytes_eq prefix (chars "2") then (if size <=? 65535 then Some push_two_size else None)
  else if bytes_eq prefix (chars "4") then (if size <=? 4294967295 then Some push_four_size else None)
  else None.
(** operation.cpp:366-380 data_from_decimal: None = undefined behaviour, Some None
    = not a number. *)
Definition data_from_decimal (token : list Z) : option (option (list Z)) :=
  if negb (is_ascii_numeric token) then Some None
  else match deserialize_i64 token with
       | None => Some None
       | Some v => do d <- chunk_from_integer v; Some (Some d)
       end.
(** operation.cpp:383-441 operation::from_string; None = undefined behaviour. *)
Definition op_from_string (mnemonic : list Z) : option op :=
  if is_push_token mnemonic then
    Some match split_push_token mnemonic with
    | [d] => match decode_base16 d with
             | Some chunk => mkop (nominal_opcode_from_data chunk) chunk false
             | None => default_op end
    | [p; d] => match decode_base16 d with
                | Some chunk => match opcode_from_data_prefix p chunk with
                                | Some c => mkop c chunk false
                                | None => default_op end
                | None => default_op end
    | _ => default_op
    end
  else if is_text_token mnemonic then
    let chunk := remove_token_delimiters mnemonic in
    Some (mkop (nominal_opcode_from_data chunk) chunk false)
  else if is_underflow_token mnemonic then
    Some match decode_base16 (remove_token_delimiters mnemonic) with
    | Some chunk => mkop any_invalid chunk true
    | None => default_op end
  else match opcode_from_mnemonic mnemonic with
  | Some c => Some (mkop c [] false)
  | None =>
    do r <- data_from_decimal mnemonic;
    Some match r with
    | Some chunk => mkop (nominal_opcode_from_data chunk) chunk false
    | None => default_op end
  end.
(** operation.cpp:443-462 opcode_to_prefix *)
Definition opcode_to_prefix (c : Z) (d : list Z) : list Z :=
  if c =? opcode_from_size (len d) then []
  else if c =? push_one_size then chars "1."
  else if c =? push_two_size then chars "2."
  else if c =? push_four_size then chars "4."
  else chars "0.".
(** operation.cpp:483-488 is_valid *)
Definition op_is_valid (o : op) : bool :=
  negb ((code o =? any_invalid) && negb (underflow o) && negb (is_empty (data o))).
(** operation.cpp:464-478 to_string *)
Definition op_to_string (o : op) (flags : Z) : list Z :=
  if negb (op_is_valid o) then chars "?"
  else if underflow o then chars "(" ++ encode_base16 (data o) ++ chars ")"
  else if is_empty (data o) then opcode_to_mnemonic (code o) flags
  else chars "[" ++ opcode_to_prefix (code o) (data o) ++ encode_base16 (data o) ++ chars "]".

(** * Scripts and witnesses *)
(** script.cpp:299-304: no token when there is only white space *)
Definition text_tokens (mnemonic : list Z) : list (list Z) :=
  let tokens := split_white mnemonic in
  match tokens with [] :: _ => [] | _ => tokens end.
(** script.cpp:306-319: Some None = the default (invalid) script, None = undefined. *)
Fixpoint read_tokens (tokens : list (list Z)) : option (option script) :=
  match tokens with
  | [] => Some (Some [])
  | t :: r =>
    do o <- op_from_string t;
    if negb (op_is_valid o) then Some None
    else do s <- read_tokens r; Some (match s with Some s => Some (o :: s) | None => None end)
  end.
(** script.cpp:289-324 script::from_string; the cached flags and size are those
    computed from the operations (modelled in OpModel). *)
Definition script_from_string (mnemonic : list Z) : option (option script) := read_tokens (text_tokens mnemonic).
(** script.cpp:355-372 script::to_string *)
Fixpoint script_text (first : bool) (ops : script) (flags : Z) : list Z :=
  match ops with
  | [] => []
  | o :: r => (if first then [] else [32]) ++ op_to_string o flags ++ script_text false r flags
  end.
Definition script_to_string (ops : script) (flags : Z) : list Z := script_text true ops flags.

(** witness.cpp:265-287 witness::from_string (None: the default, invalid witness) *)
Fixpoint read_elements (tokens : list (list Z)) : option (list (list Z)) :=
  match tokens with
  | [] => Some []
  | t :: r =>
    if negb (is_push_token t) then None
    else do d <- decode_base16 (remove_token_delimiters t); do s <- read_elements r; Some (d :: s)
  end.
Definition witness_from_string (mnemonic : list Z) : option (list (list Z)) := read_elements (text_tokens mnemonic).
(** witness.cpp:289-305 witness::to_string of a valid witness *)
Fixpoint witness_text (first : bool) (stack : list (list Z)) : list Z :=
  match stack with
  | [] => []
  | d :: r => chars (if first then "[" else " [") ++ encode_base16 d ++ chars "]" ++ witness_text false r
  end.
Definition witness_to_string (stack : list (list Z)) : list Z := witness_text true stack.
