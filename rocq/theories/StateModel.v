(** Model of src/chain/chain_state.cpp, include/bitcoin/system/chain/context.hpp,
    the chain_state parameters of include/bitcoin/system/settings.hpp and
    forks.hpp, and header::accept (src/chain/header.cpp:380-393).
    Deques are lists, oldest first.  [None] is undefined behaviour (back() of an
    empty deque, modulo or division by zero). *)
From Verif Require Import Base Bytes MathModel ChainModel CompactModel.

(** forks.hpp:32-93 *)
Record forks := mkforks {
  f_bip16 : bool; f_bip90 : bool; f_bip30 : bool; f_bip30_deactivate : bool; f_bip30_reactivate : bool; f_bip42 : bool;
  f_bip34 : bool; f_bip65 : bool; f_bip66 : bool; f_bip68 : bool; f_bip112 : bool; f_bip113 : bool;
  f_bip141 : bool; f_bip143 : bool; f_bip147 : bool; f_bip341 : bool; f_bip342 : bool;
  f_retarget : bool; f_difficult : bool; f_time_warp_patch : bool; f_block_storm_patch : bool;
  f_ltc_time_warp_patch : bool; f_ltc_retarget_overflow_patch : bool; f_ltc_scrypt : bool }.
(** chain/checkpoint.hpp: hash and height. *)
Record checkpoint := mkcheckpoint { cp_hash : list Z; cp_height : Z }.
(** settings.hpp:62-137 (the fields read by chain_state). *)
Record settings := mksettings {
  s_forks : forks; s_factor : Z; s_interval_seconds : Z; s_spacing : Z; s_pow_limit : Z;
  s_first_version : Z; s_bip34_version : Z; s_bip66_version : Z; s_bip65_version : Z;
  s_bit0 : Z; s_bit1 : Z; s_bit2 : Z; s_base : Z; s_bip16_time : Z;
  s_activation : Z; s_enforcement : Z; s_sample : Z;
  s_bip90_bip34 : Z; s_bip90_bip65 : Z; s_bip90_bip66 : Z; s_bip30_reactivate : Z;
  s_cp30 : checkpoint; s_cp0 : checkpoint; s_cp1 : checkpoint; s_cp2 : checkpoint }.
(** chain_state.hpp:135-160, settings.cpp:538-559 (uint32_t arithmetic). *)
Definition minimum_timespan (s : settings) : Z := s_interval_seconds s / s_factor s.
Definition maximum_timespan (s : settings) : Z := wrap u32 (s_interval_seconds s * s_factor s).
Definition retargeting_interval (s : settings) : Z := s_interval_seconds s / s_spacing s.

(** chain_state.hpp:83-131 data; checkpoint hashes default to null_hash. *)
Record data := mkdata {
  d_height : Z; d_hash : list Z; d_bip30 : list Z; d_bit0 : list Z; d_bit1 : list Z; d_bit2 : list Z; d_work : Z;
  d_bits : Z; d_bitss : list Z; d_version : Z; d_versions : list Z;
  d_time : Z; d_retarget : Z; d_times : list Z }.

Definition listeqb (a b : list Z) : bool := if list_eq_dec Z.eq_dec a b then true else false.
(** chain_state.cpp:44-51, 81-88 bip30 exceptions (hash bytes are the reverse of
    the quoted hex). *)
Definition exception1 : list Z := rev [0;0;0;0;0;10;77;10;57;129;97;255;193;99;197;3;118;59;31;67;96;99;147;147;224;228;200;227;0;224;202;236].
Definition exception2 : list Z := rev [0;0;0;0;0;7;67;241;144;161;140;85;119;163;194;210;161;246;16;174;150;1;172;4;106;56;8;76;203;124;215;33].
Definition is_bip30_exception (hash : list Z) (height : Z) : bool :=
  (listeqb hash exception1 && (height =? 91842)) || (listeqb hash exception2 && (height =? 91880)).
(** chain_state.cpp:67-78 *)
Definition retarget_distance (height interval : Z) : Z := height mod interval.
Definition is_retarget_height (height interval : Z) : bool := retarget_distance height interval =? 0.
(** std::deque::back *)
Fixpoint back (l : list Z) : option Z := match l with [] => None | [x] => Some x | _ :: t => back t end.

(** ** activation, chain_state.cpp:105-290 *)
Definition flags_of (l : list (bool * Z)) : Z := fold_right (fun (p : bool * Z) acc => Z.lor (if fst p then 2 ^ snd p else 0) acc) 0 l.
(** enums/flags.hpp bit positions *)
Definition fl_difficult := 0. Definition fl_retarget := 1. Definition fl_bip16 := 2. Definition fl_bip30 := 3. Definition fl_bip34 := 4.
Definition fl_bip66 := 5. Definition fl_bip65 := 6. Definition fl_bip90 := 7. Definition fl_bip68 := 8. Definition fl_bip112 := 9.
Definition fl_bip113 := 10. Definition fl_bip141 := 11. Definition fl_bip143 := 12. Definition fl_bip147 := 13. Definition fl_bip42 := 14.
Definition fl_bip341 := 15. Definition fl_bip342 := 16. Definition fl_time_warp := 27. Definition fl_block_storm := 28.
Definition fl_ltc_time_warp := 29. Definition fl_ltc_overflow := 30. Definition fl_ltc_scrypt := 31.
(** 184-187 ge: comparison as int32_t *)
Definition ge_signed (value version : Z) : bool := wrap i32 version <=? wrap i32 value.
Definition count_ge (version : Z) (history : list Z) : Z := len (filter (fun v => ge_signed v version) history).
Record activations := mkactivations { a_flags : Z; a_minimum : Z }.
Definition activation (v : data) (f : forks) (s : settings) : activations :=
  let height := d_height v in let version := d_version v in let history := d_versions v in
  let count_2 := count_ge (s_bip34_version s) history in
  let count_3 := count_ge (s_bip66_version s) history in
  let count_4 := count_ge (s_bip65_version s) history in
  let bip90_bip34 := f_bip90 f && (s_bip90_bip34 s <=? height) in
  let bip90_bip65 := f_bip90 f && (s_bip90_bip65 s <=? height) in
  let bip90_bip66 := f_bip90 f && (s_bip90_bip66 s <=? height) in
  let bit0 := listeqb (d_bit0 v) (cp_hash (s_cp0 s)) in
  let bit1 := listeqb (d_bit1 v) (cp_hash (s_cp1 s)) in
  let bit2 := listeqb (d_bit2 v) (cp_hash (s_cp2 s)) in
  let deactivate := f_bip30 f && f_bip30_deactivate f && listeqb (d_bip30 v) (cp_hash (s_cp30 s)) in
  let reactivate := deactivate && f_bip30_reactivate f && (s_bip30_reactivate s <=? height) in
  mkactivations
    (flags_of [
      (f_retarget f, fl_retarget); (f_difficult f, fl_difficult); (f_ltc_time_warp_patch f, fl_ltc_time_warp);
      (f_ltc_retarget_overflow_patch f, fl_ltc_overflow); (f_ltc_scrypt f, fl_ltc_scrypt); (f_bip42 f, fl_bip42);
      (f_bip90 f, fl_bip90); (f_time_warp_patch f, fl_time_warp); (f_block_storm_patch f, fl_block_storm);
      (f_bip16 f && (s_bip16_time s <=? d_time v), fl_bip16);
      (bip90_bip34 || ((s_activation s <=? count_2) && (s_bip34_version s <=? version)), fl_bip34);
      (bip90_bip66 || ((s_activation s <=? count_3) && (s_bip66_version s <=? version)), fl_bip66);
      (bip90_bip65 || ((s_activation s <=? count_4) && (s_bip65_version s <=? version)), fl_bip65);
      (bit0, fl_bip68); (bit0, fl_bip112); (bit0, fl_bip113);
      (bit1, fl_bip141); (bit1, fl_bip143); (bit1, fl_bip147);
      (bit2, fl_bip341); (bit2, fl_bip342);
      (f_bip30 f && (negb deactivate || reactivate) && negb (is_bip30_exception (d_hash v) height), fl_bip30)])
    (if bip90_bip65 || (s_enforcement s <=? count_4) then s_bip65_version s
     else if bip90_bip66 || (s_enforcement s <=? count_3) then s_bip66_version s
     else if bip90_bip34 || (s_enforcement s <=? count_2) then s_bip34_version s
     else 0).

(** ** counts, chain_state.cpp:292-340 *)
Definition bits_count (height : Z) (f : forks) (interval : Z) : Z :=
  if f_difficult f then 1
  else if negb (f_retarget f) then 1
  else if is_retarget_height height interval then 1
  else Z.min height interval.
Definition version_count (height : Z) (f : forks) (sample : Z) : Z :=
  if f_bip90 f || (negb (f_bip34 f) && negb (f_bip65 f) && negb (f_bip66 f)) then 0 else Z.min height sample.
Definition timestamp_count (height : Z) : Z := Z.min height 11.
(** map::unrequested = max_size_t *)
Definition unrequested : Z := 2 ^ 64 - 1.
Definition retarget_height (height : Z) (f : forks) (interval : Z) : Z :=
  if negb (f_retarget f) then unrequested
  else wrap u64 (height - (if is_retarget_height height interval then interval else retarget_distance height interval)).

(** ** median time past, chain_state.cpp:352-364 (std::sort) *)
Fixpoint insert (x : Z) (l : list Z) : list Z :=
  match l with [] => [x] | y :: t => if x <=? y then x :: l else y :: insert x t end.
Definition sort (l : list Z) : list Z := fold_right insert [] l.
Definition median_time_past (v : data) : Z :=
  let times := sort (d_times v) in
  match times with [] => 0 | _ => nth (Z.to_nat (len times / 2)) times 0 end.

(** ** work required, chain_state.cpp:370-540.  [limit] is the function-local
    static of work_required_retarget: compact::expand of the proof_of_work_limit
    of the first call in the process. *)
Definition u32_cadd (a b : Z) : Z := if 2 ^ 32 - 1 - b <? a then 2 ^ 32 - 1 else a + b.
Definition u32_fsub (a b : Z) : Z := if a <? b then 0 else a - b.
(** 407-425 retarget_timespan *)
Definition retarget_timespan (v : data) (lo hi : Z) : option Z :=
  match back (d_times v) with
  | None => None
  | Some high => let timespan := u32_fsub high (d_retarget v) in
                 Some (if timespan <? lo then lo else if hi <? timespan then hi else timespan)
  end.
(** 427-432 patch_timewarp *)
Definition patch_timewarp (f : forks) (limit target : Z) : bool :=
  f_ltc_retarget_overflow_patch f && (floored_log2_uintx limit <=? floored_log2_uintx target).
(** 435-444 *)
Definition is_retarget_or_non_limit (height bits interval pow_limit : Z) : bool :=
  negb (bits =? pow_limit) || is_retarget_height height interval.
(** 457-463, 531-537: the reverse walk; [rbits] is the reversed deque. *)
Fixpoint walk_back (rbits : list Z) (height interval pow_limit : Z) : option Z :=
  match rbits with
  | [] => None
  | bit :: rest => let height := wrap u64 (height - 1) in
      if is_retarget_or_non_limit height bit interval pow_limit then Some bit else walk_back rest height interval pow_limit
  end.
(** 446-467 work_required_retarget_bits *)
Definition work_required_retarget_bits (v : data) (f : forks) (pow_limit interval : Z) : option Z :=
  match (if f_block_storm_patch f then walk_back (rev (d_bitss v)) (d_height v) interval pow_limit else None) with
  | Some bit => Some bit
  | None => back (d_bitss v)
  end.
(** 469-494 work_required_retarget *)
Definition work_required_retarget (limit : Z) (v : data) (f : forks) (s : settings) : option Z :=
  do b <- work_required_retarget_bits v f (s_pow_limit s) (retargeting_interval s);
  let target := compact_expand b in
  let timewarp := if patch_timewarp f limit target then 1 else 0 in
  do span <- retarget_timespan v (minimum_timespan s) (maximum_timespan s);
  if s_interval_seconds s =? 0 then None
  else
    let target := Z.shiftr target timewarp in
    let target := wrap u256 (target * span) in
    let target := target / s_interval_seconds s in
    let target := wrap u256 (Z.shiftl target timewarp) in
    Some (if limit <? target then s_pow_limit s else compact_compress target).
(** 496-540 easy_work_required (assertions are not effects) *)
Definition easy_work_required (v : data) (interval pow_limit spacing : Z) : option Z :=
  do high <- back (d_times v);
  if u32_cadd high (wrap u32 (Z.shiftl spacing 1)) <? d_time v then Some pow_limit
  else match walk_back (rev (d_bitss v)) (d_height v) interval pow_limit with Some b => Some b | None => Some pow_limit end.
(** 370-404 work_required *)
Definition work_required (limit : Z) (v : data) (f : forks) (s : settings) : option Z :=
  if d_height v =? 0 then Some 0
  else
    do b <- back (d_bitss v);
    if compact_expand b =? 0 then Some 0
    else if negb (f_retarget f) then Some b
    else if is_retarget_height (d_height v) (retargeting_interval s) then work_required_retarget limit v f s
    else if negb (f_difficult f) then easy_work_required v (retargeting_interval s) (s_pow_limit s) (s_spacing s)
    else Some b.

(** ** get_map, chain_state.cpp:542-617 *)
Record range := mkrange { r_count : Z; r_high : Z }.
Record map_ := mkmap {
  m_bits : range; m_version : range; m_timestamp : range; m_retarget : Z;
  m_bip30 : Z; m_bit0 : Z; m_bit1 : Z; m_bit2 : Z }.
Definition checkpoint_height (height : Z) (c : checkpoint) : Z := if height <? cp_height c then unrequested else cp_height c.
Definition get_map (height : Z) (s : settings) : map_ :=
  if height =? 0 then mkmap (mkrange 0 0) (mkrange 0 0) (mkrange 0 0) 0 unrequested unrequested unrequested unrequested
  else
    let f := s_forks s in let interval := retargeting_interval s in
    mkmap
      (mkrange (bits_count height f interval) (height - 1))
      (mkrange (version_count height f (s_sample s)) (height - 1))
      (mkrange (timestamp_count height) (height - 1))
      (retarget_height height f interval)
      (if f_bip30 f && f_bip30_deactivate f then checkpoint_height height (s_cp30 s) else unrequested)
      (if f_bip68 f || f_bip112 f || f_bip113 f then checkpoint_height height (s_cp0 s) else unrequested)
      (if f_bip141 f || f_bip143 f || f_bip147 f then checkpoint_height height (s_cp1 s) else unrequested)
      (if f_bip341 f || f_bip342 f then checkpoint_height height (s_cp2 s) else unrequested).
(** 619-650 signal_version *)
Definition signal_version (s : settings) : Z :=
  let f := s_forks s in
  if f_bip341 f || f_bip342 f then Z.lor (s_base s) (s_bit2 s)
  else if f_bip141 f || f_bip143 f || f_bip147 f then Z.lor (s_base s) (s_bit1 s)
  else if f_bip68 f || f_bip112 f || f_bip113 f then Z.lor (s_base s) (s_bit0 s)
  else if f_bip65 f then s_bip65_version s
  else if f_bip66 f then s_bip66_version s
  else if f_bip34 f then s_bip34_version s
  else s_first_version s.

(** ** promotion, chain_state.cpp:655-805 *)
Definition enqueue (l : list Z) (x count : Z) : list Z :=
  let l := l ++ [x] in if count <? len l then tl l else l.
(** 656-711 to_pool.  *next(crbegin()) is the second newest timestamp. *)
Definition to_pool (d : data) (f : forks) (s : settings) : data :=
  let height := wrap u64 (d_height d + 1) in
  let bitss := enqueue (d_bitss d) (d_bits d) (bits_count height f (retargeting_interval s)) in
  let versions := enqueue (d_versions d) (d_version d) (version_count height f (s_sample s)) in
  let times := enqueue (d_times d) (d_time d) (timestamp_count height) in
  let retarget :=
    if f_retarget f && is_retarget_height (wrap u64 (height - 1)) (retargeting_interval s)
    then (if f_ltc_time_warp_patch f && negb (height =? 1) then nth 1 (rev times) 0 else d_time d)
    else d_retarget d in
  mkdata height null_hash (d_bip30 d) (d_bit0 d) (d_bit1 d) (d_bit2 d) (d_work d)
    0 bitss (signal_version s) versions (d_time d) retarget times.
(** 747-767, 779-799: store the hash at a checkpoint height. *)
Definition at_checkpoint (height : Z) (c : checkpoint) (hash old : list Z) : list Z := if height =? cp_height c then hash else old.
Definition set_header (hash : list Z) (h : header) (work : Z) (d : data) (s : settings) : data :=
  let at_cp := at_checkpoint (d_height d) in
  mkdata (d_height d) hash (at_cp (s_cp30 s) hash (d_bip30 d)) (at_cp (s_cp0 s) hash (d_bit0 d))
    (at_cp (s_cp1 s) hash (d_bit1 d)) (at_cp (s_cp2 s) hash (d_bit2 d)) (wrap u256 (d_work d + work))
    (h_bits h) (d_bitss d) (h_version h) (d_versions d) (h_time h) (d_retarget d) (d_times d).
Definition proof0 (bits : Z) : Z := match proof bits with Some w => w | None => 0 end.
(** 726-770 to_block: data.hash = {} *)
Definition to_block (pool : data) (h : header) (s : settings) : data := set_header null_hash h (proof0 (h_bits h)) pool s.
(** 785-826 to_header: data.hash = header.hash() *)
Definition to_header (hash : header -> list Z) (parent : data) (f : forks) (h : header) (s : settings) : data :=
  set_header (hash h) h (proof0 (h_bits h)) (to_pool parent f s) s.

(** context.hpp:40-75 and chain_state.cpp:849-862 context *)
Record context := mkcontext {
  c_flags : Z; c_timestamp : Z; c_mtp : Z; c_height : Z; c_minimum : Z; c_work : Z; c_previous : Z }.
Definition to_context (limit : Z) (v : data) (f : forks) (s : settings) : option context :=
  do w <- work_required limit v f s;
  let a := activation v f s in
  Some (mkcontext (a_flags a) (d_time v) (median_time_past v) (wrap u32 (d_height v)) (a_minimum a) w
    (match back (d_times v) with Some t => t | None => 0 end)).
Definition is_enabled (c : context) (flag : Z) : bool := Z.testbit (c_flags c) flag.
Definition is_insufficient_version (c : context) (version : Z) : bool :=
  negb (c_minimum c =? 0) && (wrap i32 version <? wrap i32 (c_minimum c)).
Definition is_anachronistic_timestamp (c : context) (time : Z) : bool := time <=? c_mtp c.
Definition is_invalid_work (c : context) (bits : Z) : bool := negb (bits =? c_work c).
Definition is_early_timestamp (c : context) (interval : Z) : bool :=
  is_enabled c fl_time_warp && (c_height c mod interval =? 0) && (c_timestamp c <? u32_fsub (c_previous c) 600).
(** header.cpp:380-393 accept *)
Inductive acode := ASuccess | AVersion | AAnachronistic | AIncorrectWork | AEarly.
Definition header_accept (c : context) (interval : Z) (h : header) : acode :=
  if is_insufficient_version c (h_version h) then AVersion
  else if is_anachronistic_timestamp c (h_time h) then AAnachronistic
  else if is_invalid_work c (h_bits h) then AIncorrectWork
  else if is_early_timestamp c interval then AEarly
  else ASuccess.
