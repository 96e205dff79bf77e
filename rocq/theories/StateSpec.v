(** Specification of chain rules over a chain of headers (header i is the block
    at height i), without any rolling state. *)
From Coq Require Import Sorting.Sorted.
From Verif Require Import Base Bytes ChainModel CompactSpec StateModel.

(** The last n elements. *)
Definition last_n {A} (n : Z) (l : list A) : list A := skipn (length l - Z.to_nat n) l.
Definition hdr0 : header := mkheader 0 [] [] 0 0 0.
Definition at_height (hs : list header) (h : Z) : header := nth (Z.to_nat h) hs hdr0.
(** The headers below height h. *)
Definition below (hs : list header) (h : Z) : list header := firstn (Z.to_nat h) hs.

(** Median of a list of timestamps: the element at index n/2 of its ascending
    arrangement (zero for none). *)
Definition is_median (l : list Z) (m : Z) : Prop :=
  (l = [] /\ m = 0) \/ exists sorted, Permutation l sorted /\ Sorted Z.le sorted /\ l <> [] /\ m = nth (Z.to_nat (len l / 2)) sorted 0.

(** The data a store supplies for height h when asked by get_map
    (chain_state.hpp:50-79): the requested ranges and single values, defaults
    for what is not requested. *)
Notation requested h value default := (if h =? unrequested then default else value) (only parsing).
Definition from_history (hash : header -> list Z) (hs : list header) (h : Z) (s : settings) : data :=
  let m := get_map h s in
  let pre := below hs h in
  let self := at_height hs h in
  let hash_at i := requested i (hash (at_height hs i)) null_hash in
  mkdata h (hash self) (hash_at (m_bip30 m)) (hash_at (m_bit0 m)) (hash_at (m_bit1 m)) (hash_at (m_bit2 m))
    (fold_left (fun w x => (w + work_of (h_bits x)) mod 2 ^ 256) (below hs (h + 1)) 0)
    (h_bits self) (last_n (r_count (m_bits m)) (map h_bits pre))
    (h_version self) (last_n (r_count (m_version m)) (map h_version pre))
    (h_time self) (requested (m_retarget m) (h_time (at_height hs (m_retarget m))) 0)
    (last_n (r_count (m_timestamp m)) (map h_time pre)).
(** Rolling a state forward over the headers that follow it. *)
Definition roll (hash : header -> list Z) (s : settings) (d : data) (next : list header) : data :=
  fold_left (fun d h => to_header hash d (s_forks s) h s) next d.
Definition between (hs : list header) (a b : Z) : list header := firstn (Z.to_nat (b - a)) (skipn (Z.to_nat (a + 1)) hs).

(** Bits of the most recent block below height n that does not carry the
    minimum-difficulty bits or starts a retarget period. *)
Fixpoint real_bits (hs : list header) (interval limit : Z) (n : nat) : Z :=
  match n with
  | O => limit
  | S k => let b := h_bits (at_height hs (Z.of_nat k)) in
           if negb (b =? limit) || (Z.of_nat k mod interval =? 0) then b else real_bits hs interval limit k
  end.
Definition clamp3 (lo hi x : Z) : Z := Z.max lo (Z.min hi x).
(** The retarget rule on exact integers.  Litecoin drops the low bit of targets
    of the same bit length as the limit before scaling (fShift). *)
Definition new_target (s : settings) (old_bits span : Z) : Z :=
  let old := target_of old_bits in
  if f_ltc_retarget_overflow_patch (s_forks s) && (Z.log2 (target_of (s_pow_limit s)) <=? Z.log2 old)
  then 2 * (old / 2 * span / s_interval_seconds s)
  else old * span / s_interval_seconds s.
Definition retargeted (s : settings) (old_bits span : Z) : Z :=
  let t := new_target s old_bits span in
  if target_of (s_pow_limit s) <? t then s_pow_limit s else satoshi_compact t.
(** The bits required of block h (1 <= h) of the chain, Satoshi client
    GetNextWorkRequired: mainnet, testnet (not difficult), regtest (no
    retarget), testnet4 (block storm patch). *)
Definition span_at (hs : list header) (s : settings) (h : Z) : Z :=
  clamp3 (s_interval_seconds s / s_factor s) (s_interval_seconds s * s_factor s)
    (h_time (at_height hs (h - 1)) - h_time (at_height hs (h - s_interval_seconds s / s_spacing s))).
Definition base_bits (hs : list header) (s : settings) (h : Z) : Z :=
  if f_block_storm_patch (s_forks s) then real_bits hs (s_interval_seconds s / s_spacing s) (s_pow_limit s) (Z.to_nat h)
  else h_bits (at_height hs (h - 1)).
Definition next_work (hs : list header) (s : settings) (h : Z) : Z :=
  let f := s_forks s in let interval := s_interval_seconds s / s_spacing s in
  let last := at_height hs (h - 1) in
  if negb (f_retarget f) then h_bits last
  else if h mod interval =? 0 then retargeted s (base_bits hs s h) (span_at hs s h)
  else if f_difficult f then h_bits last
  else if h_time last + 2 * s_spacing s <? h_time (at_height hs h) then s_pow_limit s
  else real_bits hs interval (s_pow_limit s) (Z.to_nat h).

(** Sane parameters: nonzero periods, no 32-bit overflow of the settings. *)
Definition sane (s : settings) : Prop :=
  0 < s_spacing s <= s_interval_seconds s /\ 0 < s_factor s /\ s_interval_seconds s * s_factor s < 2 ^ 32 /\
  2 * s_spacing s < 2 ^ 32 /\ 0 <= s_pow_limit s < 2 ^ 32 /\ 0 <= s_sample s.
Definition header_fields_ok (h : header) : Prop :=
  0 <= h_bits h < 2 ^ 32 /\ 0 <= h_time h < 2 ^ 32 /\ 0 <= h_version h < 2 ^ 32.
(** Every block of the chain has a valid target not above the limit. *)
Definition bits_valid (s : settings) (hs : list header) : Prop :=
  Forall (fun h => 0 < target_of (h_bits h) <= target_of (s_pow_limit s)) hs.
(** The retarget product fits 256 bits for every target up to the limit. *)
Definition no_overflow (s : settings) : Prop :=
  let limit := target_of (s_pow_limit s) in
  let factor := s_factor s in
  let longest := s_interval_seconds s * factor in
  if f_ltc_retarget_overflow_patch (s_forks s) then 2 ^ Z.log2 limit * longest <= 2 ^ 256 /\ limit * factor < 2 ^ 256
  else limit * longest < 2 ^ 256.
(** The deployment groups whose activation block is looked up, and where. *)
Definition groups (s : settings) : list (bool * checkpoint) :=
  let f := s_forks s in
  [(f_bip30 f && f_bip30_deactivate f, s_cp30 s); (f_bip68 f || f_bip112 f || f_bip113 f, s_cp0 s);
   (f_bip141 f || f_bip143 f || f_bip147 f, s_cp1 s); (f_bip341 f || f_bip342 f, s_cp2 s)].
Definition activated_by (hash : header -> list Z) (hs : list header) (b : Z) (c : checkpoint) : list Z :=
  if cp_height c <=? b then hash (at_height hs (cp_height c)) else null_hash.
(** Number of versions in the sample that signal (as signed 32-bit integers). *)
Definition signed32 (v : Z) : Z := if v <? 2 ^ 31 then v else v - 2 ^ 32.
Definition signalling (version : Z) (sample : list Z) : Z := len (filter (fun v => signed32 version <=? signed32 v) sample).
