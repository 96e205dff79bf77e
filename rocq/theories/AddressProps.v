(** C40, C41, C56: bech32, witness addresses, base58check addresses. *)
From Coq Require Import String.
From Verif Require Import Base Bytes BitStreamSpec RadixModel RadixSpec RadixProofs RadixProofs3 RadixProofs4 RadixProps AddressModel BechField BechProofs AddressSpec AddressProofs AddressProofs2 AddressProofs3 AddressProofs4.

(** * C40 *)
(** The symbol arithmetic is that of the field named in the specification. *)
Theorem C40_field x y : gz (gadd x y) = Z.lxor (gz x) (gz y) /\ gz (gmul x y) = reduce (carryless (gz x) (gz y)).
Proof. split; [apply gz_gadd|apply gmul_field]. Qed.
Print Assumptions C40_field.
(** Verification accepts exactly the code words (BIP173, BIP350). *)
Theorem C40_verify prefix checked version program : Forall (fun c => 0 <= c < 128) prefix -> digits_ok 32 checked ->
  (bech32_verify_checked prefix checked = None <-> ~ (7 <= len checked /\ code_word (map lower prefix) checked)) /\
  (bech32_verify_checked prefix checked = Some (version, program) <->
     7 <= len checked /\ code_word (map lower prefix) checked /\ version = hd 0 checked /\
     program = base32_pack (firstn (Z.to_nat (len checked - 7)) (skipn 1 checked))).
Proof.
  intros A D. unfold bech32_verify_checked. unfold code_word. destruct (Z.ltb_spec (len checked) 7).
  - split; [split; [lia|reflexivity]|split; [discriminate|lia]].
  - cbv zeta. pose proof (verify_code checked prefix (hd 0 checked) A D) as V. destruct (bech32_verify_checksum checked prefix (hd 0 checked)).
    + destruct V as [V _]. specialize (V eq_refl). split; [split; [discriminate|tauto]|]. split.
      * intros E. assert (hd 0 checked = version) by congruence. split; [assumption|]. split; [auto|]. split; [congruence|]. congruence.
      * intros (_ & _ & -> & ->). reflexivity.
    + destruct V as [_ V]. split; [split; [intros _ [_ [_ C]]; discriminate (V C)|reflexivity]|]. split; [discriminate|]. intros (_ & (_ & C) & _). discriminate (V C).
Qed.
Print Assumptions C40_verify.
(** A built word verifies and yields its version and program. *)
Theorem C40_built prefix version program : Forall (fun c => 0 <= c < 128) prefix -> 0 <= version < 32 -> bytes_ok program -> len program < 2 ^ 64 ->
  bech32_verify_checked prefix (bech32_build_checked version program prefix) = Some (version, program).
Proof.
  intros A Hv B Hl. unfold bech32_build_checked. replace (version >=? 32) with false by lia. unfold u5. rewrite Z.mod_small by lia.
  assert (D : symbols (version :: base32_unpack program)) by (constructor; [lia|apply unpack_digits; exact Hl]).
  destruct (append_symbols (version :: base32_unpack program) prefix version A D) as (check & E & C & L). 
  assert (V : bech32_verify_checksum (bech32_append_checksum (version :: base32_unpack program) prefix version) prefix version = true).
  { rewrite E. apply verify_exact; [exact A|exact D|exact C|exact L|]. symmetry. exact E. }
  rewrite E in V |- *. unfold bech32_verify_checked. rewrite len_app, L, len_cons. pose proof (len_nonneg (base32_unpack program)).
  replace (1 + len (base32_unpack program) + 6 <? 7) with false by lia. cbn [app hd]. cbv zeta. cbn [app] in V. rewrite V.
  change (skipn 1 (version :: base32_unpack program ++ check)) with (base32_unpack program ++ check).
  replace (Z.to_nat (1 + len (base32_unpack program) + 6 - 7)) with (length (base32_unpack program)) by (unfold len; lia).
  rewrite firstn_app, Nat.sub_diag, firstn_all. cbn [firstn]. rewrite app_nil_r, base32_pack_unpack by assumption. reflexivity.
Qed.
Print Assumptions C40_built.
(** The last six symbols are determined by the others. *)
Theorem C40_exact prefix version data check : Forall (fun c => 0 <= c < 128) prefix -> digits_ok 32 (version :: data ++ check) -> len check = 6 ->
  bech32_verify_checked prefix (version :: data ++ check) <> None <->
  version :: data ++ check = bech32_append_checksum (version :: data) prefix version.
Proof.
  intros A D L. assert (D1 : symbols (version :: data) /\ symbols check) by (change (version :: data ++ check) with ((version :: data) ++ check) in D; apply Forall_app in D; exact D).
  change (version :: data ++ check) with ((version :: data) ++ check) at 2. rewrite <- verify_exact; [|exact A|apply D1|apply D1|exact L].
  unfold bech32_verify_checked. rewrite len_cons, len_app, L. pose proof (len_nonneg data). replace (1 + (len data + 6) <? 7) with false by lia. cbn [hd app]. cbv zeta.
  destruct (bech32_verify_checksum (version :: data ++ check) prefix version); split; congruence.
Qed.
Print Assumptions C40_exact.
(** Up to four substituted symbols are always detected, provided that the
    version does not change between zero and non-zero. *)
Theorem C40_four prefix a b : Forall (fun c => 0 <= c < 128) prefix -> digits_ok 32 a -> digits_ok 32 b -> len a = len b -> len a <= 89 ->
  (1 <= substitutions a b <= 4)%nat -> (hd 0 a = 0 <-> hd 0 b = 0) ->
  bech32_verify_checked prefix a <> None -> bech32_verify_checked prefix b = None.
Proof.
  intros A Da Db L N SB C H. unfold bech32_verify_checked in *. rewrite <- L. destruct (len a <? 7); [congruence|]. cbv zeta in *.
  destruct (bech32_verify_checksum a prefix (hd 0 a)) eqn:V; [|congruence].
  rewrite (detect_same prefix a b (hd 0 a) (hd 0 b)); [reflexivity|assumption..| |exact V].
  unfold bech32_constant. destruct (Z.eqb_spec (hd 0 a) 0), (Z.eqb_spec (hd 0 b) 0); tauto.
Qed.
Print Assumptions C40_four.
(** Up to three substituted symbols of a witness address payload are always
    detected, the version included. *)
Theorem C40_three prefix a b : Forall (fun c => 0 <= c < 128) prefix -> digits_ok 32 a -> digits_ok 32 b -> len a = len b -> len a <= 71 ->
  (1 <= substitutions a b <= 3)%nat ->
  bech32_verify_checked prefix a <> None -> bech32_verify_checked prefix b = None.
Proof.
  intros A Da Db L N SB H. unfold bech32_verify_checked in *. rewrite <- L. destruct (len a <? 7); [congruence|]. cbv zeta in *.
  destruct (bech32_verify_checksum a prefix (hd 0 a)) eqn:V; [|congruence].
  assert (F : bech32_verify_checksum b prefix (hd 0 b) = false); [|rewrite F; reflexivity].
  destruct (Z.eq_dec (bech32_constant (hd 0 a)) (bech32_constant (hd 0 b))) as [E|E].
  - apply (detect_same prefix a b (hd 0 a) (hd 0 b)); try assumption; lia.
  - apply (detect_change prefix a b (hd 0 a) (hd 0 b)); try assumption; lia.
Qed.
Print Assumptions C40_three.
(** The same at the address text: two texts of one prefix whose payloads differ
    in one to three alphabet characters are never both accepted. *)
Lemma subs_map a : forall b, digits_ok 32 a -> digits_ok 32 b -> len a = len b -> substitutions (encode_base32_chunk a) (encode_base32_chunk b) = substitutions a b.
Proof.
  induction a as [|x a IH]; intros [|y b] A B L; try reflexivity. inversion A; subst. inversion B; subst. rewrite !len_cons in L.
  unfold encode_base32_chunk in *. cbn [map substitutions]. rewrite IH by (assumption || lia). destruct (Z.eqb_spec x y) as [->|N]; [rewrite Z.eqb_refl; reflexivity|].
  destruct (Z.eqb_spec (nth (Z.to_nat x) encode32 0) (nth (Z.to_nat y) encode32 0)) as [E|E]; [|reflexivity]. exfalso. apply N.
  destruct (table32 x ltac:(assumption)) as [T1 _]. destruct (table32 y ltac:(assumption)) as [T2 _]. rewrite E in T1. congruence.
Qed.
Theorem C40_text text prefix a b strict strict' w : bytes_ok text -> map lower text = prefix ++ codes "1"%string ++ a ->
  Forall (fun c => In c alphabet32) a -> Forall (fun c => In c alphabet32) b -> len a = len b -> (1 <= substitutions a b <= 3)%nat ->
  parse_address text strict = Some (Some w) -> forall text', bytes_ok text' -> map lower text' = prefix ++ codes "1"%string ++ b ->
  parse_address text' strict' = Some None.
Proof.
  intros B E FA FB L SB P text' B' E'.
  pose proof (parse_defined text' strict' B') as N. destruct (parse_address text' strict') as [[w'|]|] eqn:P'; [|reflexivity|congruence]. exfalso.
  assert (SP : forall a, Forall (fun c => In c alphabet32) a -> exists u, digits_ok 32 u /\ a = encode_base32_chunk u).
  { clear. induction 1 as [|c a I _ (u & D & ->)]; [exists []; split; [constructor|reflexivity]|].
    destruct (In_nth _ _ 0 I) as (k & Hk & <-). exists (Z.of_nat k :: u). change (length alphabet32) with 32%nat in Hk. split; [constructor; [lia|exact D]|].
    unfold encode_base32_chunk. cbn [map]. rewrite Nat2Z.id, <- alphabet32_eq. reflexivity. }
  destruct (SP a FA) as (ua & Da & ->). destruct (SP b FB) as (ub & Db & ->). clear SP.
  assert (UNI : forall t u p s w0, bytes_ok t -> digits_ok 32 u -> map lower t = p ++ codes "1"%string ++ encode_base32_chunk u -> parse_address t s = Some (Some w0) ->
     ascii p /\ map lower p = p /\ len u <= 71 /\ bech32_verify_checked p u <> None).
  { clear. intros t u p s w0 B D E P. destruct w0 as [pf v pr]. apply parse_iff in P; [|exact B]. destruct P as [(_ & A & _ & PR & PG & data & check & payload & pad & E2 & SP & L6 & CW & Hpad & HB & L64) _].
    apply (proj1 (spells32 _ _)) in SP. destruct SP as [D2 EP]. change (codes "1"%string) with [49] in *. cbn [app] in *.
    pose proof (split_last_app 49 p (encode_base32_chunk u) (no_separator u D)) as S1. pose proof (split_last_app 49 pf payload ltac:(rewrite EP; apply no_separator, D2)) as S2.
    rewrite <- E, E2, S2 in S1. assert (EQ1 : pf = p) by congruence. assert (EQ2 : encode_base32_chunk u = payload) by congruence. subst pf.
    pose proof (decode32_chunk_round u D) as R1. pose proof (decode32_chunk_round _ D2) as R2. 
    assert (EU : u = v :: data ++ check) by congruence. subst u.
    pose proof (map_lower_ascii _ A) as AL. rewrite E in AL. apply Forall_app in AL. destruct (map_lower_app_inv _ _ _ E) as [LP _].
    split; [apply AL|]. split; [exact LP|]. split; [rewrite len_cons, len_app; lia|].
    assert (V : bech32_verify_checked p (v :: data ++ check) = Some (v, pr)); [|congruence].
    apply verify_checked_spec; [apply AL|exact LP|exact D|destruct PG as (_ & Q & _); lia|]. exists data, check, pad. auto. }
  destruct (UNI _ _ _ _ _ B Da E P) as (A & _ & L71 & V1). destruct (UNI _ _ _ _ _ B' Db E' P') as (_ & _ & _ & V2). rewrite !encode_len in L.
  rewrite subs_map in SB by assumption. apply V2. apply (C40_three prefix ua ub); assumption.
Qed.
Print Assumptions C40_text.
Example C40_sat :
  let p := codes "bc"%string in
  let a := bech32_build_checked 0 [1; 2; 3; 4; 5; 6; 7; 8; 9; 10; 11; 12; 13; 14; 15; 16; 17; 18; 19; 20] p in
  let b := 1 :: 5 :: skipn 2 a in
  bech32_verify_checked p a <> None /\ len a = 39 /\ substitutions a b = 2%nat /\ bech32_verify_checked p b = None.
Proof. vm_compute. repeat split; discriminate. Qed.

(** * C41 *)
(** The parser accepts exactly the witness texts, with up to seven unused zero
    bits, and reports their parts; its outcome is always defined. *)
Theorem C41_accepts text strict prefix version program : bytes_ok text ->
  parse_address text strict <> None /\
  (parse_address text strict = Some (Some (mkwa prefix version program)) <->
   witness_text 7 text prefix version program /\
   (strict = true -> (prefix = codes "bc"%string \/ prefix = codes "tb"%string) /\ version <= 1)).
Proof. intros B. split; [apply parse_defined; exact B|apply parse_iff; exact B]. Qed.
Print Assumptions C41_accepts.
(** Construction from parts. *)
Theorem C41_from_parameters prefix version program a : Forall (fun c => 0 <= c < 256) prefix -> 0 <= version ->
  from_parameters program version prefix = Some a <-> prefix_rule prefix /\ program_rule version program /\ a = mkwa prefix version program.
Proof.
  intros P V. unfold from_parameters. pose proof (parse_prefix_spec prefix false P) as PP. pose proof (parse_program_spec version program false V) as PG.
  destruct (parse_prefix prefix false); cbn [negb].
  - destruct (valid_type (parse_program version program false)).
    + split; [intros E; split; [apply PP; reflexivity|]; split; [apply PG; reflexivity|congruence]|intros (_ & _ & ->); reflexivity].
    + split; [discriminate|]. intros (_ & G & _). assert (false = true) by (apply PG; split; [exact G|discriminate]). discriminate.
  - split; [discriminate|]. intros (G & _). assert (false = true) by (apply PP; split; [exact G|discriminate]). discriminate.
Qed.
Print Assumptions C41_from_parameters.
(** The encoding of an address is a BIP173 text (at most four unused bits) if
    it fits 90 characters, and parses to the same address, in either case. *)
Lemma encoded_text prefix version program : prefix_rule prefix -> program_rule version program -> bytes_ok program ->
  let t := encoded (mkwa prefix version program) in
  map lower t = t /\ Forall (fun c => 0 <= c < 128) t /\
  exists data check payload pad,
    t = prefix ++ codes "1"%string ++ payload /\ spells alphabet32 payload (version :: data ++ check) /\ len check = 6 /\ code_word prefix (version :: data ++ check) /\
    0 <= pad <= 4 /\ holds_bytes data program pad /\ len data <= 64.
Proof.
  intros (PL & PC & LP) (V & PG & _) B t.
  assert (A : ascii prefix) by (eapply Forall_impl; [|exact PC]; cbv beta; lia).
  destruct (unpack_holds program B ltac:(lia) ltac:(lia)) as (pad & Hpad & HB).
  assert (L64 : len (base32_unpack program) <= 64) by (destruct HB as (_ & HB & _); lia).
  assert (D : symbols (version :: base32_unpack program)) by (constructor; [lia|apply unpack_digits; lia]).
  destruct (append_symbols (version :: base32_unpack program) prefix version A D) as (check & E & C & L).
  assert (BC : bech32_build_checked version program prefix = version :: base32_unpack program ++ check).
  { unfold bech32_build_checked. replace (version >=? 32) with false by lia. unfold u5. rewrite Z.mod_small by lia. exact E. }
  assert (DA : digits_ok 32 (version :: base32_unpack program ++ check)).
  { change (version :: base32_unpack program ++ check) with ((version :: base32_unpack program) ++ check). apply Forall_app. split; assumption. }
  assert (T : t = prefix ++ codes "1"%string ++ encode_base32_chunk (version :: base32_unpack program ++ check)).
  { unfold t, encoded. cbn [wprefix wversion wprogram]. rewrite BC. reflexivity. }
  assert (LC : map lower (encode_base32_chunk (version :: base32_unpack program ++ check)) = encode_base32_chunk (version :: base32_unpack program ++ check) /\ ascii (encode_base32_chunk (version :: base32_unpack program ++ check))).
  { clear -DA. induction DA as [|v l Hv _ [IH1 IH2]]; [split; [reflexivity|constructor]|]. unfold encode_base32_chunk, ascii in *. cbn [map].
    assert (K : forallb (fun v => let c := nth (Z.to_nat v) encode32 0 in (lower c =? c) && (0 <=? c) && (c <? 128)) (range 32) = true) by (vm_compute; reflexivity).
    pose proof (forall_range _ 32 K v Hv) as K'. cbv beta zeta in K'. rewrite !andb_true_iff in K'. split; [f_equal; [lia|exact IH1]|constructor; [lia|exact IH2]]. }
  split; [|split].
  - rewrite T, !map_app, LP. rewrite (proj1 LC). reflexivity.
  - rewrite T. apply Forall_app. split; [exact A|]. apply Forall_app. change (codes "1"%string) with [49]. split; [constructor; [lia|constructor]|apply LC].
  - exists (base32_unpack program), check, (encode_base32_chunk (version :: base32_unpack program ++ check)), pad.
    split; [exact T|]. split; [apply spells32; split; [exact DA|reflexivity]|]. split; [exact L|]. split; [|split; [exact Hpad|split; [exact HB|exact L64]]].
    split; [exact DA|]. cbn [hd]. rewrite <- LP at 1. apply verify_code; [exact A|exact DA|].
    apply (verify_exact (version :: base32_unpack program) check prefix version A D C L). symmetry. exact E.
Qed.
Theorem C41_encode prefix version program : prefix_rule prefix -> program_rule version program -> bytes_ok program ->
  let t := encoded (mkwa prefix version program) in
  len t <= 90 ->
  witness_text 4 t prefix version program /\
  forall text, bytes_ok text -> map lower text = t ->
    (Forall (fun c => ~ upper_letter c) text \/ Forall (fun c => ~ lower_letter c) text) ->
    parse_address text false = Some (Some (mkwa prefix version program)).
Proof.
  intros PR PG B t L90. destruct (encoded_text prefix version program PR PG B) as (LT & AT & data & check & payload & pad & T & SP & L6 & CW & Hpad & HB & L64). fold t in LT, AT, T.
  split.
  - split; [exact L90|]. split; [exact AT|]. split; [apply mixed_spec, not_mixed_lower, LT|]. split; [exact PR|]. split; [exact PG|].
    exists data, check, payload, pad. rewrite LT. auto 10.
  - intros text BT E M. assert (LL : len text = len t) by (rewrite <- E; unfold len; rewrite map_length; reflexivity). apply parse_iff; [exact BT|]. split; [|discriminate].
    split; [lia|]. split.
    + apply Forall_forall. intros c I. unfold bytes_ok in BT. rewrite Forall_forall in BT, AT. specialize (BT c I). unfold byte_ok in BT. assert (Il : In (lower c) t) by (rewrite <- E; apply in_map, I).
      specialize (AT _ Il). cbv beta in AT. unfold lower in AT. destruct ((65 <=? c) && (c <=? 90)); lia.
    + split; [exact M|]. split; [exact PR|]. split; [exact PG|]. exists data, check, payload, pad. rewrite E. split; [exact T|]. split; [exact SP|]. split; [exact L6|]. split; [exact CW|].
      split; [lia|]. auto.
Qed.
Print Assumptions C41_encode.
(** BIP173 requires at most four unused bits: a superfluous zero symbol is
    accepted, so that one program has several accepted texts (F28). *)
Definition padded_text : list Z := codes "bc1qqqqsyqcyq5rqwzqfpg9scrgwpugpzysnqtj07j6"%string.
Definition padded_program : list Z := [0; 1; 2; 3; 4; 5; 6; 7; 8; 9; 10; 11; 12; 13; 14; 15; 16; 17; 18; 19].
Theorem C41_padding_refuted : ~ (forall text strict prefix version program, bytes_ok text ->
  parse_address text strict = Some (Some (mkwa prefix version program)) -> witness_text 4 text prefix version program).
Proof.
  intros H. specialize (H padded_text true (codes "bc"%string) 0 padded_program).
  destruct H as (_ & _ & _ & _ & _ & data & check & payload & pad & E & SP & L6 & _ & Hpad & (_ & HB & _) & _).
  { apply Forall_forall. intros c I. assert (C : forallb (fun c => (0 <=? c) && (c <? 256)) padded_text = true) by (vm_compute; reflexivity).
    rewrite forallb_forall in C. specialize (C c I). unfold byte_ok. lia. }
  { vm_compute. reflexivity. }
  apply (proj1 (spells32 _ _)) in SP. destruct SP as [_ EP].
  assert (LT : len (map lower padded_text) = 43) by (vm_compute; reflexivity). rewrite E, !len_app, EP, encode_len, len_cons, len_app, L6 in LT.
  change (len (codes "bc"%string)) with 2 in LT. change (len (codes "1"%string)) with 1 in LT. change (len padded_program) with 20 in HB. lia.
Qed.
Print Assumptions C41_padding_refuted.
(** A prefix of up to 78 characters is accepted for construction even if the
    encoding then exceeds 90 characters and does not parse (F29). *)
Definition long_prefix : list Z := repeat 97 78.
Theorem C41_long_prefix_refuted : ~ (forall prefix version program a, prefix_rule prefix -> program_rule version program -> bytes_ok program ->
  from_parameters program version prefix = Some a -> parse_address (encoded a) false = Some (Some a)).
Proof.
  intros H. assert (K : parse_address (encoded (mkwa long_prefix 0 padded_program)) false = Some (Some (mkwa long_prefix 0 padded_program))); [|vm_compute in K; discriminate K].
  apply (H long_prefix 0 padded_program).
  - split; [change (len long_prefix) with 78; lia|]. split; [|vm_compute; reflexivity]. apply Forall_forall. intros c I. apply repeat_spec in I. lia.
  - repeat split; try (change (len padded_program) with 20; lia); lia.
  - apply Forall_forall. intros c I. unfold byte_ok. cbn in I. intuition lia.
  - vm_compute. reflexivity.
Qed.
Print Assumptions C41_long_prefix_refuted.
(** BIP173 test vector (P2WPKH of the generator point key). *)
Example C41_sat :
  let program := [117; 30; 118; 232; 25; 145; 150; 212; 84; 148; 28; 69; 209; 179; 163; 35; 241; 67; 59; 214] in
  encoded (mkwa (codes "bc"%string) 0 program) = codes "bc1qw508d6qejxtdg4y5r3zarvary0c5xw7kv8f3t4"%string /\
  parse_address (codes "BC1QW508D6QEJXTDG4Y5R3ZARVARY0C5XW7KV8F3T4"%string) true = Some (Some (mkwa (codes "bc"%string) 0 program)) /\
  parse_address (codes "bc1qw508d6qejxtdg4y5r3zarvary0c5xw7kv8f3t5"%string) true = Some None.
Proof. vm_compute. auto. Qed.

(** * C56 *)
Section C56.
Variable hash : list Z -> list Z.
Hypothesis hash_bytes : forall x, bytes_ok (hash x) /\ len (hash x) = 32.
Lemma hash4 x : bytes_ok (firstn 4 (hash x)) /\ length (firstn 4 (hash x)) = 4%nat.
Proof.
  destruct (hash_bytes x) as [B L]. split; [apply Forall_forall; intros c I; unfold bytes_ok in B; rewrite Forall_forall in B; apply B; rewrite <- (firstn_skipn 4 (hash x)); apply in_or_app; left; exact I|].
  rewrite firstn_length. unfold len in L. lia.
Qed.
(** Data with its checksum appended verifies; verification accepts exactly that. *)
Theorem C56_checksum data : bytes_ok data ->
  verify_checksum hash data = true <-> exists x, data = append_checksum hash x /\ data = x ++ firstn 4 (hash x).
Proof.
  intros B. assert (AP : forall x, append_checksum hash x = x ++ firstn 4 (hash x)).
  { intros x. unfold append_checksum, bitcoin_checksum. destruct (hash4 x) as [B4 L4]. f_equal. pose proof (le_bytes_value (firstn 4 (hash x)) B4) as E. rewrite L4 in E. exact E. }
  unfold verify_checksum. destruct (Z.ltb_spec (len data) 4) as [C|C].
  - split; [discriminate|]. intros (x & E & E'). rewrite E' in C. rewrite len_app in C. destruct (hash4 x) as [_ L4]. unfold len in C. lia.
  - cbv zeta. rewrite Z.eqb_eq. set (n := (length data - 4)%nat). unfold bitcoin_checksum.
    assert (L4 : length (skipn n data) = 4%nat) by (rewrite skipn_length; unfold n, len in *; lia).
    assert (BS : bytes_ok (skipn n data)) by (apply Forall_forall; intros c I; unfold bytes_ok in B; rewrite Forall_forall in B; apply B; rewrite <- (firstn_skipn n data); apply in_or_app; right; exact I).
    split.
    + intros E. exists (firstn n data). rewrite AP. assert (K : data = firstn n data ++ firstn 4 (hash (firstn n data))); [|auto]. rewrite <- (firstn_skipn n data) at 1. f_equal.
      destruct (hash4 (firstn n data)) as [B4 LH]. rewrite <- (le_bytes_value (skipn n data) BS), <- (le_bytes_value _ B4), L4, LH, E. reflexivity.
    + intros (x & _ & E). destruct (hash4 x) as [_ LH]. assert (n = length x) as -> by (unfold n; rewrite E, app_length; lia).
      rewrite E, skipn_app, firstn_app, Nat.sub_diag, skipn_all, firstn_all. cbn [skipn firstn app]. rewrite app_nil_r. reflexivity.
Qed.
(** Address values: prefix byte, hash, four checksum bytes. *)
Theorem C56_value prefix key : len key = 20 ->
  payment_of hash key prefix = base58check hash prefix key /\
  payment_prefix (payment_of hash key prefix) = prefix /\ payment_hash (payment_of hash key prefix) = key.
Proof.
  intros L. assert (E : payment_of hash key prefix = base58check hash prefix key).
  { unfold payment_of, checked_from, insert_checksum, base58check. cbv zeta.
    assert (LL : (length ([prefix] ++ key ++ repeat 0%Z 4) - 4)%nat = length (prefix :: key)) by (rewrite !app_length; cbn [length repeat]; lia).
    rewrite LL. change ([prefix] ++ key ++ repeat 0 4) with ((prefix :: key) ++ repeat 0 4). rewrite firstn_app, Nat.sub_diag, firstn_all. cbn [firstn app]. rewrite app_nil_r. reflexivity. }
  rewrite E. split; [reflexivity|]. split; [reflexivity|]. unfold payment_hash, checked_payload, base58check. cbn [skipn].
  assert (L2 : 20%nat = length key) by (unfold len in L; lia). rewrite L2, firstn_app, Nat.sub_diag, firstn_all. cbn [firstn]. apply app_nil_r.
Qed.
Lemma list_eqb_iff (a b : list Z) : list_eqb a b = true <-> a = b.
Proof. unfold list_eqb. destruct (list_eq_dec Z.eq_dec a b); split; congruence. Qed.
(** Parsing accepts exactly the base58 texts of well-formed values. *)
Theorem C56_from_string text value :
  payment_from_string hash text = Some value <->
  exists prefix key, byte_ok prefix /\ bytes_ok key /\ len key = 20 /\ value = base58check hash prefix key /\ text = encode_base58 value.
Proof.
  unfold payment_from_string. rewrite (C38_array 25 text). split.
  - destruct (decode_base58 text) as [x|] eqn:D; [|discriminate]. destruct (Z.eqb_spec (len x) 25) as [L|]; [|discriminate]. cbn [obind].
    destruct (verify_checksum_array hash 4 x) eqn:V; [|discriminate]. intros E. assert (x = value) as -> by congruence. clear E.
    apply C38_text_round_trip in D. destruct D as [B E]. unfold verify_checksum_array in V. cbv zeta in V. apply list_eqb_iff in V.
    assert (LN : (length value - 4)%nat = 21%nat) by (unfold len in L; lia). rewrite LN in V.
    destruct value as [|p r]; [change (len (@nil Z)) with 0 in L; lia|]. rewrite len_cons in L. inversion B as [|? ? Bp Br]; subst.
    exists p, (firstn 20 r). split; [exact Bp|]. split; [apply Forall_forall; intros c I; unfold bytes_ok in Br; rewrite Forall_forall in Br; apply Br; rewrite <- (firstn_skipn 20 r); apply in_or_app; left; exact I|].
    split; [unfold len in *; rewrite firstn_length; lia|]. split; [|reflexivity]. unfold base58check. f_equal.
    change (firstn 21 (p :: r)) with (p :: firstn 20 r) in V. change (skipn 21 (p :: r)) with (skipn 20 r) in V. rewrite V. symmetry. apply firstn_skipn.
  - intros (prefix & key & Bp & Bk & L & -> & ->). set (v := base58check hash prefix key).
    assert (LV : len v = 25) by (unfold v, base58check; rewrite len_cons, len_app; destruct (hash4 (prefix :: key)) as [_ H4]; unfold len in *; lia).
    assert (BV : bytes_ok v) by (constructor; [exact Bp|]; apply Forall_app; split; [exact Bk|apply hash4]).
    rewrite C38_round_trip by exact BV. rewrite LV. cbn [Z.eqb Pos.eqb obind].
    assert (V : verify_checksum_array hash 4 v = true); [|rewrite V; reflexivity].
    unfold verify_checksum_array. cbv zeta. apply list_eqb_iff. assert (LN : (length v - 4)%nat = length (prefix :: key)) by (cbn [length]; unfold len in *; lia). rewrite LN.
    unfold v, base58check. change (prefix :: key ++ firstn 4 (hash (prefix :: key))) with ((prefix :: key) ++ firstn 4 (hash (prefix :: key))).
    rewrite firstn_app, skipn_app, Nat.sub_diag, firstn_all, skipn_all. cbn [firstn skipn app]. rewrite app_nil_r. reflexivity.
Qed.
(** Text round trip of a constructed address. *)
Theorem C56_round_trip prefix key : byte_ok prefix -> bytes_ok key -> len key = 20 ->
  exists v, payment_from_string hash (payment_encoded (payment_of hash key prefix)) = Some v /\ payment_prefix v = prefix /\ payment_hash v = key.
Proof.
  intros Bp Bk L. destruct (C56_value prefix key L) as (E & P & K). exists (payment_of hash key prefix). split; [|auto].
  apply C56_from_string. exists prefix, key. unfold payment_encoded. auto.
Qed.
End C56.
Print Assumptions C56_checksum.
Print Assumptions C56_value.
Print Assumptions C56_from_string.
Print Assumptions C56_round_trip.
Example C56_sat : let hash := fun x : list Z => repeat (Z.land (fold_left Z.lxor x 7) 255) 32 in
  let v := payment_of hash (repeat 3 20) 0 in
  payment_from_string hash (payment_encoded v) = Some v /\ len v = 25 /\
  payment_from_string hash (49 :: payment_encoded v) = None /\ verify_checksum hash (append_checksum hash [1; 2; 3]) = true /\
  verify_checksum hash [1; 2; 3; 4; 5] = false.
Proof. vm_compute. auto 10. Qed.
