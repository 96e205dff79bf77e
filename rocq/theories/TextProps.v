(** * C77: text forms of operations, scripts and witnesses. *)
From Coq Require Import String.
From Verif Require Import Base Bytes MathModel NumberModel NumberSpec NumberProofs NumberProps StreamModel RadixModel RadixProofs3 RadixProps OpModel OpSpec OpProofs OpProofs3 OpProps TextTable TextModel TextSpec TextProofs TextProofs2.

(** Script text is read as its white space separated words, one operation each. *)
Theorem C77_words (l : list Z) ts : reads l ts <-> text_tokens l = ts.
Proof.
  split; [|intros <-; apply text_tokens_reads]. intros R. apply (reads_unique l); [apply text_tokens_reads|exact R].
Qed.
Print Assumptions C77_words.

(** Every complete operation is read back from its text, whatever the flags it
    was printed under (the flags change only how some codes are named). *)
Theorem C77_operation c d flags : complete_op c d ->
  op_from_string (op_to_string (mkop c d false) flags) = Some (mkop c d false).
Proof. apply complete_text. Qed.
Print Assumptions C77_operation.

Lemma script_text_tokens ops f : Forall (fun o => byte_ok (code o) /\ bytes_ok (data o)) ops ->
  text_tokens (script_to_string ops f) = map (fun o => op_to_string o f) ops.
Proof.
  intros F. unfold script_to_string. rewrite script_text_joined. apply joined_tokens.
  rewrite Forall_map. eapply Forall_impl; [|exact F]. intros o [A B]. apply op_text_wordy; assumption.
Qed.
Lemma read_complete ops f : Forall (fun o => underflow o = false /\ complete_op (code o) (data o)) ops ->
  read_tokens (map (fun o => op_to_string o f) ops) = Some (Some ops).
Proof.
  induction 1 as [|o ops [U C] F IH]; [reflexivity|]. cbn [map read_tokens].
  assert (E : o = mkop (code o) (data o) false) by (destruct o; cbn in *; congruence).
  rewrite E at 1. rewrite complete_text by exact C. cbn [obind]. rewrite (complete_valid _ _ C). cbn [negb]. rewrite IH. cbn [obind].
  rewrite <- E. reflexivity.
Qed.

(** Every byte string that holds complete operations only (no truncated push) is
    a script whose text reads back as the same operations, hence the same bytes. *)
Theorem C77_script (l : list Z) flags : bytes_ok l -> len l <= 4000000 -> snd (script_scan l) = [] ->
  let ops := fst (script_from_data false (fresh l)) in
  script_from_string (script_to_string ops flags) = Some (Some ops) /\ script_to_data false ops = l.
Proof.
  intros B L T ops.
  assert (W : script_wf ops).
  { unfold ops. destruct (script_plain (fresh l) l eq_refl eq_refl B) as [L2 E]; [cbn [lim fresh]; unfold max_size_t; lia|].
    rewrite E. apply parse_script_wf. exact B. }
  assert (C : Forall (fun o => underflow o = false /\ complete_op (code o) (data o)) ops).
  { assert (U : Forall (fun o => underflow o = false) ops).
    { unfold ops. rewrite C14_parse_is_reference_scan by assumption. destruct (script_scan l) as [s tail]. cbn [snd] in T. subst tail.
      rewrite app_nil_r. apply Forall_map. apply Forall_forall. intros x _. reflexivity. }
    clearbody ops. clear - W U. induction W as [|o (To & _)|o ops Wo Ws IH]; [constructor| |];
      apply Forall_cons_iff in U; destruct U as [U1 U2]; [congruence|].
    apply Forall_cons; [|apply IH; assumption]. split; [exact U1|].
    destruct Wo as (_ & Hc & Hd & Hs). unfold complete_op, max_bytes in *. split; [exact Hc|]. split; [exact Hd|].
    destruct (Z.eqb_spec (code o) 76); [repeat split; intros; lia|]. destruct (Z.eqb_spec (code o) 77); [repeat split; intros; lia|].
    destruct (Z.eqb_spec (code o) 78); [repeat split; intros; lia|]. destruct (Z.leb_spec (code o) 75); [repeat split; intros; lia|].
    repeat split; intros; try lia. apply len_zero. exact Hs. }
  split.
  - unfold script_from_string. rewrite script_text_tokens; [apply read_complete; exact C|].
    eapply Forall_impl; [|exact C]. intros o (_ & Hc & Hd & _). split; assumption.
  - destruct (C14_every_byte_string_round_trips l B ltac:(lia)) as (o2 & s & E & _ & _ & _ & D & _). unfold ops. rewrite E. exact D.
Qed.
Print Assumptions C77_script.

(** A truncated script is printed with a parenthesised last word, and no text that
    contains such a word is read: the result is the invalid operation, and the
    invalid script.  (The reader expects angle brackets, the writer emits round
    ones.) *)
Lemma names_chars : forallb (fun p : list Z * Z => forallb plain_char (fst p) && nonempty (fst p) && ((0 <=? snd p) && (snd p <=? 255))) opcode_names = true.
Proof. vm_compute. reflexivity. Qed.
Lemma assoc_in t c l : assoc_name t l = Some c -> In (t, c) l.
Proof.
  induction l as [|[k x] l IH]; cbn [assoc_name]; [discriminate|]. destruct (bytes_eq t k) eqn:E.
  - apply bytes_eq_iff in E. intros H. injection H as ->. left. congruence.
  - intros H. right. apply IH, H.
Qed.
Lemma name_facts t c : assoc_name t opcode_names = Some c -> forallb plain_char t = true /\ t <> [] /\ byte_ok c.
Proof.
  intros H. apply assoc_in in H. pose proof (proj1 (forallb_forall _ _) names_chars _ H) as K. cbn [fst snd] in K.
  rewrite !andb_true_iff, !Z.leb_le in K. destruct K as ((A & B) & C). split; [exact A|]. split; [intros ->; discriminate|unfold byte_ok; lia].
Qed.
Lemma paren_not_named t : opcode_from_mnemonic (40 :: t) = None.
Proof.
  unfold opcode_from_mnemonic. destruct (assoc_name (ascii_to_lower (40 :: t)) opcode_names) as [c|] eqn:E.
  - apply name_facts in E. destruct E as (E & _). cbn in E. discriminate.
  - unfold opcode_from_hexadecimal. destruct (negb (len (40 :: t) =? 4)); [reflexivity|]. cbn [orb].
    replace (bytes_eq (firstn 2 (40 :: t)) (chars "0x")) with false; [reflexivity|]. symmetry.
    destruct (bytes_eq _ _) eqn:B; [|reflexivity]. apply bytes_eq_iff in B. destruct t; discriminate.
Qed.
Theorem C77_truncated_text o flags : underflow o = true ->
  op_from_string (op_to_string o flags) = Some default_op.
Proof.
  intros U. unfold op_to_string, op_is_valid. rewrite U, andb_false_r. cbn [negb andb].
  change (chars "(") with [40]. cbn [app]. set (t := encode_base16 (data o) ++ chars ")").
  destruct (headed_delimited (40 :: t)) as (A & B & C); [cbn [headed]; lia|].
  unfold op_from_string. rewrite A, B, C, paren_not_named. reflexivity.
Qed.
Print Assumptions C77_truncated_text.
Theorem C77_truncated_script_refuted (l : list Z) flags : bytes_ok l -> len l <= 4000000 -> snd (script_scan l) <> [] ->
  script_from_string (script_to_string (fst (script_from_data false (fresh l))) flags) = Some None.
Proof.
  intros B L T. set (ops := fst (script_from_data false (fresh l))).
  assert (W : script_wf ops).
  { unfold ops. destruct (script_plain (fresh l) l eq_refl eq_refl B) as [L2 E]; [cbn [lim fresh]; unfold max_size_t; lia|].
    rewrite E. apply parse_script_wf. exact B. }
  assert (U : exists o, In o ops /\ underflow o = true).
  { unfold ops. rewrite C14_parse_is_reference_scan by assumption. destruct (script_scan l) as [s tail]. cbn [snd] in T. destruct tail as [|x tail]; [congruence|].
    eexists. split; [apply in_or_app; right; left; reflexivity|reflexivity]. }
  clearbody ops. clear T. unfold script_from_string. rewrite script_text_tokens.
  2: { clear U. induction W as [|o (_ & Hc & Hd & _)|o os (_ & Hc & Hd & _) Ws IH]; [constructor| |]; apply Forall_cons.
       - split; [rewrite Hc; unfold byte_ok, any_invalid, op_verif; lia|exact Hd].
       - constructor.
       - split; assumption.
       - exact IH. }
  induction W as [|o (Uo & _)|o os Wo Ws IH].
  - destruct U as (o & [] & _).
  - cbn [map read_tokens]. rewrite C77_truncated_text by exact Uo. reflexivity.
  - cbn [map read_tokens]. pose proof Wo as (Uo & Hc & Hd & Hs).
    assert (C : complete_op (code o) (data o)).
    { unfold complete_op, max_bytes in *. split; [exact Hc|]. split; [exact Hd|].
      destruct (Z.eqb_spec (code o) 76); [repeat split; intros; lia|]. destruct (Z.eqb_spec (code o) 77); [repeat split; intros; lia|].
      destruct (Z.eqb_spec (code o) 78); [repeat split; intros; lia|]. destruct (Z.leb_spec (code o) 75); [repeat split; intros; lia|].
      repeat split; intros; try lia. apply len_zero. exact Hs. }
    assert (E : o = mkop (code o) (data o) false) by (destruct o; cbn in *; congruence).
    rewrite E at 1. rewrite complete_text by exact C. cbn [obind]. rewrite (complete_valid _ _ C). cbn [negb]. rewrite IH; [reflexivity|].
    destruct U as (x & [Ex|Ix] & Ux); [subst x; congruence|]. exists x. split; assumption.
Qed.
Print Assumptions C77_truncated_script_refuted.

(** Decimal numerals: a numeral in the range of int64_t is an operation that
    pushes the script number of that value (for -1 and 0..16 written canonically
    the one-byte operation, otherwise its shortest encoding); a numeral out of
    range is refused. *)
Lemma mean_digits ds v : digits_mean ds v -> forallb is_ascii_number ds = true /\ decimal_value ds = v /\ 0 <= v.
Proof.
  induction 1 as [|ds c v M (A & B & C) R]; [split; [reflexivity|split; [reflexivity|lia]]|].
  rewrite forallb_app, A. unfold decimal_value in *. rewrite fold_left_app, B. cbn [forallb fold_left andb]. split; [|split; [reflexivity|lia]].
  unfold is_ascii_number. destruct (Z.leb_spec 48 c), (Z.leb_spec c 57); try lia; reflexivity.
Qed.
Lemma numeral_facts t v : numeral t v -> is_ascii_numeric t = true /\ deserialize_i64 t = (if fitsb i64 v then Some v else None) /\ t <> [] /\
  Forall (fun c => 48 <= c <= 57 \/ c = 45) t.
Proof.
  intros (ds & n & N & M & H). apply mean_digits in M. destruct M as (A & B & C).
  assert (D : Forall (fun c => 48 <= c <= 57 \/ c = 45) ds).
  { rewrite forallb_forall in A. apply Forall_forall. intros c I. specialize (A c I). unfold is_ascii_number in A. rewrite andb_true_iff, !Z.leb_le in A. lia. }
  destruct ds as [|c ds]; [congruence|]. destruct H as [[-> ->]|[-> ->]].
  - assert (Nc : (c =? 45) = false).
    { cbn [forallb] in A. apply andb_true_iff in A. destruct A as [A _]. unfold is_ascii_number in A. rewrite andb_true_iff, !Z.leb_le in A. apply Z.eqb_neq. lia. }
    unfold is_ascii_numeric, deserialize_i64. rewrite Nc. rewrite B. split; [exact A|]. split; [reflexivity|]. split; [discriminate|exact D].
  - unfold is_ascii_numeric, deserialize_i64. rewrite Z.eqb_refl. rewrite B. split; [exact A|]. split; [reflexivity|]. split; [discriminate|].
    apply Forall_cons; [lia|exact D].
Qed.
Definition check_number (p : list Z * Z) : bool :=
  implb (is_ascii_numeric (fst p))
    match deserialize_i64 (fst p), pushed (snd p) [] with Some v, Some d => script_value d =? v | _, _ => false end.
Lemma names_numbers : forallb check_number opcode_names = true.
Proof. vm_compute. reflexivity. Qed.
Theorem C77_decimal_partial t v : numeral t v -> - 2 ^ 63 < v < 2 ^ 63 ->
  exists o d, op_from_string t = Some o /\ underflow o = false /\ complete_op (code o) (data o) /\
    pushed (code o) (data o) = Some d /\ script_value d = v.
Proof.
  intros N R. destruct (numeral_facts t v N) as (A & B & Ne & F).
  assert (Hd : headed t). { destruct t as [|c r]; [exact I|]. inversion F; subst. cbn [headed]. lia. }
  assert (Lo : ascii_to_lower t = t).
  { unfold ascii_to_lower. rewrite <- (map_id t) at 2. apply map_ext_in. intros c I. rewrite Forall_forall in F. specialize (F c I).
    unfold is_ascii_upper, is_between. destruct (Z.leb_spec 65 c), (Z.leb_spec c 90); try lia; reflexivity. }
  assert (Fv : fits i64 v) by (unfold fits, imin, imax; cbn [sg i64 bits]; lia).
  assert (Fb : fitsb i64 v = true) by (apply fitsb_spec; exact Fv).
  rewrite Fb in B.
  destruct (assoc_name t opcode_names) as [c|] eqn:E.
  - pose proof (name_facts _ _ E) as (_ & _ & Bc).
    assert (Eo : op_from_string t = Some (mkop c [] false)). { apply op_named; [exact Hd|]. unfold opcode_from_mnemonic. rewrite Lo, E. reflexivity. }
    apply assoc_in in E. pose proof (proj1 (forallb_forall _ _) names_numbers _ E) as K. unfold check_number in K. cbn [fst snd] in K.
    rewrite A, B in K. cbn [implb] in K. destruct (pushed c []) as [d|] eqn:P; [|discriminate]. apply Z.eqb_eq in K.
    exists (mkop c [] false), d. cbn [underflow code data]. split; [exact Eo|]. split; [reflexivity|]. split; [|split; [exact P|exact K]].
    assert (Nz : ~ 1 <= c <= 75).
    { intros Hc. assert (Q : forallb (fun p : list Z * Z => implb (is_ascii_numeric (fst p)) (negb ((1 <=? snd p) && (snd p <=? 75)))) opcode_names = true) by (vm_compute; reflexivity).
      pose proof (proj1 (forallb_forall _ _) Q _ E) as Q1. cbn [fst snd] in Q1. rewrite A in Q1. cbn [implb] in Q1.
      destruct (Z.leb_spec 1 c), (Z.leb_spec c 75); cbn in Q1; try lia; discriminate. }
    unfold complete_op. change (len (@nil Z)) with 0. unfold byte_ok in *. split; [lia|]. split; [constructor|]. repeat split; intros; lia.
  - assert (Hx : opcode_from_hexadecimal t = None).
    { unfold opcode_from_hexadecimal. destruct (negb (len t =? 4)); [reflexivity|]. cbn [orb].
      replace (bytes_eq (firstn 2 t) (chars "0x")) with false; [reflexivity|]. symmetry. destruct (bytes_eq _ _) eqn:Q; [|reflexivity]. apply bytes_eq_iff in Q.
      destruct t as [|a [|b r]]; [discriminate| |]; cbn [firstn] in Q; change (chars "0x") with [48; 120] in Q; [discriminate|].
      injection Q as Qa Qb. subst. inversion F as [|y l F1 F2 E1]; subst. inversion F2; subst. lia. }
    destruct (C05_encode_denotes_shortest v Fv) as (d & Ed & Bd & Vd & Sh & _).
    { unfold imin. cbn [sg i64 bits]. lia. }
    assert (Ld : len d <= 9).
    { destruct (C05_roundtrip v Fv) as (d2 & E2 & L2 & _); [unfold imin; cbn [sg i64 bits]; lia|]. rewrite Ed in E2. injection E2 as ->. exact L2. }
    exists (mkop (opcode_from_size (len d)) d false), d. destruct (headed_delimited t Hd) as (D1 & D2 & D3).
    unfold op_from_string. rewrite D1, D2, D3. unfold opcode_from_mnemonic. rewrite Lo, E, Hx. unfold data_from_decimal. rewrite A, B. cbn [negb]. rewrite Ed. cbn [obind].
    split; [reflexivity|]. split; [reflexivity|]. cbn [code data]. split; [apply complete_nominal; [exact Bd|lia]|].
    split; [|exact Vd]. pose proof (len_nonneg d). pose proof (opcode_from_size_range (len d) ltac:(lia)). unfold pushed. destruct (Z.leb_spec (opcode_from_size (len d)) 78); [reflexivity|lia].
Qed.
Print Assumptions C77_decimal_partial.

Definition check_small (p : list Z * Z) : bool :=
  implb (is_ascii_numeric (fst p)) match deserialize_i64 (fst p) with Some v => (-1 <=? v) && (v <=? 16) | None => false end.
Lemma names_small : forallb check_small opcode_names = true.
Proof. vm_compute. reflexivity. Qed.
Lemma numeral_unnamed t v : numeral t v -> ~ -1 <= v <= 16 -> headed t /\ opcode_from_mnemonic t = None.
Proof.
  intros N R. destruct (numeral_facts t v N) as (A & B & Ne & F).
  assert (Hd : headed t). { destruct t as [|c r]; [exact I|]. inversion F; subst. cbn [headed]. lia. }
  split; [exact Hd|]. unfold opcode_from_mnemonic.
  assert (Lo : ascii_to_lower t = t).
  { unfold ascii_to_lower. rewrite <- (map_id t) at 2. apply map_ext_in. intros c I. rewrite Forall_forall in F. specialize (F c I).
    unfold is_ascii_upper, is_between. destruct (Z.leb_spec 65 c), (Z.leb_spec c 90); try lia; reflexivity. }
  rewrite Lo. destruct (assoc_name t opcode_names) as [c|] eqn:E.
  - exfalso. apply assoc_in in E. pose proof (proj1 (forallb_forall _ _) names_small _ E) as K. unfold check_small in K. cbn [fst] in K.
    rewrite A, B in K. destruct (fitsb i64 v); cbn [implb] in K; [|discriminate]. rewrite andb_true_iff, !Z.leb_le in K. lia.
  - unfold opcode_from_hexadecimal. destruct (negb (len t =? 4)); [reflexivity|]. cbn [orb].
    replace (bytes_eq (firstn 2 t) (chars "0x")) with false; [reflexivity|]. symmetry. destruct (bytes_eq _ _) eqn:Q; [|reflexivity]. apply bytes_eq_iff in Q.
    destruct t as [|a [|b r]]; [discriminate| |]; cbn [firstn] in Q; change (chars "0x") with [48; 120] in Q; [discriminate|].
    injection Q as Qa Qb. subst. inversion F as [|y l F1 F2 E1]; subst. inversion F2; subst. lia.
Qed.
(** Numerals out of range are refused ... *)
Theorem C77_decimal_range t v : numeral t v -> (v < - 2 ^ 63 \/ 2 ^ 63 <= v) -> op_from_string t = Some default_op.
Proof.
  intros N R. destruct (numeral_unnamed t v N ltac:(lia)) as [Hd M]. destruct (headed_delimited t Hd) as (D1 & D2 & D3).
  destruct (numeral_facts t v N) as (A & B & _). unfold op_from_string. rewrite D1, D2, D3, M. unfold data_from_decimal. rewrite A, B.
  replace (fitsb i64 v) with false; [reflexivity|]. symmetry. apply fitsb_false. unfold fits, imin, imax. cbn [sg i64 bits]. lia.
Qed.
Print Assumptions C77_decimal_range.
(** ... but the least int64_t is not: reading it is undefined behaviour (the
    negation of the minimum overflows). *)
Theorem C77_minimum_refuted t : numeral t (- 2 ^ 63) -> op_from_string t = None.
Proof.
  intros N. destruct (numeral_unnamed t _ N ltac:(lia)) as [Hd M]. destruct (headed_delimited t Hd) as (D1 & D2 & D3).
  destruct (numeral_facts t _ N) as (A & B & _). unfold op_from_string. rewrite D1, D2, D3, M. unfold data_from_decimal. rewrite A, B. reflexivity.
Qed.
Print Assumptions C77_minimum_refuted.
Example C77_minimum_text : numeral (chars "-9223372036854775808") (- 2 ^ 63).
Proof.
  exists (chars "9223372036854775808"), (2 ^ 63). split; [discriminate|]. split; [|right; split; reflexivity].
  assert (G : forall ds p v, digits_mean p v -> forallb is_ascii_number ds = true -> digits_mean (p ++ ds) (fold_left (fun v c => 10 * v + (c - 48)) ds v)).
  { induction ds as [|c ds IH]; intros p v M H; [rewrite app_nil_r; exact M|]. cbn [forallb] in H. apply andb_true_iff in H. destruct H as [Hc H].
    cbn [fold_left]. change (c :: ds) with ([c] ++ ds). rewrite app_assoc. apply IH; [|exact H]. apply mean_snoc; [exact M|].
    unfold is_ascii_number in Hc. rewrite andb_true_iff, !Z.leb_le in Hc. lia. }
  exact (G (chars "9223372036854775808") [] 0 mean_nil eq_refl).
Qed.

(** Names are read without regard to case, each as its code. *)
Definition check_first (p : list Z * Z) : bool := match assoc_name (fst p) opcode_names with Some c => c =? snd p | None => false end.
Lemma names_first : forallb check_first opcode_names = true.
Proof. vm_compute. reflexivity. Qed.
Theorem C77_names name c t : In (name, c) opcode_names -> ascii_to_lower t = name ->
  op_from_string t = Some (mkop c [] false).
Proof.
  intros I E. pose proof (proj1 (forallb_forall _ _) names_first _ I) as K. unfold check_first in K. cbn [fst snd] in K.
  destruct (assoc_name name opcode_names) as [c'|] eqn:A; [|discriminate]. apply Z.eqb_eq in K. subst c'.
  apply op_named; [|unfold opcode_from_mnemonic; rewrite E, A; reflexivity].
  apply name_facts in A. destruct A as (P & _). subst name. destruct t as [|x r]; [exact Logic.I|]. cbn [headed].
  unfold ascii_to_lower in P. cbn [map forallb] in P. apply andb_true_iff in P. destruct P as [P _].
  split; [|split]; intros ->; discriminate.
Qed.
Print Assumptions C77_names.

(** Every word that is accepted is a complete operation, or a truncated tail
    written in angle brackets, or a bare data push code without its data. *)
Lemma decoded_len s x : decode_base16 s = Some x -> len x <= len s.
Proof.
  intros H. destruct (C37_text_round_trip s x H) as [_ E]. apply (f_equal len) in E. rewrite encode16_len in E. unfold len in *. rewrite map_length in E. lia.
Qed.
Lemma removed_len t : len (remove_token_delimiters t) <= len t.
Proof.
  unfold remove_token_delimiters, len. destruct t as [|x t]; [cbn; lia|]. cbn [tl length].
  assert (length (removelast t) <= length t)%nat; [|lia]. clear. induction t as [|x t IH]; [cbn; lia|]. cbn [removelast]. destruct t; cbn [length] in *; lia.
Qed.
Lemma removed_ok t : bytes_ok t -> bytes_ok (remove_token_delimiters t).
Proof.
  intros B. unfold remove_token_delimiters. destruct t as [|x t]; [constructor|]. cbn [tl]. inversion B as [|y l _ B' E]; subst. clear - B'.
  induction t as [|x t IH]; [constructor|]. inversion B' as [|y l Bx Bt E]; subst. cbn [removelast]. destruct t; [constructor|]. apply Forall_cons; [exact Bx|apply IH; exact Bt].
Qed.
Lemma cut_len d t : forall cur x, In x (cut d t cur) -> len x <= len t + len cur.
Proof.
  induction t as [|y t IH]; intros cur x I; cbn [cut] in I.
  - destruct I as [<-|[]]. rewrite len_rev. change (len (@nil Z)) with 0. lia.
  - destruct (y =? d).
    + destruct I as [<-|I]; [rewrite len_rev; pose proof (len_nonneg (y :: t)); lia|]. apply IH in I. rewrite len_cons. change (len (@nil Z)) with 0 in I. pose proof (len_nonneg cur). lia.
    + apply IH in I. rewrite len_cons in *. lia.
Qed.
Lemma split_len t x : In x (split_on t 46 false false) -> len x <= len t.
Proof.
  unfold split_on, split_tokens. cbn [fold_left]. rewrite trim_nil. unfold reduce. intros I.
  assert (J : In x (cut 46 t []) \/ x = []).
  { destruct (cut 46 t []) as [|a s]; [destruct I|]. cbn [map] in I. left. rewrite <- (map_id (a :: s)). replace (map (fun x => x) (a :: s)) with (map (trim []) (a :: s)) by (apply map_ext; intros q; apply trim_nil). exact I. }
  destruct J as [J| ->]; [apply cut_len in J; change (len (@nil Z)) with 0 in J; lia|change (len (@nil Z)) with 0; apply len_nonneg].
Qed.
Theorem C77_accepted (t : list Z) o : bytes_ok t -> len t <= 4294967295 -> op_from_string t = Some o -> op_is_valid o = true ->
  (underflow o = false /\ complete_op (code o) (data o)) \/
  (underflow o = true /\ exists h, t = [60] ++ h ++ [62] /\ decode_base16 h = Some (data o)) \/
  (underflow o = false /\ data o = [] /\ 1 <= code o <= 75).
Proof.
  intros B L E V. assert (Dv : op_is_valid default_op = false) by reflexivity. unfold op_from_string in E.
  assert (Nom : forall d, bytes_ok d -> len d <= len t -> complete_op (nominal_opcode_from_data d) d).
  { intros d Bd Ld. apply complete_nominal; [exact Bd|lia]. }
  assert (Co : forall c d, byte_ok c -> d = @nil Z -> complete_op c d \/ 1 <= c <= 75).
  { intros c d Bc ->. destruct (Z.leb_spec 1 c), (Z.leb_spec c 75); try (right; lia); left; unfold complete_op; change (len (@nil Z)) with 0; unfold byte_ok in *;
      (split; [lia|]; split; [constructor|]; repeat split; intros; first [lia|reflexivity]). }
  destruct (is_push_token t) eqn:D1.
  { left. injection E as <-.
    assert (Sp : forall x, In x (split_push_token t) -> len x <= len t).
    { intros x I. apply split_len in I. pose proof (removed_len t). lia. }
    destruct (split_push_token t) as [|p [|d [|q r]]]; [congruence| | |congruence].
    - destruct (decode_base16 p) as [x|] eqn:X; [|congruence]. cbn [underflow code data]. split; [reflexivity|].
      apply Nom; [apply (C37_text_round_trip p x X)|]. apply decoded_len in X. specialize (Sp p (or_introl eq_refl)). lia.
    - destruct (decode_base16 d) as [x|] eqn:X; [|congruence]. destruct (opcode_from_data_prefix p x) as [c|] eqn:P; [|congruence].
      cbn [underflow code data]. split; [reflexivity|]. pose proof (proj1 (C37_text_round_trip d x X)) as Bx. pose proof (len_nonneg x) as Lx.
      unfold opcode_from_data_prefix in P.
      destruct (bytes_eq p (chars "0")).
      { destruct (Z.leb_spec (len x) push_size_75) as [H|H]; [|discriminate]. injection P as <-. apply complete_nominal; [exact Bx|unfold push_size_75 in H; lia]. }
      destruct (bytes_eq p (chars "1")); [destruct (Z.leb_spec (len x) 255) as [H|H]; [|discriminate]; injection P as <-; unfold complete_op, push_one_size, byte_ok; split; [lia|]; split; [exact Bx|]; repeat split; intros; lia|].
      destruct (bytes_eq p (chars "2")); [destruct (Z.leb_spec (len x) 65535) as [H|H]; [|discriminate]; injection P as <-; unfold complete_op, push_two_size, byte_ok; split; [lia|]; split; [exact Bx|]; repeat split; intros; lia|].
      destruct (bytes_eq p (chars "4")); [destruct (Z.leb_spec (len x) 4294967295) as [H|H]; [|discriminate]; injection P as <-; unfold complete_op, push_four_size, byte_ok; split; [lia|]; split; [exact Bx|]; repeat split; intros; lia|].
      discriminate. }
  destruct (is_text_token t) eqn:D2.
  { left. injection E as <-. cbn [underflow code data]. split; [reflexivity|]. apply Nom; [apply removed_ok; exact B|apply removed_len]. }
  destruct (is_underflow_token t) eqn:D3.
  { right. left. injection E as <-. destruct (decode_base16 (remove_token_delimiters t)) as [x|] eqn:X; [|congruence]. cbn [underflow data].
    split; [reflexivity|]. exists (remove_token_delimiters t). split; [|exact X]. unfold is_underflow_token, is_delimited in D3.
    rewrite !andb_true_iff, !Z.eqb_eq in D3. destruct D3 as ((G & Hh) & Hl). destruct t as [|a t]; [discriminate|]. cbn [nth] in Hh. subst a.
    unfold remove_token_delimiters. cbn [tl app]. f_equal. destruct t as [|b t]; [discriminate|].
    change (last (60 :: b :: t) 0) with (last (b :: t) 0) in Hl. rewrite <- Hl. apply app_removelast_last. discriminate. }
  destruct (opcode_from_mnemonic t) as [c|] eqn:M.
  { injection E as <-. cbn [underflow code data]. assert (Bc : byte_ok c).
    { unfold opcode_from_mnemonic in M. destruct (assoc_name (ascii_to_lower t) opcode_names) as [c'|] eqn:A.
      - injection M as <-. apply (name_facts _ _ A).
      - unfold opcode_from_hexadecimal in M. destruct (_ || _); [discriminate|]. destruct (decode_base16 (skipn 2 t)) as [[|x r]|] eqn:X; try discriminate.
        injection M as <-. apply C37_text_round_trip in X. destruct X as [X _]. inversion X; assumption. }
    destruct (Co c [] Bc eq_refl) as [H|H]; [left; split; [reflexivity|exact H]|right; right; split; [reflexivity|split; [reflexivity|exact H]]]. }
  unfold data_from_decimal in E. destruct (negb (is_ascii_numeric t)); [cbn [obind] in E; congruence|].
  destruct (deserialize_i64 t) as [v|] eqn:Dz; [|cbn [obind] in E; congruence].
  destruct (chunk_from_integer v) as [d|] eqn:Cv; [|discriminate]. cbn [obind] in E. injection E as <-. cbn [underflow code data]. left. split; [reflexivity|].
  assert (Fv : fits i64 v).
  { unfold deserialize_i64 in Dz. destruct t as [|a t]; [discriminate|]. destruct (a =? 45).
    - destruct t; [discriminate|]. destruct (fitsb i64 _) eqn:Fb in Dz; [|discriminate]. injection Dz as <-. apply fitsb_spec. exact Fb.
    - destruct (fitsb i64 _) eqn:Fb in Dz; [|discriminate]. injection Dz as <-. apply fitsb_spec. exact Fb. }
  assert (Mv : v <> imin i64) by (intros ->; rewrite C05_minimum_excluded in Cv; discriminate).
  destruct (C05_encode_denotes_shortest v Fv Mv) as (d2 & E2 & Bd & _). destruct (C05_roundtrip v Fv Mv) as (d3 & E3 & L3 & _).
  rewrite Cv in E2, E3. injection E2 as <-. injection E3 as <-. apply complete_nominal; [exact Bd|lia].
Qed.
Print Assumptions C77_accepted.
(** The third case is real: the text of a bare push code is accepted, and its bytes
    are not that script. *)
Theorem C77_bare_push_refuted : exists ops, script_from_string (chars "push_2 dup drop") = Some (Some ops) /\
  fst (script_from_data false (fresh (script_to_data false ops))) <> ops.
Proof.
  exists [mkop 2 [] false; mkop 118 [] false; mkop 117 [] false]. split; [vm_compute; reflexivity|]. vm_compute. congruence.
Qed.
Print Assumptions C77_bare_push_refuted.

(** ** Witnesses *)
Lemma witness_text_joined st : forall first, witness_text first st = joined first (map (fun d => [91] ++ encode_base16 d ++ [93]) st).
Proof.
  induction st as [|d st IH]; intros first; [reflexivity|]. cbn [witness_text map joined]. rewrite IH. destruct first; cbn [app].
  - change (chars "[") with [91]. change (chars "]") with [93]. cbn [app]. rewrite <- !app_assoc. reflexivity.
  - change (chars " [") with [32; 91]. change (chars "]") with [93]. cbn [app]. rewrite <- !app_assoc. reflexivity.
Qed.
Lemma bracket_inv t : is_push_token t = true -> t = [91] ++ remove_token_delimiters t ++ [93].
Proof.
  unfold is_push_token, is_delimited. rewrite !andb_true_iff, !Z.eqb_eq. intros ((G & Hh) & Hl). destruct t as [|a t]; [discriminate|]. cbn [nth] in Hh. subst a.
  unfold remove_token_delimiters. cbn [tl app]. f_equal. destruct t as [|b t]; [discriminate|].
  change (last (91 :: b :: t) 0) with (last (b :: t) 0) in Hl. rewrite <- Hl. apply app_removelast_last. discriminate.
Qed.
(** The text of a witness is one bracketed hexadecimal word for each element, and
    exactly these texts are read. *)
Theorem C77_witness_text (l : list Z) st : witness_from_string l = Some st <->
  exists ts, reads l ts /\ Forall2 (fun t d => exists h, t = [91] ++ h ++ [93] /\ decode_base16 h = Some d) ts st.
Proof.
  unfold witness_from_string. split.
  - intros H. exists (text_tokens l). split; [apply text_tokens_reads|]. revert st H. induction (text_tokens l) as [|t ts IH]; intros st H; cbn [read_elements] in H.
    + injection H as <-. constructor.
    + destruct (is_push_token t) eqn:P; [|discriminate]. cbn [negb] in H. destruct (decode_base16 (remove_token_delimiters t)) as [d|] eqn:D; [|discriminate]. cbn [obind] in H.
      destruct (read_elements ts) as [s|]; [|discriminate]. cbn [obind] in H. injection H as <-. constructor; [|apply IH; reflexivity].
      exists (remove_token_delimiters t). split; [apply bracket_inv; exact P|exact D].
  - intros (ts & R & F). rewrite (reads_unique _ _ _ (text_tokens_reads l) R). clear R. induction F as [|t d ts st (h & -> & D) F IH]; [reflexivity|].
    cbn [read_elements]. destruct (delimited_ok 91 93 h) as [A B]. unfold is_push_token. rewrite A. cbn [negb]. rewrite B, D. cbn [obind]. rewrite IH. reflexivity.
Qed.
Print Assumptions C77_witness_text.
Theorem C77_witness_round_trip st : Forall bytes_ok st -> witness_from_string (witness_to_string st) = Some st.
Proof.
  intros F. apply C77_witness_text. exists (map (fun d => [91] ++ encode_base16 d ++ [93]) st). split.
  - unfold witness_to_string. rewrite witness_text_joined. apply joined_reads. rewrite Forall_map. eapply Forall_impl; [|exact F]. intros d Bd. split; [discriminate|].
    apply Forall_app. split; [apply not_white_all; reflexivity|]. apply Forall_app. split; [apply plain_forall, hex_plain; exact Bd|apply not_white_all; reflexivity].
  - induction F as [|d st Bd F IH]; [constructor|]. cbn [map]. constructor; [|exact IH]. exists (encode_base16 d). split; [reflexivity|apply C37_round_trip; exact Bd].
Qed.
Print Assumptions C77_witness_round_trip.

Example C77_satisfiable :
  script_to_string [mkop 118 [] false; mkop 2 [1; 255] false; mkop 76 [7] false; mkop 177 [] false; mkop 187 [] false; mkop 84 [] false] 64 =
    chars "dup [01ff] [1.07] checklocktimeverify 0xbb 4" /\
  script_from_string (chars "  DUP [01FF]	[1.07] nop2 0xBB  4 -300 'a' <05> 007 ") =
    Some (Some [mkop 118 [] false; mkop 2 [1; 255] false; mkop 76 [7] false; mkop 177 [] false; mkop 187 [] false; mkop 84 [] false;
                mkop 2 [44; 129] false; mkop 1 [97] false; mkop 101 [5] true; mkop 1 [7] false]) /\
  script_from_string (chars "dup [0") = Some None /\
  snd (script_scan [118; 2; 1; 255; 76; 1; 7]) = [] /\ snd (script_scan [118; 5; 1]) = [5; 1] /\
  witness_from_string (chars " []  [00ff] ") = Some [[]; [0; 255]].
Proof. vm_compute. split; [|split; [|split; [|split; [|split]]]]; reflexivity. Qed.
