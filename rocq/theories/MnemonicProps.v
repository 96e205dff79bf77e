(** C54: BIP39 mnemonics. *)
From Coq Require Import String PeanoNat.
From Verif Require Import Base Bytes MathModel StreamModel BitStreamModel BitStreamSpec BitStreamProofs BitStreamProofs2
  RadixModel RadixProofs4 ShaSpec ShaModel AccModel KdfSpec KdfModel KdfProofs KdfProps WordsModel WordsProofs WordsData MnemonicSpec MnemonicModel MnemonicProofs.

Section Props.
Variables (checked s8 : bool) (widths : list nat).
Variables (normal nfkd : string -> string).
Notation from_entropy := (from_entropy checked s8 widths).
Notation from_words := (from_words checked s8 widths normal).
Notation encoder := (encoder checked s8 widths).
Notation decoder := (decoder checked s8 widths).
Notation cbyte := (checksum_byte checked s8 widths).

Lemma bip39_indexes d e ws : In d dictionaries -> bip39 (words_of d) e ws ->
  exists idx, Forall (fun i => 0 <= i < 2048) idx /\ pack_bits 11 idx = bits_of e ++ checksum e /\
    ws = dict_at_all d idx /\ dict_index_all d ws = idx /\ dict_contains_all d ws = true.
Proof.
  intros I (idx & F & E & ->). exists idx. destruct (at_all d idx I F) as (A1 & A2 & A3). rewrite <- A1.
  split; [exact F|]. split; [exact E|]. split; [reflexivity|]. split; assumption.
Qed.
Lemma bip39_count d e ws n : In d dictionaries -> 4 <= n <= 8 -> len e = 4 * n -> bip39 (words_of d) e ws -> len ws = 3 * n.
Proof.
  intros I Hn He (idx & F & E & ->). apply (f_equal len) in E. change (flat_map _ idx) with (pack_bits 11 idx) in E.
  destruct (checksum_len true s8 widths e n Hn He) as [_ LC]. rewrite pack_bits_len, len_app, bits_of_len, LC in E by lia.
  unfold len at 1. rewrite map_length. unfold len in E. unfold len in He. lia.
Qed.
Lemma encoder_spec d e : In d dictionaries -> entropy_ok e -> bip39 (words_of d) e (encoder e (identifier d)).
Proof.
  intros I (B & n & Hn & He). destruct (pack_ok checked s8 widths e n Hn He B) as (L & F & E).
  exists (base2048_pack (e ++ [cbyte e])). split; [exact F|]. split; [exact E|].
  unfold MnemonicModel.encoder, decode_base2048_list, dicts_at. destruct (data_find d I) as [-> _]. apply at_all; assumption.
Qed.
Lemma bip39_unique d e ws ws' : In d dictionaries -> bip39 (words_of d) e ws -> bip39 (words_of d) e ws' -> ws = ws'.
Proof.
  intros I (a & A & Ea & ->) (b & B & Eb & ->). f_equal. apply pack11_inj; [assumption..|]. unfold pack_bits. rewrite Ea, Eb. reflexivity.
Qed.
Lemma encode_list d ws : In d dictionaries -> dict_contains_all d ws = true ->
  encode_base2048_list ws (identifier d) = Some (base2048_unpack (dict_index_all d ws)).
Proof.
  intros I C. destruct (index_all d ws I C) as (F & _ & L). unfold encode_base2048_list, dicts_index. destruct (data_find d I) as [-> _].
  assert (X : existsb (fun index => index <? 0) (dict_index_all d ws) = false).
  { clear -F. induction F as [|i l Hi F IH]; [reflexivity|]. cbn [existsb]. rewrite IH. lia. }
  rewrite X. destruct (dict_index_all d ws) eqn:E; [|reflexivity]. destruct ws; [reflexivity|]. discriminate.
Qed.
Lemma decoder_spec d ws n : In d dictionaries -> dict_contains_all d ws = true -> 4 <= n <= 8 -> len ws = 3 * n ->
  (exists e, entropy_ok e /\ e <> [] /\ bip39 (words_of d) e ws /\ decoder ws (identifier d) = e) \/
  (decoder ws (identifier d) = [] /\ forall e, entropy_ok e -> ~ bip39 (words_of d) e ws).
Proof.
  intros I C Hn Lw. destruct (index_all d ws I C) as (F & A & L). unfold MnemonicModel.decoder. rewrite (encode_list d ws I C). cbv zeta.
  set (idx := dict_index_all d ws) in *. destruct (unpack_split n idx Hn ltac:(lia)) as (e & c & E & He & B).
  rewrite E, removelast_last, last_last. destruct (Z.eqb_spec c (cbyte e)) as [X|X].
  - left. exists e. split; [split; [exact B|exists n; auto]|]. split; [intros ->; change (len (@nil Z)) with 0 in He; lia|]. split; [|reflexivity].
    exists idx. split; [exact F|]. split; [|rewrite <- A at 1; apply at_all; assumption].
    apply (unpack_iff checked s8 widths e n idx Hn He B); [lia|]. rewrite E, X. reflexivity.
  - right. split; [reflexivity|]. intros e' (B' & n' & Hn' & He') H. pose proof (bip39_count d e' ws n' I Hn' He' H) as L'.
    assert (n' = n) by lia. subst n'. destruct (bip39_indexes d e' ws I H) as (idx' & F' & E' & _ & D' & _). fold idx in D'. subst idx'.
    apply (unpack_iff checked s8 widths e' n idx Hn He' B') in E'; [|lia]. rewrite E in E'. apply app_inj_tail in E'. destruct E' as [-> E']. contradiction.
Qed.
Lemma valid_size e : bytes_ok e -> is_valid_entropy_size (len e) = true <-> entropy_ok e.
Proof.
  intros B. unfold is_valid_entropy_size, entropy_ok. rewrite !Bool.andb_true_iff. split.
  - intros [[M L] U]. split; [exact B|]. exists (len e / 4). pose proof (Z.div_mod (len e) 4 ltac:(lia)). lia.
  - intros [_ (n & Hn & ->)]. replace (4 * n) with (n * 4) by lia. rewrite Z.mod_mul by lia. lia.
Qed.
Lemma valid_count (ws : list string) : is_valid_word_count (len ws) = true <-> exists n, 4 <= n <= 8 /\ len ws = 3 * n.
Proof.
  unfold is_valid_word_count. rewrite !Bool.andb_true_iff. split.
  - intros [[M L] U]. exists (len ws / 3). pose proof (Z.div_mod (len ws) 3 ltac:(lia)). lia.
  - intros (n & Hn & ->). replace (3 * n) with (n * 3) by lia. rewrite Z.mod_mul by lia. lia.
Qed.

(** The dictionaries: ten languages, 2048 distinct words each; a word belongs to
    at most one of them, except between english and french (never at the same
    index) and between the two chinese lists (always at the same index). *)
Theorem C54_dictionaries d : In d dictionaries ->
  len (words_of d) = 2048 /\ NoDup (words_of d) /\
  (forall i, 0 <= i < 2048 -> dict_index d (dict_at d i) = i) /\
  (forall w, In w (words_of d) -> dict_at d (dict_index d w) = w) /\ (forall w, ~ In w (words_of d) -> dict_index d w = -1).
Proof.
  intros I. pose proof (data_ok d I) as D. pose proof (data_length d I) as L. split; [exact L|]. split; [apply D|].
  split; [intros i Hi; apply index_at; [exact D|lia]|]. split.
  - intros w Hw. apply at_index; [exact D|]. apply (contains_ok d w D) in Hw. unfold dict_contains in Hw. lia.
  - intros w Hw. destruct (index_ok d w D) as [[R E]|[R _]]; [|exact R]. exfalso. apply Hw. rewrite <- E. apply nth_In. unfold len in *; lia.
Qed.
Theorem C54_shared_words d d' w i j : In d dictionaries -> In d' dictionaries -> d <> d' ->
  nth_error (words_of d) i = Some w -> nth_error (words_of d') j = Some w ->
  (i <> j /\ ((identifier d = en /\ identifier d' = fr) \/ (identifier d = fr /\ identifier d' = en))) \/
  (i = j /\ ((identifier d = zh_Hans /\ identifier d' = zh_Hant) \/ (identifier d = zh_Hant /\ identifier d' = zh_Hans))).
Proof.
  intros I I' N Ei Ej. apply In_nth_error in I. destruct I as [k Ek]. apply In_nth_error in I'. destruct I' as [k' Ek'].
  destruct (Nat.lt_trichotomy k k') as [X|[X|X]].
  - destruct (data_shared k k' d d' X Ek Ek' i j w Ei Ej) as [(A & B & C)|(A & B & C)]; [left|right]; (split; [exact C|left; split; assumption]).
  - subst k'. congruence.
  - destruct (data_shared k' k d' d X Ek' Ek j i w Ej Ei) as [(A & B & C)|(A & B & C)]; [left|right]; (split; [auto|right; split; assumption]).
Qed.

(** Entropy to words: exactly the BIP39 sentence, for the five sizes and any of
    the languages; nothing otherwise. *)
Theorem C54_from_entropy e id m : bytes_ok e ->
  (from_entropy e id = Some m <->
   entropy_ok e /\ entropy_ m = e /\ lingo_ m = id /\ exists d, In d dictionaries /\ identifier d = id /\ bip39 (words_of d) e (words_ m)).
Proof.
  intros B. unfold MnemonicModel.from_entropy. pose proof (valid_size e B) as V. split.
  - intros H. destruct (is_valid_entropy_size (len e)); [|discriminate]. cbn [negb] in H. unfold dicts_exists in H.
    destruct (to_dictionary dictionaries id) as [d|] eqn:T; [|discriminate]. cbn [negb] in H. apply data_in in T. destruct T as [I <-].
    assert (X : m = mkmnemonic e (encoder e (identifier d)) (identifier d)) by congruence. subst m. cbn [entropy_ lingo_ words_].
    assert (O : entropy_ok e) by (apply V; reflexivity). split; [exact O|]. split; [reflexivity|]. split; [reflexivity|]. exists d. split; [exact I|].
    split; [reflexivity|]. apply encoder_spec; assumption.
  - intros (O & <- & <- & d & I & E & W). rewrite (proj2 V O). cbn [negb]. unfold dicts_exists. rewrite <- E. destruct (data_find d I) as [-> _]. cbn [negb].
    destruct m as [e' ws l]. cbn [entropy_ words_ lingo_] in *. f_equal. f_equal; [|exact E]. symmetry. apply (bip39_unique d e' _ _ I W). apply encoder_spec; assumption.
Qed.

(** Words to entropy, for a given language: accepted exactly when the
    (normalized) words are the sentence of an entropy, which is returned. *)
Theorem C54_from_words ws id m : id <> none ->
  (from_words ws id = Some m <->
   words_ m = map normal ws /\ lingo_ m = id /\ entropy_ok (entropy_ m) /\
   exists d, In d dictionaries /\ identifier d = id /\ bip39 (words_of d) (entropy_ m) (map normal ws)).
Proof.
  intros N. set (ts := map normal ws). assert (Lt : len ts = len ws) by (unfold ts, len; rewrite map_length; reflexivity).
  assert (NB : language_eqb id none = false) by (destruct id; try reflexivity; contradiction).
  assert (RB : forall l, language_eqb l l = true) by (intros []; reflexivity).
  assert (AB : is_ambiguous ts id id = false) by (unfold is_ambiguous; rewrite NB, Bool.andb_false_r; reflexivity).
  unfold MnemonicModel.from_words. fold ts. unfold dicts_contains. rewrite NB. cbn [negb]. cbv zeta. split.
  - intros H. destruct (is_valid_word_count (len ws)) eqn:V; [|discriminate]. cbn [negb] in H.
    destruct (to_dictionary dictionaries id) as [d|] eqn:T; [|discriminate H]. apply data_in in T. destruct T as [I E].
    destruct (dict_contains_all d ts) eqn:C; [|discriminate H]. rewrite NB, RB, AB in H. cbn [negb andb] in H.
    apply valid_count in V. destruct V as (n & Hn & Ln). rewrite <- E in H.
    destruct (decoder_spec d ts n I C Hn ltac:(lia)) as [(e & O & Ne & W & D)|(D & _)]; rewrite D in H; [|discriminate].
    destruct e as [|b e]; [contradiction|]. assert (X : m = mkmnemonic (b :: e) ts (identifier d)) by congruence. subst m. cbn [words_ lingo_ entropy_].
    split; [reflexivity|]. split; [exact E|]. split; [exact O|]. exists d. auto.
  - intros (W & Lg & O & d & I & E & S). destruct O as (B & n & Hn & He). pose proof (bip39_count d _ ts n I Hn He S) as Lw.
    rewrite (proj2 (valid_count ws)) by (exists n; lia). cbn [negb]. rewrite <- E. destruct (data_find d I) as [-> _].
    destruct (bip39_indexes d _ ts I S) as (idx & _ & _ & _ & _ & C). rewrite C. rewrite <- E in NB, AB. rewrite NB, RB, AB. cbn [negb andb].
    destruct (decoder_spec d ts n I C Hn Lw) as [(e & O' & Ne & S' & D)|(_ & D)]; [|exfalso; apply (D (entropy_ m)); [split; [exact B|exists n; auto]|exact S]].
    rewrite D. destruct e as [|b e]; [contradiction|]. f_equal. destruct m as [e' ws' l]. cbn [words_ lingo_ entropy_] in *. subst ws' l.
    f_equal; [|exact E].
    assert (X : Some (mkmnemonic (b :: e) ts id) = Some (mkmnemonic e' ts id)); [|congruence].
    f_equal. f_equal. destruct (bip39_indexes d _ ts I S) as (i1 & _ & E1 & _ & D1 & _). destruct (bip39_indexes d _ ts I S') as (i2 & _ & E2 & _ & D2 & _).
    rewrite D1 in D2. subst i2. destruct O' as (B' & n' & Hn' & He'). pose proof (bip39_count d _ ts n' I Hn' He' S') as Lw'. assert (n' = n) by lia. subst n'.
    assert (Li : len i1 = 3 * n) by (rewrite <- D1; unfold dict_index_all, len; rewrite map_length; unfold len in Lw; exact Lw).
    apply (unpack_iff checked s8 widths _ n i1 Hn He B Li) in E1. apply (unpack_iff checked s8 widths _ n i1 Hn He' B' Li) in E2.
    rewrite E1 in E2. apply app_inj_tail in E2. symmetry. apply E2.
Qed.

(** Entropy survives the trip through words. *)
Theorem C54_round_trip e id m : bytes_ok e -> (forall d w, In d dictionaries -> In w (words_of d) -> normal w = w) ->
  from_entropy e id = Some m -> from_words (words_ m) id = Some m.
Proof.
  intros B Hnorm H. apply (C54_from_entropy e id m B) in H. destruct H as (O & E & L & d & I & Ed & S).
  assert (T : map normal (words_ m) = words_ m).
  { destruct (bip39_indexes d _ _ I S) as (idx & F & _ & W & _ & C). rewrite <- (map_id (words_ m)) at 2. apply map_ext_in.
    intros w Hw. apply (Hnorm d w I). unfold dict_contains_all in C. rewrite forallb_forall in C. apply (contains_ok d w (data_ok d I)). apply C. exact Hw. }
  apply C54_from_words; [rewrite <- Ed; apply (data_find d I)|]. rewrite T, E. split; [reflexivity|]. split; [exact L|]. split; [exact O|]. exists d. auto.
Qed.

Lemma some_eq {A} {x y : A} : Some x = Some y -> x = y. Proof. congruence. Qed.
Lemma first_found f d1 d : find f dictionaries = Some d1 -> In d dictionaries -> f d = true ->
  ~ (identifier d1 = fr /\ identifier d = en) /\ ~ (identifier d1 = zh_Hant /\ identifier d = zh_Hans).
Proof.
  unfold dictionaries. cbn [find In]. intros Fd I Fx.
  repeat (destruct I as [<-|I]; [rewrite ?Fx in Fd;
    repeat match type of Fd with (if ?b then _ else _) = _ => destruct b end; apply some_eq in Fd; subst d1; cbn [identifier]; split; intros [X Y]; discriminate|]).
  destruct I.
Qed.
Lemma by_language d : In d dictionaries -> (identifier d = en -> words_of d = WordsEn.words_en) /\ (identifier d = fr -> words_of d = WordsFr.words_fr).
Proof.
  unfold dictionaries. cbn [In]. intros I. repeat (destruct I as [<-|I]; [cbn [identifier words_of]; split; intros X; first [discriminate X|reflexivity]|]). destruct I.
Qed.

(** Without a language: the entropy is recovered in all cases, except that a
    sentence whose words are all both english and french is refused.  The
    language is recovered too, except that a sentence of words common to both
    chinese lists is reported as simplified chinese. *)
Theorem C54_detect e id m : bytes_ok e -> (forall d w, In d dictionaries -> In w (words_of d) -> normal w = w) ->
  from_entropy e id = Some m ->
  match from_words (words_ m) none with
  | Some m' => entropy_ m' = e /\ words_ m' = words_ m /\ (lingo_ m' = id \/ (id = zh_Hant /\ lingo_ m' = zh_Hans))
  | None => (id = en \/ id = fr) /\ forall w, In w (words_ m) -> In w WordsEn.words_en /\ In w WordsFr.words_fr
  end.
Proof.
  intros B Hnorm H. pose proof (C54_round_trip e id m B Hnorm H) as RT.
  apply (C54_from_entropy e id m B) in H. destruct H as (O & E & L & d & I & Ed & S).
  destruct (bip39_indexes d _ _ I S) as (idx & F & Epk & W & Dx & C).
  assert (T : map normal (words_ m) = words_ m).
  { rewrite <- (map_id (words_ m)) at 2. apply map_ext_in. intros w Hw. apply (Hnorm d w I). unfold dict_contains_all in C. rewrite forallb_forall in C.
    apply (contains_ok d w (data_ok d I)). apply C. exact Hw. }
  destruct O as (_ & n & Hn & He). pose proof (bip39_count d e (words_ m) n I Hn He S) as Lw.
  unfold MnemonicModel.from_words in *. rewrite T in *. set (ts := words_ m) in *.
  rewrite (proj2 (valid_count ts)) in * by (exists n; lia). cbn [negb] in *. cbv zeta in *.
  assert (All : forall d', In d' dictionaries -> dict_contains_all d' ts = true -> forall w, In w ts -> In w (words_of d')).
  { intros d' I' C' w Hw. apply (contains_ok d' w (data_ok d' I')). unfold dict_contains_all in C'. rewrite forallb_forall in C'. apply C'. exact Hw. }
  assert (Nil : ts <> []) by (intros X; rewrite X in Lw; change (len (@nil string)) with 0 in Lw; lia).
  clear RT. destruct (find (fun d => dict_contains_all d ts) dictionaries) as [d1|] eqn:Fd.
  2:{ exfalso. apply find_none with (x := d) in Fd; [|exact I]. congruence. }
  assert (DC : dicts_contains dictionaries ts none = identifier d1) by (unfold dicts_contains; cbn [language_eqb negb]; rewrite Fd; reflexivity).
  rewrite !DC. pose proof (conj Fd Logic.I) as Fd'. apply find_some in Fd. destruct Fd as [I1 C1]. destruct (data_find d1 I1) as [T1 N1].
  assert (NB : language_eqb (identifier d1) none = false) by (destruct (identifier d1); try reflexivity; contradiction). rewrite NB. cbn [language_eqb negb andb].
  assert (Hd : d1 = d \/ (identifier d1 = en /\ identifier d = fr) \/ (identifier d1 = fr /\ identifier d = en) \/
    (identifier d1 = zh_Hans /\ identifier d = zh_Hant /\ dict_index_all d1 ts = idx) \/ (identifier d1 = zh_Hant /\ identifier d = zh_Hans)).
  { destruct ts as [|w0 ts'] eqn:Ets; [contradiction|]. rewrite <- Ets in *.
    assert (W0 : In w0 ts) by (rewrite Ets; left; reflexivity).
    destruct (In_nth_error _ _ (All d1 I1 C1 w0 W0)) as [i Ei]. destruct (In_nth_error _ _ (All d I C w0 W0)) as [j Ej].
    assert (Dec : d1 = d \/ d1 <> d).
    { destruct (language_eqb (identifier d1) (identifier d)) eqn:Q; [left|right; intros ->; destruct (identifier d); discriminate Q].
      assert (identifier d1 = identifier d) as X by (destruct (identifier d1), (identifier d); try discriminate Q; reflexivity).
      destruct (data_find d I) as [Td _]. rewrite <- X, T1 in Td. congruence. }
    destruct Dec as [->|Nd]; [left; reflexivity|].
    destruct (C54_shared_words d1 d w0 i j I1 I Nd Ei Ej) as [(_ & [Q|Q])|(_ & [[Q1 Q2]|Q])]; [tauto|tauto| |tauto].
    right; right; right; left. split; [exact Q1|]. split; [exact Q2|]. rewrite <- Dx. unfold dict_index_all. apply map_ext_in. intros w Hw.
    pose proof (All d1 I1 C1 w Hw) as H1. pose proof (All d I C w Hw) as H2.
    apply (In_nth _ _ ""%string) in H1. destruct H1 as (p & Lp & Ep). apply (In_nth _ _ ""%string) in H2. destruct H2 as (q & Lq & Eq).
    pose proof (nth_error_nth' (words_of d1) ""%string Lp) as P1. rewrite Ep in P1. pose proof (nth_error_nth' (words_of d) ""%string Lq) as P2. rewrite Eq in P2.
    assert (p = q). { destruct (C54_shared_words d1 d w p q I1 I Nd P1 P2) as [(_ & [[X _]|[X _]])|(X & _)]; [congruence|congruence|exact X]. } subst q.
    pose proof (index_at d1 (Z.of_nat p) (data_ok d1 I1) ltac:(unfold len; lia)) as X1. pose proof (index_at d (Z.of_nat p) (data_ok d I) ltac:(unfold len; lia)) as X2.
    rewrite at_nth, Nat2Z.id, Ep in X1 by (unfold len; lia). rewrite at_nth, Nat2Z.id, Eq in X2 by (unfold len; lia). congruence. }
  assert (Same : dict_index_all d1 ts = idx -> decoder ts (identifier d1) = e).
  { intros X.
    unfold MnemonicModel.decoder. rewrite (encode_list d1 ts I1 C1), X. cbv zeta.
    assert (Li : len idx = 3 * n) by (rewrite <- Dx; unfold dict_index_all, len; rewrite map_length; unfold len in Lw; exact Lw).
    rewrite (proj2 (unpack_iff checked s8 widths e n idx Hn He B Li) Epk). rewrite removelast_last, last_last, Z.eqb_refl. reflexivity. }
  assert (Ne : e <> []) by (intros ->; change (len (@nil Z)) with 0 in He; lia).
  pose proof (first_found _ d1 d (proj1 Fd') I C) as [NFE NZH].
  destruct (by_language d1 I1) as [BE1 BF1]. destruct (by_language d I) as [BE BF].
  destruct (is_ambiguous ts none (identifier d1)) eqn:Amb.
  - unfold is_ambiguous in Amb. rewrite !Bool.andb_true_iff in Amb. destruct Amb as [[A1 _] A2].
    assert (L1 : identifier d1 = en) by (destruct (identifier d1); try discriminate A1; reflexivity).
    unfold dicts_contains in A2. cbn [language_eqb negb] in A2. destruct (to_dictionary dictionaries fr) as [d2|] eqn:T2; [|discriminate A2].
    apply data_in in T2. destruct T2 as [I2 L2]. destruct (dict_contains_all d2 ts) eqn:C2; [|discriminate A2].
    split.
    + rewrite <- Ed. destruct Hd as [<-|[[_ X]|[[X _]|[(X & _)|[X _]]]]]; [left; exact L1|right; exact X|congruence..].
    + intros w Hw. rewrite <- (BE1 L1), <- (proj2 (by_language d2 I2) L2). split; [apply (All d1 I1 C1 w Hw)|apply (All d2 I2 C2 w Hw)].
  - assert (Fin : dict_index_all d1 ts = idx -> (identifier d1 = id \/ (id = zh_Hant /\ identifier d1 = zh_Hans)) ->
      match match decoder ts (identifier d1) with [] => None | entropy => Some (mkmnemonic entropy ts (identifier d1)) end with
      | Some m' => entropy_ m' = e /\ words_ m' = ts /\ (lingo_ m' = id \/ (id = zh_Hant /\ lingo_ m' = zh_Hans))
      | None => (id = en \/ id = fr) /\ forall w, In w ts -> In w WordsEn.words_en /\ In w WordsFr.words_fr
      end).
    { intros X Y. rewrite (Same X). destruct e as [|b e0]; [contradiction|]. cbn [entropy_ words_ lingo_]. split; [reflexivity|]. split; [reflexivity|exact Y]. }
    destruct Hd as [->|[[X Y]|[X|[(X & Y & Z)|X]]]].
    + apply Fin; [exact Dx|left; exact Ed].
    + exfalso. unfold is_ambiguous in Amb. rewrite X in Amb. cbn [language_eqb andb] in Amb. unfold dicts_contains in Amb. cbn [language_eqb negb] in Amb.
      destruct (data_find d I) as [Td _]. rewrite Y in Td. rewrite Td, C in Amb. discriminate Amb.
    + contradiction.
    + apply Fin; [exact Z|]. right. rewrite <- Ed. split; assumption.
    + contradiction.
Qed.

(** The seed: PBKDF2-HMAC-SHA512 with 2048 iterations over the words joined by a
    space, salted with "mnemonic" and the normalized passphrase. *)
Theorem C54_seed m passphrase : let password := chars (String.concat " " (words_ m)) in let salt := chars ("mnemonic" ++ nfkd passphrase)%string in
  len password < max_data -> len salt < max_data ->
  to_seed checked s8 widths nfkd (Some m) passphrase = PBKDF2 SHA512 128 64 password salt 2048 64.
Proof.
  intros password salt Hp Hs. unfold to_seed, seeder. fold password salt.
  apply (C66_pbkdf2 _ _ _ _ (lib_sha512 s8 widths)); [exact Hp|exact Hs|]. apply (Nat.leb_le 1 2048). reflexivity.
Qed.
End Props.
Print Assumptions C54_dictionaries.
Print Assumptions C54_from_entropy.
Print Assumptions C54_from_words.
Print Assumptions C54_round_trip.
Print Assumptions C54_detect.
Print Assumptions C54_seed.

(** BIP39 test vector: the all-zero 128-bit entropy; a wrong checksum word is
    refused; a sentence of words common to english and french is refused
    without the language and accepted with it. *)
Example C54_sat : entropy_ok (repeat 0 16) /\
  (let abandon n := repeat "abandon"%string n in
   omap words_ (from_entropy false false [] (repeat 0 16) en) = Some (abandon 11%nat ++ ["about"%string]) /\
   omap entropy_ (from_words false false [] (fun w => w) (abandon 11%nat ++ ["about"%string]) none) = Some (repeat 0 16) /\
   from_words false false [] (fun w => w) (abandon 12%nat) en = None).
Proof. split; [split; [repeat constructor; cbn; lia|exists 4; cbn; lia]|]. vm_compute. repeat split. Qed.
