(** Operations: names, data tokens, decimals. *)
From Coq Require Import String.
From Verif Require Import Base Bytes MathModel NumberModel NumberSpec NumberProps StreamModel RadixModel RadixProofs3 RadixProps OpModel OpSpec OpProps TextTable TextModel TextSpec TextProofs.

Lemma bytes_eq_iff a b : bytes_eq a b = true <-> a = b.
Proof. unfold bytes_eq. destruct (list_eq_dec Z.eq_dec a b); split; congruence. Qed.

(** ** names *)
Definition plain_char (c : Z) : bool := negb (whiteb c) && negb (mem c [91; 39; 60; 40; 63]).
Definition plain_name (t : list Z) : bool := nonempty t && forallb plain_char t.
Definition check_name (c f : Z) : bool :=
  match opcode_from_mnemonic (opcode_to_mnemonic c f) with
  | Some c' => (c' =? c) && plain_name (opcode_to_mnemonic c f)
  | None => false end.
Definition codes : list Z := map Z.of_nat (seq 0 256).
Lemma check_all : forallb (fun c => check_name c 0) codes = true.
Proof. vm_compute. reflexivity. Qed.
Lemma check_flagged : forallb (fun f => check_name 177 f && check_name 178 f && check_name 186 f) [64; 512; 65536] = true.
Proof. vm_compute. reflexivity. Qed.
Lemma codes_in c : byte_ok c -> In c codes.
Proof. intros H. unfold byte_ok in H. apply in_map_iff. exists (Z.to_nat c). split; [lia|]. apply in_seq. lia. Qed.
Lemma mnemonic_flags c f : c <> 177 -> c <> 178 -> c <> 186 -> opcode_to_mnemonic c f = opcode_to_mnemonic c 0.
Proof.
  intros A B C. unfold opcode_to_mnemonic. apply Z.eqb_neq in A, B, C. rewrite A, B, C. reflexivity.
Qed.
Lemma check_any c f : byte_ok c -> check_name c f = true.
Proof.
  intros H. pose proof (proj1 (forallb_forall _ _) check_all c (codes_in c H)) as K. cbv beta in K.
  pose proof (proj1 (forallb_forall _ _) check_flagged) as F.
  destruct (Z.eq_dec c 177) as [->|N1].
  { specialize (F 64 (or_introl eq_refl)). apply andb_true_iff in F. destruct F as [F _]. apply andb_true_iff in F. destruct F as [F _].
    unfold check_name in *. assert (E : opcode_to_mnemonic 177 f = if Z.testbit f 6 then opcode_to_mnemonic 177 64 else opcode_to_mnemonic 177 0) by reflexivity.
    destruct (Z.testbit f 6); rewrite E; assumption. }
  destruct (Z.eq_dec c 178) as [->|N2].
  { specialize (F 512 (or_intror (or_introl eq_refl))). apply andb_true_iff in F. destruct F as [F _]. apply andb_true_iff in F. destruct F as [_ F].
    unfold check_name in *. assert (E : opcode_to_mnemonic 178 f = if Z.testbit f 9 then opcode_to_mnemonic 178 512 else opcode_to_mnemonic 178 0) by reflexivity.
    destruct (Z.testbit f 9); rewrite E; assumption. }
  destruct (Z.eq_dec c 186) as [->|N3].
  { specialize (F 65536 (or_intror (or_intror (or_introl eq_refl)))). apply andb_true_iff in F. destruct F as [_ F].
    unfold check_name in *. assert (E : opcode_to_mnemonic 186 f = if Z.testbit f 16 then opcode_to_mnemonic 186 65536 else opcode_to_mnemonic 186 0) by reflexivity.
    destruct (Z.testbit f 16); rewrite E; assumption. }
  unfold check_name in *. rewrite (mnemonic_flags c f N1 N2 N3). exact K.
Qed.
Lemma mnemonic_ok c f : byte_ok c ->
  opcode_from_mnemonic (opcode_to_mnemonic c f) = Some c /\ plain_name (opcode_to_mnemonic c f) = true.
Proof.
  intros H. pose proof (check_any c f H) as K. unfold check_name in K. destruct (opcode_from_mnemonic (opcode_to_mnemonic c f)); [|discriminate].
  apply andb_true_iff in K. destruct K as [K P]. apply Z.eqb_eq in K. subst. split; [reflexivity|exact P].
Qed.
(** a token whose first character is none of [ ' < is a name or a number *)
Definition headed (t : list Z) : Prop := match t with [] => True | c :: _ => c <> 91 /\ c <> 39 /\ c <> 60 end.
Lemma headed_delimited t : headed t -> is_push_token t = false /\ is_text_token t = false /\ is_underflow_token t = false.
Proof.
  unfold is_push_token, is_text_token, is_underflow_token, is_delimited. destruct t as [|c r]; [intros _; split; [|split]; reflexivity|].
  cbn [nth headed]. intros (A & B & C). apply Z.eqb_neq in A, B, C. rewrite A, B, C, !andb_false_r. split; [|split]; reflexivity.
Qed.
Lemma plain_headed t : plain_name t = true -> headed t.
Proof.
  destruct t as [|c r]; [reflexivity|]. unfold plain_name. cbn [forallb nonempty]. rewrite !andb_true_iff. intros (_ & P & _).
  unfold plain_char in P. apply andb_true_iff in P. destruct P as [_ P]. cbn [headed]. split; [|split]; intros ->; discriminate.
Qed.
Lemma op_named t c : headed t -> opcode_from_mnemonic t = Some c -> op_from_string t = Some (mkop c [] false).
Proof. intros H E. destruct (headed_delimited t H) as (A & B & C). unfold op_from_string. rewrite A, B, C, E. reflexivity. Qed.

(** ** data tokens *)
Lemma delimited_ok a b m : is_delimited a b ([a] ++ m ++ [b]) = true /\ remove_token_delimiters ([a] ++ m ++ [b]) = m.
Proof.
  unfold is_delimited, remove_token_delimiters. cbn [app nth tl]. rewrite Z.eqb_refl, removelast_last. split; [|reflexivity].
  change (a :: m ++ [b]) with ((a :: m) ++ [b]). rewrite last_last, Z.eqb_refl. rewrite len_app. change (len [b]) with 1.
  rewrite len_cons. pose proof (len_nonneg m). destruct (Z.gtb_spec (1 + len m + 1) 1); [reflexivity|lia].
Qed.
Lemma cut_none d t : forall cur, ~ In d t -> cut d t cur = [rev cur ++ t].
Proof.
  induction t as [|x t IH]; intros cur N; cbn [cut]; [rewrite app_nil_r; reflexivity|].
  destruct (Z.eqb_spec x d) as [->|Ne]; [exfalso; apply N; left; reflexivity|].
  rewrite IH by (intros I; apply N; right; exact I). cbn [rev]. rewrite <- app_assoc. reflexivity.
Qed.
Lemma trim_nil t : trim [] t = t.
Proof. apply trim_id. rewrite Forall_forall. intros c _ []. Qed.
Lemma split_plain t : ~ In 46 t -> split_on t 46 false false = [t].
Proof.
  intros N. unfold split_on, split_tokens. cbn [fold_left]. rewrite trim_nil, cut_none by exact N. cbn [rev app reduce map]. rewrite trim_nil. reflexivity.
Qed.
Lemma split_prefixed p t : p <> 46 -> ~ In 46 t -> split_on (p :: 46 :: t) 46 false false = [[p]; t].
Proof.
  intros Np N. unfold split_on, split_tokens. cbn [fold_left]. rewrite trim_nil. cbn [cut]. apply Z.eqb_neq in Np. rewrite Np, Z.eqb_refl.
  rewrite cut_none by exact N. cbn [rev app reduce map]. rewrite !trim_nil. reflexivity.
Qed.
Lemma hex_char c : is_base16 c = true -> plain_char c = true /\ c <> 46 /\ c <> 93.
Proof.
  unfold is_base16, is_between, plain_char, whiteb, mem. cbn [existsb]. intros H.
  rewrite !orb_true_iff, !andb_true_iff, !Z.leb_le in H.
  split; [|lia]. rewrite andb_true_iff, !negb_true_iff, !orb_false_iff, andb_false_iff, !Z.leb_gt, !Z.eqb_neq. repeat split; lia.
Qed.
Lemma hex_plain d : bytes_ok d -> forallb plain_char (encode_base16 d) = true /\ ~ In 46 (encode_base16 d) /\ ~ In 93 (encode_base16 d).
Proof.
  intros H. pose proof (encode16_hex d H) as E. rewrite forallb_forall in E.
  split; [apply forallb_forall; intros c I; apply hex_char, E, I|]. split; intros I; apply E, hex_char in I; destruct I as (_ & A & B); congruence.
Qed.
Lemma push_token_plain d : bytes_ok d -> op_from_string ([91] ++ encode_base16 d ++ [93]) = Some (mkop (opcode_from_size (len d)) d false).
Proof.
  intros H. destruct (delimited_ok 91 93 (encode_base16 d)) as [A B]. unfold op_from_string, is_push_token. rewrite A.
  unfold split_push_token. rewrite B, split_plain by (apply hex_plain; exact H). rewrite C37_round_trip by exact H. reflexivity.
Qed.
Lemma push_token_prefixed p d c : bytes_ok d -> p <> 46 -> opcode_from_data_prefix [p] d = Some c ->
  op_from_string ([91] ++ (p :: 46 :: encode_base16 d) ++ [93]) = Some (mkop c d false).
Proof.
  intros H Np E. destruct (delimited_ok 91 93 (p :: 46 :: encode_base16 d)) as [A B]. unfold op_from_string, is_push_token. rewrite A.
  unfold split_push_token. rewrite B, split_prefixed by (try apply hex_plain; assumption). rewrite C37_round_trip by exact H. rewrite E. reflexivity.
Qed.

Lemma complete_valid c d : complete_op c d -> op_is_valid (mkop c d false) = true.
Proof.
  intros (_ & _ & _ & _ & _ & _ & H). unfold op_is_valid. cbn [code data underflow]. destruct (Z.eqb_spec c any_invalid) as [->|N]; [|reflexivity].
  rewrite H by reflexivity. reflexivity.
Qed.
Lemma complete_text c d f : complete_op c d -> op_from_string (op_to_string (mkop c d false) f) = Some (mkop c d false).
Proof.
  intros C. unfold op_to_string. rewrite (complete_valid c d C). cbn [negb underflow code data].
  pose proof C as (Hc & Hd & H1 & H2 & H4 & H75 & H78). destruct d as [|x d].
  { cbn [is_empty]. destruct (mnemonic_ok c f Hc) as [A B]. apply op_named; [apply plain_headed; exact B|exact A]. }
  cbn [is_empty]. remember (x :: d) as e eqn:Ee. assert (Le : 0 < len e) by (subst; rewrite len_cons; pose proof (len_nonneg d); lia).
  change (chars "[") with [91]. change (chars "]") with [93]. unfold opcode_to_prefix.
  assert (Ne : c <= 78) by (destruct (Z.leb_spec c 78); [lia|exfalso; specialize (H78 ltac:(lia)); congruence]).
  destruct (Z.eqb_spec c (opcode_from_size (len e))) as [E|E].
  { cbn [app]. change (op_from_string ([91] ++ encode_base16 e ++ [93]) = Some (mkop c e false)). rewrite push_token_plain by exact Hd. rewrite <- E. reflexivity. }
  assert (Hc3 : c = 76 \/ c = 77 \/ c = 78).
  { destruct (Z.leb_spec c 75); [|lia]. exfalso. apply E. rewrite H75 by assumption. unfold opcode_from_size, push_size_75. destruct (Z.leb_spec c 75); [reflexivity|lia]. }
  destruct Hc3 as [ -> | [ -> | -> ]].
  - change (76 =? push_one_size) with true. cbv iota. change (chars "1.") with [49; 46].
    change (op_from_string ([91] ++ (49 :: 46 :: encode_base16 e) ++ [93]) = Some (mkop 76 e false)). apply push_token_prefixed; [exact Hd|lia|].
    unfold opcode_from_data_prefix. change (bytes_eq [49] (chars "0")) with false. change (bytes_eq [49] (chars "1")) with true. cbv iota.
    destruct (Z.leb_spec (len e) 255); [reflexivity|specialize (H1 eq_refl); lia].
  - change (77 =? push_one_size) with false. change (77 =? push_two_size) with true. cbv iota. change (chars "2.") with [50; 46].
    change (op_from_string ([91] ++ (50 :: 46 :: encode_base16 e) ++ [93]) = Some (mkop 77 e false)). apply push_token_prefixed; [exact Hd|lia|].
    unfold opcode_from_data_prefix. change (bytes_eq [50] (chars "0")) with false. change (bytes_eq [50] (chars "1")) with false. change (bytes_eq [50] (chars "2")) with true. cbv iota.
    destruct (Z.leb_spec (len e) 65535); [reflexivity|specialize (H2 eq_refl); lia].
  - change (78 =? push_one_size) with false. change (78 =? push_two_size) with false. change (78 =? push_four_size) with true. cbv iota. change (chars "4.") with [52; 46].
    change (op_from_string ([91] ++ (52 :: 46 :: encode_base16 e) ++ [93]) = Some (mkop 78 e false)). apply push_token_prefixed; [exact Hd|lia|].
    unfold opcode_from_data_prefix. change (bytes_eq [52] (chars "0")) with false. change (bytes_eq [52] (chars "1")) with false. change (bytes_eq [52] (chars "2")) with false. change (bytes_eq [52] (chars "4")) with true. cbv iota.
    destruct (Z.leb_spec (len e) 4294967295); [reflexivity|specialize (H4 eq_refl); lia].
Qed.

(** ** the texts are words *)
Definition wordy (t : list Z) : Prop := t <> [] /\ Forall (fun c => ~ white c) t.
Lemma plain_forall t : forallb plain_char t = true -> Forall (fun c => ~ white c) t.
Proof.
  rewrite forallb_forall, Forall_forall. intros H c I W. specialize (H c I). unfold plain_char in H. apply whiteb_ok in W. rewrite W in H. discriminate.
Qed.
Lemma plain_wordy t : plain_name t = true -> wordy t.
Proof.
  unfold plain_name. rewrite andb_true_iff. intros [A B]. split; [|apply plain_forall; exact B]. intros ->. discriminate.
Qed.
Lemma not_white_all l : forallb (fun c => negb (whiteb c)) l = true -> Forall (fun c => ~ white c) l.
Proof. rewrite forallb_forall, Forall_forall. intros H c I W. specialize (H c I). apply whiteb_ok in W. rewrite W in H. discriminate. Qed.
Lemma op_text_wordy o f : byte_ok (code o) -> bytes_ok (data o) -> wordy (op_to_string o f).
Proof.
  intros Hc Hd. unfold op_to_string. destruct (negb (op_is_valid o)).
  { split; [discriminate|]. apply not_white_all. reflexivity. }
  destruct (hex_plain (data o) Hd) as (P & _ & _). apply plain_forall in P. destruct (underflow o).
  { split; [discriminate|]. apply Forall_app. split; [apply not_white_all; reflexivity|]. apply Forall_app. split; [exact P|apply not_white_all; reflexivity]. }
  destruct (is_empty (data o)); [apply plain_wordy, mnemonic_ok, Hc|].
  split; [discriminate|]. apply Forall_app. split; [apply not_white_all; reflexivity|].
  apply Forall_app. split; [|apply Forall_app; split; [exact P|apply not_white_all; reflexivity]].
  unfold opcode_to_prefix. destruct (_ =? _); [constructor|].
  destruct (_ =? _); [apply not_white_all; reflexivity|]. destruct (_ =? _); [apply not_white_all; reflexivity|].
  destruct (_ =? _); apply not_white_all; reflexivity.
Qed.
(** texts joined by single spaces are read back as the same words *)
Fixpoint joined (first : bool) (ts : list (list Z)) : list Z :=
  match ts with [] => [] | t :: r => (if first then [] else [32]) ++ t ++ joined false r end.
Lemma joined_reads ts : forall first, Forall wordy ts -> reads (joined first ts) ts.
Proof.
  induction ts as [|t ts IH]; intros first F; [apply reads_end; constructor|]. inversion F as [|y l [N W] F' E]; subst.
  cbn [joined]. apply reads_word; [destruct first; [constructor|apply Forall_cons; [right; reflexivity|constructor]]|exact N|exact W| |apply IH; exact F'].
  destruct ts as [|u ts]; [left; reflexivity|]. right. cbn [joined]. exists 32, (u ++ joined false ts). split; [reflexivity|right; reflexivity].
Qed.
Lemma script_text_joined ops f : forall first, script_text first ops f = joined first (map (fun o => op_to_string o f) ops).
Proof. induction ops as [|o ops IH]; intros first; [reflexivity|]. cbn [script_text map joined]. rewrite IH. reflexivity. Qed.
Lemma joined_tokens ts : Forall wordy ts -> text_tokens (joined true ts) = ts.
Proof. intros F. apply (reads_unique (joined true ts)); [apply text_tokens_reads|apply joined_reads; exact F]. Qed.
