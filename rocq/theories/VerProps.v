(** * C88, C89: version numbers and checkpoints. *)
From Coq Require Import String.
From Verif Require Import Base Bytes RadixModel RadixSpec RadixProps OpModel TextModel TextSpec TextProofs TextProofs2 TextProps AmountModel AmountProps AddressModel AddressProps VerModel VerSpec.

Definition plain (d : Z) (t : list Z) : Prop := t <> [] /\ Forall (fun c => ~ In c ascii_whitespace /\ c <> d) t.
Lemma plain_white d t : plain d t -> Forall (fun c => ~ In c ascii_whitespace) t.
Proof. intros [_ F]. eapply Forall_impl; [|exact F]. cbn beta. tauto. Qed.
Lemma joined_white d ts : ~ In d ascii_whitespace -> Forall (plain d) ts -> Forall (fun c => ~ In c ascii_whitespace) (joined d ts).
Proof.
  intros N F. induction F as [|t ts P F IH]; [constructor|]. cbn [joined]. pose proof (plain_white d t P). destruct ts; [assumption|]. apply Forall_app. split; [assumption|]. constructor; assumption.
Qed.
Lemma cut_app d t : forall cur r, Forall (fun c => ~ In c ascii_whitespace /\ c <> d) t -> cut d (t ++ r) cur = cut d r (rev t ++ cur).
Proof.
  induction t as [|x t IH]; intros cur r F; [reflexivity|]. inversion F as [|? ? [_ N] F']; subst. cbn [app cut]. apply Z.eqb_neq in N. rewrite N, IH by exact F'. cbn [rev]. rewrite <- app_assoc. reflexivity.
Qed.
Lemma cut_joined d ts : ts <> [] -> Forall (plain d) ts -> cut d (joined d ts) [] = ts.
Proof.
  intros N F. induction F as [|t ts P F IH]; [congruence|]. destruct P as [Nt P]. cbn [joined]. destruct ts as [|t2 ts].
  - rewrite <- (app_nil_r t) at 1. rewrite cut_app by exact P. cbn [cut]. rewrite app_nil_r, rev_involutive. reflexivity.
  - rewrite cut_app by exact P. cbn [cut]. rewrite Z.eqb_refl, app_nil_r, rev_involutive. f_equal. apply IH. discriminate.
Qed.
Lemma split_joined d ts : ts <> [] -> ~ In d ascii_whitespace -> Forall (plain d) ts -> split_on (joined d ts) d true true = ts.
Proof.
  intros N W F. unfold split_on, split_tokens. cbn [fold_left]. rewrite trim_id by (apply joined_white; assumption). rewrite cut_joined by assumption.
  unfold reduce. assert (M : map (trim ascii_whitespace) ts = ts).
  { clear N. induction F as [|t ts P F IH]; [reflexivity|]. cbn [map]. rewrite IH, trim_id by (exact (plain_white d t P)). reflexivity. }
  assert (Fl : filter (fun t => negb (is_empty t)) ts = ts).
  { clear N M. induction F as [|t ts [Nt P] F IH]; [reflexivity|]. cbn [filter]. destruct t; [congruence|]. cbn [is_empty negb]. rewrite IH. reflexivity. }
  rewrite M, Fl. destruct ts; [congruence|reflexivity].
Qed.
Lemma not_white x : ~ In x ascii_whitespace -> existsb (Z.eqb x) ascii_whitespace = false.
Proof. intros N. destruct (existsb (Z.eqb x) ascii_whitespace) eqn:E; [|reflexivity]. apply existsb_exists in E. destruct E as (y & I & E). apply Z.eqb_eq in E. subst y. contradiction. Qed.
Lemma word_id t : Forall (fun c => ~ In c ascii_whitespace) t -> first_word t = t.
Proof.
  intros F. unfold first_word. assert (U : until_white t = t).
  { induction F as [|x t N F IH]; [reflexivity|]. cbn [until_white]. rewrite (not_white x N), IH. reflexivity. }
  destruct F as [|x t N F]; [reflexivity|]. cbn [skip_white]. rewrite (not_white x N). exact U.
Qed.
Lemma digit_plain d t : ~ 48 <= d <= 57 -> t <> [] -> forallb is_ascii_number t = true -> plain d t.
Proof.
  intros N Nt F. split; [exact Nt|]. rewrite forallb_forall in F. apply Forall_forall. intros c I. specialize (F c I). unfold is_ascii_number in F. rewrite andb_true_iff, !Z.leb_le in F.
  split; [intros W; vm_compute in W; lia|lia].
Qed.
Lemma take_digits_all t : forallb is_ascii_number t = true -> take_digits t = t.
Proof. induction t as [|x t IH]; [reflexivity|]. cbn [forallb take_digits]. intros F. apply andb_true_iff in F. destruct F as [F1 F2]. rewrite F1, (IH F2). reflexivity. Qed.
Lemma deserialize_digits max t n : number t n -> deserialize_number max t = if n <=? max then Some n else None.
Proof.
  intros [Nt M]. apply mean_digits in M. destruct M as (F & V & N0). unfold deserialize_number. rewrite trim_id.
  2:{ apply (plain_white 46). apply digit_plain; [lia|exact Nt|exact F]. }
  destruct t as [|c r]; [congruence|]. pose proof F as F'. cbn [forallb] in F'. apply andb_true_iff in F'. destruct F' as [Fc _]. unfold is_ascii_number in Fc. rewrite andb_true_iff, !Z.leb_le in Fc.
  destruct (Z.eqb_spec c 45); [lia|]. destruct (Z.eqb_spec c 43); [lia|]. rewrite take_digits_all by exact F. rewrite V. reflexivity.
Qed.
Lemma serialized n : 0 <= n < 2 ^ 64 -> canonical_number (serialize_decimal n) n.
Proof.
  intros R. destruct (decimal_loop_ok 20 n []) as (ds & D & Fd & V & H); [split; [lia|]; apply Z.lt_trans with (2 ^ 64); [lia|reflexivity]|lia|]. rewrite app_nil_r in D. unfold serialize_decimal. rewrite D.
  split; [|exact H]. split; [destruct H as [->|(c & r & -> & _)]; discriminate|]. rewrite <- V. apply mean_of_digits. exact Fd.
Qed.
Lemma number_plain d t n : ~ 48 <= d <= 57 -> number t n -> plain d t.
Proof. intros N [Nt M]. apply mean_digits in M. apply digit_plain; tauto. Qed.
Lemma all_some_numbers max ts ns : Forall2 number ts ns -> all_some (deserialize_number max) ts = if forallb (fun n => n <=? max) ns then Some ns else None.
Proof.
  induction 1 as [|t n ts ns N F IH]; [reflexivity|]. cbn [all_some forallb]. rewrite (deserialize_digits max t n N). destruct (n <=? max); cbn [obind andb]; [|reflexivity].
  rewrite IH. destruct (forallb (fun n0 => n0 <=? max) ns); reflexivity.
Qed.

Lemma f2_len {A B} (R : A -> B -> Prop) a b : Forall2 R a b -> length a = length b.
Proof. induction 1; [reflexivity|cbn; congruence]. Qed.

(** ** C88 *)
(** Two to four numbers joined by points are those segments (the others are 0),
    unless one does not fit. *)
Theorem C88_read ts ns : Forall2 number ts ns -> 2 <= len ns <= 4 ->
  (Forall (fun n => n < 2 ^ 32) ns -> version_read (joined 46 ts) = Some (ns ++ repeat 0 (4 - length ns))) /\
  (~ Forall (fun n => n < 2 ^ 32) ns -> version_read (joined 46 ts) = None).
Proof.
  intros F L. assert (Lt : len ts = len ns) by (unfold len; rewrite (f2_len _ _ _ F); reflexivity).
  assert (P : Forall (plain 46) ts) by (clear L Lt; induction F as [|t n ts ns N F IH]; constructor; [apply (number_plain 46 t n); [lia|exact N]|exact IH]).
  assert (W : ~ In 46 ascii_whitespace) by (intros I; vm_compute in I; lia).
  unfold version_read. rewrite word_id by (apply joined_white; assumption).
  rewrite split_joined by (exact W || exact P || (intros ->; change (len (@nil (list Z))) with 0 in Lt; lia)).
  rewrite Lt. destruct (Z.ltb_spec (len ns) 2); [lia|]. destruct (Z.gtb_spec (len ns) 4); [lia|]. cbn [orb]. rewrite (all_some_numbers _ _ _ F).
  assert (E : forallb (fun n => n <=? max_uint32) ns = true <-> Forall (fun n => n < 2 ^ 32) ns).
  { rewrite forallb_forall, Forall_forall. change (2 ^ 32) with (max_uint32 + 1). split; intros H' x I; specialize (H' x I); [apply Z.leb_le in H'; lia|apply Z.leb_le; lia]. }
  destruct (forallb (fun n => n <=? max_uint32) ns); cbn [obind].
  - split; [reflexivity|]. intros N. exfalso. apply N, E. reflexivity.
  - split; [intros N; apply E in N; discriminate|reflexivity].
Qed.
Print Assumptions C88_read.
(** The text of a version is two to four canonical numbers joined by points, the
    third and fourth only when they or what follows is not 0, and reads back. *)
Theorem C88_text v : segments v ->
  exists k ts, 2 <= Z.of_nat k <= 4 /\ version_text v = joined 46 ts /\ Forall2 canonical_number ts (firstn k v) /\
    (2 < Z.of_nat k -> nth (k - 1) v 0 <> 0) /\ v = firstn k v ++ repeat 0 (4 - k).
Proof.
  intros [L F]. destruct v as [|a [|b [|c [|d [|]]]]]; try discriminate. clear L.
  assert (N : forall x, In x [a; b; c; d] -> canonical_number (serialize_decimal x) x).
  { intros x I. rewrite Forall_forall in F. apply serialized. specialize (F x I). change (2 ^ 32) with 4294967296 in F. change (2 ^ 64) with 18446744073709551616. lia. }
  pose proof (N a ltac:(cbn; auto)) as Na. pose proof (N b ltac:(cbn; auto)) as Nb. pose proof (N c ltac:(cbn; auto)) as Nc. pose proof (N d ltac:(cbn; auto)) as Nd.
  unfold version_text. cbn [version_last nth]. change (1 <? Z.of_nat 3) with true. change (1 <? Z.of_nat 2) with true. change (1 <? Z.of_nat 1) with false. cbn [andb].
  destruct (Z.eqb_spec d 0) as [->|Hd]; [destruct (Z.eqb_spec c 0) as [->|Hc]|].
  - exists 2%nat, [serialize_decimal a; serialize_decimal b]. split; [lia|]. cbn [seq flat_map Nat.eqb nth app joined firstn]. rewrite !app_nil_r. split; [reflexivity|]. split; [constructor; [exact Na|constructor; [exact Nb|constructor]]|]. split; [lia|reflexivity].
  - exists 3%nat, [serialize_decimal a; serialize_decimal b; serialize_decimal c]. split; [lia|]. cbn [seq flat_map Nat.eqb nth app joined firstn]. rewrite !app_nil_r. split; [reflexivity|]. split; [constructor; [exact Na|constructor; [exact Nb|constructor; [exact Nc|constructor]]]|]. split; [intros _; exact Hc|reflexivity].
  - exists 4%nat, [serialize_decimal a; serialize_decimal b; serialize_decimal c; serialize_decimal d]. split; [lia|]. cbn [seq flat_map Nat.eqb nth app joined firstn]. rewrite !app_nil_r. split; [reflexivity|]. split; [constructor; [exact Na|constructor; [exact Nb|constructor; [exact Nc|constructor; [exact Nd|constructor]]]]|]. split; [intros _; exact Hd|reflexivity].
Qed.
Print Assumptions C88_text.
Theorem C88_round_trip v : segments v -> version_read (version_text v) = Some v.
Proof.
  intros S. destruct (C88_text v S) as (k & ts & K & -> & F & _ & E). assert (F' : Forall2 number ts (firstn k v)) by (clear -F; induction F as [|t n ts ns [N _] F IH]; constructor; assumption).
  destruct S as [L B]. assert (Lk : length (firstn k v) = k) by (rewrite firstn_length; lia).
  rewrite (proj1 (C88_read _ _ F' ltac:(unfold len; lia))).
  - rewrite Lk. f_equal. symmetry. exact E.
  - rewrite <- (firstn_skipn k v) in B. apply Forall_app in B. destruct B as [B _]. eapply Forall_impl; [|exact B]. cbn beta. lia.
Qed.
Print Assumptions C88_round_trip.
(** Every text that is accepted gives four 32-bit segments, but not only numbers
    joined by points are accepted. *)
Lemma all_some_in {A B} (f : A -> option B) (Q : B -> Prop) l : (forall x y, f x = Some y -> Q y) -> forall r, all_some f l = Some r -> length r = length l /\ Forall Q r.
Proof.
  intros H. induction l as [|x l IH]; intros r E; cbn [all_some] in E; [injection E as <-; split; [reflexivity|constructor]|].
  destruct (f x) as [y|] eqn:Ex; [|discriminate]. cbn [obind] in E. destruct (all_some f l) as [ys|]; [|discriminate]. injection E as <-. destruct (IH ys eq_refl) as [L F]. split; [cbn; congruence|constructor; [exact (H x y Ex)|exact F]].
Qed.
Lemma deserialize_range max t n : deserialize_number max t = Some n -> 0 <= n <= max.
Proof.
  unfold deserialize_number. destruct (trim ascii_whitespace t) as [|c r]; [discriminate|]. destruct (c =? 45); [discriminate|]. generalize (if c =? 43 then r else c :: r) as s. clear. intros s.
  assert (F : forallb is_ascii_number (take_digits s) = true) by (induction s as [|x s IH]; [reflexivity|]; cbn [take_digits]; destruct (is_ascii_number x) eqn:E; [cbn [forallb]; rewrite E; exact IH|reflexivity]).
  pose proof (decimal_range _ F) as R. destruct (take_digits s); [discriminate|]. destruct (Z.leb_spec (decimal_value (z :: l)) max); [|discriminate]. intros E. injection E as <-. lia.
Qed.
Theorem C88_segments text v : version_read text = Some v -> segments v.
Proof.
  unfold version_read. set (ts := split_on _ _ _ _). destruct (Z.ltb_spec (len ts) 2) as [H1|H1]; [discriminate|]. destruct (Z.gtb_spec (len ts) 4) as [H2|H2]; [discriminate|]. cbn [orb].
  destruct (all_some (deserialize_number max_uint32) ts) as [l|] eqn:E; [|discriminate]. cbn [obind]. intros Ev. injection Ev as <-.
  apply (all_some_in _ (fun n => 0 <= n < 2 ^ 32)) in E; [|intros x y D; apply deserialize_range in D; change (2 ^ 32) with (max_uint32 + 1); lia]. destruct E as [L F]. unfold len in *.
  split; [clearbody ts; rewrite app_length, repeat_length; destruct l as [|? [|? [|? [|? [|]]]]]; cbn [length] in *; lia|]. apply Forall_app. split; [exact F|]. apply Forall_forall. intros x I. apply repeat_spec in I. subst x. lia.
Qed.
Print Assumptions C88_segments.
Theorem C88_grammar_refuted : ~ (forall text v, version_read text = Some v -> exists ts ns, text = joined 46 ts /\ Forall2 number ts ns /\ v = ns ++ repeat 0 (4 - length ns)).
Proof.
  intros H. destruct (H (chars "1.2-rc1"%string) [1; 2; 0; 0] eq_refl) as (ts & ns & E & F & _).
  assert (D : Forall (fun c => c = 46 \/ 48 <= c <= 57) (joined 46 ts)).
  { clear E. induction F as [|t n ts ns [Nt M] F IH]; [constructor|]. apply mean_digits in M. destruct M as (Fd & _). assert (Ft : Forall (fun c => c = 46 \/ 48 <= c <= 57) t).
    { rewrite forallb_forall in Fd. apply Forall_forall. intros c I. specialize (Fd c I). unfold is_ascii_number in Fd. rewrite andb_true_iff, !Z.leb_le in Fd. right. exact Fd. }
    cbn [joined]. destruct ts; [exact Ft|]. apply Forall_app. split; [exact Ft|]. constructor; [left; reflexivity|exact IH]. }
  rewrite <- E in D. rewrite Forall_forall in D. destruct (D 45); [vm_compute; tauto|discriminate|lia].
Qed.
Print Assumptions C88_grammar_refuted.
(** The comparisons are one total order, by the first segment that differs. *)
Lemma lex_iff a : forall b, length a = length b -> lexicographical a b = true <-> before a b.
Proof.
  induction a as [|x a IH]; intros [|y b] L; try discriminate; cbn [lexicographical].
  - split; [discriminate|]. intros (p & u & w & r & s & E & _). destruct p; discriminate.
  - injection L as L. specialize (IH b L). destruct (Z.ltb_spec x y) as [H|H].
    + split; [|reflexivity]. intros _. exists [], x, y, a, b. auto.
    + destruct (Z.ltb_spec y x) as [H'|H'].
      * split; [discriminate|]. intros (p & u & w & r & s & E1 & E2 & Lt). destruct p as [|z p]; cbn in E1, E2; injection E1 as -> _; injection E2 as -> _; lia.
      * rewrite IH. assert (x = y) as <- by lia. split.
        -- intros (p & u & w & r & s & -> & -> & Lt). exists (x :: p), u, w, r, s. auto.
        -- intros (p & u & w & r & s & E1 & E2 & Lt). destruct p as [|z p]; cbn in E1, E2; injection E1 as E1 E1'; injection E2 as E2 E2'; [lia|]. exists p, u, w, r, s. auto.
Qed.
Lemma lex_trichotomy a : forall b, length a = length b -> a = b \/ before a b \/ before b a.
Proof.
  induction a as [|x a IH]; intros [|y b] L; try discriminate; [left; reflexivity|]. injection L as L. destruct (Z.lt_trichotomy x y) as [H|[<-|H]].
  - right. left. exists [], x, y, a, b. auto.
  - destruct (IH b L) as [<-|[(p & u & w & r & s & -> & -> & Lt)|(p & u & w & r & s & -> & -> & Lt)]]; [left; reflexivity|right; left|right; right]; exists (x :: p), u, w, r, s; auto.
  - right. right. exists [], y, x, b, a. auto.
Qed.
Lemma before_cons x a y b : before (x :: a) (y :: b) <-> x < y \/ (x = y /\ before a b).
Proof.
  split.
  - intros (p & u & w & r & s & E1 & E2 & Lt). destruct p as [|z p]; cbn in E1, E2; injection E1 as E1 E1'; injection E2 as E2 E2'; [left; lia|right]. split; [congruence|]. exists p, u, w, r, s. auto.
  - intros [H|[<- (p & u & w & r & s & -> & -> & Lt)]]; [exists [], x, y, a, b; auto|exists (x :: p), u, w, r, s; auto].
Qed.
Lemma before_nil a : ~ before a [] /\ ~ before [] a.
Proof. split; intros (p & u & w & r & s & E1 & E2 & _); destruct p; discriminate. Qed.
Lemma before_trans a : forall b c, before a b -> before b c -> before a c.
Proof.
  induction a as [|x a IH]; intros [|y b] [|z c] H1 H2; try (exfalso; first [exact (proj1 (before_nil _) H1)|exact (proj2 (before_nil _) H1)|exact (proj1 (before_nil _) H2)]).
  apply before_cons in H1. apply before_cons in H2. apply before_cons. destruct H1 as [H1|[-> H1]], H2 as [H2|[-> H2]]; try (left; lia). right. split; [reflexivity|]. exact (IH _ _ H1 H2).
Qed.
Lemma before_irrefl a : ~ before a a.
Proof. induction a as [|x a IH]; [apply before_nil|]. intros H. apply before_cons in H. destruct H as [H|[_ H]]; [lia|exact (IH H)]. Qed.
Theorem C88_order a b : segments a -> segments b ->
  (version_lt a b = true <-> before a b) /\ (version_gt a b = true <-> before b a) /\
  (version_eq a b = true <-> a = b) /\ (version_ne a b = true <-> a <> b) /\
  (version_le a b = true <-> ~ before b a) /\ (version_ge a b = true <-> ~ before a b) /\
  (before a b \/ a = b \/ before b a) /\ ~ before a a /\ (forall c, before a b -> before b c -> before a c).
Proof.
  intros [La _] [Lb _]. assert (L : length a = length b) by congruence. unfold version_ge, version_le, version_gt, version_ne, version_eq, version_lt.
  rewrite (lex_iff a b L), (lex_iff b a (eq_sym L)), negb_true_iff, <- not_true_iff_false, !orb_true_iff, (lex_iff a b L), (lex_iff b a (eq_sym L)), !list_eqb_iff.
  pose proof (lex_trichotomy a b L) as T. pose proof (before_irrefl a) as I1. pose proof (before_irrefl b) as I2.
  assert (A : before a b -> ~ before b a) by (intros H H'; exact (I1 (before_trans _ _ _ H H'))).
  split; [reflexivity|]. split; [reflexivity|]. split; [reflexivity|]. split; [reflexivity|].
  split; [split; [intros [H| ->]; auto|intros H; tauto]|]. split; [split; [intros [H|E]; [intros H'; exact (A H' H)|subst; assumption]|intros H; destruct T as [->|[T|T]]; tauto]|].
  split; [tauto|]. split; [exact I1|]. intros c. apply before_trans.
Qed.
Print Assumptions C88_order.

(** ** C89 *)
(** The tests of a list of checkpoints; of those at the height only the first counts. *)
Theorem C89_at l height : check_at l height = true <-> exists c, In c l /\ c_height c = height.
Proof. unfold check_at. rewrite existsb_exists. split; intros (c & I & H); exists c; (split; [exact I|]); [apply Z.eqb_eq in H|apply Z.eqb_eq]; congruence. Qed.
Print Assumptions C89_at.
Theorem C89_under l height : check_under l height = true <-> exists c, In c l /\ height <= c_height c.
Proof. unfold check_under. rewrite existsb_exists. split; intros (c & I & H); exists c; [apply in_rev in I|apply in_rev with (l := l) in I]; (split; [exact I|]); apply Z.leb_le; exact H. Qed.
Print Assumptions C89_under.
Theorem C89_conflict_partial l hash height : (forall a b, In a l -> In b l -> c_height a = c_height b -> c_hash a = c_hash b) ->
  check_conflict l hash height = true <-> exists c, In c l /\ c_height c = height /\ c_hash c <> hash.
Proof.
  intros D. unfold check_conflict. destruct (find (fun c => height =? c_height c) l) as [c|] eqn:E.
  - apply find_some in E. destruct E as [I E]. apply Z.eqb_eq in E. rewrite negb_true_iff. split.
    + intros H. exists c. split; [exact I|]. split; [auto|]. intros G. apply list_eqb_iff in G. congruence.
    + intros (c' & I' & H' & N). destruct (list_eqb (c_hash c) hash) eqn:Q; [|reflexivity]. apply list_eqb_iff in Q. exfalso. apply N. rewrite <- Q. apply D; auto. congruence.
  - split; [discriminate|]. intros (c & I & H & _). pose proof (find_none _ _ E c I) as G. cbn beta in G. apply Z.eqb_neq in G. congruence.
Qed.
Print Assumptions C89_conflict_partial.
Theorem C89_conflict_refuted : ~ (forall l hash height, check_conflict l hash height = true <-> exists c, In c l /\ c_height c = height /\ c_hash c <> hash).
Proof.
  intros H. destruct (H [mkCheck (repeat 1 32) 5 true; mkCheck (repeat 2 32) 5 true] (repeat 1 32) 5) as [_ G].
  assert (E : check_conflict [mkCheck (repeat 1 32) 5 true; mkCheck (repeat 2 32) 5 true] (repeat 1 32) 5 = true); [|vm_compute in E; discriminate].
  apply G. exists (mkCheck (repeat 2 32) 5 true). split; [right; left; reflexivity|]. split; [reflexivity|]. discriminate.
Qed.
Print Assumptions C89_conflict_refuted.
(** From hash text: valid exactly for 64 hexadecimal characters, the bytes reversed. *)
Theorem C89_from text height : let c := check_from text height in
  (c_valid c = true <-> exists h, decode_base16 text = Some (rev h) /\ len h = 32) /\
  (forall h, decode_base16 text = Some (rev h) -> len h = 32 -> c_hash c = h /\ c_height c = height).
Proof.
  cbv zeta. unfold check_from. destruct (C37_hash 32 [] ltac:(lia) ltac:(constructor)) as (_ & _ & G). destruct (decode_hash 32 text) as [h|] eqn:E.
  - apply G in E. split; [split; [intros _; exists h; exact E|reflexivity]|]. intros h' E' _. destruct E as [E _]. rewrite E in E'. injection E' as E'. apply (f_equal (@rev Z)) in E'. rewrite !rev_involutive in E'. auto.
  - split; [split; [discriminate|intros (h & H); apply G in H; congruence]|]. intros h E' L. exfalso. assert (decode_hash 32 text = Some h) by (apply G; auto). congruence.
Qed.
Print Assumptions C89_from.
(** Text: 64 lower case hexadecimal characters, a colon, the height; reads back. *)
Definition hex_text (t : list Z) : Prop := len t = 64 /\ Forall (fun c => 48 <= c <= 57 \/ 97 <= c <= 102 \/ 65 <= c <= 70) t.
Theorem C89_read hash text height n : hex_text hash -> number height n -> text = hash ++ [58] ++ height ->
  (n < 2 ^ 64 -> exists c, check_read text = Some c /\ c_height c = n /\ decode_base16 hash = Some (rev (c_hash c)) /\ len (c_hash c) = 32 /\ c_valid c = true) /\
  (2 ^ 64 <= n -> check_read text = None).
Proof.
  intros [Lh Fh] N ->. assert (Ph : plain 58 hash).
  { split; [intros ->; discriminate|]. eapply Forall_impl; [|exact Fh]. cbn beta. intros c H. split; [intros W; vm_compute in W; lia|lia]. }
  assert (Pn : plain 58 height) by (apply (number_plain 58 height n); [lia|exact N]). change (hash ++ [58] ++ height) with (joined 58 [hash; height]).
  assert (W : ~ In 58 ascii_whitespace) by (intros I; vm_compute in I; lia). assert (P : Forall (plain 58) [hash; height]) by (constructor; [exact Ph|constructor; [exact Pn|constructor]]).
  unfold check_read. rewrite word_id by (apply joined_white; assumption). rewrite split_joined by (exact W || exact P || discriminate). change (len [hash; height]) with 2. cbn [Z.eqb Pos.eqb negb hd last].
  rewrite (deserialize_digits max_size_t height n N).
  assert (D : exists h, decode_hash 32 hash = Some h).
  { unfold decode_hash. rewrite Lh. change (64 =? 32 * 2) with true. cbn [negb]. assert (F : forallb is_base16 hash = true).
    { apply forallb_forall. rewrite Forall_forall in Fh. intros c I. specialize (Fh c I). unfold is_base16, is_between. rewrite !orb_true_iff, !andb_true_iff, !Z.leb_le. tauto. }
    rewrite F. eexists. reflexivity. }
  destruct D as [h D]. rewrite D. cbn [obind]. destruct (C37_hash 32 [] ltac:(lia) ltac:(constructor)) as (_ & _ & G). apply G in D. destruct D as [D Ld].
  change (2 ^ 64) with (max_size_t + 1). destruct (Z.leb_spec n max_size_t) as [H|H]; cbn [obind]; (split; [intros H'|intros H']); try lia; [|reflexivity].
  eexists. split; [reflexivity|]. cbn [c_height c_hash c_valid]. auto.
Qed.
Print Assumptions C89_read.
Theorem C89_round_trip c : bytes_ok (c_hash c) -> len (c_hash c) = 32 -> 0 <= c_height c < 2 ^ 64 -> c_valid c = true ->
  check_read (check_text c) = Some c.
Proof.
  intros B L R V. destruct (serialized (c_height c) R) as [N _]. destruct (C37_hash 32 (c_hash c) ltac:(lia) B) as (E & D & G). specialize (D L).
  assert (H : hex_text (encode_hash (c_hash c))).
  { unfold decode_hash in D. destruct (Z.eqb_spec (len (encode_hash (c_hash c))) (32 * 2)) as [Lt|]; [|discriminate]. cbn [negb] in D. destruct (forallb is_base16 (encode_hash (c_hash c))) eqn:F; [|discriminate].
    split; [exact Lt|]. rewrite forallb_forall in F. apply Forall_forall. intros x I. specialize (F x I). unfold is_base16, is_between in F. rewrite !orb_true_iff, !andb_true_iff, !Z.leb_le in F. tauto. }
  destruct (proj1 (C89_read _ (check_text c) _ _ H N eq_refl) (proj2 R)) as (c' & Ec & Hn & Dh & _ & Vc). rewrite Ec. f_equal. apply G in D. destruct D as [D _]. rewrite D in Dh. injection Dh as Dh. apply (f_equal (@rev Z)) in Dh. rewrite !rev_involutive in Dh.
  destruct c, c'. cbn in *. congruence.
Qed.
Print Assumptions C89_round_trip.

(** ** Satisfiability *)
Example C88_ex : segments [1; 20; 0; 4294967295] /\ version_text [1; 20; 0; 0] = chars "1.20"%string /\ version_text [1; 20; 0; 4294967295] = chars "1.20.0.4294967295"%string /\
  version_read (chars "01.2.3"%string) = Some [1; 2; 3; 0] /\ version_read (chars "1"%string) = None /\ version_read (chars "1.2.3.4.5"%string) = None /\
  version_read (chars "1.4294967296"%string) = None /\ version_read (chars "1..2"%string) = Some [1; 2; 0; 0] /\
  version_lt [1; 2; 9; 9] [1; 10; 0; 0] = true.
Proof. split; [split; [reflexivity|repeat constructor; lia]|]. vm_compute. repeat split. Qed.
Example C89_ex : let c := mkCheck (repeat 171 32) 840000 true in check_read (check_text c) = Some c /\ check_under [c] 840000 = true /\ check_at [c] 839999 = false /\
  check_conflict [c] (repeat 0 32) 840000 = true /\ check_conflict [c] (repeat 0 32) 5 = false.
Proof. vm_compute. repeat split. Qed.
