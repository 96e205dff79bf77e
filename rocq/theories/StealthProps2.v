(** * C82: stealth address encoding. *)
From Coq Require Import String.
From Verif Require Import Base Bytes MathModel MathProofs RadixModel RadixProps AddressModel AddressProofs3 AddressProps OpModel BinModel BinSpec BinProps BitStreamSpec BitStreamProofs BitStreamProofs2 StealthModel StealthSpec.

(** The encoding (wiki.unsystem.net/index.php/DarkWallet/Stealth#Address_format),
    before its checksum. *)
Record fields := mkfields { f_version : Z; f_reuse : bool; f_scan : list Z; f_keys : list (list Z); f_sigs : Z; f_bits : Z; f_filter : list Z }.
Definition layout (f : fields) : list Z :=
  [f_version f; if f_reuse f then 1 else 0] ++ f_scan f ++ [len (f_keys f)] ++ concat (f_keys f) ++ [f_sigs f; f_bits f] ++ f_filter f.
Definition key33 (k : list Z) : Prop := len k = 33 /\ bytes_ok k.
Definition fields_ok (f : fields) : Prop :=
  byte_ok (f_version f) /\ key33 (f_scan f) /\ Forall key33 (f_keys f) /\ len (f_keys f) <= 255 /\ byte_ok (f_sigs f) /\
  0 <= f_bits f <= 32 /\ bytes_ok (f_filter f) /\ len (f_filter f) = (f_bits f + 7) / 8.
(** The address encoded: key reuse is a first spend key; without spend keys the
    scan key is the spend key; the filter is the first bits; all keys must sign
    if the number of signatures is zero or more than the keys. *)
Definition means (f : fields) (a : saddress) : Prop :=
  let keys := (if f_reuse f then [f_scan f] else []) ++ f_keys f in
  let spends := match keys with [] => [f_scan f] | _ => keys end in
  len spends <= 255 /\ a_version a = f_version f /\ a_scan a = f_scan f /\ a_spends a = spends /\
  a_sigs a = (if (f_sigs f =? 0) || (f_sigs f >? len spends) then len spends else f_sigs f) /\
  holds (a_filter a) (bit_slice (f_filter f) 0 (f_bits f)).

Lemma wrap8 n : 0 <= n <= 255 -> wrap u8 n = n.
Proof. intros H. unfold wrap. cbn [sg bits u8]. apply Z.mod_small. lia. Qed.
Lemma from_means filter scan spends sigs version : 0 <= b_bits filter <= 32 ->
  let keys := match spends with [] => [scan] | _ => spends end in
  from_stealth filter scan spends sigs version =
    if len keys <=? 255 then Some (mksaddr filter scan keys (if (sigs =? 0) || (sigs >? len keys) then len keys else sigs) version) else None.
Proof.
  intros F keys. unfold from_stealth. fold keys. cbv zeta. rewrite Z.gtb_ltb. pose proof (len_nonneg keys). destruct (Z.ltb_spec 255 (len keys)), (Z.leb_spec (len keys) 255); try lia; [reflexivity|].
  destruct (Z.gtb_spec (b_bits filter) 32); [lia|]. rewrite wrap8 by lia. reflexivity.
Qed.
Lemma take_concat keys r : Forall key33 keys -> take_keys (length keys) (concat keys ++ r) = (keys, r).
Proof.
  induction 1 as [|k keys [L _] _ IH]; [reflexivity|]. cbn [length take_keys concat]. assert (L' : length k = 33%nat) by (unfold len in L; lia).
  rewrite <- app_assoc. rewrite skipn_app, firstn_app, L', Nat.sub_diag. rewrite skipn_all2 by lia. rewrite (firstn_all2 k) by lia. cbn [skipn app firstn]. rewrite IH, app_nil_r. reflexivity.
Qed.
Lemma concat_len keys : Forall key33 keys -> len (concat keys) = len keys * 33.
Proof. induction 1 as [|k keys [L _] _ IH]; [reflexivity|]. cbn [concat]. rewrite len_app, len_cons, IH, L. lia. Qed.
Lemma take_split n : forall l, (33 * n <= length l)%nat -> bytes_ok l -> l = concat (fst (take_keys n l)) ++ snd (take_keys n l) /\ length (fst (take_keys n l)) = n /\ Forall key33 (fst (take_keys n l)).
Proof.
  induction n as [|n IH]; intros l L B; [repeat split; constructor|]. cbn [take_keys]. assert (Bs : bytes_ok (skipn 33 l) /\ bytes_ok (firstn 33 l)).
  { rewrite <- (firstn_skipn 33 l) in B. apply Forall_app in B. tauto. }
  destruct (IH (skipn 33 l)) as (I1 & I2 & I3); [rewrite skipn_length; lia|tauto|]. destruct (take_keys n (skipn 33 l)) as [ks r] eqn:T. cbn [fst snd] in *. split; [|split].
  - cbn [concat]. rewrite <- app_assoc, <- I1. symmetry. apply firstn_skipn.
  - cbn [length]. lia.
  - apply Forall_cons; [|exact I3]. split; [unfold len; rewrite firstn_length; lia|tauto].
Qed.

Section Codec.
Variable hash : list Z -> list Z.
Hypothesis hash_ok : forall x, bytes_ok (hash x) /\ len (hash x) = 32.
Lemma appended x : append_checksum hash x = x ++ firstn 4 (hash x).
Proof. unfold append_checksum, bitcoin_checksum. destruct (hash4 hash hash_ok x) as [B4 L4]. f_equal. pose proof (le_bytes_value (firstn 4 (hash x)) B4) as E. rewrite L4 in E. exact E. Qed.
Lemma layout_bytes f : fields_ok f -> bytes_ok (layout f).
Proof.
  intros (A1 & (_ & A2) & A3 & A4 & A5 & A6 & A7 & A8). unfold layout. pose proof (len_nonneg (f_keys f)). repeat (apply Forall_app; split); try assumption.
  - apply Forall_cons; [exact A1|]. apply Forall_cons; [destruct (f_reuse f); split; lia|apply Forall_nil].
  - apply Forall_cons; [split; lia|apply Forall_nil].
  - clear -A3. induction A3 as [|k ks [_ B] _ IH]; [apply Forall_nil|]. cbn [concat]. apply Forall_app. split; assumption.
  - apply Forall_cons; [exact A5|]. apply Forall_cons; [split; lia|apply Forall_nil].
Qed.
Lemma nth_skip (l : list Z) n k : nth n (skipn k l) 0 = nth (k + n) l 0.
Proof. revert l. induction k as [|k IH]; intros l; [reflexivity|]. destruct l as [|x l]; [destruct n; reflexivity|]. apply IH. Qed.
Lemma firstn_tail (d y t : list Z) : d = y ++ t -> length t = 4%nat -> firstn (length d - 4) d = y.
Proof. intros -> L. rewrite app_length, L. replace (length y + 4 - 4)%nat with (length y) by lia. rewrite firstn_app, Nat.sub_diag, firstn_all. cbn [firstn]. apply app_nil_r. Qed.
(** The decoder reads the fields. *)
Lemma parse_fields f : fields_ok f -> exists filter, holds filter (bit_slice (f_filter f) 0 (f_bits f)) /\
  parse_stealth hash (append_checksum hash (layout f)) = from_stealth filter (f_scan f) ((if f_reuse f then [f_scan f] else []) ++ f_keys f) (f_sigs f) (f_version f).
Proof.
  intros Ok. pose proof (layout_bytes f Ok) as Bl. destruct Ok as (A1 & (A2 & A2') & A3 & A4 & A5 & A6 & A7 & A8). pose proof (len_nonneg (f_keys f)) as K0.
  set (ck := firstn 4 (hash (layout f))). destruct (hash4 hash hash_ok (layout f)) as [Bc Lc]. fold ck in Bc, Lc.
  assert (V : verify_checksum hash (append_checksum hash (layout f)) = true).
  { apply (C56_checksum hash hash_ok); [rewrite appended; apply Forall_app; split; assumption|]. exists (layout f). split; [reflexivity|apply appended]. }
  unfold parse_stealth. rewrite V. rewrite appended. fold ck. cbn [negb]. rewrite orb_false_r.
  assert (Ll : len (layout f ++ ck) = 42 + len (f_keys f) * 33 + (f_bits f + 7) / 8).
  { rewrite len_app. unfold layout. rewrite !len_app, A2, concat_len, A8 by exact A3. change (len [f_version f; if f_reuse f then 1 else 0]) with 2. change (len [len (f_keys f)]) with 1. change (len [f_sigs f; f_bits f]) with 2. assert (Lc' : len ck = 4) by (unfold len; rewrite Lc; reflexivity). lia. }
  pose proof (Z.div_pos (f_bits f + 7) 8 ltac:(lia) ltac:(lia)) as D0. rewrite Ll. destruct (Z.ltb_spec (42 + len (f_keys f) * 33 + (f_bits f + 7) / 8) 42); [lia|].
  assert (S36 : layout f ++ ck = (f_version f :: (if f_reuse f then 1 else 0) :: f_scan f) ++ len (f_keys f) :: (concat (f_keys f) ++ f_sigs f :: f_bits f :: f_filter f ++ ck)).
  { unfold layout. cbn [app]. do 2 f_equal. rewrite <- !app_assoc. cbn [app]. do 2 f_equal. rewrite <- app_assoc. reflexivity. }
  assert (L35 : length (f_version f :: (if f_reuse f then 1 else 0) :: f_scan f) = 35%nat) by (cbn [length]; unfold len in A2; lia).
  rewrite S36. set (pre := f_version f :: (if f_reuse f then 1 else 0) :: f_scan f) in *. set (post := concat (f_keys f) ++ f_sigs f :: f_bits f :: f_filter f ++ ck).
  assert (N0 : nth 0 (pre ++ len (f_keys f) :: post) 0 = f_version f) by reflexivity. assert (N1 : nth 1 (pre ++ len (f_keys f) :: post) 0 = if f_reuse f then 1 else 0) by reflexivity.
  assert (N35 : nth 35 (pre ++ len (f_keys f) :: post) 0 = len (f_keys f)) by (rewrite app_nth2 by lia; rewrite L35; reflexivity).
  assert (S2 : firstn 33 (skipn 2 (pre ++ len (f_keys f) :: post)) = f_scan f).
  { unfold pre. cbn [app skipn]. rewrite firstn_app. replace (33 - length (f_scan f))%nat with 0%nat by (unfold len in A2; lia). rewrite firstn_all2 by (unfold len in A2; lia). apply app_nil_r. }
  assert (S3 : skipn 36 (pre ++ len (f_keys f) :: post) = post) by (rewrite skipn_app, L35, skipn_all2 by lia; reflexivity).
  cbv zeta. rewrite N0, N1, N35, S2, S3. replace ((if f_reuse f then 1 else 0) >? 1) with false by (destruct (f_reuse f); reflexivity).
  destruct (Z.ltb_spec (42 + len (f_keys f) * 33 + (f_bits f + 7) / 8) (42 + len (f_keys f) * 33)); [lia|]. unfold len at 1. rewrite Nat2Z.id. unfold post. rewrite take_concat by exact A3. cbn [nth skipn].
  destruct (Z.gtb_spec (f_bits f) 32); [lia|]. rewrite Z.eqb_refl. cbn [negb]. rewrite firstn_app. replace (Z.to_nat ((f_bits f + 7) / 8)) with (length (f_filter f)) by (unfold len in A8; lia). rewrite Nat.sub_diag, firstn_all. cbn [firstn]. rewrite app_nil_r.
  destruct (C80_data (f_bits f) (f_filter f) ltac:(lia) A7) as (b & -> & Hb). exists b. split; [exact Hb|]. cbn [obind]. destruct (f_reuse f); reflexivity.
Qed.
(** Decoding accepts exactly the layouts, with their checksum, that name at most
    255 spend keys, and gives their meaning. *)
Theorem C82_decode d a : bytes_ok d ->
  parse_stealth hash d = Some a <-> exists f, fields_ok f /\ d = append_checksum hash (layout f) /\ means f a.
Proof.
  intros Bd. split.
  - intros P. unfold parse_stealth in P. destruct (Z.ltb_spec (len d) 42) as [L42|L42]; [discriminate|]. cbn [orb] in P. destruct (verify_checksum hash d) eqn:V; [|discriminate]. cbn [negb] in P. cbv zeta in P.
    destruct (Z.gtb_spec (nth 1 d 0) 1) as [O1|O1]; [discriminate|]. set (count := nth 35 d 0) in *. destruct (Z.ltb_spec (len d) (42 + count * 33)) as [Lc|Lc]; [discriminate|].
    pose proof (proj1 (C56_checksum hash hash_ok d Bd) V) as (x & Ex & Ex'). assert (Bn : forall n, byte_ok (nth n d 0)).
    { intros n. destruct (Nat.lt_ge_cases n (length d)) as [H|H]; [unfold bytes_ok in Bd; rewrite Forall_forall in Bd; apply Bd, nth_In, H|rewrite nth_overflow by exact H; split; lia]. }
    pose proof (Bn 35%nat) as Bcount. fold count in Bcount. pose proof (Bn 1%nat) as Bo.
    assert (Bsk : forall n, bytes_ok (skipn n d)) by (intros n; rewrite <- (firstn_skipn n d) in Bd; apply Forall_app in Bd; tauto).
    destruct (take_split (Z.to_nat count) (skipn 36 d)) as (T1 & T2 & T3); [rewrite skipn_length; unfold len, byte_ok in *; lia|apply Bsk|].
    destruct (take_keys (Z.to_nat count) (skipn 36 d)) as [keys r]. cbn [fst snd] in *. destruct (Z.gtb_spec (nth 1 r 0) 32) as [Fb|Fb]; [discriminate|].
    destruct (Z.eqb_spec (len d) (42 + count * 33 + (nth 1 r 0 + 7) / 8)) as [Ld|]; [|discriminate]. cbn [negb] in P.
    assert (Br : bytes_ok r) by (specialize (Bsk 36%nat); rewrite T1 in Bsk; apply Forall_app in Bsk; tauto).
    assert (Lk : len (concat keys) = count * 33) by (rewrite concat_len by exact T3; unfold len, byte_ok in *; lia).
    assert (Lr : len r = 6 + (nth 1 r 0 + 7) / 8).
    { assert (Q : len (skipn 36 d) = len d - 36) by (unfold len in *; rewrite skipn_length; lia). rewrite T1, len_app in Q. lia. }
    destruct r as [|sg [|fb r]]; [change (len (@nil Z)) with 0 in Lr; cbn [nth] in Lr; change ((0 + 7) / 8) with 0 in Lr; lia|change (len [sg]) with 1 in Lr; cbn [nth] in Lr; change ((0 + 7) / 8) with 0 in Lr; lia|].
    cbn [nth] in *. change (skipn 2 (sg :: fb :: r)) with r in *. apply Forall_cons_iff in Br. destruct Br as [Bsg Br']. apply Forall_cons_iff in Br'. destruct Br' as [Bfb Br'']. rewrite !len_cons in Lr. set (fby := (fb + 7) / 8) in *.
    assert (Fy : 0 <= fby) by (apply Z.div_pos; unfold byte_ok in Bfb; lia).
    set (fl := firstn (Z.to_nat fby) r) in *. assert (Lf : len fl = fby) by (unfold fl, len in *; rewrite firstn_length; lia).
    assert (Bf : bytes_ok fl) by (unfold fl; rewrite <- (firstn_skipn (Z.to_nat fby) r) in Br''; apply Forall_app in Br''; tauto).
    destruct (C80_data fb fl ltac:(unfold byte_ok in Bfb; lia) Bf) as (b & Eb & Hb). rewrite Eb in P. cbn [obind] in P.
    exists (mkfields (nth 0 d 0) (nth 1 d 0 =? 1) (firstn 33 (skipn 2 d)) keys sg fb fl).
    assert (Fo : fields_ok (mkfields (nth 0 d 0) (nth 1 d 0 =? 1) (firstn 33 (skipn 2 d)) keys sg fb fl)).
    { unfold fields_ok. cbn [f_version f_reuse f_scan f_keys f_sigs f_bits f_filter]. split; [apply Bn|]. split; [split; [unfold len in *; rewrite firstn_length, skipn_length; lia|]|].
      - specialize (Bsk 2%nat). rewrite <- (firstn_skipn 33 (skipn 2 d)) in Bsk. apply Forall_app in Bsk. tauto.
      - split; [exact T3|]. split; [unfold len, byte_ok in *; lia|]. split; [exact Bsg|]. split; [unfold byte_ok in Bfb; lia|]. split; [exact Bf|exact Lf]. }
    split; [exact Fo|]. split.
    + transitivity (append_checksum hash x); [exact Ex|]. f_equal. unfold layout. cbn [f_version f_reuse f_scan f_keys f_sigs f_bits f_filter].
      assert (Lx : length d = (length x + 4)%nat) by (rewrite Ex' at 1; rewrite app_length; destruct (hash4 hash hash_ok x) as [_ ->]; reflexivity).
      assert (Xd : x = firstn (length d - 4) d) by (replace (length d - 4)%nat with (length x) by lia; rewrite Ex' at 1; rewrite firstn_app, Nat.sub_diag, firstn_all; cbn [firstn]; rewrite app_nil_r; reflexivity).
      assert (Dd : d = [nth 0 d 0; if nth 1 d 0 =? 1 then 1 else 0] ++ firstn 33 (skipn 2 d) ++ [len keys] ++ concat keys ++ [sg; fb] ++ fl ++ skipn (Z.to_nat fby) r).
      { replace (if nth 1 d 0 =? 1 then 1 else 0) with (nth 1 d 0) by (destruct (Z.eqb_spec (nth 1 d 0) 1); unfold byte_ok in Bo; lia). unfold fl. rewrite firstn_skipn. cbn [app].
        replace (len keys) with (nth 35 d 0) by (fold count; unfold len, byte_ok in *; lia). rewrite <- T1. clear -L42. destruct d as [|x0 [|x1 d]]; [change (len (@nil Z)) with 0 in L42; lia|change (len [x0]) with 1 in L42; lia|]. cbn [nth skipn]. do 2 f_equal.
        assert (Ln : (40 <= length d)%nat) by (rewrite !len_cons in L42; unfold len in L42; lia). clear L42. rewrite <- (firstn_skipn 33 d) at 1. f_equal.
        match goal with |- _ = ?x :: ?y => change x with (nth (33 + 0) d 0); change y with (skipn (1 + 33) d) end. rewrite <- nth_skip, <- skipn_skipn. destruct (skipn 33 d) eqn:Q; [|reflexivity]. apply (f_equal (@length Z)) in Q. rewrite skipn_length in Q. cbn [length] in Q. lia. }
      assert (Lt : length (skipn (Z.to_nat fby) r) = 4%nat) by (rewrite skipn_length; unfold len in *; lia).
      transitivity (firstn (length d - 4) d); [exact Xd|]. apply (firstn_tail _ _ (skipn (Z.to_nat fby) r)); [|exact Lt]. etransitivity; [exact Dd|]. rewrite <- !app_assoc. reflexivity.
    + assert (Bb : b_bits b = fb) by (rewrite (proj1 Hb), bit_slice_len by (unfold byte_ok in Bfb; lia); reflexivity).
      rewrite from_means in P by (rewrite Bb; unfold byte_ok in Bfb; lia). unfold means. cbn [f_version f_reuse f_scan f_keys f_sigs f_bits f_filter]. cbv zeta in P |- *. 
      destruct (Z.leb_spec (len (match (if nth 1 d 0 =? 1 then [firstn 33 (skipn 2 d)] else []) ++ keys with [] => [firstn 33 (skipn 2 d)] | _ :: _ => (if nth 1 d 0 =? 1 then [firstn 33 (skipn 2 d)] else []) ++ keys end)) 255) as [Lq|]; [|discriminate].
      injection P as <-. cbn [a_version a_scan a_spends a_sigs a_filter]. auto 10.
  - intros (f & Ok & -> & M). destruct (parse_fields f Ok) as (b & Hb & ->). destruct Ok as (A1 & A2 & A3 & A4 & A5 & A6 & A7 & A8).
    assert (Bb : b_bits b = f_bits f) by (rewrite (proj1 Hb), bit_slice_len by lia; reflexivity). rewrite from_means by lia. cbv zeta. unfold means in M. cbv zeta in M. destruct M as (M1 & M2 & M3 & M4 & M5 & M6).
    match goal with |- context [len ?k <=? 255] => destruct (Z.leb_spec (len k) 255); [|lia] end. f_equal. destruct a as [af asc asp asg av]. cbn [a_version a_scan a_spends a_sigs a_filter] in *. subst. f_equal. apply (holds_unique _ _ _ Hb M6).
Qed.

(** Texts: base58 of those. *)
Theorem C82_text text a : stealth_from_string hash text = Some a <->
  exists f, fields_ok f /\ text = encode_base58 (append_checksum hash (layout f)) /\ means f a.
Proof.
  unfold stealth_from_string. split.
  - destruct (decode_base58 text) as [d|] eqn:D; [|discriminate]. intros P. apply C38_text_round_trip in D. destruct D as [B <-]. apply (C82_decode d a B) in P. destruct P as (f & F & -> & M). exists f. auto.
  - intros (f & F & -> & M). assert (B : bytes_ok (append_checksum hash (layout f))) by (rewrite appended; apply Forall_app; split; [apply layout_bytes; exact F|apply (hash4 hash hash_ok)]).
    rewrite C38_round_trip by exact B. apply C82_decode; [exact B|]. exists f. auto.
Qed.

(** ** Encoding and decoding again *)
Definition made (a : saddress) (l : list bool) : Prop :=
  byte_ok (a_version a) /\ key33 (a_scan a) /\ Forall key33 (a_spends a) /\ 1 <= a_sigs a <= len (a_spends a) /\ len (a_spends a) <= 255 /\ holds (a_filter a) l /\ len l <= 32.
(** What the constructor makes is of this kind. *)
Theorem C82_made filter l scan spends sigs version a : byte_ok version -> key33 scan -> Forall key33 spends -> byte_ok sigs -> holds filter l ->
  from_stealth filter scan spends sigs version = Some a ->
  made a l /\ a_version a = version /\ a_scan a = scan /\ a_filter a = filter /\ a_spends a = (match spends with [] => [scan] | _ => spends end) /\
  a_sigs a = (if (sigs =? 0) || (sigs >? len (a_spends a)) then len (a_spends a) else sigs).
Proof.
  intros Bv Ks Kk Bs Hf E. pose proof (proj1 Hf) as Nb. pose proof (len_nonneg l). assert (F32 : b_bits filter <= 32).
  { unfold from_stealth in E. cbv zeta in E. destruct (len _ >? 255); [discriminate|]. destruct (Z.gtb_spec (b_bits filter) 32); [discriminate|lia]. }
  rewrite from_means in E by lia. cbv zeta in E. set (keys := match spends with [] => [scan] | _ => spends end) in *. destruct (Z.leb_spec (len keys) 255); [|discriminate]. injection E as <-.
  unfold made. cbn [a_version a_scan a_spends a_sigs a_filter]. assert (K : Forall key33 keys) by (unfold keys; destruct spends; [apply Forall_cons; [exact Ks|apply Forall_nil]|exact Kk]).
  assert (K1 : 1 <= len keys) by (unfold keys; destruct spends as [|k r]; [change (len [scan]) with 1; lia|rewrite len_cons; pose proof (len_nonneg r); lia]).
  split; [|auto 10]. split; [exact Bv|]. split; [exact Ks|]. split; [exact K|]. split; [|split; [lia|split; [exact Hf|lia]]].
  rewrite Z.gtb_ltb. unfold byte_ok in Bs. destruct (Z.eqb_spec sigs 0); cbn [orb]; [lia|]. destruct (Z.ltb_spec (len keys) sigs); lia.
Qed.
Lemma existsb_false (l : list (list Z)) k : ~ In k l -> existsb (fun x => list_eqb x k) l = false /\ filter (fun x => negb (list_eqb x k)) l = l.
Proof.
  induction l as [|x l IH]; intros N; [split; reflexivity|]. cbn [existsb filter]. destruct IH as [I1 I2]; [intros I; apply N; right; exact I|]. assert (E : list_eqb x k = false) by (destruct (list_eqb x k) eqn:E; [apply list_eqb_iff in E; exfalso; apply N; left; exact E|reflexivity]).
  rewrite E, I1, I2. split; reflexivity.
Qed.
(** Round trip for an address whose scan key is not a spend key, or is the first
    spend key only. *)
Theorem C82_round_trip_partial a l : made a l -> ~ In (a_scan a) (a_spends a) \/ (exists r, a_spends a = a_scan a :: r /\ ~ In (a_scan a) r) ->
  parse_stealth hash (stealth_to_chunk hash a) = Some a /\ stealth_from_string hash (stealth_encoded hash a) = Some a.
Proof.
  intros (A1 & A2 & A3 & A4 & A5 & A6 & A7) Sp. pose proof (len_nonneg l) as L0. pose proof A6 as (Fb & Fy & Fl & Ft). set (reuse := reuse_key a). set (keys := filter (fun k => negb (list_eqb k (a_scan a))) (a_spends a)).
  assert (Hk : (if reuse then [a_scan a] else []) ++ keys = a_spends a).
  { unfold reuse, keys, reuse_key. destruct Sp as [N|(r & E & N)].
    - destruct (existsb_false _ _ N) as [-> ->]. reflexivity.
    - rewrite E. cbn [existsb filter]. replace (list_eqb (a_scan a) (a_scan a)) with true by (symmetry; apply list_eqb_iff; reflexivity). cbn [orb negb]. destruct (existsb_false _ _ N) as [_ ->]. reflexivity. }
  assert (Lk : len keys = len (a_spends a) - (if reuse then 1 else 0)) by (rewrite <- Hk, len_app; destruct reuse; [change (len [a_scan a]) with 1|change (len (@nil (list Z))) with 0]; lia).
  pose proof (len_nonneg keys) as K0. set (f := mkfields (a_version a) reuse (a_scan a) keys (a_sigs a) (len l) (b_bytes (a_filter a))).
  assert (Fo : fields_ok f).
  { unfold fields_ok, f. cbn [f_version f_reuse f_scan f_keys f_sigs f_bits f_filter]. split; [exact A1|]. split; [exact A2|]. split; [|split; [destruct reuse; lia|split; [split; lia|split; [lia|split; [exact Fy|exact Fl]]]]].
    rewrite <- Hk in A3. apply Forall_app in A3. tauto. }
  assert (Ec : stealth_to_chunk hash a = append_checksum hash (layout f)).
  { unfold stealth_to_chunk, layout, f. cbn [f_version f_reuse f_scan f_keys f_sigs f_bits f_filter]. fold reuse. fold keys. rewrite Fb, Lk. rewrite (wrap8 (len (a_spends a))), (wrap8 (len l)), wrap8 by (destruct reuse; lia). cbn [app]. reflexivity. }
  assert (Mf : means f a).
  { unfold means, f. cbn [f_version f_reuse f_scan f_keys f_sigs f_bits f_filter]. cbv zeta. rewrite Hk. assert (Ne : a_spends a <> []) by (intros E; rewrite E in A4; change (len (@nil (list Z))) with 0 in A4; lia).
    replace (match a_spends a with [] => [a_scan a] | _ :: _ => a_spends a end) with (a_spends a) by (destruct (a_spends a); [contradiction|reflexivity]).
    split; [exact A5|]. split; [reflexivity|]. split; [reflexivity|]. split; [reflexivity|]. split.
    - destruct (Z.eqb_spec (a_sigs a) 0); [lia|]. rewrite Z.gtb_ltb. destruct (Z.ltb_spec (len (a_spends a)) (a_sigs a)); [lia|]. reflexivity.
    - replace (bit_slice (b_bytes (a_filter a)) 0 (len l)) with l; [exact A6|]. symmetry. apply bit_slice_eq; [lia|exact L0| |reflexivity]. intros k Hk0. rewrite Z.add_0_l. apply Ft. pose proof (Z.div_mod (len l + 7) 8 ltac:(lia)). pose proof (Z.mod_pos_bound (len l + 7) 8 ltac:(lia)). lia. }
  split.
  - rewrite Ec. apply C82_decode; [rewrite appended; apply Forall_app; split; [apply layout_bytes; exact Fo|apply (hash4 hash hash_ok)]|]. exists f. auto.
  - apply C82_text. exists f. split; [exact Fo|]. split; [unfold stealth_encoded; rewrite Ec; reflexivity|exact Mf].
Qed.

(** Refuted otherwise: with the scan key among the spend keys twice, the text of
    a valid address is not an address: every copy is dropped but one counted. *)
Theorem C82_round_trip_refuted scan version : byte_ok version -> key33 scan ->
  exists a, from_stealth (mkbinary 0 []) scan [scan; scan] 0 version = Some a /\ made a [] /\ stealth_from_string hash (stealth_encoded hash a) = None.
Proof.
  intros Bv Ks. assert (Hn : holds (mkbinary 0 []) []) by (split; [reflexivity|split; [apply Forall_nil|split; [reflexivity|]]]; change (8 * len _) with 0; intros k Hk; lia).
  assert (Fm : from_stealth (mkbinary 0 []) scan [scan; scan] 0 version = Some (mksaddr (mkbinary 0 []) scan [scan; scan] 2 version)) by reflexivity.
  destruct (C82_made (mkbinary 0 []) [] scan [scan; scan] 0 version _ Bv Ks ltac:(repeat (apply Forall_cons; [exact Ks|]); apply Forall_nil) ltac:(split; lia) Hn Fm) as (Md & _). eexists. split; [exact Fm|]. split; [exact Md|].
  set (a := mksaddr (mkbinary 0 []) scan [scan; scan] 2 version). assert (T : list_eqb scan scan = true) by (apply list_eqb_iff; reflexivity).
  assert (Ec : stealth_to_chunk hash a = append_checksum hash ([version; 1] ++ scan ++ [1; 2; 0])).
  { unfold stealth_to_chunk, a, reuse_key. cbn [a_version a_scan a_spends a_sigs a_filter b_bits b_bytes existsb filter]. rewrite T. reflexivity. }
  destruct (stealth_from_string hash (stealth_encoded hash a)) as [b|] eqn:Q; [|reflexivity]. exfalso. unfold stealth_from_string, stealth_encoded in Q.
  assert (Bx : bytes_ok ([version; 1] ++ scan ++ [1; 2; 0])) by (repeat (apply Forall_cons; [first [exact Bv|split; lia]|]); apply Forall_app; split; [exact (proj2 Ks)|repeat (apply Forall_cons; [split; lia|]); apply Forall_nil]).
  rewrite C38_round_trip in Q by (rewrite Ec, appended; apply Forall_app; split; [exact Bx|apply (hash4 hash hash_ok)]). unfold parse_stealth in Q. rewrite Ec, appended in Q.
  destruct (hash4 hash hash_ok ([version; 1] ++ scan ++ [1; 2; 0])) as [_ L4]. set (ck := firstn 4 _) in *. assert (Lc : len ck = 4) by (unfold len; lia). destruct Ks as [Ls _].
  assert (Ld : len (([version; 1] ++ scan ++ [1; 2; 0]) ++ ck) = 42) by (rewrite !len_app, Ls, Lc; reflexivity). rewrite Ld in Q. destruct ((42 <? 42) || _); [discriminate|]. cbv zeta in Q.
  destruct (_ >? 1) eqn:X in Q; [discriminate|]. clear X. replace (nth 35 (([version; 1] ++ scan ++ [1; 2; 0]) ++ ck) 0) with 1 in Q; [discriminate|].
  cbn [app nth]. rewrite <- app_assoc. rewrite app_nth2 by (unfold len in Ls; lia). replace (33 - length scan)%nat with 0%nat by (unfold len in Ls; lia). reflexivity.
Qed.
(** And a scan key that is not the first of the spend keys comes back first. *)
Theorem C82_order_refuted scan k version : byte_ok version -> key33 scan -> key33 k -> k <> scan ->
  exists a b, from_stealth (mkbinary 0 []) scan [k; scan] 0 version = Some a /\ stealth_from_string hash (stealth_encoded hash a) = Some b /\
    a_spends a = [k; scan] /\ a_spends b = [scan; k].
Proof.
  intros Bv Ks Kk N. assert (Hn : holds (mkbinary 0 []) []) by (split; [reflexivity|split; [apply Forall_nil|split; [reflexivity|]]]; change (8 * len _) with 0; intros j Hk; lia).
  exists (mksaddr (mkbinary 0 []) scan [k; scan] 2 version), (mksaddr (mkbinary 0 []) scan [scan; k] 2 version). split; [reflexivity|]. split; [|split; reflexivity].
  set (b := mksaddr (mkbinary 0 []) scan [scan; k] 2 version). assert (Mb : made b []).
  { unfold made, b. cbn [a_version a_scan a_spends a_sigs a_filter]. change (len [scan; k]) with 2. change (len (@nil bool)) with 0. split; [exact Bv|]. split; [exact Ks|]. split; [apply Forall_cons; [exact Ks|]; apply Forall_cons; [exact Kk|apply Forall_nil]|]. split; [lia|]. split; [lia|]. split; [exact Hn|lia]. }
  destruct (C82_round_trip_partial b [] Mb) as [_ R]; [right; exists [k]; split; [reflexivity|]; intros [I|[]]; contradiction|]. rewrite <- R. f_equal. unfold stealth_encoded. f_equal. unfold stealth_to_chunk, b, reuse_key. cbn [a_version a_scan a_spends a_sigs a_filter b_bits b_bytes existsb filter].
  replace (list_eqb scan scan) with true by (symmetry; apply list_eqb_iff; reflexivity). assert (E : list_eqb k scan = false) by (destruct (list_eqb k scan) eqn:E; [apply list_eqb_iff in E; contradiction|reflexivity]). rewrite E. reflexivity.
Qed.
End Codec.
Print Assumptions C82_decode.
Print Assumptions C82_text.
Print Assumptions C82_made.
Print Assumptions C82_round_trip_partial.
Print Assumptions C82_round_trip_refuted.
Print Assumptions C82_order_refuted.

(** ** Satisfiability *)
Definition some_hash (x : list Z) : list Z := be_bytes 32 (be_value x).
Example C82_ex :
  (forall x, bytes_ok (some_hash x) /\ len (some_hash x) = 32) /\
  let scan := 2 :: repeat 7 32 in let k := 3 :: repeat 9 32 in
  exists a, from_stealth (mkbinary 5 [0xf8]) scan [k] 0 0x2a = Some a /\ a_sigs a = 1 /\ parse_stealth some_hash (stealth_to_chunk some_hash a) = Some a.
Proof.
  split; [intros x; unfold some_hash; split; [apply be_bytes_ok|unfold len; rewrite be_bytes_length; reflexivity]|]. cbv zeta. eexists. split; [vm_compute; reflexivity|]. split; [reflexivity|]. vm_compute. reflexivity.
Qed.
