From Coq Require Import String.
From Verif Require Import Base Bytes BitStreamSpec RadixModel RadixSpec RadixProofs RadixProofs3 RadixProofs4 AddressModel BechField BechProofs AddressSpec AddressProofs AddressProofs2 AddressProofs3.

Lemma lower_idem_list l : map lower (map lower l) = map lower l.
Proof. rewrite map_map. apply map_ext, lower_lower. Qed.
Lemma ascii_bytes l : ascii l -> Forall (fun c => 0 <= c < 256) l.
Proof. intros H. eapply Forall_impl; [|exact H]. cbv beta. lia. Qed.
Lemma not_mixed_lower l : map lower l = l -> has_mixed_ascii_case l = false.
Proof.
  intros H. apply mixed_spec. left. apply Forall_forall. intros c I [A B].
  assert (E : lower c = c). { rewrite <- H in I. apply in_map_iff in I. destruct I as (d & <- & _). apply lower_lower. }
  unfold lower in E. replace ((65 <=? c) && (c <=? 90)) with true in E by lia. lia.
Qed.
Lemma encode_len u : len (encode_base32_chunk u) = len u.
Proof. unfold encode_base32_chunk, len. rewrite map_length. reflexivity. Qed.
Lemma symbols_digits u : symbols u <-> digits_ok 32 u.
Proof. reflexivity. Qed.
(** What decoding of a lower case payload yields. *)
Lemma decode_payload payload : ascii payload -> map lower payload = payload ->
  decode_base32_chunk payload <> None /\ forall u, decode_base32_chunk payload = Some (Some u) <-> digits_ok 32 u /\ payload = encode_base32_chunk u.
Proof.
  intros A L. unfold decode_base32_chunk. rewrite not_mixed_lower by exact L. split; [apply decode_symbols_defined; exact A|].
  intros u. split.
  - intros H. apply decode_symbols_inv in H; [|eapply Forall_impl; [|exact A]; cbv beta; lia]. destruct H as [D E]. rewrite L in E. auto.
  - intros [D ->]. apply decode_symbols_encode. exact D.
Qed.
(** What verification of symbols yields. *)
Lemma verify_checked_spec prefix u v p : ascii prefix -> map lower prefix = prefix -> digits_ok 32 u -> 2 <= len p ->
  bech32_verify_checked prefix u = Some (v, p) <->
  exists data check pad, u = v :: data ++ check /\ len check = 6 /\ code_word prefix u /\ 0 <= pad <= 7 /\ holds_bytes data p pad.
Proof.
  intros A L D Hp. unfold bech32_verify_checked. split.
  - destruct (Z.ltb_spec (len u) 7); [discriminate|]. destruct u as [|v' r]; [change (len (@nil Z)) with 0 in *; lia|]. cbv zeta. cbn [hd].
    rewrite len_cons in *. replace (1 + len r - 7) with (len r - 6) by lia. change (skipn 1 (v' :: r)) with r.
    destruct (bech32_verify_checksum (v' :: r) prefix v') eqn:V; [|discriminate]. intros E. 
    assert (E1 : v' = v) by congruence. assert (E2 : base32_pack (firstn (Z.to_nat (len r - 6)) r) = p) by congruence. subst v'. clear E.
    apply pack_holds in E2; [|exact Hp]. destruct E2 as (pad & Hpad & HB).
    exists (firstn (Z.to_nat (len r - 6)) r), (skipn (Z.to_nat (len r - 6)) r), pad. rewrite firstn_skipn. split; [reflexivity|]. split; [|split; [|split; [exact Hpad|exact HB]]].
    + unfold len in *. rewrite skipn_length. lia.
    + split; [exact D|]. apply verify_code in V; [|exact A|exact D]. rewrite L in V. exact V.
  - intros (data & check & pad & -> & L6 & [_ CW] & Hpad & HB). rewrite !len_cons, len_app, L6. pose proof (len_nonneg data).
    replace (1 + (len data + 6) <? 7) with false by lia. cbv zeta. cbn [hd] in *. change (skipn 1 (v :: data ++ check)) with (data ++ check).
    assert (V : bech32_verify_checksum (v :: data ++ check) prefix v = true) by (apply verify_code; [exact A|exact D|rewrite L; exact CW]).
    rewrite V. replace (Z.to_nat (1 + (len data + 6) - 7)) with (length data) by (unfold len in *; lia).
    rewrite firstn_app, Nat.sub_diag, firstn_all. cbn [firstn]. rewrite app_nil_r. do 2 f_equal. apply pack_holds; [exact Hp|]. exists pad. auto.
Qed.
Lemma parse_defined text strict : bytes_ok text -> parse_address text strict <> None.
Proof.
  intros B. unfold parse_address. destruct (is_ascii text) eqn:A; cbn [negb]; [|discriminate].
  apply is_ascii_spec in A; [|eapply Forall_impl; [|exact B]; unfold byte_ok; lia].
  destruct (has_mixed_ascii_case text); [discriminate|]. destruct (len text >? 90); [discriminate|]. rewrite ascii_to_lower_eq.
  pose proof (split_last_spec 49 (map lower text)) as P. destruct (split_last 49 (map lower text)) as [[prefix payload]|]; [|discriminate].
  destruct (parse_prefix prefix strict); cbn [negb]; [|discriminate]. destruct (len payload <? 1 + 4 + 6); [discriminate|]. destruct (len payload >? 1 + 64 + 6); [discriminate|].
  destruct P as [E _]. assert (AP : ascii payload) by (apply map_lower_ascii in A; rewrite E in A; apply Forall_app in A; destruct A as [_ A]; inversion A; assumption).
  unfold decode_base32_chunk. destruct (has_mixed_ascii_case payload); [discriminate|].
  pose proof (decode_symbols_defined payload AP) as N. destruct (decode_symbols payload) as [[u|]|]; [|discriminate|congruence].
  destruct (bech32_verify_checked prefix u) as [[v p]|]; [|discriminate]. destruct (is_valid_version v); cbn [negb]; [|discriminate].
  destruct (valid_type (parse_program v p strict)); discriminate.
Qed.
Lemma map_lower_app_inv text a b : map lower text = a ++ 49 :: b -> map lower a = a /\ map lower b = b.
Proof.
  intros E. pose proof (lower_idem_list text) as I. rewrite E in I. rewrite map_app in I. cbn [map] in I.
  assert (L : length (map lower a) = length a) by apply map_length.
  pose proof (f_equal (firstn (length a)) I) as F. rewrite !firstn_app, L, Nat.sub_diag, !firstn_O, !app_nil_r in F. rewrite <- L in F at 1. rewrite !firstn_all in F.
  split; [exact F|]. rewrite F in I. apply app_inv_head in I. congruence.
Qed.
Lemma parse_iff text strict prefix version program : bytes_ok text ->
  parse_address text strict = Some (Some (mkwa prefix version program)) <->
  witness_text 7 text prefix version program /\
  (strict = true -> (prefix = codes "bc"%string \/ prefix = codes "tb"%string) /\ version <= 1).
Proof.
  intros B. change (codes "1"%string) with [49]. unfold witness_text. change (codes "1"%string) with [49]. cbn [app]. split.
  - unfold parse_address. destruct (is_ascii text) eqn:A; cbn [negb]; [|discriminate].
    apply is_ascii_spec in A; [|eapply Forall_impl; [|exact B]; unfold byte_ok; lia].
    destruct (has_mixed_ascii_case text) eqn:M; [discriminate|]. apply mixed_spec in M. destruct (Z.gtb_spec (len text) 90) as [|L90]; [discriminate|]. rewrite ascii_to_lower_eq.
    pose proof (split_last_spec 49 (map lower text)) as P. destruct (split_last 49 (map lower text)) as [[pf payload]|]; [|discriminate].
    destruct P as [E _]. pose proof (map_lower_ascii _ A) as AL. rewrite E in AL. apply Forall_app in AL. destruct AL as [AP AL]. assert (APY : ascii payload) by (inversion AL; assumption).
    destruct (map_lower_app_inv _ _ _ E) as [LP LPY].
    destruct (parse_prefix pf strict) eqn:PP; cbn [negb]; [|discriminate]. apply parse_prefix_spec in PP; [|apply ascii_bytes, AP]. destruct PP as [PR ST].
    destruct (Z.ltb_spec (len payload) (1 + 4 + 6)); [discriminate|]. destruct (Z.gtb_spec (len payload) (1 + 64 + 6)); [discriminate|].
    destruct (decode_payload payload APY LPY) as [_ DP]. destruct (decode_base32_chunk payload) as [[u|]|]; [|discriminate..].
    destruct (proj1 (DP u) eq_refl) as [D EP].
    destruct (bech32_verify_checked pf u) as [[v p]|] eqn:V; [|discriminate]. destruct (is_valid_version v) eqn:IV; cbn [negb]; [|discriminate].
    destruct (valid_type (parse_program v p strict)) eqn:VT; cbn [negb]; [|discriminate]. intros HH.
    assert (pf = prefix /\ v = version /\ p = program) as (-> & -> & ->) by (repeat split; congruence). clear HH.
    assert (V0 : 0 <= version).
    { unfold bech32_verify_checked in V. destruct (Z.ltb_spec (len u) 7); [discriminate|]. destruct u as [|x u]; [change (len (@nil Z)) with 0 in *; lia|]. cbn [hd] in V. cbv zeta in V.
      destruct (bech32_verify_checksum (x :: u) prefix x); [|discriminate]. assert (x = version) by congruence. subst x. inversion D as [|? ? D0 _]; subst. lia. }
    apply parse_program_spec in VT; [|exact V0]. destruct VT as [PG SV].
    apply verify_checked_spec in V; [|exact AP|exact LP|exact D|destruct PG as (_ & Q & _); lia].
    destruct V as (data & check & pad & -> & L6 & CW & Hpad & HB).
    split; [|intros S1; split; [apply ST, S1|apply SV, S1]].
    split; [exact L90|]. split; [exact A|]. split; [exact M|]. split; [exact PR|]. split; [exact PG|].
    exists data, check, payload, pad. split; [exact E|]. split; [apply spells32; auto|]. split; [exact L6|]. split; [exact CW|]. split; [exact Hpad|]. split; [exact HB|].
    rewrite EP, encode_len, len_cons, len_app in *. lia.
  - intros ((L90 & A & M & PR & PG & data & check & payload & pad & E & SP & L6 & CW & Hpad & HB & L64) & ST).
    unfold parse_address. rewrite (proj2 (is_ascii_spec text ltac:(eapply Forall_impl; [|exact B]; unfold byte_ok; lia))) by exact A. cbn [negb].
    rewrite (proj2 (mixed_spec text)) by exact M. replace (len text >? 90) with false by lia. rewrite ascii_to_lower_eq, E.
    apply spells32 in SP. destruct SP as [D EP]. rewrite split_last_app by (rewrite EP; apply no_separator, D).
    pose proof (map_lower_ascii _ A) as AL. rewrite E in AL. apply Forall_app in AL. destruct AL as [AP AL]. assert (APY : ascii payload) by (inversion AL; assumption).
    destruct (map_lower_app_inv _ _ _ E) as [LP LPY].
    rewrite (proj2 (parse_prefix_spec prefix strict (ascii_bytes _ AP))) by (split; [exact PR|intros S1; apply ST, S1]). cbn [negb].
    assert (LPL : len payload = 7 + len data) by (rewrite EP, encode_len, len_cons, len_app; lia).
    destruct HB as (HB1 & HB2 & HB3). assert (4 <= len data) by (destruct PG as (_ & Q & _); lia).
    replace (len payload <? 1 + 4 + 6) with false by lia. replace (len payload >? 1 + 64 + 6) with false by lia.
    destruct (decode_payload payload APY LPY) as [_ DP]. rewrite (proj2 (DP _) (conj D EP)).
    rewrite (proj2 (verify_checked_spec prefix (version :: data ++ check) version program AP LP D ltac:(destruct PG as (_ & Q & _); lia))).
    2:{ exists data, check, pad. repeat split; try assumption; try lia; apply CW. }
    unfold is_valid_version. replace (version <=? 16) with true by (destruct PG as (Q & _); lia). cbn [negb].
    rewrite (proj2 (parse_program_spec version program strict ltac:(destruct PG as (Q & _); lia))) by (split; [exact PG|intros S1; apply ST, S1]). reflexivity.
Qed.
