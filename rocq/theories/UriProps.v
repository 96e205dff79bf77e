(** * C87: bitcoin URIs. *)
From Coq Require Import String.
From Verif Require Import Base Bytes RadixModel RadixSpec RadixProps TextModel TextSpec TextProofs TextProofs2 TextProps AmountSpec AmountModel AmountProps AddressModel AddressProps StealthModel UriModel UriSpec UriProofs.

Lemma amount_iff v n : decode_base10 v 8 true = Some n <-> btc_amount v n.
Proof.
  split.
  - intros D. destruct (C78_grammar _ _ _ _ D) as (w & f & m & F & M). apply (C78_exact v w f m 8 n F M ltac:(lia)) in D. destruct D as [E B].
    exists w, f, m. repeat (split; [assumption|]). change (2 ^ 64) with 18446744073709551616. lia.
  - intros (w & f & m & F & M & E & B). apply (C78_exact v w f m 8 n F M ltac:(lia)). split; [exact E|]. change (2 ^ 64) with 18446744073709551616 in B. lia.
Qed.
Lemma amount_range v n : btc_amount v n -> 0 <= n < 2 ^ 64.
Proof.
  intros (w & f & m & F & M & E & B). split; [|exact B]. apply mean_digits in M. destruct M as (Fd & V & N0). pose proof (decimal_range _ Fd) as R. rewrite V in R.
  unfold exact_units in E. pose proof (Z.pow_pos_nonneg 10 (len f) ltac:(lia) ltac:(pose proof (len_nonneg f); lia)). nia.
Qed.
Lemma lower_iff s B : Forall (fun c => ~ 65 <= c <= 90) B -> map to_lower_char s = B <-> Forall2 same_letter s B.
Proof.
  assert (T : forall c y, ~ 65 <= y <= 90 -> to_lower_char c = y <-> same_letter c y).
  { intros c y N. unfold to_lower_char, same_letter, is_ascii_upper, is_between. destruct (Z.leb_spec 65 c), (Z.leb_spec c 90); cbn [andb]; lia. }
  intros FB. revert s. induction FB as [|y B N FB IH]; intros [|c s]; cbn [map].
  - split; [constructor|reflexivity].
  - split; [discriminate|intros H; inversion H].
  - split; [discriminate|intros H; inversion H].
  - split.
    + intros E. injection E as E1 E2. constructor; [apply T; assumption|apply IH; exact E2].
    + intros H. inversion H; subst. f_equal; [apply T; assumption|apply IH; assumption].
Qed.
Lemma scheme_iff s : list_eqb (ascii_to_lower s) bitcoin_scheme = true <-> is_bitcoin s.
Proof.
  rewrite keqb. apply lower_iff. vm_compute. repeat constructor; intros [H1 H2]; (apply H1; reflexivity) || (apply H2; reflexivity).
Qed.

Section C87.
Variable hash : list Z -> list Z.
Variable url_parse : list Z -> option url_parts.
Variable url_render : list Z -> list Z -> terms -> list Z.
Notation uri_from := (uri_from hash url_parse).
Notation made := (made hash url_parse).
Notation request := (request hash).
Notation is_address := (is_address hash).
Notation uri_encoded := (uri_encoded url_render).

Lemma no_empty_address : ~ is_address [].
Proof. intros [H|H]; apply H; reflexivity. Qed.
Lemma set_address_ok u t : (is_address t /\ set_address hash u t = (true, mkUri (u_scheme u) t (u_query u))) \/ (~ is_address t /\ set_address hash u t = (false, u)).
Proof.
  unfold set_address, UriSpec.is_address. destruct (payment_from_string hash t); [left; split; [left; discriminate|reflexivity]|].
  destruct (stealth_from_string hash t); [left; split; [right; discriminate|reflexivity]|]. right. split; [intros [H|H]; congruence|reflexivity].
Qed.
Lemma read_iff t u : uri_read hash url_parse t = Some u <->
  exists p a, url_parse t = Some p /\ is_bitcoin (p_scheme p) /\ p_fragment p = None /\ located hash p a /\
    read_terms (decode_query (p_params p)) (mkUri bitcoin_scheme a []) = Some u.
Proof.
  unfold uri_read, set_scheme, set_authority, set_path, located. destruct (url_parse t) as [p|]; cbn [obind]; [|split; [discriminate|intros (p & a & E & _); discriminate]].
  destruct (list_eqb (ascii_to_lower (p_scheme p)) bitcoin_scheme) eqn:Es; cbn [negb no_uri u_scheme u_address u_query].
  2:{ split; [discriminate|]. intros (p' & a & E & B & _). injection E as <-. apply scheme_iff in B. congruence. }
  pose proof Es as Eb. apply scheme_iff in Eb. apply keqb in Es. rewrite Es.
  set (u0 := mkUri bitcoin_scheme [] []).
  assert (F : forall u1, (let (ok, u2) := match p_fragment p with Some f => set_fragment u1 f | None => (true, u1) end in
     if negb ok then None else read_terms (decode_query (p_params p)) u2) = Some u <-> p_fragment p = None /\ read_terms (decode_query (p_params p)) u1 = Some u).
  { intros u1. destruct (p_fragment p); cbn; [split; [discriminate|intros [H _]; discriminate]|tauto]. }
  assert (R : forall a, (exists p0 a0, Some p = Some p0 /\ is_bitcoin (p_scheme p0) /\ p_fragment p0 = None /\ (a0 = a) /\ read_terms (decode_query (p_params p0)) (mkUri bitcoin_scheme a0 []) = Some u) <->
      p_fragment p = None /\ read_terms (decode_query (p_params p)) (mkUri bitcoin_scheme a []) = Some u).
  { intros a. split; [intros (p0 & a0 & E & _ & H1 & -> & H2); injection E as <-; auto|]. intros [H1 H2]. exists p, a. auto. }
  assert (K : forall Q : list Z -> Prop, (exists p0 a0, Some p = Some p0 /\ is_bitcoin (p_scheme p0) /\ p_fragment p0 = None /\
       ((p_authority p0 = None /\ p_path p0 = [] /\ a0 = []) \/ (p_authority p0 = Some a0 /\ p_path p0 = [] /\ is_address a0) \/ (p_authority p0 = None /\ p_path p0 = a0 /\ is_address a0)) /\
       read_terms (decode_query (p_params p0)) (mkUri bitcoin_scheme a0 []) = Some u) <->
     exists a0, ((p_authority p = None /\ p_path p = [] /\ a0 = []) \/ (p_authority p = Some a0 /\ p_path p = [] /\ is_address a0) \/ (p_authority p = None /\ p_path p = a0 /\ is_address a0)) /\
       p_fragment p = None /\ read_terms (decode_query (p_params p)) (mkUri bitcoin_scheme a0 []) = Some u).
  { intros _. split; [intros (p0 & a0 & E & _ & H1 & H2 & H3); injection E as <-; exists a0; auto|]. intros (a0 & H1 & H2 & H3). exists p, a0. auto. }
  rewrite (K (fun _ => True)). clear K R.
  destruct (p_authority p) as [au|] eqn:Ea; cbn [u0 u_address].
  - destruct (set_address_ok u0 au) as [[V E]|[V E]]; fold u0; rewrite E; cbn [negb u0 u_scheme u_query].
    + destruct (p_path p) as [|x pt] eqn:Ep.
      * cbn [negb]. rewrite F. split.
        -- intros H. exists au. split; [right; left; auto|exact H].
        -- intros (a0 & [(H & _)|[(H & _)|(H & _)]] & HF); try discriminate. injection H as <-. exact HF.
      * destruct au as [|y au]; [exfalso; exact (no_empty_address V)|]. cbn [u_address negb]. split; [discriminate|]. intros (a0 & [(H & _)|[(_ & H & _)|(H & _)]] & _); discriminate.
    + split; [discriminate|]. intros (a0 & [(H & _)|[(H & _ & H2)|(H & _)]] & _); try discriminate. injection H as <-. contradiction.
  - cbn [negb]. destruct (p_path p) as [|x pt] eqn:Ep.
    + cbn [negb]. rewrite F. split.
      * intros H. exists []. split; [left; auto|exact H].
      * intros (a0 & [(_ & _ & ->)|[(H & _)|(_ & <- & H)]] & HF); [exact HF|discriminate|]. exfalso. exact (no_empty_address H).
    + unfold u0. cbn [u_address]. destruct (set_address_ok (mkUri bitcoin_scheme [] []) (x :: pt)) as [[V E]|[V E]]; rewrite E; cbn [negb u0 u_scheme u_query].
      * rewrite F. split.
        -- intros H. exists (x :: pt). split; [right; right; auto|exact H].
        -- intros (a0 & [(_ & H & _)|[(H & _)|(_ & <- & _)]] & HF); [discriminate|discriminate|exact HF].
      * split; [discriminate|]. intros (a0 & [(_ & H & _)|[(H & _)|(_ & <- & H)]] & _); [discriminate|discriminate|contradiction].
Qed.
Lemma terms_iff ps : (forall k v, In (k, v) (decode_query ps) -> term_ok k v) <->
  (forall k, In k (map fst ps) -> ~ must_know k) /\ (forall v, last_value ps k_amount v -> exists n, btc_amount v n).
Proof.
  destruct (decode_last ps) as [S G]. split.
  - intros H. split.
    + intros k I M. apply in_last in I. destruct I as [v L]. apply G, get_in in L; [|exact S]. destruct M as [r ->]. refine (proj1 (H _ _ L _) _); [discriminate|exists r; reflexivity].
    + intros v L. apply G, get_in in L; [|exact S]. assert (N : k_amount <> []) by discriminate. pose proof (proj2 (H _ _ L N) eq_refl) as D. destruct (decode_base10 v 8 true) as [n|] eqn:E; [|congruence]. exists n. apply amount_iff, E.
  - intros [H1 H2] k v I N. apply get_in in I; [|exact S]. apply G in I. split.
    + apply H1. apply in_last. exists v. exact I.
    + intros ->. destruct (H2 v I) as [n B]. apply amount_iff in B. congruence.
Qed.
Lemma read_request t : (exists u, uri_read hash url_parse t = Some u) <-> exists p a, url_parse t = Some p /\ request p a.
Proof.
  split.
  - intros [u E]. apply read_iff in E. destruct E as (p & a & E & B & F & L & R). exists p, a. split; [exact E|]. split; [exact B|]. split; [exact F|]. split; [exact L|].
    apply (terms_iff (p_params p)). refine (proj1 (proj1 (read_terms_ok _ (mkUri bitcoin_scheme a []) (proj1 (decode_last (p_params p))) Logic.I)) _). exists u. exact R.
  - intros (p & a & E & B & F & L & T). pose proof (proj2 (terms_iff _) T) as T'. clear T. rename T' into T. destruct (proj2 (proj1 (read_terms_ok _ (mkUri bitcoin_scheme a []) (proj1 (decode_last (p_params p))) Logic.I)) T) as [u R].
    exists u. apply read_iff. exists p, a. auto.
Qed.
Lemma read_scheme t u : uri_read hash url_parse t = Some u -> u_scheme u = bitcoin_scheme.
Proof.
  intros E. apply read_iff in E. destruct E as (p & a & E & B & F & L & R). apply (read_terms_ok _ (mkUri bitcoin_scheme a []) (proj1 (decode_last (p_params p))) Logic.I) in R. apply R.
Qed.
(** A text gives a URI exactly when its components are those of a request. *)
Theorem C87_accepts t : uri_bool (uri_from t) = true <-> exists p address, url_parse t = Some p /\ request p address.
Proof.
  rewrite <- read_request. unfold UriModel.uri_from. destruct (uri_read hash url_parse t) as [u|] eqn:E.
  - split; [eauto|]. intros _. unfold uri_bool. rewrite (read_scheme t u E). cbn. apply orb_true_r.
  - split; [discriminate|intros [u H]; discriminate].
Qed.
Lemma parameter_get u k : parameter u k = match map_get k (u_query u) with Some v => v | None => [] end. Proof. reflexivity. Qed.
Lemma decode_canonical n strict : 0 <= n < 2 ^ 64 -> decode_base10 (encode_base10 n 8) 8 strict = Some n.
Proof. intros R. apply C78_round_trip; [exact R|lia]. Qed.
(** It then has the address, the amount (0 without one) and the texts of it. *)
Theorem C87_fields t p address : url_parse t = Some p -> request p address ->
  let u := uri_from t in
  u_scheme u = chars "bitcoin"%string /\ u_address u = address /\
  (forall v n, last_value (p_params p) (chars "amount"%string) v -> btc_amount v n -> uri_amount u = Some n) /\
  (~ In (chars "amount"%string) (map fst (p_params p)) -> uri_amount u = Some 0) /\
  (forall k get, (k, get) = (chars "label"%string, uri_label) \/ (k, get) = (chars "message"%string, uri_message) \/ (k, get) = (chars "r"%string, uri_r) ->
    (forall v, last_value (p_params p) k v -> get u = v) /\ (~ In k (map fst (p_params p)) -> get u = [])) /\
  (forall k, k <> chars "amount"%string -> k <> chars "label"%string -> k <> chars "message"%string -> k <> chars "r"%string -> parameter u k = []).
Proof.
  intros E Rq u. destruct (proj2 (read_request t) (ex_intro _ p (ex_intro _ address (conj E Rq)))) as [u0 R]. assert (Eu : u = u0) by (unfold u, UriModel.uri_from; rewrite R; reflexivity).
  apply read_iff in R. destruct R as (p' & a' & E' & B & F & L & R). rewrite E in E'. injection E' as <-. destruct Rq as (_ & _ & L0 & _ & _).
  assert (a' = address) as ->.
  { clear -L L0. destruct L as [(H1 & H2 & H3)|[(H1 & H2 & H3)|(H1 & H2 & H3)]], L0 as [(G1 & G2 & G3)|[(G1 & G2 & G3)|(G1 & G2 & G3)]]; try congruence. }
  destruct (decode_last (p_params p)) as [S G].
  destruct (proj2 (read_terms_ok _ (mkUri bitcoin_scheme address []) S Logic.I) _ R) as (J1 & J2 & J3 & J4 & J5). rewrite <- Eu in *. clear Eu R. cbn [u_scheme u_address u_query] in *.
  assert (M : forall k, known k -> ~ In k (map fst (p_params p)) -> map_get k (u_query u) = None).
  { intros k Kn N. rewrite J4; [reflexivity|]. right. destruct (map_get k (decode_query (p_params p))) eqn:Q; [|reflexivity]. exfalso. apply N, in_last. eexists. apply G, Q. }
  split; [exact J1|]. split; [exact J2|]. split; [|split; [|split]].
  - intros v n Lv Bv. apply G in Lv. destruct (J5 k_amount v (or_introl eq_refl) Lv) as (w & (n' & D & ->) & Q). apply amount_iff in Bv. assert (n' = n) as -> by congruence.
    unfold uri_amount. rewrite parameter_get, Q. apply decode_canonical, (amount_range v), amount_iff, D.
  - intros N. unfold uri_amount. rewrite parameter_get, (M k_amount (or_introl eq_refl) N). reflexivity.
  - intros k get H. assert (Kk : known k /\ k <> k_amount /\ get u = parameter u k).
    { unfold known. destruct H as [H|[H|H]]; injection H as -> ->; (split; [auto|split; [discriminate|reflexivity]]). }
    destruct Kk as (Kn & Na & Eg). rewrite Eg, parameter_get. split.
    + intros v Lv. apply G in Lv. destruct (J5 k v Kn Lv) as (w & St & Q). rewrite Q. unfold stored in St. rewrite (keqb_ne _ _ Na) in St. exact St.
    + intros N. rewrite (M k Kn N). reflexivity.
  - intros k N1 N2 N3 N4. rewrite parameter_get, J4; [reflexivity|]. left. intros [H|[H|[H|H]]]; contradiction.
Qed.

(** ** Objects *)
Definition inv (u : uri) : Prop :=
  (u_scheme u = [] \/ u_scheme u = bitcoin_scheme) /\ (u_address u = [] \/ is_address (u_address u)) /\ sorted (u_query u) /\
  (forall k v, map_get k (u_query u) = Some v -> known k /\ (k = k_amount -> exists n, 0 <= n < 2 ^ 64 /\ v = encode_base10 n 8)).
Lemma inv_term u k v : inv u -> known k -> (k = k_amount -> exists n, 0 <= n < 2 ^ 64 /\ v = encode_base10 n 8) -> inv (set_term u k v).
Proof.
  intros (I1 & I2 & I3 & I4) Kn A. split; [exact I1|]. split; [exact I2|]. split; [apply set_sorted; exact I3|]. cbn [set_term u_query]. intros q w H.
  destruct (list_eq_dec Z.eq_dec k q) as [<-|N]; [rewrite get_set_same in H; injection H as <-; auto|]. rewrite get_set_other in H by assumption. auto.
Qed.
Lemma inv_parameter u k v : inv u -> inv (snd (set_parameter u k v)).
Proof.
  intros Iu. unfold set_parameter, set_amount_text. destruct (list_eqb k k_amount) eqn:E.
  - destruct (decode_base10 v 8 true) as [n|] eqn:D; [|exact Iu]. apply inv_term; [exact Iu|left; reflexivity|]. intros _. exists n. split; [apply (amount_range v), amount_iff, D|reflexivity].
  - cbn [snd]. destruct (list_eqb k k_label) eqn:E1; [apply inv_term; [exact Iu|unfold known; auto|discriminate]|].
    destruct (list_eqb k k_message) eqn:E2; [apply inv_term; [exact Iu|unfold known; auto|discriminate]|].
    destruct (list_eqb k k_r) eqn:E3; [apply inv_term; [exact Iu|unfold known; auto|discriminate]|exact Iu].
Qed.
Lemma inv_terms m : forall u u', inv u -> read_terms m u = Some u' -> inv u'.
Proof.
  induction m as [|[k v] m IH]; intros u u' Iu R; [injection R as <-; exact Iu|]. destruct k as [|c k]; [exact (IH u u' Iu R)|].
  change (read_terms ((c :: k, v) :: m) u) with (let (ok, u') := set_parameter u (c :: k) v in if ok then read_terms m u' else None) in R.
  pose proof (inv_parameter u (c :: k) v Iu) as P. destruct (set_parameter u (c :: k) v) as [ok u1]. destruct ok; [|discriminate]. exact (IH u1 u' P R).
Qed.
Lemma inv_address u t : inv u -> inv (snd (set_address hash u t)).
Proof. intros Iu. destruct (set_address_ok u t) as [[V ->]|[V ->]]; [|exact Iu]. destruct Iu as (I1 & I2 & I3 & I4). split; [exact I1|]. split; [right; exact V|auto]. Qed.
Lemma made_inv u : made u -> inv u.
Proof.
  assert (I0 : inv no_uri) by (split; [left; reflexivity|split; [left; reflexivity|split; [exact Logic.I|intros k v H; discriminate]]]).
  induction 1; try exact I0.
  - unfold UriModel.uri_from. destruct (uri_read hash url_parse t) as [u|] eqn:E; [|exact I0]. apply read_iff in E. destruct E as (p & a & _ & _ & _ & L & R). refine (inv_terms _ _ _ _ R).
    split; [right; reflexivity|]. split; [|split; [exact Logic.I|intros k v H; discriminate]]. destruct L as [(_ & _ & ->)|[(_ & _ & V)|(_ & _ & V)]]; [left; reflexivity|right; exact V..].
  - apply inv_term; [assumption|left; reflexivity|]. intros _. exists n. auto.
  - apply inv_term; [assumption|unfold known; auto|discriminate].
  - apply inv_term; [assumption|unfold known; auto|discriminate].
  - apply inv_term; [assumption|unfold known; auto|discriminate].
  - apply inv_address; assumption.
  - destruct IHmade as (I1 & I2 & I3 & I4). split; [exact I1|]. split; [right; assumption|auto].
  - destruct IHmade as (I1 & I2 & I3 & I4). split; [exact I1|]. split; [right; assumption|auto].
  - unfold set_scheme. destruct (list_eqb s bitcoin_scheme) eqn:E; [|assumption]. apply keqb in E. subst s. destruct IHmade as (I1 & I2 & I3 & I4). split; [right; reflexivity|auto].
  - unfold set_path. destruct (u_address u); [apply inv_address|]; assumption.
  - unfold set_authority, set_path. destruct (u_address u); [apply inv_address|]; assumption.
  - apply inv_parameter; assumption.
Qed.
(** The amount is always set (never the unset local of the getter) and in range;
    setters set what they name and nothing else. *)
Theorem C87_amount u : made u -> exists n, 0 <= n < 2 ^ 64 /\ uri_amount u = Some n.
Proof.
  intros M. apply made_inv in M. destruct M as (_ & _ & _ & Q). unfold uri_amount. rewrite parameter_get. destruct (map_get k_amount (u_query u)) as [v|] eqn:E.
  - destruct (Q _ _ E) as [_ A]. destruct (A eq_refl) as (n & R & ->). exists n. split; [exact R|apply decode_canonical, R].
  - exists 0. split; [lia|reflexivity].
Qed.
Lemma other_parameter u k q v : inv u -> k <> q -> parameter (set_term u k v) q = parameter u q.
Proof. intros (_ & _ & S & _) N. rewrite !parameter_get. cbn [set_term u_query]. rewrite get_set_other by assumption. reflexivity. Qed.
Lemma same_parameter u k v : parameter (set_term u k v) k = v.
Proof. rewrite parameter_get. cbn [set_term u_query]. rewrite get_set_same. reflexivity. Qed.
Theorem C87_setters u : made u ->
  (forall n, 0 <= n < 2 ^ 64 -> let w := set_amount u n in
    uri_amount w = Some n /\ uri_label w = uri_label u /\ uri_message w = uri_message u /\ uri_r w = uri_r u /\ u_address w = u_address u) /\
  (forall v, let w := set_label u v in
    uri_amount w = uri_amount u /\ uri_label w = v /\ uri_message w = uri_message u /\ uri_r w = uri_r u /\ u_address w = u_address u) /\
  (forall v, let w := set_message u v in
    uri_amount w = uri_amount u /\ uri_label w = uri_label u /\ uri_message w = v /\ uri_r w = uri_r u /\ u_address w = u_address u) /\
  (forall v, let w := set_r u v in
    uri_amount w = uri_amount u /\ uri_label w = uri_label u /\ uri_message w = uri_message u /\ uri_r w = v /\ u_address w = u_address u) /\
  (forall t, let (ok, w) := set_address hash u t in
    (ok = true <-> is_address t) /\ u_address w = (if ok then t else u_address u) /\
    uri_amount w = uri_amount u /\ uri_label w = uri_label u /\ uri_message w = uri_message u /\ uri_r w = uri_r u).
Proof.
  intros M. apply made_inv in M. unfold uri_amount, uri_label, uri_message, uri_r. cbv zeta. unfold set_amount, set_label, set_message, set_r. split.
  { intros n R. rewrite same_parameter, !other_parameter by (exact M || discriminate). rewrite decode_canonical by exact R. auto 10. }
  do 3 (split; [intros v; rewrite same_parameter, !other_parameter by (exact M || discriminate); auto 10|]).
  intros t. destruct (set_address_ok u t) as [[V E]|[V E]]; rewrite E; [|split; [split; [discriminate|contradiction]|auto 10]]. split; [split; auto|]. auto 10.
Qed.

(** ** Text round trip *)
Lemma address_base58 t : is_address t -> Forall (fun c => In c alphabet58) t.
Proof.
  intros V. apply C38_accepts. intros N. destruct V as [V|V]; apply V; [unfold payment_from_string, decode_base58_array|unfold stealth_from_string]; rewrite N; reflexivity.
Qed.
Lemma sorted_above a : forall k v b, sorted (a ++ (k, v) :: b) -> above k b.
Proof. induction a as [|[k0 v0] a IH]; intros k v b S; cbn in S; [apply S|]. apply (IH k v b), S. Qed.
Lemma decode_sorted m : sorted m -> decode_query m = m.
Proof.
  intros S. destruct (decode_last m) as [S' G]. apply sorted_ext; [exact S'|exact S|]. intros k.
  assert (H : forall v, map_get k (decode_query m) = Some v <-> map_get k m = Some v).
  { intros v. rewrite G, get_in by exact S. split.
    - intros (a & b & -> & _). apply in_app_iff. right. left. reflexivity.
    - intros I. apply in_split in I. destruct I as (a & b & ->). exists a, b. split; [reflexivity|]. apply sorted_above in S. intros J. apply in_map_iff in J. destruct J as ([q w] & E & J).
      cbn in E. subst q. pose proof (above_in _ _ _ _ S J) as T. rewrite lt_irrefl in T. discriminate. }
  destruct (map_get k m) as [v|] eqn:E; [apply H; reflexivity|]. destruct (map_get k (decode_query m)) as [v|]; [|reflexivity]. symmetry. apply H. reflexivity.
Qed.
Lemma round u : url_law url_parse url_render -> inv u -> uri_from (uri_encoded u) = mkUri bitcoin_scheme (u_address u) (u_query u).
Proof.
  intros Law (I1 & I2 & I3 & I4). unfold UriModel.uri_encoded.
  assert (Ep : url_parse (url_render bitcoin_scheme (u_address u) (u_query u)) = Some (mkParts bitcoin_scheme None (u_address u) None (u_query u))).
  { apply Law. destruct I2 as [->|V]; [constructor|]. exact (address_base58 _ V). }
  assert (T : forall k v, In (k, v) (u_query u) -> term_ok k v).
  { intros k v I. apply get_in in I; [|exact I3]. destruct (I4 k v I) as [Kn A]. intros _. split; [apply known_free, Kn|]. intros ->. destruct (A eq_refl) as (n & R & ->). rewrite decode_canonical by exact R. discriminate. }
  destruct (read_terms_ok (u_query u) (mkUri bitcoin_scheme (u_address u) []) I3 Logic.I) as [Ex All]. destruct (proj2 Ex T) as [u' Eu].
  assert (R : uri_read hash url_parse (url_render bitcoin_scheme (u_address u) (u_query u)) = Some u').
  { apply read_iff. exists (mkParts bitcoin_scheme None (u_address u) None (u_query u)), (u_address u). split; [exact Ep|]. cbn [p_scheme p_fragment p_params].
    split; [apply scheme_iff; reflexivity|]. split; [reflexivity|]. split; [|rewrite decode_sorted by exact I3; exact Eu]. unfold located. cbn [p_authority p_path].
    destruct I2 as [->|V]; [left; auto|right; right; auto]. }
  unfold UriModel.uri_from. rewrite R. destruct (All u' Eu) as (J1 & J2 & J3 & J4 & J5). destruct u' as [s a q]. cbn [u_scheme u_address u_query] in *. f_equal; [exact J1|exact J2|].
  apply sorted_ext; [exact J3|exact I3|]. intros k. destruct (map_get k (u_query u)) as [v|] eqn:E.
  - destruct (I4 k v E) as [Kn A]. destruct (J5 k v Kn E) as (w & St & Q). rewrite Q. f_equal. unfold stored in St. destruct (list_eqb k k_amount) eqn:Ek; [|exact St].
    apply keqb in Ek. destruct (A Ek) as (n & Rn & ->). destruct St as (n' & D & ->). rewrite decode_canonical in D by exact Rn. injection D as <-. reflexivity.
  - rewrite J4 by (right; exact E). reflexivity.
Qed.
Lemma terms_eqb_iff a : forall b, terms_eqb a b = true <-> a = b.
Proof.
  unfold terms_eqb. induction a as [|[k v] a IH]; intros [|[k' v'] b]; cbn [length Nat.eqb combine forallb fst snd]; try (split; [discriminate|congruence]); [split; reflexivity|].
  specialize (IH b). rewrite !andb_true_iff, !keqb in *. split.
  - intros (L & (E1 & E2) & F). f_equal; [congruence|]. apply IH. auto.
  - intros E. injection E as -> -> E. apply IH in E. tauto.
Qed.
Lemma uri_eqb_iff a b : uri_eqb a b = true <-> a = b.
Proof. unfold uri_eqb. rewrite !andb_true_iff, !keqb, terms_eqb_iff. destruct a, b; cbn. split; [intros [[-> ->] ->]; reflexivity|intros E; injection E as -> -> ->; auto]. Qed.
(** The text of any object gives the same request back; equal texts are equal objects. *)
Theorem C87_round_trip u : url_law url_parse url_render -> made u ->
  let w := uri_from (uri_encoded u) in
  uri_bool w = true /\ u_address w = u_address u /\ uri_amount w = uri_amount u /\ uri_label w = uri_label u /\ uri_message w = uri_message u /\ uri_r w = uri_r u /\
  uri_encoded w = uri_encoded u /\ (u_scheme u <> [] -> uri_eqb w u = true).
Proof.
  intros Law M w. apply made_inv in M. unfold w. rewrite (round u Law M). unfold uri_amount, uri_label, uri_message, uri_r. rewrite !parameter_get. unfold UriModel.uri_encoded. cbn [u_scheme u_address u_query].
  split; [unfold uri_bool; cbn [u_scheme]; apply orb_true_r|]. repeat (split; [reflexivity|]). intros N. destruct M as ([E|E] & _); [contradiction|]. apply uri_eqb_iff. destruct u; cbn in *; congruence.
Qed.
Theorem C87_equality_partial u v : url_law url_parse url_render -> made u -> made v -> u_scheme u = u_scheme v ->
  uri_eqb u v = true <-> uri_encoded u = uri_encoded v.
Proof.
  intros Law Mu Mv E. apply made_inv in Mu. apply made_inv in Mv. rewrite uri_eqb_iff. split; [intros ->; reflexivity|]. intros H.
  pose proof (round u Law Mu) as Ru. rewrite H, (round v Law Mv) in Ru. destruct u, v. cbn in *. congruence.
Qed.
(** Equal texts do not make equal objects: one has read its scheme. *)
Theorem C87_equality_refuted : ~ (forall u v, made u -> made v -> uri_encoded u = uri_encoded v -> uri_eqb u v = true).
Proof.
  intros H. set (u := set_label no_uri [97]). specialize (H u (snd (set_scheme u bitcoin_scheme))).
  assert (E : uri_eqb u (snd (set_scheme u bitcoin_scheme)) = true); [|vm_compute in E; discriminate]. apply H.
  - apply made_label, made_default.
  - apply made_scheme, made_label, made_default.
  - reflexivity.
Qed.
End C87.
Print Assumptions C87_accepts.
Print Assumptions C87_fields.
Print Assumptions C87_amount.
Print Assumptions C87_setters.
Print Assumptions C87_round_trip.
Print Assumptions C87_equality_partial.
Print Assumptions C87_equality_refuted.

(** ** Satisfiability: a toy library satisfying the law, and requests *)
Fixpoint toy_dec (fuel : nat) (l : list Z) : list (list Z) :=
  match fuel, l with S f, n :: r => firstn (Z.to_nat n) r :: toy_dec f (skipn (Z.to_nat n) r) | _, _ => [] end.
Definition toy_enc (ss : list (list Z)) : list Z := flat_map (fun s => len s :: s) ss.
Fixpoint toy_pairs (ss : list (list Z)) : terms := match ss with k :: v :: r => (k, v) :: toy_pairs r | _ => [] end.
Definition toy_render (scheme path : list Z) (ps : terms) : list Z := toy_enc (scheme :: path :: flat_map (fun p => [fst p; snd p]) ps).
Definition toy_parse (l : list Z) : option url_parts :=
  match toy_dec (length l) l with s :: p :: r => Some (mkParts s None p None (toy_pairs r)) | _ => None end.
Lemma toy_ok ss : forall f, (length ss <= f)%nat -> toy_dec f (toy_enc ss) = ss.
Proof.
  induction ss as [|s ss IH]; intros f F; [destruct f; reflexivity|]. destruct f as [|f]; [cbn in F; lia|]. cbn [toy_enc flat_map toy_dec app]. unfold len. rewrite Nat2Z.id.
  rewrite firstn_app, skipn_app, Nat.sub_diag, firstn_all, skipn_all. cbn [firstn skipn app]. rewrite app_nil_r. f_equal. apply IH. cbn in F. lia.
Qed.
Lemma toy_len ss : (length ss <= length (toy_enc ss))%nat.
Proof. induction ss as [|s ss IH]; cbn [toy_enc flat_map length app]; [lia|]. rewrite app_length. unfold toy_enc in IH. lia. Qed.
Lemma toy_law : url_law toy_parse toy_render.
Proof.
  intros path ps _. unfold toy_parse, toy_render. rewrite toy_ok by apply toy_len. f_equal. f_equal. induction ps as [|[k v] ps IH]; [reflexivity|]. cbn [flat_map app toy_pairs fst snd]. f_equal. exact IH.
Qed.
Example C87_ex : let hash := fun x : list Z => repeat (Z.land (fold_left Z.lxor x 7) 255) 32 in
  let a := payment_encoded (payment_of hash (repeat 3 20) 0) in
  let text := fun ps => toy_render (chars "bitCOIN"%string) a ps in
  let u := uri_from hash toy_parse (text [(chars "amount"%string, chars "9"%string); (chars "label"%string, chars "x y"%string); (chars "amount"%string, chars "20.30"%string)]) in
  url_law toy_parse toy_render /\ made hash toy_parse u /\ uri_bool u = true /\ u_address u = a /\ uri_amount u = Some 2030000000 /\ uri_label u = chars "x y"%string /\
  uri_bool (uri_from hash toy_parse (text [(chars "req-pop"%string, [])])) = false /\
  uri_bool (uri_from hash toy_parse (text [(chars "amount"%string, chars "0.000000001"%string)])) = false /\
  uri_bool (uri_from hash toy_parse (toy_render (chars "bitcoin"%string) (49 :: a) [])) = false.
Proof. cbv zeta. split; [exact toy_law|]. split; [apply made_text|]. vm_compute. repeat split. Qed.
