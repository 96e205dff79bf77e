(** * C81: stealth payments. *)
From Coq Require Import String.
From Verif Require Import Base Bytes MathModel MathProofs RadixModel AddressModel AddressProofs3 AddressProps EcModel HdProofs HdProps OrderPrime OpModel OpProps OpSpec PatternModel PatternProps BinModel BinSpec BinProps BitStreamSpec BitStreamProofs StealthModel StealthSpec.

Section Stealth.
Variable c : curve.
Variable sha256 hash sha512 : list Z -> list Z.
Variable hmac256 : list Z -> list Z -> list Z.
Variable short_hash : list Z -> list Z.
Hypothesis Hc : curve_ok c.
Hypothesis hash_ok : forall x, bytes_ok (hash x) /\ len (hash x) = 32.
Hypothesis sha512_ok : forall x, bytes_ok (sha512 x) /\ len (sha512 x) = 64.

Local Notation create_stealth_script := (create_stealth_script c hash sha512).
Local Notation create_ephemeral_key := (create_ephemeral_key c hmac256).

(** ** The ephemeral key: the first of 255 candidates with an even public key *)
Definition candidate (seed : list Z) (n : Z) : list Z := hmac256 (n :: seed) (chars "Stealth seed"%string).
Definition even_pair (secret : list Z) : Prop := exists p, secret_to_public c secret = Some p /\ hd 0 p = 2.
Lemma ephemeral_loop_ok seed : forall f n,
  match ephemeral_loop c hmac256 f n seed with
  | Some k => exists m, n <= m < n + Z.of_nat f /\ k = candidate seed m /\ even_pair k /\ forall j, n <= j < m -> ~ even_pair (candidate seed j)
  | None => forall j, n <= j < n + Z.of_nat f -> ~ even_pair (candidate seed j)
  end.
Proof.
  induction f as [|f IH]; intros n; [cbn [ephemeral_loop]; intros j Hj; lia|]. cbn [ephemeral_loop]. fold (candidate seed n).
  assert (D : (if match secret_to_public c (candidate seed n) with Some p => is_even_key p | None => false end then even_pair (candidate seed n) else ~ even_pair (candidate seed n)) /\
    ephemeral_loop c hmac256 (S f) n seed = if match secret_to_public c (candidate seed n) with Some p => is_even_key p | None => false end then Some (candidate seed n) else ephemeral_loop c hmac256 f (n + 1) seed).
  { cbn [ephemeral_loop]. fold (candidate seed n). unfold even_pair, is_even_key. destruct (secret_to_public c (candidate seed n)) as [p|] eqn:E.
    - destruct (Z.eqb_spec (hd 0 p) 2) as [Q|Q]; split; try reflexivity; [exists p; auto|]. intros (q & Eq & Hq). injection Eq as <-. contradiction.
    - split; [|reflexivity]. intros (q & Eq & _). discriminate. }
  destruct D as [D E]. cbn [ephemeral_loop] in E. fold (candidate seed n) in E. rewrite E. clear E.
  destruct (match secret_to_public c (candidate seed n) with Some p => is_even_key p | None => false end).
  - exists n. split; [lia|]. split; [reflexivity|]. split; [exact D|]. intros j Hj. lia.
  - specialize (IH (n + 1)). destruct (ephemeral_loop c hmac256 f (n + 1) seed) as [k|].
    + destruct IH as (m & Hm & -> & Ev & Nj). exists m. split; [lia|]. split; [reflexivity|]. split; [exact Ev|]. intros j Hj. destruct (Z.eq_dec j n) as [->|]; [exact D|apply Nj; lia].
    + intros j Hj. destruct (Z.eq_dec j n) as [->|]; [exact D|apply IH; lia].
Qed.
Theorem C81_ephemeral seed :
  match create_ephemeral_key seed with
  | Some k => exists n, 0 <= n < 255 /\ k = candidate seed n /\ even_pair k /\ forall j, 0 <= j < n -> ~ even_pair (candidate seed j)
  | None => forall j, 0 <= j < 255 -> ~ even_pair (candidate seed j)
  end.
Proof. exact (ephemeral_loop_ok seed 255 0). Qed.

(** ** The script *)
Lemma push_data_stealth d : bytes_ok d -> 32 <= len d <= 80 ->
  is_stealth_script (to_pay_null_data d) = true /\ data (nth_op 1 (to_pay_null_data d)) = d /\
  output_pattern (to_pay_null_data d) = pay_null_data /\ script_to_data false (to_pay_null_data d) = 106 :: push_form d.
Proof.
  intros B L. destruct (C63_null_data d B ltac:(lia)) as (Q1 & _ & Q3). destruct (push_eq d B ltac:(lia)) as [E _].
  assert (M : minimal_opcode_from_data d = nominal_opcode_from_data d).
  { unfold minimal_opcode_from_data, nominal_opcode_from_data. destruct d as [|x [|y d]]; try reflexivity. change (len [x]) with 1 in L. lia. }
  assert (Cm : core_minimal_push (nominal_opcode_from_data d) d && negb (list_eqb d [0]) = true).
  { assert (N : d <> [0]) by (intros ->; change (len [0]) with 1 in L; lia). rewrite <- C15_is_minimal_push_matches_reference by (try assumption; lia).
    unfold is_minimal_push. cbn [code data]. rewrite M, Z.eqb_refl. cbn [andb]. destruct (list_eqb d [0]) eqn:X; [apply list_eqb_iff in X; contradiction|reflexivity]. }
  rewrite Cm in Q3. split; [|split; [|split; [exact Q3|exact Q1]]].
  - unfold is_stealth_script, to_pay_null_data. destruct (Z.gtb_spec (len d) 80); [lia|]. cbn [is_pay_null_data_pattern nth_op nth code data]. unfold nth_op. cbn [nth]. rewrite E. cbn [data]. unfold is_minimal_push. cbn [code data opc]. rewrite M, Z.eqb_refl.
    destruct (Z.leb_spec (len d) 80); [|lia]. rewrite Z.geb_leb. destruct (Z.leb_spec 32 (len d)); [|lia]. rewrite Z.eqb_refl. reflexivity.
  - unfold to_pay_null_data. destruct (Z.gtb_spec (len d) 80); [lia|]. unfold nth_op. cbn [nth]. rewrite E. reflexivity.
Qed.
Lemma filter_match filter l s : holds filter l -> len l < 2 ^ 64 ->
  is_stealth_script s = true ->
  match to_stealth_prefix hash s with
  | Some out => match binary_from_data (b_bits filter) (le_bytes 4 out) with Some b => binary_equal filter b | None => false end
  | None => false
  end = true <-> l = prefix_bits hash s (len l).
Proof.
  intros Hf L St. unfold to_stealth_prefix. rewrite St. destruct (hash4 hash hash_ok (script_to_data false s)) as [B4 L4].
  pose proof (le_bytes_value _ B4) as E. rewrite L4 in E. rewrite E. pose proof (proj1 Hf) as Nb. rewrite Nb. pose proof (len_nonneg l) as L0.
  destruct (C80_data (len l) (firstn 4 (hash (script_to_data false s))) ltac:(lia) B4) as (b & -> & Hb). fold (prefix_bits hash s (len l)) in Hb.
  rewrite (C80_equal filter b l _ Hf Hb) by (try exact L; unfold prefix_bits; rewrite bit_slice_len by exact L0; exact L). reflexivity.
Qed.

(** The search: the first nonce, in order and wrapping, whose script matches. *)
Section Mine.
Variables (filter : binary) (front : list Z).
Local Notation one n := (mine_one hash filter front (wrap u32 n)).
Lemma wrap_add a b : wrap u32 (wrap u32 a + b) = wrap u32 (a + b).
Proof. unfold wrap. cbn [sg bits u32]. apply Z.add_mod_idemp_l. lia. Qed.
Lemma mine_ok p : forall n,
  match mine hash p filter front (wrap u32 n) with
  | inl r => exists k s, r = Some s /\ 0 <= k < Z.pos p /\ one (n + k) = Some s
  | inr n' => n' = wrap u32 (n + Z.pos p) /\ forall k, 0 <= k < Z.pos p -> one (n + k) = None
  end.
Proof.
  assert (T : forall q, (forall n,
    match mine hash q filter front (wrap u32 n) with
    | inl r => exists k s, r = Some s /\ 0 <= k < Z.pos q /\ one (n + k) = Some s
    | inr n' => n' = wrap u32 (n + Z.pos q) /\ forall k, 0 <= k < Z.pos q -> one (n + k) = None
    end) -> forall n,
    match match mine hash q filter front (wrap u32 n) with inr n' => mine hash q filter front n' | r => r end with
    | inl r => exists k s, r = Some s /\ 0 <= k < 2 * Z.pos q /\ one (n + k) = Some s
    | inr n' => n' = wrap u32 (n + 2 * Z.pos q) /\ forall k, 0 <= k < 2 * Z.pos q -> one (n + k) = None
    end).
  { intros q IH n. pose proof (IH n) as Q1. destruct (mine hash q filter front (wrap u32 n)) as [r|n1].
    - destruct Q1 as (k & s & -> & Hk & O1). exists k, s. split; [reflexivity|]. split; [lia|exact O1].
    - destruct Q1 as [-> N1]. pose proof (IH (n + Z.pos q)) as Q2. destruct (mine hash q filter front (wrap u32 (n + Z.pos q))) as [r|n2].
      + destruct Q2 as (k & s & -> & Hk & O1). exists (Z.pos q + k), s. split; [reflexivity|]. split; [lia|]. rewrite Z.add_assoc. exact O1.
      + destruct Q2 as [-> N2]. split; [f_equal; lia|]. intros k Hk. destruct (Z.lt_ge_cases k (Z.pos q)) as [K|K]; [apply N1; lia|].
        replace (n + k) with (n + Z.pos q + (k - Z.pos q)) by lia. apply N2. lia. }
  induction p as [q IH|q IH|]; intros n.
  - cbn [mine]. destruct (one n) as [s|] eqn:E.
    + exists 0, s. split; [reflexivity|]. split; [lia|]. rewrite Z.add_0_r. exact E.
    + rewrite wrap_add. pose proof (T q IH (n + 1)) as Q. destruct (match mine hash q filter front (wrap u32 (n + 1)) with inr n' => mine hash q filter front n' | r => r end) as [r|n'].
      * destruct Q as (k & s & -> & Hk & O1). exists (1 + k), s. split; [reflexivity|]. split; [lia|]. rewrite Z.add_assoc. exact O1.
      * destruct Q as [-> Nq]. split; [f_equal; lia|]. intros k Hk. destruct (Z.eq_dec k 0) as [->|K]; [rewrite Z.add_0_r; exact E|]. replace (n + k) with (n + 1 + (k - 1)) by lia. apply Nq. lia.
  - cbn [mine]. pose proof (T q IH n) as Q. destruct (match mine hash q filter front (wrap u32 n) with inr n' => mine hash q filter front n' | r => r end) as [r|n'].
    * destruct Q as (k & s & -> & Hk & O1). exists k, s. split; [reflexivity|]. split; [lia|exact O1].
    * destruct Q as [-> Nq]. split; [f_equal; lia|]. intros k Hk. apply Nq. lia.
  - cbn [mine]. destruct (one n) as [s|] eqn:E.
    + exists 0, s. split; [reflexivity|]. split; [lia|]. rewrite Z.add_0_r. exact E.
    + split; [apply wrap_add|]. intros k Hk. replace k with 0 by lia. rewrite Z.add_0_r. exact E.
Qed.
End Mine.
(** The pad and the nonce that is never tried. *)
Definition pad (seed : list Z) : list Z := firstn (Z.to_nat (nth 63 (sha512 seed) 0 mod 44)) (sha512 seed).
Definition skipped_nonce (seed : list Z) : Z := le_value (firstn 4 (skipn 44 (sha512 seed))).
Definition nonce_script (point seed : list Z) (n : Z) : script := to_pay_null_data (tl point ++ pad seed ++ le_bytes 4 n).
Lemma public_point secret point : secret_to_public c secret = Some point -> 0 < be_value secret < order /\ point = mulG c (be_value secret) /\
  length point = 33%nat /\ bytes_ok point /\ (hd 0 point = 2 \/ hd 0 point = 3) /\ dlog c point = Some (be_value secret).
Proof.
  unfold secret_to_public, verify_secret. destruct (_ && _) eqn:V; [|discriminate]. intros E. injection E as <-. apply andb_true_iff in V. rewrite !Z.ltb_lt in V.
  split; [exact V|]. split; [reflexivity|]. destruct Hc as [C1 _]. destruct (C1 _ V) as (A1 & A2 & A3 & A4). auto.
Qed.
Lemma Forall_first {A} (P : A -> Prop) n l : Forall P l -> Forall P (firstn n l).
Proof. intros F. rewrite Forall_forall in *. intros x I. apply F. rewrite <- (firstn_skipn n l). apply in_or_app. left. exact I. Qed.
Lemma Forall_skip {A} (P : A -> Prop) n l : Forall P l -> Forall P (skipn n l).
Proof. intros F. rewrite Forall_forall in *. intros x I. apply F. rewrite <- (firstn_skipn n l). apply in_or_app. right. exact I. Qed.
Lemma nonce_data point secret seed n : secret_to_public c secret = Some point ->
  len (tl point) = 32 /\ bytes_ok (tl point) /\ bytes_ok (tl point ++ pad seed ++ le_bytes 4 n) /\ 36 <= len (tl point ++ pad seed ++ le_bytes 4 n) <= 79.
Proof.
  intros P. destruct (public_point _ _ P) as (_ & _ & L & B & _). destruct point as [|x pt]; [discriminate|]. cbn [tl]. cbn [length] in L. inversion B as [|? ? _ Bp]; subst.
  destruct (sha512_ok seed) as [B5 L5]. assert (Lp : 0 <= len (pad seed) <= 43).
  { unfold pad, len. rewrite firstn_length. pose proof (Z.mod_pos_bound (nth 63 (sha512 seed) 0) 44 ltac:(lia)). lia. }
  split; [unfold len; lia|]. split; [exact Bp|]. split; [apply Forall_app; split; [exact Bp|]; apply Forall_app; split; [apply Forall_first; exact B5|apply le_bytes_ok]|].
  rewrite !len_app. unfold len at 1 3 4 6. rewrite !le_bytes_length. lia.
Qed.
(** Creating the script: it fails for a secret without an even public key and
    when no nonce but one gives the filter; otherwise the script carries the
    key and its hash begins with the filter. *)
Theorem C81_script secret seed filter l : holds filter l -> len l < 2 ^ 64 ->
  match create_stealth_script secret filter seed with
  | Some s => exists point n, secret_to_public c secret = Some point /\ hd 0 point = 2 /\ 0 <= n < 2 ^ 32 /\ n <> skipped_nonce seed /\
      s = nonce_script point seed n /\ stealth_form s (tl point) (pad seed ++ le_bytes 4 n) /\ len (tl point ++ pad seed ++ le_bytes 4 n) <= 80 /\
      l = prefix_bits hash s (len l) /\ extract_ephemeral_key s = Some point /\ extract_unsigned_key s = Some (tl point) /\
      to_stealth_prefix hash s = Some (le_value (firstn 4 (hash (script_to_data false s))))
  | None => forall point n, secret_to_public c secret = Some point -> hd 0 point = 2 -> 0 <= n < 2 ^ 32 -> n <> skipped_nonce seed ->
      l <> prefix_bits hash (nonce_script point seed n) (len l)
  end.
Proof.
  intros Hf L. unfold StealthModel.create_stealth_script. cbv zeta. fold (pad seed). fold (skipped_nonce seed).
  destruct (secret_to_public c secret) as [point|] eqn:P; [|intros point n Q; discriminate]. unfold is_even_key. destruct (Z.eqb_spec (hd 0 point) 2) as [Ev|Ev]; cbn [negb]; [|intros q n Q H2; injection Q as <-; contradiction].
  assert (Rs : 0 <= skipped_nonce seed < 2 ^ 32).
  { unfold skipped_nonce. destruct (sha512_ok seed) as [B5 L5]. assert (B : bytes_ok (firstn 4 (skipn 44 (sha512 seed)))) by (apply Forall_first, Forall_skip, B5).
    pose proof (le_value_range _ B) as R. replace (len (firstn 4 (skipn 44 (sha512 seed)))) with 4 in R by (unfold len in *; rewrite firstn_length, skipn_length; lia). exact R. }
  assert (Step : forall n, 0 <= n < 2 ^ 32 -> mine_one hash filter (tl point ++ pad seed) n = if list_eq_dec Bool.bool_dec l (prefix_bits hash (nonce_script point seed n) (len l)) then Some (nonce_script point seed n) else None).
  { intros n Hn. destruct (nonce_data point secret seed n P) as (_ & _ & Bd & Ld). unfold mine_one. cbv zeta. rewrite <- app_assoc. fold (nonce_script point seed n).
    destruct (push_data_stealth _ Bd ltac:(lia)) as (St & _). fold (nonce_script point seed n) in St. pose proof (filter_match filter l _ Hf L St) as M.
    destruct (to_stealth_prefix hash (nonce_script point seed n)) as [out|]; [destruct (binary_from_data (b_bits filter) (le_bytes 4 out)) as [b|]; [destruct (binary_equal filter b)|]|];
      destruct (list_eq_dec Bool.bool_dec l (prefix_bits hash (nonce_script point seed n) (len l))) as [E|E]; try reflexivity; try (apply M in E; discriminate E); destruct E; apply M; reflexivity. }
  pose proof (mine_ok filter (tl point ++ pad seed) (2 ^ 32 - 1) (skipped_nonce seed + 1)) as Q. change (Z.pos (2 ^ 32 - 1)) with (2 ^ 32 - 1) in Q.
  destruct (mine hash (2 ^ 32 - 1) filter (tl point ++ pad seed) (wrap u32 (skipped_nonce seed + 1))) as [r|n'].
  - destruct Q as (k & s & -> & Hk & O1). set (n := wrap u32 (skipped_nonce seed + 1 + k)) in *.
    assert (Hn : 0 <= n < 2 ^ 32) by (unfold n, wrap; cbn [sg bits u32]; apply Z.mod_pos_bound; lia).
    assert (Nn : n <> skipped_nonce seed).
    { unfold n, wrap. cbn [sg bits u32]. destruct (Z.lt_ge_cases (skipped_nonce seed + 1 + k) (2 ^ 32)) as [K|K]; [rewrite Z.mod_small by lia; lia|].
      replace (skipped_nonce seed + 1 + k) with (skipped_nonce seed + 1 + k - 2 ^ 32 + 1 * 2 ^ 32) by lia. rewrite Z.mod_add by lia. rewrite Z.mod_small by lia. lia. }
    rewrite (Step n Hn) in O1. destruct (list_eq_dec Bool.bool_dec l (prefix_bits hash (nonce_script point seed n) (len l))) as [E|E]; [|discriminate]. injection O1 as <-.
    exists point, n. split; [reflexivity|]. split; [exact Ev|]. split; [exact Hn|]. split; [exact Nn|]. split; [reflexivity|].
    destruct (nonce_data point secret seed n P) as (L32 & B32 & Bd & Ld). destruct (push_data_stealth _ Bd ltac:(lia)) as (St & Da & Op & By). fold (nonce_script point seed n) in St, Da, Op, By.
    split; [split; [exact Op|exact By]|]. split; [lia|]. split; [exact E|].
    assert (F : firstn 32 (data (nth_op 1 (nonce_script point seed n))) = tl point).
    { rewrite Da. replace 32%nat with (length (tl point)) by (unfold len in L32; lia). rewrite firstn_app, Nat.sub_diag, firstn_all. cbn [firstn]. apply app_nil_r. }
    unfold extract_ephemeral_key, extract_unsigned_key, to_stealth_prefix. rewrite St, F. split; [|split; reflexivity]. f_equal. destruct point as [|x pt]; [discriminate (eq_trans Ev eq_refl)|]. cbn [hd tl] in *. congruence.
  - destruct Q as [_ Nq]. intros q n Q _ Hn Nn. injection Q as <-. intros E.
    set (k := (n - skipped_nonce seed - 1) mod 2 ^ 32). assert (Rk : 0 <= k < 2 ^ 32) by (apply Z.mod_pos_bound; lia).
    assert (W : wrap u32 (skipped_nonce seed + 1 + k) = n).
    { unfold k, wrap. cbn [sg bits u32]. rewrite Z.add_mod_idemp_r by lia. replace (skipped_nonce seed + 1 + (n - skipped_nonce seed - 1)) with n by lia. apply Z.mod_small. exact Hn. }
    assert (Rk' : k < 2 ^ 32 - 1).
    { assert (k <> 2 ^ 32 - 1); [|lia]. intros K. apply Nn. rewrite <- W, K. unfold wrap. cbn [sg bits u32]. replace (skipped_nonce seed + 1 + (2 ^ 32 - 1)) with (skipped_nonce seed + 1 * 2 ^ 32) by lia. rewrite Z.mod_add by lia. apply Z.mod_small. exact Rs. }
    specialize (Nq k ltac:(lia)). rewrite W, (Step n Hn) in Nq. destruct (list_eq_dec Bool.bool_dec l (prefix_bits hash (nonce_script point seed n) (len l))); [discriminate|contradiction].
Qed.

(** ** The shared secret and the paid key *)
Lemma shared_eq secret point k : 0 < be_value secret < order -> dlog c point = Some k -> 0 < k < order ->
  shared_secret c sha256 secret point = Some (sha256 (mulG c ((k * be_value secret) mod order))).
Proof.
  intros V D R. unfold shared_secret, point_mul. rewrite D. unfold verify_secret. rewrite (proj2 (Z.ltb_lt 0 _) (proj1 V)), (proj2 (Z.ltb_lt _ order) (proj2 V)). cbn [andb].
  unfold to_point. rewrite (proj2 (Z.eqb_neq _ _)) by (apply order_mul; assumption). reflexivity.
Qed.
(** Both sides compute the same shared secret, always. *)
Theorem C81_shared a b A B : secret_to_public c a = Some A -> secret_to_public c b = Some B ->
  shared_secret c sha256 a B = shared_secret c sha256 b A /\ shared_secret c sha256 a B = Some (sha256 (mulG c ((be_value a * be_value b) mod order))).
Proof.
  intros Pa Pb. destruct (public_point _ _ Pa) as (Ra & _ & _ & _ & _ & Da). destruct (public_point _ _ Pb) as (Rb & _ & _ & _ & _ & Db).
  rewrite (shared_eq a B _ Ra Db Rb), (shared_eq b A _ Rb Da Ra). rewrite (Z.mul_comm (be_value b)). split; reflexivity.
Qed.
Local Notation shared := (shared c sha256).
Local Notation stealth_key := (stealth_key c sha256).
(** Uncovering from the ephemeral key or from the scan key, public or secret:
    the key b + H(e*s*G), except for a hash not below the order or a zero sum. *)
Theorem C81_uncover e s b E Sc B : secret_to_public c e = Some E -> secret_to_public c s = Some Sc -> secret_to_public c b = Some B ->
  let ok := (shared (be_value e) (be_value s) <? order) && negb (stealth_key (be_value e) (be_value s) (be_value b) =? 0) in
  uncover_point c sha256 Sc e B = uncover_point c sha256 E s B /\
  uncover_point c sha256 E s B = (if ok then Some (mulG c (stealth_key (be_value e) (be_value s) (be_value b))) else None) /\
  uncover_secret c sha256 E s b = (if ok then Some (be_bytes 32 (stealth_key (be_value e) (be_value s) (be_value b))) else None).
Proof.
  intros Pe Ps Pb ok. destruct (C81_shared e s E Sc Pe Ps) as [E1 E2]. destruct (public_point _ _ Pb) as (Rb & Eb & _ & _ & _ & Db).
  unfold uncover_point, uncover_secret. rewrite <- E1, E2. split; [reflexivity|]. unfold point_tweak, secret_add. rewrite Db. fold (shared (be_value e) (be_value s)).
  unfold verify_secret. rewrite (proj2 (Z.ltb_lt 0 _) (proj1 Rb)), (proj2 (Z.ltb_lt _ order) (proj2 Rb)). cbn [andb]. change (be_value (sha256 (mulG c ((be_value e * be_value s) mod order)))) with (shared (be_value e) (be_value s)).
  unfold to_point, to_secret. unfold ok. fold (stealth_key (be_value e) (be_value s) (be_value b)). change ((be_value b + shared (be_value e) (be_value s)) mod order) with (stealth_key (be_value e) (be_value s) (be_value b)).
  destruct (shared _ _ <? order); cbn [andb]; [|split; reflexivity]. destruct (stealth_key _ _ _ =? 0); split; reflexivity.
Qed.

(** ** A payment *)
Local Notation sender_with_key := (sender_with_key c sha256 hash sha512 short_hash).
Local Notation receiver_address := (receiver_address c).
Local Notation derive_address := (derive_address c sha256 hash short_hash).
Local Notation derive_private := (derive_private c sha256).
(** To the stealth address of a receiver, a sender pays an address that the
    receiver derives from the script alone, and holds the secret of. *)
Theorem C81_payment s b rfilter a e seed filter l version script address : holds filter l -> len l < 2 ^ 64 ->
  receiver_address s b rfilter = Some a -> sender_with_key e a seed filter version = Some (script, address) ->
  exists E, extract_ephemeral_key script = Some E /\ secret_to_public c e = Some E /\ l = prefix_bits hash script (len l) /\
    derive_address s b E version = Some address /\
    exists p P, derive_private s b E = Some p /\ secret_to_public c p = Some P /\ address = paid hash short_hash P version /\
      be_value p = stealth_key (be_value e) (be_value s) (be_value b).
Proof.
  intros Hf L Ra Sw. unfold StealthModel.receiver_address in Ra. destruct (secret_to_public c s) as [Sc|] eqn:Ps; [|discriminate]. destruct (secret_to_public c b) as [B|] eqn:Pb; [|discriminate].
  unfold from_stealth in Ra. change (len [B] >? 255) with false in Ra. cbv iota zeta in Ra. destruct (b_bits rfilter >? 32); [discriminate|]. injection Ra as <-.
  unfold StealthModel.sender_with_key in Sw. destruct (secret_to_public c e) as [E|] eqn:Pe; [|discriminate]. cbn [a_spends a_scan] in Sw.
  destruct (uncover_point c sha256 Sc e B) as [P|] eqn:U; [|discriminate]. pose proof (C81_script e seed filter l Hf L) as Q. destruct (create_stealth_script e filter seed) as [sc|]; [|discriminate]. injection Sw as <- <-.
  destruct Q as (pt & n & Q1 & _ & _ & _ & _ & _ & _ & Q2 & Q3 & _). rewrite Pe in Q1. injection Q1 as <-. exists E. split; [exact Q3|]. split; [reflexivity|]. split; [exact Q2|].
  destruct (C81_uncover e s b E Sc B Pe Ps Pb) as (U1 & U2 & U3). cbv zeta in U2, U3. rewrite U1 in U. unfold StealthModel.derive_address. rewrite Ps, Pb, U. split; [reflexivity|].
  rewrite U in U2. unfold StealthModel.derive_private. destruct (_ && _) eqn:Ok in U2; [|discriminate]. rewrite Ok in U3. rewrite U3. apply andb_true_iff in Ok. destruct Ok as [_ Nz]. apply negb_true_iff, Z.eqb_neq in Nz.
  assert (Rk : 0 < stealth_key (be_value e) (be_value s) (be_value b) < order).
  { unfold StealthSpec.stealth_key in *. pose proof (Z.mod_pos_bound (be_value b + shared (be_value e) (be_value s)) order ltac:(unfold order; lia)). lia. }
  set (k := stealth_key (be_value e) (be_value s) (be_value b)) in *. exists (be_bytes 32 k), P. split; [reflexivity|]. unfold secret_to_public. rewrite (verify_key k Rk), (secret_value k ltac:(lia)). injection U2 as ->. auto.
Qed.
(** When a sender fails. *)
Theorem C81_sender_fails s b rfilter a e seed filter l version : holds filter l -> len l < 2 ^ 64 -> receiver_address s b rfilter = Some a ->
  sender_with_key e a seed filter version = None ->
  (forall E, secret_to_public c e = Some E -> hd 0 E <> 2) \/ order <= shared (be_value e) (be_value s) \/ stealth_key (be_value e) (be_value s) (be_value b) = 0 \/
  (forall E n, secret_to_public c e = Some E -> 0 <= n < 2 ^ 32 -> n <> skipped_nonce seed -> l <> prefix_bits hash (nonce_script E seed n) (len l)).
Proof.
  intros Hf L Ra Sw. unfold StealthModel.receiver_address in Ra. destruct (secret_to_public c s) as [Sc|] eqn:Ps; [|discriminate]. destruct (secret_to_public c b) as [B|] eqn:Pb; [|discriminate].
  unfold from_stealth in Ra. change (len [B] >? 255) with false in Ra. cbv iota zeta in Ra. destruct (b_bits rfilter >? 32); [discriminate|]. injection Ra as <-.
  unfold StealthModel.sender_with_key in Sw. cbn [a_spends a_scan] in Sw. destruct (secret_to_public c e) as [E|] eqn:Pe; [|left; intros q Q; discriminate].
  destruct (C81_uncover e s b E Sc B Pe Ps Pb) as (U1 & U2 & _). cbv zeta in U2. rewrite U1, U2 in Sw. destruct (_ && _) eqn:Ok in Sw.
  - pose proof (C81_script e seed filter l Hf L) as Q. destruct (create_stealth_script e filter seed) as [sc|]; [discriminate|]. rewrite Pe in Q. destruct (Z.eq_dec (hd 0 E) 2) as [H2|H2].
    + right; right; right. intros q n Eq Hn Nn. injection Eq as <-. apply (Q E n eq_refl H2 Hn Nn).
    + left. intros q Eq. injection Eq as <-. exact H2.
  - apply andb_false_iff in Ok. right. destruct Ok as [Ok|Ok]; [left; apply Z.ltb_ge in Ok; exact Ok|right; left; apply negb_false_iff, Z.eqb_eq in Ok; exact Ok].
Qed.
End Stealth.
Print Assumptions C81_ephemeral.
Print Assumptions C81_script.
Print Assumptions C81_shared.
Print Assumptions C81_uncover.
Print Assumptions C81_payment.
Print Assumptions C81_sender_fails.

(** ** Satisfiability: a payment over the toy curve with a filter of nine bits *)
Definition mix (n : nat) (x : list Z) : list Z := be_bytes n ((be_value x * 0x9e3779b97f4a7c15f39cc0605cedc8341082276bf3a27251f86c6a11d0c18e95) mod (2 ^ (8 * Z.of_nat n))).
Example C81_ex :
  exists a script address, receiver_address toy (be_bytes 32 5) (be_bytes 32 7) (mkbinary 0 []) = Some a /\
    sender_with_key toy (mix 32) (mix 32) (mix 64) (fun x => firstn 20 (mix 32 x)) (be_bytes 32 3) a [1; 2; 3] (mkbinary 3 [0xa0]) 0 = Some (script, address) /\
    holds (mkbinary 3 [0xa0]) [true; false; true] /\ curve_ok toy /\
    create_ephemeral_key toy (fun d k => mix 32 (k ++ d)) [9; 9] <> None.
Proof.
  do 3 eexists. split; [vm_compute; reflexivity|]. split; [vm_compute; reflexivity|]. split; [|split; [exact toy_ok|vm_compute; discriminate]].
  split; [reflexivity|]. split; [apply Forall_cons; [split; lia|apply Forall_nil]|]. split; [reflexivity|]. change (8 * len _) with 8. intros k Hk.
  assert (I : In k (map Z.of_nat (seq 0 8))) by (apply in_map_iff; exists (Z.to_nat k); rewrite in_seq; lia). cbn in I. repeat (destruct I as [<-|I]; [vm_compute; reflexivity|]). destruct I.
Qed.
