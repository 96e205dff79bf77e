(** * C85: signed messages. *)
From Coq Require Import String Znumtheory.
From Verif Require Import Base Bytes MathModel StreamModel StreamProps RadixModel AddressModel AddressProps EcModel HdModel HdProofs HdProps WifModel WifProps
  PrimeProofs OrderPrime MessageModel MessageSpec.

(** ** Arithmetic modulo the order *)
Lemma modeq a b n : 0 < n -> (a mod n = b mod n <-> exists t, a = b + t * n).
Proof.
  intros N. split.
  - intros E. exists (a / n - b / n). pose proof (Z.div_mod a n ltac:(lia)). pose proof (Z.div_mod b n ltac:(lia)). lia.
  - intros [t ->]. apply Z.mod_add. lia.
Qed.
Lemma order_pos : 0 < order. Proof. pose proof order_range. lia. Qed.
Lemma order_odd : order mod 2 = 1. Proof. vm_compute. reflexivity. Qed.
Lemma fold_inverse a : inverse a = a ^ (order - 2) mod order.
Proof. unfold inverse. rewrite powmod_ok by exact order_pos. pose proof order_range. rewrite Z2Pos.id by lia. reflexivity. Qed.
Lemma inverse_ok a : 0 < a < order -> exists t, inverse a * a = 1 + t * order.
Proof.
  intros R. pose proof order_range as O. apply modeq; [lia|]. rewrite fold_inverse, Z.mul_mod_idemp_l by lia. rewrite Z.mul_comm, <- Z.pow_succ_r by lia. replace (Z.succ (order - 2)) with (order - 1) by lia.
  rewrite fermat; [symmetry; apply Z.mod_small; lia|exact prime_order|]. intros D. apply Z.divide_pos_le in D; lia.
Qed.
Lemma recover_value r s k m q : 0 < r < order -> 0 <= q < order -> ((inverse r * (s * k - m)) mod order = q <-> (s * k) mod order = (m + r * q) mod order).
Proof.
  intros Hr Hq. destruct (inverse_ok r Hr) as [u U]. rewrite <- (Z.mod_small q order Hq) at 1. rewrite !modeq by exact order_pos. split; intros [t T].
  - exists (- (u * (s * k - m) - r * t)). assert (X : r * (inverse r * (s * k - m)) = r * (q + t * order)) by (rewrite T; reflexivity).
    replace (r * (inverse r * (s * k - m))) with ((inverse r * r) * (s * k - m)) in X by ring. rewrite U in X. lia.
  - exists (u * q + inverse r * t). rewrite T. replace (inverse r * (m + r * q + t * order - m)) with ((inverse r * r) * q + inverse r * t * order) by ring. rewrite U. ring.
Qed.
Lemma sign_value k m rq s : 0 < k < order -> s = (inverse k * (m + rq)) mod order -> (s * k) mod order = (m + rq) mod order.
Proof.
  intros Hk ->. destruct (inverse_ok k Hk) as [u U]. rewrite Z.mul_mod_idemp_l by (pose proof order_pos; lia). apply modeq; [exact order_pos|]. exists (u * (m + rq)).
  replace (inverse k * (m + rq) * k) with ((inverse k * k) * (m + rq)) by ring. rewrite U. ring.
Qed.
Lemma negated s k : ((order - s) * (order - k)) mod order = (s * k) mod order.
Proof. apply modeq; [exact order_pos|]. exists (order - s - k). ring. Qed.

(** ** Magic bytes *)
(** Recovery identifiers zero to three and the compression flag are the bytes 27 to 34. *)
Theorem C85_magic magic id compressed : 0 <= id ->
  (recovery_id_to_magic id compressed = Some magic <-> id <= 3 /\ magic = 27 + id + (if compressed then 4 else 0)) /\
  (magic_to_recovery_id magic = Some (id, compressed) <-> id <= 3 /\ magic = 27 + id + (if compressed then 4 else 0)).
Proof.
  intros Hi. unfold recovery_id_to_magic, magic_to_recovery_id, max_recovery_id, magic_compressed, magic_uncompressed. split.
  - destruct (Z.gtb_spec id 3) as [G|G].
    + split; [discriminate|lia].
    + split; [intros E; split; [lia|]|intros [_ ->]; f_equal; destruct compressed; lia]. assert (magic = id + (if compressed then 31 else 27)) by congruence. destruct compressed; lia.
  - destruct ((magic <? 27) || (magic >? 31 + 3)) eqn:B; [split; [discriminate|intros [X ->]; exfalso; destruct compressed; lia]|]. cbv zeta. destruct (Z.geb_spec (magic - 27) (31 - 27)) as [G|G].
    + split; [intros E; injection E as E1 E2; subst; lia|]. intros [X ->]. destruct compressed; [f_equal; f_equal; lia|lia].
    + split; [intros E; injection E as E1 E2; subst; lia|]. intros [X ->]. destruct compressed; [lia|]. f_equal. f_equal. lia.
Qed.

(** ** Messages *)
Lemma message_preimage m : message_text m = preimage m.
Proof. unfold message_text, preimage, counted, message_prefix. rewrite <- app_assoc. reflexivity. Qed.
(** Different messages are hashed as different bytes. *)
Theorem C85_preimage m m' : len m < 2 ^ 64 -> len m' < 2 ^ 64 -> preimage m = preimage m' -> m = m'.
Proof.
  intros L L' E. unfold preimage in E. apply app_inv_head in E. unfold counted in E. pose proof (len_nonneg m). pose proof (len_nonneg m').
  apply C01_prefix_free in E; [apply E|lia..].
Qed.

Lemma first_half a l : firstn 32 (be_bytes 32 a ++ l) = be_bytes 32 a.
Proof. rewrite firstn_app, be_bytes_length, Nat.sub_diag, firstn_O, app_nil_r. apply firstn_all2. rewrite be_bytes_length. lia. Qed.
Lemma second_half a l : skipn 32 (be_bytes 32 a ++ l) = l.
Proof. rewrite skipn_app, be_bytes_length, Nat.sub_diag, skipn_all2 by (rewrite be_bytes_length; lia). reflexivity. Qed.

Section Props.
Variable c : curve65.
Hypothesis C : curve65_ok c.
Hypothesis X : coordinates_ok (c33 c).
Variable nonce : list Z -> list Z -> Z.
Hypothesis nonce_ok : forall s d, 0 < nonce s d < order.
Variables (hash short_hash : list Z -> list Z).
Hypothesis hash_ok : forall m, bytes_ok (hash m) /\ len (hash m) = 32.
Hypothesis short_len : forall p, len (short_hash p) = 20.

Definition digest (m : list Z) : Z := be_value (hash (preimage m)).

Lemma coord k : 0 < k < order -> mulG (c33 c) k = hd 0 (mulG (c33 c) k) :: be_bytes 32 (point_x c k) /\ (hd 0 (mulG (c33 c) k) = 2 \/ hd 0 (mulG (c33 c) k) = 3) /\ 0 <= point_x c k < field_size.
Proof.
  intros R. destruct C as [[C1 _] _]. destruct (C1 k R) as (L & B & H & _). destruct (X k R) as [F _]. unfold point_x. destruct (mulG (c33 c) k) as [|x t]; [discriminate L|]. cbn [hd tl length] in *.
  split; [|split; [exact H|split; [apply be_value_range; apply (Forall_inv_tail B)|exact F]]]. f_equal. symmetry. apply secret_bytes; [lia|exact (Forall_inv_tail B)].
Qed.
(** The recovered key. *)
Lemma recover_ok (r s id m q : Z) d : 0 <= r < 2 ^ 256 -> 0 <= s < 2 ^ 256 -> 0 <= id < 4 -> m = be_value d -> 0 < q < order ->
  (recover_scalar c (be_bytes 32 r ++ be_bytes 32 s) id d = Some q <-> signed (c33 c) m q r s id).
Proof.
  intros Rr Rs Ri -> Rq. assert (V : forall v, 0 <= v < 2 ^ 256 -> be_value (be_bytes 32 v) = v) by (intros v H; apply be_value_bytes_small; exact H).
  unfold recover_scalar. assert (E1 : firstn 32 (be_bytes 32 r ++ be_bytes 32 s) = be_bytes 32 r) by (rewrite firstn_app, be_bytes_length, Nat.sub_diag, firstn_O, app_nil_r; apply firstn_all2; rewrite be_bytes_length; lia).
  assert (E2 : skipn 32 (be_bytes 32 r ++ be_bytes 32 s) = be_bytes 32 s) by (rewrite skipn_app, be_bytes_length, Nat.sub_diag, skipn_all2 by (rewrite be_bytes_length; lia); reflexivity).
  rewrite E1, E2, !V by assumption. clear E1 E2. cbv zeta.
  assert (Hb : Z.testbit id 1 = (2 <=? id) /\ (id / 2) * order = (if 2 <=? id then order else 0) /\ (if Z.testbit id 0 then 3 else 2) = 2 + id mod 2).
  { assert (Q : id = 0 \/ id = 1 \/ id = 2 \/ id = 3) by lia. destruct Q as [-> | [-> | [-> | ->]]]; (split; [reflexivity|]; split; [|reflexivity]); [change (0 / 2) with 0|change (1 / 2) with 0|change (2 / 2) with 1|change (3 / 2) with 1]; change (2 <=? 0) with false; change (2 <=? 1) with false; change (2 <=? 2) with true; change (2 <=? 3) with true; cbv iota; lia. }
  destruct Hb as (-> & Hd & ->). pose proof order_range as O. assert (FO : order < field_size < 2 ^ 256) by (vm_compute; split; reflexivity).
  unfold signed. rewrite Hd. destruct ((r >=? order) || (s >=? order) || (r =? 0) || (s =? 0)) eqn:B; [split; [discriminate|intros (H1 & H2 & _); clear -B H1 H2; lia]|]. assert (Hr : 0 < r < order) by (clear -B Rr; lia). assert (Hs : 0 < s < order) by (clear -B Rs; lia).
  destruct ((2 <=? id) && (r >=? field_size - order)) eqn:B2.
  { split; [discriminate|]. intros (_ & _ & k & Hk & Hx & _). destruct (coord k Hk) as (_ & _ & Hf). unfold point_x in Hf. replace (2 <=? id) with true in Hx by lia. lia. }
  set (x := if 2 <=? id then r + order else r). assert (Hx : x = r + (if 2 <=? id then order else 0)) by (unfold x; destruct (2 <=? id); lia). assert (Rx : 0 <= x < 2 ^ 256) by (destruct (2 <=? id); lia). clearbody x.
  assert (D : forall k, dlog (c33 c) ((2 + id mod 2) :: be_bytes 32 x) = Some k <-> 0 < k < order /\ be_value (tl (mulG (c33 c) k)) = x /\ hd 0 (mulG (c33 c) k) = 2 + id mod 2).
  { intros k. destruct C as [[C1 C2] _]. split.
    - intros E. destruct (C2 _ _ E) as [Rk Ek]. split; [exact Rk|]. rewrite Ek. cbn [tl hd]. split; [apply V, Rx|reflexivity].
    - intros (Rk & Ex & Eh). destruct (coord k Rk) as (Em & _). unfold point_x in Em. rewrite Ex, Eh in Em. rewrite <- Em. apply (C1 k Rk). }
  split.
  - destruct (dlog (c33 c) _) as [k|] eqn:E; [|discriminate]. pose proof (proj1 (D k) eq_refl) as (Rk & Ex & Eh). set (v := (inverse r * (s * k - be_value d)) mod order). intros H. assert (Ev : v = q) by (destruct (v =? 0); [discriminate H|congruence]).
    split; [exact Hr|]. split; [exact Hs|]. exists k. split; [exact Rk|]. split; [rewrite Ex, Hx; reflexivity|]. split; [exact Eh|]. apply recover_value; [exact Hr|lia|exact Ev].
  - intros (_ & _ & k & Rk & Ex & Eh & Eq). rewrite (proj2 (D k)) by (split; [exact Rk|split; [rewrite Ex, Hx; reflexivity|exact Eh]]). apply recover_value in Eq; [|exact Hr|lia]. rewrite Eq. replace (q =? 0) with false by lia. reflexivity.
Qed.
Lemma recover_range sg id d q : recover_scalar c sg id d = Some q -> 0 < q < order.
Proof.
  unfold recover_scalar. destruct (_ || _); [discriminate|]. destruct (_ && _); [discriminate|]. cbv zeta. destruct (dlog _ _); [|discriminate]. set (v := _ mod order). assert (0 <= v < order) by (apply Z.mod_pos_bound, order_pos).
  destruct (Z.eqb_spec v 0); [discriminate|]. intros E. injection E as <-. lia.
Qed.
(** Verification is true exactly for an ECDSA signature of the hashed message by a
    key whose hash is that of the address.  The version of the address is not
    looked at. *)
Theorem C85_verify message address signature : length signature = 65%nat -> bytes_ok signature ->
  verify_message c hash short_hash message address signature = true <->
  exists id compressed r s q, 0 <= id <= 3 /\ signature = signature_bytes id compressed r s /\ 0 < q < order /\
    signed (c33 c) (digest message) q r s id /\ payment_hash address = short_hash (key_bytes c compressed q).
Proof.
  intros L B. unfold verify_message, hash_message, digest. rewrite message_preimage. set (d := hash (preimage message)). destruct signature as [|magic sg]; [discriminate L|]. cbn [hd tl].
  assert (L1 : length sg = 64%nat) by (cbn [length] in L; lia). pose proof (Forall_inv_tail B) as B1. cbv beta in *.
  set (r0 := be_value (firstn 32 sg)). set (s0 := be_value (skipn 32 sg)).
  assert (Rr : 0 <= r0 < 2 ^ 256) by (pose proof (be_value_range (firstn 32 sg) (bytes_ok_firstn _ _ B1)) as R; unfold len in R; rewrite firstn_length, L1 in R; exact R).
  assert (Rs : 0 <= s0 < 2 ^ 256) by (pose proof (be_value_range (skipn 32 sg) (bytes_ok_skipn _ _ B1)) as R; unfold len in R; rewrite skipn_length, L1 in R; exact R).
  assert (Es : sg = be_bytes 32 r0 ++ be_bytes 32 s0).
  { unfold r0, s0. rewrite !secret_bytes; [symmetry; apply firstn_skipn|rewrite skipn_length; lia|apply bytes_ok_skipn, B1|rewrite firstn_length; lia|apply bytes_ok_firstn, B1]. }
  assert (V : forall v, 0 <= v < 2 ^ 256 -> be_value (be_bytes 32 v) = v) by (intros v H; apply be_value_bytes_small; exact H).
  assert (U : forall id f r s, 0 < r < order -> 0 < s < order -> magic :: sg = signature_bytes id f r s -> magic = 27 + id + (if f then 4 else 0) /\ r = r0 /\ s = s0).
  { intros id f r s Hr Hs E. unfold signature_bytes in E. pose proof (f_equal (hd 0) E) as E1. pose proof (f_equal (@tl Z) E) as E2. cbn [hd tl] in E1, E2. clear E. split; [exact E1|]. pose proof order_range as O. unfold r0, s0. clear r0 s0 Rr Rs Es. subst sg. split.
    - rewrite first_half. symmetry. apply V. lia.
    - rewrite second_half. symmetry. apply V. lia. }
  split.
  - destruct (magic_to_recovery_id magic) as [[id f]|] eqn:M; [|discriminate].
    assert (Hi : 0 <= id <= 3).
    { unfold magic_to_recovery_id, magic_uncompressed, magic_compressed, max_recovery_id in M. destruct (_ || _) eqn:Q; [discriminate M|]. cbv zeta in M. destruct (Z.geb_spec (magic - 27) (31 - 27)); injection M as <- <-; lia. }
    apply (proj2 (C85_magic magic id f (proj1 Hi))) in M. unfold recover_public. destruct (recover_scalar c sg id d) as [q|] eqn:E; [|discriminate]. pose proof (recover_range _ _ _ _ E) as Rq. rewrite Es in E.
    apply (recover_ok r0 s0 id (be_value d) q d Rr Rs ltac:(lia) eq_refl Rq) in E. intros H. apply list_eqb_iff in H. exists id, f, r0, s0, q. split; [exact Hi|]. split; [unfold signature_bytes; rewrite (proj2 M), <- Es; reflexivity|]. split; [exact Rq|]. split; [exact E|]. symmetry. exact H.
  - intros (id & f & r & s & q & Hi & E & Rq & S & A). destruct (U id f r s (proj1 S) (proj1 (proj2 S)) E) as (Em & -> & ->).
    rewrite (proj2 (proj2 (C85_magic magic id f (proj1 Hi)))) by (split; [lia|exact Em]). unfold recover_public. rewrite Es. apply (recover_ok r0 s0 id (be_value d) q d Rr Rs ltac:(lia) eq_refl Rq) in S. rewrite S. apply list_eqb_iff. symmetry. exact A.
Qed.
(** What is signed by a key verifies for its address, whatever its versions; the s of
    the signature is in the lower half of the order. *)
Theorem C85_sign message q f versions signature : 0 < q < order ->
  sign_message c nonce hash message (mkecprv (be_bytes 32 q) f versions) = Some signature ->
  exists id r s, 0 <= id <= 3 /\ signature = signature_bytes id f r s /\ signed (c33 c) (digest message) q r s id /\ s <= order / 2 /\
  forall address, payment_hash address = short_hash (key_bytes c f q) -> verify_message c hash short_hash message address signature = true.
Proof.
  intros Rq H.
  assert (G : exists id r s, 0 <= id <= 3 /\ signature = signature_bytes id f r s /\ signed (c33 c) (digest message) q r s id /\ s <= order / 2).
  { unfold sign_message, sign_message_secret in H. cbn [e_secret e_compress] in H. unfold sign_recoverable, hash_message in H. rewrite message_preimage in H. rewrite verify_key in H by exact Rq. cbn [negb] in H. cbv zeta in H.
    rewrite secret_value in H by lia. fold (digest message) in H. pose proof (nonce_ok (be_bytes 32 q) (hash (preimage message))) as Rk. set (k := nonce (be_bytes 32 q) (hash (preimage message))) in *.
    destruct (coord k Rk) as (Em & Hh & Hf). set (x := point_x c k) in *. set (r := x mod order) in *. set (s := (inverse k * (digest message + r * q)) mod order) in *.
    pose proof order_range as O. pose proof order_odd as Od. assert (FO : field_size < 2 * order) by (vm_compute; reflexivity).
    assert (Rr : 0 <= r < order) by (apply Z.mod_pos_bound, order_pos). assert (Rs : 0 <= s < order) by (apply Z.mod_pos_bound, order_pos).
    assert (Ex : x = r + (if x >=? order then order else 0)).
    { unfold r. destruct (Z.geb_spec x order) as [Q|Q]; [|rewrite Z.mod_small by lia; lia]. rewrite <- (Z.mod_add x (-1) order) by lia. rewrite Z.mod_small; lia. }
    pose proof (sign_value k (digest message) (r * q) s Rk eq_refl) as SV. clearbody s. clearbody r.
    set (low := if order / 2 <? s then order - s else s) in *. set (id := (if x >=? order then 2 else 0) + (if xorb (point_odd c k) (order / 2 <? s) then 1 else 0)) in *.
    destruct ((r =? 0) || (low =? 0)) eqn:Z0; [discriminate H|]. assert (Hid : 0 <= id <= 3) by (unfold id; destruct (x >=? order), (xorb _ _); lia).
    destruct (recovery_id_to_magic id f) as [magic|] eqn:Mg; [|discriminate H]. apply (proj1 (C85_magic magic id f (proj1 Hid))) in Mg. destruct Mg as [_ Mg].
    exists id, r, low. split; [exact Hid|]. split; [unfold signature_bytes; rewrite <- Mg; congruence|]. assert (Hlow : 0 < low <= order / 2) by (unfold low in *; destruct (Z.ltb_spec (order / 2) s); lia).
    split; [|lia]. assert (I2 : id / 2 * order = if x >=? order then order else 0) by (unfold id; destruct (x >=? order), (xorb _ _); [change ((2 + 1) / 2) with 1|change ((2 + 0) / 2) with 1|change ((0 + 1) / 2) with 0|change ((0 + 0) / 2) with 0]; lia).
    assert (I0 : id mod 2 = if xorb (point_odd c k) (order / 2 <? s) then 1 else 0) by (unfold id; destruct (x >=? order), (xorb _ _); reflexivity).
    split; [lia|]. split; [lia|]. rewrite I2, I0, <- Ex. unfold point_odd, low in *. destruct (Z.ltb_spec (order / 2) s) as [Q|Q].
    - exists (order - k). split; [lia|]. destruct (X k Rk) as [_ N]. rewrite N. cbn [tl hd]. split; [reflexivity|]. split; [destruct Hh as [-> | ->]; reflexivity|]. rewrite negated. exact SV.
    - exists k. split; [exact Rk|]. split; [reflexivity|]. split; [destruct Hh as [-> | ->]; reflexivity|exact SV]. }
  destruct G as (id & r & s & Hid & -> & S & Hs). exists id, r, s. split; [exact Hid|]. split; [reflexivity|]. split; [exact S|]. split; [exact Hs|]. intros address A.
  apply C85_verify.
  - unfold signature_bytes. cbn [length]. rewrite app_length, !be_bytes_length. reflexivity.
  - unfold signature_bytes. constructor; [unfold byte_ok; destruct f; lia|]. apply Forall_app. split; apply be_bytes_ok.
  - exists id, f, r, s, q. split; [exact Hid|]. split; [reflexivity|]. split; [exact Rq|]. split; [exact S|exact A].
Qed.
(** For the address of the private key, and for no invalid secret. *)
Theorem C85_sign_address message q f wif version signature : 0 < q < order -> byte_ok wif -> byte_ok version ->
  let key := mkecprv (be_bytes 32 q) f (to_versions version wif) in
  sign_message c nonce hash message key = Some signature ->
  exists address, ecprv_address c short_hash hash key = Some address /\ verify_message c hash short_hash message address signature = true.
Proof.
  intros Rq Bw Bv key H. apply C85_sign in H; [|exact Rq]. destruct H as (id & r & s & _ & _ & _ & _ & V). eexists. split; [apply (C73_address c C); assumption|].
  apply V. destruct (C56_value hash hash_ok version (short_hash (serialization c q f)) (short_len _)) as (<- & _ & ->). reflexivity.
Qed.
Theorem C85_sign_invalid message k : ~ (0 < be_value (e_secret k) < order) -> sign_message c nonce hash message k = None.
Proof. intros N. unfold sign_message, sign_message_secret, sign_recoverable, verify_secret. replace ((0 <? _) && (_ <? order)) with false by lia. reflexivity. Qed.
(** The text of a key signs as the key. *)
Theorem C85_wif message s wif f : secret_ok s -> byte_ok wif -> s <> null32 ->
  let key := private_from_secret s (to_versions 0 wif) f in
  sign_message_wif c nonce hash message (wif_encoded hash key) = sign_message c nonce hash message key.
Proof.
  intros Os Bw N key. destruct (C73_wif hash hash_ok s wif 0 f Os Bw ltac:(unfold byte_ok; lia)) as [_ E]. fold key in E. unfold sign_message_wif. rewrite E. unfold key at 1, private_from_secret at 1. cbn [e_secret].
  replace (scalar_bool s) with true; [reflexivity|]. unfold scalar_bool, list_eqb. destruct (list_eq_dec Z.eq_dec s null32); [contradiction|reflexivity].
Qed.
(** Any verifying signature has a second form, with the opposite s. *)
Theorem C85_malleable message address id f r s : 0 <= id <= 3 -> 0 < r < order -> 0 < s < order ->
  verify_message c hash short_hash message address (signature_bytes id f r s) = true ->
  verify_message c hash short_hash message address (signature_bytes (if Z.even id then id + 1 else id - 1) f r (order - s)) = true.
Proof.
  intros Hi Hr Hs V. assert (SL : forall id r s, length (signature_bytes id f r s) = 65%nat) by (intros; unfold signature_bytes; cbn [length]; rewrite app_length, !be_bytes_length; reflexivity).
  assert (SB : forall id r s, 0 <= id <= 3 -> bytes_ok (signature_bytes id f r s)) by (intros; unfold signature_bytes; constructor; [unfold byte_ok; destruct f; lia|]; apply Forall_app; split; apply be_bytes_ok).
  set (id' := if Z.even id then id + 1 else id - 1). assert (Hi' : 0 <= id' <= 3 /\ id' / 2 = id / 2 /\ 2 + id' mod 2 = 5 - (2 + id mod 2)).
  { unfold id'. assert (Q : id = 0 \/ id = 1 \/ id = 2 \/ id = 3) by lia. destruct Q as [-> | [-> | [-> | ->]]]; vm_compute; repeat split; discriminate. }
  clearbody id'. destruct Hi' as (Hi' & H2 & H0). apply C85_verify in V; [|apply SL|apply SB, Hi]. apply C85_verify; [apply SL|apply SB, Hi'|].
  destruct V as (i & g & r1 & s1 & q & Ri & E & Rq & (R1 & R2 & k & Rk & Ex & Eh & Eq) & A).
  assert (Vv : forall v, 0 < v < order -> be_value (be_bytes 32 v) = v) by (intros v H; apply secret_value; lia).
  unfold signature_bytes in E. pose proof (f_equal (hd 0) E) as E1. pose proof (f_equal (@tl Z) E) as E2. cbn [hd tl] in E1, E2. clear E. pose proof (f_equal (firstn 32) E2) as Ea. pose proof (f_equal (skipn 32) E2) as Eb. rewrite !first_half in Ea. rewrite !second_half in Eb. apply (f_equal be_value) in Ea, Eb. rewrite !Vv in Ea, Eb by assumption. subst r1 s1.
  assert (i = id /\ g = f) as [-> ->] by (destruct f, g; split; try reflexivity; lia).
  exists id', f, r, (order - s), q. split; [exact Hi'|]. split; [reflexivity|]. split; [exact Rq|]. split; [|exact A]. split; [exact Hr|]. split; [lia|]. exists (order - k). split; [lia|]. destruct (X k Rk) as [_ N]. rewrite N. cbn [tl hd].
  split; [rewrite H2; exact Ex|]. split; [rewrite Eh; lia|]. rewrite negated. exact Eq.
Qed.
End Props.
Print Assumptions C85_magic.
Print Assumptions C85_preimage.
Print Assumptions C85_verify.
Print Assumptions C85_sign.
Print Assumptions C85_sign_address.
Print Assumptions C85_sign_invalid.
Print Assumptions C85_malleable.
Print Assumptions C85_wif.

(** The hypotheses are met: the group Z/n with mirrored coordinates. *)
Definition mirror : curve := mkcurve (fun k => if k <=? order / 2 then 2 :: be_bytes 32 k else 3 :: be_bytes 32 (order - k))
  (fun p => let v := be_value (tl p) in if (0 <? v) && (v <=? order / 2) then (if list_eqb (2 :: be_bytes 32 v) p then Some v else if list_eqb (3 :: be_bytes 32 v) p then Some (order - v) else None) else None).
Lemma list_eqb_refl (l : list Z) : list_eqb l l = true. Proof. apply list_eqb_iff. reflexivity. Qed.
Lemma mirror_curve_ok : curve_ok mirror.
Proof.
  pose proof order_range as O. pose proof order_odd as Od.
  assert (V : forall v, 0 <= v < order -> be_value (be_bytes 32 v) = v) by (intros v H; apply secret_value; exact H).
  assert (Df : forall v, list_eqb (2 :: be_bytes 32 v) (3 :: be_bytes 32 v) = false) by (intros v; unfold list_eqb; destruct (list_eq_dec Z.eq_dec _ _) as [Q|]; [discriminate Q|reflexivity]).
  split.
  - intros k R. unfold mirror. cbn [mulG dlog]. destruct (Z.leb_spec k (order / 2)) as [Q|Q]; cbn [hd tl].
    + split; [cbn [length]; rewrite be_bytes_length; reflexivity|]. split; [constructor; [unfold byte_ok; lia|apply be_bytes_ok]|]. split; [left; reflexivity|]. cbv zeta. rewrite V by lia. replace ((0 <? k) && (k <=? order / 2)) with true by lia. rewrite list_eqb_refl. reflexivity.
    + split; [cbn [length]; rewrite be_bytes_length; reflexivity|]. split; [constructor; [unfold byte_ok; lia|apply be_bytes_ok]|]. split; [right; reflexivity|]. cbv zeta. rewrite V by lia. replace ((0 <? order - k) && (order - k <=? order / 2)) with true by lia. rewrite Df, list_eqb_refl. f_equal. lia.
  - intros p k. unfold mirror. cbn [mulG dlog]. cbv zeta. set (v := be_value (tl p)). destruct ((0 <? v) && (v <=? order / 2)) eqn:Q; [|discriminate]. destruct (list_eqb (2 :: be_bytes 32 v) p) eqn:E.
    + intros H. assert (k = v) as -> by congruence. apply list_eqb_iff in E. split; [lia|]. replace (v <=? order / 2) with true by lia. exact E.
    + destruct (list_eqb (3 :: be_bytes 32 v) p) eqn:E3; [|discriminate]. intros H. assert (k = order - v) as -> by congruence. apply list_eqb_iff in E3. split; [lia|]. replace (order - v <=? order / 2) with false by lia. replace (order - (order - v)) with v by lia. exact E3.
Qed.
Example mirror_ok : coordinates_ok mirror.
Proof.
  pose proof order_range as O. pose proof order_odd as Od. intros k R. unfold mirror. cbn [mulG]. split.
  - destruct (Z.leb_spec k (order / 2)); cbn [tl]; rewrite secret_value by lia; assert (order < 2 ^ 256 - 2 ^ 32 - 977) by (vm_compute; reflexivity); lia.
  - destruct (Z.leb_spec k (order / 2)) as [Q|Q]; cbn [hd tl].
    + replace (order - k <=? order / 2) with false by lia. replace (order - (order - k)) with k by lia. reflexivity.
    + replace (order - k <=? order / 2) with true by lia. reflexivity.
Qed.
Definition mirror65 : curve65 := mkcurve65 mirror (fun k => 4 :: be_bytes 64 k)
  (fun p => let k := be_value (tl p) in if (0 <? k) && (k <? order) && list_eqb (4 :: be_bytes 64 k) p then Some k else None).
Example mirror65_ok : curve65_ok mirror65.
Proof. split; [exact mirror_curve_ok|]. exact (proj2 toy65_ok). Qed.
(** A message is signed (an even nonce in the upper half, so that the low s needs the
    second candidate point) and verifies for its address and for the script address
    (version 5) of the same hash, but not for another message. *)
Definition example_hash (m : list Z) : list Z := repeat 7 31 ++ [fold_left Z.add m 0 mod 256].
Definition example_short (m : list Z) : list Z := firstn 20 (rev m).
Example C85_ex : let key := mkecprv (be_bytes 32 12345) true 128 in let message := [104; 105] in
  exists s, sign_message mirror65 (fun _ _ => order - 77) example_hash message key = Some s /\
  let h := example_short (mulG mirror 12345) in
  verify_message mirror65 example_hash example_short message (payment_of example_hash h 0) s = true /\
  verify_message mirror65 example_hash example_short message (payment_of example_hash h 5) s = true /\
  verify_message mirror65 example_hash example_short [104; 106] (payment_of example_hash h 0) s = false.
Proof. cbv zeta. eexists. split; [vm_compute; reflexivity|]. split; [vm_compute; reflexivity|]. split; vm_compute; reflexivity. Qed.
