(** C75: the AES-256 block cipher is that of FIPS 197, and decryption inverts it. *)
From Coq Require Import Btauto.
From Verif Require Import Base AesModel AesSpec.

Lemma tables : sbox_table = sbox.
Proof. vm_compute. reflexivity. Qed.
Lemma lookup_sbox b : lookup sbox b = SBOX b.
Proof. unfold lookup, SBOX. rewrite tables. reflexivity. Qed.
(** The inverse in the specification is one. *)
Example ginv_ok : forallb (fun b => gmul (Z.of_nat b) (ginv (Z.of_nat b)) =? (if Nat.eqb b 0 then 0 else 1)) (seq 0 256) = true.
Proof. vm_compute. reflexivity. Qed.
Lemma all_bytes (f g : Z -> Z) : forallb (fun b => f (Z.of_nat b) =? g (Z.of_nat b)) (seq 0 256) = true -> forall b, byte_ok b -> f b = g b.
Proof.
  intros A b [L H]. rewrite forallb_forall in A. specialize (A (Z.to_nat b)). rewrite Z2Nat.id in A by lia. apply Z.eqb_eq, A. apply in_seq. lia.
Qed.
Lemma sub_inv b : byte_ok b -> lookup sbox_inverse (lookup sbox b) = b.
Proof. apply (all_bytes (fun b => lookup sbox_inverse (lookup sbox b)) (fun b => b)). vm_compute. reflexivity. Qed.
Lemma inv_sub b : byte_ok b -> lookup sbox (lookup sbox_inverse b) = b.
Proof. apply (all_bytes (fun b => lookup sbox (lookup sbox_inverse b)) (fun b => b)). vm_compute. reflexivity. Qed.
Lemma table_bytes t b : forallb (fun x => (0 <=? x) && (x <? 256)) t = true -> byte_ok (lookup t b).
Proof.
  intros F. unfold lookup. rewrite forallb_forall in F. destruct (nth_in_or_default (Z.to_nat b) t 0) as [I| ->]; [specialize (F _ I); split; lia|split; lia].
Qed.
Lemma sbox_byte b : byte_ok (lookup sbox b). Proof. apply table_bytes. reflexivity. Qed.
Lemma sboxi_byte b : byte_ok (lookup sbox_inverse b). Proof. apply table_bytes. reflexivity. Qed.

(** xtime is linear. *)
Lemma f_lin a b : f_enc_key (Z.lxor a b) = Z.lxor (f_enc_key a) (f_enc_key b).
Proof.
  unfold f_enc_key. replace (2 * Z.lxor a b) with (Z.shiftl (Z.lxor a b) 1) by (rewrite Z.shiftl_mul_pow2; lia).
  replace (2 * a) with (Z.shiftl a 1) by (rewrite Z.shiftl_mul_pow2; lia). replace (2 * b) with (Z.shiftl b 1) by (rewrite Z.shiftl_mul_pow2; lia).
  change 256 with (2 ^ 8). rewrite <- !Z.land_ones by lia. rewrite Z.shiftl_lxor, Z.lxor_spec.
  apply Z.bits_inj'. intros n Hn. rewrite !Z.lxor_spec, !Z.land_spec, !Z.lxor_spec.
  destruct (Z.testbit a 7), (Z.testbit b 7); cbn [xorb]; rewrite ?Z.bits_0;
    generalize (Z.testbit (Z.shiftl a 1) n) (Z.testbit (Z.shiftl b 1) n) (Z.testbit (Z.ones 8) n) (Z.testbit 27 n); intros; btauto.
Qed.
Lemma f_xtime b : f_enc_key b = xtime b. Proof. reflexivity. Qed.
Ltac xors := apply Z.bits_inj'; intros ? _; rewrite ?Z.lxor_spec, ?Z.bits_0; repeat match goal with |- context [Z.testbit ?x ?i] => generalize (Z.testbit x i); intro end; btauto.
Lemma gmul2 b : gmul 2 b = f_enc_key b.
Proof. cbv - [xtime Z.lxor f_enc_key]. change (f_enc_key b) with (xtime b). xors. Qed.
Lemma gmul3 b : gmul 3 b = Z.lxor b (f_enc_key b).
Proof. cbv - [xtime Z.lxor f_enc_key]. change (f_enc_key b) with (xtime b). xors. Qed.

(** ** The steps *)
Ltac shape16 l := do 16 (destruct l as [|? l]; [discriminate|]); destruct l; [|discriminate].
Ltac shape32 l := do 32 (destruct l as [|? l]; [discriminate|]); destruct l; [|discriminate].
Lemma cons_eq (x y : Z) l m : x = y -> l = m -> x :: l = y :: m. Proof. congruence. Qed.
Ltac reduce := cbv - [Z.lxor f_enc_key lookup SBOX gmul].
Ltac each := repeat (apply cons_eq); [..|reflexivity].
Lemma sub_spec b : length b = 16%nat -> sub_bytes b = SubBytes b.
Proof. intros L. shape16 b. reduce. rewrite !lookup_sbox. reflexivity. Qed.
Lemma subi_spec b : length b = 16%nat -> sub_bytes_inverse b = map (lookup sbox_inverse) b.
Proof. intros L. shape16 b. reflexivity. Qed.
Lemma shift_spec b : length b = 16%nat -> shift_rows b = ShiftRows b.
Proof. intros L. shape16 b. reflexivity. Qed.
Lemma mix_spec b : length b = 16%nat -> mix_columns b = MixColumns b.
Proof. intros L. shape16 b. reduce. rewrite !gmul2, !gmul3, !f_lin. each; xors. Qed.
Lemma lower_spec b k : length b = 16%nat -> length k = 32%nat -> add_round_key_lower b k = xor_bytes b (firstn 16 k).
Proof. intros L M. shape16 b. shape32 k. reflexivity. Qed.
Lemma upper_spec b k : length b = 16%nat -> length k = 32%nat -> add_round_key_upper b k = xor_bytes b (skipn 16 k).
Proof. intros L M. shape16 b. shape32 k. reflexivity. Qed.
Lemma shift_inv b : length b = 16%nat -> shift_rows_inverse (shift_rows b) = b.
Proof. intros L. shape16 b. reflexivity. Qed.
Lemma inv_shift b : length b = 16%nat -> shift_rows (shift_rows_inverse b) = b.
Proof. intros L. shape16 b. reflexivity. Qed.
(** One byte of a column, and one of the inverse. *)
Definition mb (x a b c d p q : Z) : Z := Z.lxor x (Z.lxor (Z.lxor (Z.lxor (Z.lxor a b) c) d) (f_enc_key (Z.lxor p q))).
Definition ib (x a b c d u v p q : Z) : Z :=
  Z.lxor x (Z.lxor (Z.lxor (Z.lxor (Z.lxor (Z.lxor a b) c) d) (f_enc_key (f_enc_key (Z.lxor (Z.lxor (f_enc_key (Z.lxor (Z.lxor (Z.lxor a b) c) d)) u) v)))) (f_enc_key (Z.lxor p q))).
Lemma col_inv a b c d :
  let a' := mb a a b c d a b in let b' := mb b a b c d b c in let c' := mb c a b c d c d in let d' := mb d a b c d d a in
  ib a' a' b' c' d' a' c' a' b' = a /\ ib b' a' b' c' d' b' d' b' c' = b /\ ib c' a' b' c' d' a' c' c' d' = c /\ ib d' a' b' c' d' b' d' d' a' = d.
Proof. cbv zeta. unfold ib, mb. rewrite !f_lin. split; [xors|]. split; [xors|]. split; xors. Qed.
Lemma col_inv2 a b c d :
  let a' := ib a a b c d a c a b in let b' := ib b a b c d b d b c in let c' := ib c a b c d a c c d in let d' := ib d a b c d b d d a in
  mb a' a' b' c' d' a' b' = a /\ mb b' a' b' c' d' b' c' = b /\ mb c' a' b' c' d' c' d' = c /\ mb d' a' b' c' d' d' a' = d.
Proof. cbv zeta. unfold ib, mb. rewrite !f_lin. split; [xors|]. split; [xors|]. split; xors. Qed.
Lemma mixed x0 x1 x2 x3 x4 x5 x6 x7 x8 x9 x10 x11 x12 x13 x14 x15 : mix_columns [x0; x1; x2; x3; x4; x5; x6; x7; x8; x9; x10; x11; x12; x13; x14; x15] = [mb x0 x0 x1 x2 x3 x0 x1; mb x1 x0 x1 x2 x3 x1 x2; mb x2 x0 x1 x2 x3 x2 x3; mb x3 x0 x1 x2 x3 x3 x0; mb x4 x4 x5 x6 x7 x4 x5; mb x5 x4 x5 x6 x7 x5 x6; mb x6 x4 x5 x6 x7 x6 x7; mb x7 x4 x5 x6 x7 x7 x4; mb x8 x8 x9 x10 x11 x8 x9; mb x9 x8 x9 x10 x11 x9 x10; mb x10 x8 x9 x10 x11 x10 x11; mb x11 x8 x9 x10 x11 x11 x8; mb x12 x12 x13 x14 x15 x12 x13; mb x13 x12 x13 x14 x15 x13 x14; mb x14 x12 x13 x14 x15 x14 x15; mb x15 x12 x13 x14 x15 x15 x12].
Proof. reflexivity. Qed.
Lemma mixed_inverse x0 x1 x2 x3 x4 x5 x6 x7 x8 x9 x10 x11 x12 x13 x14 x15 : mix_columns_inverse [x0; x1; x2; x3; x4; x5; x6; x7; x8; x9; x10; x11; x12; x13; x14; x15] = [ib x0 x0 x1 x2 x3 x0 x2 x0 x1; ib x1 x0 x1 x2 x3 x1 x3 x1 x2; ib x2 x0 x1 x2 x3 x0 x2 x2 x3; ib x3 x0 x1 x2 x3 x1 x3 x3 x0; ib x4 x4 x5 x6 x7 x4 x6 x4 x5; ib x5 x4 x5 x6 x7 x5 x7 x5 x6; ib x6 x4 x5 x6 x7 x4 x6 x6 x7; ib x7 x4 x5 x6 x7 x5 x7 x7 x4; ib x8 x8 x9 x10 x11 x8 x10 x8 x9; ib x9 x8 x9 x10 x11 x9 x11 x9 x10; ib x10 x8 x9 x10 x11 x8 x10 x10 x11; ib x11 x8 x9 x10 x11 x9 x11 x11 x8; ib x12 x12 x13 x14 x15 x12 x14 x12 x13; ib x13 x12 x13 x14 x15 x13 x15 x13 x14; ib x14 x12 x13 x14 x15 x12 x14 x14 x15; ib x15 x12 x13 x14 x15 x13 x15 x15 x12].
Proof. reflexivity. Qed.
Lemma mix_inv b : length b = 16%nat -> mix_columns_inverse (mix_columns b) = b.
Proof.
  intros L. destruct b as [|x0 [|x1 [|x2 [|x3 [|x4 [|x5 [|x6 [|x7 [|x8 [|x9 [|x10 [|x11 [|x12 [|x13 [|x14 [|x15 [|? ?]]]]]]]]]]]]]]]]]; try discriminate L.
  rewrite mixed, mixed_inverse. destruct (col_inv x0 x1 x2 x3) as (E0 & F0 & G0 & H0). destruct (col_inv x4 x5 x6 x7) as (E4 & F4 & G4 & H4). destruct (col_inv x8 x9 x10 x11) as (E8 & F8 & G8 & H8). destruct (col_inv x12 x13 x14 x15) as (E12 & F12 & G12 & H12). cbv zeta in *.
  rewrite E0, F0, G0, H0. rewrite E4, F4, G4, H4. rewrite E8, F8, G8, H8. rewrite E12, F12, G12, H12. reflexivity.
Qed.
Lemma inv_mix b : length b = 16%nat -> mix_columns (mix_columns_inverse b) = b.
Proof.
  intros L. destruct b as [|x0 [|x1 [|x2 [|x3 [|x4 [|x5 [|x6 [|x7 [|x8 [|x9 [|x10 [|x11 [|x12 [|x13 [|x14 [|x15 [|? ?]]]]]]]]]]]]]]]]]; try discriminate L.
  rewrite mixed_inverse, mixed. destruct (col_inv2 x0 x1 x2 x3) as (E0 & F0 & G0 & H0). destruct (col_inv2 x4 x5 x6 x7) as (E4 & F4 & G4 & H4). destruct (col_inv2 x8 x9 x10 x11) as (E8 & F8 & G8 & H8). destruct (col_inv2 x12 x13 x14 x15) as (E12 & F12 & G12 & H12). cbv zeta in *.
  rewrite E0, F0, G0, H0. rewrite E4, F4, G4, H4. rewrite E8, F8, G8, H8. rewrite E12, F12, G12, H12. reflexivity.
Qed.
Lemma xor_twice b k : (length b <= length k)%nat -> xor_bytes (xor_bytes b k) k = b.
Proof.
  revert k. induction b as [|x b IH]; intros [|y k] L; cbn [length] in L; try reflexivity; [lia|]. unfold xor_bytes in *. cbn [combine map fst snd]. rewrite IH by lia. f_equal. rewrite Z.lxor_assoc, Z.lxor_nilpotent. apply Z.lxor_0_r.
Qed.

(** ** States *)
Definition state_ok (b : list Z) : Prop := length b = 16%nat /\ bytes_ok b.
Definition key_ok (k : list Z) : Prop := length k = 32%nat /\ bytes_ok k.
Lemma lxor_byte a b : byte_ok a -> byte_ok b -> byte_ok (Z.lxor a b).
Proof.
  unfold byte_ok. intros A B. assert (0 <= Z.lxor a b) by (apply Z.lxor_nonneg; lia). split; [lia|].
  destruct (Z.eq_dec (Z.lxor a b) 0) as [->|N]; [lia|]. change 256 with (2 ^ 8). apply Z.log2_lt_pow2; [lia|]. eapply Z.le_lt_trans; [apply Z.log2_lxor; lia|].
  assert (L : forall x, 0 <= x < 256 -> Z.log2 x < 8) by (intros x X; destruct (Z.eq_dec x 0) as [->|]; [cbn; lia|]; apply Z.log2_lt_pow2; lia).
  pose proof (L a A). pose proof (L b B). lia.
Qed.
Lemma f_byte b : byte_ok b -> byte_ok (f_enc_key b).
Proof. intros B. unfold f_enc_key. apply lxor_byte; [split; apply Z.mod_pos_bound; lia|]. destruct (Z.testbit b 7); split; lia. Qed.
Lemma xor_bytes_ok a b : bytes_ok a -> bytes_ok b -> bytes_ok (xor_bytes a b).
Proof.
  intros A. revert b. induction A as [|x a X A IH]; intros b B; [constructor|]. destruct B as [|y b Y B]; [constructor|]. unfold xor_bytes. cbn [combine map fst snd]. constructor; [apply lxor_byte; assumption|apply IH, B].
Qed.
Lemma xor_bytes_len a b : (length a <= length b)%nat -> length (xor_bytes a b) = length a.
Proof. intros L. unfold xor_bytes. rewrite map_length, combine_length. lia. Qed.
Ltac bytes16 H := unfold bytes_ok in H; repeat match type of H with Forall _ (_ :: _) => let A := fresh "B" in pose proof (Forall_inv H) as A; apply Forall_inv_tail in H end.
Ltac okay := repeat first [assumption | simple apply f_byte | simple apply sbox_byte | simple apply sboxi_byte | simple apply lxor_byte].
Lemma sub_ok b : state_ok b -> state_ok (sub_bytes b).
Proof.
  intros [L B]. rewrite (sub_spec b L). split; [unfold SubBytes; rewrite map_length; exact L|]. apply Forall_forall. intros z I. unfold SubBytes in I. apply in_map_iff in I. destruct I as (c & <- & _). rewrite <- lookup_sbox. apply sbox_byte.
Qed.
Lemma subi_ok b : state_ok b -> state_ok (sub_bytes_inverse b).
Proof.
  intros [L B]. rewrite (subi_spec b L). split; [rewrite map_length; exact L|]. apply Forall_forall. intros z I. apply in_map_iff in I. destruct I as (c & <- & _). apply sboxi_byte.
Qed.
Lemma shift_ok b : state_ok b -> state_ok (shift_rows b).
Proof. intros [L B]. shape16 b. bytes16 B. split; [reflexivity|]. repeat (apply Forall_cons; [assumption|]). constructor. Qed.
Lemma shifti_ok b : state_ok b -> state_ok (shift_rows_inverse b).
Proof. intros [L B]. shape16 b. bytes16 B. split; [reflexivity|]. repeat (apply Forall_cons; [assumption|]). constructor. Qed.
Lemma mb_ok x a b c d p q : byte_ok x -> byte_ok a -> byte_ok b -> byte_ok c -> byte_ok d -> byte_ok p -> byte_ok q -> byte_ok (mb x a b c d p q).
Proof. intros. unfold mb. okay. Qed.
Lemma ib_ok x a b c d u v p q : byte_ok x -> byte_ok a -> byte_ok b -> byte_ok c -> byte_ok d -> byte_ok u -> byte_ok v -> byte_ok p -> byte_ok q -> byte_ok (ib x a b c d u v p q).
Proof. intros. unfold ib. okay. Qed.
Lemma mix_ok b : state_ok b -> state_ok (mix_columns b).
Proof. intros [L B]. shape16 b. bytes16 B. rewrite mixed. split; [reflexivity|]. repeat (apply Forall_cons; [apply mb_ok; assumption|]). constructor. Qed.
Lemma mixi_ok b : state_ok b -> state_ok (mix_columns_inverse b).
Proof. intros [L B]. shape16 b. bytes16 B. rewrite mixed_inverse. split; [reflexivity|]. repeat (apply Forall_cons; [apply ib_ok; assumption|]). constructor. Qed.
Lemma lower_ok b k : state_ok b -> key_ok k -> state_ok (add_round_key_lower b k).
Proof. intros [L B] [M K]. rewrite lower_spec by assumption. split; [rewrite xor_bytes_len; rewrite ?firstn_length; lia|apply xor_bytes_ok; [exact B|apply bytes_ok_firstn, K]]. Qed.
Lemma upper_ok b k : state_ok b -> key_ok k -> state_ok (add_round_key_upper b k).
Proof. intros [L B] [M K]. rewrite upper_spec by assumption. split; [rewrite xor_bytes_len; rewrite ?skipn_length; lia|apply xor_bytes_ok; [exact B|apply bytes_ok_skipn, K]]. Qed.
Lemma sub_map b : length b = 16%nat -> sub_bytes b = map (lookup sbox) b.
Proof. intros L. shape16 b. reflexivity. Qed.
Lemma map_undo (f g : Z -> Z) b : (forall x, byte_ok x -> g (f x) = x) -> bytes_ok b -> map g (map f b) = b.
Proof. intros H B. induction B as [|x b X B IH]; [reflexivity|]. cbn [map]. rewrite IH, H by exact X. reflexivity. Qed.
Lemma sub_undo b : state_ok b -> sub_bytes_inverse (sub_bytes b) = b.
Proof. intros [L B]. rewrite (sub_map b L), subi_spec by (rewrite map_length; exact L). apply map_undo; [exact sub_inv|exact B]. Qed.
Lemma subi_undo b : state_ok b -> sub_bytes (sub_bytes_inverse b) = b.
Proof. intros [L B]. rewrite (subi_spec b L), sub_map by (rewrite map_length; exact L). apply map_undo; [exact inv_sub|exact B]. Qed.
Lemma lower_twice b k : state_ok b -> key_ok k -> add_round_key_lower (add_round_key_lower b k) k = b.
Proof. intros O K. pose proof (lower_ok b k O K) as [L1 _]. destruct O as [L B], K as [M K]. rewrite lower_spec, (lower_spec b) by assumption. apply xor_twice. rewrite firstn_length. lia. Qed.
Lemma upper_twice b k : state_ok b -> key_ok k -> add_round_key_upper (add_round_key_upper b k) k = b.
Proof. intros O K. pose proof (upper_ok b k O K) as [L1 _]. destruct O as [L B], K as [M K]. rewrite upper_spec, (upper_spec b) by assumption. apply xor_twice. rewrite skipn_length. lia. Qed.

(** ** The key schedule *)
Lemma twice x y : Z.lxor (Z.lxor x y) y = x.
Proof. rewrite Z.lxor_assoc, Z.lxor_nilpotent. apply Z.lxor_0_r. Qed.
Ltac undo := match goal with L : length ?k = 32%nat |- _ => shape32 k end; cbv - [Z.lxor lookup sbox f_enc_key f_dec_key]; rewrite ?twice; reflexivity.
Definition spots : list nat := [4; 8; 12; 20; 24; 28]%nat.
Lemma chain_len k i : length k = 32%nat -> In i spots -> length (chain_word k i) = 32%nat.
Proof. intros L I. shape32 k. cbn [In spots] in I. decompose [or] I; try contradiction; subst i; reflexivity. Qed.
Lemma chain_undo k i : length k = 32%nat -> In i spots -> chain_word (chain_word k i) i = k.
Proof. intros L I. cbn [In spots] in I. decompose [or] I; try contradiction; subst i; undo. Qed.
Lemma middle_undo k : length k = 32%nat -> middle_word (middle_word k) = k.
Proof. intros L. undo. Qed.
Lemma first_undo k r : length k = 32%nat -> first_word (first_word k r) r = k.
Proof. intros L. undo. Qed.
Lemma middle_len k : length k = 32%nat -> length (middle_word k) = 32%nat.
Proof. intros L. shape32 k. reflexivity. Qed.
Lemma first_len k r : length k = 32%nat -> length (first_word k r) = 32%nat.
Proof. intros L. shape32 k. reflexivity. Qed.
Ltac spot := cbn [In spots]; tauto.
Ltac lens := repeat first [assumption | apply chain_len; [|spot] | apply middle_len | apply first_len].
Lemma expand_len k r : length k = 32%nat -> length (fst (expand_key k r)) = 32%nat.
Proof. intros L. cbn [expand_key fst fold_left]. lens. Qed.
Lemma expand_undo k r : length k = 32%nat -> f_dec_key (f_enc_key r) = r -> expand_key_inverse (fst (expand_key k r)) (f_enc_key r) = (k, r).
Proof.
  intros L R. unfold expand_key, expand_key_inverse. cbn [fst fold_left]. rewrite R.
  rewrite (chain_undo _ 28%nat) by (lens || spot). rewrite (chain_undo _ 24%nat) by (lens || spot). rewrite (chain_undo _ 20%nat) by (lens || spot). rewrite middle_undo by lens.
  rewrite (chain_undo _ 12%nat) by (lens || spot). rewrite (chain_undo _ 8%nat) by (lens || spot). rewrite (chain_undo _ 4%nat) by (lens || spot). rewrite first_undo by exact L. reflexivity.
Qed.
Lemma put_bytes k i v : bytes_ok k -> byte_ok v -> bytes_ok (put k i v).
Proof. intros B V. revert i. induction B as [|x k X B IH]; intros [|i]; cbn [put]; constructor; auto. apply IH. Qed.
Lemma get_byte k i : bytes_ok k -> byte_ok (get k i).
Proof. intros B. unfold get. destruct (nth_in_or_default i k 0) as [I| ->]; [|split; lia]. unfold bytes_ok in B. rewrite Forall_forall in B. apply B, I. Qed.
Lemma xor_at_bytes k i v : bytes_ok k -> byte_ok v -> bytes_ok (xor_at k i v).
Proof. intros B V. apply put_bytes; [exact B|]. apply lxor_byte; [apply get_byte, B|exact V]. Qed.
Ltac keyed := repeat first [assumption | simple apply xor_at_bytes | simple apply sbox_byte | simple apply get_byte | simple apply lxor_byte].
Lemma chain_bytes k i : bytes_ok k -> bytes_ok (chain_word k i).
Proof. intros B. unfold chain_word. cbv zeta. keyed. Qed.
Lemma middle_bytes k : bytes_ok k -> bytes_ok (middle_word k).
Proof. intros B. unfold middle_word. cbv zeta. keyed. Qed.
Lemma first_bytes k r : bytes_ok k -> byte_ok r -> bytes_ok (first_word k r).
Proof. intros B R. unfold first_word. cbv zeta. keyed. Qed.
Lemma expand_ok k r : key_ok k -> byte_ok r -> key_ok (fst (expand_key k r)).
Proof. intros [L B] R. split; [apply expand_len, L|]. cbn [expand_key fst fold_left]. repeat first [apply chain_bytes | apply middle_bytes]. apply first_bytes; assumption. Qed.

(** Eight words of the schedule at a time. *)
Definition word_after (r : Z) (l : list (list Z)) : list Z :=
  let i := length l in
  let temp := nth (i - 1) l [] in
  let temp := if Nat.eqb (Nat.modulo i 8) 0 then xor_bytes (SubWord (RotWord temp)) [r; 0; 0; 0]
              else if Nat.eqb (Nat.modulo i 8) 4 then SubWord temp else temp in
  xor_bytes (nth (i - 8) l []) temp.
Lemma next_after pre l j : length pre = (8 * j)%nat -> (8 <= length l < 16)%nat -> next_word (pre ++ l) = word_after (xtimes j 1) l.
Proof.
  intros P L. unfold next_word, word_after. cbv zeta. rewrite app_length, P.
  assert (M : Nat.modulo (8 * j + length l) 8 = Nat.modulo (length l) 8) by (rewrite Nat.add_comm, Nat.mul_comm; apply Nat.mod_add; lia). rewrite M.
  assert (D : Nat.div (8 * j + length l) 8 = (j + 1)%nat) by (rewrite Nat.add_comm, Nat.mul_comm, Nat.div_add by lia; rewrite <- (Nat.div_unique (length l) 8 1 (length l - 8)) by lia; lia). rewrite D.
  replace (8 * j + length l - 1)%nat with (length pre + (length l - 1))%nat by lia. replace (8 * j + length l - 8)%nat with (length pre + (length l - 8))%nat by lia.
  rewrite !app_nth2_plus. unfold Rcon. rewrite Nat.add_sub. reflexivity.
Qed.
Lemma step_words pre l j n : length pre = (8 * j)%nat -> (8 <= length l < 16)%nat -> key_words (S n) (pre ++ l) = key_words n (pre ++ (l ++ [word_after (xtimes j 1) l])).
Proof. intros P L. cbn [key_words]. rewrite (next_after pre l j P L), <- app_assoc. reflexivity. Qed.
Lemma eight_words r k : length k = 32%nat -> chop k ++ chop (fst (expand_key k r)) =
    (let l := chop k in let l := l ++ [word_after r l] in let l := l ++ [word_after r l] in let l := l ++ [word_after r l] in let l := l ++ [word_after r l] in
     let l := l ++ [word_after r l] in let l := l ++ [word_after r l] in let l := l ++ [word_after r l] in l ++ [word_after r l]).
Proof. intros L. shape32 k. cbv - [Z.lxor lookup sbox SBOX]. rewrite !lookup_sbox, !Z.lxor_0_r. reflexivity. Qed.
Lemma expand_words pre k j n : length pre = (8 * j)%nat -> length k = 32%nat ->
  key_words (8 + n) (pre ++ chop k) = key_words n ((pre ++ chop k) ++ chop (fst (expand_key k (xtimes j 1)))).
Proof.
  intros P L. rewrite <- app_assoc. rewrite (eight_words (xtimes j 1) k L). cbv zeta. change (8 + n)%nat with (S (S (S (S (S (S (S (S n)))))))).
  assert (L8 : length (chop k) = 8%nat) by (shape32 k; reflexivity).
  do 8 (rewrite (step_words pre _ j) by (exact P || (rewrite ?app_length, L8; cbn [length]; lia))). reflexivity.
Qed.

(** ** Rounds *)
Definition full (b : list Z) : list Z := mix_columns (shift_rows (sub_bytes b)).
Definition half (b : list Z) : list Z := shift_rows (sub_bytes b).
Definition unfull (b : list Z) : list Z := sub_bytes_inverse (shift_rows_inverse (mix_columns_inverse b)).
Definition unhalf (b : list Z) : list Z := sub_bytes_inverse (shift_rows_inverse b).
Definition K (key : list Z) (j : nat) : list Z := nat_rect (fun _ => list Z) key (fun i k => fst (expand_key k (xtimes i 1))) j.
Lemma expand_pair k r : expand_key k r = (fst (expand_key k r), f_enc_key r).
Proof. unfold expand_key. cbv zeta. cbn [fst]. reflexivity. Qed.
Lemma expand_K key j : expand_key (K key j) (xtimes j 1) = (K key (S j), xtimes (S j) 1).
Proof. rewrite expand_pair. cbn [K nat_rect xtimes]. change (f_enc_key (xtimes j 1)) with (xtime (xtimes j 1)). reflexivity. Qed.
Lemma init_keys key : initialize key = (key, K key 7).
Proof.
  unfold initialize. change (key, 1) with (K key 0, xtimes 0 1). cbn [seq fold_left]. rewrite !expand_K. reflexivity.
Qed.
Opaque mix_columns shift_rows sub_bytes mix_columns_inverse shift_rows_inverse sub_bytes_inverse add_round_key_lower add_round_key_upper expand_key expand_key_inverse.
Lemma enc_even key b j i : Nat.even i = true -> encrypt_round (b, K key j, xtimes j 1) i = (add_round_key_upper (full b) (K key j), K key j, xtimes j 1).
Proof. intros E. unfold encrypt_round, full. rewrite E. reflexivity. Qed.
Lemma enc_odd key b j i : Nat.even i = false -> encrypt_round (b, K key j, xtimes j 1) i = (add_round_key_lower (full b) (K key (S j)), K key (S j), xtimes (S j) 1).
Proof. intros E. unfold encrypt_round, full. rewrite E. cbv zeta. rewrite expand_K. reflexivity. Qed.
Lemma encrypt_rounds key b : encrypt_ecb b key =
  let lo := add_round_key_lower in let up := add_round_key_upper in let k := K key in
  lo (half (up (full (lo (full (up (full (lo (full (up (full (lo (full (up (full (lo (full (up (full (lo (full (up (full (lo (full
  (up (full (lo b (k 0%nat))) (k 0%nat))) (k 1%nat))) (k 1%nat))) (k 2%nat))) (k 2%nat))) (k 3%nat))) (k 3%nat))) (k 4%nat))) (k 4%nat))) (k 5%nat))) (k 5%nat))) (k 6%nat))) (k 6%nat))) (k 7%nat).
Proof.
  unfold encrypt_ecb. rewrite init_keys. unfold encrypt_context, add_round_key_copy. cbn [fst]. cbv beta iota zeta.
  change (add_round_key_lower b key, key, 1) with (add_round_key_lower b (K key 0), K key 0, xtimes 0 1). cbn [seq fold_left].
  do 6 (rewrite enc_even by reflexivity; rewrite enc_odd by reflexivity). rewrite enc_even by reflexivity.
  rewrite expand_K. unfold half. reflexivity.
Qed.
Lemma K_len key j : length key = 32%nat -> length (K key j) = 32%nat.
Proof. intros L. induction j as [|j IH]; [exact L|]. cbn [K nat_rect]. apply expand_len. exact IH. Qed.
Lemma xt_ok j : (j < 7)%nat -> byte_ok (xtimes j 1) /\ f_dec_key (f_enc_key (xtimes j 1)) = xtimes j 1.
Proof. intros H. do 7 (destruct j as [|j]; [split; [split; vm_compute; congruence|reflexivity]|]). lia. Qed.
Lemma K_ok key j : key_ok key -> (j <= 7)%nat -> key_ok (K key j).
Proof. intros O H. induction j as [|j IH]; [exact O|]. cbn [K nat_rect]. apply expand_ok; [apply IH; lia|apply xt_ok; lia]. Qed.
Lemma unexpand_K key j : length key = 32%nat -> (j < 7)%nat -> expand_key_inverse (K key (S j)) (xtimes (S j) 1) = (K key j, xtimes j 1).
Proof. intros L H. cbn [K nat_rect xtimes]. change (xtime (xtimes j 1)) with (f_enc_key (xtimes j 1)). apply expand_undo; [apply K_len, L|apply xt_ok, H]. Qed.
Lemma dec_even key b j i : length key = 32%nat -> (j < 7)%nat -> Nat.even i = true -> decrypt_round (b, K key (S j), xtimes (S j) 1) i = (unfull (add_round_key_upper b (K key j)), K key j, xtimes j 1).
Proof. intros L H E. unfold decrypt_round, unfull. rewrite E. rewrite unexpand_K by assumption. reflexivity. Qed.
Lemma dec_odd key b j i : Nat.even i = false -> decrypt_round (b, K key j, xtimes j 1) i = (unfull (add_round_key_lower b (K key j)), K key j, xtimes j 1).
Proof. intros E. unfold decrypt_round, unfull. rewrite E. reflexivity. Qed.
Lemma decrypt_rounds key b : length key = 32%nat -> decrypt_ecb b key =
  let lo := add_round_key_lower in let up := add_round_key_upper in let k := K key in
  lo (unfull (up (unfull (lo (unfull (up (unfull (lo (unfull (up (unfull (lo (unfull (up (unfull (lo (unfull (up (unfull (lo (unfull (up (unfull
  (lo (unfull (up (unhalf (lo b (k 7%nat))) (k 6%nat))) (k 6%nat))) (k 5%nat))) (k 5%nat))) (k 4%nat))) (k 4%nat))) (k 3%nat))) (k 3%nat))) (k 2%nat))) (k 2%nat))) (k 1%nat))) (k 1%nat))) (k 0%nat))) (k 0%nat).
Proof.
  intros L. unfold decrypt_ecb. rewrite init_keys. unfold decrypt_context, add_round_key_copy. cbn [snd]. cbv beta iota zeta.
  change 128 with (xtimes 7 1). cbn [seq fold_left].
  do 6 (rewrite dec_even by (exact L || lia || reflexivity); rewrite dec_odd by reflexivity). rewrite dec_even by (exact L || lia || reflexivity). reflexivity.
Qed.
Lemma full_ok b : state_ok b -> state_ok (full b).
Proof. intros O. unfold full. apply mix_ok, shift_ok, sub_ok, O. Qed.
Lemma half_ok b : state_ok b -> state_ok (half b).
Proof. intros O. unfold half. apply shift_ok, sub_ok, O. Qed.
Lemma unfull_ok b : state_ok b -> state_ok (unfull b).
Proof. intros O. unfold unfull. apply subi_ok, shifti_ok, mixi_ok, O. Qed.
Lemma unhalf_ok b : state_ok b -> state_ok (unhalf b).
Proof. intros O. unfold unhalf. apply subi_ok, shifti_ok, O. Qed.
Lemma full_undo b : state_ok b -> unfull (full b) = b.
Proof. intros O. unfold full, unfull. rewrite mix_inv by apply (shift_ok _ (sub_ok _ O)). rewrite shift_inv by apply (sub_ok _ O). apply sub_undo, O. Qed.
Lemma half_undo b : state_ok b -> unhalf (half b) = b.
Proof. intros O. unfold half, unhalf. rewrite shift_inv by apply (sub_ok _ O). apply sub_undo, O. Qed.
Lemma unfull_undo b : state_ok b -> full (unfull b) = b.
Proof. intros O. unfold full, unfull. rewrite subi_undo by apply (shifti_ok _ (mixi_ok _ O)). rewrite inv_shift by apply (mixi_ok _ O). apply inv_mix, O. Qed.
Lemma unhalf_undo b : state_ok b -> half (unhalf b) = b.
Proof. intros O. unfold half, unhalf. rewrite subi_undo by apply (shifti_ok _ O). apply inv_shift, O. Qed.
Ltac stok H Hk := repeat first [exact H | simple apply full_ok | simple apply half_ok | simple apply unfull_ok | simple apply unhalf_ok | simple apply lower_ok | simple apply upper_ok | simple apply Hk; lia].

(** ** The schedule is that of FIPS 197 *)
Lemma key_words_app n m ws : key_words (n + m) ws = key_words m (key_words n ws).
Proof. revert ws. induction n as [|n IH]; intros ws; [reflexivity|]. cbn [Nat.add key_words]. apply IH. Qed.
Lemma key_words_suffix n ws : exists t, key_words n ws = ws ++ t /\ length t = n.
Proof.
  revert ws. induction n as [|n IH]; intros ws; [exists []; rewrite app_nil_r; auto|]. cbn [key_words]. destruct (IH (ws ++ [next_word ws])) as (t & E & L).
  exists (next_word ws :: t). rewrite E, <- app_assoc. split; [reflexivity|cbn [length]; lia].
Qed.
Definition joined (key : list Z) (n : nat) : list (list Z) := concat (map (fun j => chop (K key j)) (seq 0 n)).
Lemma chop_len k : length k = 32%nat -> length (chop k) = 8%nat.
Proof. intros L. shape32 k. reflexivity. Qed.
Lemma joined_S key n : joined key (S n) = joined key n ++ chop (K key n).
Proof. unfold joined. rewrite seq_S, map_app, concat_app. cbn [map concat Nat.add]. rewrite app_nil_r. reflexivity. Qed.
Lemma joined_len key n : length key = 32%nat -> length (joined key n) = (8 * n)%nat.
Proof. intros L. induction n as [|n IH]; [reflexivity|]. rewrite joined_S, app_length, IH, chop_len by (apply K_len, L). lia. Qed.
Lemma schedule key n m : length key = 32%nat -> key_words (8 * n + m) (chop key) = key_words m (joined key (S n)).
Proof.
  intros L. revert m. induction n as [|n IH]; intros m.
  - unfold joined. cbn [seq map concat Nat.mul Nat.add]. rewrite app_nil_r. reflexivity.
  - replace (8 * S n + m)%nat with (8 * n + (8 + m))%nat by lia. rewrite IH, (joined_S key n). rewrite (expand_words (joined key n) (K key n) n m (joined_len key n L) (K_len key n L)).
    rewrite <- (joined_S key n), (joined_S key (S n)). cbn [K nat_rect]. reflexivity.
Qed.
Lemma round_keys ks j tail : Forall (fun k => length k = 32%nat) ks -> (j < length ks)%nat ->
  round_key (concat (map chop ks) ++ tail) (2 * j) = firstn 16 (nth j ks []) /\ round_key (concat (map chop ks) ++ tail) (2 * j + 1) = skipn 16 (nth j ks []).
Proof.
  intros F. revert j. induction F as [|k ks L F IH]; intros j H; cbn [length] in H; [lia|]. destruct j as [|j].
  - cbn [map concat nth]. rewrite <- app_assoc. generalize (concat (map chop ks) ++ tail). intros t. shape32 k. split; reflexivity.
  - cbn [map concat nth]. destruct (IH j ltac:(lia)) as [A B]. rewrite <- app_assoc. unfold round_key in *.
    replace (4 * (2 * S j))%nat with (8 + 4 * (2 * j))%nat by lia. replace (4 * (2 * S j + 1))%nat with (8 + 4 * (2 * j + 1))%nat by lia.
    assert (SK : forall n (t : list (list Z)), skipn (8 + n) (chop k ++ t) = skipn n t) by (intros n t; shape32 k; reflexivity). rewrite !SK. auto.
Qed.
Lemma expansion key : length key = 32%nat -> exists t, joined key 8 = KeyExpansion key ++ t /\ length (KeyExpansion key) = 60%nat.
Proof.
  intros L. unfold KeyExpansion. destruct (key_words_suffix 4 (key_words 52 (chop key))) as (t & E & _). exists t. split.
  - rewrite <- E, <- key_words_app. change (52 + 4)%nat with (8 * 7 + 0)%nat. rewrite schedule by exact L. reflexivity.
  - destruct (key_words_suffix 52 (chop key)) as (t2 & -> & L2). rewrite app_length, L2, chop_len by exact L. reflexivity.
Qed.
Lemma expansion_keys key j : length key = 32%nat -> (j <= 7)%nat -> round_key (KeyExpansion key) (2 * j) = firstn 16 (K key j) /\ ((j < 7)%nat -> round_key (KeyExpansion key) (2 * j + 1) = skipn 16 (K key j)).
Proof.
  intros L H. destruct (expansion key L) as (t & E & L60).
  assert (P : forall r, (r <= 14)%nat -> round_key (KeyExpansion key) r = round_key (joined key 8) r).
  { intros r R. unfold round_key. rewrite E, skipn_app, firstn_app, skipn_length, L60. replace (4 - (60 - 4 * r))%nat with 0%nat by lia. rewrite firstn_O, app_nil_r. reflexivity. }
  assert (J : joined key 8 = concat (map chop (map (K key) (seq 0 8))) ++ []) by (unfold joined; rewrite map_map, app_nil_r; reflexivity).
  assert (F : Forall (fun k => length k = 32%nat) (map (K key) (seq 0 8))) by (apply Forall_forall; intros k I; apply in_map_iff in I; destruct I as (n & <- & _); apply K_len, L).
  destruct (round_keys (map (K key) (seq 0 8)) j [] F ltac:(rewrite map_length, seq_length; lia)) as [A B].
  assert (N : nth j (map (K key) (seq 0 8)) [] = K key j).
  { rewrite (nth_indep _ _ (K key 0)) by (rewrite map_length, seq_length; lia). rewrite map_nth, seq_nth by lia. reflexivity. }
  rewrite N in A, B. split; [rewrite P by lia; rewrite J; exact A|]. intros J7. rewrite P by lia. rewrite J. exact B.
Qed.
Lemma mixc_len b : length (MixColumns b) = 16%nat. Proof. unfold MixColumns, make. rewrite map_length, seq_length. reflexivity. Qed.
Lemma shiftr_len b : length (ShiftRows b) = 16%nat. Proof. unfold ShiftRows, make. rewrite map_length, seq_length. reflexivity. Qed.
Lemma subb_len b : length (SubBytes b) = length b. Proof. apply map_length. Qed.
Lemma half_spec b : length b = 16%nat -> half b = ShiftRows (SubBytes b) /\ length (half b) = 16%nat.
Proof. intros L. unfold half. rewrite sub_spec by exact L. rewrite shift_spec by (rewrite subb_len; exact L). split; [reflexivity|apply shiftr_len]. Qed.
Lemma full_spec b : length b = 16%nat -> full b = MixColumns (ShiftRows (SubBytes b)) /\ length (full b) = 16%nat.
Proof. intros L. unfold full. destruct (half_spec b L) as [E _]. unfold half in E. rewrite E. rewrite mix_spec by apply shiftr_len. split; [reflexivity|apply mixc_len]. Qed.
Lemma lower_len b k : length b = 16%nat -> length k = 32%nat -> length (add_round_key_lower b k) = 16%nat.
Proof. intros L M. rewrite lower_spec by assumption. rewrite xor_bytes_len; rewrite ?firstn_length; lia. Qed.
Lemma upper_len b k : length b = 16%nat -> length k = 32%nat -> length (add_round_key_upper b k) = 16%nat.
Proof. intros L M. rewrite upper_spec by assumption. rewrite xor_bytes_len; rewrite ?skipn_length; lia. Qed.
Lemma ark_lower key j r b : length key = 32%nat -> (j <= 7)%nat -> r = (2 * j)%nat -> length b = 16%nat -> AddRoundKey (KeyExpansion key) r b = add_round_key_lower b (K key j).
Proof. intros L H -> B. unfold AddRoundKey. rewrite (proj1 (expansion_keys key j L H)). rewrite lower_spec; [reflexivity|exact B|apply K_len, L]. Qed.
Lemma ark_upper key j r b : length key = 32%nat -> (j < 7)%nat -> r = (2 * j + 1)%nat -> length b = 16%nat -> AddRoundKey (KeyExpansion key) r b = add_round_key_upper b (K key j).
Proof. intros L H -> B. unfold AddRoundKey. rewrite (proj2 (expansion_keys key j L ltac:(lia)) H). rewrite upper_spec; [reflexivity|exact B|apply K_len, L]. Qed.
Opaque KeyExpansion AddRoundKey MixColumns ShiftRows SubBytes.

(** Encryption is the cipher of FIPS 197, for every key and block. *)
Theorem C75_encrypt key block : length key = 32%nat -> length block = 16%nat -> encrypt_ecb block key = Cipher key block.
Proof.
  intros L B. rewrite encrypt_rounds. unfold Cipher. cbv zeta. cbn [seq fold_left].
  assert (LO : forall j r b, (j <= 7)%nat -> r = (2 * j)%nat -> length b = 16%nat -> AddRoundKey (KeyExpansion key) r (MixColumns (ShiftRows (SubBytes b))) = add_round_key_lower (full b) (K key j) /\ length (add_round_key_lower (full b) (K key j)) = 16%nat).
  { intros j r b H R Lb. destruct (full_spec b Lb) as [<- Lf]. split; [apply ark_lower; assumption|apply lower_len; [exact Lf|apply K_len, L]]. }
  assert (UP : forall j r b, (j < 7)%nat -> r = (2 * j + 1)%nat -> length b = 16%nat -> AddRoundKey (KeyExpansion key) r (MixColumns (ShiftRows (SubBytes b))) = add_round_key_upper (full b) (K key j) /\ length (add_round_key_upper (full b) (K key j)) = 16%nat).
  { intros j r b H R Lb. destruct (full_spec b Lb) as [<- Lf]. split; [apply ark_upper; assumption|apply upper_len; [exact Lf|apply K_len, L]]. }
  rewrite (ark_lower key 0 0 block L ltac:(lia) eq_refl B).
  pose proof (lower_len block (K key 0) B (K_len key 0 L)) as Ln. revert Ln. generalize (add_round_key_lower block (K key 0)). intros s Ln.
  destruct (UP 0%nat 1%nat s ltac:(lia) eq_refl Ln) as [E1 Ln1]. rewrite E1. clear E1. revert Ln1. generalize (add_round_key_upper (full s) (K key 0)). clear s Ln. intros s Ln.
  destruct (LO 1%nat 2%nat s ltac:(lia) eq_refl Ln) as [E2 Ln2]. rewrite E2. clear E2. revert Ln2. generalize (add_round_key_lower (full s) (K key 1)). clear s Ln. intros s Ln.
  destruct (UP 1%nat 3%nat s ltac:(lia) eq_refl Ln) as [E3 Ln3]. rewrite E3. clear E3. revert Ln3. generalize (add_round_key_upper (full s) (K key 1)). clear s Ln. intros s Ln.
  destruct (LO 2%nat 4%nat s ltac:(lia) eq_refl Ln) as [E4 Ln4]. rewrite E4. clear E4. revert Ln4. generalize (add_round_key_lower (full s) (K key 2)). clear s Ln. intros s Ln.
  destruct (UP 2%nat 5%nat s ltac:(lia) eq_refl Ln) as [E5 Ln5]. rewrite E5. clear E5. revert Ln5. generalize (add_round_key_upper (full s) (K key 2)). clear s Ln. intros s Ln.
  destruct (LO 3%nat 6%nat s ltac:(lia) eq_refl Ln) as [E6 Ln6]. rewrite E6. clear E6. revert Ln6. generalize (add_round_key_lower (full s) (K key 3)). clear s Ln. intros s Ln.
  destruct (UP 3%nat 7%nat s ltac:(lia) eq_refl Ln) as [E7 Ln7]. rewrite E7. clear E7. revert Ln7. generalize (add_round_key_upper (full s) (K key 3)). clear s Ln. intros s Ln.
  destruct (LO 4%nat 8%nat s ltac:(lia) eq_refl Ln) as [E8 Ln8]. rewrite E8. clear E8. revert Ln8. generalize (add_round_key_lower (full s) (K key 4)). clear s Ln. intros s Ln.
  destruct (UP 4%nat 9%nat s ltac:(lia) eq_refl Ln) as [E9 Ln9]. rewrite E9. clear E9. revert Ln9. generalize (add_round_key_upper (full s) (K key 4)). clear s Ln. intros s Ln.
  destruct (LO 5%nat 10%nat s ltac:(lia) eq_refl Ln) as [E10 Ln10]. rewrite E10. clear E10. revert Ln10. generalize (add_round_key_lower (full s) (K key 5)). clear s Ln. intros s Ln.
  destruct (UP 5%nat 11%nat s ltac:(lia) eq_refl Ln) as [E11 Ln11]. rewrite E11. clear E11. revert Ln11. generalize (add_round_key_upper (full s) (K key 5)). clear s Ln. intros s Ln.
  destruct (LO 6%nat 12%nat s ltac:(lia) eq_refl Ln) as [E12 Ln12]. rewrite E12. clear E12. revert Ln12. generalize (add_round_key_lower (full s) (K key 6)). clear s Ln. intros s Ln.
  destruct (UP 6%nat 13%nat s ltac:(lia) eq_refl Ln) as [E13 Ln13]. rewrite E13. clear E13. revert Ln13. generalize (add_round_key_upper (full s) (K key 6)). clear s Ln. intros s Ln.
  destruct (half_spec s Ln) as [<- Lh]. symmetry. apply ark_lower; [exact L|lia|reflexivity|exact Lh].
Qed.
(** Decryption inverts encryption and encryption inverts decryption. *)
Theorem C75_decrypt key block : length key = 32%nat -> bytes_ok key -> length block = 16%nat -> bytes_ok block ->
  decrypt_ecb (encrypt_ecb block key) key = block.
Proof.
  intros L B L2 B2. assert (Hk : forall j, (j <= 7)%nat -> key_ok (K key j)) by (intros j H; apply K_ok; [split; assumption|exact H]).
  assert (H : state_ok block) by (split; assumption). rewrite decrypt_rounds by exact L. rewrite encrypt_rounds. cbv zeta.
  rewrite lower_twice by stok H Hk. rewrite half_undo by stok H Hk.
  do 6 (rewrite upper_twice by stok H Hk; rewrite full_undo by stok H Hk; rewrite lower_twice by stok H Hk; rewrite full_undo by stok H Hk).
  rewrite upper_twice by stok H Hk. rewrite full_undo by stok H Hk. apply lower_twice; stok H Hk.
Qed.
Theorem C75_invert key block : length key = 32%nat -> bytes_ok key -> length block = 16%nat -> bytes_ok block ->
  encrypt_ecb (decrypt_ecb block key) key = block.
Proof.
  intros L B L2 B2. assert (Hk : forall j, (j <= 7)%nat -> key_ok (K key j)) by (intros j H; apply K_ok; [split; assumption|exact H]).
  assert (H : state_ok block) by (split; assumption). rewrite decrypt_rounds by exact L. rewrite encrypt_rounds. cbv zeta.
  rewrite lower_twice by stok H Hk. rewrite unfull_undo by stok H Hk.
  do 6 (rewrite upper_twice by stok H Hk; rewrite unfull_undo by stok H Hk; rewrite lower_twice by stok H Hk; rewrite unfull_undo by stok H Hk).
  rewrite upper_twice by stok H Hk. rewrite unhalf_undo by stok H Hk. apply lower_twice; stok H Hk.
Qed.
Print Assumptions C75_encrypt.
Print Assumptions C75_decrypt.
Print Assumptions C75_invert.
(** FIPS 197, C.3. *)
Example C75_sat :
  let key := map Z.of_nat (seq 0 32) in let block := map (fun i => 17 * Z.of_nat i) (seq 0 16) in
  Cipher key block = [0x8e; 0xa2; 0xb7; 0xca; 0x51; 0x67; 0x45; 0xbf; 0xea; 0xfc; 0x49; 0x90; 0x4b; 0x49; 0x60; 0x89] /\
  bytes_ok key /\ bytes_ok block.
Proof. cbv zeta. split; [vm_compute; reflexivity|]. split; apply Forall_forall; intros z I; apply in_map_iff in I; destruct I as (n & <- & I); apply in_seq in I; split; lia. Qed.
