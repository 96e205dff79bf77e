(** C05, C06: script numbers and truthiness of stack elements. *)
From Verif Require Import Base Bytes MathModel NumberModel NumberSpec NumberProofs.

(** ** C05 *)

(** Every stack integer but the excluded minimum encodes to a byte vector that
    denotes it, and no byte vector of the same value is shorter. *)
Theorem C05_encode_denotes_shortest : forall v, fits i64 v -> v <> imin i64 ->
  exists l, chunk_from_integer v = Some l /\ bytes_ok l /\ script_value l = v /\
    (forall l', bytes_ok l' -> script_value l' = v -> len l <= len l') /\
    (forall l', bytes_ok l' -> script_value l' = v -> len l' = len l -> v <> 0 -> l' = l).
Proof.
  intros v Hf Hm. destruct (encode_ok v Hf Hm) as (l & E & Hok & Hmin & Hv). exists l.
  split; [exact E|]. split; [exact Hok|]. split; [exact Hv|].
  assert (S : forall l', bytes_ok l' -> script_value l' = v -> len l <= len l').
  { intros l' H' V'. destruct (list_eq_dec Z.eq_dec l []) as [->|N]; [rewrite len_nil; apply len_nonneg|].
    pose proof (minimal_bound l Hok N Hmin) as [B1 B2].
    assert (M : magnitude l' = magnitude l) by
      (destruct (list_eq_dec Z.eq_dec l' []) as [->|N'];
       [change (script_value []) with 0 in V'; unfold script_value in Hv; destruct (_ <? _); lia|
        pose proof (magnitude_bound l' H' N'); unfold script_value in *; destruct (last l 0 <? 128), (last l' 0 <? 128); lia]).
    destruct (list_eq_dec Z.eq_dec l' []) as [->|N'].
    { change (magnitude []) with 0 in M. lia. }
    pose proof (magnitude_bound l' H' N') as B3.
    assert (1 <= len l') by (destruct l'; [contradiction|rewrite len_cons; pose proof (len_nonneg l'); lia]).
    destruct (Z.le_gt_cases (len l) (len l')); [assumption|]. specialize (B2 ltac:(lia)).
    assert (2 ^ (8 * len l' - 1) <= 2 ^ (8 * (len l - 1) - 1)) by (apply Z.pow_le_mono_r; lia). lia. }
  split; [exact S|]. intros l' H' V' L H0.
  apply minimal_unique; try assumption; [|congruence].
  (* a shortest denotation is minimal *)
  destruct (snoc_cases l') as [->|(x & s & ->)]; [left; reflexivity|].
  unfold minimal. rewrite last_snoc, removelast_snoc.
  destruct (Z.eq_dec (s mod 128) 0) as [Z0|]; [|right; left; assumption].
  right. right. apply bytes_ok_app in H' as [Hx Hs]. inversion Hs as [|? ? Hs' _]; subst.
  rewrite script_value_snoc, Z0, Z.mul_0_r, Z.add_0_r in *.
  rewrite len_app in *. change (len [s]) with 1 in *.
  destruct (snoc_cases x) as [->|(y & p & ->)]; [exfalso; cbn [le_value] in V'; destruct (s <? 128); lia|].
  rewrite last_snoc, !len_app in *. change (len [p]) with 1 in *. pose proof (len_nonneg y). split; [lia|].
  destruct (Z.le_gt_cases 128 p); [assumption|]. exfalso.
  apply bytes_ok_app in Hx as [Hy Hp]. inversion Hp as [|? ? Hp' _]; subst. unfold byte_ok in Hp', Hs'.
  destruct (Z.ltb_spec s 128) as [D|D].
  - assert (C := S (y ++ [p]) ltac:(apply bytes_ok_app; auto)).
    rewrite script_value_snoc, len_app in C. rewrite le_value_app in V'. cbn [le_value] in V'. change (len [p]) with 1 in C.
    destruct (Z.ltb_spec p 128); [|lia]. rewrite Z.mod_small in C by lia. specialize (C ltac:(lia)). lia.
  - assert (C := S (y ++ [p + 128]) ltac:(apply bytes_ok_app; split; [assumption|constructor; [unfold byte_ok; lia|constructor]])).
    rewrite script_value_snoc, len_app in C. rewrite le_value_app in V'. cbn [le_value] in V'. change (len [p + 128]) with 1 in C.
    destruct (Z.ltb_spec (p + 128) 128); [lia|]. replace (p + 128) with (p + 1 * 128) in C by lia. rewrite Z.mod_add, Z.mod_small in C by lia.
    specialize (C ltac:(lia)). lia.
Qed.
Print Assumptions C05_encode_denotes_shortest.

(** Decoding with an n byte limit (2..8; the interpreter uses 4 and 5) rejects
    exactly the vectors longer than n and otherwise yields the denoted number;
    undefined behaviour is never reached. *)
Theorem C05_decode_limit_exact : forall n l, 2 <= n <= 8 -> bytes_ok l ->
  integer_from_chunk n l = if len l >? n then Some (false, 0) else Some (true, script_value l).
Proof. exact decode_ok. Qed.
Print Assumptions C05_decode_limit_exact.

Theorem C05_roundtrip : forall v, fits i64 v -> v <> imin i64 ->
  exists l, chunk_from_integer v = Some l /\ len l <= 9 /\
    forall n, 2 <= n <= 8 -> len l <= n -> integer_from_chunk n l = Some (true, v).
Proof.
  intros v Hf Hm. destruct (encode_ok v Hf Hm) as (l & E & Hok & Hmin & Hv). exists l. split; [exact E|].
  split; [apply (minimal_len_le l 9 Hok Hmin ltac:(lia)); rewrite Hv; unfold fits, imin, imax in Hf; cbn [sg i64 bits] in Hf; cbn; lia|].
  intros n Hn Hl. rewrite decode_ok by assumption. destruct (Z.gtb_spec (len l) n); [lia|]. rewrite Hv. reflexivity.
Qed.
Print Assumptions C05_roundtrip.

(** An integer already on the stack is rejected by the limit exactly when its
    byte encoding would be, and otherwise has the same value. *)
Theorem C05_integer_limit_matches_encoding : forall n v l,
  2 <= n <= 8 -> fits i64 v -> v <> imin i64 -> chunk_from_integer v = Some l ->
  fst (integer_from_integer n v) = (len l <=? n) /\
  (len l <= n -> Some (integer_from_integer n v) = integer_from_chunk n l).
Proof.
  intros n v l Hn Hf Hm E. rewrite (from_integer_ok n v l) by assumption.
  destruct (encode_ok v Hf Hm) as (l' & E' & Hok & _ & Hv). rewrite E in E'. inversion E'; subst l'.
  destruct (Z.gtb_spec (len l) n), (Z.leb_spec (len l) n); try lia; split; try reflexivity; intros; [lia|].
  rewrite decode_ok by assumption. destruct (Z.gtb_spec (len l) n); [lia|]. rewrite Hv. reflexivity.
Qed.
Print Assumptions C05_integer_limit_matches_encoding.

(** The minimum int64 has no defined encoding (the code asserts it away); the
    interpreter never puts it on the stack (see C07/C08). *)
Theorem C05_minimum_excluded : chunk_from_integer (imin i64) = None.
Proof. exact encode_min_undefined. Qed.
Print Assumptions C05_minimum_excluded.

Example C05_nontrivial :
  chunk_from_integer (-255) = Some [255; 128] /\ script_value [255; 128] = -255 /\
  chunk_from_integer 2147483648 = Some [0; 0; 0; 128; 0] /\
  integer_from_chunk 4 [0; 0; 0; 128; 0] = Some (false, 0) /\
  integer_from_chunk 5 [0; 0; 0; 128; 0] = Some (true, 2147483648) /\
  integer_from_chunk 4 [255; 255; 255; 255] = Some (true, -2147483647) /\
  integer_from_integer 4 2147483648 = (false, -2147483648).
Proof. repeat split; vm_compute; reflexivity. Qed.

(** ** C06 *)

(** A stack element together with the bytes it stands for. *)
Definition element_bytes (v : variant) (l : list Z) : Prop :=
  match v with
  | VBool b => l = if b then [1] else []
  | VInt i => fits i64 i /\ i <> imin i64 /\ bytes_ok l /\ minimal l /\ script_value l = i
  | VChunk c => bytes_ok c /\ l = c
  end.

Lemma element_bytes_chunk v l : element_bytes v l -> variant_chunk v = Some l.
Proof.
  destruct v as [b|i|c]; cbn [element_bytes variant_chunk].
  - intros ->. destruct b; reflexivity.
  - intros (Hf & Hm & Hok & Hmin & Hv). destruct (encode_ok i Hf Hm) as (l' & E & Hok' & Hmin' & Hv').
    rewrite E. f_equal. apply minimal_unique; try assumption. congruence.
  - intros [_ ->]. reflexivity.
Qed.

(** The bytes of an element are the ones obtained by popping it as a chunk. *)
Theorem C06_element_bytes : forall v l, element_bytes v l ->
  variant_chunk v = Some l /\ variant_size v = Some (len l).
Proof. intros v l H. apply element_bytes_chunk in H. unfold variant_size. rewrite H. split; reflexivity. Qed.
Print Assumptions C06_element_bytes.

Theorem C06_truthiness : forall v l, element_bytes v l -> (variant_bool v = true <-> truthy l).
Proof.
  intros [b|i|c] l; cbn [element_bytes variant_bool].
  - intros ->. destruct b; rewrite <- boolean_from_chunk_ok; [split; reflexivity|split; discriminate].
  - intros (_ & _ & Hok & Hmin & Hv). rewrite (minimal_truthy l Hok Hmin), Hv. unfold boolean_from_integer.
    destruct (Z.eqb_spec i 0); cbn [negb]; split; try discriminate; try lia; reflexivity.
  - intros [_ ->]. apply boolean_from_chunk_ok.
Qed.
Print Assumptions C06_truthiness.

(** Strict interpretation (and the non-empty test of NULLFAIL): true exactly for
    non-empty vectors. *)
Theorem C06_strict : forall v l, element_bytes v l ->
  (variant_strict_bool v = true <-> l <> []) /\ variant_nonempty v = variant_strict_bool v.
Proof.
  intros [b|i|c] l; cbn [element_bytes variant_strict_bool variant_nonempty].
  - intros ->. destruct b; (split; [split; [discriminate || reflexivity|congruence || reflexivity]|reflexivity]).
  - intros (_ & _ & Hok & Hmin & Hv). unfold boolean_from_integer. split; [|reflexivity].
    destruct (Z.eqb_spec i 0) as [->|N]; cbn [negb].
    + split; [discriminate|]. intros H. destruct (minimal_bound l Hok H Hmin) as [B _].
      unfold script_value in Hv. destruct (_ <? _); lia.
    + split; [|reflexivity]. intros _ ->. apply N. symmetry. exact Hv.
  - intros [_ ->]. destruct c as [|x c].
    + split; [split; [discriminate|congruence]|reflexivity].
    + split; [split; [discriminate|reflexivity]|]. cbn [boolean_from_chunk_strict]. rewrite len_cons.
      pose proof (len_nonneg c). destruct (Z.eqb_spec (1 + len c) 0); [lia|reflexivity].
Qed.
Print Assumptions C06_strict.

(** Minimal interpretation (minimal-if): accepted exactly for [] and [1]. *)
Theorem C06_minimal_bool : forall v l, element_bytes v l ->
  (fst (variant_minimal_bool v) = true <-> l = [] \/ l = [1]) /\
  (snd (variant_minimal_bool v) = true <-> truthy l).
Proof.
  intros v l H. split; [|rewrite <- (C06_truthiness v l H); destruct v as [b|i|[|x c]]; reflexivity].
  destruct v as [b|i|c]; cbn [element_bytes variant_minimal_bool fst] in *.
  - subst l. destruct b; split; auto.
  - destruct H as (_ & _ & Hok & Hmin & Hv). unfold boolean_from_integer_minimal. cbn [fst].
    assert (A0 : i = 0 <-> l = []).
    { split; intros E; [|subst l; symmetry; exact Hv]. destruct (list_eq_dec Z.eq_dec l []) as [|N]; [assumption|].
      destruct (minimal_bound l Hok N Hmin) as [B _]. unfold script_value in Hv. destruct (_ <? _); lia. }
    assert (A1 : i = 1 <-> l = [1]).
    { split; intros E; [|subst l; symmetry; exact Hv]. apply minimal_unique; try assumption.
      - constructor; [unfold byte_ok; lia|constructor].
      - right. left. discriminate.
      - rewrite Hv, E. reflexivity. }
    rewrite orb_true_iff, !Z.eqb_eq, A0, A1. reflexivity.
  - destruct H as [_ ->]. destruct c as [|x c]; cbn [boolean_from_chunk_minimal fst]; [split; auto|].
    rewrite andb_true_iff, !Z.eqb_eq, len_cons. pose proof (len_nonneg c). split.
    + intros [E ->]. right. f_equal. apply len_zero. lia.
    + intros [E|E]; [discriminate|]. inversion E; subst. split; reflexivity.
Qed.
Print Assumptions C06_minimal_bool.

(** Equality of elements is equality of their bytes, in every pairing of
    representations. *)
Theorem C06_equality : forall v w a b, element_bytes v a -> element_bytes w b ->
  exists r, equal_chunks v w = Some r /\ (r = true <-> a = b).
Proof.
  intros v w a b Hv Hw. pose proof (element_bytes_chunk _ _ Hv) as Ea. pose proof (element_bytes_chunk _ _ Hw) as Eb.
  assert (I : forall i j, element_bytes (VInt i) a -> element_bytes (VInt j) b -> (i = j <-> a = b)).
  { intros i j (_ & _ & O1 & M1 & V1) (_ & _ & O2 & M2 & V2). split; intros E.
    - apply minimal_unique; try assumption. congruence.
    - subst. reflexivity. }
  assert (B : forall x l, element_bytes (VBool x) l -> element_bytes (VInt (to_int x)) l).
  { intros x l E. cbn [element_bytes] in *. subst l. destruct x; cbn [to_int].
    - split; [unfold fits; cbn; lia|]. split; [discriminate|]. split; [constructor; [unfold byte_ok; lia|constructor]|].
      split; [right; left; discriminate|reflexivity].
    - split; [unfold fits; cbn; lia|]. split; [discriminate|]. split; [constructor|]. split; [left; reflexivity|reflexivity]. }
  destruct v as [x|i|c], w as [y|j|d]; cbn [equal_chunks variant_chunk] in *.
  - eexists. split; [reflexivity|]. cbn [element_bytes] in *. subst. destruct x, y; cbn [Bool.eqb]; split; try discriminate; reflexivity.
  - eexists. split; [reflexivity|]. rewrite Z.eqb_eq, <- (I (to_int x) j (B _ _ Hv) Hw). split; congruence.
  - eexists. split; [reflexivity|]. rewrite bytes_eqb_ok. inversion Ea; inversion Eb; subst. split; congruence.
  - eexists. split; [reflexivity|]. rewrite Z.eqb_eq, <- (I i (to_int y) Hv (B _ _ Hw)). split; congruence.
  - eexists. split; [reflexivity|]. rewrite Z.eqb_eq, <- (I i j Hv Hw). split; congruence.
  - rewrite Ea. eexists. split; [reflexivity|]. rewrite bytes_eqb_ok. inversion Eb; subst. split; congruence.
  - eexists. split; [reflexivity|]. rewrite bytes_eqb_ok. inversion Ea; inversion Eb; subst. split; congruence.
  - rewrite Eb. eexists. split; [reflexivity|]. rewrite bytes_eqb_ok. inversion Ea; subst. split; congruence.
  - eexists. split; [reflexivity|]. rewrite bytes_eqb_ok. inversion Ea; inversion Eb; subst. split; congruence.
Qed.
Print Assumptions C06_equality.

Example C06_nontrivial :
  element_bytes (VChunk [0; 128]) [0; 128] /\ variant_bool (VChunk [0; 128]) = false /\
  variant_strict_bool (VChunk [0; 128]) = true /\
  variant_bool (VChunk [128; 0]) = true /\
  element_bytes (VInt (-255)) [255; 128] /\ equal_chunks (VInt (-255)) (VChunk [255; 128]) = Some true /\
  variant_minimal_bool (VChunk [1; 0]) = (false, true).
Proof.
  repeat split; try (vm_compute; reflexivity); try (repeat constructor; unfold byte_ok; lia); try (vm_compute; congruence).
  right. right. vm_compute. split; congruence.
Qed.
