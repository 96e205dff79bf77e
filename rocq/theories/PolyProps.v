(** C46: Poly1305. *)
From Coq Require Import PeanoNat.
From Verif Require Import Base Bytes BitProofs ShaModel ShaSpec ShaProofs2 AccProofs PolySpec PolyModel PolyProofs PolyProofs2 PolyProofs3 PolyProofs4.

Lemma bytes_split n (l : list Z) : bytes_ok l -> bytes_ok (firstn n l) /\ bytes_ok (skipn n l).
Proof. unfold bytes_ok. intros H. rewrite <- (firstn_skipn n l) in H. apply Forall_app in H. exact H. Qed.
Lemma bytes_concat (bs : list (list Z)) : bytes_ok (concat bs) -> Forall bytes_ok bs.
Proof.
  unfold bytes_ok. induction bs as [|b bs IH]; intros H; [constructor|]. cbn [concat] in H. apply Forall_app in H.
  constructor; [apply H|apply IH; apply H].
Qed.
Section Poly.
Variables (widths : list nat) (key : list Z).
Hypothesis Hw : Forall (fun c => (1 <= c <= 8)%nat) widths.
Hypothesis (Hk : bytes_ok key) (Lk : length key = 32%nat).
Notation R := (clamp_r (le_value (firstn 16 key))).
Definition poly_holds (p : poly) (m : list Z) : Prop :=
  r_ p = make_r key /\ pad_ p = make_pad key /\ length (buffer_ p) = 16%nat /\ (offset_ p < 16)%nat /\ tight (h_ p) /\
  exists bs, m = concat bs ++ firstn (offset_ p) (buffer_ p) /\ Forall (fun b => length b = 16%nat) bs /\
    cong (value (h_ p)) (horner R 0 (map (num high_bit) bs)).
Lemma make_holds : poly_holds (poly_make key) [].
Proof using.
  clear. unfold poly_holds, poly_make. cbn [r_ pad_ buffer_ offset_ h_]. split; [reflexivity|]. split; [reflexivity|]. split; [reflexivity|]. split; [lia|].
  split; [unfold tight; cbn [l0 l1 l2 l3 l4]; lia|]. exists []. split; [reflexivity|]. split; [constructor|apply cong_refl].
Qed.
Lemma key_within : within 67117056 (make_r key) /\ value (make_r key) = R.
Proof using Hk Lk. destruct (clamp_ok key Hk Lk) as [W E]. split; [apply (within_wider _ _ _ W); lia|exact E]. Qed.
Lemma blocks_step hibit h bs : hibit = high_bit \/ hibit = 0 -> tight h -> Forall (fun b => bytes_ok b /\ length b = 16%nat) bs ->
  cong (value (blocks widths hibit (make_r key) h bs)) (horner R (value h) (map (num hibit) bs)) /\ tight (blocks widths hibit (make_r key) h bs).
Proof using Hw Hk Lk.
  intros Hh T F. destruct key_within as [W E]. rewrite <- E. apply (blocks_ok (make_r key) W hibit widths bs h Hw T).
  eapply Forall_impl; [|exact F]. intros b [Fb Lb]. apply load_ok; assumption.
Qed.
Lemma write_prefix i (v l : list Z) : (i + length v <= length l)%nat -> firstn (i + length v) (write_at i v l) = firstn i l ++ v.
Proof using.
  clear. intros H. unfold write_at. rewrite app_assoc, firstn_app. rewrite app_length, firstn_length, Nat.min_l by lia.
  rewrite Nat.sub_diag. cbn [firstn]. rewrite app_nil_r. apply firstn_all2. rewrite app_length, firstn_length. lia.
Qed.
Lemma write_holds p m d : poly_holds p m -> bytes_ok m -> bytes_ok d -> poly_holds (poly_write widths p d) (m ++ d).
Proof using Hw Hk Lk.
  intros HP Bm Bd. unfold poly_write.
  (* the fill *)
  match goal with |- context [let (_, _) := ?x in _] => set (X := x) end.
  assert (S1 : exists p1 d1 m1, X = (p1, d1) /\
      m ++ d = m1 ++ d1 /\ bytes_ok m1 /\ bytes_ok d1 /\ poly_holds p1 m1 /\ (offset_ p1 = 0%nat \/ d1 = [])).
  { unfold X. destruct (Nat.eqb_spec (offset_ p) 0) as [E0|N0].
    - exists p, d, m. split; [reflexivity|]. split; [reflexivity|]. auto.
    - destruct HP as (Er & Ep & Lb & Lo & T & bs & Em & Fb & C). cbv zeta.
      set (fill := Nat.min (length d) (16 - offset_ p)).
      assert (Lf : length (firstn fill d) = fill) by (rewrite firstn_length; unfold fill; lia).
      set (buffer := write_at (offset_ p) (firstn fill d) (buffer_ p)).
      assert (LB : length buffer = 16%nat) by (unfold buffer; rewrite write_at_length by (rewrite Lf; unfold fill; lia); exact Lb).
      assert (PB : firstn (offset_ p + fill) buffer = firstn (offset_ p) (buffer_ p) ++ firstn fill d).
      { unfold buffer. rewrite <- Lf at 1. apply write_prefix. rewrite Lf. unfold fill. lia. }
      destruct (bytes_split fill d Bd) as [Bd1 Bd2].
      assert (Bm1 : bytes_ok (m ++ firstn fill d)) by (unfold bytes_ok in *; apply Forall_app; split; assumption).
      destruct (Nat.eqb_spec (offset_ p + fill) 16) as [E16|N16].
      + rewrite E16 in PB. rewrite firstn_all2 in PB by lia.
        assert (Bb : bytes_ok buffer).
        { rewrite PB. unfold bytes_ok in *. apply Forall_app. split; [|exact Bd1]. rewrite Em in Bm. apply Forall_app in Bm. apply Bm. }
        destruct (blocks_step high_bit (h_ p) [buffer]) as [C2 T2]; [left; reflexivity|exact T|constructor; [split; assumption|constructor]|].
        exists (Poly (r_ p) (blocks widths high_bit (r_ p) (h_ p) [buffer]) (pad_ p) buffer 0), (skipn fill d), (m ++ firstn fill d).
        split; [reflexivity|]. split; [rewrite <- app_assoc, firstn_skipn; reflexivity|]. split; [exact Bm1|]. split; [exact Bd2|].
        split; [|left; reflexivity]. unfold poly_holds. cbn [r_ pad_ buffer_ offset_ h_]. rewrite Er.
        split; [reflexivity|]. split; [exact Ep|]. split; [exact LB|]. split; [lia|]. split; [exact T2|]. exists (bs ++ [buffer]). split; [|split].
        * rewrite concat_app. cbn [concat firstn]. rewrite !app_nil_r, PB, Em, !app_assoc. reflexivity.
        * apply Forall_app. split; [exact Fb|]. constructor; [exact LB|constructor].
        * rewrite map_app, horner_app. eapply cong_trans; [exact C2|]. apply horner_cong. exact C.
      + exists (Poly (r_ p) (h_ p) (pad_ p) buffer (offset_ p + fill)), (skipn fill d), (m ++ firstn fill d).
        split; [reflexivity|]. split; [rewrite <- app_assoc, firstn_skipn; reflexivity|]. split; [exact Bm1|]. split; [exact Bd2|].
        split; [|right; apply skipn_all2; unfold fill in *; lia]. unfold poly_holds. cbn [r_ pad_ buffer_ offset_ h_].
        split; [exact Er|]. split; [exact Ep|]. split; [exact LB|]. split; [unfold fill in *; lia|]. split; [exact T|]. exists bs. split; [|split; assumption].
        rewrite PB, Em, app_assoc. reflexivity. }
  destruct S1 as (p1 & d1 & m1 & EX & EM & Bm1 & Bd1 & HP1 & Off). rewrite EX, EM. clear X EX EM HP Bm Bd p d m.
  destruct (Nat.eqb_spec (length d1) 0) as [E0|N0].
  { destruct d1; [|discriminate]. rewrite app_nil_r. exact HP1. }
  destruct Off as [Off|Off]; [|rewrite Off in N0; elim N0; reflexivity].
  destruct HP1 as (Er & Ep & Lb & Lo & T & bs & Em & Fb & C). rewrite Off in Em. cbn [firstn] in Em. rewrite app_nil_r in Em.
  set (whole := (length d1 / 16)%nat).
  assert (DW : (length d1 = 16 * whole + length d1 mod 16)%nat) by (apply Nat.div_mod; lia).
  pose proof (Nat.mod_upper_bound (length d1) 16 ltac:(lia)) as MW.
  destruct (chunks_concat 16 whole d1 ltac:(lia)) as [EC FC]. cbv zeta.
  assert (FB : Forall (fun b => bytes_ok b /\ length b = 16%nat) (chunks 16 whole d1)).
  { assert (BB : Forall bytes_ok (chunks 16 whole d1)).
    { apply bytes_concat. rewrite <- EC in Bd1. unfold bytes_ok in *. apply Forall_app in Bd1. apply Bd1. }
    rewrite Forall_forall in *. intros b Hb. split; [apply BB|apply FC]; exact Hb. }
  destruct (blocks_step high_bit (h_ p1) (chunks 16 whole d1) (or_introl eq_refl) T FB) as [C2 T2].
  set (rest := skipn (whole * 16) d1) in *.
  assert (LR : (length rest < 16)%nat) by (unfold rest; rewrite skipn_length; lia).
  unfold poly_holds. cbn [r_ pad_ buffer_ offset_ h_]. rewrite Er. split; [reflexivity|]. split; [exact Ep|].
  split; [rewrite write_at_length by lia; exact Lb|]. split; [exact LR|]. split; [exact T2|].
  - exists (bs ++ chunks 16 whole d1). split; [|split].
    + rewrite concat_app, Em, <- app_assoc. f_equal. rewrite <- EC at 1. f_equal. symmetry.
      apply (write_prefix 0 rest (buffer_ p1)). lia.
    + apply Forall_app. split; assumption.
    + rewrite map_app, horner_app. eapply cong_trans; [exact C2|]. apply horner_cong. exact C.
Qed.
Lemma acc_horner (bs : list (list Z)) : poly_acc R bs = horner R 0 (map block_number bs) mod P1305.
Proof using.
  clear. unfold poly_acc. assert (G : forall a, fold_left (fun acc b => ((acc + block_number b) * R) mod P1305) bs (a mod P1305) = horner R a (map block_number bs) mod P1305).
  { induction bs as [|b bs IH]; intros a; cbn [fold_left map]; [reflexivity|]. rewrite horner_cons.
    rewrite <- IH. f_equal. rewrite Z.mul_mod by discriminate. rewrite Zplus_mod_idemp_l. rewrite <- Z.mul_mod by discriminate. reflexivity. }
  exact (G 0).
Qed.
Lemma flush_holds p m : poly_holds p m -> bytes_ok m -> poly_flush widths p = Poly1305 key m.
Proof using Hw Hk Lk.
  intros (Er & Ep & Lb & Lo & T & bs & Em & Fb & C) Bm. unfold poly_flush, Poly1305. cbv zeta. rewrite Er, Ep.
  set (t := firstn (offset_ p) (buffer_ p)) in *.
  assert (Lt : length t = offset_ p) by (unfold t; rewrite firstn_length; lia).
  assert (NB : map block_number bs = map (num high_bit) bs).
  { apply map_ext_in. intros b Hb. rewrite Forall_forall in Fb. unfold block_number, num. rewrite le_value_app. unfold len. rewrite (Fb b Hb).
    cbn [le_value]. change (256 ^ Z.of_nat 16) with (2 ^ 128). change high_bit with (2 ^ 24). rewrite <- Z.pow_add_r by lia. change (24 + 104) with 128. ring. }
  assert (SP : split 16 m = bs ++ (if Nat.eqb (offset_ p) 0 then [] else [t])).
  { rewrite Em. unfold split. rewrite (split_every_app 16 ltac:(lia) bs t _ Fb) by lia. f_equal.
    assert (LC : length (concat bs) = (length bs * 16)%nat) by (apply concat_length; exact Fb).
    destruct (Nat.eqb_spec (offset_ p) 0) as [E|N].
    - destruct t; [|cbn [length] in Lt; lia]. destruct (_ - _)%nat; reflexivity.
    - destruct t as [|x t'] eqn:Et; [cbn [length] in Lt; lia|]. rewrite <- Et in *.
      replace (length (concat bs ++ t) - length bs)%nat with (S (length (concat bs ++ t) - length bs - 1)) by (rewrite app_length; lia).
      cbn [split_every]. rewrite firstn_all2, skipn_all2 by lia. rewrite Et at 1.
      destruct (_ - 1)%nat; reflexivity. }
  rewrite SP, acc_horner, map_app, horner_app, NB.
  destruct (Nat.eqb_spec (offset_ p) 0) as [E|N].
  - rewrite (tag_value _ key Hk Lk T). cbn [map]. unfold horner at 1. cbn [fold_left]. rewrite (cong_eq_mod _ _ C). reflexivity.
  - set (b := t ++ [1] ++ repeat 0 (16 - S (offset_ p))).
    assert (Bb : bytes_ok b /\ length b = 16%nat).
    { split; [|unfold b; rewrite !app_length, repeat_length; cbn [length]; lia]. unfold b, bytes_ok in *. apply Forall_app. split.
      - rewrite Em in Bm. apply Forall_app in Bm. apply Bm.
      - apply Forall_app. split; [repeat constructor; unfold byte_ok; lia|]. apply Forall_forall. intros x Hx. apply repeat_spec in Hx. subst x. unfold byte_ok. lia. }
    destruct (blocks_step 0 (h_ p) [b]) as [C2 T2]; [right; reflexivity|exact T|constructor; [exact Bb|constructor]|].
    rewrite (tag_value _ key Hk Lk T2). f_equal. f_equal. f_equal. apply cong_eq_mod. eapply cong_trans; [exact C2|].
    assert (E : map (num 0) [b] = map block_number [t]).
    { cbn [map]. f_equal. unfold num, block_number, b. rewrite app_assoc, le_value_app, le_value_repeat0. lia. }
    rewrite E. apply horner_cong. exact C.
Qed.
End Poly.

(** For every one-time key, every division of the message into writes, and every
    set of vector widths (eight, four or two lanes) the processor offers, the
    tag is RFC 8439's. *)
Theorem C46_poly1305 widths key ds : Forall (fun c => In c [8; 4; 2]%nat) widths -> bytes_ok key -> length key = 32%nat -> Forall bytes_ok ds ->
  poly_flush widths (fold_left (poly_write widths) ds (poly_make key)) = Poly1305 key (concat ds).
Proof.
  intros Hw Hk Lk Hd.
  assert (Hw' : Forall (fun c => (1 <= c <= 8)%nat) widths).
  { eapply Forall_impl; [|exact Hw]. intros c Hc. cbn [In] in Hc. lia. }
  assert (G : forall ds p m, poly_holds key p m -> bytes_ok m -> Forall bytes_ok ds -> 
    poly_holds key (fold_left (poly_write widths) ds p) (m ++ concat ds) /\ bytes_ok (m ++ concat ds)).
  { clear ds Hd. induction ds as [|d ds IH]; intros p m HP Bm F; cbn [fold_left concat]; [rewrite app_nil_r; split; assumption|].
    pose proof (Forall_inv F) as Fd. rewrite app_assoc. apply IH; [apply (write_holds widths key Hw' Hk Lk); assumption| |exact (Forall_inv_tail F)].
    unfold bytes_ok in *. apply Forall_app. split; assumption. }
  destruct (G ds (poly_make key) [] (make_holds key) ltac:(constructor) Hd) as [HP Bm].
  apply (flush_holds widths key Hw' Hk Lk); assumption.
Qed.
Print Assumptions C46_poly1305.
(** Two divisions of the same message agree, whatever the processors. *)
Theorem C46_split_independent w1 w2 key ds1 ds2 : Forall (fun c => In c [8; 4; 2]%nat) w1 -> Forall (fun c => In c [8; 4; 2]%nat) w2 ->
  bytes_ok key -> length key = 32%nat -> Forall bytes_ok ds1 -> Forall bytes_ok ds2 -> concat ds1 = concat ds2 ->
  poly_flush w1 (fold_left (poly_write w1) ds1 (poly_make key)) = poly_flush w2 (fold_left (poly_write w2) ds2 (poly_make key)).
Proof. intros. rewrite !C46_poly1305 by assumption. congruence. Qed.
Print Assumptions C46_split_independent.
(** RFC 8439 2.5.2, in three writes. *)
Definition rfc_key : list Z := [0x85; 0xd6; 0xbe; 0x78; 0x57; 0x55; 0x6d; 0x33; 0x7f; 0x44; 0x52; 0xfe; 0x42; 0xd5; 0x06; 0xa8;
  0x01; 0x03; 0x80; 0x8a; 0xfb; 0x0d; 0xb2; 0xfd; 0x4a; 0xbf; 0xf6; 0xaf; 0x41; 0x49; 0xf5; 0x1b].
Definition rfc_message : list Z := [0x43; 0x72; 0x79; 0x70; 0x74; 0x6f; 0x67; 0x72; 0x61; 0x70; 0x68; 0x69; 0x63; 0x20; 0x46; 0x6f;
  0x72; 0x75; 0x6d; 0x20; 0x52; 0x65; 0x73; 0x65; 0x61; 0x72; 0x63; 0x68; 0x20; 0x47; 0x72; 0x6f; 0x75; 0x70].
Example C46_rfc8439 : Poly1305 rfc_key rfc_message =
  [0xa8; 0x06; 0x1d; 0xc1; 0x30; 0x51; 0x36; 0xc6; 0xc2; 0x2b; 0x8b; 0xaf; 0x0c; 0x01; 0x27; 0xa9].
Proof. vm_compute. reflexivity. Qed.
Example C46_sat : poly_flush [8; 4; 2]%nat (fold_left (poly_write [8; 4; 2]%nat) [firstn 5 rfc_message; []; skipn 5 rfc_message] (poly_make rfc_key)) =
  Poly1305 rfc_key rfc_message.
Proof.
  rewrite C46_poly1305; [reflexivity| | |reflexivity|].
  - apply Forall_forall. intros c Hc. exact Hc.
  - unfold rfc_key, bytes_ok, byte_ok. repeat constructor; lia.
  - repeat constructor; unfold byte_ok; lia.
Qed.
