(** Hash sinks and the messages of the signature hashes. *)
From Verif Require Import Base Bytes MathModel ShaModel ShaSpec ShaProofs3 ShaProofs4 ShaProofs6 AccModel AccProofs
  ShaProofs7 ShaProofs8 ShaProofs9 ShaProofs10 ShaProps KdfSpec KdfModel KdfProofs KdfProofs2 KdfProps.
From Verif Require Import StreamModel OpModel ChainModel ChainSpec InterpEnv SighashSpec SighashModel.

Section S.
Variables (checked s8 : bool) (widths : list nat).
Notation AL := (sha_algorithm sha256 s8 widths).
Notation mixer := (fun st b => mix2 SHA256_params st (words_of sha256 b)).
Lemma M256 : md_sound AL mixer (words_ok sha256 (state_words sha256)).
Proof. exact (sha_md sha256 _ sound256 s8 widths). Qed.
Lemma flush_256 a m : holds_ AL mixer a m -> len m < max_message -> fst (flush AL checked a) = SHA256 m.
Proof. intros Ha Hs. rewrite <- (MD_256 s8 widths). apply (flush_holds _ _ _ M256); [exact Ha|]. exact Hs. Qed.
Lemma writes_256 ds : forall a m, holds_ AL mixer a m -> len m + len (concat ds) < max_message ->
  holds_ AL mixer (SighashModel.writes checked s8 widths a ds) (m ++ concat ds).
Proof.
  intros a m Ha Hs. apply (writes_hold AL mixer _ M256 checked ds a m Ha). apply max_lt. exact Hs.
Qed.
Lemma sha256_length m : length (SHA256 m) = 32%nat.
Proof. apply (h_length _ _ _ (hashed_sha256 s8 widths)). Qed.

Lemma sink_ok ds : len (concat ds) < max_message -> sha256_sink checked s8 widths ds = SHA256 (concat ds).
Proof. intros Hs. apply flush_256; [|exact Hs]. apply (writes_256 ds _ []); [apply (holds_construct _ _ _ M256)|exact Hs]. Qed.
Lemma sink2_ok ds : len (concat ds) < max_message -> sha256x2_sink checked s8 widths ds = dSHA256 (concat ds).
Proof.
  intros Hs. unfold sha256x2_sink, SighashModel.sha.
  assert (Ha : holds_ AL mixer (SighashModel.writes checked s8 widths (construct AL) ds) (concat ds)).
  { apply (writes_256 ds _ []); [apply (holds_construct _ _ _ M256)|exact Hs]. }
  unfold SighashModel.sha in *.
  set (a := SighashModel.writes checked s8 widths (construct AL) ds) in *.
  assert (Lb : length (buffer_ (snd (flush AL checked a))) = block_bytes AL).
  { unfold flush. destruct (is_empty AL a); cbn [snd]; [destruct Ha as (? & ? & ? & ? & ? & ? & ? & L & _); exact L|].
    destruct (pad_holds _ _ _ M256 checked a _ Ha Hs) as (? & ? & ? & ? & ? & ? & ? & L & _). exact L. }
  pose proof (flush_256 a _ Ha Hs) as F. destruct (flush AL checked a) as [h b]. cbn [fst snd] in *. subst h.
  assert (Hr : holds_ AL mixer (reset AL b) []).
  { exists [], []. unfold reset, reset_to. cbn [size_ state_ buffer_]. repeat split; try constructor; try exact Lb.
    cbn [length]. pose proof (m_C _ _ _ M256). lia. }
  assert (L32 : len (SHA256 (concat ds)) = 32) by (unfold len; rewrite sha256_length; reflexivity).
  destruct (write_holds AL mixer _ M256 checked (reset AL b) [] (SHA256 (concat ds)) Hr) as (a2 & E2 & H2).
  { rewrite L32. change (len (@nil Z)) with 0. lia. }
  rewrite E2. cbn [snd app] in *. apply flush_256; [exact H2|]. rewrite L32. reflexivity.
Qed.
Lemma midstate_ok tag : (length tag <= 55)%nat ->
  holds_ AL mixer (construct_at AL checked (midstate s8 (simple_hash sha256 s8 tag) (simple_hash sha256 s8 tag)) 1)
    (SHA256 tag ++ SHA256 tag).
Proof.
  intros Lt. destruct (C64_parts sha256 SHA256 (or_intror (or_introl eq_refl)) s8 tag []) as (_ & _ & Sh).
  rewrite Sh by (change (ShaModel.block_size sha256) with 64%nat; change (word_bytes sha256) with 4%nat; lia).
  assert (L : length (SHA256 tag) = half_size sha256) by apply sha256_length.
  destruct (halves_words sha256 _ sound256 _ _ L L) as (Lw & E & Lb). unfold midstate.
  destruct (compress_block sha256 _ sound256 (ShaModel.H sha256) _ (SHA256 tag ++ SHA256 tag) s8 (s_H _ _ sound256) Lw E) as [E1 O1]. rewrite E1.
  assert (Hc : construct_at AL checked (mixer (ShaModel.H sha256) (SHA256 tag ++ SHA256 tag)) 1 = mkacc 64 (mixer (ShaModel.H sha256) (SHA256 tag ++ SHA256 tag)) (repeat 0 64)).
  { unfold construct_at. change (1 * B AL) with 64. change (64 mod 2 ^ 64) with 64. change (2 ^ 64 <=? 64) with false.
    destruct checked; [|reflexivity]. cbn [andb].
    match goal with |- context [is_buffer_overflow AL true ?a 64] => pose proof (no_overflow _ _ _ M256 true a (repeat 0 64) ltac:(cbn [size_]; lia) ltac:(cbn [size_]; change (len (repeat 0 64)) with 64; lia)) as O end.
    change (len (repeat 0 64)) with 64 in O. rewrite O. reflexivity. }
  rewrite Hc. exists [SHA256 tag ++ SHA256 tag], []. cbn [concat size_ state_ buffer_]. rewrite !app_nil_r.
  split; [exact eq_refl|]. split; [constructor; [exact Lb|constructor]|]. split; [cbn [length]; change (block_bytes AL) with 64%nat; lia|].
  split; [rewrite len_app; unfold len; rewrite sha256_length; reflexivity|]. split; [exact eq_refl|].
  split; [apply repeat_length|exact eq_refl].
Qed.
Lemma sinkt_ok tag ds : (length tag <= 55)%nat -> len (concat ds) < 2 ^ 60 -> sha256t_sink checked s8 widths tag ds = tagged tag (concat ds).
Proof.
  intros Lt Hs. unfold sha256t_sink, tagged. rewrite app_assoc.
  assert (L64 : len (SHA256 tag ++ SHA256 tag) = 64) by (rewrite len_app; unfold len; rewrite sha256_length; reflexivity).
  assert (Hm : 64 + len (concat ds) < max_message) by (unfold max_message; change (2 ^ 60) with 1152921504606846976 in Hs; change (2 ^ 61) with 2305843009213693952; change (2 ^ 40) with 1099511627776; lia).
  apply flush_256; [|rewrite len_app, L64; exact Hm].
  apply writes_256; [apply midstate_ok; exact Lt|]. rewrite L64. exact Hm.
Qed.
End S.
