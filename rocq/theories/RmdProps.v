(** C65: RIPEMD-160 and RIPEMD-128 are the published functions, in one call or
    in any sequence of writes. *)
From Coq Require Import PeanoNat.
From Verif Require Import Base Bytes ShaModel ShaSpec ShaProofs6 AccModel AccProofs RmdModel RmdSpec RmdProofs RmdProofs2 ShaProps.

Definition rmd_algorithms : list (rmd * (list Z -> list Z)) := [(rmd160, RIPEMD160); (rmd128, RIPEMD128)].

Lemma by_rmd (P : rmd -> (list Z -> list Z) -> Prop) A Hf : In (A, Hf) rmd_algorithms ->
  (forall A mix n Hf, rsound A mix n -> (forall m, MD (rmd_algorithm A) (fun st b => mix st (r_words b)) m = Hf m) -> P A Hf) ->
  P A Hf.
Proof.
  intros HI HP. destruct HI as [E|[E|[]]]; injection E as <- <-.
  - apply (HP _ rmix160 5%nat _ rsound160). apply rMD_160.
  - apply (HP _ rmix128 4%nat _ rsound128). apply rMD_128.
Qed.

Theorem C65_hash A Hf : In (A, Hf) rmd_algorithms -> forall checked d, len d < max_message ->
  hash (rmd_algorithm A) checked d = Hf d /\ hash_array (rmd_algorithm A) checked d = Hf d.
Proof.
  intros HI. apply (by_rmd (fun A Hf => forall checked d, len d < max_message ->
    hash (rmd_algorithm A) checked d = Hf d /\ hash_array (rmd_algorithm A) checked d = Hf d) A Hf HI).
  clear. intros A mix n Hf So Sp checked d Hd. rewrite <- Sp. apply (r_hash_ok A mix n So). exact Hd.
Qed.
Print Assumptions C65_hash.

Theorem C65_chunking A Hf : In (A, Hf) rmd_algorithms -> forall checked ds, len (concat ds) < max_message ->
  let AL := rmd_algorithm A in
  let (ok, a) := feed AL checked (construct AL) ds in ok = true /\ fst (flush AL checked a) = Hf (concat ds).
Proof.
  intros HI. apply (by_rmd (fun A Hf => forall checked ds, len (concat ds) < max_message ->
    let AL := rmd_algorithm A in
    let (ok, a) := feed AL checked (construct AL) ds in ok = true /\ fst (flush AL checked a) = Hf (concat ds)) A Hf HI).
  clear. intros A mix n Hf So Sp checked ds Hs. cbv zeta.
  pose proof (rmd_md A mix n So) as M.
  destruct (feed_holds _ _ _ M checked ds _ [] (holds_construct _ _ _ M)) as (a & E & Ha).
  { change (len (@nil Z)) with 0. apply max_lt. exact Hs. }
  rewrite E. split; [reflexivity|]. cbn [app] in Ha. rewrite <- Sp. apply (flush_holds _ _ _ M); assumption.
Qed.
Print Assumptions C65_chunking.

Theorem C65_reset A Hf : In (A, Hf) rmd_algorithms -> forall checked ds ds',
  len (concat ds) < max_message -> len (concat ds') < max_message ->
  let AL := rmd_algorithm A in
  let used := snd (flush AL checked (snd (feed AL checked (construct AL) ds))) in
  let (ok, a) := feed AL checked (reset AL used) ds' in ok = true /\ fst (flush AL checked a) = Hf (concat ds').
Proof.
  intros HI. apply (by_rmd (fun A Hf => forall checked ds ds',
    len (concat ds) < max_message -> len (concat ds') < max_message ->
    let AL := rmd_algorithm A in
    let used := snd (flush AL checked (snd (feed AL checked (construct AL) ds))) in
    let (ok, a) := feed AL checked (reset AL used) ds' in ok = true /\ fst (flush AL checked a) = Hf (concat ds')) A Hf HI).
  clear. intros A mix n Hf So Sp checked ds ds' Hs Hs'. cbv zeta.
  pose proof (rmd_md A mix n So) as M. set (AL := rmd_algorithm A) in *.
  destruct (feed_holds _ _ _ M checked ds _ [] (holds_construct _ _ _ M)) as (a & E & Ha).
  { change (len (@nil Z)) with 0. apply max_lt. exact Hs. }
  rewrite E. cbn [app snd] in *.
  assert (Lb : length (buffer_ (snd (flush AL checked a))) = block_bytes AL).
  { unfold flush. destruct (is_empty AL a); cbn [snd]; [destruct Ha as (? & ? & ? & ? & ? & ? & ? & L & _); exact L|].
    destruct (pad_holds _ _ _ M checked a _ Ha Hs) as (? & ? & ? & ? & ? & ? & ? & L & _). exact L. }
  assert (Hr : holds_ AL (fun st b => mix st (r_words b)) (reset AL (snd (flush AL checked a))) []).
  { exists [], []. unfold reset, reset_to. cbn [size_ state_ buffer_]. repeat split; try constructor; try exact Lb.
    cbn [length]. pose proof (m_C _ _ _ M). lia. }
  destruct (feed_holds _ _ _ M checked ds' _ [] Hr) as (a' & E' & Ha').
  { change (len (@nil Z)) with 0. apply max_lt. exact Hs'. }
  rewrite E'. split; [reflexivity|]. cbn [app] in Ha'. rewrite <- Sp. apply (flush_holds _ _ _ M); assumption.
Qed.
Print Assumptions C65_reset.

(** Published vectors for "abc". *)
Example C65_abc : In (rmd128, RIPEMD128) rmd_algorithms /\ len [97; 98; 99] < max_message /\
  RIPEMD160 [97; 98; 99] = be_bytes 20 0x8eb208f7e05d987a9b044a8e98c6b087f15a0bfc /\
  RIPEMD128 [97; 98; 99] = be_bytes 16 0xc14a12199c66e4ba84636b0f69144c77.
Proof.
  split; [right; left; reflexivity|]. split; [reflexivity|]. split.
  - destruct (C65_hash rmd160 RIPEMD160 (or_introl eq_refl) false [97; 98; 99] eq_refl) as [<- _]. vm_compute. reflexivity.
  - destruct (C65_hash rmd128 RIPEMD128 (or_intror (or_introl eq_refl)) false [97; 98; 99] eq_refl) as [<- _]. vm_compute. reflexivity.
Qed.
