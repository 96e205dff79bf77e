(** * C91: TIFF images. *)
From Verif Require Import Base Bytes TiffModel TiffSpec.

Lemma four (x : Z) : 0 <= x < 2 ^ 32 -> exists a b c d, be_bytes 4 x = [a; b; c; d] /\ be_value [a; b; c; d] = x.
Proof.
  intros R. pose proof (be_bytes_length 4 x) as L. pose proof (be_value_bytes_small 4 x R) as V. destruct (be_bytes 4 x) as [|a [|b [|c [|d [|]]]]]; try discriminate. exists a, b, c, d. auto.
Qed.
Lemma digit10 k : 0 <= k < 10 -> k = 0 \/ k = 1 \/ k = 2 \/ k = 3 \/ k = 4 \/ k = 5 \/ k = 6 \/ k = 7 \/ k = 8 \/ k = 9.
Proof. lia. Qed.
Definition layout (w0 w1 w2 w3 r0 r1 r2 r3 s0 s1 s2 s3 : Z) (data : list Z) : list Z :=
  [77; 77; 0; 42; 0; 0; 0; 8; 0; 10;
   1; 0; 0; 4; 0; 0; 0; 1; w0; w1; w2; w3;
   1; 1; 0; 4; 0; 0; 0; 1; r0; r1; r2; r3;
   1; 3; 0; 3; 0; 0; 0; 1; 0; 1; 0; 0;
   1; 6; 0; 3; 0; 0; 0; 1; 0; 0; 0; 0;
   1; 17; 0; 4; 0; 0; 0; 1; 0; 0; 0; 156;
   1; 22; 0; 4; 0; 0; 0; 1; r0; r1; r2; r3;
   1; 23; 0; 4; 0; 0; 0; 1; s0; s1; s2; s3;
   1; 26; 0; 5; 0; 0; 0; 1; 0; 0; 0; 136;
   1; 27; 0; 5; 0; 0; 0; 1; 0; 0; 0; 144;
   1; 40; 0; 3; 0; 0; 0; 1; 0; 1; 0; 0;
   0; 0; 0; 0; 0; 0;
   0; 0; 0; 72; 0; 0; 0; 1; 0; 0; 0; 72; 0; 0; 0; 1;
   186; 173; 240; 13] ++ data.
Lemma layout_ok w0 w1 w2 w3 r0 r1 r2 r3 s0 s1 s2 s3 data width height :
  be_value [w0; w1; w2; w3] = width -> be_value [r0; r1; r2; r3] = height -> be_value [s0; s1; s2; s3] = len data -> len data = height * ((width + 7) / 8) ->
  bilevel_file (layout w0 w1 w2 w3 r0 r1 r2 r3 s0 s1 s2 s3 data) data width height no_unit.
Proof.
  intros Hw Hr Hs Hl. set (file := layout _ _ _ _ _ _ _ _ _ _ _ _ data).
  assert (D : directory file = 8) by reflexivity. assert (F : fields_of file = 10) by reflexivity.
  assert (T : forall k, 0 <= k < 10 -> tag file k = nth (Z.to_nat k) [256; 257; 259; 262; 273; 278; 279; 282; 283; 296] 0).
  { intros k H. destruct (digit10 k H) as [->|[->|[->|[->|[->|[->|[->|[->|[->| ->]]]]]]]]]; reflexivity. }
  unfold bilevel_file, long_field, short_field, ratio_field. rewrite F. split; [reflexivity|]. split; [reflexivity|]. split; [rewrite D; reflexivity|]. split.
  { intros j k Hj Hk. rewrite !T by lia. assert (Hk' : 0 <= k < 10) by lia. assert (Hj' : 0 <= j < 10) by lia.
    destruct (digit10 k Hk') as [->|[->|[->|[->|[->|[->|[->|[->|[->| ->]]]]]]]]]; destruct (digit10 j Hj') as [->|[->|[->|[->|[->|[->|[->|[->|[->| ->]]]]]]]]]; lia || reflexivity. }
  split; [reflexivity|].
  split; [exists 0; do 4 (split; [lia || reflexivity|]); exact Hw|].
  split; [exists 1; do 4 (split; [lia || reflexivity|]); exact Hr|].
  split; [exists 2; do 4 (split; [lia || reflexivity|]); reflexivity|].
  split; [exists 3; do 4 (split; [lia || reflexivity|]); reflexivity|].
  split; [exists 5; do 4 (split; [lia || reflexivity|]); exact Hr|].
  split; [exists 6; do 4 (split; [lia || reflexivity|]); exact Hs|].
  split; [exact Hl|].
  split; [exists 7; do 4 (split; [lia || reflexivity|]); split; [|split]; reflexivity|].
  split; [exists 8; do 4 (split; [lia || reflexivity|]); split; [|split]; reflexivity|].
  split; [exists 9; do 4 (split; [lia || reflexivity|]); reflexivity|].
  exists 156. split; [exists 4; do 4 (split; [lia || reflexivity|]); reflexivity|].
  change (skipn (Z.to_nat 156) file) with data. apply firstn_all.
Qed.
(** An image is made exactly of some whole rows of a width that is not 0; the
    file made is a TIFF file of those rows. *)
Theorem C90_accepts data width : 0 <= width < 2 ^ 16 ->
  (exists file, to_image data width = Some file) <-> 0 < width /\ 0 < len data < 2 ^ 32 /\ exists rows, len data = rows * ((width + 7) / 8).
Proof.
  intros W. unfold to_image, max_image_bytes. pose proof (len_nonneg data) as L. change (2 ^ 32) with 4294967296.
  destruct (Z.eqb_spec width 0) as [->|Nw]; cbn [orb]; [split; [intros [f H]; discriminate|intros [H _]; lia]|].
  destruct (Z.eqb_spec (len data) 0) as [Z0|Nl]; [split; [intros [f H]; discriminate|lia]|].
  destruct (Z.gtb_spec (len data) 4294967295) as [G|G]; [split; [intros [f H]; discriminate|lia]|]. cbv zeta.
  assert (Rp : 0 < (width + 7) / 8) by (apply Z.div_str_pos; lia).
  destruct (Z.eqb_spec (len data mod ((width + 7) / 8)) 0) as [M|M]; cbn [negb].
  - split; [|intros _; eexists; reflexivity]. intros _. split; [lia|]. split; [lia|]. exists (len data / ((width + 7) / 8)). pose proof (Z.div_mod (len data) ((width + 7) / 8) ltac:(lia)). lia.
  - split; [intros [f H]; discriminate|]. intros (_ & _ & rows & E). exfalso. apply M. rewrite E. apply Z.mod_mul. lia.
Qed.
Print Assumptions C90_accepts.
Theorem C90_image_partial data width file : 0 <= width < 2 ^ 16 -> to_image data width = Some file ->
  exists height, bilevel_file file data width height no_unit.
Proof.
  intros W H. pose proof (proj1 (C90_accepts data width W) (ex_intro _ file H)) as (Pw & Pl & rows & E).
  assert (Rp : 0 < (width + 7) / 8) by (apply Z.div_str_pos; lia). assert (Er : len data / ((width + 7) / 8) = rows) by (rewrite E; apply Z.div_mul; lia).
  unfold to_image, max_image_bytes in H. destruct ((width =? 0) || (len data =? 0)); [discriminate|]. destruct (len data >? 4294967295); [discriminate|]. cbv zeta in H.
  destruct (negb (len data mod ((width + 7) / 8) =? 0)); [discriminate|]. rewrite Er in H. apply (f_equal (fun o => match o with Some f => f | None => [] end)) in H. cbn iota beta in H. exists rows. change (2 ^ 16) with 65536 in W. change (2 ^ 32) with 4294967296 in Pl.
  destruct (four width ltac:(change (2 ^ 32) with 4294967296; lia)) as (w0 & w1 & w2 & w3 & Ew & Vw).
  destruct (four rows ltac:(change (2 ^ 32) with 4294967296; nia)) as (r0 & r1 & r2 & r3 & Ew2 & Vr).
  destruct (four (len data) ltac:(change (2 ^ 32) with 4294967296; lia)) as (s0 & s1 & s2 & s3 & Es & Vs).
  unfold entry_full, w4 in H. rewrite Ew, Ew2, Es in H. rewrite <- H. exact (layout_ok w0 w1 w2 w3 r0 r1 r2 r3 s0 s1 s2 s3 data width rows Vw Vr Vs E).
Qed.
Print Assumptions C90_image_partial.
(** The resolution is not per inch as meant: the unit written is 1. *)
Theorem C90_inch_refuted : ~ (forall data width file, 0 <= width < 2 ^ 16 -> to_image data width = Some file -> exists height, bilevel_file file data width height inch).
Proof.
  intros H. destruct (H [170; 1] 8 (layout 0 0 0 8 0 0 0 2 0 0 0 2 [170; 1]) ltac:(lia) eq_refl) as [h B]. destruct B as (_ & _ & _ & _ & _ & _ & _ & _ & _ & _ & _ & _ & _ & _ & U & _).
  destruct U as (k & K & T & _ & _ & V). set (file := layout _ _ _ _ _ _ _ _ _ _ _ _ _) in *. change (fields_of file) with 10 in K.
  destruct (digit10 k K) as [->|[->|[->|[->|[->|[->|[->|[->|[->| ->]]]]]]]]]; vm_compute in T, V; discriminate.
Qed.
Print Assumptions C90_inch_refuted.
Example C90_ex : exists file, to_image [170; 1; 85; 0; 255; 7] 9 = Some file /\ len file = 162 /\ bilevel_file file [170; 1; 85; 0; 255; 7] 9 3 no_unit /\ to_image [1; 2; 3] 9 = None.
Proof.
  eexists. split; [reflexivity|]. split; [reflexivity|]. split; [|reflexivity]. refine (layout_ok 0 0 0 9 0 0 0 3 0 0 0 6 [170; 1; 85; 0; 255; 7] 9 3 _ _ _ _); reflexivity.
Qed.
