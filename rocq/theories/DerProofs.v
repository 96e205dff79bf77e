From Verif Require Import Base Bytes RadixProofs3 DerModel DerSpec.

Lemma high_bit b : byte_ok b -> (Z.land b 128 =? 0) = (b <? 128).
Proof.
  intros H. assert (C : forallb (fun b => Bool.eqb (Z.land b 128 =? 0) (b <? 128)) (range 256) = true) by (vm_compute; reflexivity).
  pose proof (forall_range _ 256 C b H) as C'. cbv beta in C'. apply eqb_prop in C'. exact C'.
Qed.
Lemma sat_app_r a b i : len a <= i -> sat (a ++ b) i = sat b (i - len a).
Proof.
  intros H. unfold sat. pose proof (len_nonneg a). rewrite app_nth2 by (unfold len in *; lia). f_equal. unfold len in *. lia.
Qed.
Lemma sat_app_l a b i : 0 <= i < len a -> sat (a ++ b) i = sat a i.
Proof. intros H. unfold sat. rewrite app_nth1 by (unfold len in *; lia). reflexivity. Qed.
Lemma sat_ok l i : bytes_ok l -> byte_ok (sat l i).
Proof.
  intros B. unfold sat. destruct (nth_in_or_default (Z.to_nat i) l 0) as [I| ->]; [|split; lia].
  unfold bytes_ok in B. rewrite Forall_forall in B. apply B, I.
Qed.

(** The shape of an accepted signature. *)
Definition shape (sig R T : list Z) : Prop := sig = [48; len R + len T + 4; 2; len R] ++ R ++ [2; len T] ++ T.
Definition minimal (l : list Z) : Prop := l <> [] /\ sat l 0 < 128 /\ (1 < len l -> sat l 0 = 0 -> 128 <= sat l 1).
Lemma minimal_contents l : bytes_ok l -> (der_contents (be_value l) l <-> minimal l).
Proof.
  intros B. unfold der_contents, minimal. destruct l as [|a [|b l]].
  - split; [tauto|]. intros [H _]. congruence.
  - unfold sat. cbn [nth Z.to_nat]. split; [intros (_ & _ & H)|intros (_ & H & _)].
    + split; [discriminate|]. split; [exact H|]. change (len [a]) with 1. lia.
    + auto.
  - unfold sat. change (Z.to_nat 0) with 0%nat. change (Z.to_nat 1) with 1%nat. cbn [nth]. rewrite !len_cons. pose proof (len_nonneg l).
    split; [intros (_ & _ & H1 & H2)|intros (_ & H1 & H2)].
    + split; [discriminate|]. split; [exact H1|]. intros _. exact H2.
    + split; [exact B|]. split; [reflexivity|]. split; [exact H1|]. apply H2. lia.
Qed.
Lemma bip66_build R T : bytes_ok R -> bytes_ok T -> minimal R -> minimal T -> len R + len T <= 66 ->
  is_valid_bip66 ([48; len R + len T + 4; 2; len R] ++ R ++ [2; len T] ++ T) = true.
Proof.
  intros BR BT (NR & HR & MR) (NT & HT & MT) L.
  set (sig := [48; len R + len T + 4; 2; len R] ++ R ++ [2; len T] ++ T).
  assert (LR : 1 <= len R) by (destruct R; [congruence|rewrite len_cons; pose proof (len_nonneg R); lia]).
  assert (LT : 1 <= len T) by (destruct T; [congruence|rewrite len_cons; pose proof (len_nonneg T); lia]).
  assert (Ls : len sig = len R + len T + 6) by (unfold sig; rewrite !len_app; change (len [48; len R + len T + 4; 2; len R]) with 4; change (len [2; len T]) with 2; lia).
  assert (S0 : sat sig 0 = 48) by reflexivity. assert (S1 : sat sig 1 = len R + len T + 4) by reflexivity.
  assert (S2 : sat sig 2 = 2) by reflexivity. assert (S3 : sat sig 3 = len R) by reflexivity.
  assert (SR : forall i, 0 <= i < len R -> sat sig (4 + i) = sat R i).
  { intros i Hi. unfold sig. rewrite sat_app_r by (change (len [48; len R + len T + 4; 2; len R]) with 4; lia).
    change (len [48; len R + len T + 4; 2; len R]) with 4. rewrite sat_app_l by lia. f_equal. lia. }
  assert (SM : forall i, 0 <= i < 2 -> sat sig (4 + len R + i) = sat [2; len T] i).
  { intros i Hi. unfold sig. rewrite sat_app_r by (change (len [48; len R + len T + 4; 2; len R]) with 4; lia).
    change (len [48; len R + len T + 4; 2; len R]) with 4. rewrite sat_app_r by lia. rewrite sat_app_l by (change (len [2; len T]) with 2; lia). f_equal. lia. }
  assert (ST : forall i, 0 <= i < len T -> sat sig (6 + len R + i) = sat T i).
  { intros i Hi. unfold sig. rewrite sat_app_r by (change (len [48; len R + len T + 4; 2; len R]) with 4; lia).
    change (len [48; len R + len T + 4; 2; len R]) with 4. rewrite sat_app_r by lia. rewrite sat_app_r by (change (len [2; len T]) with 2; lia).
    change (len [2; len T]) with 2. f_equal. lia. }
  unfold is_valid_bip66. rewrite Ls, S0, S1, S2, S3.
  replace (5 + len R) with (4 + len R + 1) by lia. rewrite (SM 1) by lia. change (sat [2; len T] 1) with (len T).
  replace (4 + len R =? 0) with false by lia.
  pose proof (SR 0 ltac:(lia)) as R0. rewrite Z.add_0_r in R0. rewrite R0.
  pose proof (SM 0 ltac:(lia)) as M0. rewrite Z.add_0_r in M0. rewrite M0. change (sat [2; len T] 0) with 2.
  pose proof (ST 0 ltac:(lia)) as T0. rewrite Z.add_0_r in T0. rewrite T0.
  rewrite (high_bit (sat R 0)) by (apply sat_ok; exact BR). rewrite (high_bit (sat T 0)) by (apply sat_ok; exact BT).
  assert (X1 : (len R >? 1) && (sat R 0 =? 0) && (Z.land (sat sig 5) 128 =? 0) = false).
  { destruct (Z.gtb_spec (len R) 1); [|reflexivity]. destruct (Z.eqb_spec (sat R 0) 0); [|reflexivity]. cbn [andb].
    pose proof (SR 1 ltac:(lia)) as R1. change (4 + 1) with 5 in R1. rewrite R1, high_bit by (apply sat_ok; exact BR). specialize (MR ltac:(lia) ltac:(lia)). lia. }
  assert (X2 : (len T >? 1) && (sat T 0 =? 0) && (Z.land (sat sig (7 + len R)) 128 =? 0) = false).
  { destruct (Z.gtb_spec (len T) 1); [|reflexivity]. destruct (Z.eqb_spec (sat T 0) 0); [|reflexivity]. cbn [andb].
    pose proof (ST 1 ltac:(lia)) as T1. replace (6 + len R + 1) with (7 + len R) in T1 by lia. rewrite T1, high_bit by (apply sat_ok; exact BT). specialize (MT ltac:(lia) ltac:(lia)). lia. }
  rewrite X1, X2.
  replace (len R + len T + 6 <? 8) with false by lia. replace (len R + len T + 6 >? 72) with false by lia.
  replace (len R + len T + 4 =? len R + len T + 6 - 2) with true by lia. replace (4 + len R + 1 >=? len R + len T + 6) with false by lia.
  replace (len R + len T + 6 =? len R + len T + 6) with true by lia. replace (len R =? 0) with false by lia. replace (len T =? 0) with false by lia.
  replace (sat R 0 <? 128) with true by lia. replace (sat T 0 <? 128) with true by lia. reflexivity.
Qed.
Lemma bip66_split sig : bytes_ok sig -> is_valid_bip66 sig = true ->
  exists R T, shape sig R T /\ minimal R /\ minimal T /\ bytes_ok R /\ bytes_ok T /\ len sig <= 72.
Proof.
  intros B H. unfold is_valid_bip66 in H.
  destruct (Z.ltb_spec (len sig) 8); [discriminate|]. destruct (Z.gtb_spec (len sig) 72); [discriminate|].
  destruct sig as [|a0 [|a1 [|a2 [|a3 rest]]]]; rewrite ?len_cons in *; try (change (len (@nil Z)) with 0 in *; lia).
  change (sat (a0 :: a1 :: a2 :: a3 :: rest) 0) with a0 in H. change (sat (a0 :: a1 :: a2 :: a3 :: rest) 1) with a1 in H.
  change (sat (a0 :: a1 :: a2 :: a3 :: rest) 2) with a2 in H. change (sat (a0 :: a1 :: a2 :: a3 :: rest) 3) with a3 in H.
  assert (G : forall i, 4 <= i -> sat (a0 :: a1 :: a2 :: a3 :: rest) i = sat rest (i - 4)).
  { intros i Hi. apply (sat_app_r [a0; a1; a2; a3] rest i). exact Hi. }
  apply (bytes_ok_app [a0; a1; a2; a3] rest) in B. destruct B as [B4 B].
  assert (A3 : byte_ok a3) by (inversion B4 as [|? ? _ B3]; subst; inversion B3 as [|? ? _ B2]; subst; inversion B2 as [|? ? _ B1]; subst; inversion B1; assumption).
  unfold byte_ok in A3.
  destruct (Z.eqb_spec a0 48) as [->|]; [|discriminate]. cbn [negb] in H.
  match type of H with context [negb (a1 =? ?x)] => destruct (Z.eqb_spec a1 x) as [E1|]; [|discriminate] end. cbn [negb] in H.
  match type of H with context [5 + a3 >=? ?x] => destruct (Z.geb_spec (5 + a3) x); [discriminate|] end.
  rewrite (G (5 + a3)) in H by lia.
  match type of H with context [negb (?y =? ?x)] => destruct (Z.eqb_spec y x) as [E2|]; [|discriminate] end. cbn [negb] in H.
  destruct (Z.eqb_spec a2 2) as [->|]; [|discriminate]. cbn [negb] in H.
  destruct (Z.eqb_spec a3 0); [discriminate|].
  rewrite (G 4), (G 5), (G (4 + a3)), (G (6 + a3)), (G (7 + a3)) in H by lia.
  change (4 - 4) with 0 in H. change (5 - 4) with 1 in H. replace (4 + a3 - 4) with a3 in H by lia.
  replace (5 + a3 - 4) with (a3 + 1) in * by lia. replace (6 + a3 - 4) with (a3 + 2) in H by lia. replace (7 + a3 - 4) with (a3 + 3) in H by lia.
  set (R := firstn (Z.to_nat a3) rest). 
  assert (LR : len R = a3) by (unfold R, len; rewrite firstn_length_le; unfold len in *; lia).
  assert (ER : rest = R ++ skipn (Z.to_nat a3) rest) by (symmetry; apply firstn_skipn).
  destruct (skipn (Z.to_nat a3) rest) as [|m0 [|m1 T]] eqn:ES.
  { exfalso. assert (len rest = len R) by (rewrite ER, app_nil_r; reflexivity). lia. }
  { exfalso. assert (len rest = len R + 1) by (rewrite ER, len_app; reflexivity). lia. }
  assert (LT : len rest = a3 + 2 + len T) by (rewrite ER, len_app, !len_cons, LR; lia).
  assert (GR : forall i, 0 <= i < a3 -> sat rest i = sat R i) by (intros i Hi; rewrite ER; apply sat_app_l; lia).
  assert (GT : forall i, 0 <= i -> sat rest (a3 + i) = sat (m0 :: m1 :: T) i).
  { intros i Hi. rewrite ER at 1. rewrite sat_app_r by lia. f_equal. lia. }
  rewrite (GT 1), (GT 2) in * by lia. rewrite (GT 3) in H by lia. pose proof (GT 0 ltac:(lia)) as G0. rewrite Z.add_0_r in G0. rewrite G0 in H.
  change (sat (m0 :: m1 :: T) 0) with m0 in *. change (sat (m0 :: m1 :: T) 1) with m1 in *.
  change (sat (m0 :: m1 :: T) 2) with (sat T 0) in *. change (sat (m0 :: m1 :: T) 3) with (sat T 1) in *.
  rewrite (GR 0) in H by lia.
  assert (BRT : bytes_ok R /\ bytes_ok (m0 :: m1 :: T)) by (apply bytes_ok_app; rewrite <- ER; exact B). destruct BRT as [BR BM].
  assert (BT : bytes_ok T) by (apply (bytes_ok_app [m0; m1] T); exact BM).
  rewrite (high_bit (sat R 0)), (high_bit (sat T 0)), (high_bit (sat T 1)) in H by (apply sat_ok; assumption).
  destruct (Z.ltb_spec (sat R 0) 128) as [HR|]; [|discriminate]. cbn [negb] in H.
  match type of H with context [if ?c then false else _] => destruct c eqn:M1; [discriminate|] end.
  destruct (Z.eqb_spec m0 2) as [->|]; [|discriminate]. cbn [negb] in H.
  destruct (Z.eqb_spec m1 0); [discriminate|].
  destruct (Z.ltb_spec (sat T 0) 128) as [HT|]; [|discriminate]. cbn [negb] in H.
  match type of H with context [if ?c then false else _] => destruct c eqn:M2; [discriminate|] end.
  exists R, T. split.
  { unfold shape. rewrite LR. replace (a3 + len T + 4) with a1 by lia. replace (len T) with m1 by lia. rewrite ER. reflexivity. }
  split; [|split; [|split; [exact BR|split; [exact BT|lia]]]].
  - split; [intros X; rewrite X in LR; change (len (@nil Z)) with 0 in LR; lia|]. split; [exact HR|]. intros L1 Z0.
    rewrite (GR 1) in M1 by lia. rewrite (high_bit (sat R 1)) in M1 by (apply sat_ok; assumption). rewrite Z0 in M1.
    replace (a3 >? 1) with true in M1 by lia. cbn in M1. lia.
  - split; [intros X; rewrite X in *; change (len (@nil Z)) with 0 in *; lia|]. split; [exact HT|]. intros L1 Z0.
    rewrite Z0 in M2. replace (m1 >? 1) with true in M2 by lia. cbn in M2. lia.
Qed.

(** A value has one DER contents. *)
Lemma contents_range v l : der_contents v l -> 0 <= v < 128 * 256 ^ (len l - 1) /\ 1 <= len l /\ (1 < len l -> 128 * 256 ^ (len l - 2) <= v).
Proof.
  intros (B & <- & H). destruct l as [|a l]; [destruct H|]. rewrite be_value_cons, len_cons. inversion B as [|? ? Ha Bl]; subst. unfold byte_ok in Ha.
  pose proof (be_value_range l Bl) as V. pose proof (len_nonneg l) as L. replace (1 + len l - 1) with (len l) by lia.
  assert (P : 0 < 256 ^ len l) by (apply Z.pow_pos_nonneg; lia).
  assert (A : a < 128) by (destruct l; [exact H|apply H]).
  split; [nia|]. split; [lia|]. intros L1. destruct l as [|b l]; [change (len (@nil Z)) with 0 in L1; lia|]. destruct H as [_ H].
  rewrite len_cons in *. replace (1 + (1 + len l) - 2) with (len l) by lia. rewrite be_value_cons in *. inversion Bl as [|? ? Hb Bl']; subst. unfold byte_ok in Hb.
  pose proof (be_value_range l Bl') as V'. pose proof (len_nonneg l). replace (256 ^ (1 + len l)) with (256 * 256 ^ len l) in * by (rewrite Z.pow_add_r by lia; lia).
  destruct (Z.eq_dec a 0) as [->|]; [specialize (H eq_refl); nia|nia].
Qed.
Lemma contents_unique v l m : der_contents v l -> der_contents v m -> l = m.
Proof.
  intros Hl Hm. pose proof (contents_range v l Hl) as (R1 & L1 & M1). pose proof (contents_range v m Hm) as (R2 & L2 & M2).
  assert (E : len l = len m).
  { assert (G : forall a b, 1 <= a < b -> v < 128 * 256 ^ (a - 1) -> (1 < b -> 128 * 256 ^ (b - 2) <= v) -> False).
    { intros a b Hab U D. specialize (D ltac:(lia)). pose proof (Z.pow_le_mono_r 256 (a - 1) (b - 2) ltac:(lia) ltac:(lia)). lia. }
    destruct (Z.lt_trichotomy (len l) (len m)) as [X|[X|X]]; [exfalso; apply (G (len l) (len m)); auto; lia|exact X|exfalso; apply (G (len m) (len l)); auto; lia]. }
  destruct Hl as (Bl & Vl & _), Hm as (Bm & Vm & _). rewrite <- (be_bytes_value l Bl), <- (be_bytes_value m Bm), Vl, Vm.
  unfold len in E. f_equal. lia.
Qed.

(** * The lax parser. *)
Lemma cons_inj {A} (a b : A) l m : a :: l = b :: m -> a = b /\ l = m.
Proof. intros H. injection H. auto. Qed.
Lemma firstn_bytes n l : bytes_ok l -> bytes_ok (firstn n l).
Proof. intros B. rewrite <- (firstn_skipn n l) in B. apply bytes_ok_app in B. apply B. Qed.
Lemma skip_zeros_ok n : forall rest, (n <= length rest)%nat -> exists m k rest', skip_zeros n rest = Some (m, rest') /\
  n = (k + m)%nat /\ rest = repeat 0 k ++ rest' /\ (m <= length rest')%nat /\ (m = 0%nat \/ hd 0 rest' <> 0).
Proof.
  induction n as [|n IH]; intros rest L; cbn [skip_zeros].
  - exists 0%nat, 0%nat, rest. repeat split; auto; lia.
  - destruct rest as [|b r]; [cbn in L; lia|]. cbn [length] in L. destruct (Z.eqb_spec b 0) as [->|N].
    + destruct (IH r ltac:(lia)) as (m & k & r' & E & K & R & Lm & D). exists m, (S k), r'. split; [exact E|]. split; [lia|]. split; [cbn; rewrite R; reflexivity|auto].
    + exists (S n), 0%nat, (b :: r). split; [reflexivity|]. split; [lia|]. split; [reflexivity|]. cbn [length hd]. split; [lia|auto].
Qed.
Lemma accumulate_ok n : forall v rest, (n <= length rest)%nat -> bytes_ok rest -> 0 <= v -> v * 256 ^ Z.of_nat n + 256 ^ Z.of_nat n <= 2 ^ 64 ->
  accumulate n v rest = Some (v * 256 ^ Z.of_nat n + be_value (firstn n rest), skipn n rest).
Proof.
  induction n as [|n IH]; intros v rest L B V H; cbn [accumulate].
  - cbn [firstn skipn Z.of_nat]. rewrite be_value_nil. do 2 f_equal. cbn. lia.
  - destruct rest as [|b r]; [cbn in L; lia|]. cbn [length] in L. inversion B as [|? ? Hb Br]; subst. unfold byte_ok in Hb.
    rewrite pow256_S in *. assert (P : 0 < 256 ^ Z.of_nat n) by apply pow256_pos.
    assert (W : wrap u64 (Z.shiftl v 8 + b) = v * 256 + b).
    { rewrite Z.shiftl_mul_pow2 by lia. change (2 ^ 8) with 256. unfold wrap, u64; cbn [sg bits]. apply Z.mod_small. nia. }
    rewrite W, IH by (try assumption; try lia; nia). cbn [firstn skipn]. rewrite be_value_cons. unfold len. rewrite firstn_length_le by lia.
    do 2 f_equal. lia.
Qed.
Lemma hd_change (l : list Z) n : n = 0%nat \/ hd 0 l <> 0 -> hd 1 (firstn n l) <> 0.
Proof. destruct n; [cbn; lia|]. intros [|H]; [discriminate|]. destruct l; cbn in *; lia. Qed.

Lemma parse_integer_spec rest : bytes_ok rest -> len rest < 2 ^ 64 ->
  parse_integer rest <> None /\
  forall n r, parse_integer rest = Some (Some (n, r)) <->
    exists L, lax_length n L /\ rest = [2] ++ L ++ r /\ n <= len r.
Proof.
  intros B Hlen. destruct rest as [|tag rest]; [split; [discriminate|]|].
  { intros n r. split; [discriminate|]. intros (L & _ & E & _). discriminate. }
  cbn [parse_integer]. destruct (Z.eqb_spec tag 2) as [->|N]; cbn [negb]; [|split; [discriminate|]].
  2:{ intros n r. split; [discriminate|]. intros (L & _ & E & _). injection E as E _. congruence. }
  inversion B as [|? ? _ B1]; subst. destruct rest as [|b rest]; [split; [discriminate|]|].
  { intros n r. split; [discriminate|]. intros (L & HL & E & _). injection E as E. destruct HL; discriminate. }
  inversion B1 as [|? ? Hb B2]; subst. pose proof (high_bit b Hb) as HB. rewrite HB. unfold byte_ok in Hb.
  rewrite !len_cons in Hlen.
  destruct (Z.ltb_spec b 128) as [Sb|Lb]; cbn [negb].
  - split; [destruct (b >? len rest); discriminate|]. intros n r. destruct (Z.gtb_spec b (len rest)) as [G|G]; split.
    + discriminate.
    + intros (L & HL & E & Hn). exfalso. inversion HL; subst.
      * injection E as E1 E2. subst. lia.
      * cbn [app] in E. apply cons_inj in E. destruct E as [_ E]. apply cons_inj in E. destruct E as [E1 E2]. pose proof (len_nonneg bytes). lia.
    + intros E. injection E as <- <-. exists [b]. split; [constructor; lia|]. split; [reflexivity|lia].
    + intros (L & HL & E & Hn). inversion HL; subst.
      * injection E as E1 E2. subst. reflexivity.
      * cbn [app] in E. apply cons_inj in E. destruct E as [_ E]. apply cons_inj in E. destruct E as [E1 E2]. pose proof (len_nonneg bytes). lia.
  - destruct (Z.gtb_spec (b - 128) (len rest)) as [G|G].
    { split; [discriminate|]. intros n r. split; [discriminate|]. intros (L & HL & E & Hn). exfalso. inversion HL; subst.
      - injection E as E1 E2. lia.
      - cbn [app] in E. apply cons_inj in E. destruct E as [_ E]. apply cons_inj in E. destruct E as [E1 E2]. rewrite E2, !len_app, len_repeat in G. pose proof (len_nonneg r). lia. }
    assert (Gn : (Z.to_nat (b - 128) <= length rest)%nat) by (unfold len in G; lia).
    destruct (skip_zeros_ok _ rest Gn) as (m & k & rest' & -> & K & R & Lm & D).
    assert (B' : bytes_ok rest') by (rewrite R in B2; apply bytes_ok_app in B2; apply B2).
    assert (UNQ : forall n L r, lax_length n L -> b :: rest = L ++ r -> (Z.of_nat m < 8 /\ n = be_value (firstn m rest') /\ r = skipn m rest')).
    { intros n L r HL E. inversion HL; subst.
      - injection E as E1 E2. lia.
      - cbn [app] in E. apply cons_inj in E. destruct E as [E1 E2]. assert (KM : (k + m = zeros + length bytes)%nat) by (unfold len in *; lia).
        assert (ZK : k = zeros /\ m = length bytes /\ rest' = bytes ++ r).
        { rewrite <- app_assoc in E2. clear -E2 KM D H0 Lm. revert k KM E2. induction zeros as [|z IH]; intros k KM E2.
          - destruct k as [|k]; [cbn in E2; auto|]. exfalso. destruct bytes as [|y bs]; [cbn in *; lia|]. cbn in E2, H0. injection E2 as E3 _. congruence.
          - destruct k as [|k].
            + exfalso. cbn in E2. destruct D as [->|D]; [lia|]. rewrite E2 in D. cbn in D. congruence.
            + cbn in E2. injection E2 as E2. destruct (IH k ltac:(lia) E2) as (-> & -> & ->). auto. }
        destruct ZK as (_ & -> & ->). rewrite firstn_app, Nat.sub_diag, firstn_all, firstn_O, app_nil_r. rewrite skipn_app, Nat.sub_diag, skipn_all.
        split; [unfold len in *; lia|]. split; reflexivity. }
    destruct (Z.geb_spec (Z.of_nat m) 8) as [G8|G8].
    { split; [discriminate|]. intros n r. split; [discriminate|]. intros (L & HL & E & Hn). exfalso. injection E as E.
      destruct (UNQ n L r HL E). lia. }
    rewrite accumulate_ok; [|exact Lm|exact B'|lia|].
    2:{ rewrite Z.mul_0_l, Z.add_0_l. change (2 ^ 64) with (256 ^ 8). apply Z.pow_le_mono_r; lia. }
    rewrite Z.mul_0_l, Z.add_0_l. set (v := be_value (firstn m rest')) in *.
    split; [destruct (v >? len (skipn m rest')); discriminate|]. intros n r.
    destruct (Z.gtb_spec v (len (skipn m rest'))) as [Gv|Gv]; split.
    + discriminate.
    + intros (L & HL & E & Hn). exfalso. injection E as E. destruct (UNQ n L r HL E) as (_ & -> & ->). lia.
    + intros E. injection E as <- <-. exists (b :: repeat 0 k ++ firstn m rest').
      assert (LF : len (firstn m rest') = Z.of_nat m) by (unfold len; rewrite firstn_length_le by lia; reflexivity).
      split.
      * replace b with (128 + Z.of_nat k + len (firstn m rest')) at 1 by (rewrite LF; lia). apply lax_long.
        -- apply firstn_bytes. exact B'.
        -- apply hd_change. exact D.
        -- lia.
        -- lia.
      * split; [|exact Gv]. cbn [app]. rewrite <- app_assoc, firstn_skipn, <- R. reflexivity.
    + intros (L & HL & E & Hn). injection E as E. destruct (UNQ n L r HL E) as (_ & -> & ->). reflexivity.
Qed.
Lemma be_zeros k l : be_value (repeat 0 k ++ l) = be_value l.
Proof. induction k as [|k IH]; [reflexivity|]. cbn [repeat app]. rewrite be_value_cons, IH. lia. Qed.
Lemma copy_value_spec n rest : bytes_ok rest -> 0 <= n <= len rest ->
  let v := be_value (firstn (Z.to_nat n) rest) in
  match copy_value n rest with
  | None => False
  | Some None => 2 ^ 256 <= v
  | Some (Some l) => be_value l = v
  end.
Proof.
  intros B Hn. cbv zeta. unfold copy_value. assert (Gn : (Z.to_nat n <= length rest)%nat) by (unfold len in Hn; lia).
  destruct (skip_zeros_ok _ rest Gn) as (m & k & rest' & -> & K & R & Lm & D).
  assert (E : be_value (firstn (Z.to_nat n) rest) = be_value (firstn m rest')).
  { rewrite R, firstn_app, repeat_length, firstn_all2 by (rewrite repeat_length; lia). replace (Z.to_nat n - k)%nat with m by lia. apply be_zeros. }
  assert (B' : bytes_ok rest') by (rewrite R in B; apply bytes_ok_app in B; apply B).
  destruct (Z.gtb_spec (Z.of_nat m) 32) as [G|G].
  - rewrite E. destruct m as [|m]; [lia|]. destruct D as [|D]; [discriminate|]. destruct rest' as [|b r]; [cbn in Lm; lia|]. cbn [hd firstn] in *.
    rewrite be_value_cons. inversion B' as [|? ? Hb Br]; subst. unfold byte_ok in Hb. cbn [length] in Lm.
    assert (LF : len (firstn m r) = Z.of_nat m) by (unfold len; rewrite firstn_length_le by lia; reflexivity). rewrite LF.
    pose proof (be_value_range (firstn m r) (firstn_bytes m r Br)) as V.
    assert (256 ^ 32 <= 256 ^ Z.of_nat m) by (apply Z.pow_le_mono_r; lia). change (256 ^ 32) with (2 ^ 256) in *.
    assert (0 < 256 ^ Z.of_nat m) by apply pow256_pos. nia.
  - destruct (Nat.ltb_spec (length rest') m); [lia|]. rewrite be_zeros. symmetry. exact E.
Qed.
