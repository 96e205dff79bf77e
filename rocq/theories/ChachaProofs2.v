(** ChaCha20: crypt applies the continuous key stream. *)
From Coq Require Import PeanoNat.
From Verif Require Import Base Bytes ShaModel ShaSpec ShaProofs ShaProofs2 ShaProofs5 ShaProofs6 AccModel AccProofs RmdModel RmdSpec RmdProofs RmdProofs2
  KdfProofs2 ScryptProofs ChachaSpec ChachaModel ChachaProofs.
Local Opaque scalar_block chacha_rounds xnext.

Section Stream.
Variables (K N : list Z) (c0 : Z).
Hypothesis LK : length K = 8%nat.
Hypothesis LN : length N = 3%nat.
Definition block_at (t : Z) : list Z := flat_map (le_bytes 4) (scalar_block (sigma20 ++ K ++ [t] ++ N)).
Lemma state16 c : length (sigma20 ++ K ++ [c] ++ N) = 16%nat.
Proof. rewrite !app_length, LK, LN. reflexivity. Qed.
Lemma block_at_length t : length (block_at t) = 64%nat.
Proof.
  unfold block_at. rewrite (flat_length _ 4%nat) by (intros; apply le_bytes_length). rewrite scalar_length by apply state16. reflexivity.
Qed.
Definition ctr (q : nat) : Z := (c0 + Z.of_nat q) mod 2 ^ 32.
Definition sb (i : nat) : Z := nth (i mod 64) (block_at (ctr (i / 64))) 0.
Definition ks (from size : nat) : list Z := map sb (seq from size).
Lemma ks_length p n : length (ks p n) = n.
Proof. unfold ks. rewrite map_length, seq_length. reflexivity. Qed.
Lemma ks_app p a b : ks p (a + b) = ks p a ++ ks (p + a) b.
Proof. unfold ks. rewrite seq_app, map_app. reflexivity. Qed.
Lemma sb_at q o : (o < 64)%nat -> sb (64 * q + o) = nth o (block_at (ctr q)) 0.
Proof.
  intros H. unfold sb. rewrite (Nat.mul_comm 64 q), (Nat.add_comm (q * 64) o), Nat.mod_add, Nat.mod_small, Nat.div_add, Nat.div_small by lia.
  reflexivity.
Qed.
Lemma ks_block q : ks (64 * q) 64 = block_at (ctr q).
Proof.
  apply (list_ext _ _ 0); [rewrite ks_length, block_at_length; reflexivity|]. intros i H. rewrite ks_length in H.
  unfold ks. rewrite (nth_indep _ 0 (sb 0)) by (rewrite map_length, seq_length; exact H). rewrite map_nth, seq_nth by exact H. apply sb_at. exact H.
Qed.
Lemma ks_blocks n : forall q, ks (64 * q) (64 * n) = concat (map (fun j => block_at (ctr (q + j))) (seq 0 n)).
Proof.
  induction n as [|n IH]; intros q; [reflexivity|].
  replace (64 * S n)%nat with (64 + 64 * n)%nat by lia. rewrite ks_app, ks_block. cbn [seq map concat]. rewrite Nat.add_0_r. f_equal.
  replace (64 * q + 64)%nat with (64 * S q)%nat by lia. rewrite IH, <- seq_shift, map_map. f_equal. apply map_ext. intros j.
  replace (q + S j)%nat with (S q + j)%nat by lia. reflexivity.
Qed.

(** * State invariants *)
Definition Aligned (c : chacha20) (p : nat) : Prop :=
  exists q, p = (64 * q)%nat /\ c_key c = K /\ c_nonce c = N /\ c_offset c = 64%nat /\ c_counter c = ctr q.
Definition Buffered (c : chacha20) (p : nat) : Prop :=
  exists q, p = (64 * q + c_offset c)%nat /\ (c_offset c <= 64)%nat /\ c_key c = K /\ c_nonce c = N /\
    c_buffer c = block_at (ctr q) /\ c_counter c = ctr (q + 1).
Definition At (c : chacha20) (p : nat) : Prop := Aligned c p \/ Buffered c p.
Lemma At_aligned c p : At c p -> c_offset c = 64%nat -> Aligned c p.
Proof.
  intros [H|(q & E & _ & K1 & N1 & _ & C)] O; [exact H|]. exists (q + 1)%nat. repeat split; try assumption. lia.
Qed.
Lemma ctr_step q n : (ctr q + Z.of_nat n) mod 2 ^ 32 = ctr (q + n).
Proof. unfold ctr. rewrite Zplus_mod_idemp_l. f_equal. lia. Qed.
Lemma next_ok c p : Aligned c p -> c_buffer (next c) = ks p 64 /\ Aligned (next c) (p + 64) /\
  Buffered (mkchacha (c_key (next c)) (c_nonce (next c)) (c_counter (next c)) (c_buffer (next c)) 0) p.
Proof.
  intros (q & E & K1 & N1 & O & C). unfold next. rewrite K1, N1, C, rounds_ok by apply state16. cbn [c_key c_nonce c_counter c_buffer].
  change 1 with (Z.of_nat 1). rewrite (ctr_step q 1). subst p. split; [rewrite ks_block; reflexivity|]. split.
  - exists (q + 1)%nat. cbn [c_key c_nonce c_counter c_buffer c_offset]. repeat split; try assumption. lia.
  - exists q. cbn [c_key c_nonce c_counter c_buffer c_offset]. repeat split. lia. lia.
Qed.
Lemma xnext_bytes lanes q : lanes = 4%nat \/ lanes = 8%nat \/ lanes = 16%nat ->
  flat_map (le_bytes 4) (concat (xnext lanes K N (ctr q))) = ks (64 * q) (64 * lanes).
Proof.
  intros W. rewrite xnext_ok by assumption. rewrite ks_blocks. rewrite flat_map_concat_map, concat_map, map_map.
  induction (seq 0 lanes) as [|j l IH]; [reflexivity|]. cbn [map concat]. rewrite concat_app, IH. f_equal.
  rewrite ctr_step. unfold block_at. rewrite flat_map_concat_map. reflexivity.
Qed.

(** * Output *)
Variable inp : list Z.
Variable size : nat.
Hypothesis HI : inp = [] \/ length inp = size.
Definition xs (k : list Z) : list Z := match inp with [] => k | _ => map2 Z.lxor (firstn (length k) inp) k end.
Lemma map2_length (a b : list Z) : length a = length b -> length (map2 Z.lxor a b) = length b.
Proof. clear. revert b; induction a as [|x a IH]; intros [|y b] L; try discriminate; [reflexivity|]. cbn [map2 length] in *. rewrite IH; lia. Qed.
Lemma map2_app (a b c d : list Z) : length a = length b -> map2 Z.lxor (a ++ c) (b ++ d) = map2 Z.lxor a b ++ map2 Z.lxor c d.
Proof. clear. revert b; induction a as [|x a IH]; intros [|y b] L; try discriminate; [reflexivity|]. cbn [map2 app length] in *. rewrite IH; [reflexivity|lia]. Qed.
Lemma xs_length k : (length k <= size)%nat -> length (xs k) = length k.
Proof.
  intros H. unfold xs. destruct inp as [|x l]; [reflexivity|]. apply map2_length. rewrite firstn_length. destruct HI as [E|E]; [discriminate|]. lia.
Qed.
Lemma firstn_add {X} (l : list X) a b : firstn (a + b) l = firstn a l ++ firstn b (skipn a l).
Proof. clear. revert l; induction a as [|a IH]; intros [|x l]; cbn [Nat.add firstn skipn app]; try reflexivity. - rewrite firstn_nil; reflexivity. - rewrite IH; reflexivity. Qed.
Lemma mask_app k s : (length k + length s <= size)%nat -> xs k ++ mask inp (xs k) s = xs (k ++ s).
Proof.
  intros H. unfold mask. rewrite xs_length by lia. unfold xs. destruct inp as [|x l] eqn:EI; [reflexivity|]. rewrite <- EI in *.
  rewrite app_length, firstn_add, map2_app; [reflexivity|]. rewrite firstn_length. destruct HI as [E|E]; [rewrite EI in E; discriminate|]. lia.
Qed.

Variable p0 : nat.
Definition Inv (s : chacha20 * list Z) : Prop :=
  (length (snd s) <= size)%nat /\ snd s = xs (ks p0 (length (snd s))) /\ At (fst s) (p0 + length (snd s)).
Lemma Inv_step (c c' : chacha20) (out : list Z) (s : list Z) n : Inv (c, out) -> (length out + n <= size)%nat ->
  s = ks (p0 + length out) n -> At c' (p0 + length out + n) -> Inv (c', out ++ mask inp out s) /\ length (out ++ mask inp out s) = (length out + n)%nat.
Proof.
  intros (L & E & A) H Es A'. cbn [fst snd] in *. set (m := length out) in *.
  assert (E2 : out ++ mask inp out s = xs (ks p0 (m + n))).
  { rewrite E at 1. rewrite E at 1. rewrite mask_app by (subst s; rewrite !ks_length; exact H). rewrite Es, <- ks_app. reflexivity. }
  assert (L2 : length (out ++ mask inp out s) = (m + n)%nat) by (rewrite E2, xs_length; rewrite ks_length; [reflexivity|exact H]).
  split; [|exact L2]. unfold Inv. cbn [fst snd]. rewrite L2. split; [exact H|]. split; [exact E2|]. rewrite Nat.add_assoc. exact A'.
Qed.
Definition Done (s : chacha20 * list Z) : Prop := length (snd s) = size \/ c_offset (fst s) = 64%nat.

Lemma consume_ok n : forall c out, Inv (c, out) -> Buffered c (p0 + length out) -> n = (size - length out)%nat ->
  Inv (consume n inp (c, out)) /\ Done (consume n inp (c, out)) /\
  (length (snd (consume n inp (c, out))) = Nat.min size (length out + (64 - c_offset c)))%nat.
Proof.
  induction n as [|n IH]; intros c out I B E.
  - cbn [consume]. split; [exact I|]. destruct I as (L & _). cbn [snd] in *. split; [left; cbn [snd]; lia|]. lia.
  - cbn [consume]. destruct B as (q & Ep & Ho & K1 & N1 & Bu & C). destruct (Nat.ltb_spec (c_offset c) 64) as [O|O].
    + set (c' := mkchacha _ _ _ _ _).
      assert (B' : Buffered c' (p0 + length out + 1)).
      { exists q. unfold c'. cbn [c_key c_nonce c_counter c_buffer c_offset]. repeat split; try assumption; lia. }
      destruct (Inv_step c c' out [nth (c_offset c) (c_buffer c) 0] 1 I) as [I' L']; [lia| |right; exact B'|].
      { rewrite Bu, <- sb_at by exact O. rewrite <- Ep. reflexivity. }
      destruct (IH c' _ I') as (R1 & R2 & R3); [|rewrite L'; lia|].
      { rewrite L', Nat.add_assoc. exact B'. }
      split; [exact R1|]. split; [exact R2|]. rewrite R3, L'. unfold c'. cbn [c_offset]. lia.
    + split; [exact I|]. split; [right; cbn [fst]; lia|]. cbn [snd]. destruct I as (L & _). cbn [snd] in L. lia.
Qed.
Lemma xcrypt_ok lanes fuel : lanes = 4%nat \/ lanes = 8%nat \/ lanes = 16%nat ->
  forall s, Inv s -> Done s -> Inv (xcrypt fuel lanes size inp s) /\ Done (xcrypt fuel lanes size inp s).
Proof.
  intros W. induction fuel as [|fuel IH]; intros [c out] I D; [split; assumption|]. cbn [xcrypt].
  destruct (Nat.leb_spec (64 * lanes) (size - length out)) as [H|H]; [|split; assumption].
  destruct D as [D|D]; cbn [fst snd] in D; [lia|].
  destruct (At_aligned c (p0 + length out)) as (q & E & K1 & N1 & O & C); [apply I|exact D|].
  rewrite K1, N1, C, xnext_bytes, ctr_step by exact W.
  set (c' := set_counter _ _).
  assert (A' : Aligned c' (p0 + length out + 64 * lanes)).
  { exists (q + lanes)%nat. unfold c', set_counter. cbn [c_key c_nonce c_counter c_buffer c_offset]. repeat split; try assumption. lia. }
  destruct (Inv_step c c' out (ks (64 * q) (64 * lanes)) (64 * lanes) I) as [I' L']; [lia|rewrite E; reflexivity|left; exact A'|].
  apply IH; [exact I'|]. right. cbn [fst]. exact D.
Qed.
Lemma whole_ok fuel : forall s, (size - length (snd s) <= fuel)%nat -> Inv s -> Done s ->
  Inv (whole fuel size inp s) /\ Done (whole fuel size inp s) /\ (size - length (snd (whole fuel size inp s)) < 64)%nat.
Proof.
  induction fuel as [|fuel IH]; intros [c out] F I D; cbn [snd] in F; [cbn [whole]; repeat split; try apply I; try apply D; cbn [snd]; lia|]. cbn [whole].
  destruct (Nat.leb_spec 64 (size - length out)) as [H|H]; [|repeat split; try apply I; try apply D; cbn [snd]; lia].
  destruct D as [D|D]; cbn [fst snd] in D; [lia|].
  assert (A : Aligned c (p0 + length out)) by (apply At_aligned; [apply I|exact D]).
  destruct (next_ok c _ A) as (B & A' & _). cbv zeta. rewrite B.
  destruct (Inv_step c (next c) out (ks (p0 + length out) 64) 64 I) as [I' L']; [lia|reflexivity|left; exact A'|].
  apply IH; [cbn [snd]; lia|exact I'|]. right. cbn [fst]. destruct A' as (q' & _ & _ & _ & O' & _). exact O'.
Qed.
Theorem crypt_ok widths c : Forall (fun l => l = 4%nat \/ l = 8%nat \/ l = 16%nat) widths -> At c p0 ->
  snd (crypt widths inp size c) = xs (ks p0 size) /\ At (fst (crypt widths inp size c)) (p0 + size).
Proof.
  intros W A. unfold crypt.
  assert (I0 : Inv (c, [])).
  { unfold Inv. cbn [fst snd length]. rewrite Nat.add_0_r. split; [lia|]. split; [|exact A]. unfold xs, ks. cbn [seq map]. destruct inp; reflexivity. }
  assert (S1 : Inv (consume size inp (c, [])) /\ Done (consume size inp (c, []))).
  { destruct A as [A|A].
    - destruct A as (q & E & K1 & N1 & O & C). destruct size as [|n] eqn:En; [cbn [consume]; split; [exact I0|right; exact O]|].
      cbn [consume]. rewrite O. cbn [Nat.ltb Nat.leb]. split; [exact I0|right; exact O].
    - destruct (consume_ok size c [] I0) as (R1 & R2 & _); [cbn [length]; rewrite Nat.add_0_r; exact A|cbn [length]; lia|]. split; assumption. }
  set (s1 := consume size inp (c, [])) in *. clearbody s1.
  assert (S2 : Inv (fold_left (fun s lanes => xcrypt size lanes size inp s) widths s1) /\ Done (fold_left (fun s lanes => xcrypt size lanes size inp s) widths s1)).
  { revert s1 S1. induction W as [|l widths Wl W IH]; intros s1 S1; [exact S1|]. cbn [fold_left]. apply IH. apply xcrypt_ok; [exact Wl|apply S1|apply S1]. }
  set (s2 := fold_left _ widths s1) in *. clearbody s2. destruct S2 as [I2 D2].
  destruct (whole_ok size s2) as (I3 & D3 & L3); [lia|exact I2|exact D2|].
  destruct (whole size size inp s2) as [c3 out3]. cbn [snd] in L3.
  assert (Fin : forall s, Inv s -> length (snd s) = size -> snd s = xs (ks p0 size) /\ At (fst s) (p0 + size)).
  { intros s (_ & E & A') L. rewrite L in E, A'. split; assumption. }
  destruct (Nat.ltb_spec (length out3) size) as [H|H].
  - cbv zeta. set (c4 := mkchacha _ _ _ _ _).
    destruct D3 as [D3|D3]; cbn [fst snd] in D3; [lia|].
    assert (A3 : Aligned c3 (p0 + length out3)) by (apply At_aligned; [apply I3|exact D3]).
    destruct (next_ok c3 _ A3) as (_ & _ & B4).
    assert (I4 : Inv (c4, out3)).
    { destruct I3 as (L & E & _). split; [exact L|]. split; [exact E|]. right. exact B4. }
    destruct (consume_ok (size - length out3) c4 out3 I4) as (R1 & R2 & R3); [exact B4|reflexivity|].
    apply Fin; [exact R1|]. rewrite R3. unfold c4. cbn [c_offset]. lia.
  - apply Fin; [exact I3|]. destruct I3 as (L & _). cbn [snd] in *. lia.
Qed.
End Stream.
