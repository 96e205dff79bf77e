(** Independence of symbol error patterns. *)
From Verif Require Import Base AddressModel BechField BechProofs.

(** * Three vectors and a minor *)
Notation sel := ((vec -> gf) * (vec -> gf) * (vec -> gf))%type.
Definition det (s : sel) (a b c : vec) : gf :=
  let '(p, q, r) := s in
  gadd (gmul (p c) (gsub (gmul (q a) (r b)) (gmul (r a) (q b))))
 (gadd (gmul (q c) (gsub (gmul (r a) (p b)) (gmul (p a) (r b))))
       (gmul (r c) (gsub (gmul (p a) (q b)) (gmul (q a) (p b))))).
Definition sels : list sel :=
  [(v1, v2, v3); (v1, v2, v4); (v1, v2, v5); (v1, v3, v4); (v1, v3, v5); (v1, v4, v5); (v2, v3, v4); (v2, v3, v5); (v2, v4, v5); (v3, v4, v5)].
Definition gnz (x : gf) : bool := match x with G0 => false | _ => true end.
Definition minors (a b : vec) (s : sel) : sel * gf * gf * gf :=
  let '(p, q, r) := s in
  (s, gadd (gmul (q a) (r b)) (gmul (r a) (q b)), gadd (gmul (r a) (p b)) (gmul (p a) (r b)), gadd (gmul (p a) (q b)) (gmul (q a) (p b))).
Definition phi (c : vec) (m : sel * gf * gf * gf) : bool :=
  let '(p, q, r, x, y, z) := m in gnz (gadd (gmul (p c) x) (gadd (gmul (q c) y) (gmul (r c) z))).
Definition check_pair (a b : vec) (l : list vec) : bool :=
  let ms := map (minors a b) sels in forallb (fun c => existsb (phi c) ms) l.
Fixpoint check_pairs (a : vec) (l : list vec) : bool :=
  match l with [] => true | b :: r => check_pair a b r && check_pairs a r end.
Fixpoint check_triples (l : list vec) : bool :=
  match l with [] => true | a :: r => check_pairs a r && check_triples r end.
Fixpoint units (n : nat) (a : vec) : list vec := match n with O => [] | S n => a :: units n (vF a) end.
Lemma units_nth n : forall a i, (i < n)%nat -> nth i (units n a) vzero = vpow i a.
Proof.
  induction n; intros a i H; [lia|]. cbn [units]. destruct i; [reflexivity|]. cbn [nth]. rewrite IHn by lia.
  change (vF a) with (vpow 1 a). rewrite <- vpow_plus. f_equal. lia.
Qed.
Lemma units_length n : forall a, length (units n a) = n.
Proof. induction n; intros a; cbn; congruence. Qed.
Definition regular (a b c : vec) : Prop := exists s, det s a b c <> G0 /\ In s sels.
Lemma gnz_true x : gnz x = true -> x <> G0.
Proof. destruct x; cbn; discriminate. Qed.
Lemma phi_det c a b s : phi c (minors a b s) = true -> det s a b c <> G0.
Proof. destruct s as [[p q] r]. cbn [phi minors]. apply gnz_true. Qed.
Lemma check_pair_regular a b l : check_pair a b l = true -> forall k, (k < length l)%nat -> regular a b (nth k l vzero).
Proof.
  unfold check_pair. intros H k Hk. rewrite forallb_forall in H. specialize (H (nth k l vzero) (nth_In _ _ Hk)).
  apply existsb_exists in H. destruct H as (m & Hm & P). apply in_map_iff in Hm. destruct Hm as (s & <- & Hs).
  exists s. split; [apply phi_det, P|exact Hs].
Qed.
Lemma check_pairs_regular a l : check_pairs a l = true -> forall j k, (j < k < length l)%nat -> regular a (nth j l vzero) (nth k l vzero).
Proof.
  induction l as [|b r IH]; intros H j k Hk; [cbn in Hk; lia|]. cbn [check_pairs] in H. apply andb_true_iff in H. destruct H as [H1 H2].
  cbn [length] in Hk. destruct k; [lia|]. destruct j; cbn [nth].
  - apply check_pair_regular; [exact H1|lia].
  - apply IH; [exact H2|lia].
Qed.
Lemma check_triples_regular l : check_triples l = true -> forall i j k, (i < j < k)%nat -> (k < length l)%nat ->
  regular (nth i l vzero) (nth j l vzero) (nth k l vzero).
Proof.
  induction l as [|a r IH]; intros H i j k Hj Hk; [cbn in Hk; lia|]. cbn [check_triples] in H. apply andb_true_iff in H. destruct H as [H1 H2].
  cbn [length] in Hk. destruct k; [lia|]. destruct j; [lia|]. destruct i; cbn [nth].
  - apply check_pairs_regular; [exact H1|lia].
  - apply IH; [exact H2|lia|lia].
Qed.

(** * Four symbol errors *)
Definition combo (e1 : gf) (a : vec) (e2 : gf) (b : vec) (e3 : gf) (c : vec) : vec := vadd (vscale e1 a) (vadd (vscale e2 b) (vscale e3 c)).
Lemma det_combo s a b c e1 e2 e3 x : In s sels -> combo e1 a e2 b e3 c = vsym x ->
  gmul e3 (det s a b c) = G0 /\ gmul e2 (det s a b c) = G0 /\ gmul e1 (det s a b c) = G0.
Proof.
  intros Hs H.
  assert (E : forall p, In p [v1; v2; v3; v4; v5] -> gadd (gmul e1 (p a)) (gadd (gmul e2 (p b)) (gmul e3 (p c))) = G0).
  { intros p Hp. pose proof (f_equal p H) as Hq.
    repeat (destruct Hp as [<-|Hp]; [exact Hq|]). destruct Hp. }
  assert (Q : forall p q r, s = (p, q, r) -> In p [v1; v2; v3; v4; v5] /\ In q [v1; v2; v3; v4; v5] /\ In r [v1; v2; v3; v4; v5]).
  { intros p q r ->. unfold sels in Hs. repeat (destruct Hs as [Hs|Hs]; [injection Hs as <- <- <-; cbn; tauto|]). destruct Hs. }
  destruct s as [[p q] r]. destruct (Q p q r eq_refl) as (Ip & Iq & Ir). apply E in Ip, Iq, Ir. cbn [det].
  clear E Q Hs H. generalize dependent (p a). generalize (p b) (p c). generalize dependent (q a). generalize (q b) (q c). generalize dependent (r a). generalize (r b) (r c).
  intros rb rc ra Ir qb qc qa Iq pb pc pa Ip.
  set (L1 := gadd (gmul e1 pa) (gadd (gmul e2 pb) (gmul e3 pc))) in *.
  set (L2 := gadd (gmul e1 qa) (gadd (gmul e2 qb) (gmul e3 qc))) in *.
  set (L3 := gadd (gmul e1 ra) (gadd (gmul e2 rb) (gmul e3 rc))) in *.
  split; [|split].
  - transitivity (gadd (gmul L1 (gsub (gmul qa rb) (gmul ra qb))) (gadd (gmul L2 (gsub (gmul ra pb) (gmul pa rb))) (gmul L3 (gsub (gmul pa qb) (gmul qa pb))))); [subst L1 L2 L3; ring|].
    rewrite Ip, Iq, Ir. reflexivity.
  - transitivity (gadd (gmul pc (gsub (gmul qa L3) (gmul ra L2))) (gadd (gmul qc (gsub (gmul ra L1) (gmul pa L3))) (gmul rc (gsub (gmul pa L2) (gmul qa L1))))); [subst L1 L2 L3; ring|].
    rewrite Ip, Iq, Ir. unfold gsub. ring.
  - transitivity (gadd (gmul pc (gsub (gmul L2 rb) (gmul L3 qb))) (gadd (gmul qc (gsub (gmul L3 pb) (gmul L1 rb))) (gmul rc (gsub (gmul L1 qb) (gmul L2 pb))))); [subst L1 L2 L3; ring|].
    rewrite Ip, Iq, Ir. unfold gsub. ring.
Qed.
Lemma regular_indep a b c e1 e2 e3 x : regular a b c -> combo e1 a e2 b e3 c = vsym x -> e1 = G0 /\ e2 = G0 /\ e3 = G0.
Proof.
  intros (s & N & I) H. destruct (det_combo s a b c e1 e2 e3 x I H) as (H3 & H2 & H1).
  apply gmul_zero in H1, H2, H3. tauto.
Qed.
Lemma units_regular i j k : (0 < i < j)%nat -> (j < k <= 88)%nat -> regular (unit i) (unit j) (unit k).
Proof.
  intros H1 H2.
  assert (C : check_triples (units 88 (unit 1)) = true) by (vm_compute; reflexivity).
  pose proof (check_triples_regular _ C (i - 1) (j - 1) (k - 1) ltac:(lia) ltac:(rewrite units_length; lia)) as R.
  rewrite !units_nth in R by lia. unfold unit in R. rewrite <- !vpow_plus in R.
  replace (i - 1 + 1)%nat with i in R by lia. replace (j - 1 + 1)%nat with j in R by lia. replace (k - 1 + 1)%nat with k in R by lia. exact R.
Qed.
(** * A change of constant and three symbol errors *)
Definition back_constants : list Z :=
  [734539938; 375228117; 443983834; 136756721; 907170218; 496832431; 316517214; 620022332; 843466343; 411904866; 398962187; 1041781242; 151374400; 
4730450; 64558031; 305105853; 293301699; 889449878; 786719352; 511831180; 659389119; 131317019; 708863119; 325271559; 428082001; 916407391; 
123546860; 662936764; 845020371; 549604595; 542552434; 47834934; 794473005; 71848418; 388072927; 105962208; 3311319; 231086218; 474197478; 997651862; 
781699768; 511865290; 484019884; 660584878; 830492486; 974711427; 878244268; 639349334; 779919494; 988220925; 272443889; 919768330; 496699722; 
482428264; 197677145; 1025735861; 455954441; 696041818; 163507909; 240200055; 229967351; 229254291; 557707825; 928680916; 972385818; 154837951; 
111150035; 560309003; 1068319122; 36059313; 910316928].
Definition change_constant : Z := Z.lxor 0x2bc830a3 1.
Fixpoint check_back (l : list vec) (d : vec) : bool :=
  match l with [] => true | x :: r => veqb (vF x) d && check_back r x end.
Lemma check_back_pow l : forall d, check_back l d = true -> forall j, (j < length l)%nat -> vpow (S j) (nth j l vzero) = d.
Proof.
  induction l as [|x r IH]; intros d H j Hj; [cbn in Hj; lia|]. cbn [check_back] in H. apply andb_true_iff in H. destruct H as [H1 H2].
  apply veqb_eq in H1. destruct j; cbn [nth]; [exact H1|]. cbn [length] in Hj.
  change (vpow (S (S j)) (nth j r vzero)) with (vF (vpow (S j) (nth j r vzero))). rewrite (IH x H2 j) by lia. exact H1.
Qed.
Definition back (j : nat) : vec := nth j (map zv back_constants) vzero.
Lemma back_pow j : (j <= 70)%nat -> vpow j (back j) = zv change_constant.
Proof.
  intros Hj. assert (C : check_back (tl (map zv back_constants)) (zv change_constant) = true) by (vm_compute; reflexivity).
  destruct j; [reflexivity|]. unfold back. change (map zv back_constants) with (zv change_constant :: tl (map zv back_constants)). cbn [nth].
  apply check_back_pow; [exact C|]. change (length (tl (map zv back_constants))) with 70%nat. lia.
Qed.
Fixpoint check_const_pair (a : vec) (l : list vec) (n : nat) (d : list vec) : bool :=
  match l with [] => true | b :: r => check_pair a b (firstn n d) && check_const_pair a r (n - 1) d end.
Fixpoint check_const (l : list vec) (n : nat) (d : list vec) : bool :=
  match l with [] => true | a :: r => check_const_pair a r (n - 1) d && check_const r (n - 1) d end.
Lemma check_const_pair_regular a l d : forall n, check_const_pair a l n d = true ->
  forall i j, (i < length l)%nat -> (i + j < n)%nat -> (j < length d)%nat -> regular a (nth i l vzero) (nth j d vzero).
Proof.
  induction l as [|b r IH]; intros n H i j Hi Hj Hd; [cbn in Hi; lia|]. cbn [check_const_pair] in H. apply andb_true_iff in H. destruct H as [H1 H2].
  cbn [length] in Hi. destruct i; cbn [nth].
  - assert (E : nth j d vzero = nth j (firstn n d) vzero).
    { rewrite <- (firstn_skipn n d) at 1. apply app_nth1. rewrite firstn_length. lia. }
    rewrite E. apply check_pair_regular; [exact H1|]. rewrite firstn_length. lia.
  - apply (IH (n - 1)%nat); [exact H2|lia|lia|lia].
Qed.
Lemma check_const_regular l d : forall n, check_const l n d = true ->
  forall i k j, (i < k < length l)%nat -> (k + j < n)%nat -> (j < length d)%nat -> regular (nth i l vzero) (nth k l vzero) (nth j d vzero).
Proof.
  induction l as [|a r IH]; intros n H i k j Hi Hj Hd; [cbn in Hi; lia|]. cbn [check_const] in H. apply andb_true_iff in H. destruct H as [H1 H2].
  cbn [length] in Hi. destruct k; [lia|]. destruct i; cbn [nth].
  - apply (check_const_pair_regular a r d (n - 1)); [exact H1|lia|lia|lia].
  - apply (IH (n - 1)%nat); [exact H2|lia|lia|lia].
Qed.
Lemma back_regular i k j : (0 < i < k)%nat -> (k + j <= 72)%nat -> (j <= 70)%nat -> regular (unit i) (unit k) (back j).
Proof.
  intros Hi Hk Hd.
  assert (C : check_const (units 72 (unit 1)) 72 (map zv back_constants) = true) by (vm_compute; reflexivity).
  pose proof (check_const_regular _ _ _ C (i - 1) (k - 1) j ltac:(rewrite units_length; lia) ltac:(lia)) as R.
  change (length (map zv back_constants)) with 71%nat in R. specialize (R ltac:(lia)).
  rewrite !units_nth in R by lia. unfold unit in R. rewrite <- !vpow_plus in R.
  replace (i - 1 + 1)%nat with i in R by lia. replace (k - 1 + 1)%nat with k in R by lia. exact R.
Qed.
