From Verif Require Import Base Bytes MathModel StreamModel StreamProofs OpModel OpProofs ChainModel BlockModel BlockSpec.

Section M.
Variable D : list Z -> list Z.
Hypothesis D32 : digest32 D.
Notation level := (level D).
Notation coll := (collision D).

Lemma list_ind2 {A} (P : list A -> Prop) : P [] -> (forall a, P [a]) -> (forall a b l, P l -> P (a :: b :: l)) -> forall l, P l.
Proof.
  intros H0 H1 H2. fix F 1. intros [|a [|b l]]; [exact H0|apply H1|apply H2, F].
Qed.
Lemma len_cons2 {A} (a b : A) l : len (a :: b :: l) = len l + 2.
Proof. unfold len. cbn [length]. lia. Qed.
Lemma odd_plus2 n : Z.odd (n + 2) = Z.odd n.
Proof. rewrite Z.odd_add. cbn. destruct (Z.odd n); reflexivity. Qed.
Lemma pad_odd_cons2 a b l : pad_odd (a :: b :: l) = a :: b :: pad_odd l \/ l = [] .
Proof.
  destruct l as [|c l]; [right; reflexivity|]. left. unfold pad_odd. rewrite len_cons2, odd_plus2. destruct (Z.odd (len (c :: l))); reflexivity.
Qed.
Lemma level_spec l : merkle_hash D (pad_odd l) = level l.
Proof.
  induction l as [|a|a b l IH] using list_ind2; [reflexivity|reflexivity|].
  destruct (pad_odd_cons2 a b l) as [E| ->]; [|reflexivity]. rewrite E. cbn. rewrite IH. reflexivity.
Qed.
Lemma level_length l : (2 * length (level l) = length l + Nat.b2n (Nat.odd (length l)))%nat.
Proof.
  induction l as [|a|a b l IH] using list_ind2; [reflexivity|reflexivity|].
  cbn [BlockSpec.level length]. change (Nat.odd (S (S (length l)))) with (Nat.odd (length l)). lia.
Qed.
Lemma b2n_le b : (Nat.b2n b <= 1)%nat. Proof. destruct b; cbn; lia. Qed.

Lemma root_loop_spec f : forall l, l <> [] -> (length l <= f)%nat -> exists n, tree_root D n l (root_loop D f l).
Proof.
  induction f as [|f IH]; intros l Hn Hl.
  - destruct l; [congruence|cbn in Hl; lia].
  - cbn [root_loop]. destruct l as [|a [|b l]]; [congruence| |].
    + exists 0%nat. cbn. constructor.
    + rewrite len_cons2. destruct (Z.eqb_spec (len l + 2) 1) as [E|_]; [unfold len in E; lia|].
      rewrite level_spec. destruct (IH (level (a :: b :: l))) as [n Hr].
      * discriminate.
      * pose proof (level_length (a :: b :: l)) as L. pose proof (b2n_le (Nat.odd (length (a :: b :: l)))). cbn [length] in *. lia.
      * exists (S n). constructor. exact Hr.
Qed.
Lemma merkle_root_spec l : l <> [] -> exists n, tree_root D n l (merkle_root D l).
Proof.
  intros H. unfold merkle_root. destruct (Z.eqb_spec (len l) 0) as [E|_].
  - destruct l; [congruence|]. unfold len in E. cbn in E. lia.
  - apply root_loop_spec; [exact H|lia].
Qed.
Lemma tree_root_fun n l r : tree_root D n l r -> forall m r', tree_root D m l r' -> n = m /\ r = r'.
Proof.
  induction 1 as [a|n a b l r H IH]; intros m r' H'; inversion H' as [|? ? ? ? ? H4]; subst; [auto|].
  destruct (IH _ _ H4) as [-> ->]. auto.
Qed.
Lemma tree_root_iff l r : l <> [] -> (merkle_root D l = r <-> exists n, tree_root D n l r).
Proof.
  intros H. destruct (merkle_root_spec l H) as [n Hn]. split.
  - intros <-. exists n. exact Hn.
  - intros [m Hm]. apply (tree_root_fun _ _ _ Hn _ _ Hm).
Qed.

(** ** Injectivity of levels *)
Definition all32 (l : list (list Z)) : Prop := Forall (fun h => length h = 32%nat) l.
Lemma pair_inj a b c d : length a = 32%nat -> length c = 32%nat -> D (a ++ b) = D (c ++ d) -> (a = c /\ b = d) \/ coll.
Proof.
  intros Ha Hc E. destruct (list_eq_dec Z.eq_dec (a ++ b) (c ++ d)) as [E2|N].
  - left. assert (Ll : length a = length c) by congruence. clear E Ha Hc. revert c Ll E2. induction a as [|x a IH]; intros [|y c] L E2; cbn in *; try lia; [auto|].
    injection E2 as -> E2. destruct (IH c) as [-> ->]; [lia|exact E2|auto].
  - right. exists (a ++ b), (c ++ d). auto.
Qed.
Lemma level_all32 l : all32 (level l).
Proof. induction l as [|a|a b l IH] using list_ind2; [constructor|repeat constructor; apply D32|constructor; [apply D32|exact IH]]. Qed.
Lemma level_in l h : In h (level l) -> all32 l -> exists x y, In x l /\ In y l /\ h = D (x ++ y) /\ length x = 32%nat /\ length y = 32%nat.
Proof.
  induction l as [|a|a b l IH] using list_ind2; intros Hi Ha.
  - destruct Hi.
  - destruct Hi as [<-|[]]. exists a, a. inversion Ha; subst. cbn. tauto.
  - inversion Ha as [|? ? A1 A2]; subst. inversion A2 as [|? ? B1 B2]; subst. destruct Hi as [<-|Hi].
    + exists a, b. cbn. tauto.
    + destruct (IH Hi B2) as (x & y & H1 & H2 & H3). exists x, y. cbn. tauto.
Qed.
Lemma level_nodup l : all32 l -> NoDup l -> NoDup (level l) \/ coll.
Proof.
  induction l as [|a|a b l IH] using list_ind2; intros Ha Hn.
  - left. constructor.
  - left. cbn. repeat constructor. intros [].
  - inversion Ha as [|? ? A1 A2]; subst. inversion A2 as [|? ? B1 B2]; subst.
    inversion Hn as [|? ? N1 N2]; subst. inversion N2 as [|? ? N3 N4]; subst.
    destruct (IH B2 N4) as [IH'|C]; [|right; exact C].
    destruct (in_dec (list_eq_dec Z.eq_dec) (D (a ++ b)) (level l)) as [Hi|Hi].
    + right. destruct (level_in _ _ Hi B2) as (x & y & Hx & Hy & E & Lx & Ly).
      destruct (pair_inj a b x y A1 Lx E) as [[-> _]|C]; [|exact C]. exfalso. apply N1. right. exact Hx.
    + left. cbn. constructor; assumption.
Qed.
Lemma level_inj l : forall m, all32 l -> all32 m -> NoDup l -> NoDup m -> level l = level m -> l = m \/ coll.
Proof.
  induction l as [|a|a b l IH] using list_ind2; intros m Ha Hm Nl Nm E.
  - destruct m as [|c [|d m]]; [left; reflexivity|discriminate|discriminate].
  - inversion Ha as [|? ? A1 _]; subst. destruct m as [|c [|d m]]; [discriminate| |].
    + inversion Hm as [|? ? M1 _]; subst. cbn in E. injection E as E. destruct (pair_inj _ _ _ _ A1 M1 E) as [[-> _]|C]; auto.
    + inversion Hm as [|? ? M1 _]; subst. cbn in E. injection E as E E2. destruct m as [|x [|y m]]; [|discriminate|discriminate].
      destruct (pair_inj _ _ _ _ A1 M1 E) as [[-> ->]|C]; [|auto]. inversion Nm as [|? ? N _]; subst. exfalso. apply N. left. reflexivity.
  - inversion Ha as [|? ? A1 A2]; subst. inversion A2 as [|? ? B1 B2]; subst.
    inversion Nl as [|? ? N1 N2]; subst. inversion N2 as [|? ? N3 N4]; subst.
    destruct m as [|c [|d m]]; [discriminate| |].
    + inversion Hm as [|? ? M1 _]; subst. cbn in E. injection E as E E2.
      destruct (pair_inj _ _ _ _ A1 M1 E) as [[-> ->]|C]; [|auto]. exfalso. apply N1. left. reflexivity.
    + inversion Hm as [|? ? M1 M2]; subst. inversion M2 as [|? ? M3 M4]; subst. inversion Nm as [|? ? P1 P2]; subst. inversion P2 as [|? ? P3 P4]; subst.
      cbn in E. injection E as E E2. destruct (pair_inj _ _ _ _ A1 M1 E) as [[-> ->]|C]; [|auto].
      destruct (IH m B2 M4 N4 P4 E2) as [->|C]; auto.
Qed.

(** Equal height: distinct leaves, equal roots. *)
Lemma same_height n : forall l m r, all32 l -> all32 m -> NoDup l -> NoDup m -> tree_root D n l r -> tree_root D n m r -> l = m \/ coll.
Proof.
  induction n as [|n IH]; intros l m r Hl Hm Nl Nm T1 T2.
  - inversion T1; inversion T2; subst. left. congruence.
  - inversion T1 as [|? a b l' ? T1' E1 E2]; inversion T2 as [|? c d m' ? T2' E3 E4]; subst.
    destruct (level_nodup _ Hl Nl) as [N1|C]; [|auto]. destruct (level_nodup _ Hm Nm) as [N2|C]; [|auto].
    destruct (IH _ _ _ (level_all32 _) (level_all32 _) N1 N2 T1' T2') as [E|C]; [|auto].
    apply level_inj; assumption.
Qed.
(** Lower height: the leaves of the lower tree are inner nodes of the other. *)
Definition inner (h : list Z) : Prop := exists x y, length x = 32%nat /\ length y = 32%nat /\ h = D (x ++ y).
Lemma raise n k : forall m r, all32 m -> NoDup m -> tree_root D (S k + n) m r ->
  (exists m', tree_root D n m' r /\ all32 m' /\ NoDup m' /\ Forall inner m') \/ coll.
Proof.
  induction k as [|k IH]; intros m r Hm Nm T; cbn [Nat.add] in T; inversion T as [|? c d m' ? T' E3 E4]; subst.
  - destruct (level_nodup _ Hm Nm) as [N2|C]; [|auto]. left. exists (level (c :: d :: m')). split; [exact T'|].
    split; [apply level_all32|]. split; [exact N2|]. apply Forall_forall. intros h Hi.
    destruct (level_in _ _ Hi Hm) as (x & y & _ & _ & E & Lx & Ly). exists x, y. auto.
  - destruct (level_nodup _ Hm Nm) as [N2|C]; [|auto]. apply (IH _ r (level_all32 _) N2 T').
Qed.
Lemma lower_height n k l m r : all32 l -> all32 m -> NoDup l -> NoDup m ->
  tree_root D n l r -> tree_root D (S k + n) m r -> Forall inner l \/ coll.
Proof.
  intros Hl Hm Nl Nm T1 T2. destruct (raise n k m r Hm Nm T2) as [(m' & T & A & N & I)|C]; [|auto].
  destruct (same_height n l m' r Hl A Nl N T1 T) as [->|C]; auto.
Qed.
Lemma same_root l m : all32 l -> all32 m -> NoDup l -> NoDup m -> l <> [] -> m <> [] -> merkle_root D l = merkle_root D m ->
  l = m \/ Forall inner l \/ Forall inner m \/ coll.
Proof.
  intros Hl Hm Nl Nm Zl Zm E. destruct (merkle_root_spec l Zl) as [n T1]. destruct (merkle_root_spec m Zm) as [k T2]. rewrite <- E in T2.
  destruct (Nat.lt_trichotomy n k) as [H|[H|H]].
  - replace k with (S (k - n - 1) + n)%nat in T2 by lia. destruct (lower_height _ _ _ _ _ Hl Hm Nl Nm T1 T2); auto.
  - subst k. destruct (same_height _ _ _ _ Hl Hm Nl Nm T1 T2); auto.
  - replace n with (S (n - k - 1) + k)%nat in T1 by lia. destruct (lower_height _ _ _ _ _ Hm Hl Nm Nl T2 T1); auto.
Qed.
End M.
