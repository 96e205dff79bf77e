(** Reader calculus for codecs that reset the read limit (length-prefixed
    scripts): like parses/exact of StreamProofs but the final limit is only
    bounded. *)
From Verif Require Import Base Bytes MathModel MathSpec MathProofs StreamModel StreamSpec StreamProofs StreamProofs2 LineProofs.

Definition parsesL {A} (r : rd -> A * rd) (enc : list Z) (a : A) : Prop :=
  forall s t, good s = true -> rest s = enc ++ t -> len enc + len t <= lim s <= 2 ^ 64 - 1 ->
  exists l', r s = (a, mkrd (rev enc ++ past s) t true l') /\ len t <= l' <= 2 ^ 64 - 1.
Definition exactL {A} (r : rd -> A * rd) (enc : A -> list Z) (ok : A -> Prop) : Prop :=
  forall s a s', bytes_ok (rest s) -> 0 <= lim s <= 2 ^ 64 - 1 -> r s = (a, s') -> good s' = true ->
  good s = true /\ ok a /\ exists t, rest s = enc a ++ t /\ rest s' = t /\ past s' = rev (enc a) ++ past s /\
    0 <= lim s' <= 2 ^ 64 - 1.

Lemma parses_L {A} (r : rd -> A * rd) enc a : parses r enc a -> parsesL r enc a.
Proof.
  intros H s t Hg Hr Hl. pose proof (len_nonneg t). pose proof (len_nonneg enc).
  exists (lim s - len enc). split; [rewrite (H s t Hg Hr) by lia; reflexivity|lia].
Qed.
Lemma exact_L {A} (r : rd -> A * rd) enc ok : exact r enc ok -> exactL r enc ok.
Proof.
  intros H s a s' Hb Hl E G. destruct (H s a s' Hb E G) as (Hg & Ho & t & Hr & HL & ->).
  pose proof (len_nonneg (enc a)). split; [exact Hg|]. split; [exact Ho|]. exists t. unfold eat. cbn [rest past lim]. repeat split; auto; lia.
Qed.
Lemma parsesL_bind {A B} (r : rd -> A * rd) (f : A -> rd -> B * rd) e1 e2 a b :
  parsesL r e1 a -> parsesL (f a) e2 b -> parsesL (fun s => let (x, s') := r s in f x s') (e1 ++ e2) b.
Proof.
  intros H1 H2 s t Hg Hr Hl. rewrite len_app in Hl. rewrite <- app_assoc in Hr.
  destruct (H1 s (e2 ++ t) Hg Hr) as (l1 & E1 & L1); [rewrite len_app; lia|]. rewrite E1.
  destruct (H2 (mkrd (rev e1 ++ past s) (e2 ++ t) true l1) t eq_refl eq_refl) as (l2 & E2 & L2); [cbn [lim]; rewrite len_app in L1; lia|].
  rewrite E2. exists l2. cbn [past]. split; [rewrite rev_app_distr, <- app_assoc; reflexivity|exact L2].
Qed.
Lemma parsesL_ret {A} (a : A) : parsesL (fun s => (a, s)) [] a.
Proof.
  intros s t Hg Hr Hl. exists (lim s). split; [|change (len (@nil Z)) with 0 in Hl; lia]. destruct s; cbn in *. subst. reflexivity.
Qed.
Lemma exactL_bind {A B} (r : rd -> A * rd) (f : A -> rd -> B * rd) enc1 ok1 enc2 (ok2 : A -> B -> Prop) :
  exactL r enc1 ok1 -> (forall a, ok1 a -> exactL (f a) (enc2 a) (ok2 a)) -> (forall a, sticky (f a)) -> sticky r ->
  forall s b s', bytes_ok (rest s) -> 0 <= lim s <= 2 ^ 64 - 1 -> (let (x, s1) := r s in f x s1) = (b, s') -> good s' = true ->
  good s = true /\ exists a, ok1 a /\ ok2 a b /\ exists t, rest s = enc1 a ++ enc2 a b ++ t /\ rest s' = t /\
    past s' = rev (enc2 a b) ++ rev (enc1 a) ++ past s /\ 0 <= lim s' <= 2 ^ 64 - 1.
Proof.
  intros H1 H2 St Sr s b s' Hb Hl E G. destruct (r s) as [a s1] eqn:E1.
  assert (G1 : good s1 = true). { destruct (good s1) eqn:Q; [reflexivity|]. pose proof (St a s1 Q) as Q2. rewrite E in Q2. cbn in Q2. congruence. }
  destruct (H1 s a s1 Hb Hl E1 G1) as (Hg & Ho & t & Hr & Hr1 & Hp & Hl1).
  assert (Hb1 : bytes_ok (rest s1)). { rewrite Hr1. rewrite Hr in Hb. apply bytes_ok_app in Hb. apply Hb. }
  destruct (H2 a Ho s1 b s' Hb1 Hl1 E G) as (_ & Ho2 & u & Hu & Hr2 & Hp2 & Hl2).
  split; [exact Hg|]. exists a. split; [exact Ho|]. split; [exact Ho2|]. exists u. rewrite Hr2, Hp2, Hp. repeat split; auto; try lia.
  rewrite Hr. rewrite <- Hr1, Hu. reflexivity.
Qed.
