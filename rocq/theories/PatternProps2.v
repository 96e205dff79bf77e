(** C63: which keys and parameters the builders take, on bytes. *)
From Verif Require Import Base Bytes NumberModel OpModel ValidModel AddressModel PatternModel PatternProps.

(** A compressed or uncompressed public key, by its form. *)
Definition key_form (k : list Z) : Prop :=
  (exists x r, k = x :: r /\ (x = 2 \/ x = 3) /\ length r = 32%nat) \/ (exists r, k = 4 :: r /\ length r = 64%nat).
Theorem C63_public_key k : is_public_key k = true <-> key_form k.
Proof.
  unfold is_public_key, is_compressed_key, is_uncompressed_key, key_form. split.
  - intros H. apply orb_true_iff in H as [H|H]; apply andb_true_iff in H as [L H]; apply Z.eqb_eq in L; (destruct k as [|x r]; [cbn in L; lia|]); cbn [hd] in H; rewrite len_cons in L; unfold len in L.
    + left. exists x, r. split; [reflexivity|]. apply orb_true_iff in H. split; [destruct H as [H|H]; apply Z.eqb_eq in H; auto|lia].
    + right. exists r. apply Z.eqb_eq in H. subst x. split; [reflexivity|lia].
  - intros [(x & r & -> & H & L)|(r & -> & L)]; rewrite len_cons; unfold len; rewrite L; cbn [hd]; [destruct H as [->| ->]|]; reflexivity.
Qed.
Print Assumptions C63_public_key.
(** Out of range parameters give the empty script: it cannot be spent by a
    template, and no other script is built. *)
Theorem C63_refuses :
  (forall k, to_pay_public_key k = [] <-> ~ key_form k) /\
  (forall m keys, to_pay_multisig m keys = [] <-> ~ (1 <= m <= len keys /\ len keys <= 16 /\ Forall key_form keys)) /\
  (forall d, to_pay_null_data d = [] <-> 80 < len d).
Proof.
  split; [|split].
  - intros k. unfold to_pay_public_key. pose proof (C63_public_key k) as P. destruct (is_public_key k); cbn [negb]; split; intros H; try discriminate; try reflexivity.
    + exfalso. apply H, P. reflexivity.
    + intros Q. apply P in Q. discriminate.
  - intros m keys. unfold to_pay_multisig. cbv zeta. assert (FK : forallb is_public_key keys = true <-> Forall key_form keys).
    { rewrite forallb_forall, Forall_forall. split; intros H k I; apply C63_public_key, H, I. }
    destruct ((m <? 1) || (m >? len keys) || (len keys <? 1) || (len keys >? 16)) eqn:E; [split; [intros _ H; lia|reflexivity]|].
    destruct (forallb is_public_key keys); cbn [negb]; split; intros H; try discriminate; try reflexivity.
    + exfalso. apply H. split; [lia|]. split; [lia|]. apply FK. reflexivity.
    + intros (_ & _ & Q). apply FK in Q. discriminate.
  - intros d. unfold to_pay_null_data. destruct (Z.gtb_spec (len d) 80); split; intros Q; try discriminate; try reflexivity; lia.
Qed.
Print Assumptions C63_refuses.
Example C63_refuses_nonvacuous : key_form (3 :: repeat 5 32) /\ ~ key_form (5 :: repeat 5 32) /\ to_pay_multisig 2 [2 :: repeat 5 32] = [] /\ to_pay_multisig 1 [2 :: repeat 5 32] <> [].
Proof.
  split; [left; exists 3, (repeat 5 32); auto|]. split; [|split; [reflexivity|discriminate]].
  intros [(x & r & E & H & _)|(r & E & _)]; assert (5 = hd 0 (5 :: repeat 5 32)) by reflexivity; rewrite E in *; cbn [hd] in *; lia.
Qed.
