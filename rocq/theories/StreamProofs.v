From Verif Require Import Base Bytes MathModel MathSpec MathProofs StreamModel StreamSpec.

(** ** Reader calculus used by every codec proof. *)
Definition eat (a t : list Z) (s : rd) : rd := mkrd (rev a ++ past s) t true (lim s - len a).

Definition parses {A} (r : rd -> A * rd) (enc : list Z) (a : A) : Prop :=
  forall s t, good s = true -> rest s = enc ++ t -> len enc <= lim s ->
  r s = (a, eat enc t s).
Definition exact {A} (r : rd -> A * rd) (enc : A -> list Z) (ok : A -> Prop) : Prop :=
  forall s a s', bytes_ok (rest s) -> r s = (a, s') -> good s' = true ->
  good s = true /\ ok a /\ exists t, rest s = enc a ++ t /\ len (enc a) <= lim s /\ s' = eat (enc a) t s.
Definition sticky {A} (r : rd -> A * rd) : Prop :=
  forall s, good s = false -> good (snd (r s)) = false.

Lemma do_read_ok n s : good s = true -> 0 <= n -> n <= len (rest s) -> n <= lim s ->
  do_read n s = (firstn (Z.to_nat n) (rest s),
                 eat (firstn (Z.to_nat n) (rest s)) (skipn (Z.to_nat n) (rest s)) s).
Proof.
  intros Hg H0 H1 H2. unfold do_read, limiter. destruct (Z.gtb_spec n (lim s)); [lia|].
  unfold istream_read, set_lim. cbn [good rest]. rewrite Hg. cbn [negb].
  destruct (Z.gtb_spec n (len (rest s))); [lia|]. f_equal. unfold advance, eat. cbn [past rest good lim].
  f_equal. rewrite (proj2 (list_split_len _ _ (conj H0 H1))). reflexivity.
Qed.
Lemma do_read_inv n s b s' : 0 <= n -> do_read n s = (b, s') -> good s' = true ->
  good s = true /\ n <= len (rest s) /\ n <= lim s /\ b = firstn (Z.to_nat n) (rest s) /\
  s' = eat b (skipn (Z.to_nat n) (rest s)) s.
Proof.
  intros H0 E G. destruct (good s) eqn:Hg.
  - destruct (Z.le_gt_cases n (lim s)) as [H2|H2].
    + destruct (Z.le_gt_cases n (len (rest s))) as [H1|H1].
      * rewrite do_read_ok in E by assumption. inversion E. subst. repeat split; assumption.
      * exfalso. unfold do_read, limiter in E. destruct (Z.gtb_spec n (lim s)); [lia|].
        unfold istream_read, set_lim in E. cbn [good rest] in E. rewrite Hg in E. cbn [negb] in E.
        destruct (Z.gtb_spec n (len (rest s))); [|lia]. inversion E. subst. discriminate.
    + exfalso. unfold do_read, limiter in E. destruct (Z.gtb_spec n (lim s)); [|lia].
      inversion E. subst. discriminate.
  - exfalso. unfold do_read, limiter in E. destruct (Z.gtb_spec n (lim s)).
    + inversion E. subst. discriminate.
    + unfold istream_read, set_lim in E. cbn [good rest] in E. rewrite Hg in E. cbn [negb] in E.
      inversion E. subst. cbn in G. congruence.
Qed.
Lemma do_read_sticky n : sticky (do_read n).
Proof.
  intros s Hg. unfold do_read, limiter. destruct (n >? lim s); [reflexivity|].
  unfold istream_read, set_lim. cbn [good rest]. rewrite Hg. reflexivity.
Qed.

Lemma do_read_parses b : parses (do_read (len b)) b b.
Proof.
  intros s t Hg Hr Hl. rewrite do_read_ok; [|assumption|apply len_nonneg|rewrite Hr, len_app; pose proof (len_nonneg t); lia|assumption].
  rewrite Hr. rewrite (firstn_len_app b t (len b) eq_refl), (skipn_len_app b t (len b) eq_refl). reflexivity.
Qed.
Lemma do_read_exact n : 0 <= n -> exact (do_read n) (fun b => b) (fun b => len b = n /\ bytes_ok b).
Proof.
  intros H0 s a s' Hok E G. destruct (do_read_inv n s a s' H0 E G) as (Hg & H1 & H2 & Hb & Hs').
  destruct (list_split_len (rest s) n (conj H0 H1)) as [Hsp Hln].
  split; [assumption|]. split; [split; [subst; assumption|subst; apply bytes_ok_firstn; assumption]|].
  exists (skipn (Z.to_nat n) (rest s)). split; [subst a; exact Hsp|]. split; [subst a; lia|assumption].
Qed.

Lemma read_byte_parses b : parses read_byte [b] b.
Proof.
  intros s t Hg Hr Hl. unfold read_byte. change 1 with (len [b]). rewrite (do_read_parses [b] s t Hg Hr Hl). reflexivity.
Qed.
Lemma read_byte_exact : exact read_byte (fun b => [b]) byte_ok.
Proof.
  intros s a s' Hok E G. unfold read_byte in E. destruct (do_read 1 s) as [b s1] eqn:E1. inversion E. subst a s'.
  destruct (do_read_exact 1 ltac:(lia) s b s1 Hok E1 G) as (Hg & [Hl Hb] & t & Hr & Hlim & Hs').
  destruct b as [|x [|y b]]; rewrite ?len_cons, ?len_nil in Hl; try (pose proof (len_nonneg b)); try lia.
  cbn [hd]. split; [assumption|]. split; [inversion Hb; assumption|]. exists t. auto.
Qed.
Lemma read_byte_sticky : sticky read_byte.
Proof. intros s Hg. unfold read_byte. pose proof (do_read_sticky 1 s Hg). destruct (do_read 1 s). exact H. Qed.

Lemma read_le_parses n v : 0 <= v < 256 ^ Z.of_nat n -> parses (read_le (Z.of_nat n)) (le_bytes n v) v.
Proof.
  intros Hv s t Hg Hr Hl. unfold read_le. rewrite <- (len_le_bytes n v).
  rewrite (do_read_parses _ s t Hg Hr Hl). rewrite le_value_bytes_small by assumption. reflexivity.
Qed.
Lemma read_le_exact n : exact (read_le (Z.of_nat n)) (le_bytes n) (fun v => 0 <= v < 256 ^ Z.of_nat n).
Proof.
  intros s a s' Hok E G. unfold read_le in E. destruct (do_read (Z.of_nat n) s) as [b s1] eqn:E1. inversion E. subst a s'.
  destruct (do_read_exact (Z.of_nat n) ltac:(lia) s b s1 Hok E1 G) as (Hg & [Hl Hb] & t & Hr & Hlim & Hs').
  assert (Hlb : length b = n) by (unfold len in Hl; lia).
  split; [assumption|]. split; [rewrite <- Hl; apply le_value_range; assumption|].
  exists t. rewrite <- Hlb. rewrite le_bytes_value by assumption. auto.
Qed.
Lemma read_le_sticky n : sticky (read_le n).
Proof. intros s Hg. unfold read_le. pose proof (do_read_sticky n s Hg). destruct (do_read n s). exact H. Qed.
Lemma read_be_parses n v : 0 <= v < 256 ^ Z.of_nat n -> parses (read_be (Z.of_nat n)) (be_bytes n v) v.
Proof.
  intros Hv s t Hg Hr Hl. unfold read_be. rewrite <- (len_be_bytes n v).
  rewrite (do_read_parses _ s t Hg Hr Hl). rewrite be_value_bytes_small by assumption. reflexivity.
Qed.
Lemma read_be_exact n : exact (read_be (Z.of_nat n)) (be_bytes n) (fun v => 0 <= v < 256 ^ Z.of_nat n).
Proof.
  intros s a s' Hok E G. unfold read_be in E. destruct (do_read (Z.of_nat n) s) as [b s1] eqn:E1. inversion E. subst a s'.
  destruct (do_read_exact (Z.of_nat n) ltac:(lia) s b s1 Hok E1 G) as (Hg & [Hl Hb] & t & Hr & Hlim & Hs').
  assert (Hlb : length b = n) by (unfold len in Hl; lia).
  split; [assumption|]. split; [rewrite <- Hl; apply be_value_range; assumption|].
  exists t. rewrite <- Hlb. rewrite be_bytes_value by assumption. auto.
Qed.
Lemma read_be_sticky n : sticky (read_be n).
Proof. intros s Hg. unfold read_be. pose proof (do_read_sticky n s Hg). destruct (do_read n s). exact H. Qed.

(** Sequencing. *)
Lemma eat_eat a b t u s : eat b t (eat a u s) = eat (a ++ b) t s.
Proof. unfold eat. cbn [past lim]. rewrite rev_app_distr, app_assoc, len_app. f_equal. lia. Qed.
Lemma eat_rest a t s : rest (eat a t s) = t. Proof. reflexivity. Qed.
Lemma eat_good a t s : good (eat a t s) = true. Proof. reflexivity. Qed.
Lemma eat_lim a t s : lim (eat a t s) = lim s - len a. Proof. reflexivity. Qed.

Lemma parses_bind {A B} (r : rd -> A * rd) (f : A -> rd -> B * rd) e1 e2 a b :
  parses r e1 a -> parses (f a) e2 b -> parses (fun s => let (x, s') := r s in f x s') (e1 ++ e2) b.
Proof.
  intros H1 H2 s t Hg Hr Hl. rewrite len_app in Hl. pose proof (len_nonneg e2).
  rewrite <- app_assoc in Hr. rewrite (H1 s (e2 ++ t) Hg Hr ltac:(lia)).
  rewrite (H2 (eat e1 (e2 ++ t) s) t eq_refl eq_refl ltac:(cbn; lia)). rewrite eat_eat. reflexivity.
Qed.
Lemma parses_ret {A} (a : A) : parses (fun s => (a, s)) [] a.
Proof. intros s t Hg Hr Hl. cbn [app] in Hr. unfold eat. rewrite len_nil. destruct s; cbn in *. subst. repeat f_equal. lia. Qed.

Lemma read_variable_parses v : 0 <= v < 2 ^ 64 -> parses read_variable (write_variable v) v.
Proof.
  intros Hv s t Hg Hr Hl. unfold read_variable, write_variable in *.
  destruct (Z.ltb_spec v 253) as [H|H].
  - rewrite wrap_fits in * by (cbn; unfold fits; cbn; lia).
    rewrite (read_byte_parses v s t Hg Hr Hl).
    do 3 match goal with |- context [v =? ?c] => destruct (Z.eqb_spec v c); [lia|] end. reflexivity.
  - destruct (Z.leb_spec v 65535) as [H'|H']; [|destruct (Z.leb_spec v 4294967295) as [H''|H'']].
    + unfold write_le in *. rewrite wrap_fits in * by (cbn; unfold fits; cbn; lia).
      rewrite len_cons, len_le_bytes in Hl.
      rewrite (read_byte_parses 253 s (le_bytes 2 v ++ t) Hg Hr ltac:(cbn; lia)). cbn [Z.eqb Pos.eqb].
      change 2 with (Z.of_nat 2). rewrite (read_le_parses 2 v) with (t := t); try reflexivity; [|cbn; lia|cbn in *; lia].
      rewrite eat_eat. destruct (Z.geb_spec v 253); [reflexivity|lia].
    + unfold write_le in *. rewrite wrap_fits in * by (cbn; unfold fits; cbn; lia).
      rewrite len_cons, len_le_bytes in Hl.
      rewrite (read_byte_parses 254 s (le_bytes 4 v ++ t) Hg Hr ltac:(cbn; lia)). cbn [Z.eqb Pos.eqb].
      change 4 with (Z.of_nat 4). rewrite (read_le_parses 4 v) with (t := t); try reflexivity; [|cbn; lia|cbn in *; lia].
      rewrite eat_eat. destruct (Z.gtb_spec v 65535); [reflexivity|lia].
    + unfold write_le in *. rewrite len_cons, len_le_bytes in Hl.
      rewrite (read_byte_parses 255 s (le_bytes 8 v ++ t) Hg Hr ltac:(cbn; lia)). cbn [Z.eqb Pos.eqb].
      change 8 with (Z.of_nat 8). rewrite (read_le_parses 8 v) with (t := t); try reflexivity; [|cbn; lia|cbn in *; lia].
      rewrite eat_eat. destruct (Z.gtb_spec v 4294967295); [reflexivity|lia].
Qed.

Lemma invalid_bad s : good (invalid s) = false. Proof. reflexivity. Qed.

Lemma read_variable_exact : exact read_variable write_variable (fun v => 0 <= v < 2 ^ 64).
Proof.
  intros s a s' Hok E G. unfold read_variable in E. destruct (read_byte s) as [b s1] eqn:E1.
  assert (K : forall n (c : Z -> bool) s2, read_le (Z.of_nat n) s1 = (a, s2) -> s' = s2 ->
     good s = true /\ 0 <= a < 256 ^ Z.of_nat n /\ exists t, rest s = b :: le_bytes n a ++ t /\
       1 + Z.of_nat n <= lim s /\ s' = eat (b :: le_bytes n a) t s /\ byte_ok b).
  { intros n c s2 E2 ->. destruct (read_le_exact n s1 a s2) as (Hg1 & Ha & t & Hr & Hlim & Hs); [|assumption|assumption|].
    - destruct (good s1) eqn:G1.
      + destruct (read_byte_exact s b s1 Hok E1 G1) as (_ & _ & t & Hr & _ & ->). cbn [rest eat].
        rewrite Hr in Hok. apply bytes_ok_app in Hok. tauto.
      + pose proof (read_le_sticky (Z.of_nat n) s1 G1) as F. rewrite E2 in F. cbn in F. congruence.
    - destruct (read_byte_exact s b s1 Hok E1 Hg1) as (Hg & Hb & t1 & Hr1 & Hlim1 & ->).
      split; [assumption|]. split; [assumption|]. exists t. cbn [rest eat lim] in *. rewrite len_le_bytes in *.
      rewrite Hr1, Hr. split; [reflexivity|]. split; [rewrite len_cons, len_nil in Hlim; lia|].
      split; [|assumption]. rewrite Hs. rewrite eat_eat. reflexivity. }
  destruct (Z.eqb_spec b 255) as [->|N1].
  { destruct (read_le 8 s1) as [v s2] eqn:E2. destruct (Z.gtb_spec v 4294967295); inversion E; subst; [|discriminate].
    destruct (K 8%nat (fun _ => true) s' E2 eq_refl) as (Hg & Ha & t & Hr & Hl & Hs & _).
    change (256 ^ Z.of_nat 8) with (2 ^ 64) in Ha. split; [assumption|]. split; [assumption|]. exists t.
    unfold write_variable. destruct (Z.ltb_spec a 253); [lia|]. destruct (Z.leb_spec a 65535); [lia|].
    destruct (Z.leb_spec a 4294967295); [lia|]. unfold write_le. rewrite len_cons, len_le_bytes. auto. }
  destruct (Z.eqb_spec b 254) as [->|N2].
  { destruct (read_le 4 s1) as [v s2] eqn:E2. destruct (Z.gtb_spec v 65535); inversion E; subst; [|discriminate].
    destruct (K 4%nat (fun _ => true) s' E2 eq_refl) as (Hg & Ha & t & Hr & Hl & Hs & _).
    change (256 ^ Z.of_nat 4) with 4294967296 in Ha. split; [assumption|]. split; [lia|]. exists t.
    unfold write_variable. destruct (Z.ltb_spec a 253); [lia|]. destruct (Z.leb_spec a 65535); [lia|].
    destruct (Z.leb_spec a 4294967295); [|lia]. unfold write_le.
    rewrite wrap_fits by (cbn; unfold fits; cbn; lia). rewrite len_cons, len_le_bytes. auto. }
  destruct (Z.eqb_spec b 253) as [->|N3].
  { destruct (read_le 2 s1) as [v s2] eqn:E2. destruct (Z.geb_spec v 253); inversion E; subst; [|discriminate].
    destruct (K 2%nat (fun _ => true) s' E2 eq_refl) as (Hg & Ha & t & Hr & Hl & Hs & _).
    change (256 ^ Z.of_nat 2) with 65536 in Ha. split; [assumption|]. split; [lia|]. exists t.
    unfold write_variable. destruct (Z.ltb_spec a 253); [lia|]. destruct (Z.leb_spec a 65535); [|lia].
    unfold write_le. rewrite wrap_fits by (cbn; unfold fits; cbn; lia). rewrite len_cons, len_le_bytes. auto. }
  inversion E. subst. destruct (read_byte_exact s a s' Hok E1 G) as (Hg & Hb & t & Hr & Hl & Hs).
  unfold byte_ok in Hb. split; [assumption|]. split; [lia|]. exists t.
  unfold write_variable. destruct (Z.ltb_spec a 253); [|lia]. rewrite wrap_fits by (cbn; unfold fits; cbn; lia). auto.
Qed.
Lemma sticky_bind {A B} (r : rd -> A * rd) (f : A -> rd -> B * rd) :
  sticky r -> (forall a, sticky (f a)) -> sticky (fun s => let (x, s') := r s in f x s').
Proof. intros H1 H2 s Hg. pose proof (H1 s Hg). destruct (r s). apply H2. assumption. Qed.
Lemma read_variable_sticky : sticky read_variable.
Proof.
  intros s Hg. unfold read_variable. pose proof (read_byte_sticky s Hg) as H. destruct (read_byte s) as [b s1]. cbn in H.
  destruct (b =? 255); [|destruct (b =? 254); [|destruct (b =? 253); [|exact H]]].
  - pose proof (read_le_sticky 8 s1 H) as H'. destruct (read_le 8 s1). destruct (_ >? _); [exact H'|reflexivity].
  - pose proof (read_le_sticky 4 s1 H) as H'. destruct (read_le 4 s1). destruct (_ >? _); [exact H'|reflexivity].
  - pose proof (read_le_sticky 2 s1 H) as H'. destruct (read_le 2 s1). destruct (_ >=? _); [exact H'|reflexivity].
Qed.

Lemma len_write_variable v : len (write_variable v) = variable_size v.
Proof. unfold write_variable, variable_size, write_le. repeat destruct (_ <? _); repeat destruct (_ <=? _); rewrite ?len_cons, ?len_le_bytes; reflexivity. Qed.
Lemma write_variable_ok v : bytes_ok (write_variable v).
Proof.
  unfold write_variable, write_le.
  destruct (v <? 253); [constructor; [|constructor]; unfold byte_ok, wrap; cbn; pose proof (Z.mod_pos_bound v 256); lia|].
  destruct (v <=? 65535); [|destruct (v <=? 4294967295)]; (constructor; [unfold byte_ok; lia|apply le_bytes_ok]).
Qed.
Lemma read_size_parses limit v : 0 <= v < 2 ^ 64 -> v <= limit -> parses (read_size limit) (write_variable v) v.
Proof.
  intros Hv Hl s t Hg Hr Hlim. unfold read_size. rewrite (read_variable_parses v Hv s t Hg Hr Hlim).
  destruct (Z.gtb_spec v limit); [lia|reflexivity].
Qed.
Lemma read_size_exact limit : exact (read_size limit) write_variable (fun v => 0 <= v < 2 ^ 64 /\ v <= limit).
Proof.
  intros s a s' Hok E G. unfold read_size in E. destruct (read_variable s) as [v s1] eqn:E1.
  destruct (Z.gtb_spec v limit); inversion E; subst; [discriminate|].
  destruct (read_variable_exact s a s' Hok E1 G) as (Hg & Ha & X). auto.
Qed.
Lemma read_size_sticky limit : sticky (read_size limit).
Proof.
  intros s Hg. unfold read_size. pose proof (read_variable_sticky s Hg) as H. destruct (read_variable s) as [v s1].
  destruct (_ >? _); [reflexivity|exact H].
Qed.
