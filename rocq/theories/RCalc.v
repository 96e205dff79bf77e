(** Reader calculus: composition rules for record and list readers. *)
From Verif Require Import Base Bytes MathModel StreamModel StreamSpec StreamProofs LCalc OpModel ChainModel.

Lemma parsesL_bind' {A B} (r : rd -> A * rd) (f : A -> rd -> B * rd) e1 e2 a b :
  parsesL r e1 a -> parsesL (f a) e2 b -> parsesL (bind r f) (e1 ++ e2) b.
Proof. apply parsesL_bind. Qed.
Lemma parsesL_ret' {A} (a : A) : parsesL (ret a) [] a. Proof. apply parsesL_ret. Qed.
Lemma parsesL_enc {A} (r : rd -> A * rd) e e' a : e = e' -> parsesL r e a -> parsesL r e' a.
Proof. intros ->. auto. Qed.

Lemma sticky_bind' {A B} (r : rd -> A * rd) (f : A -> rd -> B * rd) :
  sticky r -> (forall a, sticky (f a)) -> sticky (bind r f).
Proof. apply sticky_bind. Qed.
Lemma sticky_ret {A} (a : A) : sticky (ret a).
Proof. intros s G. exact G. Qed.

Lemma exactL_ret {A} (b : A) : exactL (ret b) (fun _ => []) (fun a => a = b).
Proof.
  intros s a s' Hb Hl E G. unfold ret in E. injection E as <- <-. split; [exact G|]. split; [reflexivity|].
  exists (rest s). repeat split; auto; lia.
Qed.
Lemma exactL_bind' {A B} (p : B -> A) (r : rd -> A * rd) (f : A -> rd -> B * rd) e1 ok1 e2 (ok2 : A -> B -> Prop) :
  exactL r e1 ok1 -> (forall a, ok1 a -> exactL (f a) e2 (ok2 a)) -> sticky r -> (forall a, sticky (f a)) ->
  (forall a b, ok2 a b -> p b = a) ->
  exactL (bind r f) (fun b => e1 (p b) ++ e2 b) (fun b => exists a, ok1 a /\ ok2 a b).
Proof.
  intros H1 H2 Sr Sf Hp s b s' Hb Hl E G.
  destruct (exactL_bind r f e1 ok1 (fun _ => e2) ok2 H1 H2 Sf Sr s b s' Hb Hl E G) as (Hg & a & Ha & Ho & t & Hr & Hr' & Hpa & HL).
  split; [exact Hg|]. split; [exists a; auto|]. exists t. rewrite (Hp a b Ho). split; [rewrite Hr, app_assoc; reflexivity|].
  split; [exact Hr'|]. split; [|exact HL]. rewrite Hpa, rev_app_distr, app_assoc. reflexivity.
Qed.
Lemma exactL_weaken {A} (r : rd -> A * rd) e e' (ok ok' : A -> Prop) :
  exactL r e ok -> (forall a, ok a -> ok' a /\ e a = e' a) -> exactL r e' ok'.
Proof.
  intros H W s a s' Hb Hl E G. destruct (H s a s' Hb Hl E G) as (Hg & Ho & t & R).
  destruct (W a Ho) as [Ho' <-]. split; [exact Hg|]. split; [exact Ho'|]. exists t. exact R.
Qed.

Lemma read_n_parsesL {A} (r : rd -> A * rd) (enc : A -> list Z) l :
  Forall (fun a => parsesL r (enc a) a) l -> parsesL (read_n (length l) r) (concat (map enc l)) l.
Proof.
  induction 1 as [|a l Ha _ IH]; cbn [length read_n map concat]; [apply parsesL_ret'|].
  eapply parsesL_bind'; [exact Ha|]. eapply parsesL_enc; [apply app_nil_r|]. eapply parsesL_bind'; [exact IH|]. apply parsesL_ret'.
Qed.
Lemma read_n_sticky {A} (r : rd -> A * rd) n : sticky r -> sticky (read_n n r).
Proof.
  intros Sr. induction n as [|n IH]; [apply sticky_ret|]. cbn [read_n].
  apply sticky_bind'; [exact Sr|]. intros a. apply sticky_bind'; [exact IH|]. intros l. apply sticky_ret.
Qed.
Lemma read_n_exactL {A} (r : rd -> A * rd) enc ok n : sticky r -> exactL r enc ok ->
  exactL (read_n n r) (fun l => concat (map enc l)) (fun l => length l = n /\ Forall ok l).
Proof.
  intros Sr Hr. induction n as [|n IH]; cbn [read_n].
  - eapply exactL_weaken; [apply exactL_ret|]. intros l ->. repeat split; auto.
  - intros s b s' Hb Hl E G.
    destruct (exactL_bind r (fun a => l <- read_n n r ;; ret (a :: l)) enc ok (fun a l => concat (map enc (tl l)))
      (fun a l => exists l', (length l' = n /\ Forall ok l') /\ l = a :: l')) with (s := s) (b := b) (s' := s') as (Hg & a & Ha & (l' & (Hn & Hf) & ->) & t & R1 & R2 & R3 & R4); auto.
    + intros a Ha. eapply exactL_weaken; [eapply (exactL_bind' (@tl A)) with (ok2 := fun x b => b = a :: x)|].
      * exact IH.
      * intros l _. apply exactL_ret.
      * apply read_n_sticky, Sr.
      * intros l. apply sticky_ret.
      * intros x y ->. reflexivity.
      * intros y (x & Hx & ->). split; [exists x; auto|]. cbn [tl]. apply app_nil_r.
    + intros a. apply sticky_bind'; [apply read_n_sticky, Sr|]. intros l. apply sticky_ret.
    + split; [exact Hg|]. cbn [length map concat tl] in *. split; [split; [lia|constructor; auto]|].
      exists t. rewrite <- app_assoc. split; [exact R1|]. split; [exact R2|]. split; [|exact R4]. rewrite R3, rev_app_distr, app_assoc. reflexivity.
Qed.

Definition list_enc {A} (enc : A -> list Z) (l : list A) : list Z := write_variable (len l) ++ concat (map enc l).
Lemma read_list_parsesL {A} limit (r : rd -> A * rd) enc l : len l <= limit -> len l < 2 ^ 64 ->
  Forall (fun a => parsesL r (enc a) a) l -> parsesL (read_list limit r) (list_enc enc l) l.
Proof.
  intros H1 H2 H. unfold read_list, list_enc. pose proof (len_nonneg l). eapply parsesL_bind'; [apply parses_L, read_size_parses; lia|].
  replace (Z.to_nat (len l)) with (length l) by (unfold len; lia). apply read_n_parsesL, H.
Qed.
Lemma read_list_sticky {A} limit (r : rd -> A * rd) : sticky r -> sticky (read_list limit r).
Proof. intros Sr. apply sticky_bind'; [apply read_size_sticky|]. intros n. apply read_n_sticky, Sr. Qed.
Lemma read_list_exactL {A} limit (r : rd -> A * rd) enc ok : sticky r -> exactL r enc ok ->
  exactL (read_list limit r) (list_enc enc) (fun l => len l <= limit /\ len l < 2 ^ 64 /\ Forall ok l).
Proof.
  intros Sr Hr. unfold read_list, list_enc. eapply exactL_weaken.
  - eapply (exactL_bind' len) with (ok2 := fun n l => (length l = Z.to_nat n /\ Forall ok l) /\ 0 <= n).
    + apply exact_L, read_size_exact.
    + intros n ((Hn0 & _) & _). eapply exactL_weaken; [apply read_n_exactL; eassumption|]. intros l Hl. split; [|reflexivity]. split; [exact Hl|exact Hn0].
    + apply read_size_sticky.
    + intros n. apply read_n_sticky, Sr.
    + intros n l ((Hl & _) & Hn). unfold len. lia.
  - intros l (n & (H1 & H2) & ((Hl & Hf) & _)). split; [|reflexivity].
    assert (len l = n) by (unfold len; lia). split; [lia|]. split; [lia|exact Hf].
Qed.

Lemma read_bytes_parses b : parses (read_bytes (len b)) b b.
Proof.
  intros s t Hg Hr Hl. unfold read_bytes. rewrite Hg. cbn [negb]. destruct (Z.eqb_spec (len b) 0) as [E|E].
  - apply len_zero in E. subst b. destruct s as [sp sr sg sl]. unfold eat. cbn in *. subst. rewrite Z.sub_0_r. reflexivity.
  - apply do_read_parses; assumption.
Qed.
Lemma read_bytes_sticky n : sticky (read_bytes n).
Proof. intros s G. unfold read_bytes. rewrite G. cbn [negb]. destruct (n =? 0); exact G. Qed.
Lemma read_bytes_exactL n : 0 <= n -> exactL (read_bytes n) (fun b => b) (fun b => len b = n /\ bytes_ok b).
Proof.
  intros Hn s a s' Hb Hl E G. unfold read_bytes in E. destruct (Z.eqb_spec n 0) as [->|N].
  - injection E as <- <-. split; [exact G|]. split; [split; [reflexivity|constructor]|]. exists (rest s). repeat split; auto; lia.
  - destruct (good s) eqn:Q; cbn [negb] in E; [|injection E as <- <-; congruence].
    destruct (exact_L _ _ _ (do_read_exact n Hn) s a s' Hb Hl E G) as (_ & K). split; [reflexivity|exact K].
Qed.
