(** Proofs about the string functions of TextModel: the words of a text. *)
From Coq Require Import String.
From Verif Require Import Base Bytes MathModel NumberModel StreamModel RadixModel OpModel TextTable TextModel TextSpec.

Definition whiteb (c : Z) : bool := ((9 <=? c) && (c <=? 13)) || (c =? 32).
Lemma whiteb_ok c : whiteb c = true <-> white c.
Proof. unfold whiteb, white. rewrite orb_true_iff, andb_true_iff, !Z.leb_le, Z.eqb_eq. lia. Qed.
Lemma white_in c : In c ascii_whitespace <-> white c.
Proof. unfold ascii_whitespace, white. cbn [In]. lia. Qed.

(** ** trimming *)
Definition mem (c : Z) (l : list Z) : bool := existsb (Z.eqb c) l.
Lemma mem_in c l : mem c l = true <-> In c l.
Proof.
  unfold mem. rewrite existsb_exists. split.
  - intros (x & I & E). apply Z.eqb_eq in E. subst. exact I.
  - intros I. exists c. split; [exact I|apply Z.eqb_refl].
Qed.
Fixpoint dw (tokens text : list Z) : list Z :=
  match text with [] => [] | x :: r => if mem x tokens then dw tokens r else text end.

Lemma trim_token_dw tokens c t : In c tokens -> dw tokens (trim_left_token c t) = dw tokens t.
Proof.
  intros I. induction t as [|x t IH]; [reflexivity|]. cbn [trim_left_token]. destruct (Z.eqb_spec x c) as [->|N]; [|reflexivity].
  rewrite IH. cbn [dw]. apply mem_in in I. rewrite I. reflexivity.
Qed.
Lemma trim_token_len c t : (length (trim_left_token c t) <= length t)%nat.
Proof. induction t as [|x t IH]; [cbn; lia|]. cbn [trim_left_token]. destruct (x =? c); cbn [length] in *; lia. Qed.
Lemma trim_token_same c t : length (trim_left_token c t) = length t -> trim_left_token c t = t /\ (forall x r, t = x :: r -> x <> c).
Proof.
  destruct t as [|x t]; [intros _; split; [reflexivity|discriminate]|].
  cbn [trim_left_token]. destruct (Z.eqb_spec x c) as [->|N].
  - pose proof (trim_token_len c t). cbn [length]. lia.
  - intros _. split; [reflexivity|]. intros y r E. injection E as -> _. exact N.
Qed.
Lemma trimmed_len a b : trimmed a b = negb (Nat.eqb (length a) (length b)).
Proof. unfold trimmed, len. destruct (Nat.eqb_spec (length a) (length b)) as [->|N]; [rewrite Z.eqb_refl; reflexivity|]. destruct (Z.eqb_spec (Z.of_nat (length a)) (Z.of_nat (length b))); [lia|reflexivity]. Qed.

Lemma pass_gen all tokens : incl tokens all -> forall t f,
  exists t' f', fold_left (fun '(t, found) c => let t' := trim_left_token c t in (t', found || trimmed t t')) tokens (t, f) = (t', f') /\
   dw all t' = dw all t /\ (length t' <= length t)%nat /\
   (f' = false -> f = false /\ t' = t /\ forall x r, t = x :: r -> ~ In x tokens) /\
   (f' = true -> f = true \/ (length t' < length t)%nat).
Proof.
  induction tokens as [|c tokens IH]; intros I t f.
  { exists t, f. split; [reflexivity|]. split; [reflexivity|]. split; [lia|]. split; [intros ->; split; [reflexivity|split; [reflexivity|auto]]|auto]. }
  cbn [fold_left]. destruct (IH (fun x h => I x (or_intror h)) (trim_left_token c t) (f || trimmed t (trim_left_token c t))) as (t' & f' & E & D & L & F & T).
  exists t', f'. split; [exact E|]. split; [rewrite D; apply trim_token_dw, I; left; reflexivity|].
  pose proof (trim_token_len c t) as L2. split; [lia|]. rewrite trimmed_len in *. split.
  - intros H. destruct (F H) as (A & B & C). apply orb_false_iff in A. destruct A as [A1 A2]. apply negb_false_iff, Nat.eqb_eq in A2.
    destruct (trim_token_same c t (eq_sym A2)) as [S1 S2]. split; [exact A1|]. split; [congruence|].
    intros x r Ex [Hx|Hx]; [exact (S2 x r Ex (eq_sym Hx))|]. rewrite S1 in C. exact (C x r Ex Hx).
  - intros H. destruct (T H) as [A|A]; [|right; lia]. apply orb_true_iff in A. destruct A as [A|A]; [left; exact A|].
    right. apply negb_true_iff, Nat.eqb_neq in A. lia.
Qed.
Lemma dw_stop tokens t : (forall x r, t = x :: r -> ~ In x tokens) -> dw tokens t = t.
Proof.
  destruct t as [|x r]; [reflexivity|]. intros H. cbn [dw]. destruct (mem x tokens) eqn:E; [|reflexivity].
  apply mem_in in E. destruct (H x r eq_refl E).
Qed.
Lemma trim_left_loop_dw tokens f : forall t, (length t <= f)%nat -> trim_left_loop f tokens t = dw tokens t.
Proof.
  induction f as [|f IH]; intros t L; destruct (pass_gen tokens tokens (incl_refl _) t false) as (t' & f' & E & D & L' & F & T); change (trim_pass tokens t = (t', f')) in E.
  - cbn [trim_left_loop]. rewrite E. rewrite <- D. destruct t' as [|x t']; [reflexivity|]. cbn [length] in *. lia.
  - cbn [trim_left_loop]. rewrite E. destruct f'.
    + destruct (T eq_refl) as [?|?]; [discriminate|]. rewrite IH by lia. exact D.
    + destruct (F eq_refl) as (_ & -> & H). symmetry. apply dw_stop, H.
Qed.
Lemma trim_left_dw tokens t : trim_left tokens t = dw tokens t.
Proof. apply trim_left_loop_dw. lia. Qed.
Lemma dw_split tokens t : exists w, t = w ++ dw tokens t /\ Forall (fun c => In c tokens) w.
Proof.
  induction t as [|x t (w & E & F)]; [exists []; split; [reflexivity|constructor]|]. cbn [dw]. destruct (mem x tokens) eqn:M.
  - exists (x :: w). split; [cbn [app]; f_equal; exact E|]. apply Forall_cons; [apply mem_in; exact M|exact F].
  - exists []. split; [reflexivity|constructor].
Qed.
Lemma dw_id tokens t : Forall (fun c => ~ In c tokens) t -> dw tokens t = t.
Proof. intros F. apply dw_stop. intros x r ->. inversion F; assumption. Qed.
Lemma trim_split tokens t : exists w1 w2, t = w1 ++ trim tokens t ++ w2 /\ Forall (fun c => In c tokens) w1 /\ Forall (fun c => In c tokens) w2.
Proof.
  unfold trim, trim_right. rewrite !trim_left_dw. destruct (dw_split tokens t) as (w1 & E1 & F1).
  destruct (dw_split tokens (rev (dw tokens t))) as (w2 & E2 & F2). exists w1, (rev w2).
  split; [|split; [exact F1|apply Forall_rev; exact F2]].
  rewrite <- rev_app_distr, <- E2, rev_involutive. exact E1.
Qed.
Lemma trim_id tokens t : Forall (fun c => ~ In c tokens) t -> trim tokens t = t.
Proof. intros F. unfold trim, trim_right. rewrite !trim_left_dw, (dw_id tokens t F), dw_id, rev_involutive; [reflexivity|apply Forall_rev; exact F]. Qed.

(** ** words *)
Fixpoint cutw (text cur : list Z) : list (list Z) :=
  match text with
  | [] => [rev cur]
  | x :: r => if whiteb x then rev cur :: cutw r [] else cutw r (x :: cur)
  end.
Definition tab (x : Z) : Z := if whiteb x then 9 else x.
Lemma replace_tab t : fold_left (fun t c => replace t c 9) [10; 11; 12; 13; 32] t = map tab t.
Proof.
  cbn [fold_left]. unfold replace. rewrite !map_map. apply map_ext. intros x. unfold tab, whiteb.
  destruct (Z.eqb_spec x 10) as [->|N1]; [reflexivity|]. destruct (Z.eqb_spec x 11) as [->|N2]; [reflexivity|].
  destruct (Z.eqb_spec x 12) as [->|N3]; [reflexivity|]. destruct (Z.eqb_spec x 13) as [->|N4]; [reflexivity|].
  destruct (Z.eqb_spec x 32) as [->|N5]; [reflexivity|].
  destruct (Z.leb_spec 9 x), (Z.leb_spec x 13); cbn [andb orb]; try reflexivity. lia.
Qed.
Lemma cut_tab t : forall cur, cut 9 (map tab t) cur = cutw t cur.
Proof.
  induction t as [|x t IH]; intros cur; [reflexivity|]. cbn [map cut cutw]. unfold tab at 1 3. destruct (whiteb x) eqn:W.
  - rewrite Z.eqb_refl, IH. reflexivity.
  - destruct (Z.eqb_spec x 9) as [->|N]; [discriminate|]. unfold tab at 1. rewrite W. apply IH.
Qed.
Lemma cutw_plain t : forall cur, Forall (fun c => whiteb c = false) cur -> Forall (Forall (fun c => whiteb c = false)) (cutw t cur).
Proof.
  induction t as [|x t IH]; intros cur F; cbn [cutw].
  - apply Forall_cons; [apply Forall_rev; exact F|constructor].
  - destruct (whiteb x) eqn:W.
    + apply Forall_cons; [apply Forall_rev; exact F|]. apply IH. constructor.
    + apply IH. apply Forall_cons; assumption.
Qed.
Definition nonempty (t : list Z) : bool := negb (is_empty t).
Definition words (t : list Z) : list (list Z) := filter nonempty (cutw t []).

Lemma words_white w t : Forall white w -> words (w ++ t) = words t.
Proof.
  induction 1 as [|x w Hx F IH]; [reflexivity|]. rewrite <- IH. unfold words. cbn [app cutw]. apply whiteb_ok in Hx. rewrite Hx. reflexivity.
Qed.
Lemma cutw_app t : forall cur w, Forall (fun c => whiteb c = false) t -> cutw (t ++ w) cur = cutw w (rev t ++ cur).
Proof.
  induction t as [|x t IH]; intros cur w F; [reflexivity|]. inversion F as [|y l Hx F' E]; subst. cbn [app cutw rev]. rewrite Hx, IH by assumption.
  rewrite <- app_assoc. reflexivity.
Qed.
Lemma words_word t r : t <> [] -> Forall (fun c => ~ white c) t -> (r = [] \/ exists c r', r = c :: r' /\ white c) -> words (t ++ r) = t :: words r.
Proof.
  intros N F R. unfold words. rewrite cutw_app.
  2: { eapply Forall_impl; [|exact F]. intros c H. cbv beta in *. destruct (whiteb c) eqn:E; [apply whiteb_ok in E; contradiction|reflexivity]. }
  rewrite app_nil_r. destruct R as [->|(c & r' & -> & W)].
  - cbn [cutw filter]. rewrite rev_involutive. destruct t; [congruence|]. reflexivity.
  - apply whiteb_ok in W. cbn [cutw]. rewrite W. cbn [filter]. rewrite rev_involutive. destruct t; [congruence|]. reflexivity.
Qed.
Lemma reads_words l ts : reads l ts -> ts = words l.
Proof.
  induction 1 as [w F|w t r ts F N Ft R _ IH].
  - rewrite <- (app_nil_r w). rewrite words_white by exact F. reflexivity.
  - rewrite words_white by exact F. rewrite words_word by assumption. rewrite IH. reflexivity.
Qed.
Lemma reads_unique l a b : reads l a -> reads l b -> a = b.
Proof. intros A B. rewrite (reads_words _ _ A), (reads_words _ _ B). reflexivity. Qed.

(** Cutting a text at its first word. *)
Fixpoint take_word (l : list Z) : list Z * list Z :=
  match l with [] => ([], []) | x :: r => if whiteb x then ([], l) else let (t, s) := take_word r in (x :: t, s) end.
Lemma take_word_ok l t s : take_word l = (t, s) -> l = t ++ s /\ Forall (fun c => ~ white c) t /\ (s = [] \/ exists c r', s = c :: r' /\ white c) .
Proof.
  revert t s. induction l as [|x l IH]; intros t s E; cbn [take_word] in E.
  - injection E as <- <-. split; [reflexivity|]. split; [constructor|]. left; reflexivity.
  - destruct (whiteb x) eqn:W.
    + injection E as <- <-. split; [reflexivity|]. split; [constructor|]. right. exists x, l. split; [reflexivity|apply whiteb_ok; exact W].
    + destruct (take_word l) as [t' s'] eqn:T. injection E as <- <-. destruct (IH _ _ eq_refl) as (A & B & C).
      split; [cbn [app]; f_equal; exact A|]. split; [|exact C]. apply Forall_cons; [intros H; apply whiteb_ok in H; congruence|exact B].
Qed.
Lemma reads_exists n : forall l, (length l <= n)%nat -> exists ts, reads l ts.
Proof.
  induction n as [|n IH]; intros l L.
  { destruct l; [|cbn [length] in L; lia]. exists []. apply reads_end. constructor. }
  destruct (dw_split ascii_whitespace l) as (w & E & F).
  assert (Fw : Forall white w) by (eapply Forall_impl; [|exact F]; intros c; apply white_in).
  destruct (take_word (dw ascii_whitespace l)) as [t s] eqn:T. destruct (take_word_ok _ _ _ T) as (A & B & C).
  destruct t as [|x t].
  - exists []. cbn [app] in A. assert (Z : dw ascii_whitespace l = []).
    { destruct (dw ascii_whitespace l) as [|y r] eqn:D; [reflexivity|]. exfalso. rewrite <- A in C. destruct C as [C|(c & r' & C & W)]; [discriminate|].
      injection C as -> ->. assert (I : dw ascii_whitespace (dw ascii_whitespace l) = dw ascii_whitespace l).
      { clear. induction l as [|z l IH]; [reflexivity|]. cbn [dw]. destruct (mem z ascii_whitespace) eqn:M; [exact IH|]. cbn [dw]. rewrite M. reflexivity. }
      rewrite D in I. cbn [dw] in I. apply white_in, mem_in in W. rewrite W in I.
      destruct (dw_split ascii_whitespace r') as (w' & E' & _). rewrite I in E'. apply (f_equal (@List.length Z)) in E'. rewrite app_length in E'. cbn [length] in E'. lia. }
    rewrite E, Z, app_nil_r. apply reads_end. exact Fw.
  - assert (L2 : (length s <= n)%nat).
    { apply (f_equal (@List.length Z)) in E. rewrite A in E. rewrite !app_length in E. cbn [length] in E. lia. }
    destruct (IH s L2) as (ts & R). exists ((x :: t) :: ts). rewrite E, A. apply reads_word; try assumption. discriminate.
Qed.

Lemma text_tokens_words l : text_tokens l = words l.
Proof.
  unfold text_tokens, split_white. change (split_tokens l ascii_whitespace ascii_whitespace true) with (reduce (cut 9 (fold_left (fun t c => replace t c 9) [10; 11; 12; 13; 32] (trim ascii_whitespace l)) []) ascii_whitespace true).
  rewrite replace_tab, cut_tab.
  destruct (trim_split ascii_whitespace l) as (w1 & w2 & E & F1 & F2). set (t := trim ascii_whitespace l) in *.
  assert (W : words l = words t).
  { assert (W1 : Forall white w1) by (eapply Forall_impl; [|exact F1]; intros c; apply white_in).
    assert (W2 : Forall white w2) by (eapply Forall_impl; [|exact F2]; intros c; apply white_in).
    rewrite E, words_white by exact W1. clear - W2.
    destruct (reads_exists (length t) t (le_n _)) as (ts & R). rewrite <- (reads_words _ _ R). symmetry. apply reads_words.
    induction R as [w F|w x r ts F N Fx R _ IH].
    - apply reads_end. apply Forall_app. split; assumption.
    - rewrite <- !app_assoc. apply reads_word; try assumption. destruct R as [->|(c & r' & -> & Wc)].
      + destruct W2 as [|c w2 Hc W2]; [left; reflexivity|]. right. exists c, w2. split; [reflexivity|exact Hc].
      + right. exists c, (r' ++ w2). split; [reflexivity|exact Wc]. }
  rewrite W. unfold words. pose proof (cutw_plain t [] (Forall_nil _)) as P.
  destruct (cutw t []) as [|a s] eqn:C; [destruct t; cbn [cutw] in C; [discriminate|]; destruct (whiteb z); [discriminate|]|].
  { exfalso. clear - C. revert C. generalize [z]. induction t as [|y t IH]; intros q C; cbn [cutw] in C; [discriminate|]. destruct (whiteb y); [discriminate|]. exact (IH _ C). }
  unfold reduce. assert (M : map (trim ascii_whitespace) (a :: s) = a :: s).
  { rewrite <- (map_id (a :: s)) at 2. apply map_ext_in. intros q I. apply trim_id. rewrite Forall_forall in P. specialize (P q I).
    eapply Forall_impl; [|exact P]. intros c H I2. cbv beta in *. apply white_in, whiteb_ok in I2. congruence. }
  rewrite M. change (fun t0 : list Z => negb (is_empty t0)) with nonempty.
  destruct (filter nonempty (a :: s)) as [|b r] eqn:Ef; [reflexivity|].
  destruct b; [|reflexivity]. assert (I : In [] (filter nonempty (a :: s))) by (rewrite Ef; left; reflexivity).
  apply filter_In in I. destruct I as [_ I]. discriminate.
Qed.
Lemma text_tokens_reads l : reads l (text_tokens l).
Proof.
  rewrite text_tokens_words. destruct (reads_exists (length l) l (le_n _)) as (ts & R). rewrite <- (reads_words _ _ R). exact R.
Qed.
