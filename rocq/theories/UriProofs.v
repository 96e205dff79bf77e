(** Maps of texts and the reading of query terms. *)
From Coq Require Import String.
From Verif Require Import Base Bytes RadixModel RadixProps TextSpec AmountSpec AmountModel AmountProps AddressModel AddressProps StealthModel UriModel UriSpec.

Lemma lt_irrefl a : text_lt a a = false.
Proof. induction a as [|x a IH]; [reflexivity|]. cbn [text_lt]. rewrite IH, Z.eqb_refl, Z.ltb_irrefl. reflexivity. Qed.
Lemma lt_trans a : forall b c, text_lt a b = true -> text_lt b c = true -> text_lt a c = true.
Proof.
  induction a as [|x a IH]; intros [|y b] [|z c]; cbn [text_lt]; try discriminate; auto.
  rewrite !orb_true_iff, !andb_true_iff, !Z.ltb_lt, !Z.eqb_eq. intros [H|[-> H]] [H'|[-> H']]; try (left; lia). right. split; [reflexivity|]. exact (IH _ _ H H').
Qed.
Lemma lt_total a : forall b, text_lt a b = false -> text_lt b a = false -> a = b.
Proof.
  induction a as [|x a IH]; intros [|y b]; cbn [text_lt]; try discriminate; auto.
  rewrite !orb_false_iff, !Z.ltb_ge. intros [H1 H2] [H3 H4]. assert (x = y) as -> by lia. rewrite Z.eqb_refl in *. cbn [andb] in *. f_equal. apply IH; assumption.
Qed.
Lemma lt_neq a b : text_lt a b = true -> a <> b.
Proof. intros H ->. rewrite lt_irrefl in H. discriminate. Qed.
Lemma lt_asym a b : text_lt a b = true -> text_lt b a = false.
Proof. intros H. destruct (text_lt b a) eqn:E; [|reflexivity]. pose proof (lt_trans _ _ _ H E) as T. rewrite lt_irrefl in T. discriminate. Qed.

(** sorted by strictly increasing key *)
Fixpoint above (k : list Z) (m : terms) : Prop := match m with [] => True | (k', _) :: r => text_lt k k' = true /\ above k r end.
Fixpoint sorted (m : terms) : Prop := match m with [] => True | (k, _) :: r => above k r /\ sorted r end.
Lemma above_lt k k' m : text_lt k k' = true -> above k' m -> above k m.
Proof. intros L. induction m as [|[k2 v2] m IH]; [auto|]. cbn. intros [A B]. split; [exact (lt_trans _ _ _ L A)|auto]. Qed.
Lemma above_get k m : above k m -> map_get k m = None.
Proof. destruct m as [|[k' v'] m]; [reflexivity|]. cbn. intros [A _]. rewrite A. reflexivity. Qed.
Lemma set_above k0 k v m : text_lt k0 k = true -> above k0 m -> above k0 (map_set k v m).
Proof.
  intros L. induction m as [|[k' v'] m IH]; intros A; [cbn; auto|]. cbn [map_set]. cbn in A. destruct (text_lt k k') eqn:E1; [cbn; tauto|].
  destruct (text_lt k' k) eqn:E2; cbn; tauto.
Qed.
Lemma set_sorted k v m : sorted m -> sorted (map_set k v m).
Proof.
  induction m as [|[k' v'] m IH]; intros S; [cbn; auto|]. cbn [map_set]. cbn in S. destruct S as [A S]. destruct (text_lt k k') eqn:E1.
  - cbn. split; [split; [exact E1|exact (above_lt _ _ _ E1 A)]|auto].
  - destruct (text_lt k' k) eqn:E2; cbn; [split; [apply set_above; assumption|auto]|auto].
Qed.
Lemma get_set_same k v m : map_get k (map_set k v m) = Some v.
Proof.
  induction m as [|[k' v'] m IH]; cbn [map_set map_get]; [rewrite lt_irrefl; reflexivity|]. destruct (text_lt k k') eqn:E1; cbn [map_get]; [rewrite lt_irrefl; reflexivity|].
  destruct (text_lt k' k) eqn:E2; cbn [map_get]; rewrite E1, E2; [exact IH|reflexivity].
Qed.
Lemma get_set_other k k2 v m : k <> k2 -> sorted m -> map_get k2 (map_set k v m) = map_get k2 m.
Proof.
  intros N. induction m as [|[k' v'] m IH]; intros S; cbn [map_set map_get].
  - destruct (text_lt k2 k) eqn:E; [reflexivity|]. destruct (text_lt k k2) eqn:E'; [reflexivity|]. exfalso. apply N. symmetry. apply lt_total; assumption.
  - cbn in S. destruct S as [A S]. destruct (text_lt k k') eqn:E1; cbn [map_get].
    + destruct (text_lt k2 k) eqn:E; [rewrite (lt_trans _ _ _ E E1); reflexivity|]. destruct (text_lt k k2) eqn:E'; [reflexivity|]. exfalso. apply N. symmetry. apply lt_total; assumption.
    + destruct (text_lt k' k) eqn:E2; cbn [map_get]; [rewrite (IH S); reflexivity|]. assert (k = k') as -> by (apply lt_total; assumption).
      destruct (text_lt k2 k') eqn:E; [reflexivity|]. destruct (text_lt k' k2) eqn:E'; [reflexivity|]. exfalso. apply N. symmetry. apply lt_total; assumption.
Qed.
Lemma sorted_ext m : forall m', sorted m -> sorted m' -> (forall k, map_get k m = map_get k m') -> m = m'.
Proof.
  induction m as [|[k v] m IH]; intros [|[k' v'] m'] S S' H.
  - reflexivity.
  - specialize (H k'). cbn in H. rewrite lt_irrefl in H. discriminate.
  - specialize (H k). cbn in H. rewrite lt_irrefl in H. discriminate.
  - cbn in S, S'. destruct S as [A S], S' as [A' S']. assert (k = k') as <-.
    { apply lt_total.
      - destruct (text_lt k k') eqn:E; [|reflexivity]. specialize (H k). cbn in H. rewrite lt_irrefl, E in H. discriminate.
      - destruct (text_lt k' k) eqn:E; [|reflexivity]. specialize (H k'). cbn in H. rewrite lt_irrefl, E in H. discriminate. }
    assert (v = v') as <- by (specialize (H k); cbn in H; rewrite lt_irrefl in H; congruence). f_equal. apply IH; [exact S|exact S'|].
    intros q. specialize (H q). cbn in H. destruct (text_lt q k) eqn:E1.
    + rewrite !above_get; [reflexivity|exact (above_lt _ _ _ E1 A')|exact (above_lt _ _ _ E1 A)].
    + destruct (text_lt k q) eqn:E2; [exact H|]. assert (q = k) as -> by (apply lt_total; assumption). rewrite !above_get; auto.
Qed.
Lemma above_in k v q m : above k m -> In (q, v) m -> text_lt k q = true.
Proof. induction m as [|[k' v'] m IH]; [intros _ []|]. cbn. intros [A B] [E|I]; [congruence|auto]. Qed.
Lemma get_in k v m : sorted m -> map_get k m = Some v <-> In (k, v) m.
Proof.
  induction m as [|[k' v'] m IH]; intros S; cbn [map_get In]; [split; [discriminate|intros []]|]. cbn in S. destruct S as [A S]. specialize (IH S). split.
  - destruct (text_lt k k') eqn:E1; [discriminate|]. destruct (text_lt k' k) eqn:E2; [intros H; right; tauto|]. intros H. left. assert (k = k') by (apply lt_total; assumption). congruence.
  - intros [H|H].
    + injection H as <- <-. rewrite lt_irrefl. reflexivity.
    + pose proof (above_in _ _ _ _ A H) as L. rewrite (lt_asym _ _ L), L. tauto.
Qed.
Lemma set_keys k v m q w : In (q, w) (map_set k v m) -> (q = k /\ w = v) \/ In (q, w) m.
Proof.
  induction m as [|[k' v'] m IH]; cbn [map_set]; [intros [E|[]]; left; split; congruence|]. destruct (text_lt k k') eqn:E1; [intros [E|I]; [left; split; congruence|auto]|].
  destruct (text_lt k' k) eqn:E2; (intros [E|I]; [|]); cbn [In]; auto. 
  - apply IH in I. tauto.
  - assert (k = k') by (apply lt_total; assumption). left. split; congruence.
Qed.

(** decode_query: the last value of each key *)
Lemma decode_last ps : sorted (decode_query ps) /\ forall k v, map_get k (decode_query ps) = Some v <-> last_value ps k v.
Proof.
  unfold decode_query. induction ps as [|[k0 v0] ps [S IH]] using rev_ind.
  - split; [exact Logic.I|]. intros k v. split; [discriminate|]. intros (a & b & E & _). destruct a; discriminate.
  - rewrite fold_left_app. cbn [fold_left fst snd]. split; [apply set_sorted; exact S|]. intros k v.
    destruct (list_eq_dec Z.eq_dec k0 k) as [->|N].
    + rewrite get_set_same. split.
      * intros E. injection E as <-. exists ps, []. split; [reflexivity|intros []].
      * intros (a & b & E & NI). f_equal. destruct b as [|y b _] using rev_ind; [apply app_inj_tail in E; destruct E; congruence|].
        exfalso. apply NI. change (a ++ (k, v) :: b ++ [y]) with (a ++ ((k, v) :: b) ++ [y]) in E. rewrite app_assoc in E. apply app_inj_tail in E. destruct E as [_ <-]. rewrite map_app. apply in_app_iff. right. left. reflexivity.
    + rewrite get_set_other by assumption. rewrite IH. split; intros (a & b & E & NI).
      * exists a, (b ++ [(k0, v0)]). split; [rewrite E, <- app_assoc; reflexivity|]. rewrite map_app. intros I. apply in_app_iff in I. destruct I as [I|[I|[]]]; [exact (NI I)|exact (N I)].
      * destruct b as [|y b _] using rev_ind; [apply app_inj_tail in E; destruct E; congruence|].
        change (a ++ (k, v) :: b ++ [y]) with (a ++ ((k, v) :: b) ++ [y]) in E. rewrite app_assoc in E. apply app_inj_tail in E. destruct E as [E _]. exists a, b. split; [exact E|].
        intros I. apply NI. rewrite map_app. apply in_app_iff. left. exact I.
Qed.
Lemma in_last ps k : In k (map fst ps) <-> exists v, last_value ps k v.
Proof.
  split.
  - induction ps as [|[k0 v0] ps IH] using rev_ind; [intros []|]. intros I. destruct (list_eq_dec Z.eq_dec k0 k) as [->|N].
    + exists v0, ps, []. split; [reflexivity|intros []].
    + rewrite map_app in I. apply in_app_iff in I. destruct I as [I|[I|[]]]; [|exfalso; exact (N I)]. destruct (IH I) as (v & a & b & -> & NI). exists v, a, (b ++ [(k0, v0)]).
      split; [rewrite <- app_assoc; reflexivity|]. rewrite map_app. intros J. apply in_app_iff in J. destruct J as [J|[J|[]]]; [exact (NI J)|exact (N J)].
  - intros (v & a & b & -> & _). rewrite map_app. apply in_app_iff. right. left. reflexivity.
Qed.

(** ** The loop over the terms *)
Definition known (k : list Z) : Prop := k = k_amount \/ k = k_label \/ k = k_message \/ k = k_r.
Lemma keqb a b : list_eqb a b = true <-> a = b. Proof. apply list_eqb_iff. Qed.
Lemma keqb_refl a : list_eqb a a = true. Proof. apply keqb. reflexivity. Qed.
Lemma keqb_ne a b : a <> b -> list_eqb a b = false. Proof. intros N. destruct (list_eqb a b) eqn:E; [apply keqb in E; contradiction|reflexivity]. Qed.
Lemma required_iff k : required k = true <-> must_know k.
Proof.
  unfold required, must_know. rewrite keqb. split.
  - intros E. exists (skipn 4 k). fold k_req. rewrite <- E. symmetry. apply firstn_skipn.
  - intros [r ->]. reflexivity.
Qed.
Lemma known_free k : known k -> ~ must_know k /\ k <> [].
Proof. intros [->|[->|[->| ->]]]; (split; [intros [r E]; vm_compute in E; discriminate|discriminate]). Qed.
(** what a term stores *)
Definition stored (k v w : list Z) : Prop :=
  if list_eqb k k_amount then exists n, decode_base10 v 8 true = Some n /\ w = encode_base10 n 8 else w = v.
Definition term_ok (k v : list Z) : Prop :=
  k <> [] -> ~ must_know k /\ (k = k_amount -> decode_base10 v 8 true <> None).
Lemma set_parameter_ok u k v : sorted (u_query u) ->
  let (ok, u') := set_parameter u k v in
  (ok = true <-> ~ must_know k /\ (k = k_amount -> decode_base10 v 8 true <> None)) /\
  u_scheme u' = u_scheme u /\ u_address u' = u_address u /\ sorted (u_query u') /\
  (forall q, q <> k \/ ~ known k -> map_get q (u_query u') = map_get q (u_query u)) /\
  (ok = true -> known k -> exists w, stored k v w /\ map_get k (u_query u') = Some w).
Proof.
  intros S. unfold set_parameter, set_amount_text, set_amount, set_label, set_message, set_r, stored. destruct (list_eqb k k_amount) eqn:E.
  - apply keqb in E. subst k. destruct (decode_base10 v 8 true) as [n|] eqn:D; cbn [u_scheme u_address u_query set_term].
    + split; [split; [intros _; split; [apply known_free; left; reflexivity|congruence]|reflexivity]|]. split; [reflexivity|]. split; [reflexivity|]. split; [apply set_sorted; exact S|].
      split; [intros q [N|N]; [apply get_set_other; [congruence|exact S]|exfalso; apply N; left; reflexivity]|]. intros _ _. exists (encode_base10 n 8). split; [exists n; auto|apply get_set_same].
    + split; [split; [discriminate|intros [_ H]; exfalso; exact (H eq_refl eq_refl)]|]. do 2 (split; [reflexivity|]). split; [exact S|]. split; [auto|discriminate].
  - assert (N : k <> k_amount) by (intros ->; rewrite keqb_refl in E; discriminate).
    set (u' := if list_eqb k k_label then _ else _).
    assert (G : u_scheme u' = u_scheme u /\ u_address u' = u_address u /\ sorted (u_query u') /\
      (forall q, q <> k \/ ~ known k -> map_get q (u_query u') = map_get q (u_query u)) /\ (known k -> map_get k (u_query u') = Some v)).
    { assert (T : known k -> u_scheme (set_term u k v) = u_scheme u /\ u_address (set_term u k v) = u_address u /\ sorted (u_query (set_term u k v)) /\
        (forall q, q <> k \/ ~ known k -> map_get q (u_query (set_term u k v)) = map_get q (u_query u)) /\ (known k -> map_get k (u_query (set_term u k v)) = Some v)).
      { intros Kn. cbn [set_term u_scheme u_address u_query]. do 2 (split; [reflexivity|]). split; [apply set_sorted; exact S|]. split; [|intros _; apply get_set_same].
        intros q [Nq|Nq]; [apply get_set_other; [congruence|exact S]|contradiction]. }
      unfold u'. destruct (list_eqb k k_label) eqn:E1; [apply keqb in E1; subst k; apply T; unfold known; auto|].
      destruct (list_eqb k k_message) eqn:E2; [apply keqb in E2; subst k; apply T; unfold known; auto|].
      destruct (list_eqb k k_r) eqn:E3; [apply keqb in E3; subst k; apply T; unfold known; auto|].
      do 2 (split; [reflexivity|]). split; [exact S|]. split; [auto|]. intros [H|[H|[H|H]]]; subst k; [contradiction|..]; rewrite keqb_refl in *; discriminate. }
    destruct G as (G1 & G2 & G3 & G4 & G5). split; [|split; [exact G1|split; [exact G2|split; [exact G3|split; [exact G4|intros _ Kn; exists v; split; [reflexivity|exact (G5 Kn)]]]]]].
    rewrite negb_true_iff. split.
    + intros H. split; [intros M; apply required_iff in M; congruence|intros; contradiction].
    + intros [H _]. destruct (required k) eqn:Rq; [exfalso; apply H, required_iff, Rq|reflexivity].
Qed.
Lemma read_terms_ok m : forall u, sorted m -> sorted (u_query u) ->
  ((exists u', read_terms m u = Some u') <-> forall k v, In (k, v) m -> term_ok k v) /\
  forall u', read_terms m u = Some u' -> u_scheme u' = u_scheme u /\ u_address u' = u_address u /\ sorted (u_query u') /\
   (forall q, ~ known q \/ map_get q m = None -> map_get q (u_query u') = map_get q (u_query u)) /\
   (forall q v, known q -> map_get q m = Some v -> exists w, stored q v w /\ map_get q (u_query u') = Some w).
Proof.
  induction m as [|[k v] m IH]; intros u Sm Su.
  - cbn [read_terms]. split; [split; [intros _ k v []|intros _; eauto]|]. intros u' E. injection E as <-. do 2 (split; [reflexivity|]). split; [exact Su|]. split; [auto|]. intros q v _ H. discriminate.
  - cbn in Sm. destruct Sm as [A Sm]. destruct k as [|c k'].
    + destruct (IH u Sm Su) as [I1 I2]. change (read_terms (([], v) :: m) u) with (read_terms m u). split.
      * rewrite I1. split; [intros H q w [E|I]; [injection E as <- <-; intros N; congruence|auto]|intros H q w I; apply H; right; exact I].
      * intros u' E. destruct (I2 u' E) as (J1 & J2 & J3 & J4 & J5). do 3 (split; [assumption|]). split.
        -- intros q [N|N]; [auto|]. apply J4. cbn in N. destruct q as [|z q]; [left; intros Kn; apply known_free in Kn; destruct Kn; congruence|]. right. exact N.
        -- intros q w Kn H. cbn in H. destruct q as [|z q]; [apply known_free in Kn; destruct Kn; congruence|]. eauto.
    + pose proof (set_parameter_ok u (c :: k') v Su) as P. set (k := c :: k') in *. change (read_terms ((k, v) :: m) u) with (let (ok, u') := set_parameter u k v in if ok then read_terms m u' else None).
      destruct (set_parameter u k v) as [ok u1]. destruct P as (P1 & P2 & P3 & P4 & P5 & P6). destruct (IH u1 Sm P4) as [I1 I2].
      assert (Gk : forall q, q <> k -> map_get q ((k, v) :: m) = None -> map_get q m = None).
      { intros q N H. cbn [map_get] in H. destruct (text_lt q k) eqn:E1; [apply above_get, (above_lt _ _ _ E1 A)|]. destruct (text_lt k q) eqn:E2; [exact H|]. exfalso. apply N, lt_total; assumption. }
      split.
      * destruct ok.
        -- rewrite I1. split; [intros H q w [E|I]; [injection E as <- <-; intros _; apply P1; reflexivity|auto]|intros H q w I; apply H; right; exact I].
        -- split; [intros [u' H]; discriminate|]. intros H. exfalso. assert (T : term_ok k v) by (apply H; left; reflexivity). assert (Hf : false = true) by (apply P1, T; discriminate). discriminate.
      * intros u' E. destruct ok; [|discriminate]. destruct (I2 u' E) as (J1 & J2 & J3 & J4 & J5). split; [congruence|]. split; [congruence|]. split; [exact J3|]. split.
        -- intros q H. destruct (list_eq_dec Z.eq_dec q k) as [->|N].
           ++ destruct H as [H|H]; [|cbn [map_get] in H; rewrite lt_irrefl in H; discriminate]. rewrite J4 by (left; exact H). apply P5. right. exact H.
           ++ rewrite J4 by (destruct H as [H|H]; [left; exact H|right; exact (Gk q N H)]). apply P5. left. exact N.
        -- intros q w Kn H. destruct (list_eq_dec Z.eq_dec q k) as [->|N].
           ++ cbn [map_get] in H. rewrite lt_irrefl in H. injection H as <-. destruct (P6 eq_refl Kn) as (x & S1 & S2). exists x. split; [exact S1|]. rewrite J4 by (right; apply above_get; exact A). exact S2.
           ++ apply (J5 q w Kn). cbn [map_get] in H. destruct (text_lt q k) eqn:E1; [discriminate|]. destruct (text_lt k q) eqn:E2; [exact H|]. exfalso. apply N, lt_total; assumption.
Qed.
