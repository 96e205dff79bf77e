(** Dictionary search is exact on the word lists of the library. *)
From Coq Require Import String Ascii PArith.
From Verif Require Import Base Bytes WordsModel.

(** * String order *)
Lemma ascii_compare a b : Ascii.compare a b = (N_of_ascii a ?= N_of_ascii b)%N.
Proof. reflexivity. Qed.
Lemma compare_trans a : forall b c, String.compare a b = Lt -> String.compare b c = Lt -> String.compare a c = Lt.
Proof.
  induction a as [|x a IH]; intros [|y b] [|z c]; cbn [String.compare]; try discriminate; try reflexivity.
  rewrite !ascii_compare. destruct (N.compare_spec (N_of_ascii x) (N_of_ascii y)) as [E|L|L]; intros H1; try discriminate H1;
    destruct (N.compare_spec (N_of_ascii y) (N_of_ascii z)) as [E2|L2|L2]; intros H2; try discriminate H2.
  - rewrite E, E2, N.compare_refl. apply (IH b c H1 H2).
  - rewrite E. rewrite (proj2 (N.compare_lt_iff _ _) L2). reflexivity.
  - rewrite <- E2. rewrite (proj2 (N.compare_lt_iff _ _) L). reflexivity.
  - assert (L3 : (N_of_ascii x < N_of_ascii z)%N) by (etransitivity; eassumption). rewrite (proj2 (N.compare_lt_iff _ _) L3). reflexivity.
Qed.
Lemma compare_refl a : String.compare a a = Eq.
Proof. induction a as [|x a IH]; cbn [String.compare]; [reflexivity|]. rewrite ascii_compare, N.compare_refl. exact IH. Qed.

(** * Sorted word lists *)
Fixpoint sorted_from (w : string) (l : list string) : bool :=
  match l with [] => true | x :: l => match String.compare w x with Lt => sorted_from x l | _ => false end end.
Definition sorted (l : list string) : bool := match l with [] => true | w :: l => sorted_from w l end.
Lemma sorted_from_all w l : sorted_from w l = true -> Forall (fun x => String.compare w x = Lt) l /\ sorted l = true.
Proof.
  revert w; induction l as [|x l IH]; intros w H; [split; [constructor|reflexivity]|]. cbn [sorted_from] in H.
  destruct (String.compare w x) eqn:E; try discriminate. split; [|exact H]. constructor; [exact E|].
  destruct (IH x H) as [F _]. eapply Forall_impl; [|exact F]. intros y Hy. apply (compare_trans w x y E Hy).
Qed.
Lemma sorted_nth l : sorted l = true -> forall i j, (i < j < length l)%nat -> String.compare (nth i l ""%string) (nth j l ""%string) = Lt.
Proof.
  induction l as [|w l IH]; intros H i j Hij; [cbn in Hij; lia|]. cbn [sorted] in H. destruct (sorted_from_all w l H) as [F S].
  cbn [length] in Hij. destruct j as [|j]; [lia|]. destruct i as [|i]; cbn [nth].
  - rewrite Forall_forall in F. apply F. apply nth_In. lia.
  - apply IH; [exact S|lia].
Qed.
Lemma search_ok l w : sorted l = true -> forall fuel left right, 0 <= left -> right < len l -> right - left + 1 < Z.of_nat fuel ->
  (forall i, 0 <= i < len l -> nth (Z.to_nat i) l ""%string = w -> left <= i <= right) ->
  let r := search_loop fuel l w left right in
  (0 <= r < len l /\ nth (Z.to_nat r) l ""%string = w) \/ (r = -1 /\ ~ In w l).
Proof.
  intros S. induction fuel as [|fuel IH]; intros left right Hl Hr Hf Inv; cbv zeta.
  - cbn [search_loop]. right. split; [reflexivity|]. intros I. apply (In_nth _ _ ""%string) in I. destruct I as (n & L & E).
    specialize (Inv (Z.of_nat n) ltac:(unfold len; lia)). rewrite Nat2Z.id in Inv. specialize (Inv E). lia.
  - cbn [search_loop]. destruct (Z.leb_spec left right) as [C|C].
    + assert (M : left <= (left + right) / 2 <= right) by (split; [apply Z.div_le_lower_bound; lia|apply Z.div_le_upper_bound; lia]).
      set (m := (left + right) / 2) in *.
      assert (NR : forall i, 0 <= i < len l -> nth (Z.to_nat i) l ""%string = w ->
        match String.compare (nth (Z.to_nat m) l ""%string) w with Lt => m < i | Gt => i < m | Eq => True end).
      { intros i Hi E. destruct (String.compare (nth (Z.to_nat m) l ""%string) w) eqn:Ec; [exact I| |].
        - destruct (Z.lt_trichotomy i m) as [T|[T|T]]; [| |exact T]; exfalso.
          + pose proof (sorted_nth l S (Z.to_nat i) (Z.to_nat m) ltac:(unfold len in *; lia)) as X. rewrite E, String.compare_antisym, Ec in X. discriminate.
          + subst i. rewrite E, compare_refl in Ec. discriminate.
        - destruct (Z.lt_trichotomy i m) as [T|[T|T]]; [exact T| |]; exfalso.
          + subst i. rewrite E, compare_refl in Ec. discriminate.
          + pose proof (sorted_nth l S (Z.to_nat m) (Z.to_nat i) ltac:(unfold len in *; lia)) as X. rewrite E in X. congruence. }
      destruct (String.compare (nth (Z.to_nat m) l ""%string) w) eqn:Ec.
      * left. split; [lia|]. apply String.compare_eq_iff. exact Ec.
      * apply IH; try lia. intros i Hi E. specialize (Inv i Hi E). specialize (NR i Hi E). lia.
      * apply IH; try lia. intros i Hi E. specialize (Inv i Hi E). specialize (NR i Hi E). lia.
    + right. split; [reflexivity|]. intros I. apply (In_nth _ _ ""%string) in I. destruct I as (n & L & E).
      specialize (Inv (Z.of_nat n) ltac:(unfold len; lia)). rewrite Nat2Z.id in Inv. specialize (Inv E). lia.
Qed.
Lemma binary_search_ok l w : sorted l = true -> let r := binary_search l w in
  (0 <= r < len l /\ nth (Z.to_nat r) l ""%string = w) \/ (r = -1 /\ ~ In w l).
Proof.
  intros S. unfold binary_search. destruct l as [|x l]; [right; split; [reflexivity|intros []]|].
  apply search_ok; [exact S|lia|lia|unfold len; lia|]. intros i Hi _. lia.
Qed.
Lemma find_first_ok l w : forall p, let r := find_first l w p in
  (p <= r < p + len l /\ nth (Z.to_nat (r - p)) l ""%string = w) \/ (r = -1 /\ ~ In w l).
Proof.
  induction l as [|x l IH]; intros p; cbv zeta; cbn [find_first].
  - right. split; [reflexivity|intros []].
  - rewrite len_cons. pose proof (len_nonneg l). destruct (String.eqb_spec x w) as [E|E].
    + left. split; [lia|]. rewrite Z.sub_diag. exact E.
    + destruct (IH (p + 1)) as [[R N]|[R N]]; [left|right].
      * split; [lia|]. replace (Z.to_nat (find_first l w (p + 1) - p)) with (S (Z.to_nat (find_first l w (p + 1) - (p + 1)))) by lia. exact N.
      * split; [exact R|]. intros [I|I]; contradiction.
Qed.

(** * A well-formed dictionary: distinct words, sorted if flagged so *)
Definition dictionary_ok (d : dictionary) : Prop := NoDup (words_of d) /\ (is_sorted d = true -> sorted (words_of d) = true).
Lemma index_ok d w : dictionary_ok d -> let r := dict_index d w in
  (0 <= r < len (words_of d) /\ nth (Z.to_nat r) (words_of d) ""%string = w) \/ (r = -1 /\ ~ In w (words_of d)).
Proof.
  intros [N S]. unfold dict_index. destruct (is_sorted d) eqn:E.
  - apply binary_search_ok. apply S. reflexivity.
  - pose proof (find_first_ok (words_of d) w 0) as H. cbv zeta in *. rewrite Z.sub_0_r in H. exact H.
Qed.
Lemma index_at d i : dictionary_ok d -> 0 <= i < len (words_of d) -> dict_index d (dict_at d i) = i.
Proof.
  intros D H. unfold dict_at. rewrite (proj2 (Z.ltb_lt _ _)) by lia. set (w := nth (Z.to_nat i) (words_of d) ""%string).
  destruct (index_ok d w D) as [[R E]|[_ E]].
  - destruct D as [N _]. rewrite NoDup_nth with (d := ""%string) in N. unfold w in E.
    assert (Z.to_nat (dict_index d w) = Z.to_nat i); [|lia]. apply N; [unfold len in *; lia|unfold len in *; lia|]. exact E.
  - exfalso. apply E. apply nth_In. unfold len in *; lia.
Qed.
Lemma at_index d w : dictionary_ok d -> 0 <= dict_index d w -> dict_at d (dict_index d w) = w.
Proof.
  intros D H. destruct (index_ok d w D) as [[R E]|[R _]]; [|lia]. unfold dict_at. rewrite (proj2 (Z.ltb_lt _ _)) by lia. exact E.
Qed.
Lemma contains_ok d w : dictionary_ok d -> dict_contains d w = true <-> In w (words_of d).
Proof.
  intros D. unfold dict_contains. rewrite Z.leb_le. destruct (index_ok d w D) as [[R E]|[R N]].
  - split; [intros _|lia]. rewrite <- E. apply nth_In. unfold len in *; lia.
  - split; [lia|contradiction].
Qed.

(** * Checking the word lists: a trie keyed by the bits of the words *)
Definition bit (b : bool) (p : positive) : positive := if b then xI p else xO p.
Fixpoint key (s : string) : positive :=
  match s with
  | EmptyString => xH
  | String (Ascii a b c d e f g h) s => bit a (bit b (bit c (bit d (bit e (bit f (bit g (bit h (key s))))))))
  end.
Lemma bit_inj a b p q : bit a p = bit b q -> a = b /\ p = q.
Proof. destruct a, b; cbn; intros H; try discriminate; injection H; auto. Qed.
Lemma bit_not_1 a p : bit a p <> xH.
Proof. destruct a; discriminate. Qed.
Lemma key_inj s : forall t, key s = key t -> s = t.
Proof.
  induction s as [|[a b c d e f g h] s IH]; intros [|[a' b' c' d' e' f' g' h'] t] H; cbn [key] in H; [reflexivity| | |].
  - symmetry in H. apply bit_not_1 in H. destruct H.
  - apply bit_not_1 in H. destruct H.
  - do 8 (apply bit_inj in H; destruct H as [-> H]). rewrite (IH t H). reflexivity.
Qed.
Section Trie.
Context {A : Type}.
Inductive trie := Leaf | Node (v : option A) (l r : trie).
Fixpoint tget (p : positive) (t : trie) : option A :=
  match t with
  | Leaf => None
  | Node v l r => match p with xH => v | xO p => tget p l | xI p => tget p r end
  end.
Fixpoint tset (p : positive) (x : A) (t : trie) : trie :=
  match p with
  | xH => match t with Leaf => Node (Some x) Leaf Leaf | Node _ l r => Node (Some x) l r end
  | xO p => match t with Leaf => Node None (tset p x Leaf) Leaf | Node v l r => Node v (tset p x l) r end
  | xI p => match t with Leaf => Node None Leaf (tset p x Leaf) | Node v l r => Node v l (tset p x r) end
  end.
Lemma tget_leaf p : tget p Leaf = None. Proof. destruct p; reflexivity. Qed.
Lemma tget_set p : forall q x t, tget q (tset p x t) = if Pos.eqb q p then Some x else tget q t.
Proof.
  induction p as [p IH|p IH|]; intros q x t; destruct t as [|v l r], q as [q|q|]; cbn [tset tget Pos.eqb]; rewrite ?IH, ?tget_leaf; reflexivity.
Qed.
End Trie.
(** Each word is entered with its position; [ok] tells whether it may coexist
    with an entry that is already there. *)
Section Check.
Context {A : Type} (ok : A -> Z -> A -> Z -> bool).
Definition entry : Type := list (A * Z).
Definition found (t : @trie entry) (w : string) : entry := match tget (key w) t with Some e => e | None => [] end.
Fixpoint enter (a : A) (i : Z) (l : list string) (t : @trie entry) : option (@trie entry) :=
  match l with
  | [] => Some t
  | w :: l =>
    let e := found t w in
    if forallb (fun x => ok (fst x) (snd x) a i) e then enter a (i + 1) l (tset (key w) ((a, i) :: e) t) else None
  end.
Fixpoint enter_all (ds : list (A * list string)) (t : @trie entry) : option (@trie entry) :=
  match ds with [] => Some t | (a, l) :: ds => match enter a 0 l t with Some t => enter_all ds t | None => None end end.
Lemma found_set t w e v : found (tset (key w) e t) v = if String.eqb v w then e else found t v.
Proof.
  unfold found. rewrite tget_set. destruct (Pos.eqb_spec (key v) (key w)) as [E|E].
  - apply key_inj in E. subst v. rewrite String.eqb_refl. reflexivity.
  - destruct (String.eqb_spec v w) as [F|F]; [subst; congruence|reflexivity].
Qed.
Lemma enter_ok a l : forall i t t', enter a i l t = Some t' ->
  (forall w x, In x (found t w) -> In x (found t' w)) /\
  (forall n w, nth_error l n = Some w -> In (a, i + Z.of_nat n) (found t' w) /\
     (forall x, In x (found t w) -> ok (fst x) (snd x) a (i + Z.of_nat n) = true) /\
     forall m, (m < n)%nat -> nth_error l m = Some w -> ok a (i + Z.of_nat m) a (i + Z.of_nat n) = true).
Proof.
  induction l as [|w l IH]; intros i t t' H; cbn [enter] in H.
  - assert (t' = t) by congruence. subst t'. split; [auto|]. intros [|n] w X; discriminate.
  - destruct (forallb _ (found t w)) eqn:F; [|discriminate]. rewrite forallb_forall in F.
    destruct (IH _ _ _ H) as [K N].
    assert (K' : forall v x, In x (found t v) -> In x (found (tset (key w) ((a, i) :: found t w) t) v)).
    { intros v x Hx. rewrite found_set. destruct (String.eqb_spec v w) as [->|_]; [right; exact Hx|exact Hx]. }
    split; [intros v x Hx; apply K, K'; exact Hx|].
    intros [|n] v E; cbn [nth_error] in E.
    + assert (v = w) by congruence. subst v. rewrite Z.add_0_r. split; [apply K; rewrite found_set, String.eqb_refl; left; reflexivity|].
      split; [intros x Hx; apply F; exact Hx|]. intros m Hm; lia.
    + destruct (N n v E) as (N1 & N2 & N3). replace (i + Z.of_nat (S n)) with (i + 1 + Z.of_nat n) by lia. split; [exact N1|].
      split; [intros x Hx; apply N2, K'; exact Hx|].
      intros [|m] Hm Em; cbn [nth_error] in Em.
      * assert (v = w) by congruence. subst v. rewrite Z.add_0_r. apply (N2 (a, i)). rewrite found_set, String.eqb_refl. left. reflexivity.
      * replace (i + Z.of_nat (S m)) with (i + 1 + Z.of_nat m) by lia. apply N3; [lia|exact Em].
Qed.
Lemma enter_all_ok ds : forall t t', enter_all ds t = Some t' ->
  (forall w x, In x (found t w) -> In x (found t' w)) /\
  (forall k a l, nth_error ds k = Some (a, l) -> forall n w, nth_error l n = Some w ->
     (forall x, In x (found t w) -> ok (fst x) (snd x) a (Z.of_nat n) = true) /\
     (forall m, (m < n)%nat -> nth_error l m = Some w -> ok a (Z.of_nat m) a (Z.of_nat n) = true) /\
     forall j b l', (j < k)%nat -> nth_error ds j = Some (b, l') -> forall m, nth_error l' m = Some w -> ok b (Z.of_nat m) a (Z.of_nat n) = true).
Proof.
  induction ds as [|[a0 l0] ds IH]; intros t t' H; cbn [enter_all] in H.
  - assert (t' = t) by congruence. subst t'. split; [auto|]. intros [|k] a l X; discriminate.
  - destruct (enter a0 0 l0 t) as [t1|] eqn:E; [|discriminate]. destruct (enter_ok _ _ _ _ _ E) as [K1 N1]. destruct (IH _ _ H) as [K2 N2].
    split; [intros w x Hx; apply K2, K1; exact Hx|].
    intros [|k] a l Ek n w En; cbn [nth_error] in Ek.
    + assert (X : a0 = a /\ l0 = l) by (split; congruence). destruct X as [<- <-]. destruct (N1 n w En) as (_ & P2 & P3).
      split; [intros x Hx; apply (P2 x Hx)|]. split; [intros m Hm Em; apply (P3 m Hm Em)|]. intros j b l' Hj; lia.
    + destruct (N2 k a l Ek n w En) as (Q1 & Q2 & Q3). split; [intros x Hx; apply Q1, K1; exact Hx|]. split; [exact Q2|].
      intros [|j] b l' Hj Ej m Em; cbn [nth_error] in Ej.
      * assert (X : a0 = b /\ l0 = l') by (split; congruence). destruct X as [<- <-]. destruct (N1 m w Em) as (P1 & _). apply (Q1 _ P1).
      * apply (Q3 j b l' ltac:(lia) Ej m Em).
Qed.
End Check.
