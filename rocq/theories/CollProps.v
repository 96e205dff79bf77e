(** Proofs: searching and ordering collections. *)
From Coq Require Import Permutation.
From Verif Require Import Base Bytes CollSpec CollModel.

Section Order.
  Context {A : Type} (lt eq : A -> A -> bool) (T : total lt eq).
  Lemma lt_asym a b : lt a b = true -> lt b a = false.
  Proof. intros H. destruct (lt b a) eqn:E; [|reflexivity]. pose proof (transitive _ _ T _ _ _ H E) as X. now rewrite (irreflexive _ _ T) in X. Qed.
  Lemma le_trans a b c : lt b a = false -> lt c b = false -> lt c a = false.
  Proof.
    intros H K. destruct (lt c a) eqn:E; [|reflexivity]. destruct (lt a b) eqn:F.
    - pose proof (transitive _ _ T _ _ _ E F) as X. now rewrite K in X.
    - pose proof (trichotomy _ _ T _ _ F H) as ->. now rewrite K in E.
  Qed.
  Lemma order_tail x l : in_order lt (x :: l) -> in_order lt l.
  Proof. intros H i j a b L Ea Eb. apply (H (S i) (S j) a b); [lia|exact Ea|exact Eb]. Qed.
  Lemma order_head x l : in_order lt (x :: l) -> forall y, In y l -> lt y x = false.
  Proof. intros H y Hy. apply In_nth_error in Hy as [n E]. apply (H O (S n) x y); [lia|reflexivity|exact E]. Qed.
  Lemma order_cons x l : (forall y, In y l -> lt y x = false) -> in_order lt l -> in_order lt (x :: l).
  Proof.
    intros H K [|i] [|j] a b L Ea Eb; try lia; cbn in Ea, Eb.
    - injection Ea as <-. apply H. eapply nth_error_In. exact Eb.
    - apply (K i j a b); [lia|exact Ea|exact Eb].
  Qed.
  Lemma search_range fuel l e : forall left right r, 0 <= left -> right < len l -> search_loop lt fuel l e left right = Some r ->
    (r = -1 /\ True) \/ (left <= r <= right /\ nth_error l (Z.to_nat r) = Some e).
  Proof.
    induction fuel as [|f IH]; intros left right r L R H; [discriminate|]. cbn [search_loop] in H. destruct (Z.leb_spec left right) as [C|C].
    - cbv zeta in H. set (m := (left + right) / 2) in *. assert (M : left <= m <= right) by (unfold m; split; [apply Z.div_le_lower_bound; lia|apply Z.div_le_upper_bound; lia]).
      destruct (Z.ltb_spec m 0); [discriminate|]. destruct (nth_error l (Z.to_nat m)) as [v|] eqn:Ev; [|discriminate]. destruct (lt v e) eqn:E1; [|destruct (lt e v) eqn:E2].
      + destruct (IH (m + 1) right r ltac:(lia) R H) as [X|[X Y]]; [now left|right; split; [lia|exact Y]].
      + destruct (IH left (m - 1) r L ltac:(lia) H) as [X|[X Y]]; [now left|right; split; [lia|exact Y]].
      + injection H as <-. right. split; [exact M|]. now rewrite <- (trichotomy _ _ T _ _ E1 E2).
    - injection H as <-. left. now split.
  Qed.

  Lemma search_ends fuel l e : forall left right, 0 <= left -> right < len l -> left <= right + 1 -> right - left + 1 < Z.of_nat fuel -> exists r, search_loop lt fuel l e left right = Some r.
  Proof.
    induction fuel as [|f IH]; intros left right L R C F; [lia|]. cbn [search_loop]. destruct (Z.leb_spec left right) as [D|D]; [|eexists; reflexivity].
    cbv zeta. set (m := (left + right) / 2). assert (M : left <= m <= right) by (unfold m; split; [apply Z.div_le_lower_bound; lia|apply Z.div_le_upper_bound; lia]).
    destruct (Z.ltb_spec m 0); [lia|]. destruct (nth_error l (Z.to_nat m)) as [v|] eqn:Ev; [|apply nth_error_None in Ev; unfold len in R; lia].
    destruct (lt v e); [apply IH; lia|]. destruct (lt e v); [apply IH; lia|]. eexists; reflexivity.
  Qed.
  Lemma search_finds fuel l e : in_order lt l -> forall left right r i, nth_error l (Z.to_nat i) = Some e -> 0 <= left <= i -> i <= right -> search_loop lt fuel l e left right = Some r -> r <> -1.
  Proof.
    intros O. induction fuel as [|f IH]; intros left right r i Ei L R H; [discriminate|]. cbn [search_loop] in H. destruct (Z.leb_spec left right) as [C|C]; [|lia].
    cbv zeta in H. set (m := (left + right) / 2) in *. assert (M : left <= m <= right) by (unfold m; split; [apply Z.div_le_lower_bound; lia|apply Z.div_le_upper_bound; lia]).
    destruct (Z.ltb_spec m 0); [discriminate|]. destruct (nth_error l (Z.to_nat m)) as [v|] eqn:Ev; [|discriminate]. destruct (lt v e) eqn:E1; [|destruct (lt e v) eqn:E2].
    - apply (IH (m + 1) right r i Ei); [|lia|exact H]. destruct (Z.lt_trichotomy i m) as [X|[X|X]]; [|subst i; rewrite Ev in Ei; injection Ei as ->; rewrite (irreflexive _ _ T) in E1; discriminate|lia].
      pose proof (O (Z.to_nat i) (Z.to_nat m) e v ltac:(lia) Ei Ev) as Y. rewrite E1 in Y. discriminate.
    - apply (IH left (m - 1) r i Ei L); [|exact H]. destruct (Z.lt_trichotomy i m) as [X|[X|X]]; [lia|subst i; rewrite Ev in Ei; injection Ei as ->; rewrite (irreflexive _ _ T) in E2; discriminate|].
      pose proof (O (Z.to_nat m) (Z.to_nat i) v e ltac:(lia) Ev Ei) as Y. rewrite E2 in Y. discriminate.
    - injection H as <-. lia.
  Qed.
  Lemma insert_perm x l : Permutation (insert_sorted lt l x) (x :: l).
  Proof. induction l as [|y l IH]; [reflexivity|]. cbn. destruct (lt x y); [reflexivity|]. rewrite IH. apply perm_swap. Qed.
  Lemma insert_order x l : in_order lt l -> in_order lt (insert_sorted lt l x).
  Proof.
    induction l as [|y l IH]; intros O; cbn.
    - apply order_cons; [intros y []|intros i j a b L Ea; destruct i; discriminate].
    - destruct (lt x y) eqn:E.
      + apply order_cons; [|exact O]. intros z [<-|Hz]; [now apply lt_asym|]. eapply le_trans; [apply lt_asym; exact E|]. exact (order_head _ _ O z Hz).
      + apply order_cons; [|apply IH; exact (order_tail _ _ O)]. intros z Hz. apply (Permutation_in _ (insert_perm x l)) in Hz. destruct Hz as [<-|Hz]; [exact E|exact (order_head _ _ O z Hz)].
  Qed.
  Lemma insert_position x l : in_order lt l -> exists a b, l = a ++ b /\ insert_sorted lt l x = a ++ x :: b /\ (forall y, In y a -> lt x y = false) /\ (forall y, In y b -> lt x y = true).
  Proof.
    induction l as [|y l IH]; intros O; cbn; [exists [], []; repeat split; intros ? []|]. destruct (lt x y) eqn:E.
    - exists [], (y :: l). repeat split; [intros ? []|]. intros z [<-|Hz]; [exact E|]. destruct (lt x z) eqn:F; [reflexivity|]. pose proof (order_head _ _ O z Hz) as G.
      pose proof (le_trans y z x G F) as X. rewrite E in X. discriminate.
    - destruct (IH (order_tail _ _ O)) as (a & b & -> & -> & Ha & Hb). exists (y :: a), b. repeat split; [|exact Hb]. intros z [<-|Hz]; [exact E|now apply Ha].
  Qed.
  Lemma sort_fold l : forall acc, in_order lt acc -> in_order lt (fold_left (insert_sorted lt) l acc) /\ Permutation (fold_left (insert_sorted lt) l acc) (l ++ acc).
  Proof.
    induction l as [|x l IH]; intros acc O; [split; [exact O|reflexivity]|]. cbn [fold_left]. destruct (IH _ (insert_order x acc O)) as [O' P]. split; [exact O'|].
    rewrite P, insert_perm. cbn. symmetry. apply Permutation_middle.
  Qed.
  Lemma sort_ok l : in_order lt (sort lt l) /\ Permutation (sort lt l) l.
  Proof. unfold sort. destruct (sort_fold l []) as [O P]; [intros i j a b L Ea; destruct i; discriminate|]. rewrite app_nil_r in P. now split. Qed.
  Lemma unique_head x r : exists r', unique eq (x :: r) = x :: r'.
  Proof. cbn. destruct (unique eq r) as [|y r']; [eexists; reflexivity|]. destruct (eq x y); eexists; reflexivity. Qed.
  Lemma unique_in l : forall y, In y (unique eq l) <-> In y l.
  Proof.
    induction l as [|x r IH]; intros y; [reflexivity|]. cbn. rewrite <- IH. destruct (unique eq r) as [|z r']; [reflexivity|]. destruct (eq x z) eqn:E; [|reflexivity].
    apply (equality _ _ T) in E. subst. cbn. tauto.
  Qed.
  Lemma unique_length l : (length (unique eq l) <= length l)%nat.
  Proof. induction l as [|x r IH]; [constructor|]. cbn. destruct (unique eq r) as [|z r']; cbn in *; [lia|]. destruct (eq x z); cbn; lia. Qed.
  Lemma increasing_cons x l : (forall y, In y l -> lt x y = true) -> increasing lt l -> increasing lt (x :: l).
  Proof.
    intros H K [|i] [|j] a b L Ea Eb; try lia; cbn in Ea, Eb.
    - injection Ea as <-. apply H. eapply nth_error_In. exact Eb.
    - apply (K i j a b); [lia|exact Ea|exact Eb].
  Qed.
  Lemma increasing_tail x l : increasing lt (x :: l) -> increasing lt l /\ forall y, In y l -> lt x y = true.
  Proof.
    intros H. split; [intros i j a b L Ea Eb; apply (H (S i) (S j) a b); [lia|exact Ea|exact Eb]|]. intros y Hy. apply In_nth_error in Hy as [n E]. apply (H O (S n) x y); [lia|reflexivity|exact E].
  Qed.
  Lemma unique_order l : in_order lt l -> increasing lt (unique eq l).
  Proof.
    induction l as [|x r IH]; intros O; [intros i j a b L Ea; destruct i; discriminate|]. pose proof (IH (order_tail _ _ O)) as I1. pose proof (order_head _ _ O) as H. cbn.
    assert (U : forall y, In y (unique eq r) -> lt y x = false) by (intros y Hy; apply H; now apply unique_in).
    destruct (unique eq r) as [|z r'] eqn:E; [apply increasing_cons; [intros ? []|exact I1]|]. destruct (increasing_tail _ _ I1) as [I2 Hz]. destruct (eq x z) eqn:X.
    - apply (equality _ _ T) in X. subst. exact I1.
    - apply increasing_cons; [|exact I1]. assert (L : lt x z = true). { destruct (lt x z) eqn:L; [reflexivity|]. rewrite (trichotomy _ _ T x z L (U z (or_introl eq_refl))) in X. rewrite (proj2 (equality _ _ T z z) eq_refl) in X. discriminate. }
      intros y [<-|Hy]; [exact L|]. exact (transitive _ _ T _ _ _ L (Hz y Hy)).
  Qed.
  Lemma increasing_nodup l : increasing lt l -> NoDup l.
  Proof. induction l as [|x r IH]; intros H; constructor; destruct (increasing_tail _ _ H) as [K L]; [|now apply IH]. intros Hx. pose proof (L x Hx) as X. rewrite (irreflexive _ _ T) in X. discriminate. Qed.
  Lemma unique_nodup l : NoDup l -> unique eq l = l.
  Proof.
    induction 1 as [|x r N D IH]; [reflexivity|]. cbn. rewrite IH. destruct r as [|y r]; [reflexivity|]. destruct (eq x y) eqn:E; [|reflexivity]. apply (equality _ _ T) in E. subst. exfalso. apply N. now left.
  Qed.
  Lemma unique_full l : length (unique eq l) = length l -> unique eq l = l.
  Proof.
    induction l as [|x r IH]; [reflexivity|]. pose proof (unique_length r) as B. cbn. destruct (unique eq r) as [|z r'] eqn:E; cbn in *.
    - intros H. destruct r; [reflexivity|cbn in *; lia].
    - destruct (eq x z); cbn; intros H; [lia|]. rewrite IH by lia. reflexivity.
  Qed.
  Lemma contains_ok l x : contains eq l x = true <-> In x l.
  Proof. unfold contains. rewrite existsb_exists. split; [intros (y & H & E); apply (equality _ _ T) in E; now subst|]. intros H. exists x. split; [exact H|]. now apply (equality _ _ T). Qed.
End Order.

(** The search: an index of the element or -1, never outside the list; in a list in
    order -1 only when it is absent. *)
Theorem C93_search {A} lt eq (l : list A) e : total lt eq ->
  exists r, binary_search lt l e = Some r /\ (r = -1 \/ 0 <= r < len l /\ nth_error l (Z.to_nat r) = Some e) /\ (in_order lt l -> (r = -1 <-> ~ In e l)).
Proof.
  intros T. destruct l as [|x l']; [exists (-1); repeat split; auto|]. set (l := x :: l'). change (binary_search lt l e) with (search_loop lt (S (length l)) l e 0 (len l - 1)).
  assert (P : 0 < len l) by (unfold l; rewrite len_cons; pose proof (len_nonneg l'); lia).
  destruct (search_ends lt (S (length l)) l e 0 (len l - 1)) as [r H]; [lia|lia|lia|unfold len; lia|]. exists r. split; [exact H|].
  pose proof (search_range lt eq T _ l e 0 (len l - 1) r ltac:(lia) ltac:(lia) H) as R. split; [destruct R as [[R _]|[R E]]; [now left|right; split; [lia|exact E]]|].
  intros O. split.
  - intros -> I. apply In_nth_error in I as [i Ei]. assert (Li : (i < length l)%nat) by (apply nth_error_Some; rewrite Ei; discriminate).
    refine (search_finds lt eq T _ l e O 0 (len l - 1) (-1) (Z.of_nat i) _ _ _ H eq_refl); [now rewrite Nat2Z.id|lia|unfold len; lia].
  - intros N. destruct R as [[R _]|[R E]]; [exact R|]. exfalso. apply N. eapply nth_error_In. exact E.
Qed.
Print Assumptions C93_search.
(** Sorting, insertion after equal elements, and distinct elements. *)
Theorem C93_insert {A} lt eq (l : list A) x : total lt eq -> in_order lt l ->
  in_order lt (insert_sorted lt l x) /\
  exists a b, l = a ++ b /\ insert_sorted lt l x = a ++ x :: b /\ (forall y, In y a -> lt x y = false) /\ (forall y, In y b -> lt x y = true).
Proof. intros T O. split; [eapply insert_order; eassumption|eapply insert_position; eassumption]. Qed.
Print Assumptions C93_insert.
Theorem C93_distinct {A} lt eq (l : list A) : total lt eq ->
  increasing lt (distinct lt eq l) /\ (forall x, In x (distinct lt eq l) <-> In x l) /\ (is_distinct lt eq l = true <-> NoDup l).
Proof.
  intros T. destruct (sort_ok lt eq T l) as [O P]. unfold distinct, is_distinct. split; [eapply unique_order; eassumption|]. split.
  - intros x. rewrite (unique_in lt eq T). split; apply Permutation_in; [exact P|now symmetry].
  - rewrite Nat.eqb_eq. split.
    + intros E. apply (unique_full eq) in E. apply (Permutation_NoDup P). rewrite <- E. eapply increasing_nodup; [exact T|]. eapply unique_order; eassumption.
    + intros N. rewrite (unique_nodup lt eq T); [reflexivity|]. apply (Permutation_NoDup (Permutation_sym P)). exact N.
Qed.
Print Assumptions C93_distinct.
Theorem C93_is_sorted {A} lt eq (l : list A) : total lt eq -> (is_sorted lt l = true <-> in_order lt l).
Proof.
  intros T. induction l as [|x r IH]; [split; [intros _ i j a b L Ea; destruct i; discriminate|reflexivity]|]. cbn [is_sorted]. rewrite andb_true_iff, IH. split.
  - intros [H O]. apply order_cons; [|exact O]. destruct r as [|y r]; [intros ? []|]. apply negb_true_iff in H. intros z [<-|Hz]; [exact H|]. eapply (le_trans lt eq T); [exact H|]. exact (order_head lt _ _ O z Hz).
  - intros O. split; [|exact (order_tail lt _ _ O)]. destruct r as [|y r]; [reflexivity|]. apply negb_true_iff. apply (order_head lt _ _ O). now left.
Qed.
Print Assumptions C93_is_sorted.
(** Membership, difference (keeping order and repetitions), and intersection. *)
Theorem C93_sets {A} lt eq (l right : list A) : total lt eq ->
  (forall x, contains eq l x = true <-> In x l) /\
  (exists keep, difference eq l right = filter keep l /\ forall x, keep x = true <-> ~ In x right) /\
  (is_intersecting eq l right = true <-> exists x, In x l /\ In x right).
Proof.
  intros T. split; [intros x; eapply contains_ok; exact T|]. split.
  - exists (fun x => negb (contains eq right x)). split; [reflexivity|]. intros x. rewrite negb_true_iff, <- (contains_ok lt eq T), not_true_iff_false. reflexivity.
  - unfold is_intersecting. rewrite existsb_exists. split.
    + intros (x & H & E). apply existsb_exists in E as (y & Hy & E). apply (equality _ _ T) in E. subst. now exists y.
    + intros (x & H & K). exists x. split; [exact H|]. apply existsb_exists. exists x. split; [exact K|]. now apply (equality _ _ T).
Qed.
Print Assumptions C93_sets.
(** Position of the first such element, and parting there. *)
Lemma find_shift {A} (eq : A -> A -> bool) l e : forall i, 0 <= i -> find_from eq i l e = -1 \/ i <= find_from eq i l e.
Proof. induction l as [|x r IH]; intros i H; [now left|]. cbn. destruct (eq x e); [right; lia|]. destruct (IH (i + 1) ltac:(lia)); [now left|right; lia]. Qed.
Theorem C93_part {A} lt eq (from to : list A) e : total lt eq ->
  (In e from -> exists a b, from = a ++ e :: b /\ ~ In e a /\ find_position eq from e = len a /\ part eq from to e = (true, a, to ++ e :: b)) /\
  (~ In e from -> find_position eq from e = -1 /\ part eq from to e = (false, from, to)).
Proof.
  intros T. unfold find_position, part. assert (X : forall i, (In e from -> exists a b, from = a ++ e :: b /\ ~ In e a /\ find_from eq i from e = i + len a /\ split_at eq from e = Some (a, e :: b)) /\ (~ In e from -> find_from eq i from e = -1 /\ split_at eq from e = None)).
  { induction from as [|x r IH]; intros i; [split; [intros []|split; reflexivity]|]. cbn [find_from split_at]. destruct (eq x e) eqn:E.
    - apply (equality _ _ T) in E. subst. split; [|intros N; exfalso; apply N; now left]. intros _. exists [], r. repeat split; [intros []|rewrite len_nil; lia].
    - assert (N : x <> e) by (intros ->; rewrite (proj2 (equality _ _ T e e) eq_refl) in E; discriminate). destruct (IH (i + 1)) as [F G]. split.
      + intros [Hx|Hx]; [contradiction|]. destruct (F Hx) as (a & b & Er & Na & Ef & Es). exists (x :: a), b. rewrite Es, Ef, len_cons. subst r. repeat split; [|lia]. intros [H|H]; contradiction.
      + intros H. destruct G as [G1 G2]; [intros K; apply H; now right|]. rewrite G2. split; [exact G1|reflexivity]. }
  destruct (X 0) as [F G]. split.
  - intros H. destruct (F H) as (a & b & E & N & P & S2). exists a, b. rewrite S2. repeat split; try assumption.
  - intros H. destruct (G H) as [P S2]. rewrite S2. now split.
Qed.
Print Assumptions C93_part.
Theorem C93_starts {A} lt eq (l value : list A) : total lt eq -> (starts_with eq l value = true <-> exists rest, l = value ++ rest).
Proof.
  intros T. unfold starts_with. assert (X : forall l, same eq value l = true <-> exists rest, l = value ++ rest).
  { induction value as [|x v IH]; intros m; [split; [intros _; now exists m|reflexivity]|]. destruct m as [|y r]; cbn; [split; [discriminate|intros [rest H]; discriminate]|].
    rewrite andb_true_iff, (equality _ _ T), IH. split; [intros [-> [rest ->]]; now exists rest|]. intros [rest H]. injection H as -> ->. split; [reflexivity|now exists rest]. }
  rewrite andb_true_iff, X. split; [now intros [_ H]|]. intros [rest ->]. split; [|now exists rest]. rewrite len_app. pose proof (len_nonneg rest). destruct (Z.ltb_spec (len value + len rest) (len value)); [lia|reflexivity].
Qed.
Print Assumptions C93_starts.
Lemma integers : total Z.ltb Z.eqb.
Proof. constructor; intros; lia. Qed.
Example C93_ex : total Z.ltb Z.eqb /\ in_order Z.ltb [1; 3; 3; 7; 9] /\ binary_search Z.ltb [1; 3; 3; 7; 9] 7 = Some 3 /\ binary_search Z.ltb [1; 3; 3; 7; 9] 4 = Some (-1) /\
  binary_search Z.ltb [9; 1] 9 = Some 0 /\ distinct Z.ltb Z.eqb [3; 1; 3; 2] = [1; 2; 3] /\ is_distinct Z.ltb Z.eqb [3; 1; 3] = false /\ insert_sorted Z.ltb [1; 3; 5] 3 = [1; 3; 3; 5] /\
  part Z.eqb [1; 2; 3] [9] 2 = (true, [1], [9; 2; 3]) /\ starts_with Z.eqb [1; 2; 3] [1; 2] = true.
Proof. split; [exact integers|]. split; [apply (C93_is_sorted Z.ltb Z.eqb _ integers); reflexivity|]. repeat split. Qed.
