(** C53: coin selection. *)
From Coq Require Import Sorted Permutation PeanoNat Lia.
From Verif Require Import Base MathModel MathSpec MathProofs CoinModel.

(** * Specification *)
Section Spec.
Context {P : Type}.
Notation point := (@point P).
Definition coins_sum (l : list point) : Z := fold_right (fun p t => snd p + t) 0 l.
(** [s] can be taken out of the multiset [l] *)
Definition taken_from (s l : list point) : Prop := exists rest, Permutation (s ++ rest) l.
Definition amounts64 (l : list point) : Prop := Forall (fun p => 0 <= snd p < 2 ^ 64) l.

Lemma sum_nonneg l : amounts64 l -> 0 <= coins_sum l.
Proof. induction 1; cbn [coins_sum fold_right]; [lia|]. unfold coins_sum in *. lia. Qed.
Lemma sum_app a b : coins_sum (a ++ b) = coins_sum a + coins_sum b.
Proof. unfold coins_sum. induction a as [|x a IH]; cbn [app fold_right]; [lia|]. rewrite IH. lia. Qed.
Lemma sum_perm a b : Permutation a b -> coins_sum a = coins_sum b.
Proof. unfold coins_sum. induction 1; cbn [fold_right]; lia. Qed.
Lemma amounts_perm a b : Permutation a b -> amounts64 a -> amounts64 b.
Proof. intros H F. unfold amounts64 in *. rewrite Forall_forall in *. intros p Hp. apply F. apply (Permutation_in p (Permutation_sym H) Hp). Qed.
Lemma value_ok l : amounts64 l -> value l = Some (Z.min (2 ^ 64 - 1) (coins_sum l)).
Proof.
  intros F. unfold value.
  assert (G : forall x, 0 <= x < 2 ^ 64 -> fold_left (fun total p => do t <- total; ceilinged_add u64 t (snd p)) l (Some x) = Some (Z.min (2 ^ 64 - 1) (x + coins_sum l))).
  { induction F as [|p l Hp F IH]; intros x Hx; cbn [fold_left coins_sum fold_right]; [rewrite Z.min_r by lia; f_equal; lia|].
    cbn [obind]. rewrite ceilinged_add_clamps by (first [reflexivity | apply fits_unsigned; [reflexivity|cbn; lia]]).
    assert (E : clamp u64 (x + snd p) = Z.min (2 ^ 64 - 1) (x + snd p)) by (unfold clamp, imin, imax; cbn; lia).
    pose proof (sum_nonneg l F). rewrite E, IH by lia. f_equal. unfold coins_sum in *. lia. }
  rewrite (G 0) by lia. f_equal.
Qed.
Lemma min_ok (p : point) (l : list point) : In (min_element p l) (p :: l) /\ Forall (fun q => snd (min_element p l) <= snd q) (p :: l).
Proof.
  revert p; induction l as [|q l IH]; intros p; cbn [min_element]; [split; [left; reflexivity|constructor; [lia|constructor]]|].
  destruct (IH (if snd q <? snd p then q else p)) as [I F]. set (m := min_element _ l) in *.
  pose proof (Forall_inv F) as F1. pose proof (Forall_inv_tail F) as F2.
  destruct (Z.ltb_spec (snd q) (snd p)); split.
  - destruct I as [I|I]; [right; left; exact I|right; right; exact I].
  - constructor; [lia|]. constructor; [lia|exact F2].
  - destruct I as [I|I]; [left; exact I|right; right; exact I].
  - constructor; [lia|]. constructor; [lia|exact F2].
Qed.
Lemma push_ok minimum (l : list point) : forall out r : list point, amounts64 (out ++ l) -> minimum < 2 ^ 64 -> coins_sum out < minimum -> push_until minimum out l = Some r ->
  (exists s t, l = s ++ t /\ r = out ++ s) /\
  (minimum <= coins_sum (out ++ l) -> minimum <= coins_sum r /\ exists s x, r = out ++ s ++ [x] /\ coins_sum (out ++ s) < minimum).
Proof.
  induction l as [|p l IH]; intros out r A M S H; cbn [push_until] in H.
  - assert (r = out) by congruence. subst r. split; [exists [], []; split; [reflexivity|rewrite app_nil_r; reflexivity]|]. rewrite app_nil_r. lia.
  - assert (A1 : amounts64 (out ++ [p])).
    { unfold amounts64 in *. apply Forall_app in A. destruct A as [A1 A2]. apply Forall_app. split; [exact A1|]. constructor; [exact (Forall_inv A2)|constructor]. }
    rewrite value_ok in H by exact A1. cbn [obind] in H. pose proof (sum_nonneg _ A1) as N1.
    destruct (Z.leb_spec minimum (Z.min (2 ^ 64 - 1) (coins_sum (out ++ [p])))) as [L|L].
    + assert (r = out ++ [p]) by congruence. subst r. split; [exists [p], l; split; reflexivity|]. intros _. split; [lia|].
      exists [], p. split; [reflexivity|]. rewrite app_nil_r. exact S.
    + assert (S1 : coins_sum (out ++ [p]) < minimum) by lia. destruct (IH (out ++ [p]) r) as [(s & t & E1 & E2) R]; try assumption.
      { rewrite <- app_assoc. exact A. }
      split; [exists (p :: s), t; split; [cbn; congruence|rewrite E2, <- app_assoc; reflexivity]|].
      intros T. rewrite <- app_assoc in R. destruct (R T) as [R1 (s' & x & R2 & R3)]. split; [exact R1|].
      exists (p :: s'), x. split; [rewrite R2, <- app_assoc; reflexivity|]. rewrite <- app_assoc in R3. exact R3.
Qed.
(** The first coins in descending order are the most valuable of their number. *)
Lemma firstn_max l : StronglySorted (fun a b : point => (snd a <? snd b) = false) l -> amounts64 l ->
  forall s rest, Permutation (s ++ rest) l -> coins_sum s <= coins_sum (firstn (length s) l).
Proof.
  induction 1 as [|x l Sl IH Fx]; intros A s rest H.
  - apply Permutation_sym, Permutation_nil in H. apply app_eq_nil in H. destruct H as [-> _]. cbn. lia.
  - pose proof (Forall_inv_tail A) as Al.
    assert (I : In x (s ++ rest)) by (apply (Permutation_in x (Permutation_sym H)); left; reflexivity). apply in_app_or in I. destruct I as [I|I].
    + apply in_split in I. destruct I as (s1 & s2 & ->).
      assert (H' : Permutation ((s1 ++ s2) ++ rest) l).
      { apply Permutation_cons_inv with x. etransitivity; [|exact H]. rewrite <- !app_assoc. cbn [app]. apply Permutation_middle. }
      specialize (IH Al _ _ H'). rewrite sum_app. rewrite sum_app in IH.
      replace (length (s1 ++ x :: s2)) with (S (length (s1 ++ s2))) by (rewrite !app_length; cbn [length]; lia).
      cbn [firstn]. unfold coins_sum in *. cbn [fold_right]. lia.
    + apply in_split in I. destruct I as (r1 & r2 & ->).
      assert (H' : Permutation (s ++ r1 ++ r2) l).
      { apply Permutation_cons_inv with x. etransitivity; [|exact H]. rewrite !app_assoc. apply Permutation_middle. }
      specialize (IH Al _ _ H'). etransitivity; [exact IH|]. generalize (length s). intros n. clear -Fx A Al.
      destruct n as [|n]; [cbn; lia|]. cbn [firstn]. unfold coins_sum at 2. cbn [fold_right]. fold (coins_sum (firstn n l)).
      assert (Px : 0 <= snd x) by (pose proof (Forall_inv A) as Q; cbn in Q; lia). clear A.
      revert l Fx Al. induction n as [|n IH]; intros l Fx Al; destruct l as [|y l]; cbn [firstn coins_sum fold_right]; try lia.
      * pose proof (Forall_inv Fx) as Q. apply Z.ltb_ge in Q. lia.
      * specialize (IH l (Forall_inv_tail Fx) (Forall_inv_tail Al)). unfold coins_sum in *. destruct n; cbn [firstn fold_right] in *; lia.
Qed.
Lemma firstn_le l n m : amounts64 l -> (n <= m)%nat -> coins_sum (firstn n l) <= coins_sum (firstn m l).
Proof.
  intros A. revert n m. induction A as [|x l Hx A IH]; intros n m H; [rewrite !firstn_nil; lia|].
  destruct n as [|n]; [cbn [firstn]; apply sum_nonneg|destruct m as [|m]; [lia|]].
  - unfold amounts64. assert (A' : Forall (fun p => 0 <= snd p < 2 ^ 64) (x :: l)) by (constructor; assumption).
    rewrite <- (firstn_skipn m (x :: l)) in A'. apply Forall_app in A'. apply A'.
  - cbn [firstn coins_sum fold_right]. specialize (IH n m ltac:(lia)). unfold coins_sum in IH. lia.
Qed.
End Spec.

Section Props.
Context {P : Type}.
Variables (unspent : list (@point P)) (minimum : Z).
Hypothesis A : amounts64 unspent.
Hypothesis M : 0 <= minimum < 2 ^ 64.

Lemma total_test : exists total, value unspent = Some total /\ (total <? minimum) = (coins_sum unspent <? minimum).
Proof.
  exists (Z.min (2 ^ 64 - 1) (coins_sum unspent)). split; [apply value_ok; exact A|].
  destruct (Z.ltb_spec (coins_sum unspent) minimum), (Z.ltb_spec (Z.min (2 ^ 64 - 1) (coins_sum unspent)) minimum); lia.
Qed.
(** Every outcome the two unspecified orders allow falls in one of these cases. *)
Lemma greedy_cases out : greedy unspent minimum out ->
  (coins_sum unspent < minimum /\ out = []) \/
  (minimum <= coins_sum unspent /\
    ((exists p, In p unspent /\ minimum <= snd p /\ out = [p] /\ Forall (fun q => minimum <= snd q -> snd p <= snd q) unspent) \/
     (Forall (fun q => snd q < minimum) unspent /\
      exists sorted, Permutation sorted unspent /\ StronglySorted (fun l r => (snd l <? snd r) = false) sorted /\ push_until minimum [] sorted = Some out))).
Proof.
  intros (total & E & H). destruct total_test as (t & E' & T). assert (total = t) by congruence. subst t. rewrite T in H.
  destruct (Z.ltb_spec (coins_sum unspent) minimum) as [L|L]; [left; split; assumption|]. right. split; [exact L|].
  assert (G : (exists low high, Permutation (low ++ high) unspent /\
      Forall (fun p => (snd p <? minimum) = true) low /\ Forall (fun p => (snd p <? minimum) = false) high /\
      match high with
      | p :: rest => out = [min_element p rest]
      | [] => exists sorted, Permutation sorted (low ++ high) /\ StronglySorted (fun l r => (snd l <? snd r) = false) sorted /\ push_until minimum [] sorted = Some out
      end) -> (exists p, In p unspent /\ minimum <= snd p /\ out = [p] /\ Forall (fun q => minimum <= snd q -> snd p <= snd q) unspent) \/
     (Forall (fun q => snd q < minimum) unspent /\
      exists sorted, Permutation sorted unspent /\ StronglySorted (fun l r => (snd l <? snd r) = false) sorted /\ push_until minimum [] sorted = Some out)).
  { intros (low & high & Pm & Fl & Fh & R). destruct high as [|p rest].
    - right. rewrite app_nil_r in *. split.
      + rewrite Forall_forall in *. intros q Hq. apply Z.ltb_lt. apply Fl. apply (Permutation_in q (Permutation_sym Pm) Hq).
      + destruct R as (sorted & S1 & S2 & S3). exists sorted. split; [etransitivity; eassumption|]. split; assumption.
    - left. destruct (min_ok p rest) as [I F]. exists (min_element p rest). rewrite Forall_forall in *.
      assert (J : In (min_element p rest) unspent) by (apply (Permutation_in _ Pm); apply in_or_app; right; exact I).
      split; [exact J|]. split; [apply Z.ltb_ge; apply Fh; exact I|]. split; [exact R|]. intros q Hq Hm.
      apply (Permutation_in q (Permutation_sym Pm)) in Hq. apply in_app_or in Hq. destruct Hq as [Hq|Hq].
      + apply Fl in Hq. apply Z.ltb_lt in Hq. lia.
      + apply F. exact Hq. }
  destruct unspent as [|p [|p2 l]] eqn:EU; try (apply G; exact H).
  left. exists p. cbn [coins_sum fold_right] in L. split; [left; reflexivity|]. split; [lia|]. split; [exact H|]. constructor; [lia|constructor].
Qed.

(** The selection is taken from the unspent points. *)
Theorem C53_subset out : greedy unspent minimum out -> taken_from out unspent.
Proof.
  intros H. destruct (greedy_cases out H) as [[_ ->]|[_ [(p & I & _ & -> & _)|(F & sorted & Pm & _ & E)]]].
  - exists unspent. reflexivity.
  - apply in_split in I. destruct I as (a & b & ->). exists (a ++ b). cbn [app]. apply Permutation_middle.
  - destruct (Z.le_gt_cases minimum 0) as [Z0|Z0].
    + destruct sorted as [|x l].
      * cbn in E. assert (out = []) by congruence. subst out. exists unspent. reflexivity.
      * exfalso. apply Permutation_sym in Pm. assert (I : In x unspent) by (apply (Permutation_in x (Permutation_sym Pm)); left; reflexivity).
        rewrite Forall_forall in F. unfold amounts64 in A. rewrite Forall_forall in A. specialize (F x I). specialize (A x I). cbv beta in A. lia.
    + destruct (push_ok minimum sorted [] out) as [(s & t & E1 & E2) _]; [cbn [app]; apply (amounts_perm unspent); [apply Permutation_sym; exact Pm|exact A]|lia|cbn; lia|exact E|].
      cbn [app] in E2. subst s. exists t. rewrite <- E1. exact Pm.
Qed.
(** It covers the requested value if the unspent points do, and is empty otherwise. *)
Theorem C53_sufficient out : greedy unspent minimum out ->
  (minimum <= coins_sum unspent -> minimum <= coins_sum out) /\ (coins_sum unspent < minimum -> out = []).
Proof.
  intros H. destruct (greedy_cases out H) as [[L ->]|[L [(p & I & Hp & -> & _)|(F & sorted & Pm & _ & E)]]].
  - split; [lia|reflexivity].
  - split; [cbn [coins_sum fold_right]; lia|lia].
  - split; [intros _|lia].
    destruct (Z.le_gt_cases minimum 0) as [Z0|Z0].
    + destruct (C53_subset out H) as [rest Pr]. etransitivity; [exact Z0|]. apply sum_nonneg.
      pose proof (amounts_perm _ _ (Permutation_sym Pr) A) as Q. unfold amounts64 in Q. apply Forall_app in Q. apply Q.
    + destruct (push_ok minimum sorted [] out) as [_ R]; [cbn [app]; apply (amounts_perm unspent); [apply Permutation_sym; exact Pm|exact A]|lia|cbn; lia|exact E|].
      apply R. cbn [app]. rewrite (sum_perm _ _ Pm). exact L.
Qed.
(** If single coins suffice it is the smallest of them. *)
Theorem C53_smallest_single out : greedy unspent minimum out -> (exists q, In q unspent /\ minimum <= snd q) ->
  exists p, out = [p] /\ In p unspent /\ minimum <= snd p /\ forall q, In q unspent -> minimum <= snd q -> snd p <= snd q.
Proof.
  intros H (q & Iq & Hq). assert (Sq : minimum <= coins_sum unspent).
  { apply in_split in Iq. destruct Iq as (a & b & E). rewrite E, sum_app. cbn [coins_sum fold_right]. fold (coins_sum b).
    unfold amounts64 in A. rewrite E in A. apply Forall_app in A. destruct A as [Aa Ab]. pose proof (sum_nonneg a Aa). pose proof (sum_nonneg b (Forall_inv_tail Ab)). lia. }
  destruct (greedy_cases out H) as [[L _]|[L [(p & I & Hp & -> & F)|(F & _)]]]; [lia| |].
  - exists p. split; [reflexivity|]. split; [exact I|]. split; [exact Hp|]. rewrite Forall_forall in F. exact F.
  - rewrite Forall_forall in F. specialize (F q Iq). cbv beta in F. lia.
Qed.
(** No sufficient selection has fewer coins. *)
Theorem C53_fewest out other : greedy unspent minimum out -> 0 < minimum -> taken_from other unspent -> minimum <= coins_sum other ->
  (length out <= length other)%nat.
Proof.
  intros H M0 [rest Po] So.
  destruct (greedy_cases out H) as [[_ ->]|[L [(p & I & Hp & -> & F)|(F & sorted & Pm & Ss & E)]]]; [cbn [length]; lia| |].
  - destruct other as [|x other]; [cbn in So; lia|]. cbn [length]. lia.
  - assert (As : amounts64 sorted) by (apply (amounts_perm unspent); [apply Permutation_sym; exact Pm|exact A]).
    destruct (push_ok minimum sorted [] out) as [(s & t & E1 & E2) R]; [exact As|lia|cbn; lia|exact E|]. cbn [app] in *. subst s.
    destruct R as [_ (s & x & R2 & R3)]; [rewrite (sum_perm _ _ Pm); exact L|].
    destruct (Nat.le_gt_cases (length out) (length other)) as [Q|Q]; [exact Q|]. exfalso.
    pose proof (firstn_max sorted Ss As other rest) as MX. specialize (MX ltac:(etransitivity; [exact Po|apply Permutation_sym; exact Pm])).
    assert (Ls : (length other <= length s)%nat) by (rewrite R2, app_length in Q; cbn [length] in Q; lia).
    pose proof (firstn_le sorted (length other) (length s) As Ls) as LE.
    assert (FS : firstn (length s) sorted = s).
    { rewrite E1, R2, <- app_assoc, firstn_app, Nat.sub_diag, firstn_O, app_nil_r. apply firstn_all. }
    rewrite FS in LE. lia.
Qed.
(** individual: exactly the sufficient coins, in ascending order. *)
Theorem C53_individual out : individual unspent minimum out ->
  Permutation out (filter (fun p => minimum <=? snd p) unspent) /\ StronglySorted (fun l r => snd l <= snd r) out.
Proof.
  intros [Pm S]. split; [exact Pm|]. clear -S. induction S as [|x l S IH F]; constructor; [exact IH|]. eapply Forall_impl; [|exact F].
  intros y Hy. cbv beta in *. apply Z.ltb_ge in Hy. exact Hy.
Qed.
End Props.
Print Assumptions C53_subset.
Print Assumptions C53_sufficient.
Print Assumptions C53_smallest_single.
Print Assumptions C53_fewest.
Print Assumptions C53_individual.

(** A selection exists for every request: the two library calls have results. *)
Fixpoint place {P} (x : @point P) (l : list (@point P)) : list (@point P) :=
  match l with [] => [x] | y :: l => if snd x <? snd y then y :: place x l else x :: y :: l end.
Lemma place_ok {P} (x : @point P) l : StronglySorted (fun a b => (snd a <? snd b) = false) l ->
  StronglySorted (fun a b => (snd a <? snd b) = false) (place x l) /\ Permutation (place x l) (x :: l).
Proof.
  induction 1 as [|y l S [IH1 IH2] F]; cbn [place]; [split; [constructor; constructor|reflexivity]|].
  destruct (Z.ltb_spec (snd x) (snd y)) as [H|H].
  - split; [|etransitivity; [apply perm_skip; exact IH2|apply perm_swap]]. constructor; [exact IH1|].
    rewrite Forall_forall in *. intros z Hz. apply (Permutation_in z IH2) in Hz. destruct Hz as [<-|Hz]; [apply Z.ltb_ge; lia|apply F; exact Hz].
  - split; [|reflexivity]. constructor; [constructor; assumption|]. constructor; [apply Z.ltb_ge; lia|].
    rewrite Forall_forall in *. intros z Hz. specialize (F z Hz). apply Z.ltb_ge in F. apply Z.ltb_ge. lia.
Qed.
Theorem C53_exists {P} (unspent : list (@point P)) minimum : amounts64 unspent -> 0 <= minimum < 2 ^ 64 -> exists out, greedy unspent minimum out.
Proof.
  intros A M. destruct (total_test unspent minimum A M) as (total & E & _).
  assert (SS : forall l : list (@point P), exists sorted, Permutation sorted l /\ StronglySorted (fun a b => (snd a <? snd b) = false) sorted).
  { induction l as [|x l (s & Ps & S)]; [exists []; split; [reflexivity|constructor]|]. destruct (place_ok x s S) as [S1 P1].
    exists (place x s). split; [etransitivity; [exact P1|apply perm_skip; exact Ps]|exact S1]. }
  assert (PU : forall l out : list (@point P), amounts64 (out ++ l) -> exists r, push_until minimum out l = Some r).
  { induction l as [|p l IH]; intros out Al; cbn [push_until]; [eexists; reflexivity|].
    assert (A1 : amounts64 (out ++ [p])).
    { unfold amounts64 in *. apply Forall_app in Al. destruct Al as [A1 A2]. apply Forall_app. split; [exact A1|]. constructor; [exact (Forall_inv A2)|constructor]. }
    rewrite value_ok by exact A1. cbn [obind]. destruct (_ <=? _); [eexists; reflexivity|]. apply IH. rewrite <- app_assoc. exact Al. }
  assert (G : exists out low high : list (@point P), Permutation (low ++ high) unspent /\
      Forall (fun p => (snd p <? minimum) = true) low /\ Forall (fun p => (snd p <? minimum) = false) high /\
      match high with
      | p :: rest => out = [min_element p rest]
      | [] => exists sorted, Permutation sorted (low ++ high) /\ StronglySorted (fun l r => (snd l <? snd r) = false) sorted /\ push_until minimum [] sorted = Some out
      end).
  { set (low := filter (fun p => snd p <? minimum) unspent). set (high := filter (fun p => negb (snd p <? minimum)) unspent).
    assert (Pm : Permutation (low ++ high) unspent).
    { unfold low, high. clear. induction unspent as [|x l IH]; cbn [filter]; [reflexivity|]. destruct (snd x <? minimum); cbn [negb app].
      - apply perm_skip. exact IH.
      - etransitivity; [apply Permutation_sym, Permutation_middle|]. apply perm_skip. exact IH. }
    assert (Fl : Forall (fun p => (snd p <? minimum) = true) low) by (apply Forall_forall; intros p Hp; apply filter_In in Hp; apply Hp).
    assert (Fh : Forall (fun p => (snd p <? minimum) = false) high) by (apply Forall_forall; intros p Hp; apply filter_In in Hp; apply Bool.negb_true_iff; apply Hp).
    clearbody low high. destruct high as [|p rest].
    - destruct (SS (low ++ [])) as (sorted & Ps & S). destruct (PU sorted []) as [r R].
      { cbn [app]. apply (amounts_perm unspent); [|exact A]. etransitivity; [apply Permutation_sym; exact Pm|apply Permutation_sym; exact Ps]. }
      exists r, low, []. split; [exact Pm|]. split; [exact Fl|]. split; [exact Fh|]. exists sorted. split; [exact Ps|]. split; assumption.
    - exists [min_element p rest], low, (p :: rest). split; [exact Pm|]. split; [exact Fl|]. split; [exact Fh|reflexivity]. }
  destruct G as [out G]. unfold greedy. destruct (total <? minimum) eqn:ET.
  - exists [], total. rewrite ET. split; [exact E|reflexivity].
  - destruct unspent as [|p [|p2 l]]; [exists out|exists [p]|exists out]; exists total; rewrite ET; (split; [exact E|]); try exact G. reflexivity.
Qed.
Print Assumptions C53_exists.
Example C53_sat : amounts64 [(1, 5); (2, 7); (3, 20); (4, 9)] /\ greedy [(1, 5); (2, 7); (3, 4)] 12 [(2, 7); (1, 5)].
Proof.
  split; [unfold amounts64; repeat constructor; cbn; lia|]. exists 16. split; [reflexivity|]. cbn.
  exists [(1, 5); (2, 7); (3, 4)], []. split; [reflexivity|]. split; [repeat constructor|]. split; [constructor|].
  exists [(2, 7); (1, 5); (3, 4)]. split; [apply perm_swap|]. split; [repeat constructor|reflexivity].
Qed.
