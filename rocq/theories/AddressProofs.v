From Verif Require Import Base Bytes BitStreamSpec RadixModel RadixSpec RadixProofs3 RadixProofs4 BitStreamProofs2 AddressModel BechField BechProofs BechProofs2 BechProofs3 AddressSpec.

(** * Polynomial residues *)
Lemma gmul_field x y : gz (gmul x y) = reduce (carryless (gz x) (gz y)).
Proof. apply Z.eqb_eq. revert x y. apply forall_gf2. vm_compute. reflexivity. Qed.
Lemma coefficient_snoc l d n : coefficient (l ++ [d]) n = match n with O => d | S m => coefficient l m end.
Proof. unfold coefficient. rewrite rev_app_distr. destruct n; reflexivity. Qed.
Lemma coefficient_nil n : coefficient [] n = G0.
Proof. unfold coefficient. destruct n; reflexivity. Qed.
Definition vlist (a : vec) : list gf := [v5 a; v4 a; v3 a; v2 a; v1 a; v0 a].
Lemma times_snoc q t n : times_generator (q ++ [t]) n =
  gadd (match n with O => G0 | S m => times_generator q m end) (gmul (coefficient generator n) t).
Proof.
  unfold times_generator. cbn [map seq fold_right].
  change (coefficient generator 0) with G18. change (coefficient generator 1) with G29. change (coefficient generator 2) with G21.
  change (coefficient generator 3) with G20. change (coefficient generator 4) with G22. change (coefficient generator 5) with G29. change (coefficient generator 6) with G1.
  destruct n as [|[|[|[|[|[|[|m]]]]]]]; cbn [Nat.leb Nat.sub]; rewrite ?coefficient_snoc; try (change (coefficient generator 0) with G18);
   try (change (coefficient generator 1) with G29);  try (change (coefficient generator 2) with G21);
   try (change (coefficient generator 3) with G20); try (change (coefficient generator 4) with G22); try (change (coefficient generator 5) with G29);
   try (change (coefficient generator 6) with G1); try ring.
  rewrite !Nat.sub_0_r.
  assert (E : coefficient generator (S (S (S (S (S (S (S m))))))) = G0) by (unfold coefficient; destruct m; reflexivity).
  rewrite E. destruct m; cbn [Nat.sub]; rewrite ?coefficient_snoc, ?Nat.sub_0_r; ring.
Qed.
Lemma fold_congruent l : forall w a, congruent w (vlist a) -> congruent (w ++ l) (vlist (vfold a l)).
Proof.
  induction l as [|d l IH]; intros w a H; [rewrite app_nil_r; exact H|].
  replace (w ++ d :: l) with ((w ++ [d]) ++ l) by (rewrite <- app_assoc; reflexivity).
  change (vfold a (d :: l)) with (vfold (vstep a d) l). apply IH. destruct H as [q H]. exists (q ++ [v5 a]). intros n.
  rewrite coefficient_snoc, times_snoc. destruct n as [|n].
  - destruct a as [a5 a4 a3 a2 a1 a0]. unfold coefficient, vlist, vstep, vF, vadd, vscale, vshift, vsym, gen, generator. cbn [map rev app nth v5 v4 v3 v2 v1 v0 zg].
    change (zg 18) with G18. rewrite (gmul_comm a5 G18). generalize (gmul G18 a5). clear. intros x. rewrite !gadd_0. rewrite gadd_assoc, gadd_self. reflexivity.
  - rewrite H. generalize (times_generator q n). intros t. destruct a as [a5 a4 a3 a2 a1 a0].
    unfold coefficient, vlist, vstep, vF, vadd, vscale, vshift, vsym, gen, generator. cbn [map rev app v5 v4 v3 v2 v1 v0].
    change (zg 1) with G1. change (zg 29) with G29. change (zg 22) with G22. change (zg 20) with G20. change (zg 21) with G21. change (zg 18) with G18.
    assert (X : forall t b g, gadd t b = gadd (gadd t (gmul g a5)) (gadd (gadd b (gmul a5 g)) G0)).
    { intros u b g. rewrite (gadd_comm _ G0), gadd_0, (gmul_comm a5 g). generalize (gmul g a5). clear. intros x.
      replace (gadd (gadd u x) (gadd b x)) with (gadd (gadd u b) (gadd x x)) by ring. rewrite gadd_self. ring. }
    destruct n as [|[|[|[|[|[|n]]]]]]; cbn [nth]; try apply X.
    + rewrite gmul_1, (gadd_comm (gadd t a5)), gadd_0. reflexivity.
    + destruct n; cbn [nth]; change (gmul G0 a5) with G0; rewrite ?(gadd_comm _ G0), ?gadd_0; reflexivity.
Qed.
(** The remainder is unique. *)
Lemma coefficient_high l n : (length l <= n)%nat -> coefficient l n = G0.
Proof. intros H. unfold coefficient. apply nth_overflow. rewrite rev_length. exact H. Qed.
Lemma coefficient_cons d l n : coefficient (d :: l) n = if (n =? length l)%nat then d else coefficient l n.
Proof.
  unfold coefficient. cbn [rev]. destruct (Nat.eqb_spec n (length l)) as [->|N].
  - rewrite app_nth2 by (rewrite rev_length; lia). rewrite rev_length, Nat.sub_diag. reflexivity.
  - destruct (Nat.lt_ge_cases n (length l)); [apply app_nth1; rewrite rev_length; lia|].
    rewrite app_nth2 by (rewrite rev_length; lia). rewrite rev_length, (nth_overflow (rev l)) by (rewrite rev_length; lia).
    apply nth_overflow. cbn. lia.
Qed.
Lemma times_ext q q' : (forall n, coefficient q n = coefficient q' n) -> forall n, times_generator q n = times_generator q' n.
Proof. intros H n. unfold times_generator. f_equal. apply map_ext. intros i. rewrite H. reflexivity. Qed.
Lemma times_nil n : times_generator [] n = G0.
Proof.
  unfold times_generator. cbn [map seq fold_right]. rewrite !coefficient_nil.
  assert (E : forall g, gmul g G0 = G0) by (intros []; reflexivity). rewrite !E.
  repeat match goal with |- context [if ?b then G0 else G0] => destruct b end; reflexivity.
Qed.
Lemma times_top d q : times_generator (d :: q) (6 + length q) = d.
Proof.
  unfold times_generator. cbn [map seq fold_right]. rewrite !coefficient_cons.
  assert (E : forall g, gmul g G0 = G0) by (intros []; reflexivity).
  replace (6 + length q - 6)%nat with (length q) by lia. rewrite Nat.eqb_refl.
  rewrite (proj2 (Nat.leb_le 6 (6 + length q))) by lia. change (coefficient generator 6) with G1. rewrite gmul_1.
  assert (K : forall i, (i < 6)%nat -> (if (i <=? 6 + length q)%nat then gmul (coefficient generator i)
     (if (6 + length q - i =? length q)%nat then d else coefficient q (6 + length q - i)) else G0) = G0).
  { intros i Hi. rewrite (proj2 (Nat.leb_le i _)) by lia. rewrite (proj2 (Nat.eqb_neq _ _)) by lia. rewrite (coefficient_high q) by lia. apply E. }
  rewrite !K by lia. rewrite !gadd_0. rewrite gadd_comm. apply gadd_0.
Qed.
Lemma congruent_unique w a b : congruent w (vlist a) -> congruent w (vlist b) -> a = b.
Proof.
  intros [q H] [p K].
  assert (S0 : forall q p, (forall n, gadd (times_generator q n) (coefficient (vlist a) n) = gadd (times_generator p n) (coefficient (vlist b) n)) ->
     forall n, coefficient (vlist a) n = coefficient (vlist b) n).
  { clear. assert (HI : forall a n, (6 <= n)%nat -> coefficient (vlist a) n = G0) by (intros x n Hn; apply coefficient_high; cbn; lia).
    assert (Z0 : forall x, gadd x G0 = x) by (intros x; rewrite gadd_comm; apply gadd_0).
    (* strip leading zeros / compare leading terms *)
    assert (ST : forall q n, times_generator (G0 :: q) n = times_generator q n).
    { intros q n. apply times_ext. intros m. rewrite coefficient_cons. destruct (Nat.eqb_spec m (length q)) as [->|]; [|reflexivity]. symmetry. apply coefficient_high. lia. }
    assert (TH : forall q n, (6 + length q <= n)%nat -> times_generator q n = G0).
    { intros q n Hn. unfold times_generator. cbn [map seq fold_right]. assert (E : forall g, gmul g G0 = G0) by (intros []; reflexivity).
      rewrite !(coefficient_high q) by lia. rewrite !E. repeat match goal with |- context [if ?b then G0 else G0] => destruct b end; reflexivity. }
    assert (M : forall m q p, (length q + length p <= m)%nat ->
      (forall n, gadd (times_generator q n) (coefficient (vlist a) n) = gadd (times_generator p n) (coefficient (vlist b) n)) ->
      forall n, coefficient (vlist a) n = coefficient (vlist b) n).
    { induction m as [|m IH]; intros q p L H n.
      - destruct q; [|cbn in L; lia]. destruct p; [|cbn in L; lia]. specialize (H n). rewrite !times_nil, !gadd_0 in H. exact H.
      - destruct q as [|d q], p as [|e p].
        + specialize (H n). rewrite !times_nil, !gadd_0 in H. exact H.
        + pose proof (H (6 + length p)%nat) as T. rewrite times_top, times_nil, !HI, !Z0 in T by lia. subst e.
          apply (IH [] p); [cbn in *; lia|]. intros k. rewrite <- (ST p). apply H.
        + pose proof (H (6 + length q)%nat) as T. rewrite times_top, times_nil, !HI, !Z0 in T by lia. subst d.
          apply (IH q []); [cbn in *; lia|]. intros k. rewrite <- (ST q). apply H.
        + cbn [length] in L. destruct (Nat.lt_trichotomy (length q) (length p)) as [C|[C|C]].
          * pose proof (H (6 + length p)%nat) as T. rewrite times_top, TH, !HI, !Z0 in T by (cbn [length]; lia). subst e.
            apply (IH (d :: q) p); [cbn [length]; lia|]. intros k. rewrite <- (ST p). apply H.
          * pose proof (H (6 + length q)%nat) as T. rewrite times_top, C, times_top, !HI, !Z0 in T by lia. subst e.
            apply (IH (G0 :: q) p); [cbn [length]; lia|]. intros k. rewrite ST. specialize (H k).
            (* subtract d * x^len * g *)
            assert (AD : forall q, length q = length p -> times_generator (d :: q) k = gadd (times_generator (d :: repeat G0 (length p)) k) (times_generator q k)).
            { clear. intros q L. unfold times_generator. cbn [map seq fold_right]. rewrite !coefficient_cons, repeat_length, L.
              assert (R : forall n, coefficient (repeat G0 (length p)) n = G0).
              { intros n. unfold coefficient. destruct (Nat.lt_ge_cases n (length p)).
                - assert (I : In (nth n (rev (repeat G0 (length p))) G0) (rev (repeat G0 (length p)))) by (apply nth_In; rewrite rev_length, repeat_length; lia).
                  apply in_rev, repeat_spec in I. exact I.
                - apply nth_overflow. rewrite rev_length, repeat_length. lia. }
              rewrite !R.
              assert (TT : forall i, (if (i <=? k)%nat then gmul (coefficient generator i) (if (k - i =? length p)%nat then d else coefficient q (k - i)) else G0) =
                 gadd (if (i <=? k)%nat then gmul (coefficient generator i) (if (k - i =? length p)%nat then d else G0) else G0)
                      (if (i <=? k)%nat then gmul (coefficient generator i) (coefficient q (k - i)) else G0)).
              { intros i. destruct (i <=? k)%nat; [|reflexivity]. destruct (Nat.eqb_spec (k - i) (length p)) as [E|E].
                - rewrite (coefficient_high q) by lia. ring.
                - ring. }
              rewrite !TT. ring. }
            rewrite (AD q C), (AD p eq_refl), <- !gadd_assoc in H.
            revert H. generalize (times_generator (d :: repeat G0 (length p)) k). intros x H.
            assert (CA : forall u v, gadd x u = gadd x v -> u = v).
            { intros u v E. rewrite <- (gadd_0 u), <- (gadd_0 v), <- (gadd_self x), <- !gadd_assoc, E. reflexivity. }
            apply CA. exact H.
          * pose proof (H (6 + length q)%nat) as T. rewrite times_top, TH, !HI, !Z0 in T by (cbn [length]; lia). subst d.
            apply (IH q (e :: p)); [cbn [length]; lia|]. intros k. rewrite <- (ST q). apply H. }
    intros q p. apply (M _ q p (le_n _)). }
  assert (E : forall n, coefficient (vlist a) n = coefficient (vlist b) n) by (apply (S0 q p); intros n; rewrite <- H, <- K; reflexivity).
  destruct a, b. pose proof (E 0%nat) as E0. pose proof (E 1%nat) as E1. pose proof (E 2%nat) as E2. pose proof (E 3%nat) as E3. pose proof (E 4%nat) as E4. pose proof (E 5%nat) as E5.
  unfold coefficient, vlist in *. cbn in E0, E1, E2, E3, E4, E5. congruence.
Qed.
