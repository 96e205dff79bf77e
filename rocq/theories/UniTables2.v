(** The table checks of UniTables.v read back as statements. *)
From Verif Require Import Base UniData UniModel UniSpec UniProofs UniTables.
From Coq Require Import FMapPositive.

(** The checks read back. *)
Lemma mdec_lib k p : mdec (mk decomposition_pool) (mk decomposition_index1) (mk decomposition_index2) k p = lib_decompose_one 4 k p.
Proof. apply decompose_one_ext; apply get_at. Qed.
Lemma mcls_lib p : mcls (mk unicode_data1) (mk unicode_data2) (mk combining_index) p = canonical_class p.
Proof. unfold mcls, canonical_class. rewrite (get_canonical_ext _ _ _ _ _ _ (get_at _) (get_at _) (get_at _)). reflexivity. Qed.
Lemma fixed_lib k q : fixed (mk decomposition_pool) (mk decomposition_index1) (mk decomposition_index2) k q = true -> lib_decompose_one 4 k q = Some [q].
Proof. unfold fixed. rewrite mdec_lib. destruct (lib_decompose_one 4 k q) as [l|]; [|discriminate]. intro H. apply leqb_ok in H. congruence. Qed.
Lemma fixed_dec k q : lib_decompose_one 4 k q = Some [q] -> dec k q = [q].
Proof. unfold dec. intros ->. reflexivity. Qed.

Lemma shiftr_range p : 0 <= p <= max_unicode_point -> 0 <= Z.shiftr p 7 < 8704.
Proof. intro H. pose proof (shift_split p). pose proof (land_range p). unfold max_unicode_point in H. lia. Qed.

Definition point_ok (p : Z) : Prop := forall k, exists l, lib_decompose_one 4 k p = Some l
  /\ Forall (fun q => lib_decompose_one 4 k q = Some [q]) l
  /\ (canonical_class p <> 0 -> Forall (fun q => canonical_class q = canonical_class p) l)
  /\ (valid_point p = true -> Forall (fun q => valid_point q = true) l).
Lemma check_point_ok p : check_point (mk decomposition_pool) (mk decomposition_index1) (mk decomposition_index2) (mk unicode_data1) (mk unicode_data2) (mk combining_index) p = true -> point_ok p.
Proof.
  unfold check_point. intros H k. cbn [forallb] in H. rewrite !mdec_lib, !mcls_lib in H. apply andb_prop in H as [H1 H2]. apply andb_prop in H2 as [H2 _].
  assert (H : match lib_decompose_one 4 k p with Some l => forallb (fixed (mk decomposition_pool) (mk decomposition_index1) (mk decomposition_index2) k) l
     && (if canonical_class p =? 0 then true else forallb (fun q => mcls (mk unicode_data1) (mk unicode_data2) (mk combining_index) q =? canonical_class p) l) && (if valid_point p then forallb valid_point l else true) | None => false end = true)
    by (destruct k; assumption).
  clear H1 H2. destruct (lib_decompose_one 4 k p) as [l|]; [|discriminate]. exists l. split; [reflexivity|].
  apply andb_prop in H as [H H3]. apply andb_prop in H as [H1 H2]. repeat split.
  - apply Forall_forall. intros q Hq. apply fixed_lib. exact (proj1 (forallb_forall _ _) H1 q Hq).
  - intro N. destruct (Z.eqb_spec (canonical_class p) 0); [contradiction|]. apply Forall_forall. intros q Hq.
    pose proof (proj1 (forallb_forall _ _) H2 q Hq) as X. cbn beta in X. rewrite mcls_lib in X. lia.
  - intro V. rewrite V in H3. apply Forall_forall. intros q Hq. exact (proj1 (forallb_forall _ _) H3 q Hq).
Qed.
Lemma self_ok p : (forall k, lib_decompose_one 4 k p = Some [p]) -> point_ok p.
Proof. intros H k. exists [p]. repeat split; auto. Qed.

Lemma dec1 k p : lib_decompose_one 4 k p = if (syllable_base <=? p) && (p <? syllable_base + syllable_count) then Some (hangul_decompose p)
    else if max_unicode_point <? p then Some [p]
    else do index <- decompose (at_ decomposition_index1) (at_ decomposition_index2) p;
         if index =? 0 then Some [p]
         else do header <- at_ decomposition_pool index;
              if is_compatible header && negb k then Some [p]
              else do cs <- pool_list (at_ decomposition_pool) (index + 1) (Z.to_nat (components header));
                   concat_map (lib_decompose_one 3 k) cs.
Proof. reflexivity. Qed.
Lemma jamo_ok p : (leading_base <= p < leading_base + 19) \/ (vowel_base <= p < vowel_base + 21) \/ (trailing_base <= p < trailing_base + 28) ->
  (forall k, lib_decompose_one 4 k p = Some [p]) /\ canonical_class p = 0.
Proof.
  intro H. destruct (proj2 (check_hangul_read _ _ _ _ _ _ hangul_checked) p H) as (X1 & X2 & X3). rewrite mcls_lib in X3.
  split; [|exact X3]. intros [|]; apply fixed_lib; assumption.
Qed.
Lemma syllable_class p : syllable_base <= p < syllable_base + syllable_count -> canonical_class p = 0.
Proof.
  intro H. change syllable_count with 11172 in H.
  pose proof (proj1 (check_hangul_read _ _ _ _ _ _ hangul_checked) p ltac:(unfold syllable_base in *; lia)) as X.
  rewrite mcls_lib in X. exact X.
Qed.
Lemma hangul_parts p : syllable_base <= p < syllable_base + syllable_count -> Forall (fun q => forall k, lib_decompose_one 4 k q = Some [q]) (hangul_decompose p).
Proof.
  intro H. unfold hangul_decompose. change syllable_count with 11172 in H. change nucleus_count with 588. change trailing_count with 28.
  set (s := p - syllable_base). assert (S : 0 <= s < 11172) by (subst s; lia). clearbody s.
  repeat apply Forall_cons.
  - apply jamo_ok. left. assert (0 <= s / 588 < 19) by (split; [apply Z.div_pos; lia|apply Z.div_lt_upper_bound; lia]). lia.
  - apply jamo_ok. right. left. pose proof (Z.mod_pos_bound s 588 ltac:(lia)).
    assert (0 <= s mod 588 / 28 < 21) by (split; [apply Z.div_pos; lia|apply Z.div_lt_upper_bound; lia]). lia.
  - destruct (s mod 28 =? 0); repeat constructor. apply jamo_ok. right. right. pose proof (Z.mod_pos_bound s 28 ltac:(lia)). lia.
Qed.
Lemma hangul_valid p : syllable_base <= p < syllable_base + syllable_count -> Forall (fun q => valid_point q = true) (hangul_decompose p).
Proof.
  intro H. unfold hangul_decompose. change syllable_count with 11172 in H. change nucleus_count with 588. change trailing_count with 28.
  set (s := p - syllable_base). assert (S : 0 <= s < 11172) by (subst s; lia). clearbody s.
  unfold valid_point, max_unicode_point, leading_base, vowel_base, trailing_base.
  assert (0 <= s / 588 < 19) by (split; [apply Z.div_pos; lia|apply Z.div_lt_upper_bound; lia]). pose proof (Z.mod_pos_bound s 588 ltac:(lia)).
  assert (0 <= s mod 588 / 28 < 21) by (split; [apply Z.div_pos; lia|apply Z.div_lt_upper_bound; lia]). pose proof (Z.mod_pos_bound s 28 ltac:(lia)).
  repeat apply Forall_cons; [lia|lia|]. destruct (s mod 28 =? 0); repeat constructor. lia.
Qed.
Lemma points_ok p : 0 <= p -> point_ok p.
Proof.
  intro H. destruct ((syllable_base <=? p) && (p <? syllable_base + syllable_count)) eqn:S.
  - intro k. exists (hangul_decompose p). rewrite dec1, S. split; [reflexivity|]. split.
    + eapply Forall_impl; [|apply hangul_parts; lia]. intros q Hq. exact (Hq k).
    + split; [intro N; exfalso; apply N, syllable_class; lia|]. intros _. apply hangul_valid. lia.
  - destruct (Z.ltb_spec max_unicode_point p) as [L|L].
    { apply self_ok. intro k. rewrite dec1, S. replace (max_unicode_point <? p) with true by lia. reflexivity. }
    destruct (check_points_read _ _ _ _ _ _ points_checked) as [K0 K1].
    destruct (K1 (Z.shiftr p 7) (shiftr_range p ltac:(lia))) as (b & B & X). rewrite get_at in B.
    destruct X as [->|X].
    + pose proof (K0 (Z.land p 127) (land_range p)) as Y. rewrite get_at in Y.
      apply self_ok. intro k. rewrite dec1, S. replace (max_unicode_point <? p) with false by lia. unfold decompose. rewrite B. cbn [obind].
      rewrite Y. reflexivity.
    + pose proof (X (Z.land p 127) (land_range p)) as Y. rewrite <- shift_split in Y. apply check_point_ok, Y.
Qed.
Lemma at_neg l i : i < 0 -> at_ l i = None.
Proof. intro. unfold at_. replace (i <? 0) with true by lia. reflexivity. Qed.
Lemma negative_dec k p : p < 0 -> dec k p = [p].
Proof.
  intro H. unfold dec. rewrite dec1. unfold syllable_base, max_unicode_point, decompose. replace (44032 <=? p) with false by lia. cbn [andb].
  replace (1114111 <? p) with false by lia. rewrite at_neg; [reflexivity|]. apply Z.shiftr_neg. exact H.
Qed.
Lemma negative_class p : p < 0 -> canonical_class p = 0.
Proof.
  intro H. unfold canonical_class, lib_get_canonical, get_canonical, max_unicode_point. replace (1114111 <? p) with false by lia.
  rewrite at_neg; [reflexivity|]. apply Z.shiftr_neg. exact H.
Qed.
Lemma dec_fixed k p q : In q (dec k p) -> dec k q = [q].
Proof.
  destruct (Z.ltb_spec p 0) as [N|N].
  - rewrite negative_dec by exact N. intros [<-|[]]. apply negative_dec, N.
  - destruct (points_ok p N k) as (l & E & F & _). unfold dec at 1. rewrite E. intro I. apply fixed_dec. rewrite Forall_forall in F. apply F, I.
Qed.
Lemma dec_class k p q : canonical_class p <> 0 -> In q (dec k p) -> canonical_class q = canonical_class p.
Proof.
  intro C. destruct (Z.ltb_spec p 0) as [N|N]; [rewrite negative_class in C by exact N; congruence|].
  destruct (points_ok p N k) as (l & E & _ & F & _). unfold dec. rewrite E. intro I. specialize (F C). rewrite Forall_forall in F. apply F, I.
Qed.
Lemma at_forall (P : Z -> Prop) l i v : Forall P l -> at_ l i = Some v -> P v.
Proof. unfold at_. destruct (i <? 0); [discriminate|]. intros F E. rewrite Forall_forall in F. apply F. eapply nth_error_In, E. Qed.
Lemma combining_nonneg : Forall (fun c => 0 <= c) combining_index.
Proof. apply Forall_forall. intros x I. assert (F : forallb (fun c => 0 <=? c) combining_index = true) by (vm_cast_no_check (eq_refl true)).
  pose proof (proj1 (forallb_forall _ _) F x I). cbn beta in *. lia. Qed.
Lemma class_nonneg p : 0 <= canonical_class p.
Proof.
  unfold canonical_class, lib_get_canonical, get_canonical. destruct (_ <? _); [lia|].
  destruct (at_ unicode_data1 _); [|cbn; lia]. cbn [obind]. destruct (at_ unicode_data2 _); [|cbn; lia]. cbn [obind].
  destruct (at_ combining_index _) as [c|] eqn:E; [|lia].
  apply (at_forall (fun c => 0 <= c) combining_index _ _) in E; [exact E|]. exact combining_nonneg.
Qed.
Lemma dec_valid k p : 0 <= p -> valid_point p = true -> Forall (fun q => valid_point q = true) (dec k p).
Proof. intros N V. destruct (points_ok p N k) as (l & E & _ & _ & F). unfold dec. rewrite E. exact (F V). Qed.
