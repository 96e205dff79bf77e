(** Block views. *)
From Verif Require Import Base Bytes MathModel MathSpec MathProofs StreamModel StreamSpec StreamProofs StreamProofs2 LineProofs LCalc StateModel OpModel OpProofs OpProofs2 OpProofs3 ChainModel RCalc ChainSpec ChainProofs ChainProofs2 ChainProofs3 ChainProofs4 ChainProps BlockModel BlockSpec BlockProofs3 BlockProps2 ViewModel ViewProofs ViewProofs2 ViewProofs3 ViewProofs4.

Inductive shows_all (w : bool) : bool -> Z -> list tx -> list txview -> Prop :=
  | shows_nil cb p : shows_all w cb p [] []
  | shows_cons cb p t v l vs : viewable t -> shows cb w p t v ->
      shows_all w false (p + len (tx_to_data true t)) l vs -> shows_all w cb p (t :: l) (v :: vs).

Lemma tell_sticky : sticky tell.
Proof. intros s G. unfold tell. first [exact G|split; [exact G|reflexivity]]. Qed.
Lemma view_sticky cb w : sticky (view_tx cb w).
Proof.
  unfold view_tx.
  apply sticky_bind'; [apply tell_sticky|intros st]. apply sticky_bind'; [apply skip_sticky'|intros _]. apply sticky_bind'; [apply read_size_sticky|intros c].
  apply sticky_bind'; [apply (r_mark_sticky c)|intros h]. apply sticky_bind'; [apply (r_count_sticky h c)|intros n].
  apply sticky_bind'; [apply tell_sticky|intros ia]. apply sticky_bind'; [apply read_n_sticky, view_input_sticky|intros sz]. apply sticky_bind'; [apply read_size_sticky|intros o].
  apply sticky_bind'; [apply tell_sticky|intros oa]. apply sticky_bind'; [apply read_n_sticky, view_output_sticky|intros ps]. apply sticky_bind'; [apply tell_sticky|intros wa].
  apply sticky_bind'; [apply (r_wits_sticky h n)|intros _]. apply sticky_bind'; [apply skip_sticky'|intros _]. apply sticky_bind'; [apply tell_sticky|intros e].
  apply sticky_bind'; [apply invalidate_sticky|intros _]. cbv zeta. apply sticky_ret.
Qed.
Lemma views_exact w n : forall s vs s', bytes_ok (rest s) -> 0 <= lim s <= 2 ^ 64 - 1 ->
  read_n n (view_tx false w) s = (vs, s') -> good s' = true ->
  exists l, length l = n /\ step s (concat (map (tx_to_data true) l)) s' /\ shows_all w false (position s) l vs.
Proof.
  induction n as [|n IH]; intros s vs s' Hb Hl E G; cbn [read_n] in E.
  - unfold ret in E. injection E as <- <-. exists []. split; [reflexivity|]. split; [apply step_nil; assumption|constructor].
  - unfold bind at 1 in E. destruct (view_tx false w s) as [v s1] eqn:E1. unfold bind in E. destruct (read_n n (view_tx false w) s1) as [vs' s2] eqn:E2. unfold ret in E. injection E as <- <-.
    pose proof (bad_before _ _ _ _ (read_n_sticky _ n (view_sticky false w)) E2 G) as G1.
    destruct (view_exact false w s v s1 Hb Hl E1 G1) as (t & Vt & S1 & Sh).
    destruct (IH s1 vs' s2 (st_bytes' _ _ _ S1) (st_lim _ _ _ S1) E2 G) as (l & Ll & S2 & Sl).
    exists (t :: l). split; [cbn; lia|]. split; [cbn [map concat]; eapply step_app; eassumption|].
    constructor; [exact Vt|exact Sh|]. rewrite (step_pos _ _ _ S1) in Sl. exact Sl.
Qed.
Lemma views_pass w l : Forall viewable l -> passes (read_n (length l) (view_tx false w)) (concat (map (tx_to_data true) l)).
Proof.
  induction 1 as [|t l Ht _ IH]; cbn [length read_n map concat]; [apply passes_ret|].
  apply passes_any; [apply view_passes, Ht|]. intros v. rewrite <- (app_nil_r (concat _)). apply passes_any; [exact IH|]. intros vs. apply passes_ret.
Qed.

Lemma any_header d : bytes_ok d -> len d = 80 -> exists h, header_ok h /\ header_to_data h = d.
Proof. intros Hb Hl. destruct (C17_any_80_bytes_are_a_header d Hb Hl) as (h & s & _ & _ & _ & E & O). exists h. auto. Qed.

Definition bviewable (b : block) : Prop :=
  header_ok (b_header b) /\ b_txs b <> [] /\ len (b_txs b) <= 1000000 /\ Forall viewable (b_txs b).
Definition txs_at (b : block) : Z := 80 + variable_size (len (b_txs b)).

Lemma block_exact w buffer : bytes_ok buffer -> len buffer < 2 ^ 64 -> block_view w buffer <> [] ->
  exists b after, buffer = block_to_data true b ++ after /\ bviewable b /\ shows_all w true (txs_at b) (b_txs b) (block_view w buffer).
Proof.
  intros Hb Hl Ne. unfold block_view in *. destruct (view_txs w (fresh buffer)) as [vs s'] eqn:E. destruct (good s') eqn:G; [|congruence].
  unfold view_txs in E. unfold bind at 1 in E. destruct (skip_bytes header_size (fresh buffer)) as [u s1] eqn:E1.
  unfold bind at 1 in E. destruct (read_size max_count s1) as [n s2] eqn:E2.
  assert (Hlim : 0 <= lim (fresh buffer) <= 2 ^ 64 - 1) by (cbn [fresh lim]; unfold max_size_t; lia).
  destruct (n =? 0) eqn:En; [unfold ret in E; congruence|]. apply Z.eqb_neq in En.
  unfold bind at 1 in E. destruct (view_tx true w s2) as [v s3] eqn:E3. unfold bind in E. destruct (read_n (Z.to_nat n - 1) (view_tx false w) s3) as [vs' s4] eqn:E4.
  unfold ret in E. injection E as <- <-.
  pose proof (bad_before _ _ _ _ (read_n_sticky _ _ (view_sticky false w)) E4 G) as G3.
  pose proof (bad_before _ _ _ _ (view_sticky true w) E3 G3) as G2. pose proof (bad_before _ _ _ _ (read_size_sticky _) E2 G2) as G1.
  destruct (skip_exactG header_size ltac:(unfold header_size; lia) (fresh buffer) u s1 Hb Hlim E1 G1) as (d & (Ld & Bd) & S1).
  destruct (exactL_step _ _ _ _ _ _ (exact_L _ _ _ (read_size_exact max_count)) (st_bytes' _ _ _ S1) (st_lim _ _ _ S1) E2 G2) as (((Hn & _) & Hm) & S2).
  destruct (view_exact true w s2 v s3 (st_bytes' _ _ _ S2) (st_lim _ _ _ S2) E3 G3) as (t & Vt & S3 & Sh).
  destruct (views_exact w _ s3 vs' s4 (st_bytes' _ _ _ S3) (st_lim _ _ _ S3) E4 G) as (l & Ll & S4 & Sl).
  destruct (any_header d Bd Ld) as (h & Oh & Eh).
  assert (Ln : len (t :: l) = n) by (clear - Ll Hn En; rewrite len_cons; unfold len; lia).
  exists (mkblock h (t :: l)), (rest s4). 
  assert (Pos : position s2 = txs_at (mkblock h (t :: l))).
  { rewrite (step_pos _ _ _ S2), (step_pos _ _ _ S1). cbn [fresh]. unfold position. cbn [past]. change (len (@nil Z)) with 0. rewrite len_write_variable, Ld. unfold txs_at. cbn [b_txs]. rewrite Ln. reflexivity. }
  split; [|split].
  - unfold block_to_data. cbn [b_header b_txs map concat]. rewrite Eh, Ln.
    pose proof (st_rest _ _ _ (step_app _ _ _ _ _ S1 (step_app _ _ _ _ _ S2 (step_app _ _ _ _ _ S3 S4)))) as R. cbn [fresh rest] in R. rewrite R. rewrite <- !app_assoc. reflexivity.
  - split; [exact Oh|]. split; [discriminate|]. cbn [b_txs]. rewrite Ln. split; [exact Hm|]. constructor; [exact Vt|].
    clear - Sl. remember (position s3) as p. remember false as c in Sl. clear - Sl. induction Sl; constructor; auto.
  - cbn [b_txs]. rewrite <- Pos. constructor; [exact Vt|exact Sh|]. rewrite (step_pos _ _ _ S3) in Sl. exact Sl.
Qed.
Lemma block_valid w b after : bviewable b -> len (block_to_data true b) + len after < 2 ^ 64 ->
  block_view w (block_to_data true b ++ after) <> [].
Proof.
  intros (Oh & Ne & Hm & F) Hl. assert (P : passes (view_txs w) (block_to_data true b)).
  { unfold view_txs, block_to_data. eapply passes_bind; [apply skip_parsesL, header_data_len, Oh|].
    eapply passes_bind; [apply parses_L, read_size_parses; [pose proof (len_nonneg (b_txs b)); lia|exact Hm]|].
    destruct (b_txs b) as [|t l] eqn:Eb; [congruence|]. rewrite (proj2 (Z.eqb_neq _ _)) by (rewrite len_cons; pose proof (len_nonneg l); lia).
    inversion F; subst. replace (Z.to_nat (len (t :: l)) - 1)%nat with (length l) by (rewrite len_nat; cbn; lia). cbn [map concat].
    apply passes_any; [apply view_passes; assumption|]. intros v. rewrite <- (app_nil_r (concat _)). apply passes_any; [apply views_pass; assumption|]. intros vs. apply passes_ret. }
  destruct (P (fresh (block_to_data true b ++ after)) after eq_refl eq_refl) as (vs & l' & E & _); [cbn [fresh lim]; unfold max_size_t; lia|].
  unfold block_view. rewrite E. cbn [good]. unfold view_txs in E. unfold bind at 1 in E. destruct (skip_bytes header_size _) as [u s1] eqn:E1.
  unfold bind at 1 in E. destruct (read_size max_count s1) as [n s2] eqn:E2. destruct (n =? 0) eqn:En.
  - exfalso. pose proof (len_nonneg (b_txs b)) as Nb.
    destruct (skip_parsesL (header_to_data (b_header b)) header_size (header_data_len _ Oh) (fresh (block_to_data true b ++ after)) ((write_variable (len (b_txs b)) ++ concat (map (tx_to_data true) (b_txs b))) ++ after) eq_refl) as (l1 & K & L1).
    { cbn [fresh rest]. unfold block_to_data. rewrite <- !app_assoc. reflexivity. }
    { cbn [fresh lim]. unfold block_to_data in Hl. rewrite !len_app in *. unfold max_size_t. clear - Hl. lia. }
    rewrite E1 in K. injection K as _ Es1.
    assert (Hm64 : 0 <= len (b_txs b) < 2 ^ 64) by (clear - Hm Nb; lia).
    destruct (parses_L _ _ _ (read_size_parses max_count (len (b_txs b)) Hm64 Hm) s1 (concat (map (tx_to_data true) (b_txs b)) ++ after)) as (l2 & K2 & _); [rewrite Es1; reflexivity|rewrite Es1; cbn [rest]; symmetry; apply app_assoc| |].
    { rewrite Es1. cbn [lim]. rewrite <- app_assoc, len_app in L1. exact L1. }
    rewrite E2 in K2. injection K2 as -> _. apply Z.eqb_eq, len_zero in En. congruence.
  - unfold bind in E. destruct (view_tx true w s2) as [v s3]. destruct (read_n (Z.to_nat n - 1) (view_tx false w) s3) as [vs' s4]. unfold ret in E. injection E as <- _. discriminate.
Qed.
(** The block shown is the one written. *)
Lemma viewable_parsed t : viewable t -> parsed_ok t.
Proof. intros (W & Ni & _). split; [exact W|left; exact Ni]. Qed.
Lemma bviewable_wf b : bviewable b -> bwf b.
Proof. intros (H1 & _ & H2 & H3). split; [exact H1|]. split; [exact H2|]. eapply Forall_impl; [|exact H3]. apply viewable_parsed. Qed.
Lemma block_unique b after b' after' : bwf b -> bwf b' -> len (block_to_data true b) + len after < 2 ^ 64 ->
  block_to_data true b ++ after = block_to_data true b' ++ after' -> b = b' /\ after = after'.
Proof.
  intros W W' Hl E. destruct (block_parsesL b W (fresh (block_to_data true b ++ after)) after eq_refl eq_refl) as (l1 & E1 & _); [cbn [fresh lim]; unfold max_size_t; lia|].
  assert (Hl' : len (block_to_data true b') + len after' < 2 ^ 64) by (apply (f_equal len) in E; rewrite !len_app in E; lia).
  destruct (block_parsesL b' W' (fresh (block_to_data true b ++ after)) after' eq_refl E) as (l2 & E2 & _); [cbn [fresh lim]; unfold max_size_t; lia|].
  rewrite E1 in E2. apply (f_equal fst) in E2 as F. cbn [fst] in F. apply (f_equal (fun p => rest (snd p))) in E2. cbn [snd rest] in E2. auto.
Qed.
Lemma block_shown w b after : bviewable b -> bytes_ok (block_to_data true b ++ after) -> len (block_to_data true b) + len after < 2 ^ 64 ->
  shows_all w true (txs_at b) (b_txs b) (block_view w (block_to_data true b ++ after)).
Proof.
  intros V Hb Hl. destruct (block_exact w (block_to_data true b ++ after) Hb ltac:(rewrite len_app; lia) (block_valid w b after V Hl)) as (b' & after' & E & V' & Sh).
  destruct (block_unique b after b' after' (bviewable_wf b V) (bviewable_wf b' V') Hl E) as [<- <-]. exact Sh.
Qed.
