From Coq Require Import Sorting.Sorted.
From Verif Require Import Base Bytes MathModel ChainModel CompactModel CompactSpec CompactProofs CompactProps StateModel StateSpec.

(** ** lists *)
Lemma last_n_all {A} n (l : list A) : len l <= n -> last_n n l = l.
Proof. intros H. unfold last_n. unfold len in H. replace (length l - Z.to_nat n)%nat with 0%nat by lia. reflexivity. Qed.
Lemma last_n_0 {A} n (l : list A) : n <= 0 -> last_n n l = [].
Proof. intros H. unfold last_n. apply skipn_all2. lia. Qed.
Lemma len_last_n {A} n (l : list A) : 0 <= n <= len l -> len (last_n n l) = n.
Proof. intros H. unfold len, last_n in *. rewrite skipn_length. lia. Qed.
Lemma last_n_snoc {A} n (l : list A) x : 0 <= n -> last_n n l ++ [x] = last_n (n + 1) (l ++ [x]).
Proof.
  intros H. unfold last_n. rewrite app_length. cbn [length]. rewrite skipn_app.
  replace (length l + 1 - Z.to_nat (n + 1))%nat with (length l - Z.to_nat n)%nat by lia.
  replace (length l - Z.to_nat n - length l)%nat with 0%nat by lia. reflexivity.
Qed.
Lemma tl_skipn {A} k (l : list A) : tl (skipn k l) = skipn (S k) l.
Proof. revert l. induction k as [|k IH]; intros [|a l]; try reflexivity. apply IH. Qed.
Lemma tl_last_n {A} n (l : list A) : 0 < n <= len l -> tl (last_n n l) = last_n (n - 1) l.
Proof. intros H. unfold last_n, len in *. rewrite tl_skipn. f_equal. lia. Qed.
Lemma enqueue_last_n n l x c : 0 <= n <= len l ->
  enqueue (last_n n l) x c = last_n (if c <? n + 1 then n else n + 1) (l ++ [x]).
Proof.
  intros H. unfold enqueue. rewrite last_n_snoc by lia. rewrite len_last_n by (rewrite len_app; change (len [x]) with 1; lia).
  destruct (c <? n + 1); [|reflexivity]. rewrite tl_last_n by (rewrite len_app; change (len [x]) with 1; lia). f_equal. lia.
Qed.
Lemma len_map {A B} (f : A -> B) l : len (map f l) = len l.
Proof. unfold len. rewrite map_length. reflexivity. Qed.
Lemma len_below hs h : 0 <= h <= len hs -> len (below hs h) = h.
Proof. intros H. unfold below, len in *. rewrite firstn_length. lia. Qed.
Lemma below_snoc hs h : 0 <= h < len hs -> below hs (h + 1) = below hs h ++ [at_height hs h].
Proof.
  intros H. unfold below, at_height, len in *. replace (Z.to_nat (h + 1)) with (S (Z.to_nat h)) by lia.
  assert (G : (Z.to_nat h < length hs)%nat) by lia. revert G. generalize (Z.to_nat h). clear H. induction hs as [|a hs IH]; intros n G; cbn [length] in G; [lia|].
  destruct n; [reflexivity|]. cbn [firstn nth app]. f_equal. apply IH. lia.
Qed.
Lemma back_snoc l x : back (l ++ [x]) = Some x.
Proof. induction l as [|a l IH]; [reflexivity|]. cbn [app back]. destruct (l ++ [x]) eqn:E; [destruct l; discriminate|exact IH]. Qed.
Lemma last_n_pos_snoc {A} n (l : list A) x : 1 <= n -> last_n n (l ++ [x]) = last_n (n - 1) l ++ [x].
Proof. intros H. rewrite last_n_snoc by lia. f_equal. lia. Qed.
Lemma back_last_n n l x : 1 <= n -> back (last_n n (l ++ [x])) = Some x.
Proof. intros H. rewrite last_n_pos_snoc by exact H. apply back_snoc. Qed.

(** ** what a state holds, in terms of the chain *)
Definition interval_of (s : settings) := s_interval_seconds s / s_spacing s.
(** how many bits values must be present *)
Definition need (interval b : Z) : Z := if b mod interval =? 0 then Z.min b 1 else Z.min b (b mod interval + 1).
Record Inv (hash : header -> list Z) (hs : list header) (s : settings) (b : Z) (d : data) : Prop := mkInv {
  i_height : d_height d = b;
  i_hash : d_hash d = hash (at_height hs b);
  i_work : d_work d = fold_left (fun w x => (w + work_of (h_bits x)) mod 2 ^ 256) (below hs (b + 1)) 0;
  i_bits : d_bits d = h_bits (at_height hs b);
  i_version : d_version d = h_version (at_height hs b);
  i_time : d_time d = h_time (at_height hs b);
  i_versions : d_versions d = last_n (version_count b (s_forks s) (s_sample s)) (map h_version (below hs b));
  i_times : d_times d = last_n (Z.min b 11) (map h_time (below hs b));
  i_retarget : 1 <= b -> f_retarget (s_forks s) = true -> f_ltc_time_warp_patch (s_forks s) = false ->
    d_retarget d = h_time (at_height hs (b - (if b mod interval_of s =? 0 then interval_of s else b mod interval_of s)));
  i_bitss : exists n, d_bitss d = last_n n (map h_bits (below hs b)) /\ Z.min b 1 <= n <= b /\
    (f_retarget (s_forks s) = true -> f_difficult (s_forks s) = false -> need (interval_of s) b <= n) }.

Lemma interval_pos s : sane s -> 1 <= interval_of s.
Proof. intros (H1 & _). unfold interval_of. apply Z.div_le_lower_bound; lia. Qed.
Lemma vcount_nonneg b f n : 0 <= b -> 0 <= n -> 0 <= version_count b f n <= b.
Proof. intros. unfold version_count. destruct (_ || _); lia. Qed.
Lemma vcount_step b f n : 0 <= b -> 0 <= n ->
  (if version_count (b + 1) f n <? version_count b f n + 1 then version_count b f n else version_count b f n + 1) = version_count (b + 1) f n.
Proof. intros. unfold version_count. destruct (_ || _); [reflexivity|]. destruct (Z.ltb_spec (Z.min (b + 1) n) (Z.min b n + 1)); lia. Qed.
Lemma mod_step b i : 1 <= i -> 0 <= b -> ((b + 1) mod i = b mod i + 1 /\ b mod i + 1 < i) \/ ((b + 1) mod i = 0 /\ b mod i + 1 = i).
Proof.
  intros Hi Hb. pose proof (Z.mod_pos_bound b i ltac:(lia)) as M. pose proof (Z.div_mod b i ltac:(lia)) as D.
  destruct (Z.eq_dec (b mod i + 1) i) as [E|N].
  - right. split; [|exact E]. symmetry. apply (Z.mod_unique_pos _ _ (b / i + 1)); nia.
  - left. split; [|lia]. symmetry. apply (Z.mod_unique_pos _ _ (b / i)); nia.
Qed.
Lemma wrap_u64_small z : 0 <= z < 2 ^ 64 -> wrap u64 z = z.
Proof. intros. apply Z.mod_small. exact H. Qed.

Section Inv.
  Variables (hash : header -> list Z) (hs : list header) (s : settings).
  Hypothesis (Hs : sane s) (Hlen : len hs < 2 ^ 63) (Hh : Forall header_fields_ok hs).

  Lemma at_height_ok h : 0 <= h < len hs -> header_fields_ok (at_height hs h).
  Proof. intros H. unfold at_height. apply Forall_nth; [exact Hh|]. unfold len in H. lia. Qed.

  Lemma inv_history a : 0 <= a < len hs -> Inv hash hs s a (from_history hash hs a s).
  Proof.
    intros Ha. pose proof (interval_pos s Hs) as IP. unfold from_history. constructor; cbn [d_height d_hash d_work d_bits d_version d_time d_versions d_times d_retarget d_bitss]; try reflexivity.
    - unfold get_map. destruct (Z.eqb_spec a 0) as [->|N]; cbn [m_version r_count]; [|reflexivity].
      change (below hs 0) with (@nil header). unfold last_n. cbn [map length]. rewrite !skipn_nil. reflexivity.
    - unfold get_map. destruct (Z.eqb_spec a 0) as [->|N]; cbn [m_timestamp r_count]; [|reflexivity].
      change (below hs 0) with (@nil header). unfold last_n. cbn [map length]. rewrite !skipn_nil. reflexivity.
    - intros A R _. unfold get_map. destruct (Z.eqb_spec a 0); [lia|]. cbn [m_retarget]. unfold retarget_height. rewrite R. cbn [negb].
      unfold is_retarget_height, retarget_distance, retargeting_interval. fold (interval_of s).
      set (x := if a mod interval_of s =? 0 then interval_of s else a mod interval_of s).
      assert (X : 0 <= a - x <= a - 1).
      { subst x. pose proof (Z.mod_pos_bound a (interval_of s) ltac:(lia)) as M. pose proof (Z.mod_le a (interval_of s) ltac:(lia) ltac:(lia)). destruct (Z.eqb_spec (a mod interval_of s) 0); [|lia].
        pose proof (Z.div_mod a (interval_of s) ltac:(lia)). assert (1 <= a / interval_of s) by nia. nia. }
      rewrite wrap_u64_small by lia. unfold unrequested. destruct (Z.eqb_spec (a - x) (2 ^ 64 - 1)); [lia|reflexivity].
    - unfold get_map. destruct (Z.eqb_spec a 0) as [->|N]; cbn [m_bits r_count].
      + exists 0. change (below hs 0) with (@nil header). repeat split; try lia. intros _ _. unfold need. rewrite Z.mod_0_l by lia. cbn. lia.
      + eexists. split; [reflexivity|]. unfold bits_count, is_retarget_height, retarget_distance, retargeting_interval, need. fold (interval_of s).
        pose proof (Z.mod_pos_bound a (interval_of s) ltac:(lia)) as M. pose proof (Z.mod_le a (interval_of s) ltac:(lia) ltac:(lia)).
        destruct (f_difficult (s_forks s)), (f_retarget (s_forks s)), (Z.eqb_spec (a mod interval_of s) 0); cbn [negb]; repeat split; intros; try discriminate; try lia.
  Qed.

  Lemma inv_step b d : 0 <= b -> b + 1 < len hs -> Inv hash hs s b d -> Inv hash hs s (b + 1) (to_header hash d (s_forks s) (at_height hs (b + 1)) s).
  Proof.
    intros Hb Hb1 [I1 I2 I3 I4 I5 I6 I7 I8 I9 (n & I10 & I11 & I12)]. pose proof (interval_pos s Hs) as IP.
    assert (LB : len (below hs b) = b) by (apply len_below; lia).
    unfold to_header, set_header, to_pool. constructor; cbn [d_height d_hash d_work d_bits d_version d_time d_versions d_times d_retarget d_bitss];
      rewrite ?I1; rewrite ?(wrap_u64_small (b + 1)) by lia; try reflexivity.
    - rewrite I3. rewrite (below_snoc hs (b + 1)) by lia. rewrite fold_left_app. cbn [fold_left].
      assert (P : proof0 (h_bits (at_height hs (b + 1))) = work_of (h_bits (at_height hs (b + 1)))).
      { unfold proof0. destruct (at_height_ok (b + 1) ltac:(lia)) as (B & _). destruct (C19_proof_is_expected_work _ B) as [E _]. rewrite E. reflexivity. }
      rewrite P. reflexivity.
    - rewrite I7, I5. rewrite enqueue_last_n by (rewrite len_map, LB; apply vcount_nonneg; [lia|apply Hs]). rewrite vcount_step by (try lia; apply Hs).
      rewrite below_snoc by lia. rewrite map_app. reflexivity.
    - rewrite I8, I6. rewrite enqueue_last_n by (rewrite len_map, LB; lia). rewrite below_snoc by lia. rewrite map_app. cbn [map]. f_equal.
      unfold timestamp_count. destruct (Z.ltb_spec (Z.min (b + 1) 11) (Z.min b 11 + 1)); lia.
    - intros _ R NT. replace (b + 1 - 1) with b by lia. rewrite (wrap_u64_small b) by lia. rewrite R, NT. cbn [andb].
      unfold is_retarget_height, retarget_distance, retargeting_interval. fold (interval_of s).
      destruct (mod_step b (interval_of s) IP Hb) as [[M1 M2]|[M1 M2]]; rewrite M1.
      + destruct (Z.eqb_spec (b mod interval_of s) 0) as [E|N].
        * rewrite I6, E. destruct (Z.eqb_spec (0 + 1) 0); [lia|]. f_equal. f_equal. lia.
        * pose proof (Z.mod_pos_bound b (interval_of s) ltac:(lia)). destruct (Z.eqb_spec (b mod interval_of s + 1) 0); [lia|].
          assert (1 <= b). { destruct (Z.eq_dec b 0) as [->|]; [|lia]. rewrite Z.mod_0_l in N by lia. lia. }
          rewrite I9 by (try assumption; lia). destruct (Z.eqb_spec (b mod interval_of s) 0); [lia|]. f_equal. f_equal. lia.
      + rewrite Z.eqb_refl. destruct (Z.eqb_spec (b mod interval_of s) 0) as [E|N].
        * rewrite I6. f_equal. f_equal. lia.
        * assert (1 <= b). { destruct (Z.eq_dec b 0) as [->|]; [|lia]. rewrite Z.mod_0_l in N by lia. lia. }
          rewrite I9 by (try assumption; lia). destruct (Z.eqb_spec (b mod interval_of s) 0); [lia|]. f_equal. f_equal. lia.
    - rewrite I10, I4. rewrite enqueue_last_n by (rewrite len_map, LB; lia). rewrite below_snoc by lia. rewrite map_app. cbn [map].
      eexists. split; [reflexivity|]. unfold bits_count, is_retarget_height, retarget_distance, retargeting_interval. fold (interval_of s).
      unfold need in *. destruct (mod_step b (interval_of s) IP Hb) as [[M1 M2]|[M1 M2]]; rewrite M1; pose proof (Z.mod_pos_bound b (interval_of s) ltac:(lia)) as MB.
      + destruct (Z.eqb_spec (b mod interval_of s + 1) 0); [lia|].
        destruct (f_difficult (s_forks s)), (f_retarget (s_forks s)); cbn [negb].
        1-2,4: match goal with |- context [?x <? ?y] => destruct (Z.ltb_spec x y) end; split; try lia; intros; discriminate.
        specialize (I12 eq_refl eq_refl). destruct (Z.ltb_spec (Z.min (b + 1) (interval_of s)) (n + 1)); destruct (Z.eqb_spec (b mod interval_of s) 0); split; try lia; intros _ _; lia.
      + change (0 =? 0) with true. cbv iota.
        assert (Q : (if f_difficult (s_forks s) then 1 else if negb (f_retarget (s_forks s)) then 1 else 1) = 1) by (destruct (f_difficult _), (f_retarget _); reflexivity).
        rewrite Q. destruct (Z.ltb_spec 1 (n + 1)); split; try lia; intros _ _; lia.
  Qed.
End Inv.
