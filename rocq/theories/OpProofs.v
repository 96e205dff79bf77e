From Verif Require Import Base Bytes MathModel MathSpec MathProofs StreamModel StreamSpec StreamProofs StreamProofs2 LineProofs OpModel OpSpec.

(** ** Stream lemmas. *)
Definition bounded (s : rd) : Prop := 0 <= lim s <= 2 ^ 64 - 1.
(** The reader sees exactly [l]: by limit, or because the source ends there. *)
Definition sees (s : rd) (l tl : list Z) : Prop :=
  good s = true /\ rest s = l ++ tl /\ lim s <= 2 ^ 64 - 1 /\
  (lim s = len l \/ (tl = [] /\ len l <= lim s)).

Lemma do_rewind_gen a b g L p : 0 <= L -> L + len a <= 2 ^ 64 - 1 -> g = true ->
  do_rewind (len a) (mkrd (rev a ++ p) b g L) = mkrd p (a ++ b) true (L + len a).
Proof.
  intros H0 H1 ->. pose proof (len_nonneg a).
  pose proof (do_rewind_eat a b (mkrd p (a ++ b) true (L + len a)) eq_refl eq_refl) as R.
  unfold eat in R. cbn [past lim rest good] in R. replace (L + len a - len a) with L in R by lia. apply R; lia.
Qed.
Lemma set_position_back a b g L p : 0 <= L -> L + len a <= 2 ^ 64 - 1 ->
  set_position (len p) (mkrd (rev a ++ p) b g L) = mkrd p (a ++ b) true (L + len a).
Proof.
  intros H0 H1. unfold set_position, clear, set_good, position. cbn [past rest good lim].
  rewrite len_app, len_rev. pose proof (len_nonneg a). destruct (Z.eqb_spec (len p) (len a + len p)) as [E|N].
  - assert (a = []) by (apply len_zero; lia). subst a. rewrite len_nil, Z.add_0_r. reflexivity.
  - destruct (Z.gtb_spec (len p) (len a + len p)); [lia|].
    replace (len a + len p - len p) with (len a) by lia. apply do_rewind_gen; try assumption. reflexivity.
Qed.

Lemma sees_exhausted s l tl : sees s l tl -> exhausted s = match l with [] => true | _ => false end.
Proof.
  intros (Hg & Hr & Hm & Hl). unfold exhausted. rewrite Hg, Hr. cbn [negb].
  destruct l as [|b l].
  - destruct Hl as [-> |[-> _]]; [reflexivity|]. destruct (lim s =? 0); reflexivity.
  - rewrite len_cons in *. pose proof (len_nonneg l). destruct (Z.eqb_spec (lim s) 0); [lia|reflexivity].
Qed.
Lemma sees_len s l tl : sees s l tl -> len l <= lim s.
Proof. intros (_ & _ & _ & [->|[_ H]]); lia. Qed.
Lemma sees_eat s a l tl : sees s (a ++ l) tl -> sees (eat a (l ++ tl) s) l tl.
Proof.
  intros (Hg & Hr & Hm & Hl). unfold sees. rewrite eat_good, eat_rest, eat_lim, len_app in *. pose proof (len_nonneg a).
  split; [reflexivity|]. split; [reflexivity|]. split; [lia|]. destruct Hl as [->|[-> Hl]]; [left; lia|right; split; [reflexivity|lia]].
Qed.

Lemma do_skip1 s b l t : good s = true -> rest s = b :: l ++ t -> 1 <= lim s -> do_skip 1 s = eat [b] (l ++ t) s.
Proof.
  intros Hg Hr Hl. pose proof (do_skip_parses [b] s (l ++ t) Hg Hr Hl) as P. exact (f_equal snd P).
Qed.
Lemma count_to_end_sees l : forall s tl n fuel, sees s l tl -> (length l <= fuel)%nat ->
  (fuel = length (rest s)) ->
  count_to_end fuel n s = (n + len l, eat l tl s).
Proof.
  induction l as [|b l IH]; intros s tl n fuel Hs Hf Hr.
  - rewrite len_nil, Z.add_0_r. pose proof (sees_exhausted _ _ _ Hs) as Hx. destruct Hs as (Hg & Hrs & _).
    rewrite eat_nil by assumption. destruct fuel; cbn [count_to_end]; [reflexivity|]. rewrite Hx. reflexivity.
  - destruct fuel; [cbn in Hf; lia|]. cbn [count_to_end]. rewrite (sees_exhausted _ _ _ Hs).
    pose proof (sees_len _ _ _ Hs) as Hl. rewrite len_cons in Hl. pose proof (len_nonneg l).
    pose proof Hs as (Hg & Hrs & _). rewrite (do_skip1 s b l tl) by (assumption || lia).
    assert (Hs' : sees (eat [b] (l ++ tl) s) l tl) by (apply sees_eat; exact Hs).
    rewrite (IH _ tl (n + 1) fuel Hs'); [|cbn in Hf; lia|].
    + rewrite eat_eat, len_cons. f_equal. lia.
    + rewrite eat_rest. rewrite Hrs in Hr. cbn in Hr. lia.
Qed.
Lemma read_all_sees s l tl : sees s l tl -> read_all s = (l, eat l tl s).
Proof.
  intros Hs. unfold read_all. pose proof Hs as (Hg & Hr & Hm & Hl). pose proof (sees_len _ _ _ Hs).
  rewrite (count_to_end_sees l s tl 0 _ Hs); [|rewrite Hr, app_length; lia|reflexivity].
  rewrite Z.add_0_l, do_rewind_eat by assumption. unfold read_bytes. rewrite Hg. cbn [negb].
  destruct (Z.eqb_spec (len l) 0) as [E|N].
  - assert (l = []) by (apply len_zero; assumption). subst. rewrite eat_nil; auto.
  - apply do_read_parses; assumption.
Qed.

(** ** Pure parsing of one operation from the visible bytes. *)
Definition split_op (l : list Z) : option (op * list Z) :=
  match next_op l with
  | Some (c, d, r) => if len d >? max_bytes then None else Some (mkop c d false, r)
  | None => None
  end.

(** Operations that can be written and parsed back. *)
Definition op_wf (o : op) : Prop :=
  underflow o = false /\ byte_ok (code o) /\ bytes_ok (data o) /\
  (if code o =? 76 then len (data o) <= 255
   else if code o =? 77 then len (data o) <= 65535
   else if code o =? 78 then len (data o) <= max_bytes
   else len (data o) = if code o <=? 75 then code o else 0).

Definition prefix_of (c size : Z) : list Z := le_bytes (size_bytes c) size.
Lemma op_to_data_eq o : op_wf o -> op_to_data o = code o :: prefix_of (code o) (len (data o)) ++ data o.
Proof.
  intros (Hu & _ & _ & Hs). unfold op_to_data, prefix_of, size_bytes, push_one_size, push_two_size, push_four_size, write_le. rewrite Hu.
  pose proof (len_nonneg (data o)). unfold max_bytes in Hs.
  destruct (code o =? 76); [|destruct (code o =? 77); [|destruct (code o =? 78); [|reflexivity]]];
   (do 3 f_equal; apply wrap_fits; [reflexivity|unfold fits; cbn; lia]).
Qed.
Lemma size_bytes_cases c : (c = 76 /\ size_bytes c = 1%nat) \/ (c = 77 /\ size_bytes c = 2%nat) \/ (c = 78 /\ size_bytes c = 4%nat) \/
  (c <> 76 /\ c <> 77 /\ c <> 78 /\ size_bytes c = 0%nat).
Proof.
  unfold size_bytes. destruct (Z.eqb_spec c 76); [auto|]. destruct (Z.eqb_spec c 77); [auto|]. destruct (Z.eqb_spec c 78); auto 10.
Qed.

Lemma next_op_complete o r : op_wf o -> next_op (op_to_data o ++ r) = Some (code o, data o, r).
Proof.
  intros H. rewrite op_to_data_eq by assumption. destruct H as (_ & _ & Hd & Hs). cbn [app]. rewrite <- app_assoc.
  pose proof (len_nonneg (data o)) as L0.
  assert (B : 0 <= len (data o) < 256 ^ Z.of_nat (size_bytes (code o)) \/ size_bytes (code o) = 0%nat).
  { destruct (size_bytes_cases (code o)) as [[E ->]|[[E ->]|[[E ->]|(E1 & E2 & E3 & ->)]]]; [left|left|left|right; reflexivity];
     rewrite E in Hs; cbn in Hs |- *; unfold max_bytes in *; lia. }
  unfold next_op. assert (Lp : length (prefix_of (code o) (len (data o))) = size_bytes (code o)).
  { pose proof (len_le_bytes (size_bytes (code o)) (len (data o))) as Q. unfold len in Q at 1. unfold prefix_of. lia. }
  destruct (Nat.ltb_spec (length (prefix_of (code o) (len (data o)) ++ data o ++ r)) (size_bytes (code o))) as [C|C];
   [rewrite app_length in C; lia|].
  assert (Fn : forall X, firstn (size_bytes (code o)) (prefix_of (code o) (len (data o)) ++ X) = prefix_of (code o) (len (data o))).
  { intros X. rewrite <- Lp. rewrite firstn_app, firstn_all, Nat.sub_diag. cbn [firstn]. apply app_nil_r. }
  assert (Sk : forall X, skipn (size_bytes (code o)) (prefix_of (code o) (len (data o)) ++ X) = X).
  { intros X. rewrite <- Lp. rewrite skipn_app, skipn_all, Nat.sub_diag. reflexivity. }
  rewrite Fn, Sk.
  assert (Es : match size_bytes (code o) with O => if code o <=? 75 then code o else 0
     | S _ => le_value (prefix_of (code o) (len (data o))) end = len (data o)).
  { unfold prefix_of. destruct B as [B|B].
    - rewrite le_value_bytes, Z.mod_small by assumption.
      destruct (size_bytes_cases (code o)) as [[E ->]|[[E ->]|[[E ->]|(E1 & E2 & E3 & E4)]]]; try reflexivity.
      rewrite E4. rewrite E4 in B. cbn in B.
      destruct (Z.eqb_spec (code o) 76); [lia|]. destruct (Z.eqb_spec (code o) 77); [lia|]. destruct (Z.eqb_spec (code o) 78); [lia|]. lia.
    - rewrite B. destruct (size_bytes_cases (code o)) as [[E E']|[[E E']|[[E E']|(E1 & E2 & E3 & E4)]]]; try congruence.
      destruct (Z.eqb_spec (code o) 76); [lia|]. destruct (Z.eqb_spec (code o) 77); [lia|]. destruct (Z.eqb_spec (code o) 78); [lia|]. lia. }
  rewrite Es. rewrite len_app. pose proof (len_nonneg r).
  destruct (Z.ltb_spec (len (data o) + len r) (len (data o))); [lia|].
  rewrite firstn_len_app, skipn_len_app by reflexivity. reflexivity.
Qed.

Lemma next_op_sound l c d r : bytes_ok l -> next_op l = Some (c, d, r) ->
  byte_ok c /\ bytes_ok d /\ bytes_ok r /\ l = c :: prefix_of c (len d) ++ d ++ r /\
  (if c =? 76 then len d <= 255 else if c =? 77 then len d <= 65535
   else if c =? 78 then len d <= 4294967295 else len d = if c <=? 75 then c else 0).
Proof.
  intros Hok. destruct l as [|b t]; [discriminate|]. inversion Hok as [|? ? Hb Ht]; subst. unfold next_op.
  destruct (Nat.ltb_spec (length t) (size_bytes b)) as [|C]; [discriminate|].
  set (size := match size_bytes b with O => _ | S _ => _ end).
  destruct (Z.ltb_spec (len (skipn (size_bytes b) t)) size) as [|C2]; [discriminate|]. intros E. inversion E; subst c d r. clear E.
  assert (Hf : bytes_ok (firstn (size_bytes b) t)) by (apply bytes_ok_firstn; assumption).
  assert (Hk : bytes_ok (skipn (size_bytes b) t)) by (apply bytes_ok_skipn; assumption).
  pose proof (le_value_range _ Hf) as R.
  assert (Lf : len (firstn (size_bytes b) t) = Z.of_nat (size_bytes b)) by (unfold len; rewrite firstn_length; lia).
  rewrite Lf in R.
  assert (S0 : 0 <= size).
  { unfold size. destruct (size_bytes b); [destruct (Z.leb_spec b 75)|]; unfold byte_ok in Hb; lia. }
  destruct (list_split_len (skipn (size_bytes b) t) size (conj S0 C2)) as [Sp Ls].
  split; [assumption|]. split; [apply bytes_ok_firstn; assumption|]. split; [apply bytes_ok_skipn; assumption|].
  rewrite Ls, <- Sp.
  split.
  - f_equal. unfold prefix_of, size. destruct (size_bytes_cases b) as [[-> E]|[[-> E]|[[-> E]|(E1 & E2 & E3 & E)]]]; rewrite E in *;
     [| | |cbn [le_bytes skipn app]; reflexivity];
     (match goal with |- t = le_bytes ?n _ ++ _ => rewrite <- (firstn_skipn n t) at 1; f_equal;
        pose proof (le_bytes_value (firstn n t) Hf) as Q; rewrite firstn_length in Q;
        replace (Nat.min n (length t)) with n in Q by lia; symmetry; exact Q end).
  - unfold size. destruct (size_bytes_cases b) as [[-> E]|[[-> E]|[[-> E]|(E1 & E2 & E3 & E)]]]; rewrite E in *; cbn in R |- *; try lia.
    destruct (Z.eqb_spec b 76); [lia|]. destruct (Z.eqb_spec b 77); [lia|]. destruct (Z.eqb_spec b 78); [lia|]. reflexivity.
Qed.
Lemma split_op_sound l o r : bytes_ok l -> split_op l = Some (o, r) ->
  op_wf o /\ bytes_ok r /\ l = op_to_data o ++ r.
Proof.
  intros Hok. unfold split_op. destruct (next_op l) as [[[c d] r']|] eqn:E; [|discriminate].
  destruct (Z.gtb_spec (len d) max_bytes); [discriminate|]. intros I. inversion I; subst.
  destruct (next_op_sound l c d r Hok E) as (Hc & Hd & Hr & El & Hs).
  assert (W : op_wf (mkop c d false)).
  { split; [reflexivity|]. split; [exact Hc|]. split; [exact Hd|]. cbn [code data].
    destruct (c =? 76); [exact Hs|]. destruct (c =? 77); [exact Hs|]. destruct (c =? 78); [lia|exact Hs]. }
  split; [exact W|]. split; [exact Hr|]. rewrite op_to_data_eq by exact W. cbn [code data app]. rewrite <- app_assoc. exact El.
Qed.
Lemma split_op_complete o r : op_wf o -> split_op (op_to_data o ++ r) = Some (o, r).
Proof.
  intros H. unfold split_op. rewrite next_op_complete by assumption. destruct H as (Hu & Hc & Hd & Hs).
  assert (len (data o) <= max_bytes).
  { unfold max_bytes, byte_ok in *. destruct (code o =? 76); [lia|]. destruct (code o =? 77); [lia|]. destruct (code o =? 78); [lia|].
    destruct (Z.leb_spec (code o) 75); lia. }
  destruct (Z.gtb_spec (len (data o)) max_bytes); [lia|]. destruct o; cbn in *; subst. reflexivity.
Qed.
