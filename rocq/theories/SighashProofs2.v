(** The messages written are those of the specification. *)
From Verif Require Import Base Bytes BitProofs MathModel ShaModel ShaSpec AccModel ShaProps KdfSpec KdfModel KdfProofs KdfProps.
From Verif Require Import StreamModel StreamProofs OpModel OpProofs3 ChainModel ChainSpec ChainProofs ChainProps InterpEnv SighashSpec SighashModel SighashProofs.

Lemma land_31 f : Z.land f 31 = f mod 32.
Proof. change 31 with (Z.ones 5). rewrite Z.land_ones by lia. reflexivity. Qed.
Lemma mask_ok f : is_single (mask_sighash f) = selects f SINGLE /\ is_all (mask_sighash f) = negb (selects f SINGLE) && negb (selects f NONE).
Proof.
  unfold mask_sighash, selects, SINGLE, NONE. rewrite land_31. destruct (Z.eqb_spec (f mod 32) 3) as [E|E]; [rewrite E; split; reflexivity|].
  destruct (Z.eqb_spec (f mod 32) 2) as [E2|E2]; split; reflexivity.
Qed.
Lemma anyone_ok f : byte_ok f -> is_anyone_can_pay f = anyone_can_pay f.
Proof.
  intros H. unfold byte_ok in H. unfold is_anyone_can_pay, anyone_can_pay. destruct (Z.leb_spec 128 f) as [L|L].
  - rewrite Z.testbit_true by lia. replace (f / 2 ^ 7) with 1; [reflexivity|]. change (2 ^ 7) with 128. apply Z.div_unique with (f - 128); lia.
  - rewrite Z.testbit_false by lia. replace (f / 2 ^ 7) with 0; [reflexivity|]. change (2 ^ 7) with 128. symmetry. apply Z.div_small. lia.
Qed.
Lemma len_flat {A} (f : A -> list Z) K l : (forall a, In a l -> len (f a) <= K) -> len (flat_map f l) <= K * len l.
Proof.
  induction l as [|a l IH]; intros Hl; cbn [flat_map]; [change (len (@nil Z)) with 0; change (len (@nil A)) with 0; lia|].
  rewrite len_app, len_cons. pose proof (Hl a (or_introl eq_refl)). specialize (IH (fun x Hx => Hl x (or_intror Hx))). lia.
Qed.
Lemma concat_flat {A} (f : A -> list (list Z)) l : concat (flat_map f l) = flat_map (fun a => concat (f a)) l.
Proof. induction l as [|a l IH]; [reflexivity|]. cbn [flat_map]. rewrite concat_app, IH. reflexivity. Qed.
Lemma flat_concat {A} (f : A -> list Z) l : concat (map f l) = flat_map f l.
Proof. symmetry. apply flat_map_concat_map. Qed.
Lemma data_wire s k : len (ops_to_data (skipn k s)) < 2 ^ 64 -> script_data s k = var_bytes (script_bytes (skipn k s)).
Proof.
  intros F. unfold script_data, script_to_data, var_bytes, script_bytes, script_size, script_to_data. cbn [app]. rewrite ops_size_len. rewrite compact; [reflexivity|].
  split; [apply len_nonneg|exact F].
Qed.
Lemma len_le k v : len (le_bytes k v) = Z.of_nat k.
Proof. unfold len. rewrite le_bytes_length. reflexivity. Qed.
Lemma len_compact n : len (compact_size n) <= 9.
Proof. unfold compact_size. destruct (n <=? 252); [cbn; lia|]. destruct (n <=? 65535); [rewrite len_cons, len_le; lia|]. destruct (n <=? 4294967295); rewrite len_cons, len_le; lia. Qed.

(** The input signed and its neighbours. *)
Section T.
Variables (t : tx) (n : nat) (i : input) (before after : list input).
Hypothesis T : tx_ok t.
Hypothesis E : tx_inputs t = before ++ i :: after.
Hypothesis N : length before = n.
Lemma at_n : nth_error (tx_inputs t) n = Some i.
Proof. rewrite E, nth_error_app2, N, Nat.sub_diag by lia. reflexivity. Qed.
Lemma n_small : Z.of_nat n < len (tx_inputs t) <= 1000000.
Proof. destruct T as (_ & _ & L & _). split; [|exact L]. rewrite E, len_app, len_cons. unfold len. rewrite N. lia. Qed.
Lemma index_n : input_index n = Z.of_nat n.
Proof. pose proof n_small. unfold input_index. apply wrap_fits; [reflexivity|]. unfold fits. cbn. lia. Qed.

Lemma split_map {B} (f : input -> B) : firstn n (map f (tx_inputs t)) = map f before /\
  firstn 1 (skipn n (map f (tx_inputs t))) = [f i] /\ skipn (S n) (map f (tx_inputs t)) = map f after.
Proof.
  rewrite E, map_app. cbn [map]. assert (L : length (map f before) = n) by (rewrite map_length; exact N).
  replace n with (length (map f before) + 0)%nat at 1 by lia. rewrite firstn_app_2. cbn [firstn]. rewrite app_nil_r. split; [reflexivity|].
  split.
  - rewrite skipn_app, <- L, Nat.sub_diag, skipn_all. reflexivity.
  - rewrite skipn_app, L. rewrite skipn_all2 by lia. replace (S n - n)%nat with 1%nat by lia. reflexivity.
Qed.
Lemma split_list {B} (a : list B) x c : length a = n -> firstn n (a ++ x :: c) = a /\ firstn 1 (skipn n (a ++ x :: c)) = [x] /\ skipn (S n) (a ++ x :: c) = c.
Proof.
  intros L. replace n with (length a + 0)%nat at 1 by lia. rewrite firstn_app_2. cbn [firstn]. rewrite app_nil_r. split; [reflexivity|].
  split.
  - rewrite skipn_app, <- L, Nat.sub_diag, skipn_all. reflexivity.
  - rewrite skipn_app, L. rewrite skipn_all2 by lia. replace (S n - n)%nat with 1%nat by lia. reflexivity.
Qed.
Definition neighbour (type : Z) (j : input) : tin :=
  mktin (point_bytes j) [] (if selects type NONE || selects type SINGLE then 0 else in_sequence j).
Lemma sign_inputs_eq code type : sign_inputs t n code type =
  (if anyone_can_pay type then [] else map (neighbour type) before) ++ [mktin (point_bytes i) code (in_sequence i)] ++
  (if anyone_can_pay type then [] else map (neighbour type) after).
Proof.
  unfold sign_inputs. cbv zeta. destruct (split_map plain_input) as (E1 & E2 & E3). rewrite E1, E2, E3. cbn [map].
  set (ins := map plain_input before ++ [mktin (t_point (plain_input i)) code (t_sequence (plain_input i))] ++ map plain_input after).
  assert (Q : (if selects type NONE || selects type SINGLE then others n (fun j => mktin (t_point j) (t_script j) 0) ins else ins) =
     map (neighbour type) before ++ mktin (point_bytes i) code (in_sequence i) :: map (neighbour type) after).
  { unfold ins, neighbour. destruct (selects type NONE || selects type SINGLE); [|cbn [app]; reflexivity].
    unfold others. cbn [app]. destruct (split_list (map plain_input before) (mktin (t_point (plain_input i)) code (t_sequence (plain_input i))) (map plain_input after)) as (F1 & F2 & F3); [rewrite map_length; exact N|].
    rewrite F1, F2, F3. cbn [app]. rewrite !map_map. reflexivity. }
  rewrite Q. destruct (anyone_can_pay type); cbn [app]; [|reflexivity].
  destruct (split_list (map (neighbour type) before) (mktin (point_bytes i) code (in_sequence i)) (map (neighbour type) after)) as (_ & F2 & _); [rewrite map_length; exact N|]. exact F2.
Qed.
Lemma sign_inputs_len code type : len (sign_inputs t n code type) = if anyone_can_pay type then 1 else len (tx_inputs t).
Proof.
  rewrite sign_inputs_eq, E. destruct (anyone_can_pay type); [reflexivity|]. unfold len. rewrite !app_length, !map_length. cbn [length app]. lia.
Qed.
Definition neighbour_sequence (type : Z) (j : input) : list Z :=
  write_le 4 (if selects type NONE || selects type SINGLE then 0 else in_sequence j).
Lemma inputs_written m s k type : body m = t -> byte_ok type -> len (ops_to_data (skipn k s)) < 2 ^ 64 ->
  forall sequence, (forall j, sequence j = neighbour_sequence type j) ->
  concat (write_inputs m n i (script_data s k) type sequence) = counted tin_bytes (sign_inputs t n (script_bytes (skipn k s)) type).
Proof.
  intros Em By Fs sequence Hq. unfold write_inputs, counted. cbv zeta. unfold inputs. rewrite Em, anyone_ok by exact By. rewrite sign_inputs_len.
  rewrite compact by (pose proof n_small; destruct (anyone_can_pay type); lia). rewrite flat_concat, sign_inputs_eq.
  cbn [app concat]. rewrite !concat_app. f_equal. rewrite !flat_map_app. cbn [flat_map concat].
  assert (En : empty_script = var_bytes []) by reflexivity.
  assert (G : forall l, concat (flat_map (fun j => [point_data j; empty_script; sequence j]) l) = flat_map tin_bytes (map (neighbour type) l)).
  { intros l. rewrite concat_flat. induction l as [|j l IH]; [reflexivity|]. cbn [flat_map map]. rewrite IH. cbn [concat]. rewrite app_nil_r, Hq, En. reflexivity. }
  rewrite E. destruct (split_list before i after N) as (F1 & _ & F3). rewrite F1, F3.
  destruct (anyone_can_pay type); cbn [concat flat_map app map]; rewrite ?G; rewrite data_wire by exact Fs;
    unfold tin_bytes, point_data, point_bytes, write_le; cbn [t_point t_script t_sequence]; unfold u32_bytes; rewrite ?app_nil_r, <- ?app_assoc; reflexivity.
Qed.

Lemma outputs_written : forall o, In o (tx_outputs t) -> output_to_data o = wire_output o.
Proof.
  intros o Ho. apply output_wire. destruct T as (_ & _ & _ & _ & _ & F & _). rewrite Forall_forall in F. destruct (F o Ho) as [A B]. split; [exact A|apply script_ok_swf; exact B].
Qed.
Lemma all_written : map output_to_data (tx_outputs t) = map wire_output (tx_outputs t).
Proof. apply map_ext_in. exact outputs_written. Qed.
Lemma sign_outputs_all type : selects type NONE = false -> selects type SINGLE = false ->
  counted tout_bytes (sign_outputs t n type) = compact_size (len (tx_outputs t)) ++ concat (map wire_output (tx_outputs t)).
Proof.
  intros E1 E2. unfold sign_outputs, counted. cbv zeta. rewrite E1, E2. unfold len at 1. rewrite map_length. f_equal. rewrite map_map. reflexivity.
Qed.
Lemma null_written : null_output = tout_bytes null_tout. Proof. reflexivity. Qed.
Lemma sign_outputs_single type o : selects type SINGLE = true -> nth_error (tx_outputs t) n = Some o ->
  counted tout_bytes (sign_outputs t n type) = compact_size (Z.of_nat n + 1) ++ concat (repeat null_output n) ++ wire_output o.
Proof.
  intros E1 Eo. assert (E2 : selects type NONE = false) by (unfold selects, NONE, SINGLE in *; lia).
  unfold sign_outputs, counted. cbv zeta. rewrite E1, E2.
  destruct (nth_error_split _ _ Eo) as (pre & post & Es & Lp). rewrite Es, map_app. cbn [map].
  destruct (split_list (map plain_output pre) (plain_output o) (map plain_output post)) as (F1 & F2 & _); [rewrite map_length; exact Lp|].
  rewrite F1, F2, map_map. rewrite map_app, concat_app, map_map. cbn [map concat]. rewrite app_nil_r.
  f_equal; [f_equal; unfold len; rewrite app_length, map_length; cbn [length]; lia|]. f_equal.
  rewrite <- Lp. rewrite null_written. clear. induction pre as [|p pre IH]; [reflexivity|]. cbn [length map repeat concat]. rewrite IH. reflexivity.
Qed.
(** Sizes. *)
Hypothesis W : len (wire_legacy t) < 2 ^ 56.
Lemma outs_len : len (flat_map wire_output (tx_outputs t)) < 2 ^ 56.
Proof. clear N.
  unfold wire_legacy, counted in W. rewrite !len_app in W. rewrite <- flat_concat.
  repeat match type of W with context [len ?l] => lazymatch goal with H : 0 <= len l |- _ => fail | _ => pose proof (len_nonneg l) end end. lia.
Qed.
Lemma out_len o : In o (tx_outputs t) -> len (wire_output o) < 2 ^ 56.
Proof. clear N.
  intros Ho. pose proof outs_len as L. apply in_split in Ho. destruct Ho as (a & b & Es). rewrite Es, flat_map_app in L. cbn [flat_map] in L. rewrite !len_app in L.
  pose proof (len_nonneg (flat_map wire_output a)). pose proof (len_nonneg (flat_map wire_output b)). lia.
Qed.
Lemma point_len j : In j (tx_inputs t) -> len (point_bytes j) = 36.
Proof. clear N.
  intros Hj. destruct T as (_ & _ & _ & F & _). rewrite Forall_forall in F. destruct (F j Hj) as ((L & _) & _). unfold point_bytes, u32_bytes. rewrite len_app, len_le. unfold len. rewrite L. reflexivity.
Qed.
Lemma points_len : len (all_points t) <= 36 * len (tx_inputs t).
Proof. clear N. apply len_flat. intros j Hj. rewrite point_len by exact Hj. lia. Qed.
Lemma sequences_len : len (all_sequences t) <= 4 * len (tx_inputs t).
Proof. clear N. apply len_flat. intros j Hj. unfold u32_bytes. rewrite len_le. lia. Qed.
Lemma var_len b : len (var_bytes b) <= 9 + len b.
Proof. clear N. unfold var_bytes. rewrite len_app. pose proof (len_compact (len b)). lia. Qed.
Lemma ins_len code type : len code < 2 ^ 56 -> len (counted tin_bytes (sign_inputs t n code type)) < 2 ^ 57.
Proof.
  intros C. unfold counted. rewrite len_app, flat_concat.
  pose proof (len_compact (len (sign_inputs t n code type))) as L1. set (z := len (compact_size (len (sign_inputs t n code type)))) in *. clearbody z.
  rewrite sign_inputs_eq, !flat_map_app, !len_app. cbn [flat_map]. rewrite app_nil_r.
  assert (G : forall l, (forall j, In j l -> In j (tx_inputs t)) -> len (flat_map tin_bytes (map (neighbour type) l)) <= 41 * len l).
  { intros l Hl. rewrite flat_map_concat_map, map_map, <- flat_map_concat_map. apply len_flat. intros j Hj. unfold tin_bytes. cbn [neighbour t_point t_script t_sequence].
    rewrite !len_app, point_len by (apply Hl; exact Hj). unfold u32_bytes. rewrite len_le. cbn. lia. }
  assert (L2 : len (tin_bytes (mktin (point_bytes i) code (in_sequence i))) <= 49 + len code).
  { unfold tin_bytes. cbn [t_point t_script t_sequence]. rewrite !len_app, point_len by (rewrite E; apply in_elt). unfold u32_bytes. rewrite len_le. pose proof (var_len code). lia. }
  pose proof n_small as Ns. assert (Lb : len (tx_inputs t) = len before + 1 + len after) by (rewrite E, len_app, len_cons; lia).
  pose proof (G before ltac:(intros j Hj; rewrite E; apply in_or_app; left; exact Hj)) as G1.
  pose proof (G after ltac:(intros j Hj; rewrite E; apply in_or_app; right; right; exact Hj)) as G2.
  pose proof (len_nonneg before). pose proof (len_nonneg after).
  change (2 ^ 56) with 72057594037927936 in *. change (2 ^ 57) with 144115188075855872.
  destruct (anyone_can_pay type); cbn [flat_map]; change (len (@nil Z)) with 0; lia.
Qed.
Lemma outs_counted_len type : len (counted tout_bytes (sign_outputs t n type)) < 2 ^ 57.
Proof.
  unfold counted. rewrite len_app. pose proof (len_compact (len (sign_outputs t n type))). pose proof outs_len as Lo.
  assert (L : len (concat (map tout_bytes (sign_outputs t n type))) <= 2 ^ 56 + 9 * 1000000); [|change (2 ^ 56) with 72057594037927936 in *; change (2 ^ 57) with 144115188075855872; lia].
  change (2 ^ 56) with 72057594037927936 in *.
  unfold sign_outputs. cbv zeta. destruct (selects type NONE); [cbn; lia|].
  assert (Q : concat (map tout_bytes (map plain_output (tx_outputs t))) = flat_map wire_output (tx_outputs t)) by (rewrite flat_concat, flat_map_concat_map, map_map, <- flat_map_concat_map; reflexivity).
  destruct (selects type SINGLE); [|rewrite Q; lia].
  rewrite map_app, concat_app, len_app, map_map.
  assert (A : len (concat (map (fun _ : tout => tout_bytes null_tout) (firstn n (map plain_output (tx_outputs t))))) <= 9 * Z.of_nat n).
  { rewrite flat_concat. eapply Z.le_trans; [apply (len_flat _ 9)|]; [intros a _; vm_compute; discriminate|]. unfold len. rewrite firstn_length. lia. }
  assert (B : len (concat (map tout_bytes (firstn 1 (skipn n (map plain_output (tx_outputs t)))))) <= 72057594037927936).
  { rewrite skipn_map. destruct (skipn n (tx_outputs t)) as [|o r] eqn:Eo; [cbn; lia|]. cbn [map firstn concat]. rewrite app_nil_r.
    change (tout_bytes (plain_output o)) with (wire_output o). apply Z.lt_le_incl. apply (out_len o). rewrite <- (firstn_skipn n (tx_outputs t)), Eo. apply in_elt. }
  pose proof n_small. lia.
Qed.
Lemma message_len code type : len code < 2 ^ 56 -> len (legacy_message t n code type) < 2 ^ 59.
Proof.
  intros C. unfold legacy_message, u32_bytes. rewrite !len_app, !len_le. pose proof (ins_len code type C). pose proof (outs_counted_len type).
  change (2 ^ 57) with 144115188075855872 in *. change (2 ^ 59) with 576460752303423488. lia.
Qed.
End T.
