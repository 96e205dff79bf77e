From Verif Require Import Base Bytes MathModel MathSpec MathProofs StreamModel StreamSpec StreamProofs StreamProofs2 LineProofs OpModel OpSpec OpProofs OpProofs2 LCalc OpProofs3.

Ltac cmp := repeat match goal with
  | |- context[if ?a <=? ?b then _ else _] => destruct (Z.leb_spec a b)
  | |- context[if ?a =? ?b then _ else _] => destruct (Z.eqb_spec a b)
  | |- context[?a <=? ?b] => destruct (Z.leb_spec a b)
  | |- context[?a =? ?b] => destruct (Z.eqb_spec a b)
  | |- context[?a <? ?b] => destruct (Z.ltb_spec a b)
  | |- context[?a >? ?b] => destruct (Z.gtb_spec a b) end.

(** * C14 Script and operation codec. *)

(** Every byte string is a script: parsing never fails, consumes everything and
    serializes back to the same bytes with the reported size. *)
Theorem C14_every_byte_string_round_trips l :
  bytes_ok l -> len l < 2 ^ 63 ->
  exists ops s, script_from_data false (fresh l) = (ops, s) /\ valid s = true /\ rest s = [] /\ position s = len l /\
    script_to_data false ops = l /\ script_size false ops = len l.
Proof.
  intros Hok Hl. destruct (script_plain (fresh l) l eq_refl eq_refl Hok) as [L E].
  { cbn [lim fresh]. unfold max_size_t. lia. }
  exists (parse_script l). eexists. split; [exact E|]. split; [reflexivity|]. split; [reflexivity|].
  unfold position, script_to_data, script_size. cbn [past fresh app]. rewrite app_nil_r, len_rev, ops_size_len, parse_script_data by exact Hok. auto.
Qed.

(** The operations obtained are those of the reference byte format, up to the
    block size limit; what remains is one truncated tail. *)
Theorem C14_parse_is_reference_scan l : bytes_ok l -> len l <= 4000000 ->
  fst (script_from_data false (fresh l)) =
    (let (ops, tail) := script_scan l in
     map (fun p => mkop (fst p) (snd p) false) ops ++
     match tail with [] => [] | _ => [mkop any_invalid tail true] end).
Proof.
  intros Hok Hl. destruct (script_plain (fresh l) l eq_refl eq_refl Hok) as [L E].
  { cbn [lim fresh]. unfold max_size_t. lia. }
  rewrite E. apply parse_script_scan; assumption.
Qed.

Lemma complete_wf c d : complete_op c d -> len d <= max_bytes -> op_wf (mkop c d false).
Proof.
  intros (Hc & Hd & H1 & H2 & H3 & H4 & H5) Hm. split; [reflexivity|]. split; [exact Hc|]. split; [exact Hd|]. cbn [code data].
  destruct (Z.eqb_spec c 76); [auto|]. destruct (Z.eqb_spec c 77); [auto|]. destruct (Z.eqb_spec c 78); [auto|].
  destruct (Z.leb_spec c 75); [auto|]. rewrite H5 by lia. reflexivity.
Qed.
Lemma complete_bytes c d : complete_op c d -> op_to_data (mkop c d false) = complete_op_bytes c d.
Proof.
  intros (Hc & Hd & H1 & H2 & H3 & H4 & H5). pose proof (len_nonneg d). unfold op_to_data, complete_op_bytes, size_bytes, push_one_size, push_two_size, push_four_size, write_le. cbn [underflow code data].
  destruct (Z.eqb_spec c 76); [|destruct (Z.eqb_spec c 77); [|destruct (Z.eqb_spec c 78); [|reflexivity]]];
   (do 3 f_equal; apply wrap_fits; [reflexivity|unfold fits; cbn; lia]).
Qed.

(** Any list of complete operations serializes to the reference bytes and parses
    back to itself. *)
Theorem C14_complete_operations_round_trip (ops : list (Z * list Z)) :
  Forall (fun p => complete_op (fst p) (snd p) /\ len (snd p) <= 4000000) ops ->
  len (concat (map (fun p => complete_op_bytes (fst p) (snd p)) ops)) < 2 ^ 63 ->
  let script := map (fun p => mkop (fst p) (snd p) false) ops in
  script_to_data false script = concat (map (fun p => complete_op_bytes (fst p) (snd p)) ops) /\
  fst (script_from_data false (fresh (script_to_data false script))) = script.
Proof.
  intros H Hl script.
  assert (E : ops_to_data script = concat (map (fun p => complete_op_bytes (fst p) (snd p)) ops)).
  { unfold ops_to_data, script. clear Hl script. induction H as [|p ops [Hp _] _ IH]; [reflexivity|]. cbn [map concat]. rewrite IH, complete_bytes by exact Hp. reflexivity. }
  assert (W : script_wf script).
  { unfold script. clear E Hl script. induction H as [|p ops [Hp Hm] _ IH]; [constructor|]. cbn [map]. constructor 3; [apply complete_wf; assumption|exact IH]. }
  unfold script_to_data. cbn [app]. rewrite E. split; [reflexivity|]. rewrite <- E.
  destruct (script_plain (fresh (ops_to_data script)) (ops_to_data script) eq_refl eq_refl (script_wf_ok _ W)) as [L P].
  { cbn [lim fresh]. unfold max_size_t. rewrite E. lia. }
  rewrite P. apply parse_of_data. exact W.
Qed.

(** Length-prefixed scripts: inside a longer stream the reader takes exactly the
    declared bytes and leaves the rest. *)
Theorem C14_prefixed_script_in_stream p l t :
  bytes_ok l -> len p + len l + len t < 2 ^ 63 ->
  let ops := fst (script_from_data false (fresh l)) in
  let source := write_variable (len l) ++ l ++ t in
  exists s, script_from_data true (mkrd p source true max_size_t) = (ops, s) /\
    valid s = true /\ rest s = t /\ position s = len p + variable_size (len l) + len l /\
    script_to_data true ops = write_variable (len l) ++ l /\ script_size true ops = variable_size (len l) + len l.
Proof.
  intros Hok Hl ops source. pose proof (len_nonneg p). pose proof (len_nonneg t). pose proof (len_nonneg l).
  destruct (script_plain (fresh l) l eq_refl eq_refl Hok) as [L E]; [cbn [lim fresh]; unfold max_size_t; lia|].
  assert (Eo : ops = parse_script l) by (unfold ops; rewrite E; reflexivity).
  assert (Pd : ops_to_data ops = l) by (rewrite Eo; apply parse_script_data; exact Hok).
  assert (Q : script_to_data true ops = write_variable (len l) ++ l).
  { unfold script_to_data, script_size. rewrite ops_size_len, Pd. reflexivity. }
  assert (W : script_wf ops) by (rewrite Eo; apply parse_script_wf; exact Hok).
  assert (V : 1 <= variable_size (len l) <= 9) by (unfold variable_size; repeat match goal with |- context[if ?b then _ else _] => destruct b end; lia).
  destruct (script_parsesL ops W (mkrd p source true max_size_t) t eq_refl) as (l' & E' & _).
  { cbn [rest]. rewrite Q. unfold source. rewrite app_assoc. reflexivity. }
  { rewrite Q, len_app, len_write_variable. cbn [lim]. unfold max_size_t. lia. }
  eexists. split; [exact E'|]. split; [reflexivity|]. split; [reflexivity|]. split.
  { unfold position. cbn [past]. rewrite len_app, len_rev, Q, len_app, len_write_variable. lia. }
  split; [exact Q|]. unfold script_size. rewrite ops_size_len, Pd. rewrite ceilinged_add_clamps;
   [unfold clamp; cbn [imin imax u64 sg bits]; lia|cbn; lia|unfold fits; cbn; lia|unfold fits; cbn [imin imax u64 sg bits]; lia].
Qed.

(** Conversely, whatever a successful prefixed read returns is exactly what was
    in the stream: the canonical length, that many bytes and the remainder. *)
Theorem C14_prefixed_read_is_exact s ops s' :
  bytes_ok (rest s) -> 0 <= lim s <= max_size_t -> script_from_data true s = (ops, s') -> valid s' = true ->
  valid s = true /\ rest s = script_to_data true ops ++ rest s' /\
  script_to_data true ops = write_variable (len (script_to_data false ops)) ++ script_to_data false ops /\
  position s' = position s + len (script_to_data true ops).
Proof.
  intros Hb HL E G. destruct (script_exactL s ops s' Hb HL E G) as (Hg & _ & t & Hr & Hr' & Hp & _).
  split; [exact Hg|]. split; [rewrite Hr'; exact Hr|]. split.
  - unfold script_to_data, script_size. rewrite ops_size_len. reflexivity.
  - unfold position. rewrite Hp, len_app, len_rev. lia.
Qed.
(** A prefix that promises more bytes than the stream holds invalidates it. *)
Theorem C14_truncated_prefixed_script_fails n l : 0 <= n < 2 ^ 64 -> bytes_ok l -> len l < n ->
  valid (snd (script_from_data true (fresh (write_variable n ++ l)))) = false.
Proof.
  intros Hn Hok Hl. destruct (script_from_data true (fresh (write_variable n ++ l))) as [ops s'] eqn:E. cbn [snd].
  destruct (valid s') eqn:G; [exfalso|reflexivity].
  assert (Hb : bytes_ok (rest (fresh (write_variable n ++ l)))).
  { cbn [fresh rest]. apply bytes_ok_app. split; [apply write_variable_ok|exact Hok]. }
  assert (HL : 0 <= lim (fresh (write_variable n ++ l)) <= max_size_t) by (cbn [fresh lim]; unfold max_size_t; lia).
  destruct (script_exactL _ _ _ Hb HL E G) as (_ & [_ F] & t & Hr & _). unfold script_fits in F.
  assert (Ht : script_to_data true ops = write_variable (len (ops_to_data ops)) ++ ops_to_data ops).
  { unfold script_to_data, script_size. rewrite ops_size_len. reflexivity. }
  cbn [fresh rest] in Hr. rewrite Ht, <- app_assoc in Hr. set (d := ops_to_data ops) in *. pose proof (len_nonneg d). pose proof (len_nonneg t).
  assert (Vs : forall v, variable_size v <= 9) by (intros v; unfold variable_size; repeat match goal with |- context[if ?b then _ else _] => destruct b end; lia).
  pose proof (read_variable_parses n Hn (fresh (write_variable n ++ l)) l eq_refl eq_refl) as P1.
  assert (P2 : read_variable (fresh (write_variable n ++ l)) = (len d, eat (write_variable (len d)) (d ++ t) (fresh (write_variable n ++ l)))).
  { apply (read_variable_parses (len d)); [lia|reflexivity|exact Hr|]. rewrite len_write_variable. cbn [fresh lim]. unfold max_size_t. specialize (Vs (len d)). lia. }
  rewrite P1 in P2 by (rewrite len_write_variable; cbn [fresh lim]; unfold max_size_t; specialize (Vs n); lia).
  pose proof (f_equal fst P2) as E1. pose proof (f_equal (fun q => rest (snd q)) P2) as E2. cbn [fst snd] in E1, E2. rewrite !eat_rest in E2. rewrite E2, len_app in Hl. lia.
Qed.
Example C14_satisfiable :
  let l := [0; 2; 7; 8; 76; 1; 9; 81; 77; 255] in
  bytes_ok l /\ len l < 2 ^ 63 /\
  fst (script_from_data false (fresh l)) =
    [mkop 0 [] false; mkop 2 [7; 8] false; mkop 76 [9] false; mkop 81 [] false; mkop 101 [77; 255] true].
Proof. cbn. split; [repeat constructor; unfold byte_ok; lia|]. split; [lia|]. vm_compute. reflexivity. Qed.
Example C14_complete_satisfiable :
  Forall (fun p => complete_op (fst p) (snd p) /\ len (snd p) <= 4000000) [(118, []); (2, [1; 2]); (76, [3])].
Proof.
  repeat constructor; cbn [fst snd]; unfold byte_ok; try lia; try reflexivity; vm_compute; congruence.
Qed.

(** * C15 Push operations. *)
Lemma opcode_from_size_range n : 0 <= n <= 4294967295 -> 0 <= opcode_from_size n <= 78.
Proof. unfold opcode_from_size, push_size_75, push_one_size, push_two_size, push_four_size. cmp; lia. Qed.
Lemma complete_nominal d : bytes_ok d -> len d <= 4294967295 -> complete_op (opcode_from_size (len d)) d.
Proof.
  intros Hd Hl. pose proof (len_nonneg d). unfold complete_op, opcode_from_size, push_size_75, push_one_size, push_two_size, push_four_size, byte_ok.
  split; [cmp; lia|]. split; [exact Hd|].
  repeat split; cmp; try lia; intros; try lia.
Qed.
Lemma nominal_payload (d : list Z) : len d <= 4294967295 -> (is_payload (opcode_from_size (len d)) = true \/ d = []).
Proof.
  intros Hl. pose proof (len_nonneg d). unfold is_payload, opcode_from_size, push_size_75, push_one_size, push_two_size, push_four_size.
  destruct (Z.eq_dec (len d) 0); [right; apply len_zero; assumption|left].
  cmp; try reflexivity; exfalso; lia.
Qed.

(** The nominal push of any data is a complete push of exactly that data. *)
Theorem C15_nominal_push_pushes_the_data d : bytes_ok d -> len d <= 4294967295 ->
  let o := from_push_data d false in
  complete_op (code o) (data o) /\ underflow o = false /\ pushed (code o) (data o) = Some d.
Proof.
  intros Hd Hl o. pose proof (opcode_from_size_range (len d)) as R. pose proof (len_nonneg d). pose proof (complete_nominal d Hd Hl) as C.
  unfold o, from_push_data, nominal_opcode_from_data. cbn [code data underflow].
  assert (D : (if is_payload (opcode_from_size (len d)) then d else []) = d) by (destruct (nominal_payload d Hl) as [-> | ->]; [reflexivity|destruct (is_payload _); reflexivity]).
  rewrite D. split; [exact C|]. split; [reflexivity|]. unfold pushed. destruct (Z.leb_spec (opcode_from_size (len d)) 78); [reflexivity|lia].
Qed.

(** The minimal push pushes the data, except for the single zero byte. *)
Lemma minimal_cases d : (exists b, d = [b] /\ (b = 129 \/ b = 0 \/ 1 <= b <= 16)) \/ minimal_opcode_from_data d = opcode_from_size (len d).
Proof.
  unfold minimal_opcode_from_data. destruct d as [|b [|x r]]; [right; reflexivity| |right; reflexivity].
  destruct (Z.eqb_spec b 129); [left; exists b; auto|]. destruct (Z.eqb_spec b 0); [left; exists b; auto|].
  destruct (Z.leb_spec 1 b); [|right; reflexivity]. destruct (Z.leb_spec b 16); [left; exists b; auto|right; reflexivity].
Qed.
Lemma minimal_small b : 1 <= b <= 16 -> minimal_opcode_from_data [b] = 80 + b.
Proof.
  intros H. unfold minimal_opcode_from_data. destruct (Z.eqb_spec b 129); [lia|]. destruct (Z.eqb_spec b 0); [lia|].
  destruct (Z.leb_spec 1 b); [|lia]. destruct (Z.leb_spec b 16); [|lia]. cbn [andb].
  rewrite wrap_fits; [lia|reflexivity|unfold fits; cbn; lia].
Qed.
Theorem C15_minimal_push_pushes_the_data d : bytes_ok d -> len d <= 4294967295 -> d <> [0] ->
  let o := from_push_data d true in
  complete_op (code o) (data o) /\ underflow o = false /\ pushed (code o) (data o) = Some d.
Proof.
  intros Hd Hl N o. destruct (minimal_cases d) as [(b & -> & C)|C].
  - destruct C as [-> |[-> |C]].
    + cbn. split; [|split; reflexivity]. unfold complete_op. cbn. unfold byte_ok. repeat split; try lia. constructor.
    + congruence.
    + unfold o, from_push_data. rewrite minimal_small by exact C. cbn [code data underflow].
      assert (P : is_payload (80 + b) = false) by (unfold is_payload; destruct (Z.leb_spec 1 (80 + b)); [|lia]; destruct (Z.leb_spec (80 + b) 78); [lia|reflexivity]).
      rewrite P. split; [|split; [reflexivity|]].
      * unfold complete_op. unfold byte_ok. change (len (@nil Z)) with 0. repeat split; try lia. constructor.
      * unfold pushed. destruct (Z.leb_spec (80 + b) 78); [lia|]. destruct (Z.eqb_spec (80 + b) 79); [lia|].
        destruct (Z.leb_spec 81 (80 + b)); [|lia]. destruct (Z.leb_spec (80 + b) 96); [|lia]. cbn [andb]. replace (80 + b - 80) with b by lia. reflexivity.
  - pose proof (C15_nominal_push_pushes_the_data d Hd Hl) as Q. unfold from_push_data, nominal_opcode_from_data in Q.
    unfold o, from_push_data. rewrite C. exact Q.
Qed.
(** The missing case: data consisting of one zero byte becomes OP_0, which pushes
    the empty string instead (operation_patterns.ipp:117-127). *)
Theorem C15_minimal_push_of_zero_byte_refuted :
  let o := from_push_data [0] true in code o = 0 /\ data o = [] /\ pushed (code o) (data o) = Some [].
Proof. cbn. auto. Qed.

(** No push of the same data is shorter. *)
Theorem C15_minimal_push_is_shortest d c d' : bytes_ok d -> len d <= 4294967295 -> d <> [0] ->
  complete_op c d' -> pushed c d' = Some d ->
  len (op_to_data (from_push_data d true)) <= len (complete_op_bytes c d').
Proof.
  intros Hd Hl N Hc Hp. pose proof (C15_minimal_push_pushes_the_data d Hd Hl N) as Q. cbv zeta in Q.
  set (o := from_push_data d true) in *. destruct Q as (Qc & Qu & Qp).
  assert (Eo : op_to_data o = complete_op_bytes (code o) (data o)).
  { rewrite <- complete_bytes by exact Qc. destruct o; cbn in *; subst; reflexivity. }
  rewrite Eo. unfold complete_op_bytes. rewrite !len_cons, !len_app, !len_le_bytes.
  destruct (minimal_cases d) as [(b & -> & C)|C].
  - assert (D : data o = [] /\ size_bytes (code o) = 0%nat).
    { destruct C as [-> |[-> |C]]; [split; reflexivity|congruence|]. unfold o, from_push_data. rewrite minimal_small by exact C. cbn [data code].
      unfold is_payload. destruct (Z.leb_spec 1 (80 + b)); [|lia]; destruct (Z.leb_spec (80 + b) 78); [lia|]. split; [reflexivity|].
      unfold size_bytes. cmp; lia. }
    destruct D as [-> ->]. change (len (@nil Z)) with 0. pose proof (len_nonneg d'). lia.
  - assert (D : data o = d /\ code o = opcode_from_size (len d)).
    { unfold o, from_push_data. rewrite C. cbn [data code]. split; [|reflexivity].
      destruct (nominal_payload d Hl) as [-> | ->]; [reflexivity|destruct (is_payload _); reflexivity]. }
    destruct D as [-> ->]. destruct Hc as (Hc1 & Hc2 & H1 & H2 & H3 & H4 & H5). unfold pushed in Hp. pose proof (len_nonneg d).
    destruct (Z.leb_spec c 78).
    + injection Hp as ->. unfold size_bytes, opcode_from_size, push_size_75, push_one_size, push_two_size, push_four_size.
      unfold byte_ok in Hc1.
      destruct (Z.eqb_spec c 76); [|destruct (Z.eqb_spec c 77); [|destruct (Z.eqb_spec c 78)]];
      cmp; lia.
    + exfalso. destruct (Z.eqb_spec c 79).
      * injection Hp as <-. vm_compute in C. discriminate.
      * destruct (Z.leb_spec 81 c); [|discriminate]. destruct (Z.leb_spec c 96); [|discriminate]. cbn in Hp. injection Hp as <-.
        rewrite minimal_small in C by lia. change (len [c - 80]) with 1 in C. change (opcode_from_size 1) with 1 in C. lia.
Qed.
(** No *data* push (opcodes 0-78) of the same data is shorter than the nominal. *)
Theorem C15_nominal_push_is_shortest_data_push d c : bytes_ok d -> len d <= 4294967295 ->
  complete_op c d -> c <= 78 ->
  len (op_to_data (from_push_data d false)) <= len (complete_op_bytes c d).
Proof.
  intros Hd Hl Hc C78. pose proof (C15_nominal_push_pushes_the_data d Hd Hl) as Q. cbv zeta in Q.
  set (o := from_push_data d false) in *. destruct Q as (Qc & Qu & Qp).
  assert (Eo : op_to_data o = complete_op_bytes (code o) (data o)).
  { rewrite <- complete_bytes by exact Qc. destruct o; cbn in *; subst; reflexivity. }
  rewrite Eo. unfold complete_op_bytes. rewrite !len_cons, !len_app, !len_le_bytes.
  assert (D : data o = d /\ code o = opcode_from_size (len d)).
  { unfold o, from_push_data, nominal_opcode_from_data. cbn [data code]. split; [|reflexivity].
    destruct (nominal_payload d Hl) as [-> | ->]; [reflexivity|destruct (is_payload _); reflexivity]. }
  destruct D as [-> ->]. destruct Hc as (Hc1 & Hc2 & H1 & H2 & H3 & H4 & H5). pose proof (len_nonneg d).
  unfold size_bytes, opcode_from_size, push_size_75, push_one_size, push_two_size, push_four_size.
  unfold byte_ok in Hc1.
  destruct (Z.eqb_spec c 76); [|destruct (Z.eqb_spec c 77); [|destruct (Z.eqb_spec c 78)]];
  cmp; lia.
Qed.
(** The minimality predicate agrees with Bitcoin's for data pushes other than the
    zero byte, up to the size of a four-byte push (where Bitcoin has no rule). *)
Theorem C15_is_minimal_push_matches_reference c d : bytes_ok d -> d <> [0] -> len d <= 65535 ->
  is_minimal_push (mkop c d false) = core_minimal_push c d.
Proof.
  intros Hd N Hl. unfold is_minimal_push. cbn [code data]. unfold core_minimal_push.
  destruct d as [|b [|x r]].
  - reflexivity.
  - unfold minimal_opcode_from_data. destruct (Z.eqb_spec b 129) as [->|]; [reflexivity|]. destruct (Z.eqb_spec b 0) as [->|]; [congruence|].
    destruct (Z.leb_spec 1 b); [|reflexivity]. destruct (Z.leb_spec b 16); [|reflexivity]. cbn [andb].
    rewrite wrap_fits; [f_equal; lia|reflexivity|unfold fits; cbn; lia].
  - unfold minimal_opcode_from_data, opcode_from_size, push_size_75, push_one_size, push_two_size, push_four_size.
    cmp; try reflexivity; lia.
Qed.
Theorem C15_minimal_predicate_zero_byte_refuted :
  is_minimal_push (mkop 1 [0] false) = false /\ core_minimal_push 1 [0] = true.
Proof. split; reflexivity. Qed.
Example C15_satisfiable :
  bytes_ok [7; 9] /\ from_push_data [7; 9] true = mkop 2 [7; 9] false /\ from_push_data [16] true = mkop 96 [] false /\
  complete_op 76 [16] /\ pushed 76 [16] = Some [16].
Proof.
  split; [repeat constructor; unfold byte_ok; lia|]. split; [reflexivity|]. split; [reflexivity|]. split; [|reflexivity].
  unfold complete_op, byte_ok. change (len [16]) with 1. repeat split; try lia. repeat constructor; unfold byte_ok; lia.
Qed.
Print Assumptions C14_every_byte_string_round_trips.
Print Assumptions C14_parse_is_reference_scan.
Print Assumptions C14_complete_operations_round_trip.
Print Assumptions C14_prefixed_script_in_stream.
Print Assumptions C14_prefixed_read_is_exact.
Print Assumptions C14_truncated_prefixed_script_fails.
Print Assumptions C15_nominal_push_pushes_the_data.
Print Assumptions C15_minimal_push_pushes_the_data.
Print Assumptions C15_minimal_push_is_shortest.
Print Assumptions C15_nominal_push_is_shortest_data_push.
Print Assumptions C15_is_minimal_push_matches_reference.
