(** Proofs: authorities. *)
From Coq Require Import String.
From Verif Require Import Base Bytes RadixModel OpModel TextSpec TextModel TextProps AmountProps AddressModel VerModel VerSpec VerProps AuthModel AuthSpec.

Lemma fold_value l : forall a, forallb is_ascii_number l = true -> 0 <= a -> a * 10 ^ len l <= fold_left (fun v c => 10 * v + (c - 48)) l a.
Proof.
  induction l as [|c l IH]; intros a F A; [cbn; change (len (@nil Z)) with 0; lia|]. cbn [forallb] in F. apply andb_true_iff in F as [Fc F]. unfold is_ascii_number in Fc. cbn [fold_left].
  eapply Z.le_trans; [|apply IH; [exact F|lia]]. rewrite len_cons, Z.pow_add_r by (try lia; apply len_nonneg). pose proof (Z.pow_pos_nonneg 10 (len l) ltac:(lia) (len_nonneg l)). change (10 ^ 1) with 10. nia.
Qed.
(** The text of a small positive number. *)
Lemma short_number n k : 0 < n < 10 ^ (k + 1) -> 0 <= k -> n < 2 ^ 64 -> exists c r, serialize_decimal n = c :: r /\ c <> 48 /\ forallb is_ascii_number (c :: r) = true /\ len (c :: r) <= k + 1.
Proof.
  intros H K R. destruct (serialized n ltac:(lia)) as [[Nt M] D]. apply mean_digits in M. destruct M as (F & V & _). destruct D as [E|(c & r & E & C)].
  - exfalso. rewrite E in V. vm_compute in V. lia.
  - exists c, r. rewrite E in F, V. split; [exact E|]. split; [exact C|]. split; [exact F|]. pose proof F as F'. cbn [forallb] in F'. apply andb_true_iff in F' as [Fc Fr]. unfold is_ascii_number in Fc.
    unfold decimal_value in V. cbn [fold_left] in V. pose proof (fold_value r (10 * 0 + (c - 48)) Fr ltac:(lia)) as L. rewrite V in L. rewrite len_cons. destruct (Z.le_gt_cases (1 + len r) (k + 1)) as [X|X]; [exact X|]. exfalso.
    assert (10 ^ (k + 1) <= 10 ^ len r) by (apply Z.pow_le_mono_r; lia). pose proof (Z.pow_pos_nonneg 10 (len r) ltac:(lia) (len_nonneg r)). nia.
Qed.
Lemma span_all p t rest : forallb p t = true -> match rest with x :: _ => p x = false | [] => True end -> span p (t ++ rest) = (t, rest).
Proof.
  induction t as [|x t IH]; intros F R; cbn [app].
  - destruct rest as [|x r]; [reflexivity|]. cbn. now rewrite R.
  - cbn [forallb] in F. apply andb_true_iff in F as [Fx F]. cbn. rewrite Fx, (IH F R). reflexivity.
Qed.
Definition part_text (mark n : Z) : list Z := if negb (n =? 0) then mark :: serialize_decimal n else [].
Lemma numbered_text mark k n rest : 0 <= n < 10 ^ (k + 1) -> 0 <= k -> n < 2 ^ 64 -> match rest with x :: _ => is_ascii_number x = false /\ x <> mark | [] => True end ->
  numbered mark k (part_text mark n ++ rest) = Some (if n =? 0 then [] else serialize_decimal n, rest).
Proof.
  intros H K R Re. unfold part_text. destruct (Z.eqb_spec n 0) as [->|N]; cbn [negb app].
  - destruct rest as [|x r]; [reflexivity|]. cbn [numbered]. destruct Re as [_ Re]. destruct (Z.eqb_spec x mark); [contradiction|reflexivity].
  - destruct (short_number n k ltac:(lia) K R) as (c & r & E & C & F & L). rewrite E. cbn [numbered]. rewrite Z.eqb_refl. rewrite (span_all is_ascii_number (c :: r) rest F) by (destruct rest; [exact Logic.I|apply Re]).
    destruct (Z.eqb_spec c 48); [contradiction|]. cbn [orb]. destruct (Z.gtb_spec (len (c :: r)) (k + 1)); [lia|reflexivity].
Qed.
Lemma integer_text max n : 0 <= n <= max -> n < 2 ^ 64 -> to_integer max (if n =? 0 then [] else serialize_decimal n) = Some n.
Proof.
  intros H R. destruct (Z.eqb_spec n 0) as [->|N]; [reflexivity|]. destruct (serialized n ltac:(lia)) as [M D]. pose proof (deserialize_digits max _ _ M) as X. unfold to_integer. destruct (serialize_decimal n) eqn:E; [destruct M; congruence|].
  rewrite X. destruct (Z.leb_spec n max); [reflexivity|lia].
Qed.
Lemma denormal ip : ~ mapped (denormalize ip).
Proof. destruct ip as [x|x]; [intros []|]. unfold denormalize. destruct (Z.eqb_spec (x / 2 ^ 32) 65535) as [E|E]; [intros []|exact E]. Qed.
Lemma denormal_id ip : ~ mapped ip -> denormalize ip = ip.
Proof. destruct ip as [x|x]; [reflexivity|]. unfold denormalize, mapped. intros N. destruct (Z.eqb_spec (x / 2 ^ 32) 65535); [contradiction|reflexivity]. Qed.

(** The constructor maps; its addresses are never the mapped form. *)
Theorem C94_constructor ip port cidr : let a := make_authority ip port cidr in
  ~ mapped (a_ip a) /\ a_port a = port /\ a_cidr a = cidr /\ (~ mapped ip -> a_ip a = ip) /\ (forall x, ip = V6 x -> mapped ip -> a_ip a = V4 (x mod 2 ^ 32)).
Proof.
  cbn [make_authority a_ip a_port a_cidr]. split; [apply denormal|]. repeat split; [apply denormal_id|]. intros x -> M. unfold mapped in M. unfold denormalize. rewrite M. reflexivity.
Qed.
Print Assumptions C94_constructor.
Lemma no_white c : 48 <= c <= 57 \/ 97 <= c <= 102 \/ In c [46; 47; 58; 91; 93] -> ~ In c ascii_whitespace.
Proof. intros H W. vm_compute in W. cbn in H. lia. Qed.
Lemma number_chars n : 0 <= n < 2 ^ 64 -> Forall (fun c => ~ In c ascii_whitespace) (serialize_decimal n).
Proof.
  intros R. destruct (serialized n R) as [[Nt M] _]. apply mean_digits in M. destruct M as (F & _). rewrite forallb_forall in F. apply Forall_forall. intros c Hc. apply no_white. left. specialize (F c Hc). unfold is_ascii_number in F. lia.
Qed.
Lemma part_chars mark n : In mark [47; 58] -> 0 <= n < 2 ^ 64 -> Forall (fun c => ~ In c ascii_whitespace) (part_text mark n).
Proof. intros M R. unfold part_text. destruct (negb (n =? 0)); [|constructor]. constructor; [apply no_white; right; right; cbn in *; lia|now apply number_chars]. Qed.
(** The text reads back when the subnet bits are usable. *)
Theorem C94_round_trip l a : lawful l -> ~ mapped (a_ip a) -> ranged (a_ip a) -> 0 <= a_port a < 2 ^ 16 -> usable (a_ip a) (a_cidr a) -> read_authority l (auth_text l a) = Some a.
Proof.
  destruct a as [ip port cidr]. cbn [a_ip a_port a_cidr]. intros [L4 L6] Um Ra Po Us. assert (Rc : 0 <= cidr <= 128) by (destruct ip; cbn in Us; lia). change (2 ^ 16) with 65536 in Po.
  unfold auth_text, to_literal, to_host. cbn [a_ip a_port a_cidr]. rewrite (denormal_id ip Um). fold (part_text 58 port). fold (part_text 47 cidr).
  assert (NP : numbered 58 4 (part_text 58 port ++ part_text 47 cidr) = Some (if port =? 0 then [] else serialize_decimal port, part_text 47 cidr)).
  { apply numbered_text; [lia|lia|lia|]. unfold part_text. destruct (negb (cidr =? 0)); [split; [reflexivity|lia]|exact Logic.I]. }
  assert (NC : numbered 47 2 (part_text 47 cidr) = Some (if cidr =? 0 then [] else serialize_decimal cidr, [])).
  { rewrite <- (app_nil_r (part_text 47 cidr)). apply numbered_text; [lia|lia|lia|exact Logic.I]. }
  assert (IP : to_integer 65535 (if port =? 0 then [] else serialize_decimal port) = Some port) by (apply integer_text; lia).
  assert (IC : to_integer 255 (if cidr =? 0 then [] else serialize_decimal cidr) = Some cidr) by (apply integer_text; lia).
  assert (W : Forall (fun c => ~ In c ascii_whitespace) (part_text 58 port ++ part_text 47 cidr)) by (apply Forall_app; split; apply part_chars; cbn; lia).
  assert (Edge : forall p, p 58 = false -> p 47 = false -> match part_text 58 port ++ part_text 47 cidr with x :: _ => p x = false | [] => True end).
  { intros p P5 P4. unfold part_text. destruct (negb (port =? 0)); [exact P5|]. destruct (negb (cidr =? 0)); [exact P4|exact Logic.I]. }
  unfold read_authority. destruct ip as [x|x].
  - destruct (L4 x Ra) as (Nt & Ch & Mk). set (t := text_of l (V4 x)) in *.
    assert (Nc : existsb (Z.eqb 58) t = false). { destruct (existsb (Z.eqb 58) t) eqn:E; [|reflexivity]. apply existsb_exists in E as (y & Hy & E). rewrite Forall_forall in Ch. specialize (Ch y Hy). unfold digit in Ch. lia. }
    rewrite Nc. rewrite word_id. 2:{ apply Forall_app. split; [|exact W]. eapply Forall_impl; [|exact Ch]. intros c Hc. apply no_white. unfold digit in Hc. cbn. lia. }
    assert (F : forallb ip4_char t = true). { apply forallb_forall. intros c Hc. rewrite Forall_forall in Ch. specialize (Ch c Hc). unfold digit in Ch. unfold ip4_char, is_ascii_number. lia. }
    unfold parse_authority. destruct t as [|c0 t0] eqn:Et; [congruence|]. cbn [app].
    assert (C0 : (c0 =? 91) = false). { inversion Ch as [|? ? H0]; subst. unfold digit in H0. lia. } rewrite C0.
    change (c0 :: t0 ++ part_text 58 port ++ part_text 47 cidr) with ((c0 :: t0) ++ part_text 58 port ++ part_text 47 cidr). rewrite (span_all ip4_char (c0 :: t0)) by (try exact F; apply Edge; reflexivity).
    cbn [obind]. rewrite NP. cbn [obind]. rewrite NC. cbn [obind]. rewrite Mk. cbn [obind]. rewrite IP. cbn [obind]. rewrite IC. cbn [obind]. cbn in Us. destruct (Z.leb_spec cidr 32); [reflexivity|lia].
  - destruct (L6 x Ra Um) as (Ic & Ch & Mk). set (t := text_of l (V6 x)) in *.
    assert (Nc : existsb (Z.eqb 58) t = true) by (apply existsb_exists; exists 58; split; [exact Ic|reflexivity]).
    rewrite Nc. rewrite <- app_comm_cons, <- app_assoc. cbn [app]. rewrite word_id.
    2:{ constructor; [apply no_white; cbn; lia|]. apply Forall_app. split; [eapply Forall_impl; [|exact Ch]; intros c Hc; apply no_white; unfold digit in Hc; cbn; lia|]. constructor; [apply no_white; cbn; lia|exact W]. }
    assert (F : forallb ip6_char t = true). { apply forallb_forall. intros c Hc. rewrite Forall_forall in Ch. specialize (Ch c Hc). unfold digit in Ch. unfold ip6_char, is_ascii_number. lia. }
    unfold parse_authority. rewrite Z.eqb_refl. rewrite (span_all ip6_char t (93 :: _) F) by reflexivity. destruct t as [|c0 t0] eqn:Et; [destruct Ic|]. rewrite Z.eqb_refl.
    cbn [obind]. rewrite NP. cbn [obind]. rewrite NC. cbn [obind]. rewrite Mk. cbn [obind]. rewrite IP. cbn [obind]. rewrite IC. cbn [obind]. cbn in Us. destruct (Z.leb_spec cidr 128); [reflexivity|lia].
Qed.
Print Assumptions C94_round_trip.
Lemma address_eq a b : address_eqb a b = true <-> a = b.
Proof. destruct a, b; cbn; rewrite ?Z.eqb_eq; split; intros H; try discriminate; congruence. Qed.
(** Comparison: two hosts are equal when the addresses are and the ports are
    compatible; a host and a subnet when the subnet has the host. It does not depend
    on the order of the two. *)
Theorem C94_equality l a b :
  auth_eq l a a = true /\ auth_eq l a b = auth_eq l b a /\
  (a_cidr a = a_cidr b -> (auth_eq l a b = true <-> a_ip a = a_ip b /\ compatible (a_port a) (a_port b))) /\
  (a_cidr a = 0 -> a_cidr b <> 0 -> (auth_eq l a b = true <-> compatible (a_port a) (a_port b) /\
     ((exists x y, a_ip a = V4 x /\ a_ip b = V4 y) \/ (exists x y, a_ip a = V6 x /\ a_ip b = V6 y)) /\ hosts_have l (a_ip a) (a_ip b) (a_cidr b) = true)) /\
  (a_cidr a <> 0 -> a_cidr b <> 0 -> a_cidr a <> a_cidr b -> auth_eq l a b = false).
Proof.
  assert (S1 : forall x y, address_eqb x y = address_eqb y x) by (intros [x|x] [y|y]; cbn; try reflexivity; apply Z.eqb_sym).
  destruct a as [ia pa ca], b as [ib pb cb]. unfold auth_eq, compatible. cbn [a_ip a_port a_cidr]. split.
  { rewrite !Z.eqb_refl. cbn [negb]. rewrite !andb_false_r. now apply address_eq. }
  split.
  { rewrite (Z.eqb_sym pb pa), (Z.eqb_sym cb ca), (S1 ib ia). destruct (Z.eqb_spec pa 0), (Z.eqb_spec pb 0), (Z.eqb_spec pa pb), (Z.eqb_spec ca 0), (Z.eqb_spec cb 0), (Z.eqb_spec ca cb); cbn [negb andb]; try reflexivity; exfalso; lia. }
  split.
  { intros ->. rewrite !Z.eqb_refl. cbn [negb]. rewrite !andb_false_r. destruct (Z.eqb_spec pa 0), (Z.eqb_spec pb 0), (Z.eqb_spec pa pb); cbn [negb andb]; rewrite ?address_eq; split; intros H; try discriminate; try (split; [exact H|lia]); try (exact (proj1 H)); exfalso; lia. }
  split.
  - intros -> N. destruct (Z.eqb_spec cb 0); [contradiction|]. destruct (Z.eqb_spec 0 cb); [congruence|]. rewrite Z.eqb_refl. cbn [negb andb]. unfold is_member.
    assert (K : match ia, ib with V4 _, V4 _ | V6 _, V6 _ => True | _, _ => False end <-> ((exists x y, ia = V4 x /\ ib = V4 y) \/ (exists x y, ia = V6 x /\ ib = V6 y))).
    { destruct ia as [x|x], ib as [y|y]; split; try tauto; intros H; try (left; now exists x, y); try (right; now exists x, y); destruct H as [(u & v & A & B)|(u & v & A & B)]; discriminate. }
    rewrite <- K. destruct (Z.eqb_spec pa 0), (Z.eqb_spec pb 0), (Z.eqb_spec pa pb); cbn [negb andb]; destruct ia, ib; (split; intros H; [try discriminate; try (split; [lia|split; [exact Logic.I|exact H]])|first [exact (proj2 (proj2 H))|exfalso; destruct H as (H & H' & _); first [exact H'|lia]]]).
  - intros A B N. destruct (Z.eqb_spec ca 0); [contradiction|]. destruct (Z.eqb_spec cb 0); [contradiction|]. destruct (Z.eqb_spec ca cb); [contradiction|]. cbn [negb andb]. destruct (_ && _); reflexivity.
Qed.
Print Assumptions C94_equality.
(** It is not transitive: an unspecified port is equal to different ports. *)
Theorem C94_transitive_refuted l : ~ (forall a b c, auth_eq l a b = true -> auth_eq l b c = true -> auth_eq l a c = true).
Proof. intros H. specialize (H (make_authority (V4 1) 1 0) (make_authority (V4 1) 0 0) (make_authority (V4 1) 2 0) eq_refl eq_refl). discriminate. Qed.
Print Assumptions C94_transitive_refuted.
(** Reading does not map: of an address in the mapped form it makes an authority that
    has the text of the other and is not equal to it. *)
Definition mapped_1234 : address := V6 (65535 * 2 ^ 32 + 16909060).
Theorem C94_mapped_refuted l : lawful l -> make_address l (chars "::ffff:102:304") = Some mapped_1234 ->
  exists a, read_authority l (chars "[::ffff:102:304]") = Some a /\ mapped (a_ip a) /\
    auth_text l a = auth_text l (make_authority (V4 16909060) 0 0) /\ auth_eq l a (make_authority (V4 16909060) 0 0) = false.
Proof.
  intros _ M. exists (mkAuth mapped_1234 0 0). split; [|repeat split; reflexivity].
  unfold read_authority. replace (first_word (chars "[::ffff:102:304]")) with (91 :: chars "::ffff:102:304" ++ [93]) by reflexivity. unfold parse_authority. rewrite Z.eqb_refl.
  replace (span ip6_char (chars "::ffff:102:304" ++ [93])) with (chars "::ffff:102:304", [93]) by reflexivity. cbv beta iota. remember (chars "::ffff:102:304") as t eqn:Et.
  destruct t as [|c0 t0]; [discriminate|]. rewrite Z.eqb_refl. cbn [obind numbered]. rewrite M. reflexivity.
Qed.
Print Assumptions C94_mapped_refuted.
(** A library as supposed. *)
Definition toy : library := mkLibrary
  (fun ip => match ip with V4 x => decimal_loop 40 x [] | V6 x => 58 :: decimal_loop 40 x [] end)
  (fun t => match t with
            | [] => None
            | c :: r => if c =? 58 then (match r with d :: _ => if d =? 58 then Some mapped_1234 else Some (V6 (decimal_value r)) | [] => None end) else Some (V4 (decimal_value t))
            end)
  (fun _ _ _ => true).
Lemma toy_lawful : lawful toy.
Proof.
  assert (D : forall x, 0 <= x < 2 ^ 128 -> exists c r, decimal_loop 40 x [] = c :: r /\ Forall digit (c :: r) /\ decimal_value (c :: r) = x).
  { intros x R. destruct (decimal_loop_ok 40 x []) as (ds & E & F & V & H); [split; [lia|]; apply Z.lt_trans with (2 ^ 128); [lia|reflexivity]|lia|]. rewrite app_nil_r in E. rewrite E.
    assert (N : exists c r, ds = c :: r) by (destruct H as [->|(c & r & -> & _)]; eauto). destruct N as (c & r & ->). exists c, r. split; [reflexivity|]. split; [|exact V].
    apply Forall_forall. intros y Hy. rewrite forallb_forall in F. specialize (F y Hy). unfold is_ascii_number in F. unfold digit. lia. }
  split.
  - intros x R. cbn in R. destruct (D x ltac:(lia)) as (c & r & E & F & V). unfold toy. cbn [text_of make_address]. rewrite E. split; [discriminate|]. split; [eapply Forall_impl; [|exact F]; intros y Hy; now left|].
    pose proof (Forall_inv F) as Fc. unfold digit in Fc. destruct (Z.eqb_spec c 58); [lia|]. now rewrite V.
  - intros x R _. destruct (D x R) as (c & r & E & F & V). unfold toy. cbn [text_of make_address]. rewrite E. split; [now left|]. split.
    + constructor; [right; now right|]. eapply Forall_impl; [|exact F]. intros y Hy. now left.
    + rewrite Z.eqb_refl. pose proof (Forall_inv F) as Fc. unfold digit in Fc. destruct (Z.eqb_spec c 58); [lia|]. now rewrite V.
Qed.
Example C94_ex : lawful toy /\ make_address toy (chars "::ffff:102:304") = Some mapped_1234 /\ ~ mapped (V6 5) /\ usable (V6 5) 64 /\
  auth_text toy (make_authority (V6 5) 8333 64) = chars "[:5]:8333/64" /\ read_authority toy (chars "[:5]:8333/64") = Some (make_authority (V6 5) 8333 64) /\
  read_authority toy (chars "7:08333") = None /\ read_authority toy (chars "7/33") = None.
Proof. split; [exact toy_lawful|]. split; [reflexivity|]. split; [intros H; vm_compute in H; discriminate|]. split; [cbn; lia|]. repeat split; reflexivity. Qed.
