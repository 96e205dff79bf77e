(** * C79: Borromean ring signatures. *)
From Coq Require Import Znumtheory.
From Verif Require Import Base Bytes AddressModel AddressProofs3 EcModel HdModel HdProofs HdProps WifModel WifProps OrderPrime RingModel RingSpec.

Section Ring.
Variable c : curve.
Hypothesis C : curve_ok c.
Variable sha256 : list Z -> list Z.

Lemma verified_iff s : verify_secret s = true <-> valid_scalar s.
Proof. unfold verify_secret, valid_scalar. rewrite andb_true_iff, !Z.ltb_lt. tauto. Qed.
Lemma scalar_bool_iff s : scalar_bool s = true <-> s <> null32.
Proof. unfold scalar_bool. rewrite negb_true_iff. split; [intros H ->; replace (list_eqb null32 null32) with true in H by (symmetry; apply list_eqb_spec; reflexivity); discriminate|].
  intros H. destruct (list_eqb s null32) eqn:E; [apply list_eqb_spec in E; contradiction|reflexivity]. Qed.
Lemma valid_bool s : valid_scalar s -> scalar_bool s = true.
Proof. intros V. apply scalar_bool_iff. intros ->. unfold valid_scalar in V. change (be_value null32) with 0 in V. lia. Qed.
Lemma mul_bool P s : point_bool (ec_point_mul c P s) = true <-> valid_scalar s /\ exists x, dlog c P = Some x.
Proof.
  unfold ec_point_mul, point_mul. split.
  - destruct (point_bool P) eqn:B; [|discriminate]. destruct (scalar_bool s) eqn:Bs; [|discriminate]. cbn [andb]. destruct (dlog c P) as [x|] eqn:D; [|discriminate].
    destruct (verify_secret s) eqn:V; [|discriminate]. intros _. split; [apply verified_iff; exact V|exists x; reflexivity].
  - intros [V [x D]]. pose proof (proj2 C P x D) as [Rx Ex]. subst P. destruct (point_true c C x Rx) as [-> _]. rewrite (valid_bool s V), D. cbn [andb]. rewrite (proj2 (verified_iff s) V).
    unfold to_point. rewrite (proj2 (Z.eqb_neq _ _)) by (apply order_mul; assumption). cbn [or_off]. apply point_true; [exact C|].
    pose proof (Z.mod_pos_bound (x * be_value s) order order_pos). pose proof (order_mul x (be_value s) Rx V). lia.
Qed.
Lemma mul_value P s x : valid_scalar s -> dlog c P = Some x -> ec_point_mul c P s = mulG c ((x * be_value s) mod order) /\ 0 < (x * be_value s) mod order < order.
Proof.
  intros V D. pose proof (proj2 C P x D) as [Rx Ex]. subst P. unfold ec_point_mul, point_mul. destruct (point_true c C x Rx) as [-> _]. rewrite (valid_bool s V), D. cbn [andb]. rewrite (proj2 (verified_iff s) V).
  pose proof (order_mul x (be_value s) Rx V) as N. pose proof (Z.mod_pos_bound (x * be_value s) order order_pos). unfold to_point. rewrite (proj2 (Z.eqb_neq _ _)) by exact N. split; [reflexivity|lia].
Qed.
Lemma gen_dlog : dlog c (generator c) = Some 1.
Proof. apply (point_true c C 1). unfold order. lia. Qed.
(** calculate_R is a link of the specification. *)
Lemma R_link s e P : point_bool (calculate_R c s e P) = true <-> link c s e P (calculate_R c s e P).
Proof.
  unfold calculate_R. split.
  - intros B. unfold ec_point_add in B |- *. destruct (point_bool (ec_point_mul c (generator c) s)) eqn:B1; [|discriminate]. destruct (point_bool (ec_point_mul c P e)) eqn:B2; [|discriminate].
    cbn [andb] in B |- *. apply mul_bool in B1, B2. destruct B1 as [V1 _]. destruct B2 as [V2 [x D]]. destruct (mul_value _ _ _ V1 gen_dlog) as [E1 R1]. destruct (mul_value _ _ _ V2 D) as [E2 R2].
    rewrite E1, E2 in B |- *. set (a := (1 * be_value s) mod order) in *. set (b := (x * be_value e) mod order) in *.
    assert (Ea : ec_point_add c (mulG c a) (mulG c b) = multiple c (a + b)) by (apply point_add_spec; assumption).
    unfold ec_point_add in Ea. destruct (point_true c C a R1) as [Ba _]. destruct (point_true c C b R2) as [Bb _]. rewrite Ba, Bb in Ea. cbn [andb] in Ea. rewrite Ea in B |- *.
    assert (Em : (a + b) mod order = (be_value s + be_value e * x) mod order).
    { unfold a, b. rewrite Z.mul_1_l, <- Z.add_mod by (pose proof order_pos; lia). f_equal. ring. }
    unfold multiple in B |- *. rewrite Em in B |- *. split; [exact V1|]. split; [exact V2|]. exists x. split; [exact D|]. pose proof (Z.mod_pos_bound (be_value s + be_value e * x) order order_pos).
    destruct (Z.eqb_spec ((be_value s + be_value e * x) mod order) 0) as [Z0|Z0]; [discriminate|]. split; [lia|reflexivity].
  - intros (_ & _ & x & _ & K & E). rewrite E. apply point_true; [exact C|]. pose proof (Z.mod_pos_bound (be_value s + be_value e * x) order order_pos). lia.
Qed.
Lemma link_R s e P R : link c s e P R -> calculate_R c s e P = R.
Proof.
  intros (V1 & V2 & x & D & K & ->). destruct (mul_value _ _ _ V1 gen_dlog) as [E1 R1]. destruct (mul_value _ _ _ V2 D) as [E2 R2]. unfold calculate_R. rewrite E1, E2, point_add_spec by assumption.
  unfold multiple. rewrite <- Z.add_mod by (pose proof order_pos; lia). replace (1 * be_value s + x * be_value e) with (be_value s + be_value e * x) by ring. rewrite (proj2 (Z.eqb_neq _ _)) by lia. reflexivity.
Qed.
Lemma link_point s e P R : link c s e P R -> point_bool R = true.
Proof. intros L. pose proof (link_R _ _ _ _ L) as E. rewrite <- E in L |- *. apply R_link. exact L. Qed.

(** ** verification *)
Variable M : list Z.
Notation H := (next_challenge sha256 M).
Lemma verify_ring_walk i : forall keys p j e R0 L, keys <> [] -> scalar_bool e = true ->
  (verify_ring_loop c sha256 M p i j keys e R0 = Some L /\ point_bool L = true) <-> walk c sha256 M i j e keys (skipn j p) L.
Proof.
  induction keys as [|P keys IH]; intros p j e R0 L NE Be; [contradiction|]. cbn [verify_ring_loop].
  assert (Sk : forall s, nth_error p j = Some s -> skipn j p = s :: skipn (S j) p).
  { clear. revert p. induction j as [|j IHj]; intros [|y p] s E; try discriminate; cbn [nth_error] in E; [injection E as ->; reflexivity|]. cbn [skipn]. apply IHj. exact E. }
  assert (Sn : nth_error p j = None -> skipn j p = []) by (intros N; apply nth_error_None in N; apply skipn_all2; exact N).
  destruct (nth_error p j) as [s|] eqn:E.
  2:{ cbn [obind]. rewrite (Sn eq_refl). split; [intros [X _]; discriminate|intros W; inversion W]. }
  rewrite (Sk s eq_refl). cbn [obind]. rewrite Be. change (negb true) with false. rewrite orb_false_r. change (borromean_hash sha256 M (calculate_R c s e P) i (S j)) with (H (calculate_R c s e P) i (S j)).
  split.
  - intros [X Y]. destruct (scalar_bool s) eqn:Bs; cbn [negb] in X; [|injection X as <-; discriminate].
    destruct (point_bool (calculate_R c s e P)) eqn:BR; cbn [negb] in X; [|injection X as <-; discriminate].
    destruct (scalar_bool (H (calculate_R c s e P) i (S j))) eqn:BH; cbn [negb] in X; [|injection X as <-; discriminate].
    apply R_link in BR. apply scalar_bool_iff in BH as BH'. destruct keys as [|P' keys].
    + cbn [verify_ring_loop] in X. injection X as <-. apply walk_end; assumption.
    + eapply walk_next; [exact BR|exact BH'|]. apply (IH p (S j) _ (calculate_R c s e P)); [discriminate|exact BH|]. split; assumption.
  - intros W. inversion W as [j' e' P' s' more' R' LK NH|j' e' P' s' more' R' keys' last' LK NH W']; subst; pose proof (link_R _ _ _ _ LK) as ER; rewrite ER;
      rewrite (valid_bool s (proj1 LK)); cbn [negb]; rewrite (link_point _ _ _ _ LK); cbn [negb]; rewrite (proj2 (scalar_bool_iff _) NH); cbn [negb].
    + split; reflexivity.
    + assert (NK : keys <> []) by (inversion W'; discriminate). apply (IH p (S j) _ R' L NK (proj2 (scalar_bool_iff _) NH)). exact W'.
Qed.
Lemma walks_inv e0 i ring rings p more Rs : walks c sha256 M e0 i (ring :: rings) (p :: more) Rs ->
  exists R Rs', Rs = R :: Rs' /\ H e0 i 0 <> null32 /\ walk c sha256 M i 0 (H e0 i 0) ring p R /\ walks c sha256 M e0 (S i) rings more Rs'.
Proof. intros W. inversion W; subst. do 2 eexists. split; [reflexivity|]. split; [assumption|]. split; assumption. Qed.
Lemma verify_walks e0 : forall rings proofs i w W, 
  verify_loop c sha256 M e0 i rings proofs w = Some (Some W) <-> exists Rs, W = w ++ concat Rs /\ walks c sha256 M e0 i rings proofs Rs.
Proof.
  induction rings as [|ring rings IH]; intros proofs i w W.
  - cbn [verify_loop]. split.
    + intros E. injection E as <-. exists []. rewrite app_nil_r. split; [reflexivity|constructor].
    + intros (Rs & -> & W'). inversion W'; subst. cbn [concat]. rewrite app_nil_r. reflexivity.
  - destruct proofs as [|p proofs]; [cbn [verify_loop]; split; [discriminate|intros (Rs & _ & W'); inversion W']|]. cbn [verify_loop].
    change (borromean_hash sha256 M e0 i 0) with (H e0 i 0). destruct (scalar_bool (H e0 i 0)) eqn:Be; cbn [negb].
    2:{ split; [discriminate|]. intros (Rs & _ & W'). inversion W'; subst. exfalso. match goal with N : H e0 i 0 <> null32 |- _ => apply scalar_bool_iff in N; congruence end. }
    destruct ring as [|P0 ring0] eqn:Er.
    { cbn [verify_ring_loop obind]. split; [discriminate|]. intros (Rs & _ & W'). apply walks_inv in W'. destruct W' as (R & Rs' & _ & _ & Wk & _). inversion Wk. }
    rewrite <- Er in *. assert (NE : ring <> []) by (rewrite Er; discriminate). clear Er.
    destruct (verify_ring_loop c sha256 M p i 0 ring (H e0 i 0) point_null) as [L|] eqn:V; cbn [obind].
    2:{ split; [discriminate|]. intros (Rs & _ & W'). apply walks_inv in W'. destruct W' as (R & Rs' & -> & _ & Wk & _). apply (verify_ring_walk i ring p 0 (H e0 i 0) point_null R NE Be) in Wk. rewrite V in Wk. destruct Wk. discriminate. }
    destruct (point_bool L) eqn:BL; cbn [negb].
    + rewrite IH. split.
      * intros (Rs & -> & W'). exists (L :: Rs). cbn [concat]. rewrite app_assoc. split; [reflexivity|]. constructor; [apply scalar_bool_iff; exact Be| |exact W'].
        apply (verify_ring_walk i ring p 0 (H e0 i 0) point_null L NE Be). split; assumption.
      * intros (Rs & -> & W'). apply walks_inv in W'. destruct W' as (R & Rs' & -> & _ & Wk & Wr). apply (verify_ring_walk i ring p 0 (H e0 i 0) point_null R NE Be) in Wk. rewrite V in Wk. destruct Wk as [Wk _]. injection Wk as <-.
        exists Rs'. cbn [concat]. rewrite app_assoc. split; [reflexivity|exact Wr].
    + split; [discriminate|]. intros (Rs & _ & W'). apply walks_inv in W'. destruct W' as (R & Rs' & -> & _ & Wk & _). apply (verify_ring_walk i ring p 0 (H e0 i 0) point_null R NE Be) in Wk. rewrite V in Wk. destruct Wk as [Wk B]. injection Wk as <-. congruence.
Qed.
(** A signature verifies exactly when its links close on the challenge. *)
Theorem C79_verify rings s : len rings < 2 ^ 32 - 1 -> length (proofs s) = length rings ->
  ring_verify c sha256 rings M s = Some true <-> ring_valid c sha256 M rings (proofs s) (challenge s).
Proof.
  intros L E. unfold ring_verify, ring_valid. assert (L' : len (proofs s) = len rings) by (unfold len; rewrite E; reflexivity). rewrite L', Z.eqb_refl.
  destruct (Z.geb_spec (len rings) (2 ^ 32 - 1)) as [G|G]; [lia|]. cbn [orb negb].
  destruct (verify_loop c sha256 M (challenge s) 0 rings (proofs s) []) as [[W|]|] eqn:V; cbn [obind].
  - apply verify_walks in V. destruct V as (Rs & EW & Wk). cbn [app] in EW. subst W. split.
    + intros X. injection X as X. apply list_eqb_spec in X. exists Rs. split; [exact Wk|congruence].
    + intros (Rs' & Wk' & E'). f_equal. apply list_eqb_spec. assert (X : Some (Some (concat Rs)) = Some (Some (concat Rs'))).
      { transitivity (verify_loop c sha256 M (challenge s) 0 rings (proofs s) []); [symmetry|]; apply verify_walks; eexists; split; try reflexivity; assumption. }
      injection X as ->. congruence.
  - split; [discriminate|]. intros (Rs & Wk & _). assert (X : verify_loop c sha256 M (challenge s) 0 rings (proofs s) [] = Some (Some (concat Rs))) by (apply verify_walks; exists Rs; split; [reflexivity|exact Wk]). congruence.
  - split; [discriminate|]. intros (Rs & Wk & _). assert (X : verify_loop c sha256 M (challenge s) 0 rings (proofs s) [] = Some (Some (concat Rs))) by (apply verify_walks; exists Rs; split; [reflexivity|exact Wk]). congruence.
Qed.

(** ** signing *)
Definition bad : Prop := exists R i j, ~ valid_scalar (H R i j).
Lemma good_or_bad R i j : valid_scalar (H R i j) \/ bad.
Proof. destruct (verify_secret (H R i j)) eqn:V; [left; apply verified_iff; exact V|]. right. exists R, i, j. intros G. apply verified_iff in G. congruence. Qed.
Lemma loop_ext p p' i : forall keys j e R, (forall m, (j <= m < j + length keys)%nat -> nth_error p' m = nth_error p m) ->
  verify_ring_loop c sha256 M p' i j keys e R = verify_ring_loop c sha256 M p i j keys e R.
Proof.
  induction keys as [|P keys IH]; intros j e R E; [reflexivity|]. cbn [verify_ring_loop]. cbn [length] in E. rewrite (E j) by lia. destruct (nth_error p j) as [s|]; [|reflexivity]. cbn [obind].
  destruct (_ || _); [reflexivity|]. destruct (negb (point_bool _)); [reflexivity|]. destruct (negb (scalar_bool _)); [reflexivity|]. apply IH. intros m Hm. apply E. lia.
Qed.
Lemma prefix_walk p i rest : forall pre j e e' R, rest <> [] -> scalar_bool e = true -> e_at_loop c sha256 M p i j pre e = Some (Some e') ->
  scalar_bool e' = true /\ exists R', verify_ring_loop c sha256 M p i j (pre ++ rest) e R = verify_ring_loop c sha256 M p i (j + length pre) rest e' R'.
Proof.
  induction pre as [|P pre IH]; intros j e e' R NE Be E; cbn [e_at_loop] in E.
  - injection E as <-. split; [exact Be|]. exists R. cbn [length app]. rewrite Nat.add_0_r. reflexivity.
  - destruct (nth_error p j) as [s|] eqn:En; [|discriminate]. cbn [obind] in E. destruct (scalar_bool s) eqn:Bs; cbn [negb] in E; [|discriminate].
    destruct (point_bool (calculate_R c s e P)) eqn:BR; cbn [negb] in E; [|discriminate]. destruct (scalar_bool (borromean_hash sha256 M (calculate_R c s e P) i (S j))) eqn:BH; cbn [negb] in E; [|discriminate].
    cbn [app verify_ring_loop]. rewrite En. cbn [obind]. rewrite Bs, Be. cbn [negb orb]. rewrite BR. cbn [negb]. rewrite BH. cbn [negb].
    destruct (IH (S j) _ e' (calculate_R c s e P) NE BH E) as (Be' & R' & Eq). split; [exact Be'|]. exists R'. rewrite Eq. cbn [length]. f_equal. lia.
Qed.
Lemma suffix_walk p i : forall suf j R L, last_R_loop c sha256 M p i j suf R = Some L -> point_bool L = true -> point_bool R = true ->
  verify_ring_loop c sha256 M p i j suf (H R i j) R = Some L \/ bad.
Proof.
  induction suf as [|P suf IH]; intros j R L E BL BR; cbn [last_R_loop] in E; [left; exact E|].
  destruct (nth_error p j) as [s|] eqn:En; [|discriminate]. cbn [obind] in E. destruct (scalar_bool s) eqn:Bs; cbn [negb] in E; [|injection E as <-; discriminate].
  change (borromean_hash sha256 M R i j) with (H R i j) in E. destruct (scalar_bool (H R i j)) eqn:Be; cbn [negb] in E; [|injection E as <-; discriminate].
  set (R1 := calculate_R c s (H R i j) P) in *. destruct (point_bool R1) eqn:B1; cbn [negb] in E; [|injection E as <-; discriminate].
  cbn [verify_ring_loop]. rewrite En. cbn [obind]. rewrite Bs, Be. cbn [negb orb]. fold R1. rewrite B1. cbn [negb]. change (borromean_hash sha256 M R1 i (S j)) with (H R1 i (S j)).
  destruct (good_or_bad R1 i (S j)) as [G|G]; [|right; exact G]. rewrite (valid_bool _ G). cbn [negb]. apply IH; assumption.
Qed.
Lemma assign_nth {A} (l : list A) n x l' : assign l n x = Some l' -> nth_error l' n = Some x /\ (forall m, m <> n -> nth_error l' m = nth_error l m) /\ length l' = length l.
Proof.
  revert n l'. induction l as [|y l IH]; intros n l' E; [discriminate|]. destruct n as [|n]; cbn [assign] in E.
  - injection E as <-. split; [reflexivity|]. split; [intros [|m] N; [contradiction|reflexivity]|reflexivity].
  - destruct (assign l n x) as [r|] eqn:Er; [|discriminate]. injection E as <-. destruct (IH n r Er) as (A1 & A2 & A3). split; [exact A1|]. split; [intros [|m] N; [reflexivity|]; cbn [nth_error]; apply A2; congruence|cbn [length]; congruence].
Qed.
Definition well (s : list Z) : Prop := length s = 32%nat /\ bytes_ok s.
Lemma split_at {A} (l : list A) n x : nth_error l n = Some x -> l = firstn n l ++ x :: skipn (S n) l /\ length (firstn n l) = n.
Proof.
  revert l. induction n as [|n IH]; intros [|y l] E; try discriminate; cbn [nth_error] in E.
  - injection E as ->. split; reflexivity.
  - destruct (IH l E) as [U V]. split; [cbn [firstn skipn app]; f_equal; exact U|cbn [firstn length]; congruence].
Qed.
(** closing: the link at the known key gives the salt's point *)
Lemma closing k e x P : well k -> well x -> valid_scalar k -> length e = 32%nat -> bytes_ok e -> valid_scalar e -> secret_to_public c x = Some P ->
  scalar_bool (scalar_sub k (scalar_mul e x)) = true -> link c (scalar_sub k (scalar_mul e x)) e P (mulG c (be_value k)).
Proof.
  intros [Lk Bk] [Lx Bx] Vk Le Bbe Ve Px Bs. unfold secret_to_public in Px. destruct (verify_secret x) eqn:Vx; [|discriminate]. injection Px as <-. apply verified_iff in Vx.
  assert (Ok : scalar_ok k) by (split; [exact Lk|split; [exact Bk|apply Vk]]). assert (Ox : scalar_ok x) by (split; [exact Lx|split; [exact Bx|apply Vx]]).
  assert (Oe : scalar_ok e) by (split; [exact Le|split; [exact Bbe|apply Ve]]).
  destruct (C74_scalars_partial e x Oe Ox) as (_ & [Om Em] & _). destruct (C74_scalars_partial k (scalar_mul e x) Ok Om) as (_ & _ & Sb). destruct (Sb ltac:(unfold valid_scalar in Vk; lia)) as [_ [Os Es]].
  assert (Vs : valid_scalar (scalar_sub k (scalar_mul e x))).
  { pose proof (scalar_range _ Os). destruct (Z.eq_dec (be_value (scalar_sub k (scalar_mul e x))) 0) as [Z0|Z0]; [|unfold valid_scalar; lia].
    apply null_value in Z0; [|exact Os]. rewrite Z0 in Bs. apply scalar_bool_iff in Bs. contradiction. }
  assert (K : (be_value (scalar_sub k (scalar_mul e x)) + be_value e * be_value x) mod order = be_value k).
  { rewrite Es, Em. rewrite Zplus_mod_idemp_l. replace (be_value k - (be_value e * be_value x) mod order + be_value e * be_value x) with (be_value k + (be_value e * be_value x - (be_value e * be_value x) mod order)) by ring.
    rewrite <- Zplus_mod_idemp_r, Zminus_mod_idemp_r, Z.sub_diag, Z.mod_0_l, Z.add_0_r by (pose proof order_pos; lia). apply Z.mod_small. unfold valid_scalar in Vk. lia. }
  split; [exact Vs|]. split; [exact Ve|]. exists (be_value x). split; [apply point_true; [exact C|exact Vx]|]. rewrite K. split; [unfold valid_scalar in Vk; lia|reflexivity].
Qed.
Lemma salt_point k : point_bool (ec_point_mul c (generator c) k) = true -> valid_scalar k /\ ec_point_mul c (generator c) k = mulG c (be_value k).
Proof.
  intros B. apply mul_bool in B. destruct B as [V _]. split; [exact V|]. destruct (mul_value _ _ _ V gen_dlog) as [E _]. rewrite E, Z.mul_1_l, Z.mod_small by (unfold valid_scalar in V; lia). reflexivity.
Qed.
Hypothesis sha_ok : forall x, length (sha256 x) = 32%nat /\ bytes_ok (sha256 x).
Lemma e_at_hash p i : forall pre j e e', length e = 32%nat /\ bytes_ok e -> e_at_loop c sha256 M p i j pre e = Some (Some e') -> length e' = 32%nat /\ bytes_ok e'.
Proof.
  induction pre as [|P pre IH]; intros j e e' W E; cbn [e_at_loop] in E; [injection E as <-; exact W|]. destruct (nth_error p j) as [s|]; [|discriminate]. cbn [obind] in E.
  destruct (negb _); [discriminate|]. destruct (negb _); [discriminate|]. destruct (negb _); [discriminate|]. apply IH in E; [exact E|]. apply sha_ok.
Qed.
Lemma e_at_valid p i : forall pre j R i0 j0 e', e_at_loop c sha256 M p i j pre (H R i0 j0) = Some (Some e') -> valid_scalar e' \/ bad.
Proof.
  induction pre as [|P pre IH]; intros j R i0 j0 e' E; cbn [e_at_loop] in E; [injection E as <-; apply good_or_bad|]. destruct (nth_error p j) as [s|]; [|discriminate]. cbn [obind] in E.
  destruct (negb _); [discriminate|]. destruct (negb _); [discriminate|]. destruct (negb _); [discriminate|]. apply IH in E. exact E.
Qed.
(** one ring *)
Lemma ring_closes ring i known p p' salts prf e e0 L P x salt : nth_error salts i = Some salt -> well salt -> nth_error prf i = Some p ->
  calculate_last_R_signing c sha256 ring i M prf known salts = Some L -> point_bool L = true ->
  scalar_bool (H e0 i 0) = true -> e_at_loop c sha256 M p i 0 (firstn known ring) (H e0 i 0) = Some (Some e) ->
  nth_error ring known = Some P -> well x -> secret_to_public c x = Some P ->
  scalar_bool (scalar_sub salt (scalar_mul e x)) = true -> assign p known (scalar_sub salt (scalar_mul e x)) = Some p' ->
  verify_ring_loop c sha256 M p' i 0 ring (H e0 i 0) point_null = Some L \/ bad.
Proof.
  intros Es Ws Ep EL BL Be0 Ee EP Wx Px Bs Ea. unfold calculate_last_R_signing in EL. rewrite Es in EL. cbn [obind] in EL.
  destruct (point_bool (ec_point_mul c (generator c) salt)) eqn:BR; cbn [negb] in EL; [|injection EL as <-; discriminate]. rewrite Ep in EL.
  destruct (salt_point salt BR) as [Vk ER]. rewrite ER in EL. destruct (assign_nth p known _ p' Ea) as (A1 & A2 & A3). destruct (split_at ring known P EP) as [Sr Lf].
  assert (Ee' : e_at_loop c sha256 M p' i 0 (firstn known ring) (H e0 i 0) = Some (Some e)).
  { rewrite <- Ee. assert (X : forall keys j e, (j + length keys <= known)%nat -> e_at_loop c sha256 M p' i j keys e = e_at_loop c sha256 M p i j keys e).
    { induction keys as [|K keys IHk]; intros j e1 Hj; [reflexivity|]. cbn [length] in Hj. cbn [e_at_loop]. rewrite A2 by lia. destruct (nth_error p j); [|reflexivity]. cbn [obind].
      destruct (negb _); [reflexivity|]. destruct (negb _); [reflexivity|]. destruct (negb _); [reflexivity|]. apply IHk. lia. }
    apply X. lia. }
  destruct (prefix_walk p' i (P :: skipn (S known) ring) (firstn known ring) 0 (H e0 i 0) e point_null ltac:(discriminate) Be0 Ee') as (Be & R' & Eq).
  rewrite Sr at 1. rewrite Eq, Lf. cbn [plus]. cbn [verify_ring_loop]. rewrite A1. cbn [obind]. rewrite Bs, Be. cbn [negb orb].
  destruct (e_at_hash p i _ 0 (H e0 i 0) e (sha_ok _) Ee) as [Le Bbe]. destruct (e_at_valid p i _ 0 e0 i 0%nat e Ee) as [Ve|B]; [|right; exact B].
  pose proof (closing salt e x P Ws Wx Vk Le Bbe Ve Px Bs) as LK. rewrite (link_R _ _ _ _ LK). rewrite (link_point _ _ _ _ LK). cbn [negb].
  destruct (good_or_bad (mulG c (be_value salt)) i (S known)) as [G|G]; [|right; exact G]. change (borromean_hash sha256 M (mulG c (be_value salt)) i (S known)) with (H (mulG c (be_value salt)) i (S known)).
  rewrite (valid_bool _ G). cbn [negb]. destruct (suffix_walk p i (skipn (S known) ring) (S known) (mulG c (be_value salt)) L EL BL (link_point _ _ _ _ LK)) as [X|B]; [|right; exact B].
  left. rewrite <- X. apply loop_ext. intros m Hm. apply A2. lia.
Qed.
Lemma e0_ext prf prf' salts : forall rings known i w, (forall m, (i <= m)%nat -> nth_error prf' m = nth_error prf m) -> e0_loop c sha256 M prf' salts i rings known w = e0_loop c sha256 M prf salts i rings known w.
Proof.
  induction rings as [|ring rings IH]; intros known i w E; [reflexivity|]. destruct known as [|k known]; [reflexivity|]. cbn [e0_loop]. unfold calculate_last_R_signing. rewrite (E i) by lia.
  destruct (nth_error salts i); [|reflexivity]. cbn [obind]. match goal with |- obind ?a _ = _ => destruct a as [R|]; [|reflexivity] end. cbn [obind]. destruct (negb _); [reflexivity|]. apply IH. intros m Hm. apply E. lia.
Qed.
Definition map_ok (map : list (list Z * list Z)) : Prop := forall P x, lookup map P = Some x -> well x /\ secret_to_public c x = Some P.
Lemma join_ok map salts e0 : map_ok map -> Forall well salts -> forall rings i known prf prf' w W,
  Forall2 (fun ring k => exists P x, nth_error ring k = Some P /\ lookup map P = Some x) rings known ->
  join_loop c sha256 M e0 map salts i rings known prf = Some (Some prf') -> e0_loop c sha256 M prf salts i rings known w = Some (Some W) ->
  length prf' = length prf /\ (forall m, (m < i)%nat -> nth_error prf' m = nth_error prf m) /\ (verify_loop c sha256 M e0 i rings (skipn i prf') w = Some (Some W) \/ bad).
Proof.
  intros MO FS. induction rings as [|ring rings IH]; intros i known prf prf' w W F J E.
  - cbn [join_loop] in J. injection J as <-. split; [reflexivity|]. split; [reflexivity|]. left. cbn [e0_loop] in E. injection E as <-. destruct (skipn i prf); reflexivity.
  - destruct known as [|k known]; [inversion F|]. inversion F as [|? ? ? ? (P & x & EP & Ex) F']; subst. cbn [join_loop] in J. cbn [e0_loop] in E.
    change (borromean_hash sha256 M e0 i 0) with (H e0 i 0) in J. destruct (scalar_bool (H e0 i 0)) eqn:Be; cbn [negb] in J; [|discriminate].
    destruct (nth_error prf i) as [p|] eqn:Ep; [|discriminate]. cbn [obind] in J.
    destruct (e_at_loop c sha256 M p i 0 (firstn k ring) (H e0 i 0)) as [[e|]|] eqn:Ee; cbn [obind] in J; [|discriminate|discriminate].
    rewrite EP in J. cbn [obind] in J. rewrite Ex in J. cbn [or_null] in J. destruct (nth_error salts i) as [salt|] eqn:Es; [|discriminate]. cbn [obind] in J.
    destruct (scalar_bool (scalar_sub salt (scalar_mul e x))) eqn:Bs; cbn [negb] in J; [|discriminate].
    destruct (assign p k (scalar_sub salt (scalar_mul e x))) as [p'|] eqn:Ea; [|discriminate]. cbn [obind] in J. destruct (assign prf i p') as [prf1|] eqn:Ea1; [|discriminate]. cbn [obind] in J.
    destruct (calculate_last_R_signing c sha256 ring i M prf k salts) as [L|] eqn:EL; [|discriminate]. cbn [obind] in E. destruct (point_bool L) eqn:BL; cbn [negb] in E; [|discriminate].
    destruct (assign_nth prf i p' prf1 Ea1) as (A1 & A2 & A3). rewrite <- (e0_ext prf prf1 salts rings known (S i) (w ++ L)) in E by (intros m Hm; apply A2; lia).
    destruct (IH (S i) known prf1 prf' (w ++ L) W F' J E) as (I1 & I2 & I3). split; [congruence|]. split; [intros m Hm; rewrite I2 by lia; apply A2; lia|].
    assert (Ws : well salt) by (rewrite Forall_forall in FS; apply FS; apply nth_error_In with i; exact Es). destruct (MO P x Ex) as [Wx Px].
    destruct (ring_closes ring i k p p' salts prf e e0 L P x salt Es Ws Ep EL BL Be Ee EP Wx Px Bs Ea) as [V|B]; [|right; exact B]. destruct I3 as [I3|B]; [|right; exact B]. left.
    assert (Ei : nth_error prf' i = Some p') by (rewrite I2 by lia; exact A1). destruct (split_at prf' i p' Ei) as [Sp Lp].
    assert (Sk : skipn i prf' = p' :: skipn (S i) prf').
    { rewrite Sp at 1. rewrite <- Lp at 1. rewrite skipn_app, skipn_all, Nat.sub_diag. reflexivity. }
    rewrite Sk. cbn [verify_loop]. change (borromean_hash sha256 M e0 i 0) with (H e0 i 0). rewrite Be. cbn [negb]. rewrite V. cbn [obind]. rewrite BL. cbn [negb]. exact I3.
Qed.
Lemma lookup_app map k s P : lookup (map ++ [(k, s)]) P = match lookup map P with Some x => Some x | None => if list_eqb k P then Some s else None end.
Proof.
  unfold lookup. induction map as [|kv map IH]; cbn [app find]; [cbn [fst snd]; destruct (list_eqb k P); reflexivity|]. destruct (list_eqb (fst kv) P); [reflexivity|exact IH].
Qed.
Lemma keys_map_ok secrets : forall out map, Forall well secrets -> map_ok out -> generate_keys_map c out secrets = Some map -> map_ok map.
Proof.
  induction secrets as [|s secrets IH]; intros out map F O E; cbn [generate_keys_map] in E; [injection E as <-; exact O|]. inversion F as [|? ? Ws F']; subst.
  destruct (secret_to_public c s) as [k|] eqn:Es; [|discriminate]. apply IH in E; [exact E|exact F'|]. destruct (lookup out k); [exact O|]. intros P x. rewrite lookup_app. destruct (lookup out P) as [y|] eqn:Ey; [intros X; injection X as <-; apply O; exact Ey|].
  destruct (list_eqb k P) eqn:Ek; [|discriminate]. apply list_eqb_spec in Ek. subst P. intros X. injection X as <-. split; assumption.
Qed.
Lemma index_of_ok key ring n : index_of key ring = Some n -> nth_error ring n = Some key.
Proof.
  revert n. induction ring as [|k ring IH]; intros n E; cbn [index_of] in E; [discriminate|]. destruct (list_eqb k key) eqn:Ek; [apply list_eqb_spec in Ek; injection E as <-; subst k; reflexivity|].
  destruct (index_of key ring) as [m|]; [|discriminate]. injection E as <-. apply IH. reflexivity.
Qed.
Lemma indexes_ok map : forall rings known, generate_known_indexes map rings = Some known -> Forall2 (fun ring k => exists P x, nth_error ring k = Some P /\ lookup map P = Some x) rings known.
Proof.
  induction rings as [|ring rings IH]; intros known E; cbn [generate_known_indexes] in E; [injection E as <-; constructor|].
  destruct (known_keys_in_ring map ring) as [|k0 ks] eqn:Ek; [discriminate|]. set (kl := last (k0 :: ks) []) in E. destruct (index_of kl ring) as [n|] eqn:Ei; [|discriminate].
  destruct (generate_known_indexes map rings) as [l|]; [|discriminate]. injection E as <-. constructor; [|apply IH; reflexivity].
  assert (I : In kl (known_keys_in_ring map ring)).
  { rewrite Ek. unfold kl. rewrite (app_removelast_last (l := k0 :: ks) []) at 2 by discriminate. apply in_app_iff. right. left. reflexivity. }
  unfold known_keys_in_ring in I. apply filter_In in I. destruct I as [_ I]. destruct (lookup map kl) as [x|] eqn:El; [|discriminate]. exists kl, x. split; [apply index_of_ok; exact Ei|exact El].
Qed.
(** What sign returns verifies, or some SHA-256 value along the way was not a
    scalar between zero and the group order. *)
Theorem C79_sign out secrets rings salts s : Forall well secrets -> Forall well salts -> length (proofs out) = length rings ->
  ring_sign c sha256 out secrets rings M salts = Some (Some s) ->
  ring_verify c sha256 rings M s = Some true \/ exists R i j, ~ valid_scalar (H R i j).
Proof.
  intros FS FK L E. unfold ring_sign in E. destruct (len rings >=? 2 ^ 32 - 1) eqn:G; [discriminate|]. destruct (generate_keys_map c [] secrets) as [map|] eqn:Em; [|discriminate].
  destruct (generate_known_indexes map rings) as [known|] eqn:Ek; [|discriminate].
  destruct (e0_loop c sha256 M (proofs out) salts 0 rings known []) as [[w|]|] eqn:E0; cbn [obind] in E; [|discriminate|discriminate].
  destruct (join_loop c sha256 M (sha256 (w ++ M)) map salts 0 rings known (proofs out)) as [[p|]|] eqn:Ej; cbn [obind] in E; [|discriminate|discriminate]. injection E as <-.
  assert (MO : map_ok map) by (apply (keys_map_ok secrets [] map FS); [intros P x X; discriminate|exact Em]).
  destruct (join_ok map salts (sha256 (w ++ M)) MO FK rings 0 known (proofs out) p [] w (indexes_ok map rings known Ek) Ej E0) as (I1 & _ & [V|B]); [|right; exact B].
  left. unfold ring_verify. rewrite G. cbn [proofs challenge orb]. assert (L' : len p = len rings) by (unfold len; congruence). rewrite L', Z.eqb_refl. cbn [negb].
  cbn [skipn] in V. rewrite V. cbn [obind]. f_equal. apply list_eqb_spec. reflexivity.
Qed.
(** Verification is defined when each list of proofs covers its ring. *)
Theorem C79_defined rings s : Forall2 (fun ring p => (length ring <= length p)%nat) rings (proofs s) -> exists b, ring_verify c sha256 rings M s = Some b.
Proof.
  intros F. unfold ring_verify. destruct (_ || _); [exists false; reflexivity|].
  assert (X : forall e i w rings ps, Forall2 (fun (ring p : list (list Z)) => (length ring <= length p)%nat) rings ps -> exists r, verify_loop c sha256 M e i rings ps w = Some r).
  { clear. intros e i w rings ps F. revert i w. induction F as [|ring p rings ps Hl F IH]; intros i w; [exists (Some w); reflexivity|]. cbn [verify_loop]. destruct (negb _); [exists None; reflexivity|].
    assert (Y : forall keys j e R, (j + length keys <= length p)%nat -> exists L, verify_ring_loop c sha256 M p i j keys e R = Some L).
    { clear. induction keys as [|P keys IH]; intros j e R Hj; [exists R; reflexivity|]. cbn [length] in Hj. cbn [verify_ring_loop]. destruct (nth_error p j) as [s|] eqn:E; [|apply nth_error_None in E; lia]. cbn [obind].
      destruct (_ || _); [eexists; reflexivity|]. destruct (negb _); [eexists; reflexivity|]. destruct (negb _); [eexists; reflexivity|]. apply IH. lia. }
    match goal with |- context [verify_ring_loop c sha256 M p i 0 ring ?e ?R] => destruct (Y ring 0%nat e R ltac:(lia)) as [L EL] end. rewrite EL. cbn [obind]. destruct (negb _); [exists None; reflexivity|]. apply IH. }
  destruct (X (challenge s) 0%nat [] rings (proofs s) F) as [[w|] E]; rewrite E; cbn [obind]; eexists; reflexivity.
Qed.
End Ring.
Print Assumptions C79_verify.
Print Assumptions C79_sign.
Print Assumptions C79_defined.

(** Only the number of proof lists is checked: a list shorter than its ring is read
    out of bounds. *)
Theorem C79_short_proofs_refuted c sha256 M P e0 : next_challenge sha256 M e0 0 0 <> null32 ->
  len [[P]] = len (proofs (mkring e0 [[]])) /\ ring_verify c sha256 [[P]] M (mkring e0 [[]]) = None.
Proof.
  intros N. split; [reflexivity|]. unfold ring_verify. cbn [proofs challenge verify_loop]. change (borromean_hash sha256 M e0 0 0) with (next_challenge sha256 M e0 0 0).
  apply scalar_bool_iff in N. rewrite N. reflexivity.
Qed.
(** A challenge not below the group order makes sign succeed with a signature that
    does not verify. *)
Theorem C79_sign_refuted : exists c sha256 M out secrets rings salts s, curve_ok c /\ (forall x, length (sha256 x) = 32%nat /\ bytes_ok (sha256 x)) /\
  Forall well secrets /\ Forall well salts /\ length (proofs out) = length rings /\
  ring_sign c sha256 out secrets rings M salts = Some (Some s) /\ ring_verify c sha256 rings M s = Some false.
Proof.
  exists toy, (fun _ => repeat 255 32), [], (mkring null32 [[null32]]), [be_bytes 32 1], [[mulG toy 1]], [be_bytes 32 1], (mkring (repeat 255 32) [[be_bytes 32 1]]).
  split; [exact toy_ok|]. split; [intros _; split; [reflexivity|apply Forall_forall; intros z I; apply repeat_spec in I; subst z; split; lia]|].
  assert (W : Forall well [be_bytes 32 1]) by (apply Forall_cons; [split; [apply be_bytes_length|apply be_bytes_ok]|apply Forall_nil]).
  split; [exact W|]. split; [exact W|]. split; [reflexivity|]. split; vm_compute; reflexivity.
Qed.
Print Assumptions C79_short_proofs_refuted.
Print Assumptions C79_sign_refuted.

(** ** Satisfiability: two rings, a known key in each, a stand-in hash. *)
Definition toy_sha (x : list Z) : list Z := be_bytes 32 (1 + fold_left (fun a b => (a * 257 + b) mod 2 ^ 250) x 7).
Definition toy_rings : list (list (list Z)) := [[mulG toy 11; mulG toy 22; mulG toy 33]; [mulG toy 44; mulG toy 55]].
Definition toy_out : ring_sig := mkring null32 [[be_bytes 32 901; be_bytes 32 902; be_bytes 32 903]; [be_bytes 32 904; be_bytes 32 905]].
Example C79_ex : exists s, ring_sign toy toy_sha toy_out [be_bytes 32 22; be_bytes 32 44] toy_rings [1; 2; 3] [be_bytes 32 1234; be_bytes 32 5678] = Some (Some s) /\
  ring_verify toy toy_sha toy_rings [1; 2; 3] s = Some true /\ ring_verify toy toy_sha toy_rings [1; 2; 4] s = Some false.
Proof. eexists. split; [vm_compute; reflexivity|]. split; vm_compute; reflexivity. Qed.
