(** Proofs: the JSON text of properties determines their values. *)
From Coq Require Import String.
From Verif Require Import Base Bytes RadixModel TextSpec TextModel TextProps VerSpec VerProps PropsSpec PropsModel PropsProps.

Definition digit_c (c : Z) : Prop := 48 <= c <= 57.
(** What may follow a value. *)
Definition follows (r : list Z) : Prop := match r with [] => True | c :: _ => c = 44 \/ c = 93 \/ c = 125 \/ c = 10 end.
Lemma app_digits a : forall b r r', Forall digit_c a -> Forall digit_c b -> follows r -> follows r' -> a ++ r = b ++ r' -> a = b /\ r = r'.
Proof.
  induction a as [|x a IH]; intros [|y b] r r' Fa Fb R R' E; cbn in E.
  - now split.
  - destruct r as [|z r]; [discriminate|]. injection E as -> _. inversion Fb as [|? ? D _]; subst. unfold digit_c in D. cbn in R. lia.
  - destruct r' as [|z r']; [discriminate|]. injection E as <- _. inversion Fa as [|? ? D _]; subst. unfold digit_c in D. cbn in R'. lia.
  - injection E as -> E. inversion Fa; inversion Fb; subst. destruct (IH b r r') as [-> ->]; auto.
Qed.
Lemma app_quote a : forall b r r', plain a -> plain b -> a ++ 34 :: r = b ++ 34 :: r' -> a = b /\ r = r'.
Proof.
  induction a as [|x a IH]; intros [|y b] r r' Fa Fb E; cbn in E.
  - injection E as E. now split.
  - injection E as E0 _. inversion Fb as [|? ? D _]; subst. lia.
  - injection E as E0 _. inversion Fa as [|? ? D _]; subst. lia.
  - injection E as -> E. inversion Fa; inversion Fb; subst. destruct (IH b r r') as [-> ->]; auto.
Qed.
Lemma decimal_digits n : 0 <= n < 2 ^ 64 -> exists c r, serialize_decimal n = c :: r /\ Forall digit_c (c :: r).
Proof.
  intros R. destruct (serialized n R) as [[Nt M] _]. apply mean_digits in M. destruct M as (F & _). destruct (serialize_decimal n) as [|c r]; [congruence|]. exists c, r. split; [reflexivity|].
  apply Forall_forall. intros y Hy. rewrite forallb_forall in F. specialize (F y Hy). unfold is_ascii_number in F. unfold digit_c. lia.
Qed.
Lemma decimal_inj a b : 0 <= a < 2 ^ 64 -> 0 <= b < 2 ^ 64 -> serialize_decimal a = serialize_decimal b -> a = b.
Proof.
  intros A B E. destruct (serialized a A) as [[_ Ma] _]. destruct (serialized b B) as [[_ Mb] _]. rewrite E in Ma. apply mean_digits in Ma, Mb. destruct Ma as (_ & Va & _), Mb as (_ & Vb & _). lia.
Qed.
Lemma small64 n : small n -> - 2 ^ 64 < n < 2 ^ 64.
Proof. unfold small. intros H. assert (2 ^ 53 < 2 ^ 64) by reflexivity. lia. Qed.
Lemma int_inj a b r r' : small a -> small b -> follows r -> follows r' -> serialize_int a ++ r = serialize_int b ++ r' -> a = b /\ r = r'.
Proof.
  intros A B R R' E. pose proof (small64 a A). pose proof (small64 b B). unfold serialize_int in E.
  assert (X : forall n m, 0 <= n < 2 ^ 64 -> 0 <= m < 2 ^ 64 -> serialize_decimal n ++ r = serialize_decimal m ++ r' -> n = m /\ r = r').
  { intros n m N M E'. destruct (decimal_digits n N) as (c & t & En & Fn). destruct (decimal_digits m M) as (d & u & Em & Fm). rewrite En, Em in E'. destruct (app_digits _ _ _ _ Fn Fm R R' E') as [E1 E2]. split; [|exact E2].
    apply decimal_inj; try assumption. now rewrite En, Em. }
  assert (Y : forall n, 0 <= n < 2 ^ 64 -> forall t t', serialize_decimal n ++ t <> 45 :: t').
  { intros n N t t' Q. destruct (decimal_digits n N) as (c & u & En & Fn). rewrite En in Q. injection Q as Q _. inversion Fn as [|? ? D _]; subst. unfold digit_c in D. lia. }
  destruct (Z.ltb_spec a 0), (Z.ltb_spec b 0).
  - rewrite <- !app_comm_cons in E. apply (f_equal (@tl Z)) in E. cbn [tl] in E. destruct (X (- a) (- b) ltac:(lia) ltac:(lia) E). split; [lia|assumption].
  - exfalso. symmetry in E. exact (Y b ltac:(lia) _ _ E).
  - exfalso. exact (Y a ltac:(lia) _ _ E).
  - apply X; [lia|lia|exact E].
Qed.
Definition fit (v : json) : Prop := all_in small plain v.
(** The text of a value without what precedes it at a depth. *)
Definition bare flat d name v t : Prop := write_json flat d (build name v) = Some (start_of flat d ++ t).
Definition complex (v : json) : bool := match v with Jarray _ | Jobject _ => true | _ => false end.
Lemma complex_build name v : fit v -> is_simple (build name v) = negb (complex v).
Proof.
  intros F. destruct v; try reflexivity.
  - destruct b; reflexivity.
  - cbn [build]. inversion F; subst. now rewrite from_number_some.
  - now rewrite build_array.
  - now rewrite build_object.
Qed.
(** The first character tells the kind. *)
Definition kind (v : json) (c : Z) : Prop :=
  match v with Jnull => c = 110 | Jbool true => c = 116 | Jbool false => c = 102 | Jstring _ => c = 34 | Jnumber _ => digit_c c \/ c = 45 | Jarray _ => c = 91 | Jobject _ => c = 123 end.
Lemma text_head flat d name v : fit v -> forall t, write_json flat d (build name v) = Some t -> exists c u, t = start_of flat d ++ c :: u /\ kind v c.
Proof.
  intros F t E. destruct v; cbn [build] in E.
  - injection E as <-. eexists _, _. split; reflexivity.
  - destruct b; injection E as <-; eexists _, _; (split; reflexivity).
  - injection E as <-. eexists _, _. split; reflexivity.
  - inversion F as [| | |? N| |]; subst. rewrite (from_number_some _ N) in E. injection E as <-. pose proof (small64 _ N). unfold serialize_int. destruct (Z.ltb_spec n 0).
    + eexists _, _. split; [reflexivity|]. now right.
    + destruct (decimal_digits n ltac:(lia)) as (c & r & En & Fn). rewrite En. eexists _, _. split; [reflexivity|]. left. now inversion Fn.
  - fold (build name) in E. change (array_add_all (array_props (name vs)) (map (build name) vs)) with (build name (Jarray vs)) in E. rewrite build_array, write_array in E. destruct (w_items _ _ _); [|discriminate]. injection E as <-. eexists _, _. split; reflexivity.
  - change (object_add_all object_props (map (fun m => (fst m, build name (snd m))) ms)) with (build name (Jobject ms)) in E. rewrite build_object, write_object in E. destruct (w_members _ _ _); [|discriminate]. injection E as <-. eexists _, _. split; reflexivity.
Qed.
Lemma spaces_differ n c r t : c <> 32 -> repeat 32 n ++ c :: r <> repeat 32 (n + 4) ++ t.
Proof. intros N. induction n as [|n IH]; cbn; intros E; [injection E as E _; congruence|]. injection E as E. contradiction. Qed.
(** The end of a list is not the start of an element. *)
Lemma end_start flat d c c' r t : c <> 32 -> (flat = true -> c <> c') -> end_of flat d ++ c :: r <> start_of flat (S d) ++ c' :: t.
Proof.
  intros N N'. unfold start_of, end_of. destruct flat; cbn [app]; intros E; [injection E as E _; now apply N'|]. injection E as E. change (32 :: 32 :: 32 :: 32 :: repeat 32 (d * 4) ++ c' :: t) with (repeat 32 (4 + d * 4) ++ c' :: t) in E. replace (4 + d * 4)%nat with (d * 4 + 4)%nat in E by lia. exact (spaces_differ _ _ _ _ N E).
Qed.
Lemma end_follows flat d c r : c = 93 \/ c = 125 -> follows (end_of flat d ++ c :: r).
Proof. unfold end_of. destruct flat; cbn; lia. Qed.
Lemma end_comma flat d c r t : c <> 44 -> end_of flat d ++ c :: r <> 44 :: t.
Proof. unfold end_of. destruct flat; cbn; intros N E; injection E as E _; congruence. Qed.
Lemma kind_plain v c : fit v -> kind v c -> c <> 93 /\ c <> 125 /\ c <> 10.
Proof. intros _. destruct v as [|[]| | | |]; cbn; unfold digit_c; lia. Qed.
Definition same_text flat name v : Prop := forall v' d t r r', fit v -> fit v' -> follows r -> follows r' ->
  forall t', write_json flat d (build name v) = Some t -> write_json flat d (build name v') = Some t' -> t ++ r = t' ++ r' -> v = v' /\ r = r'.
Lemma items_same flat name vs : (forall v, In v vs -> same_text flat name v) -> forall vs' d n n' t t' r r',
  (forall v, In v vs -> fit v) -> (forall v, In v vs' -> fit v) ->
  w_items flat d (map (fun v => (n, build name v)) vs) = Some t -> w_items flat d (map (fun v => (n', build name v)) vs') = Some t' ->
  t ++ end_of flat d ++ 93 :: r = t' ++ end_of flat d ++ 93 :: r' -> vs = vs' /\ r = r'.
Proof.
  induction vs as [|v vs IH]; intros S2 vs' d n n' t t' r r' F F' E E' Q.
  - injection E as <-. destruct vs' as [|v' vs']; [injection E' as <-; cbn [app] in Q; apply app_inv_head in Q; injection Q as ->; now split|].
    exfalso. cbn [map w_items] in E'. destruct (write_json flat (S d) (build name v')) as [a|] eqn:Ea; [|destruct (map _ vs'); discriminate].
    destruct (text_head _ _ _ _ (F' v' (or_introl eq_refl)) _ Ea) as (c & u & -> & K). destruct (kind_plain _ _ (F' v' (or_introl eq_refl)) K) as (K1 & K2 & _).
    assert (X : exists w, t' = start_of flat (S d) ++ c :: w). { destruct (map _ vs'); [injection E' as <-; now exists u|]. destruct (w_items _ _ _); [|discriminate]. injection E' as <-. rewrite <- app_assoc. eexists. reflexivity. }
    destruct X as [w ->]. cbn [app] in Q. rewrite <- app_assoc in Q. cbn [app] in Q. revert Q. apply end_start; [lia|congruence].
  - destruct vs' as [|v' vs'].
    + exfalso. injection E' as <-. cbn [map w_items] in E. destruct (write_json flat (S d) (build name v)) as [a|] eqn:Ea; [|destruct (map _ vs); discriminate].
      destruct (text_head _ _ _ _ (F v (or_introl eq_refl)) _ Ea) as (c & u & -> & K). destruct (kind_plain _ _ (F v (or_introl eq_refl)) K) as (K1 & K2 & _).
      assert (X : exists w, t = start_of flat (S d) ++ c :: w). { destruct (map _ vs); [injection E as <-; now exists u|]. destruct (w_items _ _ _); [|discriminate]. injection E as <-. rewrite <- app_assoc. eexists. reflexivity. }
      destruct X as [w ->]. cbn [app] in Q. rewrite <- app_assoc in Q. cbn [app] in Q. symmetry in Q. revert Q. apply end_start; [lia|congruence].
    + cbn [map w_items] in E, E'. destruct vs as [|v2 vs], vs' as [|v2' vs']; cbn [map] in E, E'.
      * destruct (S2 v (or_introl eq_refl) v' (S d) t (end_of flat d ++ 93 :: r) (end_of flat d ++ 93 :: r') (F v (or_introl eq_refl)) (F' v' (or_introl eq_refl)) ltac:(apply end_follows; lia) ltac:(apply end_follows; lia) t' E E' Q) as [-> Q'].
        apply app_inv_head in Q'. injection Q' as ->. now split.
      * exfalso. destruct (write_json flat (S d) (build name v')) as [a|] eqn:Ea; [|discriminate]. cbn [obind] in E'. destruct (w_items _ _ _) as [b|]; [|discriminate]. injection E' as <-. rewrite <- app_assoc in Q. cbn [app] in Q.
        destruct (S2 v (or_introl eq_refl) v' (S d) t (end_of flat d ++ 93 :: r) (44 :: b ++ end_of flat d ++ 93 :: r') (F v (or_introl eq_refl)) (F' v' (or_introl eq_refl)) ltac:(apply end_follows; lia) ltac:(cbn; lia) a E Ea Q) as [_ Q'].
        revert Q'. apply end_comma. lia.
      * exfalso. destruct (write_json flat (S d) (build name v)) as [a|] eqn:Ea; [|discriminate]. cbn [obind] in E. destruct (w_items _ _ _) as [b|]; [|discriminate]. injection E as <-. rewrite <- app_assoc in Q. cbn [app] in Q.
        destruct (S2 v (or_introl eq_refl) v' (S d) a (44 :: b ++ end_of flat d ++ 93 :: r) (end_of flat d ++ 93 :: r') (F v (or_introl eq_refl)) (F' v' (or_introl eq_refl)) ltac:(cbn; lia) ltac:(apply end_follows; lia) t' Ea E' Q) as [_ Q'].
        symmetry in Q'. revert Q'. apply end_comma. lia.
      * destruct (write_json flat (S d) (build name v)) as [a|] eqn:Ea; [|discriminate]. cbn [obind] in E. destruct (w_items flat d ((n, build name v2) :: _)) as [b|] eqn:Eb; [|discriminate]. injection E as <-.
        destruct (write_json flat (S d) (build name v')) as [a'|] eqn:Ea'; [|discriminate]. cbn [obind] in E'. destruct (w_items flat d ((n', build name v2') :: _)) as [b'|] eqn:Eb'; [|discriminate]. injection E' as <-.
        rewrite <- !app_assoc in Q. cbn [app] in Q.
        destruct (S2 v (or_introl eq_refl) v' (S d) a (44 :: b ++ end_of flat d ++ 93 :: r) (44 :: b' ++ end_of flat d ++ 93 :: r') (F v (or_introl eq_refl)) (F' v' (or_introl eq_refl)) ltac:(cbn; lia) ltac:(cbn; lia) a' Ea Ea' Q) as [-> Q'].
        injection Q' as Q'. destruct (IH (fun w H => S2 w (or_intror H)) (v2' :: vs') d n n' b b' r r' (fun w H => F w (or_intror H)) (fun w H => F' w (or_intror H)) Eb Eb' Q') as [E1 ->]. rewrite E1. now split.
Qed.
Lemma mixed flat d name v v' t t' r r' : fit v -> fit v' -> complex v = false -> complex v' = true ->
  write_json flat O (build name v) = Some t -> write_json flat (S d) (build name v') = Some t' -> t ++ r <> t' ++ r'.
Proof.
  intros F F' C C' E E' Q. destruct (text_head _ _ _ _ F _ E) as (c & u & -> & K). destruct (text_head _ _ _ _ F' _ E') as (c' & u' & -> & K').
  assert (Z0 : start_of flat 0 = []) by (destruct flat; reflexivity). rewrite Z0 in Q. destruct (kind_plain _ _ F K) as (_ & _ & N10). unfold start_of in Q. destruct flat; cbn [app end_of] in Q.
  - injection Q as Q _. subst c'. destruct v as [|[]| | | |], v'; try discriminate; cbn in K, K'; unfold digit_c in *; lia.
  - injection Q as Q _. lia.
Qed.
Lemma value_same flat d name v v' t t' r r' : same_text flat name v -> fit v -> fit v' -> follows r -> follows r' ->
  write_json flat (if is_simple (build name v) then O else S d) (build name v) = Some t -> write_json flat (if is_simple (build name v') then O else S d) (build name v') = Some t' ->
  t ++ r = t' ++ r' -> v = v' /\ r = r'.
Proof.
  intros S2 F F' R R' E E' Q. rewrite (complex_build name v F) in E. rewrite (complex_build name v' F') in E'. destruct (complex v) eqn:C, (complex v') eqn:C'; cbn [negb] in E, E'.
  - exact (S2 v' _ t r r' F F' R R' t' E E' Q).
  - exfalso. symmetry in Q. exact (mixed flat d name v' v t' t r' r F' F C' C E' E Q).
  - exfalso. exact (mixed flat d name v v' t t' r r' F F' C C' E E' Q).
  - exact (S2 v' _ t r r' F F' R R' t' E E' Q).
Qed.
Lemma member_same flat d name s v s' v' t t' r r' : same_text flat name v -> fit v -> fit v' -> plain s -> plain s' -> follows r -> follows r' ->
  w_member flat d s (build name v) = Some t -> w_member flat d s' (build name v') = Some t' -> t ++ r = t' ++ r' -> (s, v) = (s', v') /\ r = r'.
Proof.
  intros S2 F F' P P' R R' E E' Q. unfold w_member in E, E'. destruct (write_json _ _ (build name v)) as [a|] eqn:Ea; [|discriminate]. destruct (write_json _ _ (build name v')) as [a'|] eqn:Ea'; [|discriminate].
  injection E as <-. injection E' as <-. rewrite <- !app_assoc in Q. apply app_inv_head in Q. rewrite <- !app_comm_cons in Q. apply (f_equal (@tl Z)) in Q. cbn [tl] in Q. rewrite <- !app_assoc in Q. rewrite <- !app_comm_cons in Q.
  destruct (app_quote _ _ _ _ P P' Q) as [-> Q2]. apply (f_equal (@tl Z)) in Q2. cbn [tl] in Q2. destruct (value_same flat d name v v' a a' r r' S2 F F' R R' Ea Ea' Q2) as [-> ->]. now split.
Qed.
Lemma member_head flat d s c t : w_member flat d s c = Some t -> exists w, t = start_of flat (S d) ++ 34 :: w.
Proof. unfold w_member. destruct (write_json _ _ c); [|discriminate]. cbn [obind]. intros E. injection E as <-. eexists. reflexivity. Qed.
Lemma members_head flat d s v ms t : w_members flat d ((s, v) :: ms) = Some t -> exists w, t = start_of flat (S d) ++ 34 :: w.
Proof.
  cbn [w_members]. destruct ms; [apply member_head|]. destruct (w_member flat d s v) as [a|] eqn:Ea; [|discriminate]. cbn [obind]. destruct (w_members _ _ _); [|discriminate]. cbn [obind]. intros E. injection E as <-.
  destruct (member_head _ _ _ _ _ Ea) as [w ->]. rewrite <- app_assoc. eexists. reflexivity.
Qed.
Lemma members_same flat name ms : (forall s v, In (s, v) ms -> same_text flat name v) -> forall ms' d t t' r r',
  (forall s v, In (s, v) ms -> plain s /\ fit v) -> (forall s v, In (s, v) ms' -> plain s /\ fit v) ->
  w_members flat d (map (fun m => (fst m, build name (snd m))) ms) = Some t -> w_members flat d (map (fun m => (fst m, build name (snd m))) ms') = Some t' ->
  t ++ end_of flat d ++ 125 :: r = t' ++ end_of flat d ++ 125 :: r' -> ms = ms' /\ r = r'.
Proof.
  induction ms as [|[s v] ms IH]; intros S2 ms' d t t' r r' F F' E E' Q.
  - injection E as <-. destruct ms' as [|[s' v'] ms']; [injection E' as <-; cbn [app] in Q; apply app_inv_head in Q; injection Q as ->; now split|].
    exfalso. cbn [map fst snd] in E'. destruct (members_head _ _ _ _ _ _ E') as [w ->]. cbn [app] in Q. rewrite <- app_assoc in Q. cbn [app] in Q. revert Q. apply end_start; lia.
  - destruct ms' as [|[s' v'] ms'].
    + exfalso. injection E' as <-. cbn [map fst snd] in E. destruct (members_head _ _ _ _ _ _ E) as [w ->]. cbn [app] in Q. rewrite <- app_assoc in Q. cbn [app] in Q. symmetry in Q. revert Q. apply end_start; lia.
    + cbn [map w_members fst snd] in E, E'. destruct (F s v (or_introl eq_refl)) as [Ps Fv]. destruct (F' s' v' (or_introl eq_refl)) as [Ps' Fv']. pose proof (S2 s v (or_introl eq_refl)) as Sv.
      destruct ms as [|[s2 v2] ms], ms' as [|[s2' v2'] ms']; cbn [map fst snd] in E, E'.
      * destruct (member_same flat d name s v s' v' t t' (end_of flat d ++ 125 :: r) (end_of flat d ++ 125 :: r') Sv Fv Fv' Ps Ps' ltac:(apply end_follows; lia) ltac:(apply end_follows; lia) E E' Q) as [E1 Q'].
        apply app_inv_head in Q'. injection Q' as ->. rewrite E1. now split.
      * exfalso. destruct (w_member flat d s' (build name v')) as [a|] eqn:Ea; [|discriminate]. cbn [obind] in E'. destruct (w_members _ _ _) as [b|]; [|discriminate]. injection E' as <-. rewrite <- app_assoc in Q. cbn [app] in Q.
        destruct (member_same flat d name s v s' v' t a (end_of flat d ++ 125 :: r) (44 :: b ++ end_of flat d ++ 125 :: r') Sv Fv Fv' Ps Ps' ltac:(apply end_follows; lia) ltac:(cbn; lia) E Ea Q) as [_ Q'].
        revert Q'. apply end_comma. lia.
      * exfalso. destruct (w_member flat d s (build name v)) as [a|] eqn:Ea; [|discriminate]. cbn [obind] in E. destruct (w_members _ _ _) as [b|]; [|discriminate]. injection E as <-. rewrite <- app_assoc in Q. cbn [app] in Q.
        destruct (member_same flat d name s v s' v' a t' (44 :: b ++ end_of flat d ++ 125 :: r) (end_of flat d ++ 125 :: r') Sv Fv Fv' Ps Ps' ltac:(cbn; lia) ltac:(apply end_follows; lia) Ea E' Q) as [_ Q'].
        symmetry in Q'. revert Q'. apply end_comma. lia.
      * destruct (w_member flat d s (build name v)) as [a|] eqn:Ea; [|discriminate]. cbn [obind] in E. destruct (w_members flat d ((s2, build name v2) :: _)) as [b|] eqn:Eb; [|discriminate]. injection E as <-.
        destruct (w_member flat d s' (build name v')) as [a'|] eqn:Ea'; [|discriminate]. cbn [obind] in E'. destruct (w_members flat d ((s2', build name v2') :: _)) as [b'|] eqn:Eb'; [|discriminate]. injection E' as <-.
        rewrite <- !app_assoc in Q. cbn [app] in Q.
        destruct (member_same flat d name s v s' v' a a' (44 :: b ++ end_of flat d ++ 125 :: r) (44 :: b' ++ end_of flat d ++ 125 :: r') Sv Fv Fv' Ps Ps' ltac:(cbn; lia) ltac:(cbn; lia) Ea Ea' Q) as [E1 Q'].
        injection Q' as Q'. destruct (IH (fun x w H => S2 x w (or_intror H)) ((s2', v2') :: ms') d b b' r r' (fun x w H => F x w (or_intror H)) (fun x w H => F' x w (or_intror H)) Eb Eb' Q') as [E2 ->]. rewrite E1, E2. now split.
Qed.
Lemma kinds v v' c : kind v c -> kind v' c ->
  match v, v' with Jnull, Jnull | Jstring _, Jstring _ | Jnumber _, Jnumber _ | Jarray _, Jarray _ | Jobject _, Jobject _ => True | Jbool a, Jbool b => a = b | _, _ => False end.
Proof. destruct v as [|[]| | | |], v' as [|[]| | | |]; cbn; unfold digit_c; intros; try reflexivity; try exact Logic.I; lia. Qed.
Lemma all_same flat name v : same_text flat name v.
Proof.
  induction v as [|b|s|n|vs IH|ms IH] using json_tree_ind; intros v' d t r r' F F' R R' t' E E' Q;
    destruct (text_head _ _ _ _ F _ E) as (c & u & -> & K); destruct (text_head _ _ _ _ F' _ E') as (c' & u' & -> & K');
    rewrite <- !app_assoc in Q; apply app_inv_head in Q; rewrite <- !app_comm_cons in Q; pose proof (f_equal (hd 0) Q) as Hc; cbn [hd] in Hc; subst c'; pose proof (kinds _ _ _ K K') as M.
  - destruct v'; try contradiction. cbn [build write_json] in E, E'. rewrite E in E'. injection E' as E'. apply app_inv_head in E'. injection E' as ->. injection Q as Q. apply app_inv_head in Q. now split.
  - destruct v'; try contradiction. subst b0. rewrite E in E'. injection E' as E'. apply app_inv_head in E'. injection E' as ->. injection Q as Q. apply app_inv_head in Q. now split.
  - destruct v' as [| |s'| | |]; try contradiction. injection E as E. injection E' as E'. apply app_inv_head in E, E'. injection E as <- <-. injection E' as <-. injection Q as Q. rewrite <- !app_assoc in Q. cbn [app] in Q.
    inversion F; inversion F'; subst. destruct (app_quote s s' r r') as [-> ->]; [assumption|assumption|exact Q|now split].
  - destruct v' as [| | |n'| |]; try contradiction. inversion F as [| | |? N| |]; inversion F' as [| | |? N'| |]; subst. cbn [build] in E, E'. rewrite (from_number_some _ N) in E. rewrite (from_number_some _ N') in E'. cbn [write_json] in E, E'.
    injection E as E. injection E' as E'. apply app_inv_head in E, E'. rewrite !app_comm_cons, <- E, <- E' in Q. destruct (int_inj n n' r r' N N' R R' Q) as [-> ->]. now split.
  - destruct v' as [| | | |vs'|]; try contradiction. inversion F as [| | | |? A|]; inversion F' as [| | | |? A'|]; subst. rewrite build_array, write_array in E, E'.
    destruct (w_items flat d (map (fun v => (name vs, build name v)) vs)) as [a|] eqn:Ea; [|discriminate]. destruct (w_items flat d (map (fun v => (name vs', build name v)) vs')) as [a'|] eqn:Ea'; [|discriminate].
    injection E as E. injection E' as E'. apply app_inv_head in E, E'. injection E as <- <-. injection E' as <-. injection Q as Q. rewrite <- !app_assoc in Q. cbn [app] in Q.
    destruct (items_same flat name vs IH vs' d _ _ a a' r r' A A' Ea Ea' Q) as [-> ->]. now split.
  - destruct v' as [| | | | |ms']; try contradiction. inversion F as [| | | | |? A]; inversion F' as [| | | | |? A']; subst. rewrite build_object, write_object in E, E'.
    destruct (w_members flat d (map _ ms)) as [a|] eqn:Ea; [|discriminate]. destruct (w_members flat d (map _ ms')) as [a'|] eqn:Ea'; [|discriminate].
    injection E as E. injection E' as E'. apply app_inv_head in E, E'. injection E as <- <-. injection E' as <-. injection Q as Q. rewrite <- !app_assoc in Q. cbn [app] in Q.
    destruct (members_same flat name ms IH ms' d a a' r r' A A' Ea Ea' Q) as [-> ->]. now split.
Qed.

(** Different values never have the same text, in either layout, when strings and
    names need no escape. *)
Theorem C91_unambiguous_partial name flat v v' t : all_in (fun _ => True) plain v -> all_in (fun _ => True) plain v' ->
  write flat (build name v) = Some t -> write flat (build name v') = Some t -> v = v'.
Proof.
  intros A A' E E'. assert (X : forall w, all_in (fun _ => True) plain w -> all_in small (fun _ => True) w -> fit w).
  { induction w as [|b|s|n|vs IH|ms IH] using json_tree_ind; intros P N; inversion P as [|? |? Ts|? Tn|? Av|? Am]; inversion N as [|? |? Ns|? Nn|? Nv|? Nm]; subst; constructor; auto.
    { intros w0 H. exact (IH w0 H (Av w0 H) (Nv w0 H)). }
    intros s v0 H. split; [exact (proj1 (Am s v0 H))|]. exact (IH s v0 H (proj2 (Am s v0 H)) (proj2 (Nm s v0 H))). }
  assert (F : fit v) by (apply X; [exact A|]; apply (some_iff flat name v 0); exists t; exact E).
  assert (F' : fit v') by (apply X; [exact A'|]; apply (some_iff flat name v' 0); exists t; exact E').
  exact (proj1 (all_same flat name v v' O t [] [] F F' Logic.I Logic.I t E E' eq_refl)).
Qed.
Print Assumptions C91_unambiguous_partial.
