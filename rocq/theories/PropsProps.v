(** Proofs: properties written as JSON. *)
From Coq Require Import String.
From Verif Require Import Base Bytes RadixModel TextSpec TextModel VerSpec VerProps PropsSpec PropsModel.

Section Ind.
  Variable P : json -> Prop.
  Hypothesis Hn : P Jnull.
  Hypothesis Hb : forall b, P (Jbool b).
  Hypothesis Hs : forall s, P (Jstring s).
  Hypothesis Hi : forall n, P (Jnumber n).
  Hypothesis Ha : forall vs, (forall v, In v vs -> P v) -> P (Jarray vs).
  Hypothesis Ho : forall ms, (forall s v, In (s, v) ms -> P v) -> P (Jobject ms).
  Fixpoint json_tree_ind (v : json) : P v :=
    match v with
    | Jnull => Hn | Jbool b => Hb b | Jstring s => Hs s | Jnumber n => Hi n
    | Jarray vs => Ha vs ((fix go (l : list json) : forall v, In v l -> P v :=
        match l with
        | [] => fun v H => match H with end
        | x :: r => fun v H => match H with or_introl E => eq_ind x P (json_tree_ind x) v E | or_intror H' => go r v H' end
        end) vs)
    | Jobject ms => Ho ms ((fix go (l : list (list Z * json)) : forall s v, In (s, v) l -> P v :=
        match l with
        | [] => fun s v H => match H with end
        | (n, x) :: r => fun s v H => match H with
            | or_introl E => eq_ind x P (json_tree_ind x) v (f_equal snd E)
            | or_intror H' => go r s v H' end
        end) ms)
    end.
End Ind.
Lemma array_all n vs cs : array_add_all (Parray n cs) vs = Parray n (cs ++ map (fun v => (n, v)) vs).
Proof. revert cs. induction vs as [|v vs IH]; intros cs; cbn; [now rewrite app_nil_r|]. unfold array_add_all in IH. rewrite IH, <- app_assoc. reflexivity. Qed.
Lemma object_all vs cs : object_add_all (Pobject cs) vs = Pobject (cs ++ vs).
Proof. revert cs. induction vs as [|v vs IH]; intros cs; cbn; [now rewrite app_nil_r|]. unfold object_add_all in IH. rewrite IH, <- app_assoc. reflexivity. Qed.
Lemma build_array name vs : build name (Jarray vs) = Parray (name vs) (map (fun v => (name vs, build name v)) vs).
Proof. cbn [build]. unfold array_props. rewrite array_all, map_map. reflexivity. Qed.
Lemma build_object name ms : build name (Jobject ms) = Pobject (map (fun m => (fst m, build name (snd m))) ms).
Proof. cbn [build]. unfold object_props. now rewrite object_all. Qed.
(** The loops of the writer as functions. *)
Fixpoint w_items flat depth (cs : list (list Z * props)) : option (list Z) :=
  match cs with
  | [] => Some []
  | (_, c) :: r => match r with [] => write_json flat (S depth) c
                   | _ => do a <- write_json flat (S depth) c; do b <- w_items flat depth r; Some (a ++ 44 :: b) end
  end.
Definition w_member flat depth (name : list Z) (c : props) :=
  do t <- write_json flat (if is_simple c then O else S depth) c; Some (start_of flat (S depth) ++ 34 :: name ++ 34 :: 58 :: t).
Fixpoint w_members flat depth (cs : list (list Z * props)) : option (list Z) :=
  match cs with
  | [] => Some []
  | (n, c) :: r => match r with [] => w_member flat depth n c
                   | _ => do a <- w_member flat depth n c; do b <- w_members flat depth r; Some (a ++ 44 :: b) end
  end.
Lemma write_array flat d v cs : write_json flat d (Parray v cs) = do t <- w_items flat d cs; Some (start_of flat d ++ 91 :: t ++ end_of flat d ++ [93]).
Proof. cbn [write_json]. f_equal. induction cs as [|[n c] r IH]; [reflexivity|]. cbn [w_items]. destruct r; [reflexivity|]. now rewrite IH. Qed.
Lemma write_object flat d cs : write_json flat d (Pobject cs) = do t <- w_members flat d cs; Some (start_of flat d ++ 123 :: t ++ end_of flat d ++ [125]).
Proof. cbn [write_json]. f_equal. induction cs as [|[n c] r IH]; [reflexivity|]. cbn [w_members]. destruct r; [reflexivity|]. now rewrite IH. Qed.
Lemma repeat_blank n : blank (repeat 32 n).
Proof. apply Forall_forall. intros c H. apply repeat_spec in H. subst. now left. Qed.
Lemma end_blank flat d : blank (end_of flat d).
Proof. unfold end_of. destruct flat; [constructor|]. constructor; [cbn; tauto|apply repeat_blank]. Qed.
Lemma start_blank flat d : blank (start_of flat d).
Proof. unfold start_of. destruct flat; [constructor|]. destruct d; [constructor|apply end_blank]. Qed.
Lemma plain_spells s : plain s -> spells s s.
Proof. induction 1 as [|c s (A & B & D) _ IH]; [constructor|]. now constructor. Qed.
Lemma says_start flat d v t : says v t -> says v (start_of flat d ++ t).
Proof. intros H. rewrite <- (app_nil_r t). apply says_blank; [apply start_blank|constructor|exact H]. Qed.
Definition small (n : Z) : Prop := - 2 ^ 53 <= n < 2 ^ 53 - 1.
Lemma from_number_some n : small n -> from_number n = Pnumber (serialize_int n).
Proof. unfold small, from_number. intros H. cbv zeta. destruct (Z.leb_spec n (- (2 ^ 53 + 1))); [lia|]. destruct (Z.geb_spec n (2 ^ 53 - 1)); [lia|reflexivity]. Qed.
Lemma from_number_none n : ~ small n -> from_number n = Pinvalid.
Proof. unfold small, from_number. intros H. cbv zeta. destruct (Z.leb_spec n (- (2 ^ 53 + 1))); [reflexivity|]. destruct (Z.geb_spec n (2 ^ 53 - 1)); [reflexivity|lia]. Qed.
Lemma serialize_int_ok n : small n -> integer (serialize_int n) n.
Proof.
  unfold small, serialize_int. intros H. destruct (Z.ltb_spec n 0).
  - right. eexists. split; [reflexivity|]. apply serialized. split; [lia|]. apply Z.le_lt_trans with (2 ^ 53); [lia|reflexivity].
  - left. apply serialized. split; [lia|]. apply Z.lt_trans with (2 ^ 53); [lia|reflexivity].
Qed.

Lemma written_items flat d name (vs : list json) t w : (forall v, In v vs -> forall d' t', write_json flat d' (build name v) = Some t' -> says v t') ->
  w_items flat d (map (fun v => (name vs, build name v)) vs) = Some t -> blank w -> items vs (t ++ w).
Proof.
  generalize (name vs) as nm. revert t. induction vs as [|v vs IH]; intros t nm H E W.
  - injection E as <-. now constructor.
  - cbn [map w_items] in E. destruct vs as [|v' vs].
    + cbn [map] in E. constructor. change (says v ([] ++ t ++ w)). apply says_blank; [constructor|exact W|]. eapply H; [now left|exact E].
    + cbn [map] in E. destruct (write_json flat (S d) (build name v)) as [a|] eqn:Ea; [|discriminate]. cbn [obind] in E.
      destruct (w_items flat d ((nm, build name v') :: map (fun v => (nm, build name v)) vs)) as [b|] eqn:Eb; [|discriminate]. injection E as <-.
      rewrite <- app_assoc. cbn [app]. constructor; [eapply H; [now left|exact Ea]|]. apply (IH b nm); [intros; eapply H; [right|]; eassumption|exact Eb|exact W].
Qed.
Lemma written_member flat d name s v t w : plain s -> (forall d' t', write_json flat d' (build name v) = Some t' -> says v t') ->
  w_member flat d s (build name v) = Some t -> blank w -> member (s, v) (t ++ w).
Proof.
  intros Ps H E W. unfold w_member in E. destruct (write_json flat _ (build name v)) as [u|] eqn:Eu; [|discriminate]. injection E as <-.
  rewrite <- app_assoc. cbn [app]. rewrite <- app_assoc. cbn [app]. change (s ++ 34 :: 58 :: u ++ w) with (s ++ 34 :: [] ++ 58 :: u ++ w).
  constructor; [apply start_blank|constructor|now apply plain_spells|]. change (says v ([] ++ u ++ w)). apply says_blank; [constructor|exact W|]. eapply H. exact Eu.
Qed.
Lemma written_members flat d name ms t w : (forall s v, In (s, v) ms -> plain s) -> (forall s v, In (s, v) ms -> forall d' t', write_json flat d' (build name v) = Some t' -> says v t') ->
  w_members flat d (map (fun m => (fst m, build name (snd m))) ms) = Some t -> blank w -> members ms (t ++ w).
Proof.
  revert t. induction ms as [|[s v] ms IH]; intros t Ps H E W.
  - injection E as <-. now constructor.
  - cbn [map w_members fst snd] in E. destruct ms as [|m' ms].
    + cbn [map] in E. constructor. eapply written_member; [eapply Ps; now left|eapply H; now left|exact E|exact W].
    + cbn [map] in E. destruct (w_member flat d s (build name v)) as [a|] eqn:Ea; [|discriminate]. cbn [obind] in E.
      destruct (w_members flat d ((fst m', build name (snd m')) :: map (fun m => (fst m, build name (snd m))) ms)) as [b|] eqn:Eb; [|discriminate]. injection E as <-.
      rewrite <- app_assoc. cbn [app]. constructor.
      * rewrite <- (app_nil_r a). eapply written_member; [eapply Ps; now left|eapply H; now left|exact Ea|constructor].
      * apply IH; [intros; eapply Ps; right; eassumption|intros; eapply H; [right|]; eassumption|exact Eb|exact W].
Qed.
Lemma written flat name v : all_in (fun _ => True) plain v -> forall d t, write_json flat d (build name v) = Some t -> says v t.
Proof.
  induction v as [|b|s|n|vs IH|ms IH] using json_tree_ind; intros A d t E; inversion A as [|? |? Ts|? Tn|? Av|? Am]; subst.
  - injection E as <-. apply says_start. constructor.
  - destruct b; injection E as <-; apply says_start; constructor.
  - injection E as <-. apply says_start. constructor. now apply plain_spells.
  - cbn [build] in E. assert (D : small n \/ ~ small n) by (unfold small; lia). destruct D as [D|D]; [|rewrite (from_number_none n D) in E; discriminate].
    rewrite (from_number_some n D) in E. injection E as <-. apply says_start. constructor. now apply serialize_int_ok.
  - rewrite build_array, write_array in E. destruct (w_items _ _ _) as [u|] eqn:Eu; [|discriminate]. injection E as <-. apply says_start.
    rewrite app_assoc. constructor. eapply written_items; [|exact Eu|apply end_blank]. intros. eapply IH; eauto.
  - rewrite build_object, write_object in E. destruct (w_members _ _ _) as [u|] eqn:Eu; [|discriminate]. injection E as <-. apply says_start.
    rewrite app_assoc. constructor. eapply written_members; [| |exact Eu|apply end_blank]; [intros s v H; exact (proj1 (Am s v H))|]. intros s v H. eapply IH; [exact H|exact (proj2 (Am s v H))].
Qed.
(** When writing fails. *)
Lemma items_some flat d cs : (exists t, w_items flat d cs = Some t) <-> Forall (fun c => exists t, write_json flat (S d) (snd c) = Some t) cs.
Proof.
  induction cs as [|[n c] r IH]; [split; [constructor|eexists; reflexivity]|]. rewrite Forall_cons_iff, <- IH. cbn [snd w_items]. destruct r as [|c' r].
  - split; [intros H; split; [exact H|eexists; reflexivity]|now intros [H _]].
  - destruct (write_json flat (S d) c) as [a|]; cbn [obind]; [|split; [intros [t H]; discriminate|intros [[t H] _]; discriminate]].
    destruct (w_items flat d (c' :: r)) as [b|]; [split; intros; [split|]; eexists; reflexivity|]. split; [intros [t H]; discriminate|intros [_ [t H]]; discriminate].
Qed.
Lemma members_some flat d cs : (exists t, w_members flat d cs = Some t) <-> Forall (fun c => exists t, w_member flat d (fst c) (snd c) = Some t) cs.
Proof.
  induction cs as [|[n c] r IH]; [split; [constructor|eexists; reflexivity]|]. rewrite Forall_cons_iff, <- IH. cbn [fst snd w_members]. destruct r as [|c' r].
  - split; [intros H; split; [exact H|eexists; reflexivity]|now intros [H _]].
  - destruct (w_member flat d n c) as [a|]; cbn [obind]; [|split; [intros [t H]; discriminate|intros [[t H] _]; discriminate]].
    destruct (w_members flat d (c' :: r)) as [b|]; [split; intros; [split|]; eexists; reflexivity|]. split; [intros [t H]; discriminate|intros [_ [t H]]; discriminate].
Qed.
Lemma member_some flat d n c : (exists t, w_member flat d n c = Some t) <-> exists t, write_json flat (if is_simple c then O else S d) c = Some t.
Proof. unfold w_member. destruct (write_json flat _ c); cbn [obind]; split; intros [t H]; try discriminate; eexists; reflexivity. Qed.
Lemma some_iff flat name v : forall d, (exists t, write_json flat d (build name v) = Some t) <-> all_in small (fun _ => True) v.
Proof.
  induction v as [|b|s|n|vs IH|ms IH] using json_tree_ind; intros d.
  - split; [constructor|eexists; reflexivity].
  - split; [constructor|intros _; destruct b; eexists; reflexivity].
  - split; [now constructor|eexists; reflexivity].
  - cbn [build]. assert (D : small n \/ ~ small n) by (unfold small; lia). destruct D as [D|D].
    + rewrite (from_number_some n D). split; [now constructor|eexists; reflexivity].
    + rewrite (from_number_none n D). split; [intros [t H]; discriminate|intros A; inversion A; now subst].
  - rewrite build_array, write_array. transitivity (exists t, w_items flat d (map (fun v => (name vs, build name v)) vs) = Some t).
    { destruct (w_items _ _ _); cbn [obind]; split; intros [t H]; try discriminate; eexists; reflexivity. }
    rewrite items_some, Forall_map, Forall_forall. cbn [snd]. split.
    + intros H. constructor. intros v Hv. apply (IH v Hv (S d)). now apply H.
    + intros A v Hv. apply (IH v Hv (S d)). inversion A; subst. auto.
  - rewrite build_object, write_object. transitivity (exists t, w_members flat d (map (fun m => (fst m, build name (snd m))) ms) = Some t).
    { destruct (w_members _ _ _); cbn [obind]; split; intros [t H]; try discriminate; eexists; reflexivity. }
    rewrite members_some, Forall_map, Forall_forall. cbn [fst snd]. split.
    + intros H. constructor. intros s v Hv. split; [exact Logic.I|]. pose proof (H (s, v) Hv) as W. apply member_some in W. cbn [snd] in W. now apply (IH s v Hv) in W.
    + intros A [s v] Hv. apply member_some. cbn [snd]. apply (IH s v Hv). inversion A as [| | | | |? Am]; subst. exact (proj2 (Am s v Hv)).
Qed.

(** Writing succeeds exactly when all numbers are in the range the code takes. *)
Theorem C91_succeeds name v flat :
  (exists t, write flat (build name v) = Some t) <-> all_in (fun n => - 2 ^ 53 <= n < 2 ^ 53 - 1) (fun _ => True) v.
Proof. apply some_iff. Qed.
Print Assumptions C91_succeeds.
(** What is written is a JSON text of the value, flat or not, when strings and names
    need no escape. *)
Theorem C91_json_partial name v flat t : all_in (fun _ => True) plain v -> write flat (build name v) = Some t -> says v t.
Proof. intros A H. eapply written; eassumption. Qed.
Print Assumptions C91_json_partial.
(** The range is not the documented one, [-2^53 + 1, 2^53 - 1], at both ends. *)
Theorem C91_range_refuted : ~ (forall n flat, (exists t, write flat (from_number n) = Some t) <-> - 2 ^ 53 + 1 <= n <= 2 ^ 53 - 1).
Proof. intros H. destruct (proj2 (H (2 ^ 53 - 1) true)) as [t E]; [lia|]. discriminate. Qed.
Print Assumptions C91_range_refuted.
Lemma quote_needs_escape v t : says v t -> v = Jstring [34] -> In 92 t.
Proof.
  intros H. induction H; intros E; try discriminate.
  - apply in_or_app. right. apply in_or_app. left. auto.
  - injection E as ->. inversion H; subst; [contradiction|]. right. left. reflexivity.
Qed.
(** Strings are not escaped: one with a quote gives a text that does not say it. *)
Theorem C91_escape_refuted : ~ (forall name v flat t, write flat (build name v) = Some t -> says v t).
Proof. intros H. specialize (H (fun _ => []) (Jstring [34]) true [34; 34; 34] eq_refl). apply quote_needs_escape in H; [|reflexivity]. cbn in H. lia. Qed.
Print Assumptions C91_escape_refuted.
Definition example_value : json := Jobject [(chars "a", Jarray [Jnumber (-12); Jnull; Jarray []]); (chars "b c", Jbool true); (chars "d", Jobject [(chars "e", Jstring (chars "x"))])].
Example C91_ex : write true (build (fun _ => chars "n") example_value) = Some (chars "{""a"":[-12,null,[]],""b c"":true,""d"":{""e"":""x""}}") /\
  says example_value (chars "{""a"":[-12,null,[]],""b c"":true,""d"":{""e"":""x""}}").
Proof.
  assert (W : write true (build (fun _ => chars "n") example_value) = Some (chars "{""a"":[-12,null,[]],""b c"":true,""d"":{""e"":""x""}}")) by reflexivity.
  split; [exact W|]. eapply C91_json_partial; [|exact W]. unfold example_value. assert (P : forall s, forallb (fun c => (32 <=? c) && negb (c =? 34) && negb (c =? 92)) s = true -> plain s).
  { intros s H. apply Forall_forall. intros c Hc. rewrite forallb_forall in H. specialize (H c Hc). lia. }
  constructor. intros s v [E|[E|[E|[]]]]; injection E as <- <-; (split; [apply P; reflexivity|]); constructor.
  - intros v [<-|[<-|[<-|[]]]]; constructor; [exact Logic.I|intros ? []].
  - intros s v [E|[]]. injection E as <- <-. split; [apply P; reflexivity|]. constructor. apply P. reflexivity.
Qed.
