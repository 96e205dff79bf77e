(** Proofs about normal forms that hold for any tables with the stated properties. *)
From Verif Require Import Base UniModel UniSpec.
From Coq Require Import Sorting.Sorted.

Section Order.
Variable class : Z -> Z.
Notation R := (fun a b => class b <> 0 -> class a <= class b).
Fixpoint ins (x : Z) (l : list Z) : list Z :=
  match l with
  | [] => [x]
  | y :: r => if negb (class y =? 0) && (class y <? class x) then y :: ins x r else x :: l
  end.
Fixpoint ord (l : list Z) : list Z :=
  match l with [] => [] | x :: r => if class x =? 0 then x :: ord r else ins x (ord r) end.
Notation starts t := (match t with [] => True | y :: _ => class y = 0 end).

Lemma ins_app x l t : Forall (fun y => class y <> 0) l -> starts t -> ins x (l ++ t) = insert_stable class x l ++ t.
Proof.
  induction l as [|y l IH]; intros F S; cbn [app ins insert_stable].
  - destruct t as [|y t]; [reflexivity|]. cbn [ins]. rewrite S, Z.eqb_refl. reflexivity.
  - inversion F; subst. replace (class y =? 0) with false by lia. cbn [negb andb].
    destruct (class y <? class x); cbn [app]; [rewrite IH by assumption|]; reflexivity.
Qed.
Lemma insert_stable_forall (P : Z -> Prop) x l : P x -> Forall P l -> Forall P (insert_stable class x l).
Proof.
  induction l as [|y l IH]; intros Hx F; cbn [insert_stable]; [constructor; assumption|].
  inversion F; subst. destruct (class y <? class x); constructor; auto.
Qed.
Lemma stable_sort_forall (P : Z -> Prop) l : Forall P l -> Forall P (stable_sort class l).
Proof. induction 1; cbn [stable_sort]; [constructor|]. apply insert_stable_forall; assumption. Qed.
Lemma ord_starts t : starts t -> starts (ord t).
Proof. destruct t as [|y t]; [trivial|]. intro E. cbn [ord]. rewrite E, Z.eqb_refl. exact E. Qed.
Lemma ord_run run t : Forall (fun y => class y <> 0) run -> starts t -> ord (run ++ t) = stable_sort class run ++ ord t.
Proof.
  intros F S. induction F as [|x l Hx F IH]; [reflexivity|]. cbn [app ord stable_sort].
  replace (class x =? 0) with false by lia. rewrite IH. apply ins_app; [apply stable_sort_forall; exact F|apply ord_starts; exact S].
Qed.
Lemma ord_starters l t : Forall (fun y => class y = 0) l -> ord (l ++ t) = l ++ ord t.
Proof. induction 1 as [|x l Hx F IH]; [reflexivity|]. cbn [app ord]. rewrite Hx, Z.eqb_refl, IH. reflexivity. Qed.
Lemma span_ok f l : exists a b, span f l = (a, b) /\ l = a ++ b /\ Forall (fun x => f x = true) a /\ match b with [] => True | y :: _ => f y = false end.
Proof.
  induction l as [|x l (a & b & E & -> & F & H)]; [exists [], []; cbn; auto|].
  cbn [span]. destruct (f x) eqn:X.
  - rewrite E. exists (x :: a), b. repeat split; auto.
  - exists [], (x :: a ++ b). repeat split; auto.
Qed.
Lemma order_loop_ord f l : (length l <= f)%nat -> order_loop class f l = ord l.
Proof.
  revert l. induction f as [|f IH]; intros l L; [destruct l; [reflexivity|cbn in L; lia]|].
  destruct l as [|x l]; [reflexivity|]. cbn [order_loop].
  destruct (span_ok (fun x => class x =? 0) (x :: l)) as (a & b & -> & E & Fa & Hb).
  destruct (span_ok (fun x => negb (class x =? 0)) b) as (r & c & -> & E2 & Fr & Hc).
  assert (Lm : length (x :: l) = (length a + (length r + length c))%nat) by (rewrite E, E2, !app_length; reflexivity).
  assert (Lc : (length c < length (x :: l))%nat).
  { destruct a as [|a0 a]; [|rewrite Lm; cbn [length]; lia]. destruct r as [|r0 r]; [|rewrite Lm; cbn [length]; lia].
    cbn [app] in E, E2. subst b c. cbn in Hb, Hc. destruct (class x =? 0); cbn in *; congruence. }
  rewrite IH by lia. rewrite E, ord_starters.
  2:{ eapply Forall_impl; [|exact Fa]; cbn; intros; lia. }
  f_equal. rewrite E2, ord_run.
  2:{ eapply Forall_impl; [|exact Fr]; cbn; intros; lia. }
  2:{ destruct c; [exact I|]. destruct (class z =? 0) eqn:X; [lia|discriminate]. }
  f_equal. destruct r as [|r0 [|r1 r]]; [reflexivity|reflexivity|].
  destruct (Z.ltb_spec 1 (Z.of_nat (length (r0 :: r1 :: r)))) as [K|K]; [reflexivity|cbn [length] in K; lia].
Qed.
Lemma canonical_order_ord l : canonical_order class l = ord l.
Proof.
  unfold canonical_order. destruct (Z.ltb_spec (Z.of_nat (length l)) 2) as [H|H].
  - destruct l as [|x [|y l]]; [reflexivity| |cbn in H; lia]. cbn. destruct (class x =? 0); reflexivity.
  - apply order_loop_ord. lia.
Qed.

Lemma ins_comm a b l : class a <> 0 -> class b <> 0 -> class a <> class b -> ins a (ins b l) = ins b (ins a l).
Proof.
  intros A B D. induction l as [|y l IH]; cbn [ins].
  - destruct (Z.eqb_spec (class b) 0), (Z.eqb_spec (class a) 0), (Z.ltb_spec (class b) (class a)), (Z.ltb_spec (class a) (class b)); cbn; try reflexivity; lia.
  - destruct (negb (class y =? 0) && (class y <? class b)) eqn:Yb, (negb (class y =? 0) && (class y <? class a)) eqn:Ya; cbn [ins]; rewrite ?Ya, ?Yb.
    + rewrite IH. reflexivity.
    + destruct (negb (class a =? 0) && (class a <? class b)) eqn:X; [reflexivity|]. exfalso.
      destruct (Z.eqb_spec (class y) 0), (Z.eqb_spec (class a) 0), (Z.ltb_spec (class y) (class b)), (Z.ltb_spec (class y) (class a)), (Z.ltb_spec (class a) (class b)); cbn in *; try discriminate; lia.
    + destruct (negb (class b =? 0) && (class b <? class a)) eqn:X; [reflexivity|]. exfalso.
      destruct (Z.eqb_spec (class y) 0), (Z.eqb_spec (class b) 0), (Z.ltb_spec (class y) (class b)), (Z.ltb_spec (class y) (class a)), (Z.ltb_spec (class b) (class a)); cbn in *; try discriminate; lia.
    + destruct (Z.eqb_spec (class b) 0), (Z.eqb_spec (class a) 0), (Z.ltb_spec (class b) (class a)), (Z.ltb_spec (class a) (class b)); cbn; rewrite ?Ya, ?Yb; try reflexivity; lia.
Qed.
Lemma ord_cong s t t' : ord t = ord t' -> ord (s ++ t) = ord (s ++ t').
Proof. intro E. induction s as [|x s IH]; [exact E|]. cbn [app ord]. rewrite IH. reflexivity. Qed.
Lemma ord_swap a b t : class a <> 0 -> class b <> 0 -> class a <> class b -> ord (a :: b :: t) = ord (b :: a :: t).
Proof.
  intros A B D. cbn [ord]. replace (class a =? 0) with false by lia. replace (class b =? 0) with false by lia. apply ins_comm; assumption.
Qed.
Lemma ord_move a B t : class a <> 0 -> Forall (fun b => class b <> 0 /\ class a <> class b) B -> ord (a :: B ++ t) = ord (B ++ a :: t).
Proof.
  intros A F. induction F as [|b B [H1 H2] F IH]; [reflexivity|]. cbn [app]. rewrite ord_swap by assumption.
  apply (ord_cong [b]). exact IH.
Qed.
Lemma ord_blocks A B t : Forall (fun a => class a <> 0 /\ Forall (fun b => class b <> 0 /\ class a <> class b) B) A -> ord (A ++ B ++ t) = ord (B ++ A ++ t).
Proof.
  induction 1 as [|a A [H1 H2] F IH]; [reflexivity|]. cbn [app].
  transitivity (ord (a :: B ++ A ++ t)); [exact (ord_cong [a] _ _ IH)|].
  apply (ord_move a B (A ++ t)); assumption.
Qed.
Lemma ins_perm x l : Permutation (ins x l) (x :: l).
Proof.
  induction l as [|y l IH]; [reflexivity|]. cbn [ins]. destruct (_ && _); [|reflexivity].
  rewrite IH. apply perm_swap.
Qed.
Lemma ord_perm l : Permutation (ord l) l.
Proof.
  induction l as [|x l IH]; [reflexivity|]. cbn [ord]. destruct (class x =? 0); [constructor; exact IH|].
  rewrite ins_perm, IH. reflexivity.
Qed.
Lemma ins_sorted x l : class x <> 0 -> Sorted R l -> Sorted R (ins x l).
Proof.
  intros Hx. induction 1 as [|y l S IH H]; cbn [ins]; [repeat constructor|].
  destruct (negb (class y =? 0) && (class y <? class x)) eqn:E.
  - constructor; [exact IH|]. assert (class y < class x) by lia.
    destruct l as [|z l]; cbn [ins]; [constructor; lia|]. inversion H; subst.
    destruct (negb (class z =? 0) && (class z <? class x)); constructor; [assumption|lia].
  - constructor; [constructor; assumption|]. constructor. lia.
Qed.
Hypothesis Hpos : forall p, 0 <= class p.
Lemma ord_sorted l : Sorted R (ord l).
Proof.
  induction l as [|x l IH]; [constructor|]. cbn [ord]. destruct (Z.eqb_spec (class x) 0) as [E|E].
  - constructor; [exact IH|]. destruct (ord l) as [|z r]; constructor. intros _. rewrite E. apply Hpos.
  - apply ins_sorted; assumption.
Qed.
Lemma sorted_ord l : Sorted R l -> ord l = l.
Proof.
  induction 1 as [|x l S IH H]; [reflexivity|]. cbn [ord]. rewrite IH. destruct (class x =? 0); [reflexivity|].
  destruct l as [|y l]; [reflexivity|]. cbn [ins]. inversion H; subst.
  destruct (negb (class y =? 0) && (class y <? class x)) eqn:E; [|reflexivity]. assert (class y <> 0) by lia. lia.
Qed.
Lemma sorted_app_tail l t : Sorted R (l ++ t) -> Sorted R t.
Proof. induction l as [|x l IH]; [auto|]. cbn [app]. intro S. inversion S; auto. Qed.
Lemma sorted_ordered l : Sorted R l <-> ordered class l.
Proof.
  split.
  - intros S s a b t ->. apply sorted_app_tail in S. cbn in S. inversion S as [|? ? ? H]; subst. inversion H; subst. assumption.
  - induction l as [|x l IH]; intro O; [constructor|]. constructor.
    + apply IH. intros s a b t ->. apply (O (x :: s) a b t). reflexivity.
    + destruct l as [|y l]; constructor. apply (O [] x y l). reflexivity.
Qed.
End Order.

(** Equivalence. *)
Section Equiv.
Variable class : Z -> Z.
Variable dec : Z -> list Z.
Notation R := (fun a b => class b <> 0 -> class a <= class b).
Notation equiv := (equivalent class dec).
Notation ord := (ord class).
Lemma step_context u v s t : step class dec s t -> step class dec (u ++ s ++ v) (u ++ t ++ v).
Proof.
  intros [s0 p t0|s0 a b t0 A B D].
  - replace (u ++ (s0 ++ [p] ++ t0) ++ v) with ((u ++ s0) ++ [p] ++ (t0 ++ v)) by (rewrite <- !app_assoc; reflexivity).
    replace (u ++ (s0 ++ dec p ++ t0) ++ v) with ((u ++ s0) ++ dec p ++ (t0 ++ v)) by (rewrite <- !app_assoc; reflexivity).
    constructor.
  - replace (u ++ (s0 ++ [a; b] ++ t0) ++ v) with ((u ++ s0) ++ [a; b] ++ (t0 ++ v)) by (rewrite <- !app_assoc; reflexivity).
    replace (u ++ (s0 ++ [b; a] ++ t0) ++ v) with ((u ++ s0) ++ [b; a] ++ (t0 ++ v)) by (rewrite <- !app_assoc; reflexivity).
    constructor; assumption.
Qed.
Lemma equiv_context u v s t : equiv s t -> equiv (u ++ s ++ v) (u ++ t ++ v).
Proof.
  induction 1 as [s|s t S|s t H IH|s t w H1 I1 H2 I2].
  - apply eq_refl_.
  - apply eq_step, step_context, S.
  - apply eq_sym, IH.
  - eapply eq_trans; eassumption.
Qed.
Lemma equiv_cons x s t : equiv s t -> equiv (x :: s) (x :: t).
Proof. intro H. apply (equiv_context [x] []) in H. rewrite !app_nil_r in H. exact H. Qed.
Lemma equiv_swap a b t : class a <> 0 -> class b <> 0 -> class a <> class b -> equiv (a :: b :: t) (b :: a :: t).
Proof. intros. apply eq_step. apply (step_swap class dec [] a b t); assumption. Qed.
Lemma equiv_flat s : equiv s (flat_map dec s).
Proof.
  induction s as [|x s IH]; [apply eq_refl_|]. cbn [flat_map].
  eapply eq_trans; [apply equiv_cons, IH|]. apply eq_step. apply (step_decompose class dec [] x (flat_map dec s)).
Qed.
Lemma equiv_ins x l : class x <> 0 -> equiv (x :: l) (ins class x l).
Proof.
  intro Hx. induction l as [|y l IH]; [apply eq_refl_|]. cbn [ins].
  destruct (negb (class y =? 0) && (class y <? class x)) eqn:E; [|apply eq_refl_].
  eapply eq_trans; [apply equiv_swap; lia|]. apply equiv_cons, IH.
Qed.
Lemma equiv_ord l : equiv l (ord l).
Proof.
  induction l as [|x l IH]; [apply eq_refl_|]. cbn [UniProofs.ord].
  eapply eq_trans; [apply equiv_cons, IH|]. destruct (Z.eqb_spec (class x) 0); [apply eq_refl_|apply equiv_ins; assumption].
Qed.

Hypothesis Hpos : forall p, 0 <= class p.
Hypothesis Hfix : forall p q, In q (dec p) -> dec q = [q].
Hypothesis Hcls : forall p q, class p <> 0 -> In q (dec p) -> class q = class p.
Definition nfd (s : list Z) : list Z := ord (flat_map dec s).
Lemma flat_fixed l : decomposed dec l -> flat_map dec l = l.
Proof. induction 1 as [|x l E F IH]; [reflexivity|]. cbn [flat_map]. rewrite E, IH. reflexivity. Qed.
Lemma dec_decomposed p : decomposed dec (dec p).
Proof. apply Forall_forall. intros q I. eapply Hfix, I. Qed.
Lemma flat_decomposed l : decomposed dec (flat_map dec l).
Proof. induction l as [|x l IH]; [constructor|]. cbn [flat_map]. apply Forall_app. split; [apply dec_decomposed|exact IH]. Qed.
Lemma nfd_decomposed l : decomposed dec (nfd l).
Proof. apply (Permutation_Forall (Permutation_sym (ord_perm class _))). apply flat_decomposed. Qed.
Lemma nfd_sorted l : Sorted R (nfd l).
Proof. apply ord_sorted, Hpos. Qed.
Lemma nfd_idem l : nfd (nfd l) = nfd l.
Proof. unfold nfd at 1. rewrite (flat_fixed _ (nfd_decomposed l)). apply sorted_ord; [exact Hpos|apply nfd_sorted]. Qed.
Lemma step_nfd s t : step class dec s t -> nfd s = nfd t.
Proof.
  intros [s0 p t0|s0 a b t0 A B D]; unfold nfd; rewrite !flat_map_app.
  - f_equal. f_equal. f_equal. cbn [flat_map]. rewrite app_nil_r. symmetry. apply flat_fixed, dec_decomposed.
  - apply ord_cong. cbn [flat_map]. rewrite !app_nil_r. rewrite <- !app_assoc. apply ord_blocks.
    apply Forall_forall. intros x X. pose proof (Hcls _ _ A X) as X1. split; [congruence|].
    apply Forall_forall. intros y Y. pose proof (Hcls _ _ B Y) as Y1. split; congruence.
Qed.
Lemma equiv_nfd s t : equiv s t <-> nfd s = nfd t.
Proof.
  split.
  - induction 1 as [s|s t S|s t H IH|s t w H1 I1 H2 I2]; [reflexivity|apply step_nfd, S|symmetry; exact IH|congruence].
  - intro E. assert (N : forall u, equiv u (nfd u)) by (intro u; eapply eq_trans; [apply equiv_flat|apply equiv_ord]).
    eapply eq_trans; [apply N|]. rewrite E. apply eq_sym, N.
Qed.

(** Composition. *)
Variable lookup : Z -> Z -> Z.
Hypothesis Hl : forall a b, lookup a b <> 0 -> class (lookup a b) = 0 /\ equiv [lookup a b] [a; b].
Hypothesis Hz : forall a b c, class b <> 0 -> lookup a b <> 0 -> class c = 0 -> lookup (lookup a b) c = 0.
Definition from_mark (x : Z) : Prop := exists a b, class b <> 0 /\ lookup a b <> 0 /\ x = lookup a b.
Lemma equiv_front mid c r : Forall (fun m => class m <> 0 /\ class m <> class c) mid -> class c <> 0 -> equiv (mid ++ c :: r) (c :: mid ++ r).
Proof.
  intros F C. induction F as [|m l [M1 M2] F IH]; [apply eq_refl_|]. cbn [app].
  eapply eq_trans; [apply equiv_cons, IH|]. apply equiv_swap; assumption.
Qed.
Lemma equiv_compose x mid c r : Forall (fun m => class m <> 0 /\ class m <> class c) mid -> class c <> 0 \/ mid = [] -> lookup x c <> 0 ->
  equiv (x :: mid ++ c :: r) (lookup x c :: mid ++ r).
Proof.
  intros F H L. destruct (Hl _ _ L) as [_ E].
  assert (P : equiv (x :: mid ++ c :: r) (x :: c :: mid ++ r)).
  { destruct H as [H| ->]; [apply equiv_cons, equiv_front; assumption|apply eq_refl_]. }
  eapply eq_trans; [exact P|]. apply eq_sym. apply (equiv_context [] (mid ++ r)) in E. exact E.
Qed.
Lemma sorted_le mid c r : Sorted R (mid ++ c :: r) -> Forall (fun m => class m <> 0) mid -> class c <> 0 -> Forall (fun m => class m <= class c) mid.
Proof.
  induction mid as [|m mid IH]; intros S F C; [constructor|]. cbn [app] in S. inversion S as [|? ? S' H]; subst.
  inversion F; subst. pose proof (IH S' ltac:(assumption) C) as G. constructor; [|exact G].
  destruct mid as [|m' mid]; cbn [app] in H; inversion H; subst; [auto|].
  inversion G; subst. inversion F as [|? ? ? F']; subst. inversion F'; subst. specialize (H1 ltac:(assumption)). lia.
Qed.
Lemma sorted_drop mid c r : Sorted R (mid ++ c :: r) -> Forall (fun m => class m <> 0) mid -> class c <> 0 -> Sorted R (mid ++ r).
Proof.
  induction mid as [|m mid IH]; intros S F C; [cbn in *; inversion S; assumption|].
  pose proof (sorted_le (m :: mid) c r S F C) as G.
  cbn [app] in *. inversion S as [|? ? S' H]; subst. inversion F; subst. constructor; [apply IH; assumption|].
  destruct mid as [|m' mid]; cbn [app] in *; [|inversion H; constructor; assumption].
  inversion S' as [|? ? _ H']; subst. inversion H'; subst; constructor. inversion G; subst. intro N. specialize (H0 N). lia.
Qed.
Lemma scan_ok rest : forall x mid last, class x = 0 -> Forall (fun m => class m <> 0) mid -> Sorted R (mid ++ rest) ->
  (last = 0 \/ (0 < last /\ Forall (fun m => class m <= last) mid)) ->
  (last = 0 -> mid = [] \/ (from_mark x /\ match rest with c :: _ => class c <> 0 -> Forall (fun m => class m < class c) mid | [] => True end)) ->
  let (y, f) := scan class lookup x mid last rest in
  class y = 0 /\ Sorted R f /\ equiv (x :: mid ++ rest) (y :: f) /\ (length f <= length mid + length rest)%nat.
Proof.
  induction rest as [|c r IH]; intros x mid last Hx Hm S HA HB; cbn [scan].
  - rewrite app_nil_r in *. repeat split; auto; [apply eq_refl_|cbn; lia].
  - destruct (Z.eqb_spec (class c) 0) as [C|C].
    + assert (St : class x = 0 /\ Sorted R (mid ++ c :: r) /\ equiv (x :: mid ++ c :: r) (x :: mid ++ c :: r) /\ (length (mid ++ c :: r) <= length mid + length (c :: r))%nat).
      { repeat split; auto; [apply eq_refl_|rewrite app_length; lia]. }
      destruct (negb (negb (last =? 0) && (class c <=? last))) eqn:B; [|exact St].
      assert (L0 : last = 0) by (pose proof (Hpos c); destruct HA as [|[? _]]; [assumption|lia]).
      destruct (Z.eqb_spec (lookup x c) 0) as [E|E]; cbn [negb]; [exact St|].
      destruct (HB L0) as [M|[(a & b & Hb & Hab & ->) _]]; [|exfalso; apply E, Hz; assumption].
      subst mid. cbn [app] in *. specialize (IH (lookup x c) [] 0 (proj1 (Hl _ _ E)) ltac:(constructor) ltac:(cbn; inversion S; assumption) ltac:(left; reflexivity) ltac:(left; reflexivity)).
      destruct (scan class lookup (lookup x c) [] 0 r) as [y f]. destruct IH as (I1 & I2 & I3 & I4). repeat split; auto; [|cbn in *; lia].
      eapply eq_trans; [|exact I3]. apply (equiv_compose x [] c r); [constructor|right; reflexivity|exact E].
    + pose proof (sorted_le _ _ _ S Hm C) as Le.
      assert (App : let (y, f) := scan class lookup x (mid ++ [c]) (class c) r in
        class y = 0 /\ Sorted R f /\ equiv (x :: mid ++ c :: r) (y :: f) /\ (length f <= length mid + length (c :: r))%nat).
      { specialize (IH x (mid ++ [c]) (class c) Hx). rewrite <- app_assoc in IH. cbn [app] in IH.
        specialize (IH ltac:(apply Forall_app; split; [assumption|repeat constructor; assumption]) S).
        specialize (IH ltac:(right; split; [pose proof (Hpos c); lia|apply Forall_app; split; [assumption|repeat constructor; lia]]) ltac:(intro; contradiction)).
        destruct (scan class lookup x (mid ++ [c]) (class c) r) as [y f]. destruct IH as (I1 & I2 & I3 & I4).
        repeat split; auto. rewrite app_length in I4. cbn in *. lia. }
      destruct (negb (last =? 0) && (class c <=? last)) eqn:B; [cbn [negb Z.eqb]; exact App|].
      destruct (Z.eqb_spec (lookup x c) 0) as [E|E]; cbn [negb]; [exact App|].
      assert (Lt : Forall (fun m => class m < class c) mid).
      { destruct HA as [L0|[L0 HA]].
        - destruct (HB L0) as [-> |[_ H]]; [constructor|apply H; exact C].
        - eapply Forall_impl; [|exact HA]. cbn. intros. lia. }
      specialize (IH (lookup x c) mid 0 (proj1 (Hl _ _ E)) Hm ltac:(eapply sorted_drop; eassumption) ltac:(left; reflexivity)).
      assert (HB' : 0 = 0 -> mid = [] \/ (from_mark (lookup x c) /\ match r with c' :: _ => class c' <> 0 -> Forall (fun m => class m < class c') mid | [] => True end)).
      { intros _. right. split; [exists x, c; auto|]. destruct r as [|c' r']; [exact I|]. intro C'.
        apply sorted_app_tail in S. inversion S as [|? ? _ H]; subst. inversion H; subst. specialize (H1 C').
        eapply Forall_impl; [|exact Lt]. cbn. intros. lia. }
      specialize (IH HB').
      destruct (scan class lookup (lookup x c) mid 0 r) as [y f]. destruct IH as (I1 & I2 & I3 & I4). repeat split; auto; [|cbn in *; lia].
      eapply eq_trans; [|exact I3]. apply equiv_compose; [|left; exact C|exact E].
      apply Forall_forall. intros m M. rewrite Forall_forall in Hm, Lt. specialize (Hm _ M). specialize (Lt _ M). cbn in *. lia.
Qed.
Lemma compose_loop_ok f : forall l, (length l <= f)%nat -> Sorted R l -> equiv l (compose_loop class lookup f l).
Proof.
  induction f as [|f IH]; intros l L S; [destruct l; [apply eq_refl_|cbn in L; lia]|].
  destruct l as [|x r]; [apply eq_refl_|]. cbn [compose_loop]. inversion S as [|? ? S' H]; subst.
  destruct (Z.eqb_spec (class x) 0) as [E|E]; cbn [negb].
  - pose proof (scan_ok r x [] 0 E ltac:(constructor) S' ltac:(left; reflexivity) ltac:(left; reflexivity)) as K.
    destruct (scan class lookup x [] 0 r) as [y g]. destruct K as (K1 & K2 & K3 & K4). cbn in K3, K4, L.
    eapply eq_trans; [exact K3|]. apply equiv_cons, IH; [lia|assumption].
  - apply equiv_cons, IH; [cbn in L; lia|assumption].
Qed.
Lemma compose_ok l : Sorted R l -> equiv l (compose class lookup l).
Proof. intro S. unfold compose. destruct (_ <? 2); [apply eq_refl_|]. apply compose_loop_ok; [lia|assumption]. Qed.
End Equiv.
