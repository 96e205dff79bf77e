(** The RIPEMD model's in-place rounds are the steps of the specification. *)
From Coq Require Import PeanoNat.
From Verif Require Import Base Bytes MathModel BitProofs ShaModel ShaSpec ShaProofs ShaProofs2 ShaProofs3 ShaProofs6
  AccModel AccProofs RmdModel RmdSpec.

Lemma wrol_rol n x : wrol (zops 32) n x = rol n x.
Proof.
  unfold rol, ROTL. cbn [zops wrol]. unfold rotr. rewrite Z.lor_comm. replace (32 - (32 - n)) with n by lia. reflexivity.
Qed.

(** The step of round [r], from the model's tables. *)
Definition table_step (A : rmd) (step : (Z -> Z -> Z -> Z) -> Z -> Z -> Z -> list Z -> list Z) (X v : list Z) (r : nat) : list Z :=
  step (r_functor A r) (nth r (r_rot A) 0) (nth (Z.to_nat (nth r (r_word A) 0)) X 0) (nth (r / 16) (r_K A) 0) v.

Lemma round160_step X s r : (r < 160)%nat -> length s = 5%nat ->
  view 5 (S r mod 5) (r_round rmd160 X s r) = table_step rmd160 step160 X (view 5 (r mod 5) s) r /\
  length (r_round rmd160 X s r) = 5%nat.
Proof.
  intros Hr L. unfold r_round, r_index, table_step. change (r_strength rmd160 =? 128) with false. cbv iota.
  change (r_state_words rmd160) with 5%nat. change (r_rounds rmd160) with 160%nat.
  assert (I : forall i, ((160 + i - r) mod 5 = (5 + i - r mod 5) mod 5)%nat) by (intros; apply index_mod; [lia|reflexivity|lia]).
  rewrite !I. clear I. rewrite S_mod by lia. pose proof (Nat.mod_upper_bound r 5 ltac:(lia)) as B.
  unfold r_mixed. rewrite !wrol_rol.
  set (Fn := r_functor rmd160 r). set (x := nth (Z.to_nat _) X 0). set (rot := nth r (r_rot rmd160) 0).
  set (k := nth (r / 16) (r_K rmd160) 0). clearbody Fn x rot k.
  set (q := (r mod 5)%nat) in *. clearbody q.
  do 5 (destruct s as [|? s]; [discriminate|]). destruct s; [|discriminate].
  do 5 (destruct q as [|q]; [split; reflexivity|]). lia.
Qed.
Lemma round128_step X s r : (r < 128)%nat -> length s = 4%nat ->
  view 4 (S r mod 4) (r_round rmd128 X s r) = table_step rmd128 step128 X (view 4 (r mod 4) s) r /\
  length (r_round rmd128 X s r) = 4%nat.
Proof.
  intros Hr L. unfold r_round, r_index, table_step. change (r_strength rmd128 =? 128) with true. cbv iota.
  change (r_state_words rmd128) with 4%nat. change (r_rounds rmd128) with 128%nat.
  assert (I : forall i, ((128 + i - r) mod 4 = (4 + i - r mod 4) mod 4)%nat) by (intros; apply index_mod; [lia|reflexivity|lia]).
  rewrite !I. clear I. rewrite S_mod by lia. pose proof (Nat.mod_upper_bound r 4 ltac:(lia)) as B.
  unfold r_mixed. rewrite !wrol_rol.
  set (Fn := r_functor rmd128 r). set (x := nth (Z.to_nat _) X 0). set (rot := nth r (r_rot rmd128) 0).
  set (k := nth (r / 16) (r_K rmd128) 0). clearbody Fn x rot k.
  set (q := (r mod 4)%nat) in *. clearbody q.
  do 4 (destruct s as [|? s]; [discriminate|]). destruct s; [|discriminate].
  do 4 (destruct q as [|q]; [split; reflexivity|]). lia.
Qed.

(** Whole lines. *)
Lemma fold_shift (g : list Z -> nat -> list Z) k n v :
  fold_left g (seq k n) v = fold_left (fun v j => g v (k + j)%nat) (seq 0 n) v.
Proof.
  assert (E : seq k n = map (fun j => (k + j)%nat) (seq 0 n)).
  { apply (list_ext _ _ 0%nat); [rewrite map_length, !seq_length; reflexivity|].
    intros i Hi. rewrite seq_length in Hi. rewrite seq_nth by exact Hi.
    rewrite (nth_indep _ 0%nat (k + 0)%nat) by (rewrite map_length, seq_length; exact Hi).
    rewrite (map_nth (fun j => (k + j)%nat)), seq_nth by exact Hi. reflexivity. }
  rewrite E, fold_left_map. reflexivity.
Qed.
Lemma line_fold n R (rnd : list Z -> nat -> list Z) (step : list Z -> nat -> list Z) :
  (0 < n)%nat ->
  (forall s r, (r < R)%nat -> length s = n ->
     view n (S r mod n) (rnd s r) = step (view n (r mod n) s) r /\ length (rnd s r) = n) ->
  forall r k s, (r + k <= R)%nat -> (r mod n = 0)%nat -> (k mod n = 0)%nat -> length s = n ->
  fold_left rnd (seq r k) s = fold_left (fun v j => step v (r + j)%nat) (seq 0 k) s /\
  length (fold_left rnd (seq r k) s) = n.
Proof.
  intros Hn Hst r k s Hk Hr Hkm L.
  pose proof (rounds_view (mksha 32 160 R [] []) n (fun r s _ => rnd s r) step (fun _ => True) (fun _ => 0) Hn) as V.
  cbn [rounds] in V. destruct (V) with (k := k) (r := r) (s := s) as (V1 & V2 & _); try exact Hk; try exact L; try exact I.
  { intros r' s' Hr' L' _. destruct (Hst s' r' Hr' L') as [E1 E2]. repeat split; assumption. }
  rewrite Hr in V1. rewrite (view_0 n s L Hn) in V1.
  assert (Z0 : ((r + k) mod n = 0)%nat) by (rewrite Nat.add_mod, Hr, Hkm by lia; apply Nat.mod_0_l; lia).
  rewrite Z0, view_0 in V1 by (exact V2 || exact Hn). rewrite <- fold_shift. split; [exact V1|exact V2].
Qed.

Lemma fold_ext_in {X Y} (f g : X -> Y -> X) l : (forall x y, In y l -> f x y = g x y) -> forall x, fold_left f l x = fold_left g l x.
Proof.
  induction l as [|y l IH]; intros E x; cbn [fold_left]; [reflexivity|]. rewrite E by (left; reflexivity).
  apply IH. intros; apply E; right; assumption.
Qed.

(** The tables of the code are those of the specification. *)
Definition same_tables (A : rmd) (rounds_ : nat) (right : bool) (j : nat) : bool :=
  let r := (if right then (16 * rounds_ + j)%nat else j) in
  let word := if right then right_word j else left_word j in
  (nth r (r_rot A) 0 =? shift (j / 16) word) && Nat.eqb (Z.to_nat (nth r (r_word A) 0)) word &&
  (nth (r / 16) (r_K A) 0 =? (if right then K_right rounds_ (j / 16) else K_left (j / 16))).
Lemma tables160 right j : (j < 80)%nat -> same_tables rmd160 5 right j = true.
Proof.
  intros Hj. assert (E : forallb (same_tables rmd160 5 right) (seq 0 80) = true) by (destruct right; vm_compute; reflexivity).
  rewrite forallb_forall in E. apply E. apply in_seq. lia.
Qed.
Lemma tables128 right j : (j < 64)%nat -> same_tables rmd128 4 right j = true.
Proof.
  intros Hj. assert (E : forallb (same_tables rmd128 4 right) (seq 0 64) = true) by (destruct right; vm_compute; reflexivity).
  rewrite forallb_forall in E. apply E. apply in_seq. lia.
Qed.

Lemma div16 j m : (16 * m <= j < 16 * m + 16)%nat -> (j / 16 = m)%nat.
Proof. intros H. symmetry. apply (Nat.div_unique j 16 m (j - 16 * m)); lia. Qed.
Lemma functor160 (right : bool) j : (j < 80)%nat ->
  r_functor rmd160 (if right then 80 + j else j)%nat = F (if right then 4 - j / 16 else j / 16)%nat.
Proof.
  intros Hj. assert (C : exists m, (m < 5)%nat /\ (16 * m <= j < 16 * m + 16)%nat).
  { exists (j / 16)%nat. pose proof (Nat.div_mod j 16 ltac:(lia)). pose proof (Nat.mod_upper_bound j 16 ltac:(lia)).
    split; [apply Nat.div_lt_upper_bound|]; lia. }
  destruct C as (m & Hm & Hj'). unfold r_functor. rewrite (div16 j m Hj').
  destruct right.
  - rewrite (div16 (80 + j) (5 + m)) by lia. do 5 (destruct m as [|m]; [reflexivity|]). lia.
  - rewrite (div16 j m Hj'). do 5 (destruct m as [|m]; [reflexivity|]). lia.
Qed.
Lemma functor128 (right : bool) j : (j < 64)%nat ->
  r_functor rmd128 (if right then 64 + j else j)%nat = F (if right then 3 - j / 16 else j / 16)%nat.
Proof.
  intros Hj. assert (C : exists m, (m < 4)%nat /\ (16 * m <= j < 16 * m + 16)%nat).
  { exists (j / 16)%nat. pose proof (Nat.div_mod j 16 ltac:(lia)). pose proof (Nat.mod_upper_bound j 16 ltac:(lia)).
    split; [apply Nat.div_lt_upper_bound|]; lia. }
  destruct C as (m & Hm & Hj'). unfold r_functor. rewrite (div16 j m Hj').
  destruct right.
  - rewrite (div16 (64 + j) (4 + m)) by lia. do 4 (destruct m as [|m]; [reflexivity|]). lia.
  - rewrite (div16 j m Hj'). do 4 (destruct m as [|m]; [reflexivity|]). lia.
Qed.

Lemma step160_line (right : bool) X v j : (j < 80)%nat ->
  table_step rmd160 step160 X v (if right then 80 + j else j)%nat = line 5 step160 right X v j.
Proof.
  intros Hj. pose proof (tables160 right j Hj) as T. unfold same_tables in T. cbv zeta in T.
  apply andb_true_iff in T. destruct T as [T T3]. apply andb_true_iff in T. destruct T as [T1 T2].
  apply Z.eqb_eq in T1. apply Nat.eqb_eq in T2. apply Z.eqb_eq in T3. change (16 * 5)%nat with 80%nat in *.
  unfold table_step, line. cbv zeta. rewrite T1, T2, T3, functor160 by exact Hj. reflexivity.
Qed.
Lemma step128_line (right : bool) X v j : (j < 64)%nat ->
  table_step rmd128 step128 X v (if right then 64 + j else j)%nat = line 4 step128 right X v j.
Proof.
  intros Hj. pose proof (tables128 right j Hj) as T. unfold same_tables in T. cbv zeta in T.
  apply andb_true_iff in T. destruct T as [T T3]. apply andb_true_iff in T. destruct T as [T1 T2].
  apply Z.eqb_eq in T1. apply Nat.eqb_eq in T2. apply Z.eqb_eq in T3. change (16 * 4)%nat with 64%nat in *.
  unfold table_step, line. cbv zeta. rewrite T1, T2, T3, functor128 by exact Hj. reflexivity.
Qed.

(** The block functions on sixteen words. *)
Definition rsum160 (h l r : list Z) : list Z :=
  match h, l, r with
  | [h0; h1; h2; h3; h4], [a; b; c; d; e], [a'; b'; c'; d'; e'] =>
    [plus (plus h1 c) d'; plus (plus h2 d) e'; plus (plus h3 e) a'; plus (plus h4 a) b'; plus (plus h0 b) c']
  | _, _, _ => h
  end.
Definition rsum128 (h l r : list Z) : list Z :=
  match h, l, r with
  | [h0; h1; h2; h3], [a; b; c; d], [a'; b'; c'; d'] =>
    [plus (plus h1 c) d'; plus (plus h2 d) a'; plus (plus h3 a) b'; plus (plus h0 b) c']
  | _, _, _ => h
  end.
Definition rmix160 (h X : list Z) : list Z :=
  rsum160 h (fold_left (line 5 step160 false X) (seq 0 80) h) (fold_left (line 5 step160 true X) (seq 0 80) h).
Definition rmix128 (h X : list Z) : list Z :=
  rsum128 h (fold_left (line 4 step128 false X) (seq 0 64) h) (fold_left (line 4 step128 true X) (seq 0 64) h).

Lemma compress160 st X : length st = 5%nat -> r_compress rmd160 st X = rmix160 st X /\ length (rmix160 st X) = 5%nat.
Proof.
  intros L. unfold r_compress. change (r_rounds rmd160 / 2)%nat with 80%nat. cbv zeta.
  destruct (line_fold 5 160 (r_round rmd160 X) (table_step rmd160 step160 X) ltac:(lia)
    (fun s r Hr Ls => round160_step X s r Hr Ls) 0 80 st ltac:(lia) eq_refl eq_refl L) as [E1 L1].
  destruct (line_fold 5 160 (r_round rmd160 X) (table_step rmd160 step160 X) ltac:(lia)
    (fun s r Hr Ls => round160_step X s r Hr Ls) 80 80 st ltac:(lia) eq_refl eq_refl L) as [E2 L2].
  rewrite (fold_ext_in (fun v j => table_step rmd160 step160 X v (0 + j)%nat) (line 5 step160 false X)) in E1
    by (intros v j Hj; apply in_seq in Hj; apply (step160_line false X v j); lia).
  rewrite (fold_ext_in (fun v j => table_step rmd160 step160 X v (80 + j)%nat) (line 5 step160 true X)) in E2
    by (intros v j Hj; apply in_seq in Hj; apply (step160_line true X v j); lia).
  unfold rmix160. rewrite <- E1, <- E2.
  clear E1 E2. set (l := fold_left _ (seq 0 80) st) in *. set (r := fold_left _ (seq 80 80) st) in *. clearbody l r.
  do 5 (destruct st as [|? st]; [discriminate|]). destruct st; [|discriminate].
  do 5 (destruct l as [|? l]; [discriminate|]). destruct l; [|discriminate].
  do 5 (destruct r as [|? r]; [discriminate|]). destruct r; [|discriminate].
  split; reflexivity.
Qed.
Lemma compress128 st X : length st = 4%nat -> r_compress rmd128 st X = rmix128 st X /\ length (rmix128 st X) = 4%nat.
Proof.
  intros L. unfold r_compress. change (r_rounds rmd128 / 2)%nat with 64%nat. cbv zeta.
  destruct (line_fold 4 128 (r_round rmd128 X) (table_step rmd128 step128 X) ltac:(lia)
    (fun s r Hr Ls => round128_step X s r Hr Ls) 0 64 st ltac:(lia) eq_refl eq_refl L) as [E1 L1].
  destruct (line_fold 4 128 (r_round rmd128 X) (table_step rmd128 step128 X) ltac:(lia)
    (fun s r Hr Ls => round128_step X s r Hr Ls) 64 64 st ltac:(lia) eq_refl eq_refl L) as [E2 L2].
  rewrite (fold_ext_in (fun v j => table_step rmd128 step128 X v (0 + j)%nat) (line 4 step128 false X)) in E1
    by (intros v j Hj; apply in_seq in Hj; apply (step128_line false X v j); lia).
  rewrite (fold_ext_in (fun v j => table_step rmd128 step128 X v (64 + j)%nat) (line 4 step128 true X)) in E2
    by (intros v j Hj; apply in_seq in Hj; apply (step128_line true X v j); lia).
  unfold rmix128. rewrite <- E1, <- E2.
  clear E1 E2. set (l := fold_left _ (seq 0 64) st) in *. set (r := fold_left _ (seq 64 64) st) in *. clearbody l r.
  do 4 (destruct st as [|? st]; [discriminate|]). destruct st; [|discriminate].
  do 4 (destruct l as [|? l]; [discriminate|]). destruct l; [|discriminate].
  do 4 (destruct r as [|? r]; [discriminate|]). destruct r; [|discriminate].
  split; reflexivity.
Qed.
