(** Primality by Pocklington certificates, from Fermat's little theorem.  Used for
    the order of the secp256k1 group (EcModel.order). *)
From Coq Require Import ZArith Znumtheory Zpow_facts List Lia Permutation Bool.
Import ListNotations.
Local Open Scope Z_scope.

(** ** Fermat *)
Definition residues (p : Z) : list Z := map Z.of_nat (seq 1 (Z.to_nat p - 1)).
Lemma residues_in p x : In x (residues p) <-> 1 <= x < p.
Proof.
  unfold residues. rewrite in_map_iff. split.
  - intros (n & <- & I). apply in_seq in I. lia.
  - intros R. exists (Z.to_nat x). split; [lia|]. apply in_seq. lia.
Qed.
Lemma residues_nodup p : NoDup (residues p).
Proof. unfold residues. apply FinFun.Injective_map_NoDup; [intros x y; apply Nat2Z.inj|apply seq_NoDup]. Qed.
Definition product (l : list Z) : Z := fold_right Z.mul 1 l.
Lemma product_perm l l' : Permutation l l' -> product l = product l'.
Proof. unfold product. induction 1 as [|x l1 l2 P IH|x y l1|l1 l2 l3 P1 IH1 P2 IH2]; cbn [fold_right]; [reflexivity|rewrite IH; reflexivity|ring|congruence]. Qed.
Lemma product_map a p l : 0 < p -> product (map (fun x => (a * x) mod p) l) mod p = (a ^ Z.of_nat (length l) * product l) mod p.
Proof.
  intros P. unfold product. induction l as [|x l IH]; [reflexivity|]. cbn [map fold_right length].
  rewrite Nat2Z.inj_succ, Z.pow_succ_r by lia. rewrite Z.mul_mod, IH by lia. rewrite Z.mod_mod by lia. rewrite <- Z.mul_mod by lia. f_equal. ring.
Qed.
Lemma product_coprime p l : prime p -> (forall x, In x l -> 1 <= x < p) -> ~ (p | product l).
Proof.
  intros P. pose proof (prime_ge_2 p P). unfold product. induction l as [|x l IH]; intros H0 D; cbn [fold_right] in D.
  - apply Z.divide_pos_le in D; lia.
  - apply prime_mult in D; [|exact P]. destruct D as [D|D].
    + specialize (H0 x (or_introl eq_refl)). apply Z.divide_pos_le in D; lia.
    + apply IH in D; [exact D|]. intros y I. apply H0. right. exact I.
Qed.
Lemma fermat p a : prime p -> ~ (p | a) -> (a ^ (p - 1)) mod p = 1.
Proof.
  intros P N. pose proof (prime_ge_2 p P) as P2. set (f := fun x => (a * x) mod p).
  assert (Pm : Permutation (map f (residues p)) (residues p)).
  { apply NoDup_Permutation_bis.
    - assert (I : forall l, NoDup l -> (forall x, In x l -> 1 <= x < p) -> NoDup (map f l)).
      { induction l as [|x l IH]; intros ND R; cbn [map]; [constructor|]. inversion ND as [|? ? Nx ND']; subst. constructor; [|apply IH; [exact ND'|intros y Iy; apply R; right; exact Iy]].
        intros Ix. apply in_map_iff in Ix. destruct Ix as (y & E & Iy). unfold f in E.
        assert (D : (p | a * (y - x))).
        { apply Z.mod_divide; [lia|]. rewrite Z.mul_sub_distr_l, Zminus_mod, E, Z.sub_diag. apply Z.mod_0_l. lia. }
        apply prime_mult in D; [|exact P]. destruct D as [D|D]; [exact (N D)|].
        pose proof (R x (or_introl eq_refl)). pose proof (R y (or_intror Iy)). assert (x <> y) by (intros ->; exact (Nx Iy)).
        destruct D as [k Hk]. assert (k = 0) by nia. lia. }
      apply I; [apply residues_nodup|intros x; apply residues_in].
    - rewrite map_length. lia.
    - intros z I. apply in_map_iff in I. destruct I as (x & <- & I). apply residues_in in I. apply residues_in. unfold f.
      pose proof (Z.mod_pos_bound (a * x) p ltac:(lia)) as B. destruct (Z.eq_dec ((a * x) mod p) 0) as [E|E]; [|lia].
      apply Z.mod_divide in E; [|lia]. apply prime_mult in E; [|exact P]. destruct E as [E|E]; [destruct (N E)|]. apply Z.divide_pos_le in E; lia. }
  apply product_perm in Pm. pose proof (product_map a p (residues p) ltac:(lia)) as M. fold f in M. rewrite Pm in M.
  assert (Ln : Z.of_nat (length (residues p)) = p - 1) by (unfold residues; rewrite map_length, seq_length; lia). rewrite Ln in M.
  assert (D : (p | (a ^ (p - 1) - 1) * product (residues p))).
  { apply Z.mod_divide; [lia|]. rewrite Z.mul_sub_distr_r, Z.mul_1_l, Zminus_mod, <- M, Z.sub_diag. apply Z.mod_0_l. lia. }
  apply prime_mult in D; [|exact P]. destruct D as [D|D]; [|destruct (product_coprime p (residues p) P (fun x => proj1 (residues_in p x)) D)].
  replace (a ^ (p - 1)) with ((a ^ (p - 1) - 1) + 1) by ring. rewrite Z.add_mod by lia. apply Z.mod_divide in D; [|lia]. rewrite D. rewrite (Z.mod_1_l p) by lia. apply Z.mod_1_l. lia.
Qed.

(** ** Exponents with a^k = 1 *)
Lemma pow_mod_mul p a m k : 1 < p -> 0 <= m -> 0 <= k -> (a ^ m) mod p = 1 -> (a ^ (m * k)) mod p = 1.
Proof.
  intros P M K E. rewrite Z.pow_mul_r by lia. revert k K. apply natlike_ind; [apply Z.mod_1_l; lia|]. intros k K IH.
  rewrite Z.pow_succ_r by lia. rewrite Z.mul_mod by lia. rewrite IH, E. apply Z.mod_1_l. lia.
Qed.
Lemma pow_mod_sub p a m k : 1 < p -> 0 <= k <= m -> (a ^ m) mod p = 1 -> (a ^ k) mod p = 1 -> (a ^ (m - k)) mod p = 1.
Proof.
  intros P K Em Ek. replace m with ((m - k) + k) in Em by ring. rewrite Z.pow_add_r in Em by lia. rewrite Z.mul_mod, Ek, Z.mul_1_r, Z.mod_mod in Em by lia. exact Em.
Qed.
Lemma pow_mod_gcd p a : 1 < p -> forall n, 0 <= n -> forall m k, m + k <= n -> 0 <= m -> 0 <= k -> (a ^ m) mod p = 1 -> (a ^ k) mod p = 1 -> (a ^ Z.gcd m k) mod p = 1.
Proof.
  intros P n Hn. pattern n. apply Zlt_0_ind; [|exact Hn]. clear n Hn. intros n IH _ m k L M K Em Ek.
  destruct (Z.eq_dec m 0) as [->|M0]; [rewrite Z.gcd_0_l_nonneg by lia; exact Ek|].
  destruct (Z.eq_dec k 0) as [->|K0]; [rewrite Z.gcd_0_r_nonneg by lia; exact Em|].
  destruct (Z_le_gt_dec k m) as [H|H].
  - replace (Z.gcd m k) with (Z.gcd (m - k) k) by (rewrite Z.gcd_comm, Z.gcd_sub_diag_r, Z.gcd_comm; reflexivity).
    apply (IH (n - k)); [lia|lia|lia|lia|apply pow_mod_sub; [exact P|lia|exact Em|exact Ek]|exact Ek].
  - replace (Z.gcd m k) with (Z.gcd m (k - m)) by (rewrite Z.gcd_sub_diag_r; reflexivity).
    apply (IH (n - m)); [lia|lia|lia|lia|exact Em|apply pow_mod_sub; [exact P|lia|exact Ek|exact Em]].
Qed.

(** ** Pocklington *)
Lemma pocklington_factor N q a p : 1 < N -> prime q -> (q | N - 1) ->
  (a ^ (N - 1)) mod N = 1 -> Z.gcd ((a ^ ((N - 1) / q)) mod N - 1) N = 1 -> prime p -> (p | N) -> (q | p - 1).
Proof.
  intros HN Q Fq A G P D. pose proof (prime_ge_2 p P). pose proof (prime_ge_2 q Q).
  assert (red : forall x, x mod p = (x mod N) mod p) by (intros x; apply Zmod_div_mod; [lia|lia|exact D]).
  assert (Ap : (a ^ (N - 1)) mod p = 1) by (rewrite red, A; apply Z.mod_1_l; lia).
  assert (Na : ~ (p | a)).
  { intros Da. apply Z.mod_divide in Da; [|lia]. rewrite Zpower_mod, Da, Z.pow_0_l, Z.mod_0_l in Ap by lia. discriminate. }
  pose proof (fermat p a P Na) as Fp. set (d := Z.gcd (N - 1) (p - 1)).
  assert (Ad : (a ^ d) mod p = 1) by (apply (pow_mod_gcd p a ltac:(lia) (N - 1 + (p - 1))); [lia|lia|lia|lia|exact Ap|exact Fp]).
  destruct (Z.gcd_divide_l (N - 1) (p - 1)) as [t Ht]. fold d in Ht.
  assert (d0 : 0 <= d) by apply Z.gcd_nonneg. assert (dp : 0 < d) by (destruct (Z.eq_dec d 0) as [E|]; [rewrite E in Ht; lia|lia]).
  assert (t0 : 0 < t) by nia.
  destruct (Zdivide_dec q t) as [[u Hu]|Nt].
  - exfalso. assert (Eu : (N - 1) / q = d * u) by (rewrite Ht, Hu; replace (u * q * d) with (d * u * q) by ring; apply Z.div_mul; lia).
    rewrite Eu in G. assert (Au : (a ^ (d * u)) mod p = 1) by (apply pow_mod_mul; [lia|lia|nia|exact Ad]).
    assert (Dp : (p | (a ^ (d * u)) mod N - 1)).
    { apply Z.mod_divide; [lia|]. rewrite Zminus_mod, <- red, Au, (Z.mod_1_l p) by lia. apply Z.mod_0_l. lia. }
    assert (p | 1) by (rewrite <- G; apply Z.gcd_greatest; assumption). apply Z.divide_pos_le in H1; lia.
  - assert (Dq : (q | t * d)) by (rewrite <- Ht; exact Fq). apply prime_mult in Dq; [|exact Q]. destruct Dq as [Dq|Dq]; [destruct (Nt Dq)|].
    apply (Z.divide_trans _ d); [exact Dq|apply Z.gcd_divide_r].
Qed.
Lemma prime_factor n : 1 < n -> exists p, prime p /\ (p | n).
Proof.
  intros H. assert (N0 : 0 <= n) by lia. revert H. pattern n. apply Zlt_0_ind; [|exact N0]. clear n N0. intros n IH _ H.
  destruct (prime_dec n) as [P|P]; [exists n; split; [exact P|apply Z.divide_refl]|].
  destruct (not_prime_divide n H P) as (m & R & D). destruct (IH m ltac:(lia) ltac:(lia)) as (p & Pp & Dp). exists p. split; [exact Pp|]. apply (Z.divide_trans _ m); assumption.
Qed.
Lemma large_factors N F : 1 < N -> 0 < F -> N < F * F -> (forall p, prime p -> (p | N) -> F < p) -> prime N.
Proof.
  intros HN F0 FF H. destruct (prime_dec N) as [P|P]; [exact P|]. exfalso. destruct (not_prime_divide N HN P) as (m & R & D). destruct D as [k Hk].
  assert (1 < k) by nia. destruct (prime_factor m ltac:(lia)) as (p & Pp & Dp). destruct (prime_factor k ltac:(lia)) as (p' & Pp' & Dp').
  assert (F < p) by (apply H; [exact Pp|apply (Z.divide_trans _ m); [exact Dp|exists k; exact Hk]]).
  assert (F < p') by (apply H; [exact Pp'|apply (Z.divide_trans _ k); [exact Dp'|exists m; rewrite Hk; ring]]).
  apply Z.divide_pos_le in Dp; [|lia]. apply Z.divide_pos_le in Dp'; [|lia]. nia.
Qed.

(** ** Certificates *)
Fixpoint powmod (a : Z) (e : positive) (n : Z) : Z :=
  match e with
  | xH => a mod n
  | xO e' => let b := powmod a e' n in (b * b) mod n
  | xI e' => let b := powmod a e' n in (a * ((b * b) mod n)) mod n
  end.
Lemma powmod_ok a n : 0 < n -> forall e, powmod a e n = (a ^ Zpos e) mod n.
Proof.
  intros N. induction e as [e IH|e IH|]; cbn [powmod]; [| |rewrite Z.pow_1_r; reflexivity]; rewrite IH.
  - rewrite Pos2Z.inj_xI, Z.pow_add_r, Z.mul_comm, Z.pow_1_r, Z.mul_comm by lia. replace (2 * Z.pos e) with (Z.pos e + Z.pos e) by ring. rewrite Z.pow_add_r by lia.
    rewrite <- Z.mul_mod by lia. rewrite Z.mul_mod_idemp_r by lia. f_equal. ring.
  - rewrite Pos2Z.inj_xO. replace (2 * Z.pos e) with (Z.pos e + Z.pos e) by ring. rewrite Z.pow_add_r by lia. symmetry. apply Z.mul_mod. lia.
Qed.
(** N - 1 = m*q1*q2: the powers through the common one a^m *)
Definition certified (a n : Z) (m q1 q2 : positive) : bool :=
  (1 <? n) && (n - 1 =? Zpos m * Zpos q1 * Zpos q2) && (n <? (Zpos q1 * Zpos q2) * (Zpos q1 * Zpos q2)) &&
  let b := powmod a m n in
  let c1 := powmod b q2 n in
  let c2 := powmod b q1 n in
  (powmod c1 q1 n =? 1) && (Z.gcd (c1 - 1) n =? 1) && ((Zpos q2 =? 1) || (Z.gcd (c2 - 1) n =? 1)).
Lemma powmod_twice a e f n : 0 < n -> powmod (powmod a e n) f n = (a ^ (Zpos e * Zpos f)) mod n.
Proof. intros N. rewrite !powmod_ok by exact N. rewrite Z.pow_mul_r by lia. symmetry. apply Zpower_mod. lia. Qed.
Lemma certified_prime a n m q1 q2 : certified a n m q1 q2 = true -> prime (Zpos q1) -> (q2 = 1%positive \/ prime (Zpos q2)) -> q1 <> q2 -> prime n.
Proof.
  unfold certified. cbv zeta. rewrite !andb_true_iff, orb_true_iff, !Z.eqb_eq, !Z.ltb_lt. intros (((N1 & E) & FF) & ((A & G1) & G2)) P1 P2 Nq.
  rewrite (powmod_twice a m q2 n) in A, G1 by lia. rewrite (powmod_twice a m q1 n) in G2 by lia.
  rewrite powmod_ok, <- Zpower_mod, <- Z.pow_mul_r in A by lia. replace (Z.pos m * Z.pos q2 * Z.pos q1) with (n - 1) in A by (rewrite E; ring).
  apply (large_factors n (Zpos q1 * Zpos q2)); [exact N1|lia|exact FF|]. intros p Pp Dp. pose proof (prime_ge_2 p Pp).
  assert (D1 : (Zpos q1 | p - 1)).
  { apply (pocklington_factor n (Zpos q1) a p); try assumption; [exists (Zpos m * Zpos q2); rewrite E; ring|].
    replace ((n - 1) / Z.pos q1) with (Z.pos m * Z.pos q2); [exact G1|]. rewrite E. replace (Z.pos m * Z.pos q1 * Z.pos q2) with (Z.pos m * Z.pos q2 * Z.pos q1) by ring. symmetry. apply Z.div_mul. lia. }
  assert (D2 : (Zpos q2 | p - 1)).
  { destruct P2 as [->|P2]; [exists (p - 1); ring|]. destruct G2 as [G2|G2]; [pose proof (prime_ge_2 _ P2); lia|]. apply (pocklington_factor n (Zpos q2) a p); try assumption; [exists (Zpos m * Zpos q1); rewrite E; ring|].
    replace ((n - 1) / Z.pos q2) with (Z.pos m * Z.pos q1); [exact G2|]. rewrite E. symmetry. apply Z.div_mul. lia. }
  assert (D : (Zpos q1 * Zpos q2 | p - 1)).
  { destruct P2 as [->|P2]; [rewrite Z.mul_1_r; exact D1|]. destruct D1 as [k Hk]. rewrite Hk in D2. apply prime_mult in D2; [|exact P2]. destruct D2 as [[j ->]|D2].
    - exists j. rewrite Hk. ring.
    - exfalso. apply prime_div_prime in D2; [|exact P2|exact P1]. injection D2 as D2. congruence. }
  apply Z.divide_pos_le in D; lia.
Qed.
(** small primes by trial division *)
Definition small_prime (n : Z) : bool := (1 <? n) && forallb (fun k => negb (n mod Z.of_nat k =? 0)) (seq 2 (Z.to_nat (Z.sqrt n) - 1)).
Lemma small_prime_ok n : small_prime n = true -> prime n.
Proof.
  unfold small_prime. rewrite andb_true_iff, Z.ltb_lt, forallb_forall. intros [N1 H]. destruct (prime_dec n) as [P|P]; [exact P|]. exfalso.
  destruct (not_prime_divide n N1 P) as (m & R & D). destruct D as [k Hk]. assert (1 < k < n) by nia.
  assert (X : forall x y, 1 < x -> x <= y -> n = x * y -> False).
  { intros x y Hx Hxy E. pose proof (Z.sqrt_spec n ltac:(lia)) as Sq. cbv zeta in Sq. assert (x <= Z.sqrt n) by (apply Z.sqrt_le_square; nia).
    specialize (H (Z.to_nat x)). rewrite in_seq in H. specialize (H ltac:(lia)). apply negb_true_iff, Z.eqb_neq in H. apply H. rewrite Z2Nat.id by lia. rewrite E, Z.mul_comm. apply Z.mod_mul. lia. }
  destruct (Z_le_gt_dec m k); [apply (X m k); nia|apply (X k m); nia].
Qed.
