(** Specification of Borromean ring signatures (Maxwell and Poelstra, 2015). *)
From Verif Require Import Base Bytes EcModel HdModel.

Section Spec.
Variable c : curve.
Variable sha256 : list Z -> list Z.
Variable M : list Z.
(** The challenge after R at position j of ring i. *)
Definition next_challenge (R : list Z) (i j : nat) : list Z := sha256 (R ++ M ++ be_bytes 4 (Z.of_nat i) ++ be_bytes 4 (Z.of_nat j)).
Definition valid_scalar (b : list Z) : Prop := 0 < be_value b < order.
(** One link: R = s*G + e*P (a point, not the identity). *)
Definition link (s e P R : list Z) : Prop :=
  valid_scalar s /\ valid_scalar e /\ exists x, dlog c P = Some x /\ 0 < (be_value s + be_value e * x) mod order /\ R = mulG c ((be_value s + be_value e * x) mod order).
(** The links along a ring from position j, whose challenge is e; each R gives the
    next challenge, which is not zero; the last R is the result. *)
Inductive walk (i : nat) : nat -> list Z -> list (list Z) -> list (list Z) -> list Z -> Prop :=
| walk_end j e P s more R : link s e P R -> next_challenge R i (S j) <> null32 -> walk i j e [P] (s :: more) R
| walk_next j e P s more R keys last : link s e P R -> next_challenge R i (S j) <> null32 ->
    walk i (S j) (next_challenge R i (S j)) keys more last -> walk i j e (P :: keys) (s :: more) last.
(** All rings, from number i, joined at the challenge e0. *)
Inductive walks (e0 : list Z) : nat -> list (list (list Z)) -> list (list (list Z)) -> list (list Z) -> Prop :=
| walks_nil i more : walks e0 i [] more []
| walks_cons i ring rings p more R Rs : next_challenge e0 i 0 <> null32 -> walk i 0 (next_challenge e0 i 0) ring p R -> walks e0 (S i) rings more Rs ->
    walks e0 i (ring :: rings) (p :: more) (R :: Rs).
Definition ring_valid (rings proofs : list (list (list Z))) (e0 : list Z) : Prop :=
  exists Rs, walks e0 0 rings proofs Rs /\ e0 = sha256 (concat Rs ++ M).
End Spec.
