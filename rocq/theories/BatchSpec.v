(** Signature batching, independently of the model's algorithms: when a captured
    entry is valid, and the rows a store is documented to hold for the captured
    entries of its blocks (chain/batch/multisig.hpp:41 "sig i pairs keys
    [i, i + (keys - sigs)]", signatures.hpp:122-127, secp256k1_batch.hpp:54-72). *)
From Verif Require Import Base Bytes InterpEarly BatchModel.
From Coq Require Import Permutation.

(** An m of n group is valid when its signatures can be given distinct keys in
    key order ([matching]); a row when its signature verifies. *)
Definition valid_group (ve : list Z -> list Z -> list Z -> bool) (g : group) : Prop :=
  let '(digest, keys, sigs) := g in matching (fun key sig => ve key digest sig) keys sigs.
Definition valid_row (vs : list Z -> list Z -> list Z -> bool) (r : row) : Prop :=
  let '(digest, point, sig) := r in vs point digest sig = true.

(** The rows of a group, sorted. *)
Definition band (sigs keys : nat) : list (nat * nat) :=
  flat_map (fun i => map (fun j => (i, j)) (seq i (keys - sigs + 1))) (seq 0 sigs).
Definition group_rows (id ordinal : Z) (g : group) : list ecdsa_row :=
  let '(digest, keys, sigs) := g in
  map (fun p => mkrow id (16 * Z.of_nat (fst p) + Z.of_nat (snd p)) ordinal digest (nth (snd p) keys []) (nth (fst p) sigs []))
      (band (length sigs) (length keys)).
(** Group k of a block has the sixteen bit ordinal k. *)
Fixpoint numbered {A} (k : Z) (l : list A) : list (Z * A) :=
  match l with [] => [] | x :: r => (k mod 65536, x) :: numbered (k + 1) r end.
(** A table: blocks (identifier, groups), the rows of a group being consecutive
    and in any order. *)
Definition table (blocks : list (Z * list group)) (rows : list ecdsa_row) : Prop :=
  exists chunks, rows = concat chunks /\
    Forall2 (fun g chunk => Permutation (group_rows (fst g) (fst (snd g)) (snd (snd g))) chunk)
      (flat_map (fun b => map (fun g => (fst b, g)) (numbered 0 (snd b))) blocks) chunks.
Definition group_ok (g : group) : Prop := let '(_, keys, sigs) := g in 1 <= len sigs <= len keys /\ len keys <= 16.
Definition blocks_ok (blocks : list (Z * list group)) : Prop :=
  NoDup (map fst blocks) /\ Forall (fun b => fst b <> 0xffffff /\ len (snd b) <= 65536 /\ Forall group_ok (snd b)) blocks.
