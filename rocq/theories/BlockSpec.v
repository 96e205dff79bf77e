(** Specification of merkle trees and of the block level rules. *)
From Verif Require Import Base Bytes OpModel ChainModel ChainSpec.

Section Merkle.
Variable D : list Z -> list Z.
(** One level of the tree: neighbours are paired, a lone last node is paired with itself. *)
Fixpoint level (l : list (list Z)) : list (list Z) :=
  match l with
  | a :: b :: l' => D (a ++ b) :: level l'
  | [a] => [D (a ++ a)]
  | [] => []
  end.
(** The root of the tree over the leaves, and the tree's height. *)
Inductive tree_root : nat -> list (list Z) -> list Z -> Prop :=
  | root_leaf a : tree_root 0 [a] a
  | root_up n a b l r : tree_root n (level (a :: b :: l)) r -> tree_root (S n) (a :: b :: l) r.
(** Two different byte strings with the same digest. *)
Definition collision : Prop := exists x y, x <> y /\ D x = D y.
(** Recomputing a root from a leaf, its position and the sibling hashes. *)
Fixpoint climb (position : Z) (node : list Z) (siblings : list (list Z)) : list Z :=
  match siblings with
  | [] => node
  | s :: l => climb (position / 2) (if Z.even position then D (node ++ s) else D (s ++ node)) l
  end.
End Merkle.

(** All outpoints spent by transactions. *)
Definition spent_points (l : list tx) : list (list Z * Z) :=
  concat (map (fun t => map (fun i => (in_hash i, in_index i)) (tx_inputs t)) l).
Definition digest32 (D : list Z -> list Z) : Prop := forall x, length (D x) = 32%nat.

(** The complete binary tree over the leaves, with the copies made explicit. *)
Inductive mtree := leaf (h : list Z) | node (l r : mtree).
Fixpoint mhash (D : list Z -> list Z) (t : mtree) : list Z :=
  match t with leaf h => h | node l r => D (mhash D l ++ mhash D r) end.
Fixpoint tree_level (l : list mtree) : list mtree :=
  match l with a :: b :: l' => node a b :: tree_level l' | [a] => [node a a] | [] => [] end.
Inductive full_tree : nat -> list mtree -> mtree -> Prop :=
  | full_one a : full_tree 0 [a] a
  | full_up n a b l t : full_tree n (tree_level (a :: b :: l)) t -> full_tree (S n) (a :: b :: l) t.
Definition tree_of (height : nat) (leaves : list (list Z)) (t : mtree) : Prop := full_tree height (map leaf leaves) t.

(** Objects the codec can carry (ChainSpec), of addressable size. *)
Definition block_fits (b : block) : Prop := Forall (fun t => tx_ok t /\ len (tx_to_data false t) < 2 ^ 64) (b_txs b).
(** Every transaction serializes to 64 bytes without witness. *)
Definition all_64_bytes (b : block) : Prop := Forall (fun t => len (tx_to_data false t) = 64) (b_txs b).

(** A transaction spends an output of a transaction placed after it. *)
Definition spends_later (D : list Z -> list Z) (l : list tx) : Prop :=
  exists before t between u after i,
    l = before ++ t :: between ++ u :: after /\ In i (tx_inputs t) /\ in_hash i = D (tx_to_data false u).

(** Rules for single transactions (context free). *)
Definition null_point (i : input) : Prop := in_hash i = repeat 0 32 /\ in_index i = 4294967295.
Definition coinbase_like (t : tx) : Prop := exists i, tx_inputs t = [i] /\ null_point i.
Definition tx_rules (t : tx) : Prop :=
  tx_inputs t <> [] /\ tx_outputs t <> [] /\
  (coinbase_like t -> forall i, In i (tx_inputs t) -> 2 <= len (script_to_data false (in_script i)) <= 100) /\
  (~ coinbase_like t -> forall i, In i (tx_inputs t) -> ~ null_point i).

(** BIP34: the script bytes begin with a push of the height. *)
Definition starts_with (p l : list Z) : Prop := exists r, l = p ++ r.
(** BIP141: the bytes of a commitment output script. *)
Definition commitment_bytes (h l : list Z) : Prop :=
  length h = 32%nat /\ starts_with ([106; 36; 170; 33; 169; 237] ++ h) l.
(** The commitment of a list of outputs is that of the last that has one. *)
Inductive last_commitment : list output -> option (list Z) -> Prop :=
  | no_commitment l : (forall o, In o l -> forall h, ~ commitment_bytes h (script_bytes (out_script o))) -> last_commitment l None
  | a_commitment l1 o l2 h : commitment_bytes h (script_bytes (out_script o)) ->
      (forall o', In o' l2 -> forall h', ~ commitment_bytes h' (script_bytes (out_script o'))) ->
      last_commitment (l1 ++ o :: l2) (Some h).
