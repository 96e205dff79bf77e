(** Golomb-Rice coding and filter vocabulary (BIP158). *)
From Verif Require Import Base Bytes BitStreamSpec OpModel ChainModel ValidModel.

(** BIP158: the quotient in unary, a zero, then the P low bits, high to low. *)
Definition golomb_code (P d : Z) : list bool := repeat true (Z.to_nat (d / 2 ^ P)) ++ [false] ++ low_bits d P.
(** A sorted list as its differences. *)
Fixpoint deltas (previous : Z) (l : list Z) : list Z := match l with [] => [] | x :: l' => (x - previous) :: deltas x l' end.
Fixpoint sorted_from (previous : Z) (l : list Z) : Prop := match l with [] => True | x :: l' => previous <= x /\ sorted_from x l' end.
Definition golomb_bits_of (P : Z) (l : list Z) : list bool := flat_map (golomb_code P) (deltas 0 l).
(** BIP158 hash to range. *)
Definition ranged (h range : Z) : Z := h * range / 2 ^ 64.
(** Scripts that must be in a block's filter: of spent outputs (coinbase
    excepted) and of created outputs other than OP_RETURN; never the empty script. *)
Definition relevant (txs : list ptx) (s : script) : Prop :=
  s <> [] /\
  ((exists t i m o, In t txs /\ is_coinbase (p_tx t) = false /\ In (i, m) (pins t) /\ prevout m = Some o /\ out_script o = s) \/
   (exists t o, In t txs /\ In o (poutputs t) /\ out_script o = s /\ (forall p r, s = p :: r -> code p <> 106))).
(** Number of inputs and outputs. *)
Definition population (txs : list ptx) : Z := fold_right (fun t n => len (pins t) + len (poutputs t) + n) 0 txs.
(** Every input but the coinbase's has its previous output. *)
Definition all_populated (txs : list ptx) : Prop :=
  forall t i m, In t txs -> is_coinbase (p_tx t) = false -> In (i, m) (pins t) -> prevout m <> None.
