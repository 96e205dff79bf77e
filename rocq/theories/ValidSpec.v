(** Specification vocabulary for contextual validation (C29-C34, C61): exact
    integer sums, BIP68, finality, and a textbook unspent output ledger. *)
From Verif Require Import Base Bytes StreamModel StateModel OpModel ChainModel ChainSpec BlockModel BlockSpec ValidModel.

Definition total (l : list Z) : Z := fold_right Z.add 0 l.
Definition sum_outputs (l : list output) : Z := total (map out_value l).
(** A uint64_t amount; every list of outputs has such values. *)
Definition amounts (l : list output) : Prop := Forall (fun o => 0 <= out_value o < 2 ^ 64) l.
(** Every input has a previous output, and these are they. *)
Definition previous_outputs (t : ptx) (os : list output) : Prop := map (fun p => prevout (snd p)) (pins t) = map Some os.

(** BIP65/BIP113 finality (the reference's IsFinalTx). *)
Definition final_tx (height time : Z) (t : tx) : Prop :=
  tx_locktime t = 0 \/
  (tx_locktime t < 500000000 /\ tx_locktime t < height) \/
  (500000000 <= tx_locktime t /\ tx_locktime t < time) \/
  (forall i, In i (tx_inputs t) -> in_sequence i = 2 ^ 32 - 1).
(** BIP68: the lock of one input has expired. *)
Definition bip68_expired (sequence height mtp prev_height prev_mtp : Z) : Prop :=
  Z.testbit sequence 31 = true \/
  (Z.testbit sequence 22 = true /\ prev_mtp + 512 * (sequence mod 2 ^ 16) <= mtp) \/
  (Z.testbit sequence 22 = false /\ prev_height + sequence mod 2 ^ 16 <= height).
(** The output an input spends, as of its metadata, may be spent at [height]:
    confirmed, not spent below it, and 100 deep if from a coinbase (the genesis
    coinbase never). *)
Definition spendable (height : Z) (m : meta) : Prop :=
  prevout_height m <= height <= spender_height m /\
  (m_coinbase m = true -> prevout_height m <> 0 /\ prevout_height m + 100 <= height).

(** ** Ledger: unspent outputs by point. *)
Definition ledger := list (point * output).
Definition worth (U : ledger) : Z := total (map (fun e => out_value (snd e)) U).
Definition points_spent (t : tx) : list point := map (fun i => (in_hash i, in_index i)) (tx_inputs t).
Definition created (D : list Z -> list Z) (t : tx) : ledger :=
  combine (map (fun n => (D (tx_to_data false t), Z.of_nat n)) (seq 0 (length (tx_outputs t)))) (tx_outputs t).
Definition apply_tx (D : list Z -> list Z) (U : ledger) (t : tx) : ledger :=
  filter (fun e => negb (existsb (point_eq (fst e)) (points_spent t))) U ++ created D t.
(** The coinbase's outputs cannot be spent in its own block, so they are added last. *)
Definition apply_block (D : list Z -> list Z) (U : ledger) (l : list tx) : ledger :=
  match l with [] => U | cb :: others => fold_left (apply_tx D) others U ++ created D cb end.
(** Transactions run in order, each spending distinct unspent outputs worth at
    least what it creates; the surplus is the fee. *)
Inductive runs (D : list Z -> list Z) : ledger -> list tx -> Z -> Prop :=
  | runs_nil U : runs D U [] 0
  | runs_cons U t l ins f :
      NoDup (points_spent t) -> map fst ins = points_spent t -> (forall e, In e ins -> In e U) ->
      sum_outputs (tx_outputs t) <= worth ins ->
      runs D (apply_tx D U t) l f ->
      runs D U (t :: l) (worth ins - sum_outputs (tx_outputs t) + f).

(** A transaction does not name its own hash as an input (a hash cycle). *)
Definition acyclic (D : list Z -> list Z) (t : tx) : Prop := forall i, In i (tx_inputs t) -> in_hash i <> D (tx_to_data false t).
(** What the node does with a block before accept: the previous outputs found
    in its store are those of the ledger; the coinbase has none. *)
Definition stored (U : ledger) (b : pblock) : Prop :=
  match pb_txs b with
  | [] => True
  | cb :: others =>
    (forall m, In m (p_meta cb) -> prevout m = None) /\
    (forall t i m o, In t others -> In (i, m) (pins t) -> prevout m = Some o -> In ((in_hash i, in_index i), o) U)
  end.
(** Blocks accepted one after the other, [rule] being what is known of each
    context.  [issued] is the sum of the subsidies. *)
Inductive history (D : list Z -> list Z) (interval initial : Z) (rule : context -> Prop) : Z -> Z -> ledger -> Prop :=
  | history_start h : 0 <= h -> history D interval initial rule h 0 []
  | history_step h issued U c identity b b' :
      history D interval initial rule h issued U -> c_height c = h -> rule c ->
      Forall (fun t => tx_ok (p_tx t) /\ acyclic D (p_tx t)) (pb_txs b) ->
      block_check D identity (unpopulated b) = success ->
      stored U b -> populate D c b = (success, b') ->
      block_accept c interval initial b' = success ->
      history D interval initial rule (h + 1) (issued + subsidy h interval initial (is_enabled c fl_bip42))
        (apply_block D U (map p_tx (pb_txs b))).
