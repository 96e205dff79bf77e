(** Concrete blocks meeting the hypotheses of C26, C27, C28 (BlockProps.v). *)
From Verif Require Import Base Bytes StreamModel OpModel ChainModel ChainSpec BlockModel BlockSpec BlockProps.
(** ** Concrete cases *)
Definition D (l : list Z) : list Z := le_bytes 32 (fold_left (fun a b => (a * 257 + b + 1) mod 2 ^ 255) l 7).
Lemma D_digest : digest32 D. Proof. intros l. apply le_bytes_length. Qed.
Definition op1 : op := mkop 81 [] false.
Definition cbin : input := mkinput (repeat 0 32) 4294967295 [op1; op1] 4294967295 [].
Definition cb : tx := make_tx 1 [cbin] [mkoutput 50 [op1]] 0.
Definition spend (k : Z) : tx := make_tx 1 [mkinput (repeat k 32) 0 [op1] 7 []] [mkoutput 5 [op1]] 0.
Definition hdr (l : list tx) : header := mkheader 1 (repeat 0 32) (merkle_root D (map (tx_hash D false) l)) 0 0 0.
Definition blk (l : list tx) : block := mkblock (hdr l) l.
Definition five := [cb; spend 1; spend 2; spend 3; spend 4].
Definition seven := five ++ [spend 4; spend 4].
(** The block passes check; the two level copy has the same root, passes
    identify, and is rejected by check as a double spend under the same header. *)
Example checked : block_check D true (blk five) = success. Proof. vm_compute. reflexivity. Qed.
Example copied : identify D (mkblock (hdr five) seven) = success /\
  block_check D true (mkblock (hdr five) seven) = block_internal_double_spend /\
  block_check D true (mkblock (hdr five) (five ++ [spend 4])) = invalid_transaction_commitment.
Proof. vm_compute. auto. Qed.
Example malleated : is_malleated32 D (blk (five ++ [spend 4])) = true /\ malleated32_size D (blk (five ++ [spend 4])) = 1. Proof. vm_compute. auto. Qed.
Example branch : len (merkle_branch D 4 (map (tx_hash D false) five)) = 3. Proof. vm_compute. reflexivity. Qed.
Definition child : tx := make_tx 1 [mkinput (tx_hash D false (spend 1)) 0 [op1] 7 []] [mkoutput 5 [op1]] 0.
Example forward : block_check D true (blk [cb; child; spend 1]) = forward_reference /\ block_check D true (blk [cb; spend 1; child]) = success. Proof. vm_compute. auto. Qed.
(** ** C59, C60 *)
From Verif Require Import BlockProps2.
Example bip34 : is_coinbase_pattern [mkop 3 [160; 134; 1] false; op1] 100000 = true /\ is_coinbase_pattern [mkop 3 [161; 134; 1] false; op1] 100000 = false /\
  is_coinbase_pattern [mkop 4 [160; 134; 1; 0] false; op1] 100000 = false. Proof. vm_compute. auto. Qed.
(** A block with a witness, a reserved value and a commitment to both. *)
Definition wspend : tx := make_tx 1 [mkinput (repeat 3 32) 0 [] 7 [[1; 2; 3]]] [mkoutput 5 [op1]] 0.
Definition wcb (h : list Z) : tx := make_tx 1 [mkinput (repeat 0 32) 4294967295 [op1; op1] 4294967295 [repeat 9 32]]
  [mkoutput 50 [op1]; mkoutput 0 [mkop 106 [] false; mkop 36 (witness_head ++ h) false]] 0.
Definition commit_to : list Z := D (merkle_root D [repeat 0 32; tx_hash D true wspend] ++ repeat 9 32).
Example committed : is_invalid_witness_commitment D (blk [wcb commit_to; wspend]) = false /\
  is_invalid_witness_commitment D (blk [wcb (repeat 1 32); wspend]) = true /\
  is_invalid_witness_commitment D (blk [cb; wspend]) = true /\ is_invalid_witness_commitment D (blk [cb; spend 1]) = false.
Proof. vm_compute. auto. Qed.
