(** C43: filter headers (src/filter/neutrino.cpp:84-97 compute_header). *)
From Verif Require Import Base Bytes ShaModel ShaSpec AccModel ShaProps KdfModel KdfProofs KdfProps SighashProofs.

(** The previous header and filter to the next header, and a chain of them. *)
Definition compute_header (checked s8 : bool) (widths : list nat) (previous filter : list Z) : list Z :=
  bitcoin_hash_pair s8 (bitcoin_hash checked s8 widths filter) previous.
Definition header_chain (checked s8 : bool) (widths : list nat) (filters : list (list Z)) : list Z :=
  fold_left (compute_header checked s8 widths) filters (repeat 0 32).
(** BIP157: the double hash of the filter's double hash and the previous header,
    starting at zero. *)
Fixpoint bip157_header (filters : list (list Z)) (previous : list Z) : list Z :=
  match filters with
  | [] => previous
  | f :: r => bip157_header r (SHA256 (SHA256 (SHA256 (SHA256 f) ++ previous)))
  end.
Theorem C43_header checked s8 widths filters : Forall (fun f => len f < 2 ^ 60) filters ->
  header_chain checked s8 widths filters = bip157_header filters (repeat 0 32).
Proof.
  unfold header_chain. assert (L : length (repeat 0 32) = 32%nat) by reflexivity. revert L. generalize (repeat 0 32). intros p L F. revert p L.
  induction F as [|f r Hf _ IH]; intros p L; [reflexivity|]. cbn [fold_left bip157_header].
  assert (E : compute_header checked s8 widths p f = SHA256 (SHA256 (SHA256 (SHA256 f) ++ p))).
  { unfold compute_header. assert (M : len f + len (@nil Z) < max_message - 64) by (change (len (@nil Z)) with 0; unfold max_message; change (2 ^ 61) with 2305843009213693952; change (2 ^ 40) with 1099511627776; change (2 ^ 60) with 1152921504606846976 in Hf; lia).
    destruct (C67_functions checked s8 widths f [] M) as (_ & _ & -> & _).
    assert (M2 : len (SHA256 (SHA256 f)) + len p < max_message - 64) by (unfold len; rewrite (sha256_length s8 widths), L; vm_compute; reflexivity).
    destruct (C67_functions checked s8 widths _ p M2) as (_ & _ & _ & _ & _ & _ & Q). apply Q; [apply (sha256_length s8 widths)|exact L]. }
  rewrite E. apply IH. apply (sha256_length s8 widths).
Qed.
Print Assumptions C43_header.
Example C43_header_satisfiable : Forall (fun f => len f < 2 ^ 60) [[1; 2]; [3]] /\ header_chain true true [] [[1; 2]; [3]] <> header_chain true true [] [[3]; [1; 2]].
Proof. split; [repeat constructor; cbn; lia|]. vm_compute. discriminate. Qed.
