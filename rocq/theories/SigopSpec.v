(** Signature operation cost as the reference counts it, on script bytes
    (Bitcoin Core: CScript::GetSigOpCount, GetP2SHSigOpCount, CountWitnessSigOps,
    GetTransactionSigOpCost). *)
From Verif Require Import Base Bytes StreamModel OpModel OpSpec ChainModel ChainSpec ValidModel.

Fixpoint count_sigops (accurate : bool) (previous : Z) (ops : list (Z * list Z)) : Z :=
  match ops with
  | [] => 0
  | (c, _) :: ops' =>
    (if (c =? 172) || (c =? 173) then 1
     else if (c =? 174) || (c =? 175) then (if accurate && (81 <=? previous) && (previous <=? 96) then previous - 80 else 20)
     else 0) + count_sigops accurate c ops'
  end.
(** OP_INVALIDOPCODE (255) precedes the first operation. *)
Definition reference_sigops (accurate : bool) (bytes : list Z) : Z := count_sigops accurate 255 (fst (script_scan bytes)).
Definition reference_p2sh (l : list Z) : bool :=
  (len l =? 23) && (nth 0 l 0 =? 169) && (nth 1 l 0 =? 20) && (nth 22 l 0 =? 135).
(** Version and program of a witness program script. *)
Definition reference_program (l : list Z) : option (Z * list Z) :=
  let c := nth 0 l 0 in
  if (4 <=? len l) && (len l <=? 42) && ((c =? 0) || ((81 <=? c) && (c <=? 96))) && (nth 1 l 0 + 2 =? len l)
  then Some ((if c =? 0 then 0 else c - 80), skipn 2 l) else None.
(** The last pushed data of a push only input script. *)
Definition reference_redeem (l : list Z) : option (list Z) :=
  let (ops, tail) := script_scan l in
  if (len tail =? 0) && forallb (fun o : Z * list Z => fst o <=? 96) ops then Some (snd (last ops (0, []))) else None.
Definition reference_program_sigops (w : list (list Z)) (v : Z) (program : list Z) : Z :=
  if v =? 0 then
    if len program =? 20 then 1
    else if (len program =? 32) && (0 <? len w) then reference_sigops true (last w []) else 0
  else 0.
Section Input.
Variables (i : input) (prev : output).
Let sig := script_bytes (in_script i).
Let pub := script_bytes (out_script prev).
Definition reference_p2sh_sigops : Z :=
  if reference_p2sh pub then match reference_redeem sig with Some d => reference_sigops true d | None => 0 end else 0.
Definition reference_witness_sigops : Z :=
  match reference_program pub with
  | Some (v, p) => reference_program_sigops (in_witness i) v p
  | None =>
    if reference_p2sh pub then
      match reference_redeem sig with
      | Some d => match reference_program d with Some (v, p) => reference_program_sigops (in_witness i) v p | None => 0 end
      | None => 0
      end
    else 0
  end.
End Input.
Definition of_prevout (f : input -> output -> Z) (p : input * meta) : Z := match prevout (snd p) with Some o => f (fst p) o | None => 0 end.
Definition sum_over {A} (f : A -> Z) (l : list A) : Z := fold_right (fun a n => f a + n) 0 l.
(** GetTransactionSigOpCost: legacy and P2SH operations cost four, witness operations one. *)
Definition reference_cost (p2sh witness : bool) (t : ptx) : Z :=
  4 * (sum_over (fun i => reference_sigops false (script_bytes (in_script i))) (tx_inputs (p_tx t)) +
       sum_over (fun o => reference_sigops false (script_bytes (out_script o))) (tx_outputs (p_tx t))) +
  (if p2sh then 4 * sum_over (of_prevout reference_p2sh_sigops) (pins t) else 0) +
  (if witness then sum_over (of_prevout reference_witness_sigops) (pins t) else 0).
(** Scripts no larger than a block. *)
Definition fits_block (s : script) : Prop := script_ok s /\ len (script_bytes s) <= 4000000.
Definition sigops_ready (t : ptx) : Prop :=
  tx_ok (p_tx t) /\ Forall (fun i => fits_block (in_script i)) (tx_inputs (p_tx t)) /\
  Forall (fun o => fits_block (out_script o)) (tx_outputs (p_tx t)) /\
  (forall i m o, In (i, m) (pins t) -> prevout m = Some o -> fits_block (out_script o)).
