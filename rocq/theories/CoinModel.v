(** Model of src/wallet/points_value.cpp.  A point is an outpoint (of any type [P])
    and its value.  std::partition and std::sort leave the order of equivalent
    elements unspecified, so selection is a relation between the arguments and
    the resulting points. *)
From Coq Require Import Sorted Permutation.
From Verif Require Import Base MathModel.

Section Coins.
Context {P : Type}.
Definition point : Type := P * Z.
(** points_value.cpp:139-148 value: ceilinged_add in uint64_t *)
Definition value (points : list point) : option Z :=
  fold_left (fun total p => do t <- total; ceilinged_add u64 t (snd p)) points (Some 0).
(** std::min_element: the first of the smallest, or end (None) *)
Fixpoint min_element (least : point) (l : list point) : point :=
  match l with [] => least | p :: l => min_element (if snd p <? snd least then p else least) l end.
(** points_value.cpp:87-95: push points until the sum suffices *)
Fixpoint push_until (minimum : Z) (out points : list point) : option (list point) :=
  match points with
  | [] => Some out
  | p :: points =>
    do v <- value (out ++ [p]);
    if minimum <=? v then Some (out ++ [p]) else push_until minimum (out ++ [p]) points
  end.
(** points_value.cpp:32-95 greedy: [out] may result *)
Definition greedy (unspent : list point) (minimum : Z) (out : list point) : Prop :=
  exists total, value unspent = Some total /\
  if total <? minimum then out = []
  else match unspent with
  | [p] => out = [p]
  | _ =>
    (* std::partition, then std::min_element of the second part *)
    exists low high, Permutation (low ++ high) unspent /\
      Forall (fun p => (snd p <? minimum) = true) low /\ Forall (fun p => (snd p <? minimum) = false) high /\
      match high with
      | p :: rest => out = [min_element p rest]
      | [] =>
        (* std::sort *)
        exists sorted, Permutation sorted (low ++ high) /\ StronglySorted (fun l r => (snd l <? snd r) = false) sorted /\
          push_until minimum [] sorted = Some out
      end
  end.
(** points_value.cpp:97-119 individual *)
Definition individual (unspent : list point) (minimum : Z) (out : list point) : Prop :=
  Permutation out (filter (fun p => minimum <=? snd p) unspent) /\ StronglySorted (fun l r => (snd r <? snd l) = false) out.
End Coins.
