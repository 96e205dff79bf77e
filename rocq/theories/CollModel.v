(** Model of include/bitcoin/system/impl/data/collection.ipp over lists of elements
    with comparison < and ==. *)
From Verif Require Import Base Bytes.
Section Collection.
  Variable A : Type.
  Variable lt eq : A -> A -> bool.
  (** collection.ipp:45-69 binary_search: None = an element outside the list is read,
      or the loop goes on for longer than the list. *)
  Fixpoint search_loop (fuel : nat) (l : list A) (element : A) (left right : Z) : option Z :=
    match fuel with
    | O => None
    | S f =>
        if left <=? right then
          let middle := (left + right) / 2 in
          if middle <? 0 then None
          else match nth_error l (Z.to_nat middle) with
          | None => None
          | Some value =>
              if lt value element then search_loop f l element (middle + 1) right
              else if lt element value then search_loop f l element left (middle - 1)
              else Some middle
          end
        else Some (-1)
    end.
  Definition binary_search (l : list A) (element : A) : option Z :=
    match l with [] => Some (-1) | _ => search_loop (S (length l)) l element 0 (len l - 1) end.
  (** 100-107 contains (std::find) *)
  Definition contains (l : list A) (element : A) : bool := existsb (fun x => eq x element) l.
  (** 123-131 find_position *)
  Fixpoint find_from (i : Z) (l : list A) (element : A) : Z :=
    match l with [] => -1 | x :: r => if eq x element then i else find_from (i + 1) r element end.
  Definition find_position (l : list A) (element : A) : Z := find_from 0 l element.
  (** 133-141 insert_sorted: std::upper_bound, the first element greater than the new
      one in a sorted list *)
  Fixpoint insert_sorted (l : list A) (element : A) : list A :=
    match l with [] => [element] | x :: r => if lt element x then element :: l else x :: insert_sorted r element end.
  (** std::sort: by insertion here (for a total order the result is the same) *)
  Definition sort (l : list A) : list A := fold_left insert_sorted l [].
  (** std::unique: the first of each group of equal neighbours *)
  Fixpoint unique (l : list A) : list A :=
    match l with
    | [] => []
    | x :: r => match unique r with [] => [x] | y :: r' => if eq x y then x :: r' else x :: y :: r' end
    end.
  (** 190-196 distinct; 169-174 is_distinct *)
  Definition distinct (l : list A) : list A := unique (sort l).
  Definition is_distinct (l : list A) : bool := (length (unique (sort l)) =? length (sort l))%nat.
  (** 184-188 is_sorted (std::is_sorted) *)
  Fixpoint is_sorted (l : list A) : bool :=
    match l with x :: r => (match r with y :: _ => negb (lt y x) | [] => true end) && is_sorted r | [] => true end.
  (** 211-236 difference *)
  Definition difference (l right : list A) : list A := filter (fun x => negb (contains right x)) l.
  (** 238-253 is_intersecting (std::find_first_of) *)
  Definition is_intersecting (l right : list A) : bool := existsb (fun x => existsb (fun y => eq x y) right) l.
  (** 255-274 part: (result, from, to) *)
  Fixpoint split_at (l : list A) (element : A) : option (list A * list A) :=
    match l with
    | [] => None
    | x :: r => if eq x element then Some ([], l) else match split_at r element with Some (a, b) => Some (x :: a, b) | None => None end
    end.
  Definition part (from to : list A) (element : A) : bool * list A * list A :=
    match split_at from element with None => (false, from, to) | Some (a, b) => (true, a, to ++ b) end.
  (** 303-312 starts_with: std::equal over the size of value *)
  Fixpoint same (value l : list A) : bool :=
    match value, l with [], _ => true | x :: v, y :: r => eq x y && same v r | _ :: _, [] => false end.
  Definition starts_with (l value : list A) : bool := negb (len l <? len value) && same value l.
End Collection.
Arguments binary_search {A}. Arguments search_loop {A}. Arguments contains {A}. Arguments find_position {A}. Arguments find_from {A}. Arguments insert_sorted {A}. Arguments sort {A}. Arguments unique {A}.
Arguments distinct {A}. Arguments is_distinct {A}. Arguments is_sorted {A}. Arguments difference {A}. Arguments is_intersecting {A}. Arguments split_at {A}. Arguments part {A}. Arguments same {A}. Arguments starts_with {A}.
