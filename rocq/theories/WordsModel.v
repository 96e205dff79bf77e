(** Model of include/bitcoin/system/words/{dictionary,dictionaries}.hpp,
    impl/words/{dictionary,dictionaries}.ipp and impl/data/collection.ipp
    binary_search.  A word is the byte string of its UTF-8 encoding. *)
From Coq Require Import String Ascii.
From Verif Require Import Base Bytes.

(** words/language.hpp:30-48 *)
Inductive language := none | en | es | it | fr | cs | pt | ja | ko | zh_Hans | zh_Hant.
Definition language_eqb (a b : language) : bool :=
  match a, b with
  | none, none | en, en | es, es | it, it | fr, fr | cs, cs | pt, pt | ja, ja | ko, ko | zh_Hans, zh_Hans | zh_Hant, zh_Hant => true
  | _, _ => false
  end.

(** dictionary.hpp:35-41, 81-89 *)
Record dictionary := mkdictionary { identifier : language; is_sorted : bool; words_of : list string }.

(** impl/data/collection.ipp:42-67 binary_search.  std::string comparison is
    lexicographic over unsigned bytes.  [fuel] bounds the halvings. *)
Fixpoint search_loop (fuel : nat) (l : list string) (element : string) (left right : Z) : Z :=
  match fuel with
  | O => -1
  | S fuel =>
    if left <=? right then
      let middle := (left + right) / 2 in
      match String.compare (nth (Z.to_nat middle) l ""%string) element with
      | Lt => search_loop fuel l element (middle + 1) right
      | Gt => search_loop fuel l element left (middle - 1)
      | Eq => middle
      end
    else -1
  end.
Definition binary_search (l : list string) (element : string) : Z :=
  match l with [] => -1 | _ => search_loop (S (length l)) l element 0 (len l - 1) end.
(** std::find and std::distance *)
Fixpoint find_first (l : list string) (word : string) (position : Z) : Z :=
  match l with [] => -1 | w :: l => if String.eqb w word then position else find_first l word (position + 1) end.

(** dictionary.ipp:60-63 at, 65-80 at(indexes) *)
Definition dict_at (d : dictionary) (index : Z) : string :=
  if index <? len (words_of d) then nth (Z.to_nat index) (words_of d) ""%string else ""%string.
Definition dict_at_all (d : dictionary) (indexes : list Z) : list string := map (dict_at d) indexes.
(** 82-94 index, 96-110 index(words) *)
Definition dict_index (d : dictionary) (word : string) : Z :=
  if is_sorted d then binary_search (words_of d) word else find_first (words_of d) word 0.
Definition dict_index_all (d : dictionary) (words : list string) : list Z := map (dict_index d) words.
(** 112-128 contains *)
Definition dict_contains (d : dictionary) (word : string) : bool := 0 <=? dict_index d word.
Definition dict_contains_all (d : dictionary) (words : list string) : bool := forallb (dict_contains d) words.

(** dictionaries.ipp:155-165 to_dictionary *)
Definition to_dictionary (ds : list dictionary) (id : language) : option dictionary :=
  find (fun d => language_eqb (identifier d) id) ds.
(** 42-46 exists, 76-83 at, 93-101 index *)
Definition dicts_exists (ds : list dictionary) (id : language) : bool := match to_dictionary ds id with Some _ => true | None => false end.
Definition dicts_at (ds : list dictionary) (indexes : list Z) (id : language) : list string :=
  match to_dictionary ds id with Some d => dict_at_all d indexes | None => [] end.
Definition dicts_index (ds : list dictionary) (words : list string) (id : language) : list Z :=
  match to_dictionary ds id with Some d => dict_index_all d words | None => [] end.
(** 126-147 contains(words) *)
Definition dicts_contains (ds : list dictionary) (words : list string) (id : language) : language :=
  if negb (language_eqb id none) then
    match to_dictionary ds id with
    | Some d => if dict_contains_all d words then id else none
    | None => none
    end
  else match find (fun d => dict_contains_all d words) ds with Some d => identifier d | None => none end.
