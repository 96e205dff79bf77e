(** Specification: ordered lists. *)
From Verif Require Import Base Bytes.

(** < is a total order and == is equality. *)
Record total {A} (lt eq : A -> A -> bool) : Prop := {
  irreflexive : forall a, lt a a = false;
  transitive : forall a b c, lt a b = true -> lt b c = true -> lt a c = true;
  trichotomy : forall a b, lt a b = false -> lt b a = false -> a = b;
  equality : forall a b, eq a b = true <-> a = b }.
(** In order: no later element is below an earlier one; strictly: every later one is above. *)
Definition in_order {A} (lt : A -> A -> bool) (l : list A) : Prop :=
  forall i j a b, (i < j)%nat -> nth_error l i = Some a -> nth_error l j = Some b -> lt b a = false.
Definition increasing {A} (lt : A -> A -> bool) (l : list A) : Prop :=
  forall i j a b, (i < j)%nat -> nth_error l i = Some a -> nth_error l j = Some b -> lt a b = true.
