(** Specification of Unicode normal forms (UAX #15), independent of the library's code: it is
    stated over any combining class function and any full decomposition mapping. *)
From Verif Require Import Base.

Section Spec.
(** The combining class of a code point, 0 for a starter. *)
Variable class : Z -> Z.
(** The full decomposition of a code point (itself when it has none). *)
Variable decomposition : Z -> list Z.

(** One step of equivalence (Unicode D70, D108): replace a code point by its decomposition, or
    exchange two neighbouring combining characters of different classes. *)
Inductive step : list Z -> list Z -> Prop :=
| step_decompose : forall s p t, step (s ++ [p] ++ t) (s ++ decomposition p ++ t)
| step_swap : forall s a b t, class a <> 0 -> class b <> 0 -> class a <> class b -> step (s ++ [a; b] ++ t) (s ++ [b; a] ++ t).
(** Equivalence is the reflexive, symmetric and transitive closure. *)
Inductive equivalent : list Z -> list Z -> Prop :=
| eq_refl_ : forall s, equivalent s s
| eq_step : forall s t, step s t -> equivalent s t
| eq_sym : forall s t, equivalent s t -> equivalent t s
| eq_trans : forall s t u, equivalent s t -> equivalent t u -> equivalent s u.

(** Canonical order (D109): no neighbouring a, b with class a > class b > 0. *)
Definition ordered (l : list Z) : Prop := forall s a b t, l = s ++ [a; b] ++ t -> class b <> 0 -> class a <= class b.
(** No code point decomposes further. *)
Definition decomposed (l : list Z) : Prop := Forall (fun p => decomposition p = [p]) l.
End Spec.
