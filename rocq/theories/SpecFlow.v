(** * SpecFlow: rows on which rounding cannot turn a money flow round (C109). *)
From Coq Require Import Reals Floats ZArith List.
From Verif Require Import Api FloatReal SpecNum SpecTracking.
Local Open Scope R_scope.

(** 2^-200 <= x <= 2^200 *)
Definition tame (x : R) : Prop := / IZR (2 ^ 200) <= x <= IZR (2 ^ 200).
(** the cells of [rows] are these numbers; positive prices, volumes positive or 0 *)
Definition priced (rows : list (bar float)) (h l c v : nat -> R) : Prop :=
  forall i b, nth_error rows i = Some b ->
    (val (b_high b) = Fin (h i) /\ tame (h i)) /\ (val (b_low b) = Fin (l i) /\ tame (l i)) /\ (val (b_close b) = Fin (c i) /\ tame (c i)) /\
    (val (b_volume b) = Fin (v i) /\ (v i = 0 \/ tame (v i))).
(** nothing traded, or the bar before once more, or a typical price that differs
    from the one before by more than 2^-50 of their sum *)
Definition clear (h l c v : nat -> R) (i : nat) : Prop :=
  let t := typical h l c in let j := (i - 1)%nat in
  v i = 0 \/ (h i = h j /\ l i = l j /\ c i = c j) \/ part 1 (t i + t j) <= Rabs (t i - t j).
