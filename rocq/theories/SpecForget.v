(** * SpecForget: the distance between two results. *)
From Coq Require Export Reals.
From Verif Require Export Api SpecNum.
Local Open Scope R_scope.

(** Both calls succeed, and on the rows k .. n-1 both hold numbers, which differ
    by at most [bound i]. *)
Definition differ_at_most (bound : nat -> R) (k n : nat) (r r' : result (list xr)) : Prop :=
  exists out out', r = Ok out /\ r' = Ok out' /\
    forall i, (k <= i < n)%nat ->
      exists x x', nth i out NaN = Fin x /\ nth i out' NaN = Fin x' /\ Rabs (x - x') <= bound i.

(** The closes of the two frames differ by at most D on the first k rows and
    agree from row k on. *)
Definition closes_within (D : R) (k : nat) (c c' : nat -> R) : Prop :=
  (forall j, (j < k)%nat -> Rabs (c j - c' j) <= D) /\ (forall j, (k <= j)%nat -> c j = c' j).
