(** * SpecStart: the same market with and without its first k rows (C104). *)
From Coq Require Export Reals.
From Verif Require Export Api SpecNum.
Local Open Scope R_scope.

(** a column without its first k rows *)
Definition skip (k : nat) (f : nat -> R) (i : nat) : R := f (k + i)%nat.
(** [full] is a result for the whole history, [tail] for the history from row k
    on, n rows: both succeed, and from row j0 of the tail on both hold numbers,
    which differ by at most [bound j] on row j of the tail. *)
Definition start_matters (bound : nat -> R) (k j0 n : nat) (full tail : result (list xr)) : Prop :=
  exists out out', full = Ok out /\ tail = Ok out' /\
    forall j, (j0 <= j < n)%nat ->
      exists x x', nth (k + j) out NaN = Fin x /\ nth j out' NaN = Fin x' /\ Rabs (x - x') <= bound j.
(** all rows of a column lie between lo and hi *)
Definition inside (lo hi : R) (n : nat) (f : nat -> R) : Prop := forall i, (i < n)%nat -> lo <= f i <= hi.
(** from row j0 of the tail on, the two results are a constant apart / in a
    constant proportion *)
Definition constant_gap (k j0 n : nat) (full tail : result (list xr)) : Prop :=
  exists out out' d, full = Ok out /\ tail = Ok out' /\
    forall j, (j0 <= j < n)%nat -> exists x, nth j out' NaN = Fin x /\ nth (k + j) out NaN = Fin (x + d).
Definition constant_factor (k n : nat) (full tail : result (list xr)) : Prop :=
  exists out out' r, full = Ok out /\ tail = Ok out' /\
    forall j, (j < n)%nat -> exists x, nth j out' NaN = Fin x /\ nth (k + j) out NaN = Fin (r * x).
