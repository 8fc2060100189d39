(** * SpecWrapped: what an ATR with a window below 1 shows (C45).

    Positions below 0 count from the end of the column, so a window of -k
    averages all rows but the last k, recurs over the last k rows and then
    goes on from the first row. *)
From Verif Require Import SpecNum.
Local Open Scope R_scope.

(** the j-th value of that recursion on n rows; it starts on row n-k-1 *)
Fixpoint wrapped_at (k n : nat) (tr : nat -> R) (j : nat) : R :=
  match j with
  | O => mean_of 0 (n - k) tr
  | S j' => (INR (k + 1) * wrapped_at k n tr j' - tr ((n - k + j') mod n)%nat) / INR k
  end.
(** the value shown on row i *)
Definition wrapped_value (k n : nat) (tr : nat -> R) (i : nat) : R := wrapped_at k n tr (k + 1 + i).
