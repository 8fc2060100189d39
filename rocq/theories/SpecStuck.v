(** * SpecStuck: what one bad row does to the rows after it. *)
From Verif Require Export Api SpecMemory.

Section SpecStuck.
Context {F : Type} {A : Arith F}.

(** missing in row [j] and in every row after it *)
Definition missing_from (j : nat) (out : list F) : Prop :=
  forall i, (j <= i < length out)%nat -> fisnan (nth i out fnan) = true.
(** row [j] and every row after it repeat row [j-1] *)
Definition frozen_from (j : nat) (out : list F) : Prop :=
  forall i, (j <= i < length out)%nat -> nth i out fnan = nth (j - 1) out fnan.
(** with fillna=False missing from row j on, with fillna=True frozen *)
Definition stuck_from (j : nat) (call : bool -> result (list F)) : Prop :=
  (forall out, call false = Ok out -> missing_from j out) /\
  (forall out, call true = Ok out -> frozen_from j out).

(** the bar of row j, and which of its cells are missing *)
Definition missing_cell (get : bar F -> F) (rows : list (bar F)) (j : nat) : Prop :=
  exists b, nth_error rows j = Some b /\ fisnan (get b) = true.
(** some cell the true range of row j is made of is missing *)
Definition range_gap (rows : list (bar F)) (j : nat) : Prop :=
  missing_cell b_high rows j \/ missing_cell b_low rows j \/ ((1 <= j < length rows)%nat /\ missing_cell b_close rows (j - 1)).

(** The series no longer sees the first [k] rows after [m] further rows. *)
Definition washes_out (m : nat) (f : list (bar F) -> result (list F)) : Prop :=
  forall bad good rows out out', length bad = length good ->
    f (bad ++ rows) = Ok out -> f (good ++ rows) = Ok out' ->
    skipn (length bad + m) out = skipn (length good + m) out'.
End SpecStuck.
