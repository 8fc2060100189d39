(** * SpecFade: what fillna=True changes on rows that need no filling (C105). *)
From Coq Require Export Reals.
From Verif Require Export Api SpecNum SpecStart.
Local Open Scope R_scope.

(** [plain] and [filled] are the results without and with fillna, n rows: from
    row i0 on both hold numbers, and the filled one is [gap i] higher. *)
Definition apart (gap : nat -> R) (i0 n : nat) (plain filled : result (list xr)) : Prop :=
  exists out out', plain = Ok out /\ filled = Ok out' /\
    forall i, (i0 <= i < n)%nat -> exists x, nth i out NaN = Fin x /\ nth i out' NaN = Fin (x + gap i).
(** the gap is at most [bound i] *)
Definition fades (bound : nat -> R) (i0 n : nat) (plain filled : result (list xr)) : Prop :=
  exists gap, apart gap i0 n plain filled /\ forall i, (i0 <= i < n)%nat -> Rabs (gap i) <= bound i.
(** there is no gap *)
Definition agree (i0 n : nat) (plain filled : result (list xr)) : Prop := apart (fun _ => 0) i0 n plain filled.
