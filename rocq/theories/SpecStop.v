(** * SpecStop: PSAR as a trailing stop, in binary64 (C88). *)
From Coq Require Import Floats.
From Verif Require Import Api.

Section Stop.
Context {F : Type} {A : Arith F}.
(** psar_up or psar_down shows a stop on row i *)
Definition stop_on (s : list F) (i : nat) : Prop := fisnan (nth i s fnan) = false.
(** rows s .. k-1 form one trend as the code sees it: its opening trend takes
    the extremes of row 0 and skips row 1 (trend.py:874-876, the loop starts
    at row 2) *)
Definition trend_row (s k j : nat) : Prop := (s <= j < k)%nat \/ (s = 2 /\ j = 0)%nat.
(** a trend starts at row s: the opening trend, or the first row after a stop
    on the other side *)
Definition trend_from (other : list F) (s : nat) : Prop := (s = 2)%nat \/ (3 <= s)%nat /\ stop_on other (s - 1).
End Stop.

(** numbers up to 2^1000 *)
Definition bounded (x : float) : Prop :=
  (PrimFloat.leb (- 0x1p1000) x = true /\ PrimFloat.leb x 0x1p1000 = true)%float.
(** steps with 0 <= step <= max_step <= 1/2 (the defaults are 0.02 and 0.2) *)
Definition steps_ok (step mx : float) : Prop :=
  (PrimFloat.leb 0 step = true /\ PrimFloat.leb step mx = true /\ PrimFloat.leb mx 0.5 = true)%float.
(** a bar with three numbers and low <= high *)
Definition row_bounded (b : bar float) : Prop :=
  bounded (b_high b) /\ bounded (b_low b) /\ bounded (b_close b) /\ PrimFloat.leb (b_low b) (b_high b) = true.
(** the three prices of row j lie in [lo, hi] *)
Definition row_in (lo hi : float) (rows : list (bar float)) (j : nat) : Prop :=
  let inside x := PrimFloat.leb lo x = true /\ PrimFloat.leb x hi = true in
  inside (nth j (map b_high rows) nan) /\ inside (nth j (map b_low rows) nan) /\ inside (nth j (map b_close rows) nan).
