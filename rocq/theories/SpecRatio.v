(** * SpecRatio: how close a ratio computed in binary64 is to the exact one (C103). *)
From Coq Require Import Reals Floats ZArith List.
From Verif Require Import Api FloatReal SpecTracking.
Local Open Scope R_scope.

(** off by at most k * 2^-50 of the exact value (and 2^-150, for tiny ones) *)
Definition close_to (k : R) (x : float) (r : R) : Prop := within (part k (Rabs r) + / IZR (2 ^ 150)) x (Fin r).
(** the cells of a column are the numbers c 0, c 1, ..., between m and M *)
Definition levels (col : bar float -> float) (rows : list (bar float)) (c : nat -> R) (m M : R) : Prop :=
  forall i b, nth_error rows i = Some b -> val (col b) = Fin (c i) /\ m <= c i <= M.
(** how far the percentage oscillators may be off for levels between m and M
    (windows f, s, g) *)
Definition ppo_error (f s : R) (m M : R) : R := part (200 * (f + s + 3 + M / m * (s + 1))) (M / m).
Definition ppo_signal_error (f s g : R) (m M : R) : R := ppo_error f s m M + part (250 * (g + 1)) (M / m).
Definition ppo_hist_error (f s g : R) (m M : R) : R := 2 * ppo_error f s m M + part (250 * (g + 1) + 80) (M / m).
