(** * SpecTracking: how far a binary64 column may be from a column of reals (C83). *)
From Coq Require Import Reals Floats ZArith List.
From Verif Require Import Api FloatReal.
Local Open Scope R_scope.

(** missing exactly where [y] is; otherwise finite, and off by at most e.
    [val] (FloatReal.v) is the real number a finite float stands for. *)
Definition within (e : R) (x : float) (y : xr) : Prop :=
  match y with
  | NaN => PrimFloat.is_nan x = true
  | Fin r => exists q, val x = Fin q /\ Rabs (q - r) <= e
  | _ => False
  end.
(** the closes of [rows] are the finite numbers c 0, c 1, ..., none larger than M *)
Definition closes (rows : list (bar float)) (c : nat -> R) (M : R) : Prop :=
  forall i b, nth_error rows i = Some b -> val (b_close b) = Fin (c i) /\ Rabs (c i) <= M.
(** 2^-900 <= M <= 2^990 *)
Definition ordinary (M : R) : Prop := / IZR (2 ^ 900) <= M <= IZR (2 ^ 990).
(** k * 2^-50 of M *)
Definition part (k : R) (M : R) : R := k * (M / IZR (2 ^ 50)).

(** ** data that binary64 adds without rounding (C84) *)
(** the row of the numbers the cells stand for *)
Definition real_bar (b : bar float) : bar xr :=
  mkbar (b_label b) (val (b_high b)) (val (b_low b)) (val (b_close b)) (val (b_volume b)).
(** k * 2^e *)
Definition on_grid (e k : Z) (x : float) : Prop := val x = Fin (IZR k * Flocq.Core.Raux.bpow Flocq.Core.Zaux.radix2 e).
(** sum of sizes *)
Fixpoint total (ks : list Z) : Z := match ks with nil => 0%Z | k :: r => (Z.abs k + total r)%Z end.
(** missing, infinite, or k * 2^e with |k| <= N *)
Definition quoted (e N : Z) (x : float) : Prop :=
  PrimFloat.is_nan x = true \/ PrimFloat.is_infinity x = true \/ exists k, on_grid e k x /\ (Z.abs k <= N)%Z.
(** a missing volume, or k lots of 2^e *)
Definition lot (e k : Z) (x : float) : Prop := PrimFloat.is_nan x = true \/ on_grid e k x.

(** a way of adding up some numbers: any bracketing (numpy adds pairwise, a loop
    from left to right) *)
Inductive adding := Num (x : float) | Add (s t : adding).
Fixpoint added (s : adding) : float := match s with Num x => x | Add s t => PrimFloat.add (added s) (added t) end.
Fixpoint terms (s : adding) : list float := match s with Num x => [x] | Add s t => terms s ++ terms t end.

(** ** running sums (C94): the error allowed grows by k * 2^-50 of M with each row *)
Definition drifts (k M : R) (n : nat) (out : list float) (exact : nat -> xr) : Prop :=
  length out = n /\ forall i x, nth_error out i = Some x -> within (part (k * INR (S i)) M) x (exact i).
(** the same for the highs and lows *)
Definition ranges (rows : list (bar float)) (h l : nat -> R) (M : R) : Prop :=
  forall i b, nth_error rows i = Some b -> (val (b_high b) = Fin (h i) /\ Rabs (h i) <= M) /\ (val (b_low b) = Fin (l i) /\ Rabs (l i) <= M).
(** the same for the volumes *)
Definition volumes (rows : list (bar float)) (v : nat -> R) (V : R) : Prop :=
  forall i b, nth_error rows i = Some b -> val (b_volume b) = Fin (v i) /\ Rabs (v i) <= V.
