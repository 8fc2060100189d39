(** * SpecIdle: rows on which nothing trades (C96). *)
From Coq Require Import Reals Floats.
From Verif Require Import SpecNum.
Local Open Scope R_scope.

(** no volume on the w rows that end at row i *)
Definition idle (w : nat) (v : nat -> R) (i : nat) : Prop := (w <= S i)%nat /\ forall j, (S i - w <= j <= i)%nat -> v j = 0.
(** the row before; x on the first one *)
Definition before (x : xr) (out : list xr) (i : nat) : xr := match i with O => x | S j => nth j out NaN end.
(** equal as numbers (0 = -0), or both missing *)
Definition alike (x y : float) : Prop := PrimFloat.eqb x y = true \/ PrimFloat.is_nan x = true /\ PrimFloat.is_nan y = true.
