(** * SpecInt: vocabulary for integer columns (C100). *)
From Verif Require Export Api SpecNum.
Local Open Scope Z_scope.

(** f 0 + ... + f (k-1) *)
Fixpoint zsum (f : nat -> Z) (k : nat) : Z := match k with O => 0 | S j => zsum f j + f j end.
Section Fell.
Context {F : Type} {A : Arith F}.
(** the close of row i lies below that of the row before *)
Definition fell (close : list F) (i : nat) : bool :=
  match i with O => false | S j => fltb (nth i close fnan) (nth j close fnan) end.
(** on-balance volume of row i, without any limit on the size of numbers *)
Definition balance (close : list F) (volume : list Z) (i : nat) : Z :=
  zsum (fun j => if fell close j then - nth j volume 0 else nth j volume 0) (S i).
(** rows up to i with a falling close and some volume *)
Definition falls (close : list F) (volume : list Z) (i : nat) : Z :=
  zsum (fun j => if fell close j && negb (nth j volume 0 =? 0) then 1 else 0) (S i).
End Fell.
(** all volume up to row i *)
Definition turnover (volume : list Z) (i : nat) : Z := zsum (fun j => nth j volume 0) (S i).
(** integer columns: value at row i *)
Definition ztab (n : nat) (f : nat -> Z) : list Z := map f (seq 0 n).
Definition zr (f : nat -> Z) (i : nat) : R := IZR (f i).
(** non-negative bars below 2^b *)
Definition zsane (b : Z) (n : nat) (h l c : nat -> Z) : Prop := forall i, (i < n)%nat -> (0 <= l i <= c i /\ c i <= h i < 2 ^ b).
(** the location of the close within its bar, plus 2^w over the range when the
    close lies in the lower half of the bar *)
Definition lifted (w : Z) (h l c : nat -> Z) (i : nat) : R :=
  (location (zr h) (zr l) (zr c) i + (if (2 * c i <? h i + l i)%Z then IZR (2 ^ w) / IZR (h i - l i) else 0))%R.
