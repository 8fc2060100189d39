(** * SpecRepeat: sections of a frame (C73) and markets that repeat themselves
    (C98). *)
From Verif Require Export Api SpecMemory SpecScale.
Local Open Scope R_scope.

Section SpecRepeat.
Context {F : Type} {A : Arith F}.

(** A row depends on itself and the [m] rows before it only: a section cut out of
    the frame shows the same from its row [m] on. *)
Definition local (m : nat) (f : list (bar F) -> result (list F)) : Prop :=
  forall before rows after out out',
    f rows = Ok out -> f (before ++ rows ++ after) = Ok out' ->
    forall i, (m <= i < length rows)%nat -> nth (length before + i) out' fnan = nth i out fnan.

(** series that never show a row later than the one they belong to *)
Definition looks_back (ind : indicator F) : bool :=
  match ind with
  | Roc w => (0 <=? w)%Z
  | DcH _ o | DcL _ o | DcM _ o | DcW _ o | DcP _ o => (0 <=? o)%Z
  | _ => true
  end.
End SpecRepeat.

(** Every row is the row [k] rows before with prices times g and volumes times
    q (g = q = 1: a periodic market; k = 1: constant growth). *)
Definition repeats (k : nat) (g q : R) (rows : list (bar xr)) : Prop :=
  forall j a b, nth_error rows j = Some a -> nth_error rows (k + j) = Some b ->
    b_high b = times g (b_high a) /\ b_low b = times g (b_low a) /\ b_close b = times g (b_close a) /\
    b_volume b = times q (b_volume a).
(** Every row is the row [k] rows before with prices plus s. *)
Definition climbs (k : nat) (s : R) (rows : list (bar xr)) : Prop :=
  forall j a b, nth_error rows j = Some a -> nth_error rows (k + j) = Some b ->
    b_high b = plus s (b_high a) /\ b_low b = plus s (b_low a) /\ b_close b = plus s (b_close a) /\
    b_volume b = b_volume a.

(** the same rows every [k] rows *)
Definition cyclic (k n : nat) (f : nat -> R) : Prop := forall j, (k + j < n)%nat -> f (k + j)%nat = f j.
(** averages, extremes and deviations of a window of [w] rows *)
Definition levels_out (w : Z) (ind : indicator xr) : Prop :=
  match ind with
  | Sma w' | BbM w' (Fin _) | BbH w' (Fin _) | BbL w' (Fin _) | BbW w' (Fin _)
  | DcH w' 0 | DcL w' 0 | DcM w' 0 | DcW w' 0
  | KcM w' _ true _ | KcH w' _ true _ | KcL w' _ true _ | KcW w' _ true _ | Vwap w' => w' = w
  | IchiConv w' w2 w3 _ => w' = w /\ (1 <= w2)%Z /\ (1 <= w3)%Z
  | IchiBase w1 w' w3 _ => w' = w /\ (1 <= w1)%Z /\ (1 <= w3)%Z
  | _ => False
  end.
