(** * SpecResidue: a market that stays put after a few rows (C93). *)
From Coq Require Import Floats.
From Verif Require Import Api FloatArith Samples.

(** the rows [pre], then the row [b] n times: (high, low, close, volume), labels
    0, 1, 2, ... *)
Definition then_still (pre : list (float * float * float * float)) (b : float * float * float * float) (n : nat) : list (bar float) :=
  bars_from 0 (pre ++ repeat b n).
(** the series exists and shows [x] on every row from the [k]-th on, however
    long the market stays put *)
Definition shows_for_ever (ind : indicator float) pre b (k : nat) (x : float) : Prop :=
  forall n, exists out, compute ind false (then_still pre b n) = Ok out /\
    forall i, (k <= i < length (then_still pre b n))%nat -> nth i out nan = x.
(** the price p, with no range and one unit of volume *)
Definition tick (p : float) : float * float * float * float := (p, p, p, 1%float).

(** 0.016 for 20 rows, one row at 1000000, 60 more rows at 0.016 *)
Definition penny : float := 0x1.0624dd2f1a9fcp-6%float.
Definition bad_tick : list (float * float * float * float) := repeat (tick penny) 20 ++ tick 1000000 :: repeat (tick penny) 60.
(** about 0.02588 and 0.00612 *)
Definition band_above : float := 0x1.a80d78415ce84p-6%float.
Definition band_below : float := 0x1.90f10873615d2p-8%float.

(** rows with (high, low, close) in tenths and no volume to speak of *)
Definition tenths (l : list (Z * Z * Z)) : list (bar float) :=
  bars_from 0 (map (fun r => let '(h, lo, c) := r in (fofZ h / 10, fofZ lo / 10, fofZ c / 10, 7)%float) l).
(** every price is missing or positive *)
Definition positive_prices (rows : list (bar float)) : Prop :=
  Forall (fun b => PrimFloat.is_nan (b_close b) = true \/ PrimFloat.ltb 0 (b_close b) = true) rows.
