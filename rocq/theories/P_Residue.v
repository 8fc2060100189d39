(** * P_Residue: property C93 (what rows that have left the window leave behind). *)
From Coq Require Import Reals Floats.
From Verif Require Import Api FloatArith Samples Lists SpecResidue Rows Running Residue.

(** C93.  pandas updates rolling sums, means and deviations from row to row.  In
    exact arithmetic each row is the sum, mean or deviation of its own window. *)
Theorem C93_exact_rows_are_their_window : forall w minp agg (s : list xr),
  rolling w minp agg s =
  if ((minp <? 0) || (w <? minp) || (w <? 0))%Z then Raise ValueError
  else Ok (map (fun i => win_agg agg (Z.to_nat minp) (window_at (Z.to_nat w) i (prep s))) (seq 0 (length s))).
Proof. exact rolling_xr. Qed.
Print Assumptions C93_exact_rows_are_their_window.

(** C93.  Not so in binary64.  One row of 9007199254740994 in a market at 3: from
    the row on where it has left the window the SMA(2) is 2, for ever. *)
Theorem C93_sma_refuted : shows_for_ever (Sma 2) [tick 1; tick 9007199254740994] (tick 3) 4 2%float.
Proof. exact sma_residue. Qed.
Print Assumptions C93_sma_refuted.

(** C93.  After one such row of volume the VWAP(2) of a market that trades
    between 9 and 11 is 15 for ever, and the CMF(2), which is never above 1 in
    exact arithmetic, is 1.5 for ever. *)
Theorem C93_vwap_outside_refuted :
  shows_for_ever (Vwap 2) [(11, 9, 10, 1); (11, 9, 10, 9007199254740994)]%float (11, 9, 10, 3)%float 4 15%float.
Proof. exact vwap_residue. Qed.
Print Assumptions C93_vwap_outside_refuted.
Theorem C93_cmf_outside_refuted :
  shows_for_ever (Cmf 2) [(11, 9, 9, 1); (11, 9, 10, 9007199254740994)]%float (11, 9, 11, 3)%float 4 1.5%float.
Proof. exact cmf_residue. Qed.
Print Assumptions C93_cmf_outside_refuted.

(** C93.  One close of 1000000 in a market at 0.016: the Bollinger bands (5 rows,
    2 deviations) stay at 0.0259 and 0.0061 for ever, though the price never
    moves again. *)
Theorem C93_bands_refuted : forall n, exists hi lo,
  compute (BbH 5 2%float) false (then_still bad_tick (tick penny) n) = Ok hi /\
  compute (BbL 5 2%float) false (then_still bad_tick (tick penny) n) = Ok lo /\
  forall i, (86 <= i < length (then_still bad_tick (tick penny) n))%nat -> nth i hi nan = band_above /\ nth i lo nan = band_below.
Proof. exact bands_residue. Qed.
Print Assumptions C93_bands_refuted.
(** 0.0258, 0.0062, 0.0159 and 0.0161 *)
Example C93_band_values : PrimFloat.ltb 0x1.a6b50b0f27bb3p-6%float band_above = true /\ PrimFloat.ltb band_below 0x1.9652bd3c36113p-8%float = true /\
  PrimFloat.ltb 0x1.04816f0068db9p-6%float penny = true /\ PrimFloat.ltb penny 0x1.07c84b5dcc63fp-6%float = true.
Proof. repeat split. Qed.

(** C93.  The mean is clamped: whatever has passed through the window, the SMA of
    positive closes is never negative. *)
Theorem C93_sma_not_negative : forall w fillna rows out, positive_prices rows -> compute (Sma w) fillna rows = Ok out ->
  Forall (fun x => PrimFloat.ltb x 0 = false) out.
Proof. exact sma_sign. Qed.
Print Assumptions C93_sma_not_negative.

(** the clamp is at work in this frame: the mean of its last window would be -1 *)
Definition clamped : list (bar float) := bars_from 0 (map tick [1; 9007199254740994; 0x1p-60; 0x1p-60; 0x1p-60]%float).
Example C93_not_negative_applies : positive_prices clamped /\
  compute (Sma 2) false clamped = Ok [nan; 4503599627370498; 4503599627370497; 0; 0]%float.
Proof. split; [repeat (constructor; [right; reflexivity|]); constructor|vm_compute; reflexivity]. Qed.
