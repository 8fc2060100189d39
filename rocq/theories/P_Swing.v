(** * P_Swing: property C99 (full swings from arbitrarily small moves). *)
From Verif Require Import Api SpecNum SpecRobust SpecSwing Swing.
Local Open Scope R_scope.

(** C99.  What C87 says of averages and channels is false of the oscillators:
    around any price p and within any tolerance e there are two markets of any
    length, n bars without a range each, that drive the series to opposite ends
    on every row past its window (exact arithmetic). *)
Theorem C99_oscillators_swing : forall (ind : indicator xr) m hi lo, swings ind m hi lo -> forall p e n, 0 < p -> 0 < e ->
  exists c c', off_by e n c (fun _ => p) /\ off_by e n c' (fun _ => p) /\ (forall i, (i < n)%nat -> 0 < c i /\ 0 < c' i) /\
    exists out out', compute ind false (frame n c c c (fun _ => 1)) = Ok out /\ compute ind false (frame n c' c' c' (fun _ => 1)) = Ok out' /\
      forall i, (m <= i < n)%nat -> nth i out NaN = Fin hi /\ nth i out' NaN = Fin lo.
Proof. exact full_swing. Qed.
Print Assumptions C99_oscillators_swing.

(** On-balance volume: all volume counted up, or all but that of the first row
    counted down. *)
Theorem C99_on_balance_volume_swings : forall p e n v, 0 < p -> 0 < e ->
  exists c c', off_by e n c (fun _ => p) /\ off_by e n c' (fun _ => p) /\ (forall i, (i < n)%nat -> 0 < c i /\ 0 < c' i) /\
    exists out out', compute Obv false (frame n c c c v) = Ok out /\ compute Obv false (frame n c' c' c' v) = Ok out' /\
      forall i, (i < n)%nat -> nth i out NaN = Fin (rsum v 0 (S i)) /\ nth i out' NaN = Fin (v O - rsum v 1 i).
Proof. exact obv_swing. Qed.
Print Assumptions C99_on_balance_volume_swings.

(** The accumulation/distribution index and the Chaikin money flow: bars of range
    e that close at their high, or at their low. *)
Theorem C99_accumulation_distribution_swings : forall p e n v, 0 < e ->
  let rows c := frame n (fun _ => p) (fun _ => p - e) (fun _ => c) v in
  exists out out', compute Adi false (rows p) = Ok out /\ compute Adi false (rows (p - e)) = Ok out' /\
    forall i, (i < n)%nat -> nth i out NaN = Fin (rsum v 0 (S i)) /\ nth i out' NaN = Fin (- rsum v 0 (S i)).
Proof. exact adi_swing. Qed.
Print Assumptions C99_accumulation_distribution_swings.
Theorem C99_chaikin_money_flow_swings : forall w p e n v, (1 <= w)%nat -> 0 < e -> (forall i, (i < n)%nat -> 0 < v i) ->
  let rows c := frame n (fun _ => p) (fun _ => p - e) (fun _ => c) v in
  exists out out', compute (Cmf (Z.of_nat w)) false (rows p) = Ok out /\ compute (Cmf (Z.of_nat w)) false (rows (p - e)) = Ok out' /\
    forall i, (w - 1 <= i < n)%nat -> nth i out NaN = Fin 1 /\ nth i out' NaN = Fin (-1).
Proof. exact cmf_swing. Qed.
Print Assumptions C99_chaikin_money_flow_swings.

(** The default parameters are among them; so the default CCI moves from 126.67
    to -126.67. *)
Example rsi_default : swings (Rsi 14) 13 100 0.
Proof. cbn. repeat split; lia. Qed.
Example tsi_default : swings (Tsi 25 13) 37 100 (-100).
Proof. cbn. repeat split; lia. Qed.
Example ultosc_default : swings (UltOsc 7 14 28 (Fin 4) (Fin 2) (Fin 1)) 28 100 0.
Proof. cbn. repeat split; try lia. lra. Qed.
Example stoch_default : swings (Stoch 14 3) 13 100 0.
Proof. cbn. repeat split; lia. Qed.
Example cci_default : swings (Cci 20 (Fin (15 / 1000))) 19 (380 / 3) (- (380 / 3)).
Proof. cbn. unfold mad. cbn. repeat split; try lia; try lra; field. Qed.
