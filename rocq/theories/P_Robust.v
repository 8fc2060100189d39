(** * P_Robust: property C87 (an error in the prices is not amplified). *)
From Coq Require Import Reals Lra.
From Verif Require Import Api SpecNum SpecRobust Robust.
Local Open Scope R_scope.

(** C87.  Prices wrong by at most e (each high, low and close on its own) change
    the series by at most [gain] times e, on every row of a frame of any length
    (exact arithmetic). *)
Theorem C87_errors_not_amplified : forall (ind : indicator xr) g fillna e n h l c v h' l' c' v',
  gain ind = Some g -> 0 <= e -> off_by e n h h' -> off_by e n l l' -> off_by e n c c' ->
  near (g * e) (compute ind fillna (frame n h l c v)) (compute ind fillna (frame n h' l' c' v')).
Proof. intros ind g fillna e n h l c v h' l' c' v' G He Hh Hl Hc. exact (robust n h l c v h' l' c' v' fillna e He Hh Hl Hc ind g G). Qed.
Print Assumptions C87_errors_not_amplified.
Theorem C87_atr : forall w fillna e n h l c v h' l' c' v', (1 <= w <= n)%nat ->
  0 <= e -> off_by e n h h' -> off_by e n l l' -> off_by e n c c' ->
  near (2 * e) (compute (Atr (Z.of_nat w)) fillna (frame n h l c v)) (compute (Atr (Z.of_nat w)) fillna (frame n h' l' c' v')).
Proof. intros w fillna e n h l c v h' l' c' v' Hw He Hh Hl Hc. exact (atr_robust n h l c v h' l' c' v' fillna e He Hh Hl Hc w Hw). Qed.
Print Assumptions C87_atr.
Theorem C87_keltner_ema : forall w a m fillna e n h l c v h' l' c' v', (1 <= w)%nat -> (1 <= a <= n)%nat ->
  0 <= e -> off_by e n h h' -> off_by e n l l' -> off_by e n c c' ->
  let call ind rows := compute (ind (Z.of_nat w) (Z.of_nat a) false (Fin m)) fillna rows in
  let before := frame n h l c v in let after := frame n h' l' c' v' in
  near e (call KcM before) (call KcM after) /\ near ((1 + 2 * Rabs m) * e) (call KcH before) (call KcH after) /\
  near ((1 + 2 * Rabs m) * e) (call KcL before) (call KcL after).
Proof.
  intros w a m fillna e n h l c v h' l' c' v' Hw Ha He Hh Hl Hc. exact (keltner_robust n h l c v h' l' c' v' fillna e He Hh Hl Hc w a m Hw Ha).
Qed.
Print Assumptions C87_keltner_ema.
Theorem C87_vwap : forall w fillna e n h l c v h' l' c' out out' i, (1 <= w)%nat ->
  0 <= e -> off_by e n h h' -> off_by e n l l' -> off_by e n c c' -> (forall j, (j < n)%nat -> 0 <= v j) ->
  compute (Vwap (Z.of_nat w)) fillna (frame n h l c v) = Ok out ->
  compute (Vwap (Z.of_nat w)) fillna (frame n h' l' c' v) = Ok out' ->
  (warm fillna w <= i < n)%nat -> wsum w v i <> 0 ->
  exists x x', nth i out NaN = Fin x /\ nth i out' NaN = Fin x' /\ Rabs (x - x') <= e.
Proof.
  intros w fillna e n h l c v h' l' c' out out' i Hw He Hh Hl Hc. exact (vwap_robust n h l c v h' l' c' fillna e He Hh Hl Hc w out out' i Hw).
Qed.
Print Assumptions C87_vwap.
(** Not so the Parabolic SAR: however small the error, the trend can flip and
    the stop jump across the bar (here by 49 on prices of at most 50). *)
Theorem C87_psar_refuted : forall b e, 0 < e -> exists h l c v l', off_by e 3 l l' /\
  forall out out', compute (Psar b (Fin (1 / 50)) (Fin (1 / 5))) false (frame 3 h l c v) = Ok out ->
    compute (Psar b (Fin (1 / 50)) (Fin (1 / 5))) false (frame 3 h l' c v) = Ok out' ->
    exists x x', nth 2 out NaN = Fin x /\ nth 2 out' NaN = Fin x' /\ Rabs (x - x') >= 49.
Proof. exact psar_jumps. Qed.
Print Assumptions C87_psar_refuted.

Example C87_table : forall m, gain (Sma 20) = Some 1 /\ gain (Macd 26 12 9) = Some 2 /\ gain (BbH 20 (Fin 2)) = Some (1 + Rabs 2) /\
  gain (KcH 20 10 true m) = Some (7 / 3) /\ gain (DcM 20 0) = Some 1 /\ gain (IchiA 9 26 52 false) = Some 1 /\ gain (Dpo 20) = Some 2.
Proof. repeat split. Qed.
(** the factor 7/3 is reached: high and close up, low down *)
Example C87_sharp : let before := frame 1 (fun _ => 2) (fun _ => 1) (fun _ => 1) (fun _ => 0) in
  let after := frame 1 (fun _ => 2 + 1/2) (fun _ => 1 - 1/2) (fun _ => 1 + 1/2) (fun _ => 0) in
  compute (KcH 1 1 true (Fin 2)) false before = Ok [Fin (7/3)] /\ compute (KcH 1 1 true (Fin 2)) false after = Ok [Fin (7/3 + 7/3 * (1/2))].
Proof.
  cbv zeta. change (KcH 1 1 true (Fin 2)) with (KcH (Z.of_nat 1) (Z.of_nat 1) true (Fin 2)).
  destruct (Channels.kc_bands_original false 1 (Z.of_nat 1) (Fin 2) 1 (fun _ => 2) (fun _ => 1) (fun _ => 1) (fun _ => 0) ltac:(lia)) as (_ & E & _).
  destruct (Channels.kc_bands_original false 1 (Z.of_nat 1) (Fin 2) 1 (fun _ => 2 + 1/2) (fun _ => 1 - 1/2) (fun _ => 1 + 1/2) (fun _ => 0) ltac:(lia)) as (_ & E' & _).
  rewrite E, E'. unfold tab, wmean, wsum, typical, wlen, wlo, from, fromx. cbn. split; do 3 f_equal; lra.
Qed.
