(** * P_Linear: properties C77 (superposition) and C78 (raising prices). *)
From Coq Require Import Reals Lra.
From Verif Require Import Api SpecNum SpecLinear Linear.
Local Open Scope R_scope.

(** C77.  The series of a combined market a*first + b*second is the same
    combination of the two series (exact arithmetic). *)
Theorem C77_superposition : forall (ind : indicator xr) fillna a b n h l c v h' l' c' v', linear ind = true ->
  let blend f g := fun i : nat => a * f i + b * g i in
  compute ind fillna (frame n (blend h h') (blend l l') (blend c c') (blend v v')) =
  mix a b (compute ind fillna (frame n h l c v)) (compute ind fillna (frame n h' l' c' v')).
Proof. intros ind fillna a b n h l c v h' l' c' v' H. exact (superpose a b n h l c v h' l' c' v' fillna ind H). Qed.
Print Assumptions C77_superposition.
Example C77_table : forall m, linear (Sma 20) = true /\ linear (Ema 12) = true /\ linear (Wma 9) = true /\
  linear (Macd 26 12 9) = true /\ linear (AwesomeOsc 5 34) = true /\ linear (Dpo 20) = true /\ linear (KcH 20 10 true m) = true.
Proof. repeat split. Qed.
(** one third of the first SMA and two thirds of the second *)
Example C77_case : mix (1/3) (2/3) (compute (Sma 2) false (frame 2 (fun _ => 0) (fun _ => 0) (fun i => 3 * INR i) (fun _ => 0)))
  (compute (Sma 2) false (frame 2 (fun _ => 0) (fun _ => 0) (fun i => 6) (fun _ => 0))) = Ok [NaN; Fin (9/2)].
Proof.
  change 2%Z with (Z.of_nat 2). rewrite !Averages.sma_formula by auto. cbn. do 3 f_equal. unfold wmean, wsum. cbn. f_equal. lra.
Qed.

(** C78.  Raising highs, lows and closes lowers no row of the moving averages
    and mid lines (exact arithmetic). *)
Theorem C78_monotone : forall (ind : indicator xr) fillna n h l c v h' l' c' v', monotone ind = true ->
  (forall i, (i < n)%nat -> h i <= h' i) -> (forall i, (i < n)%nat -> l i <= l' i) -> (forall i, (i < n)%nat -> c i <= c' i) ->
  nowhere_above (compute ind fillna (frame n h l c v)) (compute ind fillna (frame n h' l' c' v')).
Proof. intros ind fillna n h l c v h' l' c' v' H Hh Hl Hc. exact (raised n h l c v h' l' c' v' fillna Hh Hl Hc ind H). Qed.
Print Assumptions C78_monotone.
Example C78_table : forall m, monotone (Sma 20) = true /\ monotone (Ema 12) = true /\ monotone (Wma 9) = true /\
  monotone (BbM 20 (Fin 2)) = true /\ monotone (KcM 20 10 true m) = true /\ monotone (DcM 20 0) = true /\
  monotone (IchiA 9 26 52 false) = true.
Proof. repeat split. Qed.
(** Not so the upper Keltner band: a higher low narrows the range. *)
Theorem C78_keltner_hband_refuted : exists n h l c v l', (forall i, (i < n)%nat -> l i <= l' i <= h i) /\
  ~ nowhere_above (compute (KcH 1 1 true (Fin 2)) false (frame n h l c v)) (compute (KcH 1 1 true (Fin 2)) false (frame n h l' c v)).
Proof. exact hband_not_monotone. Qed.
Print Assumptions C78_keltner_hband_refuted.
