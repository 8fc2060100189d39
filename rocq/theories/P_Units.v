(** * P_Units: properties C60 and C61, exact arithmetic.

    [compute] ranges over every public series of the library (Api.v); rows may
    hold missing and infinite values.  [factor] and [follows] (SpecScale.v)
    tabulate the effect on each series. *)
From Verif Require Import Api SpecNum SpecScale Units.
Local Open Scope R_scope.

(** C60 and the second half of C18: every series, all windows, both values of
    fillna; prices times p, volumes times q.  When the call raises, so does
    the other one, with the same exception. *)
Theorem C60_scaling : forall p q, 0 < p -> 0 < q -> forall ind fl rows, log_is_ln ind ->
  compute ind fl (rescaled p q rows) = rmap (map (times (factor ind p q))) (compute ind fl rows).
Proof. exact scaling. Qed.
Print Assumptions C60_scaling.

(** the table: dimensionless series, price-like series, volume-like ones *)
Example C60_table : forall p q, factor (Rsi 14) p q = 1 /\ factor (Ppo 26 12 9) p q = 1 /\ factor (Mfi 14) p q = 1 /\
  factor (Adx 14) p q = 1 /\ factor (Ulcer 14) p q = 1 /\ factor (Stc 50 23 10 3 3) p q = 1 /\
  factor (Sma 20) p q = p /\ factor (Macd 26 12 9) p q = p /\ factor (BbH 20 (Fin 2)) p q = p /\ factor (Psar true (Fin 0) (Fin 1)) p q = p /\
  factor (Atr 14) p q = p /\ factor Obv p q = q /\ factor (Fi 13) p q = p * q /\ factor (Eom 14) p q = p * p / q.
Proof. intros. repeat split. Qed.

(** C18, the invariance: prices times p for ppo, volumes times q for pvo. *)
Theorem C18_ppo_pvo_unit_free : forall p q, 0 < p -> 0 < q -> forall s f g fl rows,
  Forall (fun ind => compute ind fl (rescaled p q rows) = compute ind fl rows)
    [Ppo s f g; PpoSignal s f g; PpoHist s f g; Pvo s f g; PvoSignal s f g; PvoHist s f g].
Proof. exact ppo_pvo_unit_free. Qed.
Print Assumptions C18_ppo_pvo_unit_free.

(** C61.  The table [follows] has [None] for series built on price ratios and
    on the value 0, which do change. *)
Theorem C61_translation : forall a ind fl rows,
  match follows ind fl with
  | Some true => compute ind fl (moved a rows) = rmap (map (plus a)) (compute ind fl rows)
  | Some false => compute ind fl (moved a rows) = compute ind fl rows
  | None => True
  end.
Proof. exact translation. Qed.
Print Assumptions C61_translation.

Example C61_table :
  Forall (fun ind => follows ind true = Some false)
    [Rsi 14; Stoch 14 3; WilliamsR 14; StochRsi 14 3 3; Tsi 25 13; UltOsc 7 14 28 (Fin 4) (Fin 2) (Fin 1); Cci 20 (Fin (3 / 200));
     AroonUp 25; Atr 14; Macd 26 12 9; Dpo 20; AwesomeOsc 5 34; VortexPos 14; Adx 14; AdxPos 14; AdxNeg 14] /\
  Forall (fun ind => follows ind true = Some true)
    [Sma 20; Ema 20; BbH 20 (Fin 2); BbL 20 (Fin 2); DcH 20 0; DcL 20 0; KcH 20 10 true (Fin 2); IchiA 9 26 52 false; Psar true (Fin (1 / 50)) (Fin (1 / 5))] /\
  follows (Wma 9) false = Some true.
Proof. repeat split; repeat constructor. Qed.
(** with fillna the warm-up rows of WMA are 0 whatever the prices: the
    exception in the table is needed *)
Theorem C61_wma_fillna_refuted : exists rows,
  compute (Wma 2) true (moved 1 rows) <> rmap (map (plus 1)) (compute (Wma 2) true rows).
Proof. exact wma_fillna_stays. Qed.
Print Assumptions C61_wma_fillna_refuted.
