(** * SpecNames: what a series name is expected to tell: the method that made
    it, and the windows it spells out. *)
From Coq Require Import String.
From Verif Require Export Api.
Local Open Scope string_scope.
Local Open Scope list_scope.

Section SpecNames.
Context {F : Type}.
(** the public method, class and name *)
Definition method (ind : indicator F) : string * string :=
  match ind with
  | Rsi _ => ("RSIIndicator", "rsi")
  | Tsi _ _ => ("TSIIndicator", "tsi")
  | UltOsc _ _ _ _ _ _ => ("UltimateOscillator", "ultimate_oscillator")
  | Stoch _ _ => ("StochasticOscillator", "stoch")
  | StochSignal _ _ => ("StochasticOscillator", "stoch_signal")
  | Kama _ _ _ => ("KAMAIndicator", "kama")
  | Roc _ => ("ROCIndicator", "roc")
  | AwesomeOsc _ _ => ("AwesomeOscillatorIndicator", "awesome_oscillator")
  | WilliamsR _ => ("WilliamsRIndicator", "williams_r")
  | StochRsi _ _ _ => ("StochRSIIndicator", "stochrsi")
  | StochRsiK _ _ _ => ("StochRSIIndicator", "stochrsi_k")
  | StochRsiD _ _ _ => ("StochRSIIndicator", "stochrsi_d")
  | Ppo _ _ _ => ("PercentagePriceOscillator", "ppo")
  | PpoSignal _ _ _ => ("PercentagePriceOscillator", "ppo_signal")
  | PpoHist _ _ _ => ("PercentagePriceOscillator", "ppo_hist")
  | Pvo _ _ _ => ("PercentageVolumeOscillator", "pvo")
  | PvoSignal _ _ _ => ("PercentageVolumeOscillator", "pvo_signal")
  | PvoHist _ _ _ => ("PercentageVolumeOscillator", "pvo_hist")
  | AroonUp _ => ("AroonIndicator", "aroon_up")
  | AroonDown _ => ("AroonIndicator", "aroon_down")
  | AroonInd _ => ("AroonIndicator", "aroon_indicator")
  | Macd _ _ _ => ("MACD", "macd")
  | MacdSignal _ _ _ => ("MACD", "macd_signal")
  | MacdDiff _ _ _ => ("MACD", "macd_diff")
  | Ema _ => ("EMAIndicator", "ema_indicator")
  | Sma _ => ("SMAIndicator", "sma_indicator")
  | Wma _ => ("WMAIndicator", "wma")
  | Trix _ => ("TRIXIndicator", "trix")
  | Mass _ _ => ("MassIndex", "mass_index")
  | IchiConv _ _ _ _ => ("IchimokuIndicator", "ichimoku_conversion_line")
  | IchiBase _ _ _ _ => ("IchimokuIndicator", "ichimoku_base_line")
  | IchiA _ _ _ _ => ("IchimokuIndicator", "ichimoku_a")
  | IchiB _ _ _ _ => ("IchimokuIndicator", "ichimoku_b")
  | Kst _ _ _ _ _ _ _ _ _ => ("KSTIndicator", "kst")
  | KstSig _ _ _ _ _ _ _ _ _ => ("KSTIndicator", "kst_sig")
  | KstDiff _ _ _ _ _ _ _ _ _ => ("KSTIndicator", "kst_diff")
  | Dpo _ => ("DPOIndicator", "dpo")
  | Cci _ _ => ("CCIIndicator", "cci")
  | Adx _ => ("ADXIndicator", "adx")
  | AdxPos _ => ("ADXIndicator", "adx_pos")
  | AdxNeg _ => ("ADXIndicator", "adx_neg")
  | VortexPos _ => ("VortexIndicator", "vortex_indicator_pos")
  | VortexNeg _ => ("VortexIndicator", "vortex_indicator_neg")
  | VortexDiff _ => ("VortexIndicator", "vortex_indicator_diff")
  | Psar _ _ _ => ("PSARIndicator", "psar")
  | PsarUp _ _ _ => ("PSARIndicator", "psar_up")
  | PsarDown _ _ _ => ("PSARIndicator", "psar_down")
  | PsarUpInd _ _ _ => ("PSARIndicator", "psar_up_indicator")
  | PsarDownInd _ _ _ => ("PSARIndicator", "psar_down_indicator")
  | Stc _ _ _ _ _ => ("STCIndicator", "stc")
  | Atr _ => ("AverageTrueRange", "average_true_range")
  | BbM _ _ => ("BollingerBands", "bollinger_mavg")
  | BbH _ _ => ("BollingerBands", "bollinger_hband")
  | BbL _ _ => ("BollingerBands", "bollinger_lband")
  | BbW _ _ => ("BollingerBands", "bollinger_wband")
  | BbP _ _ => ("BollingerBands", "bollinger_pband")
  | BbHI _ _ => ("BollingerBands", "bollinger_hband_indicator")
  | BbLI _ _ => ("BollingerBands", "bollinger_lband_indicator")
  | KcM _ _ _ _ => ("KeltnerChannel", "keltner_channel_mband")
  | KcH _ _ _ _ => ("KeltnerChannel", "keltner_channel_hband")
  | KcL _ _ _ _ => ("KeltnerChannel", "keltner_channel_lband")
  | KcW _ _ _ _ => ("KeltnerChannel", "keltner_channel_wband")
  | KcP _ _ _ _ => ("KeltnerChannel", "keltner_channel_pband")
  | KcHI _ _ _ _ => ("KeltnerChannel", "keltner_channel_hband_indicator")
  | KcLI _ _ _ _ => ("KeltnerChannel", "keltner_channel_lband_indicator")
  | DcH _ _ => ("DonchianChannel", "donchian_channel_hband")
  | DcL _ _ => ("DonchianChannel", "donchian_channel_lband")
  | DcM _ _ => ("DonchianChannel", "donchian_channel_mband")
  | DcW _ _ => ("DonchianChannel", "donchian_channel_wband")
  | DcP _ _ => ("DonchianChannel", "donchian_channel_pband")
  | Ulcer _ => ("UlcerIndex", "ulcer_index")
  | Adi => ("AccDistIndexIndicator", "acc_dist_index")
  | Obv => ("OnBalanceVolumeIndicator", "on_balance_volume")
  | Cmf _ => ("ChaikinMoneyFlowIndicator", "chaikin_money_flow")
  | Fi _ => ("ForceIndexIndicator", "force_index")
  | Eom _ => ("EaseOfMovementIndicator", "ease_of_movement")
  | SmaEom _ => ("EaseOfMovementIndicator", "sma_ease_of_movement")
  | Vpt _ _ => ("VolumePriceTrendIndicator", "volume_price_trend")
  | Nvi => ("NegativeVolumeIndexIndicator", "negative_volume_index")
  | Mfi _ => ("MFIIndicator", "money_flow_index")
  | Vwap _ => ("VolumeWeightedAveragePrice", "volume_weighted_average_price")
  | DailyReturn => ("DailyReturnIndicator", "daily_return")
  | DailyLogReturn _ => ("DailyLogReturnIndicator", "daily_log_return")
  | CumReturn => ("CumulativeReturnIndicator", "cumulative_return")
  end.

(** the windows spelled out in the name, in the constructor's order *)
Definition named_windows (ind : indicator F) : list Z :=
  match ind with
  | Ppo slow fast _ | PpoSignal slow fast _ | PpoHist slow fast _
  | Pvo slow fast _ | PvoSignal slow fast _ | PvoHist slow fast _
  | Macd slow fast _ | MacdSignal slow fast _ | MacdDiff slow fast _ => [slow; fast]
  | Mass fast slow => [fast; slow]
  | IchiConv w1 w2 _ _ | IchiBase w1 w2 _ _ | IchiA w1 w2 _ _ | IchiB w1 w2 _ _ => [w1; w2]
  | AroonUp w | AroonDown w | AroonInd w | Ema w | Sma w | Wma w | Trix w | Dpo w
  | Fi w | Eom w | SmaEom w | Mfi w | Vwap w => [w]
  | _ => []
  end.

(** Keltner series that carry the name of a Bollinger series *)
Definition borrows_name (ind : indicator F) : bool :=
  match ind with KcM _ _ _ _ | KcW _ _ _ _ | KcP _ _ _ _ => true | _ => false end.
End SpecNames.
