(** * Defaults: the module-level functions of ta and their default arguments.

    A [call] is a call of a module-level function on given columns; an omitted
    argument is [None].  [by_function] gives the arguments that reach the
    indicator: the function's own defaults (cited at the constructor), and the
    constants (or class defaults) for the parameters the function does not
    expose (for example macd() has no window_sign and passes 9).  [by_class]
    gives the arguments when the class itself is called with the same arguments
    left out ([None]: Python raises TypeError because the parameter has no
    default).  The log function and the
    kind of index are not Python arguments; they are carried along.  fillna
    defaults to False in every function and class. *)
From Verif Require Export Api.
Local Open Scope f_scope.

Inductive call (F : Type) : Type :=
| call_rsi (window : option Z)   (* momentum.py:769-787 *)
| call_tsi (window_slow : option Z) (window_fast : option Z)   (* momentum.py:790-808 *)
| call_ultimate_oscillator (window1 : option Z) (window2 : option Z) (window3 : option Z) (weight1 : option F) (weight2 : option F) (weight3 : option F)   (* momentum.py:811-865 *)
| call_stoch (window : option Z) (smooth_window : option Z)   (* momentum.py:868-897 *)
| call_stoch_signal (window : option Z) (smooth_window : option Z)   (* momentum.py:900-927 *)
| call_williams_r (lbp : option Z)   (* momentum.py:930-973 *)
| call_awesome_oscillator (window1 : option Z) (window2 : option Z)   (* momentum.py:976-1014 *)
| call_kama (window : option Z) (pow1 : option Z) (pow2 : option Z)   (* momentum.py:1017-1041 *)
| call_roc (window : option Z)   (* momentum.py:1044-1071 *)
| call_stochrsi (window : option Z) (smooth1 : option Z) (smooth2 : option Z)   (* momentum.py:1074-1101 *)
| call_stochrsi_k (window : option Z) (smooth1 : option Z) (smooth2 : option Z)   (* momentum.py:1104-1131 *)
| call_stochrsi_d (window : option Z) (smooth1 : option Z) (smooth2 : option Z)   (* momentum.py:1134-1161 *)
| call_ppo (window_slow : option Z) (window_fast : option Z) (window_sign : option Z)   (* momentum.py:1164-1192 *)
| call_ppo_signal (window_slow : option Z) (window_fast : option Z) (window_sign : option Z)   (* momentum.py:1195-1219 *)
| call_ppo_hist (window_slow : option Z) (window_fast : option Z) (window_sign : option Z)   (* momentum.py:1222-1250 *)
| call_pvo (window_slow : option Z) (window_fast : option Z) (window_sign : option Z)   (* momentum.py:1253-1284 *)
| call_pvo_signal (window_slow : option Z) (window_fast : option Z) (window_sign : option Z)   (* momentum.py:1287-1318 *)
| call_pvo_hist (window_slow : option Z) (window_fast : option Z) (window_sign : option Z)   (* momentum.py:1321-1352 *)
| call_ema_indicator (window : option Z)   (* trend.py:1159-1165 *)
| call_sma_indicator (window : option Z)   (* trend.py:1168-1174 *)
| call_wma_indicator (window : option Z)   (* trend.py:1177-1183 *)
| call_macd (window_slow : option Z) (window_fast : option Z)   (* trend.py:1186-1209 *)
| call_macd_signal (window_slow : option Z) (window_fast : option Z) (window_sign : option Z)   (* trend.py:1212-1235 *)
| call_macd_diff (window_slow : option Z) (window_fast : option Z) (window_sign : option Z)   (* trend.py:1238-1261 *)
| call_adx (window : option Z)   (* trend.py:1264-1293 *)
| call_adx_pos (window : option Z)   (* trend.py:1296-1325 *)
| call_adx_neg (window : option Z)   (* trend.py:1328-1357 *)
| call_vortex_indicator_pos (window : option Z)   (* trend.py:1360-1381 *)
| call_vortex_indicator_neg (window : option Z)   (* trend.py:1384-1405 *)
| call_trix (window : option Z)   (* trend.py:1408-1424 *)
| call_mass_index (window_fast : option Z) (window_slow : option Z)   (* trend.py:1427-1453 *)
| call_cci (window : option Z) (constant : option F)   (* trend.py:1456-1481 *)
| call_dpo (window : option Z)   (* trend.py:1484-1500 *)
| call_kst (roc1 : option Z) (roc2 : option Z) (roc3 : option Z) (roc4 : option Z) (window1 : option Z) (window2 : option Z) (window3 : option Z) (window4 : option Z)   (* trend.py:1503-1551 *)
| call_stc (window_slow : option Z) (window_fast : option Z) (cycle : option Z) (smooth1 : option Z) (smooth2 : option Z)   (* trend.py:1554-1588 *)
| call_kst_sig (roc1 : option Z) (roc2 : option Z) (roc3 : option Z) (roc4 : option Z) (window1 : option Z) (window2 : option Z) (window3 : option Z) (window4 : option Z) (nsig : option Z)   (* trend.py:1591-1641 *)
| call_ichimoku_conversion_line (window1 : option Z) (window2 : option Z) (visual : option bool)   (* trend.py:1644-1672 *)
| call_ichimoku_base_line (window1 : option Z) (window2 : option Z) (visual : option bool)   (* trend.py:1675-1703 *)
| call_ichimoku_a (window1 : option Z) (window2 : option Z) (visual : option bool)   (* trend.py:1706-1732 *)
| call_ichimoku_b (window2 : option Z) (window3 : option Z) (visual : option bool)   (* trend.py:1735-1761 *)
| call_aroon_up (window : option Z)   (* trend.py:1764-1783 *)
| call_aroon_down (window : option Z)   (* trend.py:1786-1804 *)
| call_psar_up (int_index : bool) (step : option F) (max_step : option F)   (* trend.py:1807-1828 *)
| call_psar_down (int_index : bool) (step : option F) (max_step : option F)   (* trend.py:1831-1852 *)
| call_psar_up_indicator (int_index : bool) (step : option F) (max_step : option F)   (* trend.py:1855-1876 *)
| call_psar_down_indicator (int_index : bool) (step : option F) (max_step : option F)   (* trend.py:1879-1900 *)
| call_average_true_range (window : option Z)   (* volatility.py:472-494 *)
| call_bollinger_mavg (window : option Z)   (* volatility.py:497-513 *)
| call_bollinger_hband (window : option Z) (window_dev : option F)   (* volatility.py:516-536 *)
| call_bollinger_lband (window : option Z) (window_dev : option F)   (* volatility.py:539-559 *)
| call_bollinger_wband (window : option Z) (window_dev : option F)   (* volatility.py:562-579 *)
| call_bollinger_pband (window : option Z) (window_dev : option F)   (* volatility.py:582-599 *)
| call_bollinger_hband_indicator (window : option Z) (window_dev : option F)   (* volatility.py:602-621 *)
| call_bollinger_lband_indicator (window : option Z) (window_dev : option F)   (* volatility.py:624-643 *)
| call_keltner_channel_mband (window : option Z) (window_atr : option Z) (original_version : option bool)   (* volatility.py:646-678 *)
| call_keltner_channel_hband (window : option Z) (window_atr : option Z) (original_version : option bool)   (* volatility.py:681-713 *)
| call_keltner_channel_lband (window : option Z) (window_atr : option Z) (original_version : option bool)   (* volatility.py:716-748 *)
| call_keltner_channel_wband (window : option Z) (window_atr : option Z) (original_version : option bool)   (* volatility.py:751-781 *)
| call_keltner_channel_pband (window : option Z) (window_atr : option Z) (original_version : option bool)   (* volatility.py:784-814 *)
| call_keltner_channel_hband_indicator (window : option Z) (window_atr : option Z) (original_version : option bool)   (* volatility.py:817-850 *)
| call_keltner_channel_lband_indicator (window : option Z) (window_atr : option Z) (original_version : option bool)   (* volatility.py:853-885 *)
| call_donchian_channel_hband (window : option Z) (offset : option Z)   (* volatility.py:888-908 *)
| call_donchian_channel_lband (window : option Z) (offset : option Z)   (* volatility.py:911-931 *)
| call_donchian_channel_mband (window : option Z) (offset : option Z)   (* volatility.py:934-952 *)
| call_donchian_channel_wband (window : option Z) (offset : option Z)   (* volatility.py:955-973 *)
| call_donchian_channel_pband (window : option Z) (offset : option Z)   (* volatility.py:976-994 *)
| call_ulcer_index (window : option Z)   (* volatility.py:997-1011 *)
| call_acc_dist_index   (* volume.py:492-511 *)
| call_on_balance_volume   (* volume.py:514-532 *)
| call_chaikin_money_flow (window : option Z)   (* volume.py:535-555 *)
| call_force_index (window : option Z)   (* volume.py:558-578 *)
| call_ease_of_movement (window : option Z)   (* volume.py:581-601 *)
| call_sma_ease_of_movement (window : option Z)   (* volume.py:604-624 *)
| call_volume_price_trend (smoothing_factor : option (option Z)) (dropnans : option bool)   (* volume.py:627-654 *)
| call_negative_volume_index   (* volume.py:657-699 *)
| call_money_flow_index (window : option Z)   (* volume.py:702-728 *)
| call_volume_weighted_average_price (window : option Z)   (* volume.py:731-764 *)
| call_daily_return   (* others.py:97-107 *)
| call_daily_log_return (log : F -> F)   (* others.py:110-122 *)
| call_cumulative_return   (* others.py:125-135 *).
Arguments call_rsi {F}. Arguments call_tsi {F}. Arguments call_ultimate_oscillator {F}. Arguments
call_stoch {F}. Arguments call_stoch_signal {F}. Arguments call_williams_r {F}. Arguments
call_awesome_oscillator {F}. Arguments call_kama {F}. Arguments call_roc {F}. Arguments
call_stochrsi {F}. Arguments call_stochrsi_k {F}. Arguments call_stochrsi_d {F}. Arguments
call_ppo {F}. Arguments call_ppo_signal {F}. Arguments call_ppo_hist {F}. Arguments call_pvo {F}.
Arguments call_pvo_signal {F}. Arguments call_pvo_hist {F}. Arguments call_ema_indicator {F}.
Arguments call_sma_indicator {F}. Arguments call_wma_indicator {F}. Arguments call_macd {F}.
Arguments call_macd_signal {F}. Arguments call_macd_diff {F}. Arguments call_adx {F}. Arguments
call_adx_pos {F}. Arguments call_adx_neg {F}. Arguments call_vortex_indicator_pos {F}. Arguments
call_vortex_indicator_neg {F}. Arguments call_trix {F}. Arguments call_mass_index {F}. Arguments
call_cci {F}. Arguments call_dpo {F}. Arguments call_kst {F}. Arguments call_stc {F}. Arguments
call_kst_sig {F}. Arguments call_ichimoku_conversion_line {F}. Arguments
call_ichimoku_base_line {F}. Arguments call_ichimoku_a {F}. Arguments call_ichimoku_b {F}. Arguments
call_aroon_up {F}. Arguments call_aroon_down {F}. Arguments call_psar_up {F}. Arguments
call_psar_down {F}. Arguments call_psar_up_indicator {F}. Arguments call_psar_down_indicator {F}.
Arguments call_average_true_range {F}. Arguments call_bollinger_mavg {F}. Arguments
call_bollinger_hband {F}. Arguments call_bollinger_lband {F}. Arguments call_bollinger_wband {F}.
Arguments call_bollinger_pband {F}. Arguments call_bollinger_hband_indicator {F}. Arguments
call_bollinger_lband_indicator {F}. Arguments call_keltner_channel_mband {F}. Arguments
call_keltner_channel_hband {F}. Arguments call_keltner_channel_lband {F}. Arguments
call_keltner_channel_wband {F}. Arguments call_keltner_channel_pband {F}. Arguments
call_keltner_channel_hband_indicator {F}. Arguments call_keltner_channel_lband_indicator {F}.
Arguments call_donchian_channel_hband {F}. Arguments call_donchian_channel_lband {F}. Arguments
call_donchian_channel_mband {F}. Arguments call_donchian_channel_wband {F}. Arguments
call_donchian_channel_pband {F}. Arguments call_ulcer_index {F}. Arguments call_acc_dist_index {F}.
Arguments call_on_balance_volume {F}. Arguments call_chaikin_money_flow {F}. Arguments
call_force_index {F}. Arguments call_ease_of_movement {F}. Arguments call_sma_ease_of_movement {F}.
Arguments call_volume_price_trend {F}. Arguments call_negative_volume_index {F}. Arguments
call_money_flow_index {F}. Arguments call_volume_weighted_average_price {F}. Arguments
call_daily_return {F}. Arguments call_daily_log_return {F}. Arguments call_cumulative_return {F}.

Definition given {B} (o : option B) (default : B) : B :=
  match o with Some b => b | None => default end.

Section Defaults.
Context {F : Type} {A : Arith F}.

(** defaults of the functions: lines cited at [call] *)
Definition by_function (c : call F) : indicator F :=
  match c with
  | call_rsi window => Rsi (given window 14%Z)
  | call_tsi window_slow window_fast => Tsi (given window_slow 25%Z) (given window_fast 13%Z)
  | call_ultimate_oscillator window1 window2 window3 weight1 weight2 weight3 => UltOsc (given window1 7%Z) (given window2 14%Z) (given window3 28%Z) (given weight1 (#4)) (given weight2 (#2)) (given weight3 (#1))
  | call_stoch window smooth_window => Stoch (given window 14%Z) (given smooth_window 3%Z)
  | call_stoch_signal window smooth_window => StochSignal (given window 14%Z) (given smooth_window 3%Z)
  | call_williams_r lbp => WilliamsR (given lbp 14%Z)
  | call_awesome_oscillator window1 window2 => AwesomeOsc (given window1 5%Z) (given window2 34%Z)
  | call_kama window pow1 pow2 => Kama (given window 10%Z) (given pow1 2%Z) (given pow2 30%Z)
  | call_roc window => Roc (given window 12%Z)
  | call_stochrsi window smooth1 smooth2 => StochRsi (given window 14%Z) (given smooth1 3%Z) (given smooth2 3%Z)
  | call_stochrsi_k window smooth1 smooth2 => StochRsiK (given window 14%Z) (given smooth1 3%Z) (given smooth2 3%Z)
  | call_stochrsi_d window smooth1 smooth2 => StochRsiD (given window 14%Z) (given smooth1 3%Z) (given smooth2 3%Z)
  | call_ppo window_slow window_fast window_sign => Ppo (given window_slow 26%Z) (given window_fast 12%Z) (given window_sign 9%Z)
  | call_ppo_signal window_slow window_fast window_sign => PpoSignal (given window_slow 26%Z) (given window_fast 12%Z) (given window_sign 9%Z)
  | call_ppo_hist window_slow window_fast window_sign => PpoHist (given window_slow 26%Z) (given window_fast 12%Z) (given window_sign 9%Z)
  | call_pvo window_slow window_fast window_sign => Pvo (given window_slow 26%Z) (given window_fast 12%Z) (given window_sign 9%Z)
  | call_pvo_signal window_slow window_fast window_sign => PvoSignal (given window_slow 26%Z) (given window_fast 12%Z) (given window_sign 9%Z)
  | call_pvo_hist window_slow window_fast window_sign => PvoHist (given window_slow 26%Z) (given window_fast 12%Z) (given window_sign 9%Z)
  | call_ema_indicator window => Ema (given window 12%Z)
  | call_sma_indicator window => Sma (given window 12%Z)
  | call_wma_indicator window => Wma (given window 9%Z)
  | call_macd window_slow window_fast => Macd (given window_slow 26%Z) (given window_fast 12%Z) 9%Z
  | call_macd_signal window_slow window_fast window_sign => MacdSignal (given window_slow 26%Z) (given window_fast 12%Z) (given window_sign 9%Z)
  | call_macd_diff window_slow window_fast window_sign => MacdDiff (given window_slow 26%Z) (given window_fast 12%Z) (given window_sign 9%Z)
  | call_adx window => Adx (given window 14%Z)
  | call_adx_pos window => AdxPos (given window 14%Z)
  | call_adx_neg window => AdxNeg (given window 14%Z)
  | call_vortex_indicator_pos window => VortexPos (given window 14%Z)
  | call_vortex_indicator_neg window => VortexNeg (given window 14%Z)
  | call_trix window => Trix (given window 15%Z)
  | call_mass_index window_fast window_slow => Mass (given window_fast 9%Z) (given window_slow 25%Z)
  | call_cci window constant => Cci (given window 20%Z) (given constant (#15 /. #1000))
  | call_dpo window => Dpo (given window 20%Z)
  | call_kst roc1 roc2 roc3 roc4 window1 window2 window3 window4 => Kst (given roc1 10%Z) (given roc2 15%Z) (given roc3 20%Z) (given roc4 30%Z) (given window1 10%Z) (given window2 10%Z) (given window3 10%Z) (given window4 15%Z) 9%Z
  | call_stc window_slow window_fast cycle smooth1 smooth2 => Stc (given window_slow 50%Z) (given window_fast 23%Z) (given cycle 10%Z) (given smooth1 3%Z) (given smooth2 3%Z)
  | call_kst_sig roc1 roc2 roc3 roc4 window1 window2 window3 window4 nsig => KstSig (given roc1 10%Z) (given roc2 15%Z) (given roc3 20%Z) (given roc4 30%Z) (given window1 10%Z) (given window2 10%Z) (given window3 10%Z) (given window4 15%Z) (given nsig 9%Z)
  | call_ichimoku_conversion_line window1 window2 visual => IchiConv (given window1 9%Z) (given window2 26%Z) 52%Z (given visual false)
  | call_ichimoku_base_line window1 window2 visual => IchiBase (given window1 9%Z) (given window2 26%Z) 52%Z (given visual false)
  | call_ichimoku_a window1 window2 visual => IchiA (given window1 9%Z) (given window2 26%Z) 52%Z (given visual false)
  | call_ichimoku_b window2 window3 visual => IchiB 9%Z (given window2 26%Z) (given window3 52%Z) (given visual false)
  | call_aroon_up window => AroonUp (given window 25%Z)
  | call_aroon_down window => AroonDown (given window 25%Z)
  | call_psar_up int_index step max_step => PsarUp int_index (given step (#2 /. #100)) (given max_step (#20 /. #100))
  | call_psar_down int_index step max_step => PsarDown int_index (given step (#2 /. #100)) (given max_step (#20 /. #100))
  | call_psar_up_indicator int_index step max_step => PsarUpInd int_index (given step (#2 /. #100)) (given max_step (#20 /. #100))
  | call_psar_down_indicator int_index step max_step => PsarDownInd int_index (given step (#2 /. #100)) (given max_step (#20 /. #100))
  | call_average_true_range window => Atr (given window 14%Z)
  | call_bollinger_mavg window => BbM (given window 20%Z) (#2)
  | call_bollinger_hband window window_dev => BbH (given window 20%Z) (given window_dev (#2))
  | call_bollinger_lband window window_dev => BbL (given window 20%Z) (given window_dev (#2))
  | call_bollinger_wband window window_dev => BbW (given window 20%Z) (given window_dev (#2))
  | call_bollinger_pband window window_dev => BbP (given window 20%Z) (given window_dev (#2))
  | call_bollinger_hband_indicator window window_dev => BbHI (given window 20%Z) (given window_dev (#2))
  | call_bollinger_lband_indicator window window_dev => BbLI (given window 20%Z) (given window_dev (#2))
  | call_keltner_channel_mband window window_atr original_version => KcM (given window 20%Z) (given window_atr 10%Z) (given original_version true) (#2)
  | call_keltner_channel_hband window window_atr original_version => KcH (given window 20%Z) (given window_atr 10%Z) (given original_version true) (#2)
  | call_keltner_channel_lband window window_atr original_version => KcL (given window 20%Z) (given window_atr 10%Z) (given original_version true) (#2)
  | call_keltner_channel_wband window window_atr original_version => KcW (given window 20%Z) (given window_atr 10%Z) (given original_version true) (#2)
  | call_keltner_channel_pband window window_atr original_version => KcP (given window 20%Z) (given window_atr 10%Z) (given original_version true) (#2)
  | call_keltner_channel_hband_indicator window window_atr original_version => KcHI (given window 20%Z) (given window_atr 10%Z) (given original_version true) (#2)
  | call_keltner_channel_lband_indicator window window_atr original_version => KcLI (given window 20%Z) (given window_atr 10%Z) (given original_version true) (#2)
  | call_donchian_channel_hband window offset => DcH (given window 20%Z) (given offset 0%Z)
  | call_donchian_channel_lband window offset => DcL (given window 20%Z) (given offset 0%Z)
  | call_donchian_channel_mband window offset => DcM (given window 10%Z) (given offset 0%Z)
  | call_donchian_channel_wband window offset => DcW (given window 10%Z) (given offset 0%Z)
  | call_donchian_channel_pband window offset => DcP (given window 10%Z) (given offset 0%Z)
  | call_ulcer_index window => Ulcer (given window 14%Z)
  | call_acc_dist_index => Adi
  | call_on_balance_volume => Obv
  | call_chaikin_money_flow window => Cmf (given window 20%Z)
  | call_force_index window => Fi (given window 13%Z)
  | call_ease_of_movement window => Eom (given window 14%Z)
  | call_sma_ease_of_movement window => SmaEom (given window 14%Z)
  | call_volume_price_trend smoothing_factor dropnans => Vpt (given smoothing_factor None) (given dropnans false)
  | call_negative_volume_index => Nvi
  | call_money_flow_index window => Mfi (given window 14%Z)
  | call_volume_weighted_average_price window => Vwap (given window 14%Z)
  | call_daily_return => DailyReturn
  | call_daily_log_return log => DailyLogReturn log
  | call_cumulative_return => CumReturn
  end.

(** defaults of the constructors (__init__), cited on the right *)
Definition by_class (c : call F) : option (indicator F) :=
  match c with
  | call_rsi window => Some (Rsi (given window 14%Z))   (* momentum.py:30 *)
  | call_tsi window_slow window_fast => Some (Tsi (given window_slow 25%Z) (given window_fast 13%Z))   (* momentum.py:77 *)
  | call_ultimate_oscillator window1 window2 window3 weight1 weight2 weight3 => Some (UltOsc (given window1 7%Z) (given window2 14%Z) (given window3 28%Z) (given weight1 (#4)) (given weight2 (#2)) (given weight3 (#1)))   (* momentum.py:151 *)
  | call_stoch window smooth_window => Some (Stoch (given window 14%Z) (given smooth_window 3%Z))   (* momentum.py:236 *)
  | call_stoch_signal window smooth_window => Some (StochSignal (given window 14%Z) (given smooth_window 3%Z))   (* momentum.py:236 *)
  | call_williams_r lbp => Some (WilliamsR (given lbp 14%Z))   (* momentum.py:514 *)
  | call_awesome_oscillator window1 window2 => Some (AwesomeOsc (given window1 5%Z) (given window2 34%Z))   (* momentum.py:442 *)
  | call_kama window pow1 pow2 => Some (Kama (given window 10%Z) (given pow1 2%Z) (given pow2 30%Z))   (* momentum.py:302 *)
  | call_roc window => Some (Roc (given window 12%Z))   (* momentum.py:386 *)
  | call_stochrsi window smooth1 smooth2 => Some (StochRsi (given window 14%Z) (given smooth1 3%Z) (given smooth2 3%Z))   (* momentum.py:568 *)
  | call_stochrsi_k window smooth1 smooth2 => Some (StochRsiK (given window 14%Z) (given smooth1 3%Z) (given smooth2 3%Z))   (* momentum.py:568 *)
  | call_stochrsi_d window smooth1 smooth2 => Some (StochRsiD (given window 14%Z) (given smooth1 3%Z) (given smooth2 3%Z))   (* momentum.py:568 *)
  | call_ppo window_slow window_fast window_sign => Some (Ppo (given window_slow 26%Z) (given window_fast 12%Z) (given window_sign 9%Z))   (* momentum.py:637 *)
  | call_ppo_signal window_slow window_fast window_sign => Some (PpoSignal (given window_slow 26%Z) (given window_fast 12%Z) (given window_sign 9%Z))   (* momentum.py:637 *)
  | call_ppo_hist window_slow window_fast window_sign => Some (PpoHist (given window_slow 26%Z) (given window_fast 12%Z) (given window_sign 9%Z))   (* momentum.py:637 *)
  | call_pvo window_slow window_fast window_sign => Some (Pvo (given window_slow 26%Z) (given window_fast 12%Z) (given window_sign 9%Z))   (* momentum.py:711 *)
  | call_pvo_signal window_slow window_fast window_sign => Some (PvoSignal (given window_slow 26%Z) (given window_fast 12%Z) (given window_sign 9%Z))   (* momentum.py:711 *)
  | call_pvo_hist window_slow window_fast window_sign => Some (PvoHist (given window_slow 26%Z) (given window_fast 12%Z) (given window_sign 9%Z))   (* momentum.py:711 *)
  | call_ema_indicator window => Some (Ema (given window 14%Z))   (* trend.py:167 *)
  | call_sma_indicator window => match window with Some window_ => Some (Sma window_) | None => None end
  | call_wma_indicator window => Some (Wma (given window 9%Z))   (* trend.py:215 *)
  | call_macd window_slow window_fast => Some (Macd (given window_slow 26%Z) (given window_fast 12%Z) 9%Z)   (* trend.py:100 *)
  | call_macd_signal window_slow window_fast window_sign => Some (MacdSignal (given window_slow 26%Z) (given window_fast 12%Z) (given window_sign 9%Z))   (* trend.py:100 *)
  | call_macd_diff window_slow window_fast window_sign => Some (MacdDiff (given window_slow 26%Z) (given window_fast 12%Z) (given window_sign 9%Z))   (* trend.py:100 *)
  | call_adx window => Some (Adx (given window 14%Z))   (* trend.py:703 *)
  | call_adx_pos window => Some (AdxPos (given window 14%Z))   (* trend.py:703 *)
  | call_adx_neg window => Some (AdxNeg (given window 14%Z))   (* trend.py:703 *)
  | call_vortex_indicator_pos window => Some (VortexPos (given window 14%Z))   (* trend.py:880 *)
  | call_vortex_indicator_neg window => Some (VortexNeg (given window 14%Z))   (* trend.py:880 *)
  | call_trix window => Some (Trix (given window 15%Z))   (* trend.py:263 *)
  | call_mass_index window_fast window_slow => Some (Mass (given window_fast 9%Z) (given window_slow 25%Z))   (* trend.py:305 *)
  | call_cci window constant => Some (Cci (given window 20%Z) (given constant (#15 /. #1000)))   (* trend.py:635 *)
  | call_dpo window => Some (Dpo (given window 20%Z))   (* trend.py:590 *)
  | call_kst roc1 roc2 roc3 roc4 window1 window2 window3 window4 => Some (Kst (given roc1 10%Z) (given roc2 15%Z) (given roc3 20%Z) (given roc4 30%Z) (given window1 10%Z) (given window2 10%Z) (given window3 10%Z) (given window4 15%Z) 9%Z)   (* trend.py:464 *)
  | call_stc window_slow window_fast cycle smooth1 smooth2 => Some (Stc (given window_slow 50%Z) (given window_fast 23%Z) (given cycle 10%Z) (given smooth1 3%Z) (given smooth2 3%Z))   (* trend.py:1115 *)
  | call_kst_sig roc1 roc2 roc3 roc4 window1 window2 window3 window4 nsig => Some (KstSig (given roc1 10%Z) (given roc2 15%Z) (given roc3 20%Z) (given roc4 30%Z) (given window1 10%Z) (given window2 10%Z) (given window3 10%Z) (given window4 15%Z) (given nsig 9%Z))   (* trend.py:464 *)
  | call_ichimoku_conversion_line window1 window2 visual => Some (IchiConv (given window1 9%Z) (given window2 26%Z) 52%Z (given visual false))   (* trend.py:355 *)
  | call_ichimoku_base_line window1 window2 visual => Some (IchiBase (given window1 9%Z) (given window2 26%Z) 52%Z (given visual false))   (* trend.py:355 *)
  | call_ichimoku_a window1 window2 visual => Some (IchiA (given window1 9%Z) (given window2 26%Z) 52%Z (given visual false))   (* trend.py:355 *)
  | call_ichimoku_b window2 window3 visual => Some (IchiB 9%Z (given window2 26%Z) (given window3 52%Z) (given visual false))   (* trend.py:355 *)
  | call_aroon_up window => Some (AroonUp (given window 25%Z))   (* trend.py:32 *)
  | call_aroon_down window => Some (AroonDown (given window 25%Z))   (* trend.py:32 *)
  | call_psar_up int_index step max_step => Some (PsarUp int_index (given step (#2 /. #100)) (given max_step (#20 /. #100)))   (* trend.py:954 *)
  | call_psar_down int_index step max_step => Some (PsarDown int_index (given step (#2 /. #100)) (given max_step (#20 /. #100)))   (* trend.py:954 *)
  | call_psar_up_indicator int_index step max_step => Some (PsarUpInd int_index (given step (#2 /. #100)) (given max_step (#20 /. #100)))   (* trend.py:954 *)
  | call_psar_down_indicator int_index step max_step => Some (PsarDownInd int_index (given step (#2 /. #100)) (given max_step (#20 /. #100)))   (* trend.py:954 *)
  | call_average_true_range window => Some (Atr (given window 14%Z))   (* volatility.py:31 *)
  | call_bollinger_mavg window => Some (BbM (given window 20%Z) (#2))   (* volatility.py:79 *)
  | call_bollinger_hband window window_dev => Some (BbH (given window 20%Z) (given window_dev (#2)))   (* volatility.py:79 *)
  | call_bollinger_lband window window_dev => Some (BbL (given window 20%Z) (given window_dev (#2)))   (* volatility.py:79 *)
  | call_bollinger_wband window window_dev => Some (BbW (given window 20%Z) (given window_dev (#2)))   (* volatility.py:79 *)
  | call_bollinger_pband window window_dev => Some (BbP (given window 20%Z) (given window_dev (#2)))   (* volatility.py:79 *)
  | call_bollinger_hband_indicator window window_dev => Some (BbHI (given window 20%Z) (given window_dev (#2)))   (* volatility.py:79 *)
  | call_bollinger_lband_indicator window window_dev => Some (BbLI (given window 20%Z) (given window_dev (#2)))   (* volatility.py:79 *)
  | call_keltner_channel_mband window window_atr original_version => Some (KcM (given window 20%Z) (given window_atr 10%Z) (given original_version true) (#2))   (* volatility.py:205 *)
  | call_keltner_channel_hband window window_atr original_version => Some (KcH (given window 20%Z) (given window_atr 10%Z) (given original_version true) (#2))   (* volatility.py:205 *)
  | call_keltner_channel_lband window window_atr original_version => Some (KcL (given window 20%Z) (given window_atr 10%Z) (given original_version true) (#2))   (* volatility.py:205 *)
  | call_keltner_channel_wband window window_atr original_version => Some (KcW (given window 20%Z) (given window_atr 10%Z) (given original_version true) (#2))   (* volatility.py:205 *)
  | call_keltner_channel_pband window window_atr original_version => Some (KcP (given window 20%Z) (given window_atr 10%Z) (given original_version true) (#2))   (* volatility.py:205 *)
  | call_keltner_channel_hband_indicator window window_atr original_version => Some (KcHI (given window 20%Z) (given window_atr 10%Z) (given original_version true) (#2))   (* volatility.py:205 *)
  | call_keltner_channel_lband_indicator window window_atr original_version => Some (KcLI (given window 20%Z) (given window_atr 10%Z) (given original_version true) (#2))   (* volatility.py:205 *)
  | call_donchian_channel_hband window offset => Some (DcH (given window 20%Z) (given offset 0%Z))   (* volatility.py:347 *)
  | call_donchian_channel_lband window offset => Some (DcL (given window 20%Z) (given offset 0%Z))   (* volatility.py:347 *)
  | call_donchian_channel_mband window offset => Some (DcM (given window 20%Z) (given offset 0%Z))   (* volatility.py:347 *)
  | call_donchian_channel_wband window offset => Some (DcW (given window 20%Z) (given offset 0%Z))   (* volatility.py:347 *)
  | call_donchian_channel_pband window offset => Some (DcP (given window 20%Z) (given offset 0%Z))   (* volatility.py:347 *)
  | call_ulcer_index window => Some (Ulcer (given window 14%Z))   (* volatility.py:444 *)
  | call_acc_dist_index => Some (Adi )   (* volume.py:32 *)
  | call_on_balance_volume => Some (Obv )   (* volume.py:79 *)
  | call_chaikin_money_flow window => Some (Cmf (given window 20%Z))   (* volume.py:115 *)
  | call_force_index window => Some (Fi (given window 13%Z))   (* volume.py:170 *)
  | call_ease_of_movement window => Some (Eom (given window 14%Z))   (* volume.py:213 *)
  | call_sma_ease_of_movement window => Some (SmaEom (given window 14%Z))   (* volume.py:213 *)
  | call_volume_price_trend smoothing_factor dropnans => Some (Vpt (given smoothing_factor None) (given dropnans false))   (* volume.py:274 *)
  | call_negative_volume_index => Some (Nvi )   (* volume.py:320 *)
  | call_money_flow_index window => Some (Mfi (given window 14%Z))   (* volume.py:370 *)
  | call_volume_weighted_average_price window => Some (Vwap (given window 14%Z))   (* volume.py:447 *)
  | call_daily_return => Some (DailyReturn )   (* others.py:22 *)
  | call_daily_log_return log => Some (DailyLogReturn log)   (* others.py:51 *)
  | call_cumulative_return => Some (CumReturn )   (* others.py:78 *)
  end.

(** the call itself *)
Definition call_function (c : call F) (fillna : option bool) (rows : list (bar F)) : result (list F) :=
  compute (by_function c) (given fillna false) rows.

End Defaults.
