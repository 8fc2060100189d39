(** * Api: the catalogue of series-valued public entry points of ta.

    Not part of the model of the code: it only names, for one input frame
    (rows of bars), every method/function of the library with its arguments, so
    that theorems can quantify over "every indicator".  [compute] calls the
    model functions on the columns of the frame (cited there). *)
From Verif Require Export Volume.

Record bar (F : Type) := mkbar {
  b_label : Z; b_high : F; b_low : F; b_close : F; b_volume : F }.
Arguments mkbar {F}. Arguments b_label {F}. Arguments b_high {F}. Arguments b_low {F}.
Arguments b_close {F}. Arguments b_volume {F}.

(** One constructor per public series: momentum.py, trend.py, volatility.py,
    volume.py, others.py (class method / module function of the same name). *)
Inductive indicator (F : Type) : Type :=
(* momentum.py *)
| Rsi (window : Z)
| Tsi (window_slow window_fast : Z)
| UltOsc (window1 window2 window3 : Z) (weight1 weight2 weight3 : F)
| Stoch (window smooth_window : Z)
| StochSignal (window smooth_window : Z)
| Kama (window pow1 pow2 : Z)
| Roc (window : Z)
| AwesomeOsc (window1 window2 : Z)
| WilliamsR (lbp : Z)
| StochRsi (window smooth1 smooth2 : Z)
| StochRsiK (window smooth1 smooth2 : Z)
| StochRsiD (window smooth1 smooth2 : Z)
| Ppo (window_slow window_fast window_sign : Z)
| PpoSignal (window_slow window_fast window_sign : Z)
| PpoHist (window_slow window_fast window_sign : Z)
| Pvo (window_slow window_fast window_sign : Z)
| PvoSignal (window_slow window_fast window_sign : Z)
| PvoHist (window_slow window_fast window_sign : Z)
(* trend.py *)
| AroonUp (window : Z)
| AroonDown (window : Z)
| AroonInd (window : Z)
| Macd (window_slow window_fast window_sign : Z)
| MacdSignal (window_slow window_fast window_sign : Z)
| MacdDiff (window_slow window_fast window_sign : Z)
| Ema (window : Z)
| Sma (window : Z)
| Wma (window : Z)
| Trix (window : Z)
| Mass (window_fast window_slow : Z)
| IchiConv (window1 window2 window3 : Z) (visual : bool)
| IchiBase (window1 window2 window3 : Z) (visual : bool)
| IchiA (window1 window2 window3 : Z) (visual : bool)
| IchiB (window1 window2 window3 : Z) (visual : bool)
| Kst (r1 r2 r3 r4 w1 w2 w3 w4 nsig : Z)
| KstSig (r1 r2 r3 r4 w1 w2 w3 w4 nsig : Z)
| KstDiff (r1 r2 r3 r4 w1 w2 w3 w4 nsig : Z)
| Dpo (window : Z)
| Cci (window : Z) (constant : F)
| Adx (window : Z)
| AdxPos (window : Z)
| AdxNeg (window : Z)
| VortexPos (window : Z)
| VortexNeg (window : Z)
| VortexDiff (window : Z)
| Psar (int_index : bool) (step max_step : F)
| PsarUp (int_index : bool) (step max_step : F)
| PsarDown (int_index : bool) (step max_step : F)
| PsarUpInd (int_index : bool) (step max_step : F)
| PsarDownInd (int_index : bool) (step max_step : F)
| Stc (window_slow window_fast cycle smooth1 smooth2 : Z)
(* volatility.py *)
| Atr (window : Z)
| BbM (window : Z) (window_dev : F)
| BbH (window : Z) (window_dev : F)
| BbL (window : Z) (window_dev : F)
| BbW (window : Z) (window_dev : F)
| BbP (window : Z) (window_dev : F)
| BbHI (window : Z) (window_dev : F)
| BbLI (window : Z) (window_dev : F)
| KcM (window window_atr : Z) (original_version : bool) (multiplier : F)
| KcH (window window_atr : Z) (original_version : bool) (multiplier : F)
| KcL (window window_atr : Z) (original_version : bool) (multiplier : F)
| KcW (window window_atr : Z) (original_version : bool) (multiplier : F)
| KcP (window window_atr : Z) (original_version : bool) (multiplier : F)
| KcHI (window window_atr : Z) (original_version : bool) (multiplier : F)
| KcLI (window window_atr : Z) (original_version : bool) (multiplier : F)
| DcH (window offset : Z)
| DcL (window offset : Z)
| DcM (window offset : Z)
| DcW (window offset : Z)
| DcP (window offset : Z)
| Ulcer (window : Z)
(* volume.py *)
| Adi
| Obv
| Cmf (window : Z)
| Fi (window : Z)
| Eom (window : Z)
| SmaEom (window : Z)
| Vpt (smoothing_factor : option Z) (dropnans : bool)
| Nvi
| Mfi (window : Z)
| Vwap (window : Z)
(* others.py *)
| DailyReturn
| DailyLogReturn (log : F -> F)
| CumReturn.
Arguments Rsi {F}. Arguments Tsi {F}. Arguments UltOsc {F}. Arguments Stoch {F}.
Arguments StochSignal {F}. Arguments Kama {F}. Arguments Roc {F}. Arguments AwesomeOsc {F}.
Arguments WilliamsR {F}. Arguments StochRsi {F}. Arguments StochRsiK {F}. Arguments StochRsiD {F}.
Arguments Ppo {F}. Arguments PpoSignal {F}. Arguments PpoHist {F}.
Arguments Pvo {F}. Arguments PvoSignal {F}. Arguments PvoHist {F}.
Arguments AroonUp {F}. Arguments AroonDown {F}. Arguments AroonInd {F}.
Arguments Macd {F}. Arguments MacdSignal {F}. Arguments MacdDiff {F}.
Arguments Ema {F}. Arguments Sma {F}. Arguments Wma {F}. Arguments Trix {F}. Arguments Mass {F}.
Arguments IchiConv {F}. Arguments IchiBase {F}. Arguments IchiA {F}. Arguments IchiB {F}.
Arguments Kst {F}. Arguments KstSig {F}. Arguments KstDiff {F}. Arguments Dpo {F}. Arguments Cci {F}.
Arguments Adx {F}. Arguments AdxPos {F}. Arguments AdxNeg {F}.
Arguments VortexPos {F}. Arguments VortexNeg {F}. Arguments VortexDiff {F}.
Arguments Psar {F}. Arguments PsarUp {F}. Arguments PsarDown {F}.
Arguments PsarUpInd {F}. Arguments PsarDownInd {F}. Arguments Stc {F}. Arguments Atr {F}.
Arguments BbM {F}. Arguments BbH {F}. Arguments BbL {F}. Arguments BbW {F}. Arguments BbP {F}.
Arguments BbHI {F}. Arguments BbLI {F}.
Arguments KcM {F}. Arguments KcH {F}. Arguments KcL {F}. Arguments KcW {F}. Arguments KcP {F}.
Arguments KcHI {F}. Arguments KcLI {F}.
Arguments DcH {F}. Arguments DcL {F}. Arguments DcM {F}. Arguments DcW {F}. Arguments DcP {F}.
Arguments Ulcer {F}. Arguments Adi {F}. Arguments Obv {F}. Arguments Cmf {F}. Arguments Fi {F}.
Arguments Eom {F}. Arguments SmaEom {F}. Arguments Vpt {F}. Arguments Nvi {F}. Arguments Mfi {F}.
Arguments Vwap {F}. Arguments DailyReturn {F}. Arguments DailyLogReturn {F}. Arguments CumReturn {F}.

Section Api.
Context {F : Type} {A : Arith F}.

(** The call on the columns of the frame [rows]. *)
Definition compute (ind : indicator F) (fillna : bool) (rows : list (bar F)) : result (list F) :=
  let h := map b_high rows in
  let l := map b_low rows in
  let c := map b_close rows in
  let v := map b_volume rows in
  let labels (b : bool) := if b then Some (map b_label rows) else None in
  match ind with
  | Rsi w => rsi c w fillna
  | Tsi s f => tsi c s f fillna
  | UltOsc w1 w2 w3 k1 k2 k3 => ultimate_oscillator h l c w1 w2 w3 k1 k2 k3 fillna
  | Stoch w s => stoch h l c w s fillna
  | StochSignal w s => stoch_signal h l c w s fillna
  | Kama w p q => kama c w p q fillna
  | Roc w => roc c w fillna
  | AwesomeOsc w1 w2 => awesome_oscillator h l w1 w2 fillna
  | WilliamsR n => williams_r h l c n fillna
  | StochRsi w s1 s2 => stochrsi c w s1 s2 fillna
  | StochRsiK w s1 s2 => stochrsi_k c w s1 s2 fillna
  | StochRsiD w s1 s2 => stochrsi_d c w s1 s2 fillna
  | Ppo s f g => ppo c s f g fillna
  | PpoSignal s f g => ppo_signal c s f g fillna
  | PpoHist s f g => ppo_hist c s f g fillna
  | Pvo s f g => pvo v s f g fillna
  | PvoSignal s f g => pvo_signal v s f g fillna
  | PvoHist s f g => pvo_hist v s f g fillna
  | AroonUp w => aroon_up h l w fillna
  | AroonDown w => aroon_down h l w fillna
  | AroonInd w => aroon_indicator h l w fillna
  | Macd s f g => macd c s f g fillna
  | MacdSignal s f g => macd_signal c s f g fillna
  | MacdDiff s f g => macd_diff c s f g fillna
  | Ema w => ema_indicator c w fillna
  | Sma w => sma_indicator c w fillna
  | Wma w => wma c w fillna
  | Trix w => trix c w fillna
  | Mass wf ws => mass_index h l wf ws fillna
  | IchiConv w1 w2 w3 vis => ichimoku_conversion_line h l w1 w2 w3 vis fillna
  | IchiBase w1 w2 w3 vis => ichimoku_base_line h l w1 w2 w3 vis fillna
  | IchiA w1 w2 w3 vis => ichimoku_a h l w1 w2 w3 vis fillna
  | IchiB w1 w2 w3 vis => ichimoku_b h l w1 w2 w3 vis fillna
  | Kst r1 r2 r3 r4 w1 w2 w3 w4 n => kst c r1 r2 r3 r4 w1 w2 w3 w4 n fillna
  | KstSig r1 r2 r3 r4 w1 w2 w3 w4 n => kst_sig c r1 r2 r3 r4 w1 w2 w3 w4 n fillna
  | KstDiff r1 r2 r3 r4 w1 w2 w3 w4 n => kst_diff c r1 r2 r3 r4 w1 w2 w3 w4 n fillna
  | Dpo w => dpo c w fillna
  | Cci w k => cci h l c w k fillna
  | Adx w => adx h l c w fillna
  | AdxPos w => adx_pos h l c w fillna
  | AdxNeg w => adx_neg h l c w fillna
  | VortexPos w => vortex_indicator_pos h l c w fillna
  | VortexNeg w => vortex_indicator_neg h l c w fillna
  | VortexDiff w => vortex_indicator_diff h l c w fillna
  | Psar b s m => psar h l c (labels b) s m fillna
  | PsarUp b s m => psar_up h l c (labels b) s m fillna
  | PsarDown b s m => psar_down h l c (labels b) s m fillna
  | PsarUpInd b s m => psar_up_indicator h l c (labels b) s m fillna
  | PsarDownInd b s m => psar_down_indicator h l c (labels b) s m fillna
  | Stc ws wf cy s1 s2 => stc c ws wf cy s1 s2 fillna
  | Atr w => average_true_range h l c w fillna
  | BbM w d => bollinger_mavg c w d fillna
  | BbH w d => bollinger_hband c w d fillna
  | BbL w d => bollinger_lband c w d fillna
  | BbW w d => bollinger_wband c w d fillna
  | BbP w d => bollinger_pband c w d fillna
  | BbHI w d => bollinger_hband_indicator c w d fillna
  | BbLI w d => bollinger_lband_indicator c w d fillna
  | KcM w a o m => keltner_channel_mband h l c w a fillna o m
  | KcH w a o m => keltner_channel_hband h l c w a fillna o m
  | KcL w a o m => keltner_channel_lband h l c w a fillna o m
  | KcW w a o m => keltner_channel_wband h l c w a fillna o m
  | KcP w a o m => keltner_channel_pband h l c w a fillna o m
  | KcHI w a o m => keltner_channel_hband_indicator h l c w a fillna o m
  | KcLI w a o m => keltner_channel_lband_indicator h l c w a fillna o m
  | DcH w o => donchian_channel_hband h l c w o fillna
  | DcL w o => donchian_channel_lband h l c w o fillna
  | DcM w o => donchian_channel_mband h l c w o fillna
  | DcW w o => donchian_channel_wband h l c w o fillna
  | DcP w o => donchian_channel_pband h l c w o fillna
  | Ulcer w => ulcer_index c w fillna
  | Adi => acc_dist_index h l c v fillna
  | Obv => on_balance_volume c v fillna
  | Cmf w => chaikin_money_flow h l c v w fillna
  | Fi w => force_index c v w fillna
  | Eom w => ease_of_movement h l v w fillna
  | SmaEom w => sma_ease_of_movement h l v w fillna
  | Vpt s d => volume_price_trend c v fillna s d
  | Nvi => negative_volume_index c v fillna
  | Mfi w => money_flow_index h l c v w fillna
  | Vwap w => volume_weighted_average_price h l c v w fillna
  | DailyReturn => daily_return c fillna
  | DailyLogReturn log => daily_log_return log c fillna
  | CumReturn => cumulative_return c fillna
  end.

(** volume_price_trend(dropnans=True) drops rows on purpose. *)
Definition drops_rows (ind : indicator F) : bool :=
  match ind with Vpt _ d => d | _ => false end.

(** The raw PSAR series on an integer-labelled frame whose labels are not
    0..n-1 may grow (C59). *)
Definition label_dependent (ind : indicator F) : bool :=
  match ind with
  | Psar b _ _ | PsarUp b _ _ | PsarDown b _ _ | PsarUpInd b _ _ | PsarDownInd b _ _ => b
  | _ => false
  end.
End Api.
