{"id": "C01", "title": "One output row per input row", "statement": "Every indicator method/function that returns normally returns a series with exactly as many rows as the input columns, in the same order, whatever the window parameters, the fillna flag and the data (NaN and infinities included). The only exceptions are volume_price_trend(dropnans=True), which drops rows on purpose, and psar() on an integer-labelled index (see C59).", "quantifier": "all input columns of any length and any values, all window parameters, both fillna settings, any arithmetic (in particular binary64)", "why_tests_cant": "a test fixes one file and one length; alignment must hold for every length, including lengths shorter than the window", "anchors": ["ta/utils.py:_check_fillna", "ta/momentum.py:StochasticOscillator", "ta/trend.py:MACD", "ta/volatility.py:AverageTrueRange", "ta/volume.py:MFIIndicator", "ta/others.py:DailyReturnIndicator"]}
{"id": "C02", "title": "No look-ahead: rolling-window indicators", "statement": "Rows already computed never change when later rows are appended: for SMA, WMA, Bollinger bands, Keltner channel (ATR window >= 1 when it is used), Donchian channel (offset >= 0), Ulcer index, stochastic, Williams %R, awesome oscillator, ROC, ultimate oscillator, CCI, Aroon, Ichimoku conversion/base (visual=False), VWAP, CMF, MFI, EoM, daily return and log return (and cumulative return), output row i depends only on input rows 0..i, with fillna False or True (for the backward-filled series with fillna=True: as soon as one row of the result is a number).", "quantifier": "all input rows, all appended rows, all windows, both fillna flags, any arithmetic including binary64", "why_tests_cant": "look-ahead is a relation between two runs on all possible futures; a fixed expected column cannot show its absence", "anchors": ["ta/momentum.py:StochasticOscillator", "ta/momentum.py:WilliamsRIndicator", "ta/trend.py:SMAIndicator", "ta/volatility.py:BollingerBands", "ta/volatility.py:DonchianChannel", "ta/volume.py:VolumeWeightedAveragePrice"]}
{"id": "C03", "title": "No look-ahead: recursive and cumulative indicators", "statement": "Rows already computed never change when later rows are appended, for the recursively computed indicators EMA, MACD (line, signal, histogram), PPO, PVO, RSI, StochRSI, TSI, STC, mass index, force index, OBV, ADI, VPT, NVI, ATR (window >= 1), ADX/+DI/-DI and the raw PSAR lines.", "quantifier": "all input rows, all appended rows, all windows, both fillna flags, any arithmetic including binary64", "why_tests_cant": "relates two runs over all possible futures", "anchors": ["ta/trend.py:MACD", "ta/trend.py:EMAIndicator", "ta/momentum.py:RSIIndicator", "ta/trend.py:PSARIndicator", "ta/volatility.py:AverageTrueRange", "ta/trend.py:ADXIndicator", "ta/volume.py:OnBalanceVolumeIndicator"]}
{"id": "C04", "title": "No look-ahead with fillna=False for indicators that shift in a whole-sample mean or wrap around", "statement": "With fillna=False, DPO (window >= 3), TRIX (window >= 2), Vortex (any window) and KAMA (when its first row is a number) do not look ahead although their code uses close.mean() / np.roll over the whole sample: the contaminated rows are masked by the warm-up NaNs. In float64 the masked rows leave rounding errors in the running sums of Vortex and KAMA, so that a later row can change the last digit of published rows; DPO and TRIX do not look ahead in float64 either.", "quantifier": "all input rows, all appended rows, all windows in the stated ranges; DPO and TRIX in any arithmetic satisfying NaN propagation, Vortex and KAMA over exact reals with float64 counterexamples", "why_tests_cant": "the leak is present in the intermediate series and only the interplay of min_periods and shift sizes removes it; must hold for every window", "anchors": ["ta/trend.py:DPOIndicator", "ta/trend.py:TRIXIndicator", "ta/trend.py:VortexIndicator", "ta/momentum.py:KAMAIndicator"]}
{"id": "C05", "title": "Look-ahead exists: mean-filled shifts, wrap-around and backfill", "statement": "The general claim 'no indicator row depends on later rows' is false of the code for: KST (both flags), Ichimoku span A/B with visual=True, DPO/TRIX/Vortex/KAMA with fillna=True, psar_up/psar_down with fillna=True, Donchian with a negative offset, and ATR (hence Keltner) with a negative window. For each there are inputs where appending one row changes an earlier output row.", "quantifier": "exists data and an appended row (refutation of a universally quantified claim)", "why_tests_cant": "the test data never recompute on an extended sample", "anchors": ["ta/trend.py:KSTIndicator", "ta/trend.py:IchimokuIndicator", "ta/trend.py:DPOIndicator", "ta/trend.py:TRIXIndicator", "ta/trend.py:VortexIndicator", "ta/momentum.py:KAMAIndicator", "ta/trend.py:PSARIndicator"]}
{"id": "C06", "title": "fillna=True removes every NaN and infinity (constant fill)", "statement": "With fillna=True every indicator whose gaps are filled with a constant other than -1 returns no NaN and no infinity, for any input data whatsoever (NaN and infinite inputs included).", "quantifier": "all data, all windows for which the call returns, any arithmetic where the fill constant is a finite number", "why_tests_cant": "must hold for every pattern of gaps, zero divisions and infinities", "anchors": ["ta/utils.py:_check_fillna", "ta/momentum.py:RSIIndicator.rsi", "ta/momentum.py:StochasticOscillator.stoch", "ta/volume.py:ChaikinMoneyFlowIndicator"]}
{"id": "C07", "title": "fillna semantics: last finite value, then default", "statement": "The fill applied by fillna=True: row i of the filled series equals the raw value if that is finite, otherwise the filled row i-1, otherwise (no finite value so far) the indicator's constant; with the -1 marker leading gaps take the first finite raw value, and NaN remains only if the whole raw series has no finite value. The public series whose computation does not look at the flag (ROC, WMA, ADX/+DI/-DI, ATR, Ulcer, ADI, OBV, EoM, NVI, unsmoothed VPT, PSAR and its up/down series, Ichimoku B, the returns) return with fillna=True exactly this filling of what they return with fillna=False.", "quantifier": "all raw series (NaN/infinities anywhere), all fill constants, all parameters", "why_tests_cant": "universally quantified over gap patterns", "anchors": ["ta/utils.py:IndicatorMixin._check_fillna"]}
{"id": "C08", "title": "fillna never changes a row that was already finite", "statement": "For SMA, EMA, WMA, Bollinger bands/width/%b, Donchian (any offset), Keltner (original version; middle band in both), stochastic and its signal, StochRSI/K/D, Williams %R, awesome oscillator, MACD/PPO/PVO lines, RSI, Aroon, ultimate oscillator, CCI, KST, DPO, ADX/+DI/-DI, vortex, PSAR, Ichimoku (A without visual shift), ATR, Ulcer, CMF, VWAP, MFI, ADI, OBV, force index, EoM, VPT (dropnans=False), NVI, ROC and the returns: any row that is finite with fillna=False has the same value with fillna=True. For the stochastic signal and the StochRSI lines this is exact only up to rounding: in float64 their running means remember the filled rows and later rows can differ in the last digit.", "quantifier": "all data (NaN/infinities anywhere), all windows for which both calls return, any arithmetic with the NaN laws; stochastic signal and StochRSI lines over exact reals with float64 counterexamples", "why_tests_cant": "relates two runs for all inputs", "anchors": ["ta/utils.py:_check_fillna", "ta/utils.py:_ema", "ta/utils.py:_sma"]}
{"id": "C09", "title": "fillna changes already-finite rows of multi-stage indicators", "statement": "The claim of C08 is false for the multi-stage smoothers and for series that turn gaps into numbers: macd_signal/diff, ppo and pvo signal/hist, TSI, mass index, TRIX, STC, KAMA, kst_sig/diff, Ichimoku A with visual=True, the Bollinger and (EMA version) Keltner band indicators and smoothed VPT with dropnans return different values on rows that are finite with fillna=False when fillna=True is passed.", "quantifier": "exists data (refutation)", "why_tests_cant": "tests only compare with one flag", "anchors": ["ta/trend.py:MACD", "ta/momentum.py:TSIIndicator", "ta/trend.py:MassIndex", "ta/trend.py:TRIXIndicator", "ta/momentum.py:KAMAIndicator"]}
{"id": "C10", "title": "Warm-up length", "statement": "With fillna=False and finite data, each windowed indicator is NaN on exactly the first warm-up rows and a number afterwards (where no division by zero occurs): SMA/EMA/WMA/Bollinger/Donchian/stoch/wr: window-1 rows; MACD line: slow-1; MACD signal: slow+sign-2; ROC: window; Aroon: window; RSI: window-1; force index: window; VWAP: window-1; awesome: window2-1 (when window1 <= window2). Whatever the data (NaN and infinities included) and in binary64 too, no windowed indicator shows a number before its warm-up row; this also covers TSI (slow+fast-1), StochRSI (2(window-1), plus the smoothings), CCI, MFI, Bollinger pband (window-1), STC and the one-sided PSAR lines (2).", "quantifier": "all window parameters; exact lengths: all finite series of any length; never earlier: all series, exact and binary64 arithmetic", "why_tests_cant": "off-by-one warm-up must be right for every window, the tests check the last five rows only", "anchors": ["ta/trend.py:SMAIndicator", "ta/trend.py:EMAIndicator", "ta/trend.py:MACD", "ta/momentum.py:ROCIndicator", "ta/trend.py:AroonIndicator", "ta/volume.py:ForceIndexIndicator"]}
{"id": "C11", "title": "Which calls raise", "statement": "Every public series call either returns a series or raises, and it raises exactly on: an EMA-type window < 1 (ValueError); RSI/StochRSI window 0 (ZeroDivisionError) or negative (ValueError); a negative rolling window (ValueError); a zero window for UlcerIndex, or for Donchian/Keltner with fillna=True (ValueError); KAMA pow = -1 (ZeroDivisionError); Aroon window 0 on data containing a number (ZeroDivisionError), window -1 on data or below (ValueError); ADX window <= 0 or fewer than window-1 rows (ValueError), exactly window-1 rows (IndexError), adx() on fewer than 2*window rows (IndexError); ATR (and Keltner based on it) on fewer rows than window, or than 1 - window for a window <= 0 (IndexError); cumulative return, NVI and PSAR on an empty series (IndexError). When several checks fail the first in call order decides. _get_min_max raises ValueError on an unknown function name only.", "quantifier": "all series, all lengths, all integer windows, both fillna settings", "why_tests_cant": "the boundary between raising and not raising must be exact for every length and window", "anchors": ["ta/volatility.py:AverageTrueRange._run", "ta/trend.py:ADXIndicator", "ta/utils.py:_ema", "ta/utils.py:_get_min_max", "ta/others.py:CumulativeReturnIndicator"]}
{"id": "C12", "title": "SMA formula", "statement": "sma_indicator(close, window) at row i >= window-1 is the arithmetic mean of close[i-window+1..i]; with fillna=True row i < window-1 is the mean of close[0..i].", "quantifier": "all finite series, windows >= 1, rows", "why_tests_cant": "every window and position", "anchors": ["ta/utils.py:_sma", "ta/trend.py:SMAIndicator"]}
{"id": "C13", "title": "EMA formula", "statement": "ema_indicator(close, window) satisfies e[0]=close[0], e[i] = (1-a) e[i-1] + a close[i] with a = 2/(window+1), equivalently the weighted sum a*(1-a)^k close[i-k] + (1-a)^i close[0]; rows before window-1 are NaN unless fillna.", "quantifier": "all finite series, windows >= 1, rows", "why_tests_cant": "infinite-memory recursion, every length", "anchors": ["ta/utils.py:_ema", "ta/trend.py:EMAIndicator"]}
{"id": "C14", "title": "EMA over gaps", "statement": "When the input contains NaN rows the EMA repeats its last value on those rows and re-weights the next observation by the decayed weight (pandas ignore_na=False): after g missing rows e = ((1-a)^(g+1) e + a x) / ((1-a)^(g+1) + a).", "quantifier": "all series of numbers and NaNs", "why_tests_cant": "all gap patterns", "anchors": ["ta/utils.py:_ema"]}
{"id": "C15", "title": "WMA formula", "statement": "wma(close, window) at row i >= window-1 is sum_{k=1..window} k*close[i-window+k] divided by window(window+1)/2.", "quantifier": "all finite series, windows >= 1", "why_tests_cant": "every window", "anchors": ["ta/trend.py:WMAIndicator"]}
{"id": "C16", "title": "Moving averages stay inside the data range", "statement": "SMA, EMA, WMA at row i lie between the minimum and maximum of the closes they average (window for SMA/WMA, all rows so far for EMA); on a constant series they equal the constant.", "quantifier": "all finite series, windows", "why_tests_cant": "universal bound", "anchors": ["ta/utils.py:_sma", "ta/utils.py:_ema", "ta/trend.py:WMAIndicator"]}
{"id": "C17", "title": "MACD structure", "statement": "macd = EMA_fast - EMA_slow, macd_signal = EMA of the macd line started at its first defined row, macd_diff = macd - macd_signal on every row; on a constant series all three are 0 when defined.", "quantifier": "all finite series, windows", "why_tests_cant": "every row", "anchors": ["ta/trend.py:MACD"]}
{"id": "C18", "title": "PPO/PVO structure", "statement": "ppo = 100*(EMA_fast - EMA_slow)/EMA_slow, the signal is its EMA, hist = ppo - ppo_signal on every row; ppo and pvo are invariant under multiplying all prices/volumes by a positive factor.", "quantifier": "all series, windows, factors", "why_tests_cant": "universal", "anchors": ["ta/momentum.py:PercentagePriceOscillator", "ta/momentum.py:PercentageVolumeOscillator"]}
{"id": "C19", "title": "RSI range", "statement": "Every non-NaN value of rsi is in [0,100], for any close series (NaN and infinities included), any window >= 1, either fillna flag.", "quantifier": "all series over extended reals, windows, flags", "why_tests_cant": "universal bound", "anchors": ["ta/momentum.py:RSIIndicator"]}
{"id": "C20", "title": "RSI formula", "statement": "rsi = 100 - 100/(1+RS), RS = up/down with Wilder averages (alpha = 1/window) of positive and negative one-step changes, 100 when down = 0.", "quantifier": "all finite series, windows", "why_tests_cant": "every row", "anchors": ["ta/momentum.py:RSIIndicator"]}
{"id": "C21", "title": "RSI extremes", "statement": "If close never falls up to row i, rsi[i] = 100 (also for a flat series); if close never rises up to row i and fell at least once (window >= 2) or fell at row i (any window), rsi[i] = 0.", "quantifier": "all finite series, windows", "why_tests_cant": "universal", "anchors": ["ta/momentum.py:RSIIndicator"]}
{"id": "C22", "title": "Stochastic range and signal range", "statement": "When low <= close <= high on every row, stoch and stoch_signal are in [0,100] wherever defined, with either flag.", "quantifier": "all sane finite bars, windows", "why_tests_cant": "universal bound", "anchors": ["ta/momentum.py:StochasticOscillator"]}
{"id": "C23", "title": "Stochastic formula", "statement": "stoch[i] = 100*(close[i]-LL)/(HH-LL) with LL/HH the lowest low and highest high of the last window rows; NaN if HH = LL = close.", "quantifier": "all finite bars, windows, rows", "why_tests_cant": "every row", "anchors": ["ta/momentum.py:StochasticOscillator"]}
{"id": "C24", "title": "Williams %R equals stochastic minus 100", "statement": "williams_r(lbp=n) = stoch(window=n) - 100 on every row with the same flag (NaN/infinite together when fillna=False, including the -50/50 defaults when fillna=True), hence is in [-100,0] for sane bars.", "quantifier": "all finite bars, windows, both flags", "why_tests_cant": "algebraic identity for all data", "anchors": ["ta/momentum.py:WilliamsRIndicator", "ta/momentum.py:StochasticOscillator"]}
{"id": "C25", "title": "StochRSI range", "statement": "stochrsi, stochrsi_k and stochrsi_d are in [0,1] wherever defined.", "quantifier": "all close series, windows, flags", "why_tests_cant": "universal bound", "anchors": ["ta/momentum.py:StochRSIIndicator"]}
{"id": "C26", "title": "TSI range", "statement": "tsi is in [-100,100] wherever defined; it is +100 on strictly rising and -100 on strictly falling series.", "quantifier": "all close series, windows, flags", "why_tests_cant": "universal bound", "anchors": ["ta/momentum.py:TSIIndicator"]}
{"id": "C27", "title": "Ultimate oscillator range", "statement": "For sane bars and non-negative weights with positive sum, ultimate_oscillator is in [0,100] wherever it is a number.", "quantifier": "all sane bars, windows, weights", "why_tests_cant": "universal bound", "anchors": ["ta/momentum.py:UltimateOscillator"]}
{"id": "C28", "title": "KAMA stays inside the price range (fillna=False)", "statement": "With fillna=False and pow1, pow2 >= 1, every KAMA value lies between the smallest and largest close seen so far.", "quantifier": "all finite series, windows >= 1, pow1, pow2", "why_tests_cant": "needs the efficiency ratio <= 1 for all data (triangle inequality)", "anchors": ["ta/momentum.py:KAMAIndicator"]}
{"id": "C29", "title": "KAMA with fillna=True leaves the price range", "statement": "The bound of C28 is false with fillna=True: the wrap-around of np.roll makes the efficiency ratio exceed 1 in the first window rows and KAMA explodes.", "quantifier": "exists data (refutation)", "why_tests_cant": "tests never check the first rows with fillna=True", "anchors": ["ta/momentum.py:KAMAIndicator"]}
{"id": "C30", "title": "ROC / daily return / cumulative return / log return", "statement": "roc(window=1) equals daily_return; daily returns compound to the cumulative return; log returns add up to 100*ln(close[i]/close[0]).", "quantifier": "all positive finite series", "why_tests_cant": "identities over all lengths (induction)", "anchors": ["ta/momentum.py:ROCIndicator", "ta/others.py:DailyReturnIndicator", "ta/others.py:CumulativeReturnIndicator", "ta/others.py:DailyLogReturnIndicator"]}
{"id": "C31", "title": "Awesome oscillator formula", "statement": "awesome_oscillator = SMA(window1) - SMA(window2) of (high+low)/2.", "quantifier": "all finite bars, windows", "why_tests_cant": "every row", "anchors": ["ta/momentum.py:AwesomeOscillatorIndicator"]}
{"id": "C32", "title": "Aroon range and meaning", "statement": "With fillna=False aroon_up = 100*(window - d)/window where d is the number of rows since the (earliest) maximum of the last window+1 highs, hence in [0,100]; likewise aroon_down with lows; aroon_indicator is their difference and lies in [-100,100].", "quantifier": "all finite bars, windows", "why_tests_cant": "universal", "anchors": ["ta/trend.py:AroonIndicator"]}
{"id": "C33", "title": "CCI formula and bound", "statement": "cci = (tp - SMA(tp)) / (constant * mean absolute deviation); |cci| <= window/(2*constant) wherever defined.", "quantifier": "all finite bars, windows, constants > 0", "why_tests_cant": "bound holds for all data by an inequality no test can establish", "anchors": ["ta/trend.py:CCIIndicator"]}
{"id": "C34", "title": "ADX and directional indicators range", "statement": "For sane bars adx, adx_pos and adx_neg are in [0,100] and adx_pos + adx_neg <= 100 on every row.", "quantifier": "all sane bars, windows, lengths", "why_tests_cant": "universal", "anchors": ["ta/trend.py:ADXIndicator"]}
{"id": "C35", "title": "ADX smoothing formula", "statement": "+DI/-DI at row i > window are 100*S(+DM)/S(TR), 100*S(-DM)/S(TR) with Wilder sums S started with the first window rows after row 0; rows 0..window are 0; adx at row i>=2*window is (adx[i-1]*(window-1)+DX[i])/window, seeded at row 2*window-1 by the mean of the first window DX values.", "quantifier": "all finite bars, windows, lengths", "why_tests_cant": "index arithmetic between three differently offset arrays must hold for all lengths", "anchors": ["ta/trend.py:ADXIndicator"]}
{"id": "C36", "title": "Vortex formula and sign", "statement": "vortex +/-VI are ratios of window sums of |high - prev low| (|low - prev high|) and true range, and are >= 0.", "quantifier": "all finite bars, windows", "why_tests_cant": "universal", "anchors": ["ta/trend.py:VortexIndicator"]}
{"id": "C37", "title": "PSAR: exactly one of up/down per row", "statement": "For rows >= 2 exactly one of psar_up and psar_down (fillna=False) is a number and it equals psar; rows 0 and 1 are NaN in both.", "quantifier": "all finite bars, step, max_step", "why_tests_cant": "trend state machine over all histories", "anchors": ["ta/trend.py:PSARIndicator"]}
{"id": "C38", "title": "PSAR: stop is on the right side of the bar", "statement": "On every row that continues an up trend psar_up <= low of that row and low two rows back; on every row that continues a down trend psar_down >= high of that row and high two rows back.", "quantifier": "all finite bars, all histories", "why_tests_cant": "invariant of a state machine over all histories", "anchors": ["ta/trend.py:PSARIndicator"]}
{"id": "C39", "title": "PSAR: stop can be inside the bar on reversal rows", "statement": "The stronger claim 'psar_up <= low on every up-trend row' is false on reversal rows, and 'psar_up <= low[i-1]' is false because the second clamp is skipped when the first applies.", "quantifier": "exists data (refutation)", "why_tests_cant": "rare path", "anchors": ["ta/trend.py:PSARIndicator"]}
{"id": "C40", "title": "PSAR acceleration factor bounds", "statement": "If 0 <= step <= max_step <= 1, each continuing-trend PSAR value is a clamped convex combination of the previous PSAR and the extreme price, so all PSAR values stay within the range of prices (highs, lows, closes) seen so far.", "quantifier": "all finite bars, steps", "why_tests_cant": "invariant over all histories", "anchors": ["ta/trend.py:PSARIndicator"]}
{"id": "C41", "title": "PSAR reversal indicators", "statement": "psar_down_indicator is 1 exactly on rows where psar_down is a number and the previous row's is not; psar_up_indicator likewise provided the PSAR value is not exactly 0; otherwise both are 0; they are never both 1.", "quantifier": "all bars", "why_tests_cant": "all histories", "anchors": ["ta/trend.py:PSARIndicator.psar_up_indicator", "ta/trend.py:PSARIndicator.psar_down_indicator"]}
{"id": "C42", "title": "PSAR up indicator misses a reversal at price 0", "statement": "When the PSAR value on the first row of an up trend is exactly 0, psar_up_indicator returns 0 there.", "quantifier": "exists data (refutation)", "why_tests_cant": "prices of exactly 0 are not in the test data", "anchors": ["ta/trend.py:PSARIndicator.psar_up_indicator"]}
{"id": "C43", "title": "Ichimoku lines", "statement": "conversion/base line = (highest high + lowest low)/2 over window1/window2; span A = average of both; span B = the same over window3; each lies between the lowest low and the highest high of the rows involved.", "quantifier": "all finite sane bars, windows", "why_tests_cant": "universal", "anchors": ["ta/trend.py:IchimokuIndicator"]}
{"id": "C44", "title": "DPO, KST, TRIX, mass index, STC formulas and neutral values", "statement": "Formulas as documented; on a constant positive close series (constant positive amplitude for mass index) DPO, KST and TRIX are 0 wherever defined and mass index equals window_slow (the number of summed rows); stc is in [0,100].", "quantifier": "all finite series, windows", "why_tests_cant": "universal", "anchors": ["ta/trend.py:DPOIndicator", "ta/trend.py:KSTIndicator", "ta/trend.py:TRIXIndicator", "ta/trend.py:MassIndex", "ta/trend.py:STCIndicator"]}
{"id": "C45", "title": "True range and ATR", "statement": "true range = max(high-low, |high-prev close|, |low-prev close|) (high-low on the first row); ATR rows 0..window-2 are 0, row window-1 is the mean of the first window true ranges, then (prev*(window-1)+TR)/window; ATR >= 0 and <= the largest true range so far. A window of 0 shows only missing rows. A window of -k with k < number of rows averages all rows but the last k, recurs over the last k rows and then on from the first row, so every row depends on the whole column and may be negative; with at most k rows it raises.", "quantifier": "all finite sane bars, windows, lengths", "why_tests_cant": "recursion over all lengths", "anchors": ["ta/utils.py:_true_range", "ta/volatility.py:AverageTrueRange"]}
{"id": "C46", "title": "Bollinger ordering and formula", "statement": "bollinger_mavg/hband/lband = mean +/- window_dev * population standard deviation of the last window closes; lband <= mavg <= hband for window_dev >= 0; wband = 100*(hband-lband)/mavg; pband = (close-lband)/(hband-lband), NaN when bands coincide.", "quantifier": "all finite series, windows, window_dev", "why_tests_cant": "universal", "anchors": ["ta/volatility.py:BollingerBands"]}
{"id": "C47", "title": "Bollinger indicators", "statement": "bollinger_hband_indicator is 1 exactly when close > hband and 0 otherwise (also in the warm-up), lband_indicator exactly when close < lband; where pband is defined hband_indicator = 1 iff pband > 1 and lband_indicator = 1 iff pband < 0.", "quantifier": "all finite series, windows, window_dev", "why_tests_cant": "universal", "anchors": ["ta/volatility.py:BollingerBands"]}
{"id": "C48", "title": "Bollinger indicators cannot fire for wide bands", "statement": "If window_dev^2 >= window - 1 then neither bollinger_hband_indicator nor bollinger_lband_indicator is ever 1 (Samuelson's inequality).", "quantifier": "all finite series, windows, window_dev with window_dev >= 0 and window_dev^2 >= window-1", "why_tests_cant": "an inequality over all data", "anchors": ["ta/volatility.py:BollingerBands"]}
{"id": "C49", "title": "Keltner channel", "statement": "Original version: hband = mband + SMA(high-low), lband = mband - SMA(high-low), hence lband <= mband <= hband for high >= low; EMA version: mband +/- multiplier*ATR; indicators are 1 iff close is beyond the band.", "quantifier": "all finite sane bars, windows", "why_tests_cant": "universal", "anchors": ["ta/volatility.py:KeltnerChannel"]}
{"id": "C50", "title": "Donchian channel", "statement": "hband is the maximum high and lband the minimum low of the last window rows (attained and bounding), mband is their midpoint, lband <= close <= hband and pband in [0,1] for sane bars; with offset k >= 0 row i shows row i-k.", "quantifier": "all finite sane bars, windows, offsets", "why_tests_cant": "universal", "anchors": ["ta/volatility.py:DonchianChannel"]}
{"id": "C51", "title": "Donchian function defaults are inconsistent", "statement": "Calling donchian_channel_hband/lband and donchian_channel_mband/pband as functions with default arguments uses window 20 for the former and 10 for the latter, so mband is not the midpoint of the default bands.", "quantifier": "exists data (refutation)", "why_tests_cant": "tests always pass the window", "anchors": ["ta/volatility.py:donchian_channel_mband", "ta/volatility.py:donchian_channel_hband"]}
{"id": "C52", "title": "Ulcer index", "statement": "ulcer_index = sqrt(mean of squared percentage drawdowns from the rolling maximum) over the window; >= 0; <= 100 for positive prices; 0 when prices never fall.", "quantifier": "all positive finite series, windows", "why_tests_cant": "universal", "anchors": ["ta/volatility.py:UlcerIndex"]}
{"id": "C53", "title": "OBV and ADI accumulation", "statement": "obv[i]-obv[i-1] is -volume[i] if close fell and +volume[i] otherwise (including unchanged close and row 0); |adi[i]-adi[i-1]| <= volume[i] for sane bars, with multiplier ((c-l)-(h-c))/(h-l), 0 when h = l.", "quantifier": "all finite bars", "why_tests_cant": "cumulative over all lengths", "anchors": ["ta/volume.py:OnBalanceVolumeIndicator", "ta/volume.py:AccDistIndexIndicator"]}
{"id": "C54", "title": "CMF range", "statement": "chaikin_money_flow is in [-1,1] wherever it is a number, for sane bars with non-negative volume.", "quantifier": "all sane bars, windows, flags", "why_tests_cant": "universal", "anchors": ["ta/volume.py:ChaikinMoneyFlowIndicator"]}
{"id": "C55", "title": "MFI range", "statement": "money_flow_index is in [0,100] wherever it is a number, for any data at all.", "quantifier": "all data over the extended reals, windows, flags", "why_tests_cant": "universal", "anchors": ["ta/volume.py:MFIIndicator"]}
{"id": "C56", "title": "VWAP range", "statement": "volume_weighted_average_price = sum(tp*volume)/sum(volume) over the window and lies between the lowest low and highest high of the window for sane bars and non-negative volume.", "quantifier": "all sane bars, windows, flags", "why_tests_cant": "universal", "anchors": ["ta/volume.py:VolumeWeightedAveragePrice"]}
{"id": "C57", "title": "NVI recursion", "statement": "negative_volume_index starts at 1000, is multiplied by close[i]/close[i-1] exactly when volume fell and is unchanged otherwise; positive for positive prices; equals 1000 times the product of close ratios over volume-decreasing rows.", "quantifier": "all positive finite closes, volumes, lengths", "why_tests_cant": "product over all histories", "anchors": ["ta/volume.py:NegativeVolumeIndexIndicator"]}
{"id": "C58", "title": "Force index, ease of movement, volume-price trend formulas", "statement": "force_index = EMA((close change)*volume); ease_of_movement = (high change + low change)*(high-low)/(2*volume)*1e8 and its SMA; volume_price_trend = cumulative sum of volume*(relative close change), optionally SMA-smoothed and with NaN rows dropped.", "quantifier": "all finite data, windows", "why_tests_cant": "universal", "anchors": ["ta/volume.py:ForceIndexIndicator", "ta/volume.py:EaseOfMovementIndicator", "ta/volume.py:VolumePriceTrendIndicator"]}
{"id": "C59", "title": "PSAR depends on index labels", "statement": "PSAR results should not depend on the row labels. True for a default 0..n-1 index and for non-integer indexes; false for other integer indexes (for example after utils.dropna removed rows), where psar() can even return more rows than the input.", "quantifier": "all data and labels (positive part); exists data and labels (refutation)", "why_tests_cant": "tests always use a default index", "anchors": ["ta/trend.py:PSARIndicator._run"]}
{"id": "C60", "title": "Unit invariance (price scaling)", "statement": "Multiplying all prices by the same positive factor leaves RSI, stoch, Williams %R, StochRSI, TSI, UO, CCI, Aroon, ROC, PPO, daily/cumulative return, KST, TRIX, mass index, vortex, ADX family, MFI, CMF, stc, pband/wband, ulcer index unchanged and multiplies SMA, EMA, WMA, MACD, bands, ATR, DPO, AO, KAMA, PSAR, VWAP, Ichimoku by the factor.", "quantifier": "all data over the extended reals, factors > 0, windows, flags", "why_tests_cant": "relation between two runs for all factors", "anchors": ["ta/momentum.py:RSIIndicator", "ta/trend.py:MACD", "ta/volatility.py:BollingerBands", "ta/trend.py:PSARIndicator"]}
{"id": "C61", "title": "Translation invariance", "statement": "Adding a constant to all prices leaves RSI, stoch, Williams %R, StochRSI, TSI, UO, CCI, Aroon, ATR, MACD, DPO, AO, vortex and the ADX family unchanged and shifts SMA, EMA, WMA, bands, Donchian, Keltner, Ichimoku and PSAR by the constant.", "quantifier": "all finite data, constants, windows", "why_tests_cant": "relation between two runs", "anchors": ["ta/momentum.py:RSIIndicator", "ta/trend.py:MACD", "ta/volatility.py:AverageTrueRange"]}
{"id": "C62", "title": "dropna", "statement": "utils.dropna returns exactly the rows, in order and unchanged, with no missing cell and whose numeric cells are all non-zero and < exp(709); it is idempotent; -inf survives.", "quantifier": "all frames", "why_tests_cant": "universal", "anchors": ["ta/utils.py:dropna"]}
{"id": "C63", "title": "Wrapper columns", "statement": "add_all_ta_features appends exactly the documented columns (86 with vectorized=False, 68 with True), each prefixed, in order, keeps every existing column whose name is not one of them, and each column equals the indicator computed on the original columns.", "quantifier": "all frames, column names, prefixes, flags", "why_tests_cant": "for all frames and prefixes", "anchors": ["ta/wrapper.py:add_all_ta_features"]}
{"id": "C64", "title": "Wrapper idempotence and vectorized subset", "statement": "Running add_all_ta_features again with the same arguments leaves the frame unchanged; vectorized=True computes the same values for the columns it adds.", "quantifier": "all frames", "why_tests_cant": "relation between runs", "anchors": ["ta/wrapper.py:add_all_ta_features"]}
{"id": "C65", "title": "Wrapper failure leaves a partially extended frame", "statement": "add_all_ta_features raises for fewer than 28 rows (vectorized=False) and when it does the frame already contains the columns computed before the failure; it never raises for vectorized=True on a non-empty frame with the named columns.", "quantifier": "all frames", "why_tests_cant": "crash point behaviour for all lengths", "anchors": ["ta/wrapper.py:add_all_ta_features", "ta/trend.py:ADXIndicator.adx", "ta/volatility.py:AverageTrueRange._run"]}
{"id": "C66", "title": "Bounds fail under binary64 rounding", "statement": "The exact-arithmetic bounds need not hold bit-for-bit in binary64: there are finite bars with low <= close <= high for which 100*(close-LL)/(HH-LL) exceeds 100 by rounding.", "quantifier": "exists data (refutation in IEEE arithmetic)", "why_tests_cant": "needs adversarial values", "anchors": ["ta/momentum.py:StochasticOscillator"]}
{"id": "C67", "title": "MFI formula", "statement": "money_flow_index = 100 - 100/(1 + P/N) where P and N sum, over the last window rows, typical price * volume of the rows whose typical price rose, respectively fell; 100 when only N is 0 and NaN (50 with fillna=True) when both are 0; a row with unchanged typical price, and row 0, counts for neither.", "quantifier": "all finite bars, windows >= 1, lengths, both flags", "why_tests_cant": "Tests compare one CSV; ties of the typical price, empty sums and the first rows do not occur there.", "anchors": ["ta/volume.py:MFIIndicator"]}
{"id": "C68", "title": "PSAR recursion", "statement": "psar starts as an up trend at the close of row 1 with acceleration factor step; on each later row the stop moves towards the extreme price of the trend by the acceleration factor; if the bar crosses the stop the trend reverses, the stop becomes the extreme price and the factor restarts at step; otherwise a new extreme raises the factor by step up to max_step, and the stop is pulled back to the low two rows before, or else to the low of the row before (highs in a down trend). psar_up and psar_down show the stop on the rows of their trend.", "quantifier": "all finite high/low/close series of any length, all steps", "why_tests_cant": "an unbounded recursion with four branches per row; the tests check one fixed file", "anchors": ["ta/trend.py:PSARIndicator._run", "ta/trend.py:PSARIndicator.psar"]}
{"id": "C69", "title": "Module-level functions and classes share defaults", "statement": "Calling a module-level function with any subset of its optional arguments left out computes the same series as its class with the same arguments left out; the only exceptions are ema_indicator (12 instead of 14), sma_indicator (12 instead of a required argument) and donchian_channel_mband/wband/pband (10 instead of 20) called without a window.", "quantifier": "all 80 module-level functions, all argument values, all subsets of omitted arguments", "why_tests_cant": "tests call either the function or the class with explicit windows; the agreement ranges over every function and every subset of omitted arguments", "anchors": ["ta/trend.py:ema_indicator", "ta/trend.py:sma_indicator", "ta/volatility.py:donchian_channel_mband", "ta/trend.py:macd", "ta/trend.py:ichimoku_b"]}
{"id": "C70", "title": "Parameters without influence", "statement": "The MACD, PPO and PVO lines do not depend on the (valid) signal window, KST not on nsig, the Ichimoku conversion/base lines not on window3 or visual, span A not on window3, span B not on (non-negative) window1, the Bollinger middle band not on window_dev, the original Keltner channel not on window_atr or multiplier, the Keltner middle line not on multiplier, stoch and StochRSI not on their smoothing windows; so the functions that do not expose these parameters lose nothing.", "quantifier": "all series, all windows, all parameter values, both fillna settings", "why_tests_cant": "relation between calls with all pairs of parameter values", "anchors": ["ta/trend.py:macd", "ta/trend.py:kst", "ta/trend.py:ichimoku_a", "ta/volatility.py:bollinger_mavg", "ta/volatility.py:KeltnerChannel"]}
{"id": "C71", "title": "The mirrored market shows mirrored indicators", "statement": "Negating every price (and swapping the high and low columns) turns each tabulated series into its mirror image: moving averages, MACD, CCI, TSI, Kama, Ichimoku, DPO, ADI, CMF, force index, ease of movement and VWAP change sign; Aroon up/down, +DI/-DI, VI+/VI- and the upper/lower Bollinger, Keltner and Donchian bands trade places; ATR, ADX, mass index and MFI stay; stochastics, Williams %R, STC and the %-bands x become k - x; RSI becomes 100 - RSI except on rows without any price change so far, which show 100 on both markets; the ultimate oscillator becomes 100 - UO. PSAR always starts in an up trend, so it mirrors (psar changes sign, psar_up and psar_down trade places) only from the second common reversal on.", "quantifier": "all frames over exact extended reals (missing and infinite cells included; for RSI no infinite close; for UO finite bars with low <= close <= high), all windows and parameters, fillna on and off where the fill constant is symmetric", "why_tests_cant": "up/down asymmetries (a swapped high/low, a strict versus non-strict comparison, a wrong sign in one branch) show only on particular data; a test file fixes one data set and compares with stored numbers", "anchors": ["ta/momentum.py", "ta/trend.py", "ta/volatility.py", "ta/volume.py", "ta/utils.py:IndicatorMixin._true_range", "ta/utils.py:_get_min_max"]}
{"id": "C72", "title": "Series names identify the series", "statement": "Two public series with equal names come from the same class and method and have equal values of the windows spelled out in the name (e.g. MACD_12_26). This fails exactly for keltner_channel_mband, keltner_channel_wband and keltner_channel_pband, which carry the names mavg, bbiwband and bbipband of the Bollinger series, so putting both in one frame by name overwrites one of them.", "quantifier": "all pairs of public series with all integer windows", "why_tests_cant": "the unit tests compare with check_names=False or never put two indicators side by side; a collision is a fact about all pairs", "anchors": ["ta/volatility.py:KeltnerChannel", "ta/volatility.py:BollingerBands", "ta/trend.py:MACD", "ta/momentum.py:PercentagePriceOscillator"]}
{"id": "C73", "title": "How far back each series looks", "statement": "For every series built from rolling windows and shifts (SMA, WMA, Bollinger, original-version Keltner, Donchian, Ichimoku, stochastics, Williams %R, ROC, Awesome, Ultimate, Aroon, CCI, KST, DPO, Vortex, Ulcer, CMF, VWAP, EOM, MFI, returns) a row depends on itself and a stated number m of preceding rows only: cutting off the start of the frame leaves every row from the m-th on unchanged, so that m warm-up rows suffice when indicators are recomputed on a tail of the data. The stated m is the least possible. The EMA has no such m: one row of the past shows in every later row. In float64 this holds for the series that compute each window anew (WMA, Donchian bands, middle and %b, Ichimoku, Aroon, stochastic, Williams %R, ROC, EOM, returns); SMA, VWAP, CMF, Bollinger remember rows that have left the window. Nor do later rows matter (except for a negative ROC window or Donchian offset): any section cut out of a frame shows the same values once the window lies inside the section, KST, DPO, Ichimoku visual and Vortex included.", "quantifier": "all frames, all pasts prepended to them, all windows (non-negative lags for KST), fillna=False; exact reals, any arithmetic for the series that compute each window anew, float64 counterexamples for running sums", "why_tests_cant": "an off-by-one in a window or lag moves the warm-up by one row and shows only when one compares a full history with every possible tail", "anchors": ["ta/momentum.py", "ta/trend.py", "ta/volatility.py", "ta/volume.py", "ta/others.py", "ta/utils.py:_sma", "ta/utils.py:_get_min_max"]}
{"id": "C74", "title": "Exponential averages forget the past geometrically", "statement": "If two histories have closes that differ by at most D on the first k rows and agree afterwards, then row i >= k of the two EMAs differs by at most (1-2/(w+1))^(i+1-k) D, that of the MACD lines by the sum of the two such bounds, and that of the ATRs (highs, lows and closes within D) by at most (1-1/w)^(i-max(k,w-1)) 2D.", "quantifier": "all pairs of finite frames over exact reals, all positive windows, fillna on and off", "why_tests_cant": "a bound on the influence of all possible pasts; a test compares one stored past", "anchors": ["ta/utils.py:_ema", "ta/trend.py:EMAIndicator", "ta/trend.py:MACD", "ta/volatility.py:AverageTrueRange"]}
{"id": "C75", "title": "StochRSI formula", "statement": "StochRSI at row i is (RSI_i - lowest RSI of the last w rows) / (highest - lowest RSI of the last w rows), with RSI the Wilder RSI of the same window; the k line is the mean of the last s1 StochRSI values and the d line the mean of the last s2 k values. A window on which the RSI is flat has no value, and neither has any average over such a row; with fillna=True missing rows become 0.", "quantifier": "all finite frames over exact reals, all positive windows, fillna on and off", "why_tests_cant": "the tests compare one stored series, on which no RSI window is flat", "anchors": ["ta/momentum.py:StochRSIIndicator"]}
{"id": "C76", "title": "fillna=True leaves no missing cell", "statement": "After add_all_ta_features(fillna=True) on finite prices and volumes with a non-zero first close, every cell of every added column is a finite number, except in trend_psar_up and trend_psar_down: each of these is either completely filled or, when the market never shows an up (down) trend, left completely empty. A steadily falling market of thirty rows shows the second case.", "quantifier": "all finite frames over exact reals, any prefix and column names that do not clash; the all-or-none clause for every arithmetic", "why_tests_cant": "the tests only check that the stored data set has no NaN left", "anchors": ["ta/wrapper.py:add_all_ta_features", "ta/trend.py:PSARIndicator", "ta/utils.py:IndicatorMixin._check_fillna"]}
{"id": "C77", "title": "Linear series superpose", "statement": "For SMA, EMA, WMA, MACD (line, signal, histogram), Awesome oscillator, DPO, the Bollinger middle band and all three bands of the original-version Keltner channel, the series of the combined market a*X + b*Y is a times the series of X plus b times the series of Y, missing rows included; so the average of a spread or weighted basket is the spread or basket of averages.", "quantifier": "all pairs of finite frames of equal length over exact reals, all real weights a and b (negative ones too), all positive windows, fillna on and off", "why_tests_cant": "a relation between three runs for all weights", "anchors": ["ta/trend.py:SMAIndicator", "ta/trend.py:EMAIndicator", "ta/trend.py:WMAIndicator", "ta/trend.py:MACD", "ta/trend.py:DPOIndicator", "ta/momentum.py:AwesomeOscillatorIndicator", "ta/volatility.py:KeltnerChannel"]}
{"id": "C78", "title": "Raising prices lowers no moving average", "statement": "If every high, low and close of one market is at most that of another, then no row of its SMA, EMA, WMA, Bollinger middle band, original Keltner middle band, Donchian upper/lower/middle band (offset 0) or Ichimoku conversion/base/span A/span B line exceeds that of the other, and the missing rows are the same. The original Keltner upper band is not of this kind: raising the lows can lower it.", "quantifier": "all pairs of ordered finite frames of equal length over exact reals, all positive windows, fillna on and off", "why_tests_cant": "a relation between two runs for all pairs of markets", "anchors": ["ta/trend.py:SMAIndicator", "ta/trend.py:EMAIndicator", "ta/trend.py:WMAIndicator", "ta/trend.py:IchimokuIndicator", "ta/volatility.py:DonchianChannel", "ta/volatility.py:KeltnerChannel"]}
{"id": "C79", "title": "Bounded oscillators stay in range in binary64", "statement": "In float64 as executed, with rounding, overflow and signed zeros, every row is missing or: RSI, MFI, Aroon up/down and ADX lie in [0,100], StochRSI in [0,1], the Aroon indicator in [-100,100], +DI, -DI and the Ulcer index are at least 0, and ATR is at least 0 when no high is below its low.", "quantifier": "all frames of float64 rows, NaN, infinite and huge cells included, all windows with 100*w <= 2^53, fillna on and off", "why_tests_cant": "rounding errors on all possible floats; an exact-arithmetic proof does not cover them either", "anchors": ["ta/momentum.py:RSIIndicator", "ta/momentum.py:StochRSIIndicator", "ta/volume.py:MFIIndicator", "ta/trend.py:AroonIndicator", "ta/trend.py:ADXIndicator", "ta/volatility.py:UlcerIndex", "ta/volatility.py:AverageTrueRange"]}
{"id": "C80", "title": "Bands stay ordered in binary64", "statement": "In float64 as executed (no filling), the lower band is never above the middle band and the middle never above the upper: Bollinger (non-negative deviation factor, any data) and Keltner with original_version=False (non-negative multiplier, low <= high). For Donchian on complete rows with 0 <= low <= close <= high the same holds for every window, offset and fill mode, and its percent band is in [0,1] or missing.", "quantifier": "all frames of float64 rows as stated, all windows, offsets and factors", "why_tests_cant": "rounding could invert bands that are ordered in exact arithmetic; all floats", "anchors": ["ta/volatility.py:BollingerBands", "ta/volatility.py:KeltnerChannel", "ta/volatility.py:DonchianChannel"]}
{"id": "C81", "title": "Stochastic and Williams %R exceed their range by at most one rounding", "statement": "In float64, on complete rows with low <= close <= high not beyond 2^1000, the stochastic %K is missing or between 0 and the float next above 100, and Williams %R is missing or between minus that float and 0. The bound is attained. Beyond 2^1000 the product with 100 can overflow to infinity.", "quantifier": "all such float64 frames, all windows, fillna on and off", "why_tests_cant": "worst case over all floats", "anchors": ["ta/momentum.py:StochasticOscillator", "ta/momentum.py:WilliamsRIndicator"]}
{"id": "C82", "title": "Returns never fall below -100 percent in binary64", "statement": "In float64, with closes that are positive or missing, the daily return, cumulative return and rate of change are missing or at least -100, and the negative volume index is missing or at least 0. With closes that are non-negative or missing, the EMA is missing or at least 0.", "quantifier": "all such float64 frames, any volumes, any ROC window, EMA windows with 100*w <= 2^53, fillna on and off", "why_tests_cant": "rounding on all floats, overflow and underflow included", "anchors": ["ta/others.py:DailyReturnIndicator", "ta/others.py:CumulativeReturnIndicator", "ta/momentum.py:ROCIndicator", "ta/volume.py:NegativeVolumeIndexIndicator", "ta/trend.py:EMAIndicator"]}
{"id": "C83", "title": "Rounding errors of EMA and MACD do not accumulate", "statement": "In float64, on closes that are finite with size at most M (2^-900 <= M <= 2^990), the EMA of span w is missing exactly on the warm-up rows and elsewhere within (w+1)*2^-50*M of the exact exponential average, however many rows precede. The MACD line is within (fast+slow+3)*2^-50*M, its signal within (fast+slow+3*sign+6)*2^-50*M and its histogram within (2*(fast+slow)+3*sign+10)*2^-50*M of the exact values.", "quantifier": "all such float64 frames of any length, spans w with 100*w <= 2^53, fillna on and off", "why_tests_cant": "worst case of rounding over histories of unbounded length", "anchors": ["ta/utils.py:_ema", "ta/trend.py:EMAIndicator", "ta/trend.py:MACD"]}
{"id": "C84", "title": "Series that float64 computes without rounding error", "statement": "The Donchian upper and lower bands in float64 are exactly the real-number ones for any data (missing and infinite cells included), errors raised included. On-balance volume is exact when the volumes are missing or multiples of a power of two totalling at most 2^53 of it, for any closes. The SMA of closes that are missing, infinite or multiples k*2^e with |k| <= N and window*N <= 2^53 is the exact mean rounded once. On such data every order of additions gives the same number.", "quantifier": "all float64 frames as stated, all windows, offsets, exponents -1074 <= e <= 900, fillna on and off", "why_tests_cant": "equality with real arithmetic on all floats", "anchors": ["ta/volatility.py:DonchianChannel", "ta/volume.py:OnBalanceVolumeIndicator", "ta/utils.py:_sma", "ta/trend.py:SMAIndicator"]}
{"id": "C85", "title": "An unchanging market in float64", "statement": "When every price is missing or equal to the same finite non-zero float p, then in float64 the EMA and the Donchian lines are missing or exactly p; MACD, PPO (line, signal, histogram), ROC, daily and cumulative return, ATR, force index, ease of movement and volume-price trend are missing or exactly 0; RSI is missing or exactly 100; NVI is exactly 1000 or missing.", "quantifier": "all p, all volumes, all windows for which the call returns, fillna on and off", "why_tests_cant": "exactness for every float p and every window", "anchors": ["ta/trend.py:EMAIndicator", "ta/trend.py:MACD", "ta/momentum.py:PercentagePriceOscillator", "ta/momentum.py:RSIIndicator", "ta/volatility.py:AverageTrueRange", "ta/volatility.py:DonchianChannel", "ta/volume.py:NegativeVolumeIndexIndicator", "ta/volume.py:VolumePriceTrendIndicator"]}
{"id": "C86", "title": "What one bad row does to the rows after it", "statement": "A series that looks back m rows is, m rows after the last bad row, exactly what it would have been with good rows in their place. The recursive series do not recover. KAMA is missing for ever after one missing close; ATR after one row without high and low; ADX, +DI and -DI after one missing high or low or previous close; PSAR and both its sides when the first high is missing; NVI once it is missing. With fillna=True these series repeat the last value before the gap for ever. OBV takes a missing close for a rise, on its row and the next. After one zero close volume-price trend is never a finite number again, and NVI is 0 or missing for ever if the volume fell that day.", "quantifier": "all frames, all positions of the bad row after the warm-up, all windows; every arithmetic (zero prices, and recovery of series with running sums: exact arithmetic)", "why_tests_cant": "claims about every later row of every frame", "anchors": ["ta/momentum.py:KAMAIndicator", "ta/volatility.py:AverageTrueRange", "ta/trend.py:ADXIndicator", "ta/trend.py:PSARIndicator", "ta/volume.py:NegativeVolumeIndexIndicator", "ta/volume.py:OnBalanceVolumeIndicator", "ta/volume.py:VolumePriceTrendIndicator"]}
{"id": "C87", "title": "Errors in the prices are not amplified", "statement": "If every high, low and close is wrong by at most e, then on every row SMA, EMA, WMA, Bollinger middle, Keltner middle, Donchian lines, Ichimoku lines and VWAP (same volumes) are wrong by at most e; MACD, its signal, DPO, awesome oscillator and ATR by at most 2e; the MACD histogram by 4e; the original Keltner bands by 7e/3; the Bollinger bands by (1+|dev|)e; the ATR-based Keltner bands by (1+2|mult|)e. The same rows are missing. The Parabolic SAR has no such bound: arbitrarily small errors can move the stop across the bar.", "quantifier": "all pairs of frames of finite prices of any length, all windows >= 1, fillna on and off, exact arithmetic", "why_tests_cant": "worst case over all data and histories", "anchors": ["ta/trend.py:SMAIndicator", "ta/trend.py:EMAIndicator", "ta/trend.py:WMAIndicator", "ta/trend.py:MACD", "ta/volatility.py:BollingerBands", "ta/volatility.py:KeltnerChannel", "ta/volatility.py:DonchianChannel", "ta/volatility.py:AverageTrueRange", "ta/trend.py:PSARIndicator", "ta/volume.py:VolumeWeightedAveragePrice"]}
{"id": "C88", "title": "PSAR as a trailing stop in float64", "statement": "In float64, with rounding: on every row that continues an up trend the low of that row and the low two rows back are not below psar_up (highs and psar_down in a down trend), for any data and steps. On the row that ends a trend the stop is exactly the highest high (lowest low) of that trend's rows, where the opening trend counts row 0 and skips row 1. With 0 <= step <= max_step <= 1/2 every psar value is a number inside any interval that contains the prices up to its row. While a trend lasts the stop moves back only onto the low (high) of one of the two rows before; that it never moves back is false.", "quantifier": "all float64 bars (missing and infinite cells included for the first claim, prices up to 2^1000 in size for the range and fall-back claims), all histories, all steps (at most 1/2 for the range and fall-back claims)", "why_tests_cant": "invariants of a state machine with rounding over all histories; one test file exercises a few trends", "anchors": ["ta/trend.py:PSARIndicator._run", "ta/trend.py:PSARIndicator.psar_up", "ta/trend.py:PSARIndicator.psar_down"]}
{"id": "C89", "title": "What the series show when the price stops moving", "statement": "Let any history be followed by rows whose high, low and close all equal p > 0 with positive volume. As soon as the unchanged rows cover the rows a series looks at (C73), fillna=False: moving averages, Bollinger, Donchian, Ichimoku, original Keltner lines and VWAP show exactly p; ROC, returns, KST, DPO, the awesome oscillator, widths, band signals, CMF, EOM, the ulcer index and all Aroon lines show 0; stochastic, Williams %R, ultimate oscillator, CCI, MFI, vortex and the percentage bands are missing (0/0). RSI and +DI/-DI do not settle at a neutral value: a row that repeats the previous close repeats them exactly (window at least 2). In float64 that fails: on a long unchanged stretch RSI jumps from 50 to 100 (window 2) or drifts from 65 to 50 (window 14) when its averages become subnormal.", "quantifier": "all histories (missing and infinite cells included), all lengths of the stretch, all windows, over exact reals; the float64 part by a computed witness", "why_tests_cant": "the test data always moves; the claim is about every history", "anchors": ["ta/momentum.py:RSIIndicator", "ta/trend.py:ADXIndicator", "ta/trend.py:AroonIndicator", "ta/volatility.py:BollingerBands", "ta/volatility.py:DonchianChannel", "ta/volume.py:MFIIndicator"]}
{"id": "C90", "title": "Derived series can be rebuilt from the published base series", "statement": "With fillna=False and for the same rows: MACD/PPO/PVO histogram, KST difference, Aroon indicator and vortex difference equal the first published line minus the second, row by row. Stochastic, StochRSI %K and %D, MACD, PPO, PVO, smoothed EOM and smoothed VPT signal lines equal the published SMA or EMA applied to the published line; the KST signal equals the SMA computed with fillna=True. StochRSI is the Donchian percentage band of the RSI series. Bollinger and Keltner width, position (where the lines differ) and break-out signals, and Donchian middle, width and position, follow from the published lines and the close; the middle lines are the published SMA or EMA, and the new-formula Keltner lines are EMA plus and minus multiplier times ATR. The Ichimoku base line is the conversion line of the other window and span A half their sum; the awesome oscillator is a difference of SMAs of the median price; PVO is PPO of the volume. These hold bit for bit. In exact arithmetic the conversion line is also the Donchian middle, %K is 100 times the Donchian position and constant-volume VWAP is the SMA of the typical price; in float64 the first two of these, Williams %R = %K - 100 and ROC(1) = daily return fail by rounding.", "quantifier": "all rows (missing and infinite cells included), all parameters, any arithmetic; the last group over exact reals with computed float64 counterexamples", "why_tests_cant": "each indicator is tested on its own against one stored column; no test relates two classes", "anchors": ["ta/trend.py:MACD", "ta/trend.py:KSTIndicator", "ta/trend.py:IchimokuIndicator", "ta/momentum.py:StochRSIIndicator", "ta/momentum.py:PercentageVolumeOscillator", "ta/momentum.py:AwesomeOscillatorIndicator", "ta/volatility.py:BollingerBands", "ta/volatility.py:KeltnerChannel", "ta/volatility.py:DonchianChannel", "ta/volume.py:VolumeWeightedAveragePrice"]}
{"id": "C91", "title": "What the series show in a steady trend", "statement": "After any history let the close move by a constant b per row, with the high u above and the low d below it. As soon as the trend covers the rows a series looks at, fillna=False: SMA, Bollinger, Donchian, Ichimoku and original Keltner middle lines lag (w-1)/2 rows behind (WMA (w-1)/3); Bollinger bands stand k*|b|*sqrt((w^2-1)/12) from the middle, so the break-out indicator fires on every row when k^2(w+1) < 3(w-1) and otherwise never (never with the defaults 20 and 2); stochastic, Williams %R, ultimate oscillator, CCI, vortex, CMF, DPO and awesome oscillator stand at the stated constants; Aroon and MFI at 100 or 0. The EMA's distance from the lag (w-1)/2 shrinks by (w-1)/(w+1) per row.", "quantifier": "all histories, all slopes and bar shapes, all windows, over exact reals", "why_tests_cant": "the lag of an average and the constants are statements about every slope, window and history", "anchors": ["ta/trend.py:SMAIndicator", "ta/trend.py:WMAIndicator", "ta/trend.py:EMAIndicator", "ta/trend.py:CCIIndicator", "ta/trend.py:AroonIndicator", "ta/volatility.py:BollingerBands", "ta/volatility.py:DonchianChannel", "ta/momentum.py:StochasticOscillator", "ta/volume.py:MFIIndicator"]}
{"id": "C92", "title": "What the series show while the market never turns", "statement": "While the close (for the awesome oscillator and the ease of movement high+low, for CCI the typical price) never falls, every number of MACD, its signal, PPO, its signal, TSI, ROC, TRIX, CCI, awesome oscillator, force index, volume price trend, ease of movement, its average, daily and cumulative return is >= 0; while it never rises, <= 0 (positive prices where the series divides by them, slow window not shorter than the fast one). SMA, EMA, WMA, KAMA and the Bollinger middle line stay behind the close and move with it from row to row; of two SMAs or EMAs the one over the shorter window is ahead, so they do not cross. Where highs and lows never fall -DI is 0 on every row, where they never rise +DI is. In binary64 MACD can be one unit in the last place on the wrong side.", "quantifier": "all frames with a one-way price, both directions, all windows, over exact reals; a binary64 witness for the rounding exception", "why_tests_cant": "a test follows one rising series; the sign holds for every shape of rise and every window", "anchors": ["ta/trend.py:MACD", "ta/trend.py:TRIXIndicator", "ta/trend.py:CCIIndicator", "ta/trend.py:ADXIndicator", "ta/trend.py:SMAIndicator", "ta/trend.py:EMAIndicator", "ta/momentum.py:PercentagePriceOscillator", "ta/momentum.py:TSIIndicator", "ta/momentum.py:ROCIndicator", "ta/momentum.py:AwesomeOscillatorIndicator", "ta/momentum.py:KAMAIndicator", "ta/volume.py:ForceIndexIndicator", "ta/volume.py:VolumePriceTrendIndicator", "ta/volume.py:EaseOfMovementIndicator", "ta/others.py:DailyReturnIndicator"]}
{"id": "C93", "title": "What rows that have left the window leave behind", "statement": "In exact arithmetic every row of a rolling sum, mean or standard deviation is that of its own window. In float64 it is not, because pandas updates the result from row to row: after one extreme row, long after it has left the window, in a market that never moves again, SMA(2) shows 2 where every close is 3, VWAP(2) shows 15 where all trades are between 9 and 11, CMF(2) shows 1.5 although it cannot exceed 1, and the Bollinger bands stay open around an unchanging price, all of them for ever. The SMA of positive closes is still never negative.", "quantifier": "exact part: all columns, windows, minimum counts, aggregations; float64 part: the frames given followed by any number of unchanging rows; sign: all float64 frames, windows, both fillna flags", "why_tests_cant": "tests compare with reference values on smooth data; they neither follow a residue for ever nor quantify over what passed through the window", "anchors": ["ta/utils.py:_sma", "ta/trend.py:SMAIndicator", "ta/volume.py:VolumeWeightedAveragePrice", "ta/volume.py:ChaikinMoneyFlowIndicator", "ta/volatility.py:BollingerBands"]}
{"id": "C94", "title": "How far averages kept by running sums can stray", "statement": "In float64 the SMA, the Bollinger middle band and the Awesome Oscillator are missing exactly where the real-number formula is, never infinite, and row i is off by at most i times 2^-49 (SMA, middle band) or i times 6*2^-50 (Awesome Oscillator) of the largest price of the frame, whatever the window: each row adds at most that much to the error of the running sum.", "quantifier": "all frames of finite prices with 2^-900 <= largest price <= 2^990 and up to 2^53/1000 rows, all windows up to 2^28, both fillna flags, every row", "why_tests_cant": "tests compare a few hundred rows with a tolerance; they cannot bound the error of a running sum for all prices and row counts", "anchors": ["ta/utils.py:_sma", "ta/trend.py:SMAIndicator", "ta/volatility.py:BollingerBands.bollinger_mavg", "ta/momentum.py:AwesomeOscillatorIndicator"]}
{"id": "C95", "title": "Wider settings give wider channels", "statement": "In float64, with more deviations (Bollinger), a larger multiplier (Keltner with the ATR) or a longer window (Donchian) the upper band is on no row lower and the lower band on no row higher, so every break-out of the wider Bollinger or Keltner channel is also a break-out of the narrower one. A longer window does not widen the Bollinger bands.", "quantifier": "all float64 frames, missing and infinite cells included (Keltner: low <= high), all windows, all pairs of settings, every row, fillna=False", "why_tests_cant": "tests use one setting per series; the claim compares all pairs of settings on all data, under rounding", "anchors": ["ta/volatility.py:BollingerBands", "ta/volatility.py:KeltnerChannel", "ta/volatility.py:DonchianChannel"]}
{"id": "C96", "title": "Rows on which nothing trades", "statement": "A row without volume leaves OBV, ADI and VPT where they were, lets the force index decay by (w-1)/(w+1) and moves the NVI by the whole return if volume has just dried up and not at all while it stays away. Its ease of movement is infinite, or missing if the market did not move, and the averaged one is missing for w rows. A window without any volume has no CMF, VWAP and MFI; with fillna=True the row repeats the one before (or shows 0, 0, 50). In float64 this still holds for OBV and MFI but not for the VWAP: after volumes of 0.9 and 1.3 at a price of 13 and none thereafter VWAP(2) is -16 for ever.", "quantifier": "all finite frames, all windows, every row, both settings of fillna, in exact arithmetic; all float64 frames for OBV and MFI", "why_tests_cant": "tests use one recorded file in which every row trades; halted days and dead windows are inputs of their own, and the float64 failure needs particular volumes to have left the window", "anchors": ["ta/volume.py:OnBalanceVolumeIndicator", "ta/volume.py:AccDistIndexIndicator", "ta/volume.py:VolumePriceTrendIndicator", "ta/volume.py:NegativeVolumeIndexIndicator", "ta/volume.py:ForceIndexIndicator", "ta/volume.py:EaseOfMovementIndicator", "ta/volume.py:ChaikinMoneyFlowIndicator", "ta/volume.py:MFIIndicator", "ta/volume.py:VolumeWeightedAveragePrice"]}
{"id": "C97", "title": "Weighted and Wilder averages: rounding error bounded by the window", "statement": "In float64 the WMA of window w is within (w + 2)/6 * 2^-50 of the largest close of its formula, the ATR within 5/4 * w * 2^-50 of the largest price, the Keltner channel of EMAs within (w + 2 + |m|(5/4 a + 2)) * 2^-50 of it for multiplier m and ATR window a, and the force index within (w + 2) * 2^-50 of twice the largest close times the largest volume. The rows missing are those of the formula. The error does not depend on the number of rows nor on the order in which numpy adds the window.", "quantifier": "all finite float64 columns with largest size between 2^-900 and 2^990 (products within that range as well), all windows up to 2^25 (EMA: 2^53/100), multipliers up to 1000 in size, both settings of fillna, every row", "why_tests_cant": "a bound over every column and length; tests compare some hundred rows to a few decimals and cannot tell a bounded error from a growing one", "anchors": ["ta/trend.py:WMAIndicator", "ta/volatility.py:AverageTrueRange", "ta/volatility.py:KeltnerChannel", "ta/volume.py:ForceIndexIndicator"]}
{"id": "C98", "title": "Markets that repeat themselves", "statement": "When every row is the row k rows before with prices times g and volumes times q, every series with a finite memory repeats itself every k rows as well, times the factor of C60: a periodic market (g = q = 1) shows periodic indicators, under constant growth (k = 1) every unit-free oscillator stands still and every price-like series grows at the same rate. When every row is the row k rows before plus a fixed amount, the series of C61 repeat themselves plus that amount or unchanged. In a periodic market, averages, highest highs, lowest lows, channels and VWAP over a whole number of periods are constant. Under growth by g per row the EMA approaches 2g/((w+1)g-(w-1)) times the close, its distance shrinking by (w-1)/(w+1) per row.", "quantifier": "all series with finite memory (C73) that do not look ahead, all windows, all periods and growth factors, all rows (missing and infinite values included), any rows before the repeating part, fillna=False", "why_tests_cant": "a statement about every repeating market of every length; the test data contain none", "anchors": ["ta/trend.py:SMAIndicator", "ta/trend.py:CCIIndicator", "ta/trend.py:KSTIndicator", "ta/volatility.py:BollingerBands", "ta/volatility.py:DonchianChannel", "ta/momentum.py:StochasticOscillator", "ta/volume.py:VolumeWeightedAveragePrice", "ta/trend.py:EMAIndicator"]}
{"id": "C99", "title": "Oscillators swing fully on arbitrarily small moves", "statement": "Unlike averages and channels (C87), the oscillators have no error bound: around any price and within any tolerance, however small, there are two markets of any length that hold RSI, TSI, the stochastic oscillator, Williams %R, the ultimate oscillator, Aroon, CCI, MFI and the percentage bands of Bollinger and Donchian at opposite ends (100 and 0, 100 and -100, ...) on every row past their windows. On-balance volume counts all volume up in one and all but the first row's down in the other; bars of any positive range that close at the high or at the low move the accumulation/distribution index by twice the volume and the Chaikin money flow from 1 to -1.", "quantifier": "all windows and constants with the required sign, all prices, all tolerances, all lengths, fillna=False", "why_tests_cant": "for every tolerance there is a pair of markets; a test compares one input with one output and never two nearby inputs", "anchors": ["ta/momentum.py:RSIIndicator", "ta/momentum.py:TSIIndicator", "ta/momentum.py:StochasticOscillator", "ta/momentum.py:WilliamsRIndicator", "ta/momentum.py:UltimateOscillator", "ta/trend.py:AroonIndicator", "ta/trend.py:CCIIndicator", "ta/volume.py:MFIIndicator", "ta/volatility.py:BollingerBands", "ta/volume.py:OnBalanceVolumeIndicator", "ta/volume.py:AccDistIndexIndicator", "ta/volume.py:ChaikinMoneyFlowIndicator"]}
{"id": "C100", "title": "Integer columns", "statement": "With a signed integer volume column on-balance volume is exact as long as the turnover stays below 2^63 (off by a multiple of 2^64 beyond) and equals what a float64 column shows up to a turnover of 2^53. With an unsigned volume column it is wrong: uint64 shows every negative balance plus 2^64, a narrower type is too high by 2^w for every fall so far. With signed integer prices the accumulation/distribution index and the Chaikin money flow are those of float columns; with unsigned prices every close in the lower half of its bar counts with 2^w over the bar's range on top, far outside [-1, 1]. KAMA never returns on an integer close column: with a valid window it raises numpy's UFuncTypeError.", "quantifier": "all closes (float64 included), all non-negative integer volumes and bars of every integer type, all lengths, all windows", "why_tests_cant": "the test data are float columns; the wrap-around depends on the type, the sign of the running balance and the number of falls", "anchors": ["ta/volume.py:OnBalanceVolumeIndicator", "ta/volume.py:AccDistIndexIndicator", "ta/volume.py:ChaikinMoneyFlowIndicator", "ta/momentum.py:KAMAIndicator"]}
{"id": "C101", "title": "Histories of one indicator object", "statement": "Keep one indicator object, call its methods any number of times in any order, write into the series they returned and into the columns that were passed in. Every output is still the series of the original columns, unless a write went into a kept series it is worked out from (only possible without fillna), or it looks at the columns when it is asked for and they were changed. With fillna=True writing into a returned series never shows up anywhere else. A series already returned never changes by further calls. If the constructor raises, every output raises the same exception. EMA, SMA and Ichimoku span B always show the columns as they are now. Without fillna the object is not isolated: what is written into a kept series is what the object shows from then on, also in the outputs worked out from it.", "quantifier": "all 43 classes, all parameters, all columns of every length, every finite history of calls, writes into returned series and changes of the columns, all arithmetics (binary64 included)", "why_tests_cant": "the tests build an object, call one method and compare; a history has unboundedly many orders of calls and writes, and sharing between a returned series and the object only shows after a write", "anchors": ["ta/utils.py:IndicatorMixin._check_fillna", "ta/volatility.py:BollingerBands", "ta/volatility.py:KeltnerChannel", "ta/volatility.py:DonchianChannel", "ta/trend.py:MACD", "ta/trend.py:KSTIndicator", "ta/trend.py:PSARIndicator", "ta/trend.py:IchimokuIndicator", "ta/trend.py:EMAIndicator", "ta/momentum.py:StochasticOscillator", "ta/volume.py:EaseOfMovementIndicator"]}
{"id": "C102", "title": "Columns with different indexes", "statement": "High, low, close and volume may be passed with different indexes (rows missing in some of them). The result has, once each and in order, exactly the rows of the columns it is made of. Indicators that match rows by label never look at a row with a later label. Without fillna Stochastic, Williams %R, Aroon, Ichimoku, CCI, Donchian, ease of movement, VPT, VWAP, MFI, awesome oscillator and the Keltner middle line are missing wherever one of their columns has no row. Awesome oscillator, mass index, CCI and the original Keltner lines are those of the outer join of the columns. OBV, NVI, PSAR and ADX pair rows by position, whatever the labels. ATR, the ATR-based Keltner channel, the Keltner indicators and MFI raise ValueError exactly when a column has a row that another lacks. On equal indexes all of this is the ordinary result. What does not hold: other series show numbers at rows that a column lacks, windows do not run over the outer join, and OBV and Vortex can use later rows.", "quantifier": "all 84 public series, all parameters, four columns of any length with any strictly increasing labels, all cut labels, all arithmetics (binary64 included)", "why_tests_cant": "every test passes columns of one DataFrame, so alignment never matters; the ways four indexes can overlap are unbounded", "anchors": ["ta/utils.py:IndicatorMixin._true_range", "ta/momentum.py:StochasticOscillator", "ta/momentum.py:UltimateOscillator", "ta/trend.py:ADXIndicator", "ta/trend.py:VortexIndicator", "ta/trend.py:PSARIndicator", "ta/volatility.py:AverageTrueRange", "ta/volatility.py:KeltnerChannel", "ta/volume.py:OnBalanceVolumeIndicator", "ta/volume.py:MFIIndicator", "ta/volume.py:ChaikinMoneyFlowIndicator", "ta/volume.py:NegativeVolumeIndexIndicator"]}
{"id": "C103", "title": "Rounding error of ratio oscillators", "statement": "In binary64, on finite data: ROC, the stochastic %K and Williams %R are within 2^-50 of their exact value, relative to that value, whenever the denominator is not below 2^-900. The daily and cumulative returns are within 40*2^-50 of the ratio of the closes plus 1 (they divide first, so a small return loses its digits: the relative bound of ROC is refuted for them). An RSI row is off by at most (1500w+900)*2^-50 times the largest close over the sum of the average gain and loss, and 2^-44. PPO and PVO lines, signals and histograms on levels between m and M are off by at most a multiple of 2^-50 that depends on the windows and on M/m only. No bound depends on the number of rows.", "quantifier": "all finite data of any length (for the stated magnitudes), all windows up to the stated size, both values of fillna", "why_tests_cant": "tests compare a few rows with tolerances; they neither bound the error for all data nor show how it scales with the data or the row", "anchors": ["ta/momentum.py:RSIIndicator", "ta/momentum.py:ROCIndicator", "ta/momentum.py:StochasticOscillator", "ta/momentum.py:WilliamsRIndicator", "ta/momentum.py:PercentagePriceOscillator", "ta/momentum.py:PercentageVolumeOscillator", "ta/others.py:DailyReturnIndicator", "ta/others.py:CumulativeReturnIndicator"]}
{"id": "C104", "title": "How much history a recursive indicator needs", "statement": "Compute an indicator on a whole history and on the same history without its first k rows. With all prices between lo and hi, row j of the shorter result differs from the same row of the longer one by at most (1-2/(w+1))^j (hi-lo) for EMA, 2(hi-lo)q^j for MACD (q the slower average's factor), the same times (1+alpha t) from the first signal row on for its signal and histogram, 100(1-1/w)^j (hi-lo)/(average gain+loss) for RSI, a bound of the same kind for TSI and +DI/-DI (divided by the averaged change or range), (1-1/w)^(j-w+1)(hi-lo) for ATR, (1+|m|)(hi-lo)q^(j-a+1) for the ATR-based Keltner bands, and (1-(2/(slow+1))^2)^(j-w+1)(hi-lo) for KAMA. ln(D/e)/alpha rows make a factor (1-alpha) per row reduce D below e. OBV, ADI and VPT stay a constant apart for ever, NVI stays in constant proportion.", "quantifier": "all histories of finite prices between lo and hi, all numbers k of rows left out, all rows of the tail, all windows >= 1, fillna on and off (KAMA off), exact arithmetic", "why_tests_cant": "tests compute one fixed history; how fast the choice of the first row fades is a statement about all histories and all cuts", "anchors": ["ta/utils.py:_ema", "ta/trend.py:EMAIndicator", "ta/trend.py:MACD", "ta/trend.py:ADXIndicator", "ta/momentum.py:RSIIndicator", "ta/momentum.py:TSIIndicator", "ta/momentum.py:KAMAIndicator", "ta/volatility.py:AverageTrueRange", "ta/volatility.py:KeltnerChannel", "ta/volume.py:OnBalanceVolumeIndicator", "ta/volume.py:AccDistIndexIndicator", "ta/volume.py:VolumePriceTrendIndicator", "ta/volume.py:NegativeVolumeIndexIndicator"]}
{"id": "C105", "title": "How long fillna=True is felt on rows that need no filling", "statement": "C09 shows that fillna=True changes rows of multi-stage indicators that are already numbers without it. The change fades: for the signal lines of MACD, PPO and PVO it shrinks by exactly the factor 1-2/(window_sign+1) per row from at most twice the range of the line, and the histogram is off by the same amount in the other direction; for TSI it is at most 100*3(hi-lo)(1-2/(window_fast+1))^(i-window_slow)/(smoothed absolute change), for TRIX and the mass index it has bounds that fall geometrically in the same way, and every row takes at least the share (2/(pow2+1))^2 of the KAMA gap and never turns its sign. The KST signal and histogram, Ichimoku A shifted ahead and the Bollinger and Keltner band indicators agree with and without fillna as soon as their windows are full.", "quantifier": "all finite frames with prices (for the mass index: ranges) between lo and hi, all windows >= 1, all rows after the warm-up, exact arithmetic", "why_tests_cant": "relates two runs on all inputs and all later rows; tests call each indicator with one flag on one file", "anchors": ["ta/utils.py:_check_fillna", "ta/utils.py:_ema", "ta/trend.py:MACD", "ta/trend.py:TRIXIndicator", "ta/trend.py:MassIndex", "ta/trend.py:KSTIndicator", "ta/trend.py:IchimokuIndicator", "ta/momentum.py:TSIIndicator", "ta/momentum.py:KAMAIndicator", "ta/momentum.py:PercentagePriceOscillator", "ta/momentum.py:PercentageVolumeOscillator", "ta/volatility.py:BollingerBands", "ta/volatility.py:KeltnerChannel"]}
{"id": "C106", "title": "When PSAR has forgotten where its history began", "statement": "Feed PSAR two histories that end in the same highs and lows. Once both have shown their stop on the same side over a stretch of rows in which it changed sides twice, psar, psar_up, psar_down and both reversal indicators agree exactly on the second of these reversal rows and on every later row, whatever came before, bit for bit also in binary64; closes after the first two rows play no part. One common reversal is not enough (refuted by an example), and no amount of common history need be enough: in a flat market of any length the stop of a history that starts one row later differs on every row.", "quantifier": "all pairs of frames with a common end, any index on which labels play no part (C59), all steps, every arithmetic with the laws of Arith.v including binary64; the flat market in exact arithmetic for all lengths, prices and steps in (0, 1]", "why_tests_cant": "relates two runs over arbitrary earlier rows; the tests run PSAR once on one file", "anchors": ["ta/trend.py:PSARIndicator", "ta/trend.py:PSARIndicator.psar", "ta/trend.py:PSARIndicator.psar_up", "ta/trend.py:PSARIndicator.psar_down", "ta/trend.py:PSARIndicator.psar_up_indicator", "ta/trend.py:PSARIndicator.psar_down_indicator"]}
{"id": "C107", "title": "How far rounding can move VWAP and Chaikin money flow", "statement": "On binary64 data with prices up to M in size and volumes between 0 and V, cell i of VWAP with window w differs from the exact volume-weighted mean of typical prices over the window by at most 9*2^-50*(i+1)*w*M*V/B, where B is the volume of that window, and Chaikin money flow from its exact value by at most 9*2^-50*(i+1)*w*V/B. The cell is a number, never NaN or infinite, as long as B is at least 3*2^-50*(i+1)*w*V. So errors of earlier rows stay in the running sums and matter where volume dries up.", "quantifier": "all frames of up to 2^53/1000 rows, all windows up to 2^28, both fillna settings, all rows after warm-up with enough volume; M*V from 2^-900 to 2^980 (VWAP), V up to 2^980, low <= close <= high and bar height 0 or at least 2^-900 (CMF)", "why_tests_cant": "a bound on accumulated rounding over every data set and length; the tests compare one file to a few digits", "anchors": ["ta/volume.py:VolumeWeightedAveragePrice", "ta/volume.py:VolumeWeightedAveragePrice.volume_weighted_average_price", "ta/volume.py:ChaikinMoneyFlowIndicator", "ta/volume.py:ChaikinMoneyFlowIndicator.chaikin_money_flow"]}
{"id": "C108", "title": "How far rounding can move CCI", "statement": "On binary64 data with prices up to M in size, cell i of CCI with window w and constant k differs from its exact value by at most (9(i+1) + 4w^2) * 2^-50 * M/(k*B), where B is the mean absolute deviation of typical prices in the window, as long as B is at least 7w*2^-50*M; the cell is then a number. Below that the index is arbitrary: two bars of prices in cents with exactly the same typical price, where CCI(2) has no value (0/0), show -133.3, twice the range of +-w/(2k) that holds in exact arithmetic.", "quantifier": "all frames of up to 2^53/1000 rows, all windows up to 2^25, both fillna settings, all rows after warm-up with enough deviation; M, k and k*M from 2^-900 to 2^990", "why_tests_cant": "a bound on accumulated rounding over every data set and length; the tests compare one file to a few digits", "anchors": ["ta/trend.py:CCIIndicator", "ta/trend.py:CCIIndicator.cci"]}
{"id": "C109", "title": "How far rounding can move MFI", "statement": "On binary64 data with positive prices and volumes positive or zero, cell i of MFI with window w differs from its exact value 100 - 100/(1 + P/N), 100 where only the outflow N is zero, by at most (31w + 200) * 2^-50, whatever the size of the data; where both flows are zero the cell is NaN as well (fillna=False). This needs every row of the window to have no volume, to repeat the bar before, or to have a typical price differing from the one before by 2^-50 of their sum. Without it a row can turn round: three bars of prices in cents, the second with the typical price of the first and a large volume, show an index below 0.001 where the exact one is 100.", "quantifier": "all frames, all windows up to 2^25, both fillna settings, all rows after warm-up; prices and non-zero volumes from 2^-200 to 2^200", "why_tests_cant": "a bound on rounding over every data set and scale; the tests compare one file to a few digits", "anchors": ["ta/volume.py:MFIIndicator", "ta/volume.py:MFIIndicator.money_flow_index"]}
{"id": "C110", "title": "The ulcer index is accurate however small it is", "statement": "On binary64 data with positive closes, every cell of the ulcer index with window w from row w-1 on is a number within (w/10 + 1) * 2^-50 of the exact index, relative to the exact index itself and not to the prices: a market that hardly falls is measured as precisely as one that crashes. In particular the cell is 0 if and only if every close of the window is the highest of the w closes up to it.", "quantifier": "all frames with closes from 2^-200 to 2^200, all windows up to 2^25, both fillna settings, all rows from w-1 on", "why_tests_cant": "a relative bound over every data set and scale, including falls of one unit in the last place; the tests compare one file to a few digits", "anchors": ["ta/volatility.py:UlcerIndex", "ta/volatility.py:UlcerIndex.ulcer_index"]}
{"id": "C111", "title": "How far rounding can move the negative volume index", "statement": "On binary64 data, cell i of the negative volume index differs from its exact value by at most i * 2^-50 of that value, although the index multiplies all rows so far, as long as no close is less than half the one before it on a row whose volume falls. Without that the index can be lost for good: a close that falls to 2^-60 of itself and comes back on falling volume leaves the index at 0 where the exact one is 1000 again.", "quantifier": "all frames with closes from 2^-200 to 2^200 and any finite volumes, both fillna settings, all rows up to 2^30; exact index between 2^-200 and 2^200", "why_tests_cant": "a bound on accumulated rounding over every data set and length; the tests compare one file to a few digits", "anchors": ["ta/volume.py:NegativeVolumeIndexIndicator", "ta/volume.py:NegativeVolumeIndexIndicator.negative_volume_index"]}
{"id": "C112", "title": "How far rounding can move on-balance volume and accumulation/distribution", "statement": "On binary64 data, cell i of on-balance volume differs from the exact total by at most (i+1)/7 * 2^-50 of the volume traded so far, and cell i of the accumulation/distribution index by at most ((i+1)/7 + 2) * 2^-50 of it. No such bound holds against the total itself: with volumes 2^53, 1 and 2^53 on a flat first row, a rise and a fall, on-balance volume shows 0 where the exact total is 1.", "quantifier": "all frames of numbers with volumes not below 0, all rows with 1000 (i+1) <= 2^53 and a volume traded so far from 2^-900 to 2^980, both fillna settings; for accumulation/distribution closes between low and high, and bar heights 0 or at least 2^-900", "why_tests_cant": "a bound on accumulated rounding over every data set and length; the tests compare one file to a few digits", "anchors": ["ta/volume.py:OnBalanceVolumeIndicator", "ta/volume.py:AccDistIndexIndicator"]}
{"id": "C114", "title": "How far rounding can move ease of movement", "statement": "On binary64 data, a cell of ease of movement differs from its exact value by at most 2^-50 of the value the row would have if high and low moved the same way, (|change of high| + |change of low|) * |high - low| / (2 volume) * 10^8. So where they do move the same way the cell is right to 2^-50 of itself, however small the move. Where they move against each other no bound relative to the value holds: highs 2^54, 3 * 2^53, lows 2^53 + 2, 1 and volume 1 show 0 where the exact value is below -10^24.", "quantifier": "all frames with prices from 2^-200 to 2^200 and volumes 0 or in that range, all rows but the first with a positive volume, both fillna settings", "why_tests_cant": "a bound on rounding over every data set; the tests compare one file to a few digits", "anchors": ["ta/volume.py:EaseOfMovementIndicator", "ta/volume.py:EaseOfMovementIndicator.ease_of_movement"]}
{"id": "C113", "title": "When the sign of the force index can be trusted", "statement": "On binary64 data with closes up to M and volumes up to V, a force index whose exact value is larger than (2 window + 3) * 2^-50 * M * V is shown with the right sign, however many rows there are. Below that the sign can be wrong: for closes 1, 6, 3 and volumes 1, 9007199254740985, 7505999378950822 the exact index of window 2 is -7/3 and 2 is shown.", "quantifier": "all frames of numbers, all windows with 100 window <= 2^53, all M and M * V from 2^-900 to 2^990, all rows after the warm-up, both fillna settings", "why_tests_cant": "a bound on rounding over every data set, window and length; the tests compare one file to a few digits", "anchors": ["ta/volume.py:ForceIndexIndicator", "ta/volume.py:ForceIndexIndicator.force_index"]}
