{
 "claims": [
  {
   "property": "C01",
   "status": "proved",
   "theorems": [
    "C01_one_row_per_row"
   ],
   "note": "Every Arith, every entry point of Api.v. Scope excludes volume_price_trend(dropnans=True) and psar() on an integer index that lacks one of the labels 0..n-1."
  },
  {
   "property": "C02",
   "status": "proved",
   "theorems": [
    "C02_window_no_lookahead",
    "C02_backfilled_no_lookahead"
   ],
   "note": "Every Arith. Backward-filled series with fillna=True: unchanged as soon as one row is a number."
  },
  {
   "property": "C03",
   "status": "proved",
   "theorems": [
    "C03_recursive_no_lookahead",
    "C03_adx_no_lookahead",
    "C03_psar_no_lookahead",
    "C03_psar_backfilled_no_lookahead"
   ],
   "note": "Every Arith. ADX: the first window changes are numbers. PSAR: non-integer or default index."
  },
  {
   "property": "C04",
   "status": "proved",
   "theorems": [
    "C04_dpo_no_lookahead",
    "C04_trix_no_lookahead",
    "C04_vortex_no_lookahead",
    "C04_kama_no_lookahead",
    "C04_vortex_kama_binary64_refuted"
   ],
   "note": "DPO and TRIX: every Arith with the NaN laws. Vortex and KAMA: exact arithmetic (KAMA: row window-1 is a number in both results); their binary64 reading is refuted."
  },
  {
   "property": "C05",
   "status": "proved",
   "theorems": [
    "C05_lookahead_refuted"
   ],
   "note": "Refutation, binary64 witnesses."
  },
  {
   "property": "C06",
   "status": "proved",
   "theorems": [
    "C06_no_gaps"
   ],
   "note": "Every Arith with the NaN laws. Donchian width/%b with offset 0 only (with another offset the shift comes after the fill)."
  },
  {
   "property": "C07",
   "status": "proved",
   "theorems": [
    "C07_constant_fill",
    "C07_backward_fill",
    "C07_public_series_filled"
   ],
   "note": "Every Arith with the NaN laws."
  },
  {
   "property": "C08",
   "status": "proved",
   "theorems": [
    "C08_finite_rows_kept",
    "C08_finite_rows_kept_exact",
    "C08_running_means_binary64_refuted"
   ],
   "note": "Every Arith with the NaN laws; stochastic signal and the two StochRSI means in exact arithmetic, refuted in binary64."
  },
  {
   "property": "C09",
   "status": "proved",
   "theorems": [
    "C09_finite_rows_kept_refuted"
   ],
   "note": "Refutation, binary64 witnesses."
  },
  {
   "property": "C10",
   "status": "proved",
   "theorems": [
    "C10_warm_up_rows",
    "C10_never_earlier"
   ],
   "note": "Exact lengths: table SpecWarm.v on finite data that keeps moving, exact arithmetic; StochRSI, TSI, CCI, MFI, STC, Bollinger pband and the one-sided PSAR series are left out of that table because flat windows make them NaN later. Never earlier: table SpecQuiet.v, which includes those series; any rows, exact arithmetic or binary64."
  },
  {
   "property": "C11",
   "status": "proved",
   "theorems": [
    "C11_raises_exactly",
    "C11_get_min_max"
   ],
   "note": "Every Arith whose NaN is recognised; all windows."
  },
  {
   "property": "C12",
   "status": "proved",
   "theorems": [
    "C12_sma_is_window_mean"
   ],
   "note": "Exact arithmetic (XR), finite data."
  },
  {
   "property": "C13",
   "status": "proved",
   "theorems": [
    "C13_ema_recursion",
    "C13_ema_weights"
   ],
   "note": "Exact arithmetic (XR), finite data; the second theorem is the closed form of the recursion."
  },
  {
   "property": "C14",
   "status": "proved",
   "theorems": [
    "C14_ema_over_gaps"
   ],
   "note": "Exact arithmetic (XR), every pattern of missing rows."
  },
  {
   "property": "C15",
   "status": "proved",
   "theorems": [
    "C15_wma_weights"
   ],
   "note": "Exact arithmetic (XR), finite data."
  },
  {
   "property": "C16",
   "status": "proved",
   "theorems": [
    "C16_sma_in_range",
    "C16_ema_in_range",
    "C16_wma_in_range"
   ],
   "note": "Exact arithmetic (XR), finite data. A constant series is the case m = M. WMA: rows window-1 on (with fillna=True the earlier rows are 0)."
  },
  {
   "property": "C17",
   "status": "proved",
   "theorems": [
    "C17_macd_structure",
    "C17_macd_constant_series"
   ],
   "note": "Exact arithmetic (XR), finite data."
  },
  {
   "property": "C18",
   "status": "proved",
   "theorems": [
    "C18_ppo_structure",
    "C18_pvo_is_ppo_of_volume",
    "C18_ppo_pvo_unit_free"
   ],
   "note": "Exact arithmetic."
  },
  {
   "property": "C19",
   "status": "proved",
   "theorems": [
    "C19_rsi_in_0_100"
   ],
   "note": "Exact arithmetic (XR), arbitrary rows (NaN and infinities included), any window."
  },
  {
   "property": "C20",
   "status": "proved",
   "theorems": [
    "C20_rsi_formula"
   ],
   "note": "Exact arithmetic (XR), finite data."
  },
  {
   "property": "C21",
   "status": "proved",
   "theorems": [
    "C21_rsi_100_when_never_falling",
    "C21_rsi_0_when_never_rising"
   ],
   "note": "Exact arithmetic (XR), finite data. For window 1 the fall must be at the row itself."
  },
  {
   "property": "C22",
   "status": "proved",
   "theorems": [
    "C22_stochastic_in_0_100"
   ],
   "note": "Exact arithmetic (XR), finite data with low <= close <= high. See C66 for binary64."
  },
  {
   "property": "C23",
   "status": "proved",
   "theorems": [
    "C23_stochastic_formula",
    "C23_signal_is_moving_average"
   ],
   "note": "Exact arithmetic (XR), finite data. The signal formula assumes that no window is flat."
  },
  {
   "property": "C24",
   "status": "proved",
   "theorems": [
    "C24_williams_is_stochastic_minus_100",
    "C24_williams_in_range"
   ],
   "note": "Exact arithmetic (XR); the equality holds for arbitrary rows."
  },
  {
   "property": "C25",
   "status": "proved",
   "theorems": [
    "C25_stochrsi_in_0_1"
   ],
   "note": "Exact arithmetic (XR), arbitrary rows, any windows."
  },
  {
   "property": "C26",
   "status": "proved",
   "theorems": [
    "C26_tsi_in_range",
    "C26_tsi_formula",
    "C26_tsi_rising",
    "C26_tsi_falling"
   ],
   "note": "Exact arithmetic (XR); the range holds for arbitrary rows."
  },
  {
   "property": "C27",
   "status": "proved",
   "theorems": [
    "C27_ultimate_oscillator_formula",
    "C27_ultimate_oscillator_in_0_100"
   ],
   "note": "Exact arithmetic (XR), finite data with low <= close <= high."
  },
  {
   "property": "C28",
   "status": "proved",
   "theorems": [
    "C28_kama_formula",
    "C28_kama_in_price_range"
   ],
   "note": "Exact arithmetic (XR), finite data."
  },
  {
   "property": "C29",
   "status": "proved",
   "theorems": [
    "C29_kama_filled_in_price_range_refuted"
   ],
   "note": "Refutation, binary64 witness."
  },
  {
   "property": "C30",
   "status": "proved",
   "theorems": [
    "C30_roc_1_is_daily_return",
    "C30_roc_formula",
    "C30_returns_compound",
    "C30_cumulative_return_formula",
    "C30_log_returns_add_up"
   ],
   "note": "Exact arithmetic (XR), finite data."
  },
  {
   "property": "C31",
   "status": "proved",
   "theorems": [
    "C31_awesome_oscillator_formula"
   ],
   "note": "Exact arithmetic (XR), finite data."
  },
  {
   "property": "C32",
   "status": "proved",
   "theorems": [
    "C32_aroon_formula",
    "C32_aroon_up_meaning",
    "C32_aroon_down_meaning",
    "C32_aroon_range"
   ],
   "note": "Exact arithmetic (XR), finite data. With fillna=True the first rows measure a shorter window (see aroon_up_value)."
  },
  {
   "property": "C33",
   "status": "proved",
   "theorems": [
    "C33_cci_formula",
    "C33_cci_bound"
   ],
   "note": "Exact arithmetic (XR), finite data."
  },
  {
   "property": "C34",
   "status": "proved",
   "theorems": [
    "C34_adx_in_0_100",
    "C34_di_in_0_100"
   ],
   "note": "Exact arithmetic (XR), finite data with low <= close <= high."
  },
  {
   "property": "C35",
   "status": "proved",
   "theorems": [
    "C35_directional_indicators",
    "C35_adx_smoothing"
   ],
   "note": "Exact arithmetic (XR), finite data."
  },
  {
   "property": "C36",
   "status": "proved",
   "theorems": [
    "C36_vortex_formula",
    "C36_vortex_true_range",
    "C36_vortex_positive_ranges",
    "C36_vortex_nonnegative"
   ],
   "note": "Exact arithmetic (XR), finite data."
  },
  {
   "property": "C37",
   "status": "proved",
   "theorems": [
    "C37_psar_one_side_per_row"
   ],
   "note": "Every Arith, arbitrary rows; non-integer or default index. That psar is a number on finite data is C68."
  },
  {
   "property": "C38",
   "status": "proved",
   "theorems": [
    "C38_psar_stop_side"
   ],
   "note": "Exact arithmetic (XR), finite data, default index."
  },
  {
   "property": "C39",
   "status": "proved",
   "theorems": [
    "C39_psar_stop_side_refuted"
   ],
   "note": "Refutation, binary64 witnesses."
  },
  {
   "property": "C40",
   "status": "proved",
   "theorems": [
    "C40_psar_inside_prices"
   ],
   "note": "Exact arithmetic (XR), finite data with low <= close <= high, default index."
  },
  {
   "property": "C41",
   "status": "proved",
   "theorems": [
    "C41_psar_reversal_indicators"
   ],
   "note": "Exact arithmetic (XR), arbitrary rows; non-integer or default index."
  },
  {
   "property": "C42",
   "status": "proved",
   "theorems": [
    "C42_up_indicator_reports_start_refuted",
    "C41_psar_reversal_indicators"
   ],
   "note": "Refutation, binary64 witness; the general condition (indicator 0 wherever psar_up is 0) is part of C41."
  },
  {
   "property": "C43",
   "status": "proved",
   "theorems": [
    "C43_ichimoku_lines",
    "C43_ichimoku_visual",
    "C43_midrange_in_range"
   ],
   "note": "Exact arithmetic (XR), finite data."
  },
  {
   "property": "C44",
   "status": "proved",
   "theorems": [
    "C44_dpo_formula",
    "C44_kst_formula",
    "C44_trix_formula",
    "C44_mass_index_formula",
    "C44_stc_formula",
    "C44_dpo_constant_close",
    "C44_kst_constant_close",
    "C44_trix_constant_close",
    "C44_mass_index_constant_range",
    "C44_stc_in_0_100"
   ],
   "note": "Exact arithmetic (XR), finite data; KST and TRIX for positive closes, mass index for low < high, the STC formula where no cycle window is flat; the STC range for arbitrary rows."
  },
  {
   "property": "C45",
   "status": "proved",
   "theorems": [
    "C45_atr_formula",
    "C45_atr_needs_window_rows",
    "C45_atr_bounds",
    "C45_atr_window_zero",
    "C45_atr_negative_window",
    "C45_atr_negative_window_needs_rows"
   ],
   "note": "Exact arithmetic (XR), finite data."
  },
  {
   "property": "C46",
   "status": "proved",
   "theorems": [
    "C46_bollinger_bands",
    "C46_bollinger_ordered",
    "C46_bollinger_width",
    "C46_bollinger_pband"
   ],
   "note": "Exact arithmetic (XR), finite data."
  },
  {
   "property": "C47",
   "status": "proved",
   "theorems": [
    "C47_bollinger_indicators",
    "C47_indicators_agree_with_pband"
   ],
   "note": "Exact arithmetic (XR), finite data."
  },
  {
   "property": "C48",
   "status": "proved",
   "theorems": [
    "C48_wide_bands_never_fire"
   ],
   "note": "Exact arithmetic (XR), finite data."
  },
  {
   "property": "C49",
   "status": "proved",
   "theorems": [
    "C49_keltner_original",
    "C49_keltner_ema",
    "C49_keltner_ordered",
    "C49_keltner_original_width",
    "C49_keltner_ema_width"
   ],
   "note": "Exact arithmetic (XR), finite data. The EMA version needs at least window_atr rows."
  },
  {
   "property": "C50",
   "status": "proved",
   "theorems": [
    "C50_donchian_bands",
    "C50_highest_is_attained",
    "C50_lowest_is_attained",
    "C50_donchian_width_pband",
    "C50_donchian_pband_in_0_1",
    "C50_donchian_offset"
   ],
   "note": "Exact arithmetic (XR), finite data; the offset theorem holds for every Arith and arbitrary rows."
  },
  {
   "property": "C51",
   "status": "proved",
   "theorems": [
    "C51_donchian_default_midpoint_refuted"
   ],
   "note": "Refutation, binary64 witness."
  },
  {
   "property": "C52",
   "status": "proved",
   "theorems": [
    "C52_ulcer_formula",
    "C52_ulcer_in_0_100",
    "C52_ulcer_0_when_never_falling"
   ],
   "note": "Exact arithmetic (XR), finite data."
  },
  {
   "property": "C53",
   "status": "proved",
   "theorems": [
    "C53_obv_accumulates",
    "C53_adi_accumulates",
    "C53_adi_step_bounded"
   ],
   "note": "Exact arithmetic (XR), finite data; ADI for low <= close <= high."
  },
  {
   "property": "C54",
   "status": "proved",
   "theorems": [
    "C54_cmf_formula",
    "C54_cmf_in_range"
   ],
   "note": "Exact arithmetic (XR), finite data with low <= close <= high and volume >= 0."
  },
  {
   "property": "C55",
   "status": "proved",
   "theorems": [
    "C55_mfi_in_0_100"
   ],
   "note": "Exact arithmetic (XR), arbitrary rows, any window."
  },
  {
   "property": "C56",
   "status": "proved",
   "theorems": [
    "C56_vwap_formula",
    "C56_vwap_in_range"
   ],
   "note": "Exact arithmetic (XR), finite data."
  },
  {
   "property": "C57",
   "status": "proved",
   "theorems": [
    "C57_nvi_formula",
    "C57_nvi_positive",
    "C57_nvi_recursion"
   ],
   "note": "Exact arithmetic (XR), finite data with non-zero closes."
  },
  {
   "property": "C58",
   "status": "proved",
   "theorems": [
    "C58_force_index",
    "C58_ease_of_movement",
    "C58_sma_ease_of_movement",
    "C58_full_window_mean",
    "C58_volume_price_trend",
    "C58_smoothed_volume_price_trend",
    "C58_volume_price_trend_dropnans"
   ],
   "note": "Exact arithmetic (XR), finite data; ease of movement for non-zero volume, volume-price trend for non-zero closes."
  },
  {
   "property": "C59",
   "status": "proved",
   "theorems": [
    "C59_psar_default_labels",
    "C59_labels_irrelevant",
    "C59_psar_labels_refuted"
   ],
   "note": "Positive parts: every Arith. Refutation: binary64 witnesses."
  },
  {
   "property": "C60",
   "status": "proved",
   "theorems": [
    "C60_scaling"
   ],
   "note": "Exact arithmetic; every public series with its factor (SpecScale.v); prices and volumes scaled independently; missing and infinite cells allowed."
  },
  {
   "property": "C61",
   "status": "proved",
   "theorems": [
    "C61_translation",
    "C61_wma_fillna_refuted"
   ],
   "note": "Exact arithmetic; every series in the table follows (SpecScale.v). WMA with fillna=True does not follow (refuted): its warm-up rows are 0."
  },
  {
   "property": "C62",
   "status": "proved",
   "theorems": [
    "C62_dropna_rows",
    "C62_dropna_idempotent",
    "C62_negative_infinity_survives"
   ],
   "note": "Every Arith with the NaN laws; the infinities over the extended reals (binary64 example beside it)."
  },
  {
   "property": "C63",
   "status": "proved",
   "theorems": [
    "C63_all_features",
    "C63_column_count",
    "C63_volume",
    "C63_volatility",
    "C63_trend",
    "C63_momentum",
    "C63_others"
   ],
   "note": "Every Arith. Input column names must not be among the output names."
  },
  {
   "property": "C64",
   "status": "proved",
   "theorems": [
    "C64_idempotent",
    "C64_vectorized_subset"
   ],
   "note": "Every Arith."
  },
  {
   "property": "C65",
   "status": "proved",
   "theorems": [
    "C65_long_enough",
    "C65_too_short",
    "C65_vectorized",
    "C65_vectorized_empty",
    "C65_missing_column"
   ],
   "note": "Every Arith. Stronger than stated: gives the exception and the columns present for every row count."
  },
  {
   "property": "C66",
   "status": "proved",
   "theorems": [
    "C66_stochastic_bound_in_binary64_refuted"
   ],
   "note": "Refutation, binary64 witness."
  },
  {
   "property": "C67",
   "status": "proved",
   "theorems": [
    "C67_mfi_formula"
   ],
   "note": "Exact arithmetic (XR), finite data."
  },
  {
   "property": "C68",
   "status": "proved",
   "theorems": [
    "C68_psar_recursion"
   ],
   "note": "Exact arithmetic (XR), finite data, default index."
  },
  {
   "property": "C69",
   "status": "proved",
   "theorems": [
    "C69_function_and_class_defaults_agree",
    "C69_exceptions_refuted"
   ],
   "note": "Every Arith; the listed exceptions are refuted."
  },
  {
   "property": "C70",
   "status": "proved",
   "theorems": [
    "C70_macd_line_ignores_signal_window",
    "C70_ppo_pvo_line_ignores_signal_window",
    "C70_kst_ignores_signal_window",
    "C70_ichimoku_unused_windows",
    "C70_bollinger_mavg_ignores_dev",
    "C70_keltner_original_ignores_atr",
    "C70_keltner_mband_ignores_multiplier",
    "C70_stochrsi_ignores_smoothing",
    "C70_stoch_ignores_smoothing"
   ],
   "note": "Every Arith."
  },
  {
   "property": "C71",
   "status": "proved",
   "theorems": [
    "C71_mirror_image",
    "C71_rsi_mirror",
    "C71_ultimate_oscillator_mirror",
    "C71_psar_mirror",
    "C71_psar_one_turn_refuted"
   ],
   "note": "every series except the price-ratio ones (ROC, PPO, TRIX, KST, returns, VPT, NVI, Ulcer, band widths), StochRSI and OBV; UO for finite bars with low <= close <= high, fillna=False; PSAR mirrors only after two common reversals, refuted for one"
  },
  {
   "property": "C72",
   "status": "proved",
   "theorems": [
    "C72_name_identifies_series",
    "C72_keltner_names_refuted"
   ],
   "note": "Every arithmetic; the exception (borrowed names) is a refutation."
  },
  {
   "property": "C73",
   "status": "proved",
   "theorems": [
    "C73_finite_memory",
    "C73_finite_memory_anew",
    "C73_sections",
    "C73_sections_anew",
    "C73_sharp",
    "C73_binary64_refuted",
    "C73_ema_unbounded"
   ],
   "note": "Bound in exact arithmetic, and in every arithmetic for the series without running sums; binary64 refutations for SMA, VWAP, CMF, Bollinger. Sharpness: binary64 witnesses, one per series, beyond rounding."
  },
  {
   "property": "C74",
   "status": "proved",
   "theorems": [
    "C74_ema_forgets",
    "C74_macd_forgets",
    "C74_atr_forgets"
   ],
   "note": "Exact arithmetic."
  },
  {
   "property": "C75",
   "status": "proved",
   "theorems": [
    "C75_stochrsi_formula"
   ],
   "note": "Exact arithmetic."
  },
  {
   "property": "C76",
   "status": "proved",
   "theorems": [
    "C76_no_missing_cell",
    "C76_psar_all_or_none",
    "C76_psar_column_filled_refuted"
   ],
   "note": "The exception (an empty PSAR column) is a binary64 refutation."
  },
  {
   "property": "C77",
   "status": "proved",
   "theorems": [
    "C77_superposition"
   ],
   "note": "Exact arithmetic."
  },
  {
   "property": "C78",
   "status": "proved",
   "theorems": [
    "C78_monotone",
    "C78_keltner_hband_refuted"
   ],
   "note": "Exact arithmetic."
  },
  {
   "property": "C79",
   "status": "proved",
   "theorems": [
    "C79_ranges_in_binary64",
    "C79_atr_not_negative_in_binary64"
   ],
   "note": "Binary64 with rounding, via Flocq."
  },
  {
   "property": "C80",
   "status": "proved",
   "theorems": [
    "C80_bollinger_ordered_in_binary64",
    "C80_keltner_ordered_in_binary64",
    "C80_donchian_ordered_in_binary64",
    "C80_donchian_pband_in_binary64"
   ],
   "note": "Binary64 with rounding, via Flocq."
  },
  {
   "property": "C81",
   "status": "proved",
   "theorems": [
    "C81_stochastic_one_rounding_past_100",
    "C81_williams_one_rounding_past_minus_100",
    "C81_bound_is_next_after_100"
   ],
   "note": "Binary64; complements the refutation C66."
  },
  {
   "property": "C82",
   "status": "proved",
   "theorems": [
    "C82_returns_above_minus_100_in_binary64",
    "C82_nvi_not_negative_in_binary64",
    "C82_ema_not_negative_in_binary64"
   ],
   "note": "Binary64 with rounding, via Flocq."
  },
  {
   "property": "C83",
   "status": "proved",
   "theorems": [
    "C83_ema_rounding_does_not_accumulate",
    "C83_macd_rounding_does_not_accumulate"
   ],
   "note": "Binary64 against real arithmetic, via Flocq."
  },
  {
   "property": "C84",
   "status": "proved",
   "theorems": [
    "C84_donchian_bands_exact",
    "C84_obv_exact",
    "C84_sma_correctly_rounded",
    "C84_any_order_of_additions"
   ],
   "note": "Binary64 against real arithmetic, via Flocq."
  },
  {
   "property": "C85",
   "status": "proved",
   "theorems": [
    "C85_still_market"
   ],
   "note": "Binary64 with rounding, via Flocq."
  },
  {
   "property": "C86",
   "status": "proved",
   "theorems": [
    "C86_recovers",
    "C86_recovers_anew",
    "C86_kama_lost",
    "C86_atr_lost",
    "C86_directional_lost",
    "C86_adx_lost",
    "C86_psar_lost",
    "C86_nvi_lost",
    "C86_obv_counts_gap_as_rise",
    "C86_vpt_zero_price",
    "C86_nvi_zero_price"
   ],
   "note": "Any arithmetic satisfying the NaN laws; recovery of series with running sums and the zero-price theorems in exact arithmetic."
  },
  {
   "property": "C87",
   "status": "proved",
   "theorems": [
    "C87_errors_not_amplified",
    "C87_atr",
    "C87_keltner_ema",
    "C87_vwap",
    "C87_psar_refuted"
   ],
   "note": "Exact arithmetic."
  },
  {
   "property": "C88",
   "status": "proved",
   "theorems": [
    "C88_stop_on_its_side",
    "C88_reversal_at_extreme",
    "C88_inside_prices",
    "C88_stop_falls_back_only_to_bars",
    "C88_stop_never_falls_refuted"
   ],
   "note": "Binary64 with rounding; the refutation by a computed witness."
  },
  {
   "property": "C89",
   "status": "proved",
   "theorems": [
    "C89_resting_values",
    "C89_rsi_stands_still",
    "C89_directional_stand_still",
    "C89_rsi_stands_still_in_binary64_refuted"
   ],
   "note": "Exact arithmetic; the refutation in binary64 by a computed witness."
  },
  {
   "property": "C90",
   "status": "proved",
   "theorems": [
    "C90_differences",
    "C90_signal_lines",
    "C90_kst_signal",
    "C90_stochrsi",
    "C90_channels",
    "C90_donchian",
    "C90_middle_lines",
    "C90_keltner_lines",
    "C90_ichimoku",
    "C90_awesome",
    "C90_pvo",
    "C90_exact",
    "C90_exact_in_binary64_refuted"
   ],
   "note": "Bit-for-bit identities in any arithmetic; C90_exact over the reals, its binary64 failure by computed witnesses."
  },
  {
   "property": "C91",
   "status": "proved",
   "theorems": [
    "C91_steady_trend",
    "C91_ema_lag"
   ],
   "note": "Exact arithmetic."
  },
  {
   "property": "C92",
   "status": "proved",
   "theorems": [
    "C92_signs",
    "C92_averages_trail",
    "C92_faster_sma_leads",
    "C92_faster_ema_leads",
    "C92_no_other_side",
    "C92_macd_rounds_refuted"
   ],
   "note": "Exact arithmetic; the binary64 exception is C92_macd_rounds_refuted."
  },
  {
   "property": "C93",
   "status": "proved",
   "theorems": [
    "C93_exact_rows_are_their_window",
    "C93_sma_refuted",
    "C93_vwap_outside_refuted",
    "C93_cmf_outside_refuted",
    "C93_bands_refuted",
    "C93_sma_not_negative"
   ],
   "note": "Exact arithmetic for the window theorem; the _refuted theorems are binary64, for every number of later rows; the sign theorem is binary64."
  },
  {
   "property": "C94",
   "status": "proved",
   "theorems": [
    "C94_sma_drift",
    "C94_bollinger_middle_drift",
    "C94_awesome_drift"
   ],
   "note": "Binary64 against the real-number formulas. The bound is relative to the largest price so far in the frame, as it must be (C93), and grows with the row number; Kahan compensation is in the model but the bound does not use it."
  },
  {
   "property": "C95",
   "status": "proved",
   "theorems": [
    "C95_bollinger_wider",
    "C95_keltner_wider",
    "C95_donchian_wider",
    "C95_bollinger_signals",
    "C95_keltner_signals",
    "C95_bollinger_window_refuted"
   ],
   "note": "Binary64; the lemmas are proved for every arithmetic with monotone rounding, so they hold in exact arithmetic too."
  },
  {
   "property": "C96",
   "status": "proved",
   "theorems": [
    "C96_obv",
    "C96_adi",
    "C96_vpt",
    "C96_nvi",
    "C96_force_index",
    "C96_ease_of_movement",
    "C96_sma_ease_of_movement",
    "C96_cmf",
    "C96_vwap",
    "C96_mfi",
    "C96_obv_binary64",
    "C96_mfi_binary64",
    "C96_vwap_refuted"
   ],
   "note": "Exact arithmetic; OBV and MFI also in binary64. The VWAP is refuted in binary64 by what rounding leaves in the running sums."
  },
  {
   "property": "C97",
   "status": "proved",
   "theorems": [
    "C97_wma_rounding",
    "C97_atr_rounding",
    "C97_keltner_rounding",
    "C97_force_index_rounding"
   ],
   "note": "Binary64 against the real-number formulas. Covers the EMA version of the Keltner channel (original_version=False); the other one uses running sums (C94)."
  },
  {
   "property": "C98",
   "status": "proved",
   "theorems": [
    "C98_repeats",
    "C98_climbs",
    "C98_whole_periods_level_out",
    "C98_ema_growth"
   ],
   "note": "Exact arithmetic."
  },
  {
   "property": "C99",
   "status": "proved",
   "theorems": [
    "C99_oscillators_swing",
    "C99_on_balance_volume_swings",
    "C99_accumulation_distribution_swings",
    "C99_chaikin_money_flow_swings"
   ],
   "note": "Exact arithmetic."
  },
  {
   "property": "C100",
   "status": "proved",
   "theorems": [
    "C100_obv_signed",
    "C100_obv_as_float",
    "C100_obv_uint64",
    "C100_obv_unsigned",
    "C100_adi_cmf_signed",
    "C100_adi_cmf_unsigned",
    "C100_kama_integer_refuted",
    "C100_unsigned_volume_refuted"
   ],
   "note": "Model of numpy's fixed-width integers in IntColumns.v; the price part in exact arithmetic. Refuted for unsigned columns (C100_unsigned_volume_refuted and the _unsigned theorems say what is shown instead)."
  },
  {
   "property": "C101",
   "status": "proved",
   "theorems": [
    "C101_histories",
    "C101_filled_histories",
    "C101_returned_series_stay",
    "C101_constructor_raises",
    "C101_moving_columns",
    "C101_kept_series_refuted",
    "C101_fed_series_refuted",
    "C101_mixed_columns_refuted"
   ],
   "note": "Objects.v splits every class into constructor and methods and adds the caller's writes; compute_object shows that construct-and-call is what compute models. Isolation without fillna is refuted for exactly the kept series (C101_kept_series_refuted for all of them, C101_fed_series_refuted one case per line of the table feeds)."
  },
  {
   "property": "C102",
   "status": "proved",
   "theorems": [
    "C102_same_index",
    "C102_result_index",
    "C102_no_later_row",
    "C102_missing_rows",
    "C102_outer_join",
    "C102_by_position",
    "C102_adx_indexes",
    "C102_unmatched",
    "C102_missing_rows_refuted",
    "C102_outer_join_refuted",
    "C102_no_later_row_refuted"
   ],
   "note": "Apart.v transcribes every class with columns that carry their own labels. The tables index_from, by_label, strict, joins_first, by_position and must_cover say which series each part covers; C102_missing_rows_refuted, C102_outer_join_refuted and C102_no_later_row_refuted show that the remaining ones differ."
  },
  {
   "property": "C103",
   "status": "proved",
   "theorems": [
    "C103_roc",
    "C103_stochastic",
    "C103_williams",
    "C103_daily_return",
    "C103_cumulative_return",
    "C103_rsi",
    "C103_ppo",
    "C103_pvo",
    "C103_daily_return_relative_refuted"
   ],
   "note": "C103_daily_return_relative_refuted shows that the relative bound proved for ROC fails for the daily return. RSI is bounded at rows where the average gain or loss is positive."
  },
  {
   "property": "C104",
   "status": "proved",
   "theorems": [
    "C104_ema",
    "C104_macd",
    "C104_rsi",
    "C104_tsi",
    "C104_kama",
    "C104_atr",
    "C104_keltner",
    "C104_directional",
    "C104_totals",
    "C104_rows_needed"
   ],
   "note": "RSI, TSI and the directional indicators are bounded at rows whose denominator is positive on the tail."
  },
  {
   "property": "C105",
   "status": "proved",
   "theorems": [
    "C105_macd",
    "C105_ppo",
    "C105_pvo",
    "C105_tsi",
    "C105_trix",
    "C105_mass_index",
    "C105_kama",
    "C105_kst",
    "C105_ichimoku",
    "C105_band_indicators"
   ],
   "note": "All series of C09 except STC (its ranges can be arbitrarily small) and smoothed VPT with dropnans (rows move)."
  },
  {
   "property": "C106",
   "status": "proved",
   "theorems": [
    "C106_two_reversals_forget",
    "C106_one_reversal_refuted",
    "C106_flat_market_never_forgets"
   ],
   "note": "fillna=False; with fillna=True cells are filled from neighbouring rows (C07)."
  },
  {
   "property": "C107",
   "status": "proved",
   "theorems": [
    "C107_vwap",
    "C107_cmf"
   ],
   "note": "pandas' compensated running sum as modelled in Rolling.v; see C93 for single running sums."
  },
  {
   "property": "C108",
   "status": "proved",
   "theorems": [
    "C108_cci",
    "C108_lost_deviation_refuted"
   ],
   "note": "The range of C33 does not survive rounding (C108_lost_deviation_refuted)."
  },
  {
   "property": "C109",
   "status": "proved",
   "theorems": [
    "C109_mfi",
    "C109_tie_refuted"
   ],
   "note": "The condition on ties is necessary (C109_tie_refuted)."
  },
  {
   "property": "C110",
   "status": "proved",
   "theorems": [
    "C110_ulcer",
    "C110_zero"
   ],
   "note": ""
  },
  {
   "property": "C111",
   "status": "proved",
   "theorems": [
    "C111_nvi",
    "C111_crash_refuted"
   ],
   "note": "The condition on halved closes is needed in some form (C111_crash_refuted)."
  },
  {
   "property": "C112",
   "status": "proved",
   "theorems": [
    "C112_obv",
    "C112_adi",
    "C112_lost_volume_refuted"
   ],
   "note": "Measuring against the traded volume and not the total is needed (C112_lost_volume_refuted)."
  },
  {
   "property": "C114",
   "status": "proved",
   "theorems": [
    "C114_ease_of_movement",
    "C114_ease_of_movement_same_way",
    "C114_against_refuted"
   ],
   "note": ""
  },
  {
   "property": "C113",
   "status": "proved",
   "theorems": [
    "C113_force_index_sign",
    "C113_wrong_sign_refuted"
   ],
   "note": ""
  }
 ]
}