# Machine-checked model of bukosabino/ta

## What is here

* `rocq/theories/` — the model of `/repo/ta` and the proofs (Rocq/Coq 8.16.1, standard library and Flocq).
* `properties.jsonl` — the claims, in terms of the public API.
* `MANIFEST.json` — claim -> theorem names and status.
* `seeded/LOG.jsonl` — mutation tests of the theorems.
* `tools/gen_conformance.py` — generates `Conformance.v` (tests of the model, not proofs).

## Model

ta computes on float64 pandas columns. The model is written once over an
abstract arithmetic `Arith F` (Arith.v: the float operations the code uses)
and instantiated twice:

* `xr`: exact reals plus NaN, +inf, -inf (one unsigned zero, x/0 = ±inf,
  0/0 = NaN, inf-inf = NaN, comparisons with NaN false). Used for formulas,
  ranges and invariances.
* binary64 (`FloatArith.v`, Coq primitive floats). Executable; used for
  refutations that must survive rounding, for the conformance tests, and for
  the theorems about rounded results (C79-C85, C88).

FloatReal.v proves, with Flocq, that every binary64 operation is the exact
`xr` operation followed by rounding. Order.v lists the order laws (`RoundLaws`)
that both instances satisfy; the range theorems for binary64 are proved from
these laws, so they hold for all data, overflow and rounding included.

Structural theorems (one row per input row, no look-ahead, gap filling,
wrapper columns) are proved for **every** `Arith`, hence also for binary64.
Where a theorem needs a rolling sum, mean or deviation to depend on its window
only (`Windowed`, Rows.v; an instance for `xr` in Running.v) it is stated for
exact arithmetic, with a binary64 counterexample beside it.

| file | models |
|---|---|
| Arith.v, FloatArith.v | float64 scalars |
| Series.v | pandas 1.3.5 / numpy 1.21.5 operations used by ta (versions pinned in requirements-core.txt) |
| Utils.v | ta/utils.py |
| Momentum.v, Trend.v, Volatility.v | ta/momentum.py, ta/trend.py, ta/volatility.py |
| Volume.v | ta/volume.py, ta/others.py |
| IntColumns.v | OBV, ADI, CMF and KAMA on integer columns |
| Apart.v | every series for columns with indexes of their own: pandas' alignment by label, numpy's by position |
| Objects.v | one indicator object: constructor, methods, sharing of series, the caller's writes |
| Wrapper.v | ta/wrapper.py |
| Defaults.v | default arguments of every class and every module-level function |
| Names.v | the `name=` of every returned series |
| Api.v | one constructor per public series, with `compute` calling the model (no logic of its own) |

The rest of `rocq/theories/`: `Spec*.v` hold the specifications used in the
statements, `P_*.v` the property theorems (one `exact` each, with
`Print Assumptions` and satisfiability examples), the other files the lemmas;
Samples.v the concrete data of the examples; Conformance.v the replayed tests.

Python exceptions are values of `result` (`Ok`/`Raise`). Window arguments are
`Z`, so negative and zero windows are in scope (including ATR's, which index
numpy arrays from the end: `atr_wrapped`).

### Not modelled / simplifications

* Columns are float64 and, except in Apart.v (C102), all columns of one call share
  one index (as the columns of one DataFrame do). Apart.v gives each column its own
  index; labels are integers that increase strictly within a column (duplicated or
  unordered labels, which pandas joins differently, are not modelled; nor is ADX on
  an empty column beside a one-row column). Row labels are modelled only where the code's
  result depends on them (PSAR, trend.py:1030). Integer columns are modelled for
  OBV, ADI, CMF and KAMA (IntColumns.v, C100), not elsewhere (where an integer sum
  of prices could overflow; all other series turn the column into float64 first). Object dtypes and
  duplicated column names are out of scope.
* An object's stored series and the caller's writes are modelled in Objects.v
  (C101): in-place writes of one entry of a returned series or one row of the
  columns passed in. `pd.Series(series, name=...)` shares its data in pandas 1.3.5;
  `replace`, `ffill`, `bfill`, `fillna`, `shift` and arithmetic return new data
  (transcribed from the pinned version). Writes that enlarge a series or change its
  type, and writes to underscore attributes, are not modelled. All other theorems
  are about "construct the object, call one method", which is also what the
  module-level functions do.
* `rolling().sum/mean/std` follow pandas 1.3.5 (`_libs/window/aggregations.pyx`,
  roll_sum, roll_mean, roll_var): each row takes out the value that leaves the
  window, then puts in the new one, with Kahan compensation (separate for
  additions and removals), Welford's update for the variance, and the clamps of
  calc_mean and zsqrt. `rolling().max/min/apply` see one window at a time. In
  exact arithmetic both are the sum, mean and deviation of the window
  (`windowed_xr`, C93); theorems for any arithmetic that need this are stated for
  exact arithmetic, and C93 shows what binary64 does instead. The pandas source is
  not in /repo; the update is transcribed from the pinned version.
* `np.sum/np.mean` and `Series.sum/mean` add in numpy's order (1.21.5,
  DOUBLE_pairwise_sum: `lanes`, `in_pairs`, `pairwise`): eight interleaved running
  sums up to 128 terms, halves above; missing values count as 0 in a Series.
  `Sums.v` shows that each term is added exactly once, which is all the proofs
  use. The numpy source is not in /repo; the order is transcribed from the pinned
  version. `cumsum` adds left to right.
* The `xr` instance has one zero: the sign of zero (visible only as the sign
  of x/0) is not modelled there.
* float overflow is not modelled in `xr` (it is in binary64).
* Warnings, copies/views (`SettingWithCopy`), performance.
* `np.log` is a parameter of daily_log_return (`xln` at the `xr` instance);
  `math.exp(709)` is a parameter of dropna.

### Conformance (tests)

`Conformance.v` replays every distinct unit test of /repo/test/unit (67 after
removing duplicates) on the binary64 instance with the CSV data and pandas'
default tolerances. All pass. This checks the model of pandas as well as the
model of ta; it proves nothing about other inputs.

## Trusted base

* Coq 8.16.1's kernel (and its VM and primitive floats/integers for
  `vm_compute` and binary64 facts).
* The axioms listed by `Print Assumptions` under each theorem. They are all
  from the standard library:
  * Reals: `ClassicalDedekindReals.sig_forall_dec`,
    `ClassicalDedekindReals.sig_not_dec`,
    `FunctionalExtensionality.functional_extensionality_dep`, and
    `Classical_Prop.classic` where real analysis lemmas use it;
  * primitive floats/ints: the primitive types and operations of
    `Coq.Floats.PrimFloat` and `Coq.Numbers.Cyclic.Int63`, and
    `Coq.Floats.FloatAxioms` and the `Coq.Numbers.Cyclic.Int63.Uint63`
    specification axioms where used.
  Flocq adds none.
  No axiom is added by this development. The appendix lists them theorem by
  theorem.
* The correspondence of the model with the Python code and with pandas/numpy
  (read and cited, tested by Conformance.v, not proved).

## How each property is stated and proved

Inputs of a call are bars `list (bar F)` (label/high/low/close/volume per row)
or a close series; the columns are projections, so lengths agree. `tab n f`
is the series f 0, ..., f (n-1); exact formulas are stated on arbitrary
real-valued data `tab n (fun i => Fin (c i))` with plain sums, maxima given by
their order properties, and recurrences.

| id | modelled how / proof plan |
|---|---|
| C01 | any Arith; length lemmas for every primitive; one theorem per API function |
| C02, C03 | any Arith; `no_lookahead f`: if f succeeds on rows and on rows ++ more, the first rows of the second result are the first result; each primitive commutes with taking a prefix |
| C04 | xr (finite data) for DPO/TRIX/Vortex; any Arith for KAMA; the contaminated rows are shown to be masked |
| C05 | binary64 and/or xr witnesses computed by vm_compute |
| C06, C07 | any Arith satisfying NaN laws; induction on the fill |
| C08 | relation between the two runs, row by row |
| C09 | binary64 witnesses |
| C10 | exact lengths: xr, finite data, from the formulas; never earlier: missing rows followed through every operation (Quiet.v), any Arith |
| C11 | case analysis of the guards, per function |
| C12-C18 | xr; formula via `tab`; EMA closed form by induction; ranges by convexity |
| C19, C25, C26, C55 | xr, any data incl. NaN/inf: Forall invariants through rolling/ewm |
| C20-C24, C27-C33, C36, C43-C50, C52-C58 | xr; formula via `tab`, then real inequalities |
| C34, C35 | xr; smoothing invariants S(+DM)+S(-DM) <= S(TR), formula by unrolling the recursion |
| C37-C42, C59 | PSAR as a state machine; invariants by induction on rows; refutations by computation |
| C51, C66, C29, C39, C42 | refutations: concrete witnesses (vm_compute on binary64, or exact reals) |
| C60, C61 | xr, any data: scaling/translation commute with every primitive |
| C62 | any Arith satisfying NaN laws; filter reasoning |
| C63-C65 | any Arith; frame as ordered association list, state+exception monad |
| C67, C68 | xr; MFI via `tab` sums; PSAR: a separate step function on finite bars, shown equal to the loop |
| C69, C70 | any Arith; case analysis over every function, unfolding |
| C71 | xr, any data: negation commutes with (or swaps) every primitive; UO through its formula (UoMirror.v); PSAR: the traces mirror each other after two common reversals (SarMirror.v) |
| C72 | strings; decimal printing is injective; comparison of all pairs of methods |
| C73 | any Arith; `finite_memory m f`: from row m on, prepending rows makes no difference; per primitive, then a table; sharpness by binary64 witnesses |
| C74 | xr; difference of two exponential averages by induction |
| C75 | xr; RSI formula fed through the rolling range and means, undefined rows tracked |
| C76 | xr; fill lemmas per series, composed along the wrapper; PSAR back/forward fill for any Arith; binary64 witness for the empty column |
| C77 | xr; closed forms of the series, linearity of finite sums and of the exponential recursion |
| C78 | xr; closed forms, monotonicity of means, exponential averages, window maxima and minima; a one-row counterexample for the upper Keltner band |
| C79, C80, C82 | any arithmetic with the order laws, then binary64: order invariants through fill, rolling, ewm and the recursions, every operation only assumed monotone; no exactness used |
| C81 | binary64; relative error of one multiplication and one division (Flocq), window extremes exact |
| C83 | binary64 against reals: error of one ewm step (EmaError.v), a contraction keeps the accumulated error bounded, exact averages are 1-Lipschitz so averages of averages compose |
| C84 | binary64 against reals: comparisons and gap filling commute with `val`; sums of multiples of 2^e are exact below 2^53 |
| C85 | binary64: pandas' shortcut `avg == cur` in ewm, x-x = 0, 0*y and 0/y are 0 or missing |
| C86 | any Arith with the NaN laws: NaN is absorbing in each recursion (`missing_from`, `frozen_from`), recovery from C73 and C11; zero prices on XR |
| C87 | XR, finite frames: Lipschitz constants (`gain`) from the formulas; standard deviation by Cauchy-Schwarz; PSAR refuted by a 3-row frame for every error size |
| C88 | stop side and reversal rows from the order laws of Order.v, so in binary64 for any data; range and fall-back in binary64 via Flocq: a step of at most half the rounded distance never passes its target; witness for the refutation |
| C89 | the formula theorems on constant columns, carried over to any history by C73; RSI and +DI/-DI: both averages shrink by the same factor; witness of about 11000 rows for the refutation |
| C90 | the chains of calls compared for any arithmetic; the three exact identities from the formula theorems; computed witnesses for binary64 |
| C91 | the formula theorems on linear columns (sums of integers and squares), carried over to any history by C73; EMA by its recursion |
| C92 | the formula theorems; averages of a one-way column by induction on the recursion (EMA, KAMA) and on the window (SMA) |
| C93 | running state follows the window (XR); binary64: the state reaches a fixed point, computed, then induction on the number of rows |
| C94 | one compensated addition loses at most 6u of the window's size; invariant of the running state by induction on rows; clamps of calc_mean only help |
| C95 | monotone rounding of m +- k * s with s >= 0; window of w rows is part of the window of w' >= w rows |
| C96 | formulas of C53-C58 at v = 0, new formula for the ease of movement with a zero volume; binary64 zeros by case analysis and the absorbed running sums of C93 |
| C97 | error of any order of additions over the terms (Sums.v: totals), the true range is correctly rounded since rounding is monotone, contraction of Wilder's recursion, EMA tracking of C83 on top |
| C98 | sections of a frame (Local.v) two periods apart are related by the scaling of C60 or the translation of C61; whole periods by the window formulas |
| C99 | the two markets are lines through p with slopes +b and -b, b small; values from the steady-trend table of C91 and the formulas of C21 (RSI), C26 (TSI) and C53 (OBV, ADI) |
| C100 | fixed-width integer arithmetic as wrap-around (IntColumns.v); running sums modulo 2^64 by induction; agreement with the float column through C84 |
| C101 | constructor/method split (Objects.v); which stored series each method reads; invariant over histories: a returned series is a view of the stored series of the method that returned it |
| C102 | columns as labelled lists (Apart.v); relations on columns (cut at a label, index, gap at a label) carried through every operation |
| C103 | cell-by-cell error analysis of quotients (RatioError.v), the averages' bounds from C83 carried through the quotient (RsiError.v, PpoError.v) |
| C104 | recurrences of the full and of the cut history compared row by row (Start.v), on top of the formulas of C13, C17, C20, C26, C28, C35, C45, C49, C53, C57, C58 |
| C105 | the same average seeded at row 0 and at its first complete row (Fade.v), on top of the formulas of C17, C18, C26, C28, C43, C44, C47, C49 |
| C106 | the PSAR trace of Sar.v: a common reversal makes acceleration and extreme equal, the next one sets the stop to the common extreme (SarMeet.v) |
| C107 | running-sum error of RunningError.v for numerator and denominator, then a quotient with absolute errors on both sides (RollError.v) |
| C108 | running-mean error of RunningError.v, numpy's mean of absolute deviations by the sums of SumError.v, then a quotient with absolute errors on both sides (CciError.v) |
| C109 | relative errors: typical price, flow and its sign row by row, numpy's sum of same-signed terms, the quotient and the index (MfiError.v, SpecFlow.v) |
| C110 | two different binary64 prices differ by at least one unit in the last place, so the falls keep their relative precision; then the relative calculus of MfiError.v and a square root (UlcerError.v) |
| C111 | relative errors of the factors 1 + (c/p - 1), multiplied up by induction over the rows (NviError.v) |
| C112 | error of a running sum by induction over the rows, on top of the relative error of one money flow volume (TotalError.v) |
| C113 | error of one product of a change and a volume, carried through the tracked exponential average of FloatTrack.v (FiError.v) |
| C114 | differences of binary64 prices keep their relative precision; sums, products and reciprocals with errors relative to a size bound (EomError.v) |

## Appendix: what Print Assumptions lists for each theorem

<!-- axioms:begin -->

**Closed under the global context (no axioms)** (91 theorems):
C01_one_row_per_row, C02_backfilled_no_lookahead, C02_window_no_lookahead, C03_adx_no_lookahead, C03_psar_backfilled_no_lookahead, C03_psar_no_lookahead, C03_recursive_no_lookahead, C04_dpo_no_lookahead, C04_trix_no_lookahead, C06_no_gaps, C07_backward_fill, C07_constant_fill, C07_public_series_filled, C08_finite_rows_kept, C100_kama_integer_refuted, C100_obv_signed, C100_obv_uint64, C100_obv_unsigned, C101_constructor_raises, C101_filled_histories, C101_histories, C101_kept_series_refuted, C101_moving_columns, C101_returned_series_stay, C102_adx_indexes, C102_by_position, C102_missing_rows, C102_no_later_row, C102_outer_join, C102_result_index, C102_same_index, C102_unmatched, C106_two_reversals_forget, C10_never_earlier, C11_get_min_max, C11_raises_exactly, C37_psar_one_side_per_row, C50_donchian_offset, C59_labels_irrelevant, C59_psar_default_labels, C62_dropna_idempotent, C62_dropna_rows, C63_all_features, C63_column_count, C63_momentum, C63_others, C63_trend, C63_volatility, C63_volume, C64_idempotent, C64_vectorized_subset, C65_long_enough, C65_missing_column, C65_too_short, C65_vectorized, C65_vectorized_empty, C69_exceptions_refuted, C69_function_and_class_defaults_agree, C70_bollinger_mavg_ignores_dev, C70_ichimoku_unused_windows, C70_keltner_mband_ignores_multiplier, C70_keltner_original_ignores_atr, C70_kst_ignores_signal_window, C70_macd_line_ignores_signal_window, C70_ppo_pvo_line_ignores_signal_window, C70_stoch_ignores_smoothing, C70_stochrsi_ignores_smoothing, C72_keltner_names_refuted, C72_name_identifies_series, C73_finite_memory_anew, C73_sections_anew, C76_psar_all_or_none, C86_adx_lost, C86_atr_lost, C86_directional_lost, C86_kama_lost, C86_nvi_lost, C86_obv_counts_gap_as_rise, C86_psar_lost, C86_recovers_anew, C90_awesome, C90_channels, C90_differences, C90_donchian, C90_ichimoku, C90_keltner_lines, C90_kst_signal, C90_middle_lines, C90_pvo, C90_signal_lines, C90_stochrsi.

**the primitive types and operations of PrimFloat / PrimInt63 only** (31 theorems):
C04_vortex_kama_binary64_refuted, C05_lookahead_refuted, C08_running_means_binary64_refuted, C09_finite_rows_kept_refuted, C100_unsigned_volume_refuted, C101_fed_series_refuted, C101_mixed_columns_refuted, C102_missing_rows_refuted, C102_no_later_row_refuted, C102_outer_join_refuted, C106_one_reversal_refuted, C29_kama_filled_in_price_range_refuted, C39_psar_stop_side_refuted, C42_up_indicator_reports_start_refuted, C51_donchian_default_midpoint_refuted, C59_psar_labels_refuted, C66_stochastic_bound_in_binary64_refuted, C73_binary64_refuted, C73_sharp, C76_psar_column_filled_refuted, C81_bound_is_next_after_100, C88_stop_never_falls_refuted, C89_rsi_stands_still_in_binary64_refuted, C90_exact_in_binary64_refuted, C92_macd_rounds_refuted, C93_bands_refuted, C93_cmf_outside_refuted, C93_sma_refuted, C93_vwap_outside_refuted, C95_bollinger_window_refuted, C96_vwap_refuted.

**`sig_forall_dec`, `sig_not_dec`, `functional_extensionality_dep`** (180 theorems):
C04_kama_no_lookahead, C04_vortex_no_lookahead, C08_finite_rows_kept_exact, C100_adi_cmf_signed, C100_adi_cmf_unsigned, C104_atr, C104_directional, C104_ema, C104_kama, C104_keltner, C104_macd, C104_rsi, C104_totals, C104_tsi, C105_band_indicators, C105_ichimoku, C105_kama, C105_kst, C105_macd, C105_mass_index, C105_ppo, C105_pvo, C105_trix, C105_tsi, C106_flat_market_never_forgets, C12_sma_is_window_mean, C13_ema_recursion, C14_ema_over_gaps, C15_wma_weights, C16_ema_in_range, C16_sma_in_range, C16_wma_in_range, C17_macd_constant_series, C17_macd_structure, C18_ppo_structure, C18_pvo_is_ppo_of_volume, C19_rsi_in_0_100, C20_rsi_formula, C21_rsi_0_when_never_rising, C21_rsi_100_when_never_falling, C22_stochastic_in_0_100, C23_signal_is_moving_average, C23_stochastic_formula, C24_williams_in_range, C24_williams_is_stochastic_minus_100, C25_stochrsi_in_0_1, C26_tsi_falling, C26_tsi_formula, C26_tsi_in_range, C26_tsi_rising, C27_ultimate_oscillator_formula, C27_ultimate_oscillator_in_0_100, C28_kama_formula, C28_kama_in_price_range, C30_cumulative_return_formula, C30_returns_compound, C30_roc_1_is_daily_return, C30_roc_formula, C31_awesome_oscillator_formula, C32_aroon_formula, C32_aroon_range, C33_cci_bound, C33_cci_formula, C34_adx_in_0_100, C34_di_in_0_100, C35_adx_smoothing, C35_directional_indicators, C36_vortex_formula, C36_vortex_nonnegative, C36_vortex_positive_ranges, C38_psar_stop_side, C40_psar_inside_prices, C41_psar_reversal_indicators, C43_ichimoku_lines, C43_ichimoku_visual, C44_dpo_constant_close, C44_dpo_formula, C44_kst_constant_close, C44_kst_formula, C44_mass_index_constant_range, C44_mass_index_formula, C44_stc_formula, C44_stc_in_0_100, C44_trix_constant_close, C44_trix_formula, C45_atr_formula, C45_atr_needs_window_rows, C45_atr_negative_window, C45_atr_negative_window_needs_rows, C45_atr_window_zero, C46_bollinger_bands, C46_bollinger_ordered, C46_bollinger_pband, C46_bollinger_width, C47_bollinger_indicators, C47_indicators_agree_with_pband, C48_wide_bands_never_fire, C49_keltner_ema, C49_keltner_ema_width, C49_keltner_ordered, C49_keltner_original, C49_keltner_original_width, C50_donchian_bands, C50_donchian_pband_in_0_1, C50_donchian_width_pband, C52_ulcer_0_when_never_falling, C52_ulcer_formula, C52_ulcer_in_0_100, C53_adi_accumulates, C53_adi_step_bounded, C53_obv_accumulates, C54_cmf_formula, C54_cmf_in_range, C55_mfi_in_0_100, C56_vwap_formula, C56_vwap_in_range, C57_nvi_formula, C58_ease_of_movement, C58_force_index, C58_sma_ease_of_movement, C58_smoothed_volume_price_trend, C58_volume_price_trend, C58_volume_price_trend_dropnans, C61_translation, C61_wma_fillna_refuted, C62_negative_infinity_survives, C67_mfi_formula, C68_psar_recursion, C71_mirror_image, C71_psar_mirror, C71_psar_one_turn_refuted, C71_rsi_mirror, C71_ultimate_oscillator_mirror, C73_ema_unbounded, C73_finite_memory, C73_sections, C74_atr_forgets, C74_ema_forgets, C74_macd_forgets, C75_stochrsi_formula, C76_no_missing_cell, C77_superposition, C78_keltner_hband_refuted, C78_monotone, C86_nvi_zero_price, C86_recovers, C86_vpt_zero_price, C87_atr, C87_errors_not_amplified, C87_keltner_ema, C87_psar_refuted, C87_vwap, C89_directional_stand_still, C89_rsi_stands_still, C90_exact, C91_ema_lag, C91_steady_trend, C92_averages_trail, C92_faster_ema_leads, C92_faster_sma_leads, C92_no_other_side, C92_signs, C93_exact_rows_are_their_window, C96_adi, C96_cmf, C96_ease_of_movement, C96_force_index, C96_mfi, C96_nvi, C96_obv, C96_sma_ease_of_movement, C96_vpt, C96_vwap, C98_climbs, C98_ema_growth, C98_whole_periods_level_out, C99_accumulation_distribution_swings, C99_chaikin_money_flow_swings, C99_on_balance_volume_swings, C99_oscillators_swing.

**`sig_forall_dec`, `functional_extensionality_dep`** (11 theorems):
C13_ema_weights, C32_aroon_down_meaning, C32_aroon_up_meaning, C36_vortex_true_range, C43_midrange_in_range, C45_atr_bounds, C50_highest_is_attained, C50_lowest_is_attained, C57_nvi_positive, C57_nvi_recursion, C58_full_window_mean.

**`ClassicalDedekindReals.sig_forall_dec`, `ClassicalDedekindReals.sig_not_dec`, `Classical_Prop.classic`, `FloatAxioms.Prim2SF_SF2Prim`, `FloatAxioms.Prim2SF_valid`, `FloatAxioms.SF2Prim_Prim2SF`, `FloatAxioms.abs_spec`, `FloatAxioms.add_spec`, `FloatAxioms.div_spec`, `FloatAxioms.eqb_spec`, `FloatAxioms.leb_spec`, `FloatAxioms.ltb_spec`, `FloatAxioms.mul_spec`, `FloatAxioms.of_uint63_spec`, `FloatAxioms.opp_spec`, `FloatAxioms.sqrt_spec`, `FloatAxioms.sub_spec`, `FunctionalExtensionality.functional_extensionality_dep`, the primitive types and operations of PrimFloat / PrimInt63, `Uint63.add_spec`, `Uint63.eqb_correct`, `Uint63.eqb_refl`, `Uint63.leb_spec`, `Uint63.lor_spec`, `Uint63.lsl_spec`, `Uint63.lsr_spec`, `Uint63.ltb_spec`, `Uint63.of_to_Z`, `Uint63.sub_spec`** (24 theorems):
C103_rsi, C79_atr_not_negative_in_binary64, C79_ranges_in_binary64, C80_bollinger_ordered_in_binary64, C80_donchian_ordered_in_binary64, C80_donchian_pband_in_binary64, C80_keltner_ordered_in_binary64, C81_stochastic_one_rounding_past_100, C81_williams_one_rounding_past_minus_100, C82_ema_not_negative_in_binary64, C82_nvi_not_negative_in_binary64, C82_returns_above_minus_100_in_binary64, C88_reversal_at_extreme, C88_stop_falls_back_only_to_bars, C88_stop_on_its_side, C94_awesome_drift, C94_bollinger_middle_drift, C95_bollinger_signals, C95_bollinger_wider, C95_donchian_wider, C95_keltner_signals, C95_keltner_wider, C97_atr_rounding, C97_keltner_rounding.

**`ClassicalDedekindReals.sig_forall_dec`, `ClassicalDedekindReals.sig_not_dec`, `Classical_Prop.classic`, `FloatAxioms.Prim2SF_SF2Prim`, `FloatAxioms.Prim2SF_valid`, `FloatAxioms.SF2Prim_Prim2SF`, `FloatAxioms.abs_spec`, `FloatAxioms.add_spec`, `FloatAxioms.div_spec`, `FloatAxioms.eqb_spec`, `FloatAxioms.ltb_spec`, `FloatAxioms.mul_spec`, `FloatAxioms.of_uint63_spec`, `FloatAxioms.opp_spec`, `FloatAxioms.sub_spec`, `FunctionalExtensionality.functional_extensionality_dep`, the primitive types and operations of PrimFloat / PrimInt63, `Uint63.add_spec`, `Uint63.eqb_correct`, `Uint63.eqb_refl`, `Uint63.leb_spec`, `Uint63.lor_spec`, `Uint63.lsl_spec`, `Uint63.lsr_spec`, `Uint63.ltb_spec`, `Uint63.of_to_Z`, `Uint63.sub_spec`** (22 theorems):
C100_obv_as_float, C103_cumulative_return, C103_daily_return, C103_ppo, C103_pvo, C103_roc, C103_stochastic, C103_williams, C107_cmf, C107_vwap, C108_cci, C111_nvi, C112_adi, C112_obv, C113_force_index_sign, C114_ease_of_movement, C114_ease_of_movement_same_way, C83_ema_rounding_does_not_accumulate, C83_macd_rounding_does_not_accumulate, C85_still_market, C96_mfi_binary64, C97_force_index_rounding.

**`ClassicalDedekindReals.sig_forall_dec`, `FloatAxioms.Prim2SF_SF2Prim`, `FloatAxioms.Prim2SF_valid`, `FloatAxioms.SF2Prim_Prim2SF`, `FunctionalExtensionality.functional_extensionality_dep`, the primitive types and operations of PrimFloat / PrimInt63** (7 theorems):
C103_daily_return_relative_refuted, C108_lost_deviation_refuted, C109_tie_refuted, C111_crash_refuted, C112_lost_volume_refuted, C113_wrong_sign_refuted, C114_against_refuted.

**`ClassicalDedekindReals.sig_forall_dec`, `ClassicalDedekindReals.sig_not_dec`, `Classical_Prop.classic`, `FloatAxioms.Prim2SF_SF2Prim`, `FloatAxioms.Prim2SF_valid`, `FloatAxioms.SF2Prim_Prim2SF`, `FloatAxioms.abs_spec`, `FloatAxioms.add_spec`, `FloatAxioms.div_spec`, `FloatAxioms.eqb_spec`, `FloatAxioms.ltb_spec`, `FloatAxioms.of_uint63_spec`, `FloatAxioms.opp_spec`, `FloatAxioms.sub_spec`, `FunctionalExtensionality.functional_extensionality_dep`, the primitive types and operations of PrimFloat / PrimInt63, `Uint63.add_spec`, `Uint63.eqb_correct`, `Uint63.eqb_refl`, `Uint63.leb_spec`, `Uint63.lor_spec`, `Uint63.lsl_spec`, `Uint63.lsr_spec`, `Uint63.ltb_spec`, `Uint63.of_to_Z`, `Uint63.sub_spec`** (2 theorems):
C84_sma_correctly_rounded, C94_sma_drift.

**`ClassicalDedekindReals.sig_forall_dec`, `ClassicalDedekindReals.sig_not_dec`, `Classical_Prop.classic`, `FloatAxioms.Prim2SF_SF2Prim`, `FloatAxioms.Prim2SF_valid`, `FloatAxioms.SF2Prim_Prim2SF`, `FloatAxioms.abs_spec`, `FloatAxioms.eqb_spec`, `FloatAxioms.ltb_spec`, `FloatAxioms.of_uint63_spec`, `FloatAxioms.opp_spec`, `FunctionalExtensionality.functional_extensionality_dep`, the primitive types and operations of PrimFloat / PrimInt63, `Uint63.add_spec`, `Uint63.eqb_correct`, `Uint63.eqb_refl`, `Uint63.leb_spec`, `Uint63.lor_spec`, `Uint63.lsl_spec`, `Uint63.lsr_spec`, `Uint63.ltb_spec`, `Uint63.of_to_Z`, `Uint63.sub_spec`** (1 theorems):
C84_donchian_bands_exact.

**`ClassicalDedekindReals.sig_forall_dec`, `ClassicalDedekindReals.sig_not_dec`, `Classical_Prop.classic`, `FloatAxioms.Prim2SF_SF2Prim`, `FloatAxioms.Prim2SF_valid`, `FloatAxioms.SF2Prim_Prim2SF`, `FloatAxioms.abs_spec`, `FloatAxioms.add_spec`, `FloatAxioms.eqb_spec`, `FloatAxioms.ltb_spec`, `FloatAxioms.of_uint63_spec`, `FloatAxioms.opp_spec`, `FunctionalExtensionality.functional_extensionality_dep`, the primitive types and operations of PrimFloat / PrimInt63, `Uint63.add_spec`, `Uint63.eqb_correct`, `Uint63.eqb_refl`, `Uint63.leb_spec`, `Uint63.lor_spec`, `Uint63.lsl_spec`, `Uint63.lsr_spec`, `Uint63.ltb_spec`, `Uint63.of_to_Z`, `Uint63.sub_spec`** (1 theorems):
C84_obv_exact.

**`ClassicalDedekindReals.sig_forall_dec`, `ClassicalDedekindReals.sig_not_dec`, `Classical_Prop.classic`, `FloatAxioms.Prim2SF_SF2Prim`, `FloatAxioms.Prim2SF_valid`, `FloatAxioms.SF2Prim_Prim2SF`, `FloatAxioms.add_spec`, `FloatAxioms.eqb_spec`, `FunctionalExtensionality.functional_extensionality_dep`, the primitive types and operations of PrimFloat / PrimInt63** (1 theorems):
C84_any_order_of_additions.

**`sig_forall_dec`, `sig_not_dec`, `functional_extensionality_dep`, `Classical_Prop.classic`** (7 theorems):
C104_rows_needed, C10_warm_up_rows, C18_ppo_pvo_unit_free, C30_log_returns_add_up, C60_scaling, C89_resting_values, C98_repeats.

**`FloatAxioms.SF2Prim_Prim2SF`, `FloatAxioms.abs_spec`, `FloatAxioms.add_spec`, `FloatAxioms.div_spec`, `FloatAxioms.eqb_spec`, `FloatAxioms.ltb_spec`, `FloatAxioms.mul_spec`, `FloatAxioms.opp_spec`, `FloatAxioms.sub_spec`, the primitive types and operations of PrimFloat / PrimInt63** (1 theorems):
C96_obv_binary64.

**`ClassicalDedekindReals.sig_forall_dec`, `ClassicalDedekindReals.sig_not_dec`, `Classical_Prop.classic`, `FloatAxioms.Prim2SF_SF2Prim`, `FloatAxioms.Prim2SF_valid`, `FloatAxioms.SF2Prim_Prim2SF`, `FloatAxioms.abs_spec`, `FloatAxioms.add_spec`, `FloatAxioms.div_spec`, `FloatAxioms.eqb_spec`, `FloatAxioms.leb_spec`, `FloatAxioms.ltb_spec`, `FloatAxioms.mul_spec`, `FloatAxioms.of_uint63_spec`, `FloatAxioms.opp_spec`, `FloatAxioms.sub_spec`, `FunctionalExtensionality.functional_extensionality_dep`, the primitive types and operations of PrimFloat / PrimInt63, `Uint63.add_spec`, `Uint63.eqb_correct`, `Uint63.eqb_refl`, `Uint63.leb_spec`, `Uint63.lor_spec`, `Uint63.lsl_spec`, `Uint63.lsr_spec`, `Uint63.ltb_spec`, `Uint63.of_to_Z`, `Uint63.sub_spec`** (1 theorems):
C109_mfi.

**`ClassicalDedekindReals.sig_forall_dec`, `ClassicalDedekindReals.sig_not_dec`, `Classical_Prop.classic`, `FloatAxioms.Prim2SF_SF2Prim`, `FloatAxioms.Prim2SF_valid`, `FloatAxioms.SF2Prim_Prim2SF`, `FloatAxioms.eqb_spec`, `FloatAxioms.ltb_spec`, `FloatAxioms.of_uint63_spec`, `FloatAxioms.opp_spec`, `FunctionalExtensionality.functional_extensionality_dep`, the primitive types and operations of PrimFloat / PrimInt63, `Uint63.add_spec`, `Uint63.eqb_correct`, `Uint63.eqb_refl`, `Uint63.leb_spec`, `Uint63.lor_spec`, `Uint63.lsl_spec`, `Uint63.lsr_spec`, `Uint63.ltb_spec`, `Uint63.of_to_Z`, `Uint63.sub_spec`** (1 theorems):
C93_sma_not_negative.

**`ClassicalDedekindReals.sig_forall_dec`, `ClassicalDedekindReals.sig_not_dec`, `Classical_Prop.classic`, `FloatAxioms.Prim2SF_SF2Prim`, `FloatAxioms.Prim2SF_valid`, `FloatAxioms.SF2Prim_Prim2SF`, `FloatAxioms.abs_spec`, `FloatAxioms.add_spec`, `FloatAxioms.div_spec`, `FloatAxioms.eqb_spec`, `FloatAxioms.mul_spec`, `FloatAxioms.of_uint63_spec`, `FloatAxioms.opp_spec`, `FunctionalExtensionality.functional_extensionality_dep`, the primitive types and operations of PrimFloat / PrimInt63, `Uint63.add_spec`, `Uint63.eqb_correct`, `Uint63.eqb_refl`, `Uint63.leb_spec`, `Uint63.lor_spec`, `Uint63.lsl_spec`, `Uint63.lsr_spec`, `Uint63.ltb_spec`, `Uint63.of_to_Z`, `Uint63.sub_spec`** (1 theorems):
C97_wma_rounding.

**`ClassicalDedekindReals.sig_forall_dec`, `ClassicalDedekindReals.sig_not_dec`, `Classical_Prop.classic`, `FloatAxioms.Prim2SF_SF2Prim`, `FloatAxioms.Prim2SF_valid`, `FloatAxioms.SF2Prim_Prim2SF`, `FloatAxioms.add_spec`, `FloatAxioms.div_spec`, `FloatAxioms.leb_spec`, `FloatAxioms.ltb_spec`, `FloatAxioms.mul_spec`, `FloatAxioms.of_uint63_spec`, `FloatAxioms.opp_spec`, `FloatAxioms.sub_spec`, `FunctionalExtensionality.functional_extensionality_dep`, the primitive types and operations of PrimFloat / PrimInt63, `Uint63.add_spec`, `Uint63.eqb_correct`, `Uint63.eqb_refl`, `Uint63.leb_spec`, `Uint63.lor_spec`, `Uint63.lsl_spec`, `Uint63.lsr_spec`, `Uint63.ltb_spec`, `Uint63.of_to_Z`, `Uint63.sub_spec`** (1 theorems):
C88_inside_prices.

**`ClassicalDedekindReals.sig_forall_dec`, `ClassicalDedekindReals.sig_not_dec`, `Classical_Prop.classic`, `FloatAxioms.Prim2SF_SF2Prim`, `FloatAxioms.Prim2SF_valid`, `FloatAxioms.SF2Prim_Prim2SF`, `FloatAxioms.abs_spec`, `FloatAxioms.add_spec`, `FloatAxioms.div_spec`, `FloatAxioms.eqb_spec`, `FloatAxioms.ltb_spec`, `FloatAxioms.mul_spec`, `FloatAxioms.of_uint63_spec`, `FloatAxioms.opp_spec`, `FloatAxioms.sqrt_spec`, `FloatAxioms.sub_spec`, `FunctionalExtensionality.functional_extensionality_dep`, the primitive types and operations of PrimFloat / PrimInt63, `Uint63.add_spec`, `Uint63.eqb_correct`, `Uint63.eqb_refl`, `Uint63.leb_spec`, `Uint63.lor_spec`, `Uint63.lsl_spec`, `Uint63.lsr_spec`, `Uint63.ltb_spec`, `Uint63.of_to_Z`, `Uint63.sub_spec`** (2 theorems):
C110_ulcer, C110_zero.
<!-- axioms:end -->
