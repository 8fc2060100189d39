(** * P_Defaults: properties C51, C69 and C70 (module-level functions, default
    arguments, parameters without influence). *)
From Coq Require Import Floats.
From Verif Require Import Api Defaults FloatArith Samples DefaultsFacts.

(** C51. With default arguments donchian_channel_mband is not the midpoint of
    donchian_channel_hband and donchian_channel_lband: the former uses a window
    of 10, the latter two a window of 20. *)
Theorem C51_donchian_default_midpoint_refuted :
  let hband := call_function (call_donchian_channel_hband None None) None rising in
  let lband := call_function (call_donchian_channel_lband None None) None rising in
  let mband := call_function (call_donchian_channel_mband None None) None rising in
  last_of hband = 23%float /\ last_of lband = 3%float /\ last_of mband = 18%float /\
  PrimFloat.eqb (last_of mband) ((last_of hband + last_of lband) / 2)%float = false.
Proof. exact donchian_defaults. Qed.
Print Assumptions C51_donchian_default_midpoint_refuted.

(** C69. A module-level function called with any of its arguments left out
    computes what its class computes with the same arguments left out ... *)
Theorem C69_function_and_class_defaults_agree : forall F (A : Arith F) (c : call F),
  default_differs c = false -> by_class c = Some (by_function c).
Proof. exact @defaults_agree. Qed.
Print Assumptions C69_function_and_class_defaults_agree.

(** ... except ema_indicator, sma_indicator and donchian_channel_mband/wband/pband
    called without a window. *)
Theorem C69_exceptions_refuted : forall F (A : Arith F) (c : call F),
  default_differs c = true -> by_class c <> Some (by_function c).
Proof. exact @defaults_disagree. Qed.
Print Assumptions C69_exceptions_refuted.

Example C69_applies :
  default_differs (call_kst None (Some 3%Z) None None None None None None : call float) = false /\
  default_differs (call_ema_indicator (Some 14%Z) : call float) = false /\
  default_differs (call_ema_indicator None : call float) = true.
Proof. repeat split. Qed.

(** C70. Parameters without influence on the result: the ones a function does
    not expose (window_sign of macd, nsig of kst, window3/window1 of the
    Ichimoku lines, window_dev of bollinger_mavg) and the documented unused ones. *)
Theorem C70_macd_line_ignores_signal_window :
  forall F (A : Arith F) s f g g' fillna (rows : list (bar F)), (1 <= g)%Z -> (1 <= g')%Z ->
  compute (Macd s f g) fillna rows = compute (Macd s f g') fillna rows.
Proof. exact @macd_sign_irrelevant. Qed.
Print Assumptions C70_macd_line_ignores_signal_window.

Theorem C70_ppo_pvo_line_ignores_signal_window :
  forall F (A : Arith F) s f g g' fillna (rows : list (bar F)), (1 <= g)%Z -> (1 <= g')%Z ->
  compute (Ppo s f g) fillna rows = compute (Ppo s f g') fillna rows /\
  compute (Pvo s f g) fillna rows = compute (Pvo s f g') fillna rows.
Proof. exact @ppo_sign_irrelevant. Qed.
Print Assumptions C70_ppo_pvo_line_ignores_signal_window.

Theorem C70_kst_ignores_signal_window :
  forall F (A : Arith F) r1 r2 r3 r4 w1 w2 w3 w4 g g' fillna (rows : list (bar F)),
  (0 <= g)%Z -> (0 <= g')%Z ->
  compute (Kst r1 r2 r3 r4 w1 w2 w3 w4 g) fillna rows = compute (Kst r1 r2 r3 r4 w1 w2 w3 w4 g') fillna rows.
Proof. exact @kst_sign_irrelevant. Qed.
Print Assumptions C70_kst_ignores_signal_window.

Theorem C70_ichimoku_unused_windows :
  forall F (A : Arith F) w1 w1' w2 w3 w3' vis vis' fillna (rows : list (bar F)),
  compute (IchiConv w1 w2 w3 vis) fillna rows = compute (IchiConv w1 w2 w3' vis') fillna rows /\
  compute (IchiBase w1 w2 w3 vis) fillna rows = compute (IchiBase w1 w2 w3' vis') fillna rows /\
  compute (IchiA w1 w2 w3 vis) fillna rows = compute (IchiA w1 w2 w3' vis) fillna rows /\
  ((0 <= w1)%Z -> (0 <= w1')%Z ->
   compute (IchiB w1 w2 w3 vis) fillna rows = compute (IchiB w1' w2 w3 vis) fillna rows).
Proof. exact @ichimoku_irrelevant. Qed.
Print Assumptions C70_ichimoku_unused_windows.

Theorem C70_bollinger_mavg_ignores_dev : forall F (A : Arith F) w d d' fillna (rows : list (bar F)),
  compute (BbM w d) fillna rows = compute (BbM w d') fillna rows.
Proof. exact @bollinger_dev_irrelevant. Qed.
Print Assumptions C70_bollinger_mavg_ignores_dev.

(** Keltner: the original version uses neither window_atr nor multiplier, the
    middle line never uses multiplier. *)
Theorem C70_keltner_original_ignores_atr :
  forall F (A : Arith F) w a a' m m' fillna (rows : list (bar F)),
  compute (KcM w a true m) fillna rows = compute (KcM w a' true m') fillna rows /\
  compute (KcH w a true m) fillna rows = compute (KcH w a' true m') fillna rows /\
  compute (KcL w a true m) fillna rows = compute (KcL w a' true m') fillna rows /\
  compute (KcW w a true m) fillna rows = compute (KcW w a' true m') fillna rows /\
  compute (KcP w a true m) fillna rows = compute (KcP w a' true m') fillna rows /\
  compute (KcHI w a true m) fillna rows = compute (KcHI w a' true m') fillna rows /\
  compute (KcLI w a true m) fillna rows = compute (KcLI w a' true m') fillna rows.
Proof. exact @keltner_original_irrelevant. Qed.
Print Assumptions C70_keltner_original_ignores_atr.

Theorem C70_keltner_mband_ignores_multiplier :
  forall F (A : Arith F) w a m m' fillna (rows : list (bar F)),
  compute (KcM w a false m) fillna rows = compute (KcM w a false m') fillna rows.
Proof. exact @keltner_mband_irrelevant. Qed.
Print Assumptions C70_keltner_mband_ignores_multiplier.

Theorem C70_stochrsi_ignores_smoothing :
  forall F (A : Arith F) w s1 s1' s2 s2' fillna (rows : list (bar F)), (0 <= s1)%Z -> (0 <= s1')%Z ->
  compute (StochRsi w s1 s2) fillna rows = compute (StochRsi w s1' s2') fillna rows /\
  compute (StochRsiK w s1 s2) fillna rows = compute (StochRsiK w s1 s2') fillna rows.
Proof. exact @stochrsi_smooth_irrelevant. Qed.
Print Assumptions C70_stochrsi_ignores_smoothing.

Theorem C70_stoch_ignores_smoothing : forall F (A : Arith F) w s s' fillna (rows : list (bar F)),
  compute (Stoch w s) fillna rows = compute (Stoch w s') fillna rows.
Proof. exact @stoch_smooth_irrelevant. Qed.
Print Assumptions C70_stoch_ignores_smoothing.

(** the smoothing window must still be valid: an invalid one raises in the
    class constructor (macd, kst, stochrsi) though the line does not use it *)
Example C70_validity_is_needed :
  compute (Macd 26 12 0) false sample = Raise ValueError /\
  (exists out, compute (Macd 26 12 1) false sample = Ok out).
Proof. split; [reflexivity|eexists; reflexivity]. Qed.
