(** * Wrapper: model of /repo/ta/wrapper.py

    A DataFrame is the ordered list of its (name, column) pairs together with
    its row labels (used by PSAR only).  Column names are unique and columns
    have equal length.  Functions mutate the frame, so they are state
    transformers that keep the mutated frame even when an exception is raised.
    [log] is np.log. *)
From Coq Require Export String.
From Verif Require Export Volume.
Local Open Scope f_scope.
Close Scope string_scope.
Notation length := List.length.

Section Wrapper.
Context {F : Type} {A : Arith F}.

Definition frame := list (string * list F).

(** df[name]: KeyError when absent *)
Fixpoint getcol (name : string) (df : frame) : result (list F) :=
  match df with
  | [] => Raise KeyError
  | (n, c) :: r => if String.eqb n name then Ok c else getcol name r
  end.
(** df[name] = column: replaces an existing column in place, else appends *)
Fixpoint setcol (name : string) (c : list F) (df : frame) : frame :=
  match df with
  | [] => [(name, c)]
  | (n, x) :: r => if String.eqb n name then (n, c) :: r else (n, x) :: setcol name c r
  end.

(** a computation on the frame: new frame and outcome *)
Definition act := frame -> frame * result unit.
Definition done : act := fun df => (df, Ok tt).
Definition seqa (a b : act) : act := fun df =>
  let '(df', r) := a df in match r with Ok _ => b df' | Raise e => (df', Raise e) end.
(** read a column, then continue with its value *)
Definition read (name : string) (k : list F -> act) : act := fun df =>
  match getcol name df with Ok c => k c df | Raise e => (df, Raise e) end.
(** df[f"{colprefix}{name}"] = value *)
Definition put (colprefix name : string) (v : result (list F)) : act := fun df =>
  match v with
  | Ok c => (setcol (String.append colprefix name) c df, Ok tt)
  | Raise e => (df, Raise e)
  end.
Definition whenb (b : bool) (a : act) : act := if b then a else done.

Infix ">>" := seqa (at level 61, right associativity).
Local Open Scope string_scope.

(** wrapper.py:64-148 *)
Definition add_volume_ta (high low close volume : string) (fillna : bool)
    (colprefix : string) (vectorized : bool) : act :=
  read high (fun h => read low (fun l => read close (fun c => read volume (fun v =>
    put colprefix "volume_adi" (acc_dist_index h l c v fillna))))) >>
  read close (fun c => read volume (fun v =>
    put colprefix "volume_obv" (on_balance_volume c v fillna))) >>
  read high (fun h => read low (fun l => read close (fun c => read volume (fun v =>
    put colprefix "volume_cmf" (chaikin_money_flow h l c v 20 fillna))))) >>
  read close (fun c => read volume (fun v =>
    put colprefix "volume_fi" (force_index c v 13 fillna))) >>
  read high (fun h => read low (fun l => read volume (fun v =>
    put colprefix "volume_em" (ease_of_movement h l v 14 fillna) >>
    put colprefix "volume_sma_em" (sma_ease_of_movement h l v 14 fillna)))) >>
  read close (fun c => read volume (fun v =>
    put colprefix "volume_vpt" (volume_price_trend c v fillna None false))) >>
  read high (fun h => read low (fun l => read close (fun c => read volume (fun v =>
    put colprefix "volume_vwap" (volume_weighted_average_price h l c v 14 fillna))))) >>
  whenb (negb vectorized)
    (read high (fun h => read low (fun l => read close (fun c => read volume (fun v =>
       put colprefix "volume_mfi" (money_flow_index h l c v 14 fillna))))) >>
     read close (fun c => read volume (fun v =>
       put colprefix "volume_nvi" (negative_volume_index c v fillna)))).

(** wrapper.py:151-220; KeltnerChannel is built with its defaults
    window_atr=10, original_version=True, multiplier=2 *)
Definition add_volatility_ta (high low close : string) (fillna : bool)
    (colprefix : string) (vectorized : bool) : act :=
  read close (fun c =>
    put colprefix "volatility_bbm" (bollinger_mavg c 20 (#2) fillna) >>
    put colprefix "volatility_bbh" (bollinger_hband c 20 (#2) fillna) >>
    put colprefix "volatility_bbl" (bollinger_lband c 20 (#2) fillna) >>
    put colprefix "volatility_bbw" (bollinger_wband c 20 (#2) fillna) >>
    put colprefix "volatility_bbp" (bollinger_pband c 20 (#2) fillna) >>
    put colprefix "volatility_bbhi" (bollinger_hband_indicator c 20 (#2) fillna) >>
    put colprefix "volatility_bbli" (bollinger_lband_indicator c 20 (#2) fillna)) >>
  read close (fun c => read high (fun h => read low (fun l =>
    put colprefix "volatility_kcc" (keltner_channel_mband h l c 10 10 fillna true (#2)) >>
    put colprefix "volatility_kch" (keltner_channel_hband h l c 10 10 fillna true (#2)) >>
    put colprefix "volatility_kcl" (keltner_channel_lband h l c 10 10 fillna true (#2)) >>
    put colprefix "volatility_kcw" (keltner_channel_wband h l c 10 10 fillna true (#2)) >>
    put colprefix "volatility_kcp" (keltner_channel_pband h l c 10 10 fillna true (#2)) >>
    put colprefix "volatility_kchi" (keltner_channel_hband_indicator h l c 10 10 fillna true (#2)) >>
    put colprefix "volatility_kcli" (keltner_channel_lband_indicator h l c 10 10 fillna true (#2))))) >>
  read high (fun h => read low (fun l => read close (fun c =>
    put colprefix "volatility_dcl" (donchian_channel_lband h l c 20 0 fillna) >>
    put colprefix "volatility_dch" (donchian_channel_hband h l c 20 0 fillna) >>
    put colprefix "volatility_dcm" (donchian_channel_mband h l c 20 0 fillna) >>
    put colprefix "volatility_dcw" (donchian_channel_wband h l c 20 0 fillna) >>
    put colprefix "volatility_dcp" (donchian_channel_pband h l c 20 0 fillna)))) >>
  whenb (negb vectorized)
    (read close (fun c => read high (fun h => read low (fun l =>
       put colprefix "volatility_atr" (average_true_range h l c 10 fillna)))) >>
     read close (fun c =>
       put colprefix "volatility_ui" (ulcer_index c 14 fillna))).

(** wrapper.py:223-395 *)
Definition add_trend_ta (labels : option (list Z)) (high low close : string) (fillna : bool)
    (colprefix : string) (vectorized : bool) : act :=
  read close (fun c =>
    put colprefix "trend_macd" (macd c 26 12 9 fillna) >>
    put colprefix "trend_macd_signal" (macd_signal c 26 12 9 fillna) >>
    put colprefix "trend_macd_diff" (macd_diff c 26 12 9 fillna)) >>
  read close (fun c => put colprefix "trend_sma_fast" (sma_indicator c 12 fillna)) >>
  read close (fun c => put colprefix "trend_sma_slow" (sma_indicator c 26 fillna)) >>
  read close (fun c => put colprefix "trend_ema_fast" (ema_indicator c 12 fillna)) >>
  read close (fun c => put colprefix "trend_ema_slow" (ema_indicator c 26 fillna)) >>
  read high (fun h => read low (fun l => read close (fun c =>
    put colprefix "trend_vortex_ind_pos" (vortex_indicator_pos h l c 14 fillna) >>
    put colprefix "trend_vortex_ind_neg" (vortex_indicator_neg h l c 14 fillna) >>
    put colprefix "trend_vortex_ind_diff" (vortex_indicator_diff h l c 14 fillna)))) >>
  read close (fun c => put colprefix "trend_trix" (trix c 15 fillna)) >>
  read high (fun h => read low (fun l =>
    put colprefix "trend_mass_index" (mass_index h l 9 25 fillna))) >>
  read close (fun c => put colprefix "trend_dpo" (dpo c 20 fillna)) >>
  read close (fun c =>
    put colprefix "trend_kst" (kst c 10 15 20 30 10 10 10 15 9 fillna) >>
    put colprefix "trend_kst_sig" (kst_sig c 10 15 20 30 10 10 10 15 9 fillna) >>
    put colprefix "trend_kst_diff" (kst_diff c 10 15 20 30 10 10 10 15 9 fillna)) >>
  read high (fun h => read low (fun l =>
    put colprefix "trend_ichimoku_conv" (ichimoku_conversion_line h l 9 26 52 false fillna) >>
    put colprefix "trend_ichimoku_base" (ichimoku_base_line h l 9 26 52 false fillna) >>
    put colprefix "trend_ichimoku_a" (ichimoku_a h l 9 26 52 false fillna) >>
    put colprefix "trend_ichimoku_b" (ichimoku_b h l 9 26 52 false fillna))) >>
  read close (fun c => put colprefix "trend_stc" (stc c 50 23 10 3 3 fillna)) >>
  whenb (negb vectorized)
    (read high (fun h => read low (fun l => read close (fun c =>
       put colprefix "trend_adx" (adx h l c 14 fillna) >>
       put colprefix "trend_adx_pos" (adx_pos h l c 14 fillna) >>
       put colprefix "trend_adx_neg" (adx_neg h l c 14 fillna)))) >>
     read high (fun h => read low (fun l => read close (fun c =>
       put colprefix "trend_cci" (cci h l c 20 (#15 /. #1000) fillna)))) >>
     read high (fun h => read low (fun l =>
       put colprefix "trend_visual_ichimoku_a" (ichimoku_a h l 9 26 52 true fillna) >>
       put colprefix "trend_visual_ichimoku_b" (ichimoku_b h l 9 26 52 true fillna))) >>
     read high (fun h => read low (fun l =>
       put colprefix "trend_aroon_up" (aroon_up h l 25 fillna) >>
       put colprefix "trend_aroon_down" (aroon_down h l 25 fillna) >>
       put colprefix "trend_aroon_ind" (aroon_indicator h l 25 fillna))) >>
     read high (fun h => read low (fun l => read close (fun c =>
       put colprefix "trend_psar_up" (psar_up h l c labels (#2 /. #100) (#20 /. #100) fillna) >>
       put colprefix "trend_psar_down" (psar_down h l c labels (#2 /. #100) (#20 /. #100) fillna) >>
       put colprefix "trend_psar_up_indicator"
           (psar_up_indicator h l c labels (#2 /. #100) (#20 /. #100) fillna) >>
       put colprefix "trend_psar_down_indicator"
           (psar_down_indicator h l c labels (#2 /. #100) (#20 /. #100) fillna))))).

(** wrapper.py:398-505 *)
Definition add_momentum_ta (high low close volume : string) (fillna : bool)
    (colprefix : string) (vectorized : bool) : act :=
  read close (fun c => put colprefix "momentum_rsi" (rsi c 14 fillna)) >>
  read close (fun c =>
    put colprefix "momentum_stoch_rsi" (stochrsi c 14 3 3 fillna) >>
    put colprefix "momentum_stoch_rsi_k" (stochrsi_k c 14 3 3 fillna) >>
    put colprefix "momentum_stoch_rsi_d" (stochrsi_d c 14 3 3 fillna)) >>
  read close (fun c => put colprefix "momentum_tsi" (tsi c 25 13 fillna)) >>
  read high (fun h => read low (fun l => read close (fun c =>
    put colprefix "momentum_uo"
      (ultimate_oscillator h l c 7 14 28 (#4) (#2) (#1) fillna)))) >>
  read high (fun h => read low (fun l => read close (fun c =>
    put colprefix "momentum_stoch" (stoch h l c 14 3 fillna) >>
    put colprefix "momentum_stoch_signal" (stoch_signal h l c 14 3 fillna)))) >>
  read high (fun h => read low (fun l => read close (fun c =>
    put colprefix "momentum_wr" (williams_r h l c 14 fillna)))) >>
  read high (fun h => read low (fun l =>
    put colprefix "momentum_ao" (awesome_oscillator h l 5 34 fillna))) >>
  read close (fun c => put colprefix "momentum_roc" (roc c 12 fillna)) >>
  read close (fun c =>
    put colprefix "momentum_ppo" (ppo c 26 12 9 fillna) >>
    put colprefix "momentum_ppo_signal" (ppo_signal c 26 12 9 fillna) >>
    put colprefix "momentum_ppo_hist" (ppo_hist c 26 12 9 fillna)) >>
  read volume (fun v =>
    put colprefix "momentum_pvo" (pvo v 26 12 9 fillna) >>
    put colprefix "momentum_pvo_signal" (pvo_signal v 26 12 9 fillna) >>
    put colprefix "momentum_pvo_hist" (pvo_hist v 26 12 9 fillna)) >>
  whenb (negb vectorized)
    (read close (fun c => put colprefix "momentum_kama" (kama c 10 2 30 fillna))).

(** wrapper.py:508-540 *)
Definition add_others_ta (log : F -> F) (close : string) (fillna : bool) (colprefix : string)
  : act :=
  read close (fun c => put colprefix "others_dr" (daily_return c fillna)) >>
  read close (fun c => put colprefix "others_dlr" (daily_log_return log c fillna)) >>
  read close (fun c => put colprefix "others_cr" (cumulative_return c fillna)).

(** wrapper.py:543-609; the [open] argument is not used by the code *)
Definition add_all_ta_features (log : F -> F) (labels : option (list Z))
    (open high low close volume : string) (fillna : bool)
    (colprefix : string) (vectorized : bool) : act :=
  add_volume_ta high low close volume fillna colprefix vectorized >>
  add_volatility_ta high low close fillna colprefix vectorized >>
  add_trend_ta labels high low close fillna colprefix vectorized >>
  add_momentum_ta high low close volume fillna colprefix vectorized >>
  add_others_ta log close fillna colprefix.

End Wrapper.
Arguments frame F : clear implicits.
Arguments act F : clear implicits.
