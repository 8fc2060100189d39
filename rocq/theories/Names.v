(** * Names: the [name=] each method gives the pandas Series it returns. *)
From Coq Require Import String DecimalString DecimalZ.
From Verif Require Export Api.
Local Open Scope string_scope.

(** str() of a Python int, as used by the f-strings below *)
Definition str_int (z : Z) : string := NilZero.string_of_int (Z.to_int z).

Section Names.
Context {F : Type}.
Definition series_name (ind : indicator F) : string :=
  match ind with
  | Rsi _ => "rsi"                                                     (* momentum.py:60 *)
  | Tsi _ _ => "tsi"                                                   (* momentum.py:119 *)
  | UltOsc _ _ _ _ _ _ => "uo"                                         (* momentum.py:214 *)
  | Stoch _ _ => "stoch_k"                                             (* momentum.py:266 *)
  | StochSignal _ _ => "stoch_k_signal"                                (* momentum.py:279 *)
  | Kama _ _ _ => "kama"                                               (* momentum.py:359 *)
  | Roc _ => "roc"                                                     (* momentum.py:405 *)
  | AwesomeOsc _ _ => "ao"                                             (* momentum.py:473 *)
  | WilliamsR _ => "wr"                                                (* momentum.py:546 *)
  | StochRsi _ _ _ => "stochrsi"                                       (* momentum.py:600 *)
  | StochRsiK _ _ _ => "stochrsi_k"                                    (* momentum.py:609 *)
  | StochRsiD _ _ _ => "stochrsi_d"                                    (* momentum.py:619 *)
  | Ppo slow fast _ => "PPO_" ++ str_int fast ++ "_" ++ str_int slow           (* momentum.py:667 *)
  | PpoSignal slow fast _ => "PPO_sign_" ++ str_int fast ++ "_" ++ str_int slow    (* momentum.py:679 *)
  | PpoHist slow fast _ => "PPO_hist_" ++ str_int fast ++ "_" ++ str_int slow      (* momentum.py:691 *)
  | Pvo slow fast _ => "PVO_" ++ str_int fast ++ "_" ++ str_int slow           (* momentum.py:741 *)
  | PvoSignal slow fast _ => "PVO_sign_" ++ str_int fast ++ "_" ++ str_int slow    (* momentum.py:753 *)
  | PvoHist slow fast _ => "PVO_hist_" ++ str_int fast ++ "_" ++ str_int slow      (* momentum.py:765 *)
  | AroonUp w => "aroon_up_" ++ str_int w                              (* trend.py:62 *)
  | AroonDown w => "aroon_down_" ++ str_int w                          (* trend.py:71 *)
  | AroonInd w => "aroon_ind_" ++ str_int w                            (* trend.py:81 *)
  | Macd slow fast _ => "MACD_" ++ str_int fast ++ "_" ++ str_int slow         (* trend.py:130 *)
  | MacdSignal slow fast _ => "MACD_sign_" ++ str_int fast ++ "_" ++ str_int slow  (* trend.py:143 *)
  | MacdDiff slow fast _ => "MACD_diff_" ++ str_int fast ++ "_" ++ str_int slow    (* trend.py:154 *)
  | Ema w => "ema_" ++ str_int w                                       (* trend.py:179 *)
  | Sma w => "sma_" ++ str_int w                                       (* trend.py:203 *)
  | Wma w => "wma_" ++ str_int w                                       (* trend.py:246 *)
  | Trix w => "trix_" ++ str_int w                                     (* trend.py:285 *)
  | Mass fast slow => "mass_index_" ++ str_int fast ++ "_" ++ str_int slow     (* trend.py:336 *)
  | IchiConv w1 w2 _ _ => "ichimoku_conv_" ++ str_int w1 ++ "_" ++ str_int w2  (* trend.py:394 *)
  | IchiBase w1 w2 _ _ => "ichimoku_base_" ++ str_int w1 ++ "_" ++ str_int w2  (* trend.py:404 *)
  | IchiA w1 w2 _ _ => "ichimoku_a_" ++ str_int w1 ++ "_" ++ str_int w2        (* trend.py:419 *)
  | IchiB w1 w2 _ _ => "ichimoku_b_" ++ str_int w1 ++ "_" ++ str_int w2        (* trend.py:437 *)
  | Kst _ _ _ _ _ _ _ _ _ => "kst"                                    (* trend.py:550 *)
  | KstSig _ _ _ _ _ _ _ _ _ => "kst_sig"                             (* trend.py:561 *)
  | KstDiff _ _ _ _ _ _ _ _ _ => "kst_diff"                           (* trend.py:573 *)
  | Dpo w => "dpo_" ++ str_int w                                       (* trend.py:612 *)
  | Cci _ _ => "cci"                                                   (* trend.py:675 *)
  | Adx _ => "adx"                                                     (* trend.py:818 *)
  | AdxPos _ => "adx_pos"                                              (* trend.py:839 *)
  | AdxNeg _ => "adx_neg"                                              (* trend.py:860 *)
  | VortexPos _ => "vip"                                               (* trend.py:912 *)
  | VortexNeg _ => "vin"                                               (* trend.py:921 *)
  | VortexDiff _ => "vid"                                              (* trend.py:931 *)
  | Psar _ _ _ => "psar"                                               (* trend.py:1048 *)
  | PsarUp _ _ _ => "psarup"                                           (* trend.py:1057 *)
  | PsarDown _ _ _ => "psardown"                                       (* trend.py:1066 *)
  | PsarUpInd _ _ _ => "psariup"                                       (* trend.py:1078 *)
  | PsarDownInd _ _ _ => "psaridown"                                   (* trend.py:1090 *)
  | Stc _ _ _ _ _ => "stc"                                             (* trend.py:1156 *)
  | Atr _ => "atr"                                                     (* volatility.py:64 *)
  | BbM _ _ => "mavg"                                                  (* volatility.py:108 *)
  | BbH _ _ => "hband"                                                 (* volatility.py:117 *)
  | BbL _ _ => "lband"                                                 (* volatility.py:126 *)
  | BbW _ _ => "bbiwband"                                              (* volatility.py:138 *)
  | BbP _ _ => "bbipband"                                              (* volatility.py:152 *)
  | BbHI _ _ => "bbihband"                                             (* volatility.py:166 *)
  | BbLI _ _ => "bbilband"                                             (* volatility.py:180 *)
  | KcM _ _ _ _ => "mavg"                                              (* volatility.py:265 *)
  | KcH _ _ _ _ => "kc_hband"                                          (* volatility.py:274 *)
  | KcL _ _ _ _ => "kc_lband"                                          (* volatility.py:283 *)
  | KcW _ _ _ _ => "bbiwband"                                          (* volatility.py:293 *)
  | KcP _ _ _ _ => "bbipband"                                          (* volatility.py:303 *)
  | KcHI _ _ _ _ => "dcihband"                                         (* volatility.py:317 *)
  | KcLI _ _ _ _ => "dcilband"                                         (* volatility.py:331 *)
  | DcH _ _ => "dchband"                                               (* volatility.py:382 *)
  | DcL _ _ => "dclband"                                               (* volatility.py:393 *)
  | DcM _ _ => "dcmband"                                               (* volatility.py:405 *)
  | DcW _ _ => "dcwband"                                               (* volatility.py:418 *)
  | DcP _ _ => "dcpband"                                               (* volatility.py:430 *)
  | Ulcer _ => "ui"                                                    (* volatility.py:469 *)
  | Adi => "adi"                                                       (* volume.py:62 *)
  | Obv => "obv"                                                       (* volume.py:96 *)
  | Cmf _ => "cmf"                                                     (* volume.py:151 *)
  | Fi w => "fi_" ++ str_int w                                         (* volume.py:194 *)
  | Eom w => "eom_" ++ str_int w                                       (* volume.py:243 *)
  | SmaEom w => "sma_eom_" ++ str_int w                                (* volume.py:254 *)
  | Vpt _ _ => "vpt"                                                   (* volume.py:306 *)
  | Nvi => "nvi"                                                       (* volume.py:330, 347 *)
  | Mfi w => "mfi_" ++ str_int w                                       (* volume.py:421 *)
  | Vwap w => "vwap_" ++ str_int w                                     (* volume.py:489 *)
  | DailyReturn => "d_ret"                                             (* others.py:38 *)
  | DailyLogReturn _ => "d_logret"                                     (* others.py:67 *)
  | CumReturn => "cum_ret"                                             (* others.py:94 *)
  end.
End Names.
