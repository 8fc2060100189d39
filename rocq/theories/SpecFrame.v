(** * SpecFrame: what the wrapper functions are documented to add (C63-C65).

    The documented columns, in order, each with the indicator (named as in
    Api.v) whose value it must hold.  A column marked [true] is skipped when
    vectorized=True. *)
From Coq Require Import String.
From Verif Require Import Api.
Notation length := List.length.

(** the value of a column of a frame given as (name, column) pairs *)
Definition column {C : Type} (n : string) (df : list (string * C)) : option C :=
  option_map snd (find (fun p => String.eqb (fst p) n) df).
Definition names {C : Type} (df : list (string * C)) : list string := map fst df.
Definition member (n : string) (l : list string) : bool := existsb (String.eqb n) l.
(** the names of [l] that are not yet in [old] *)
Definition fresh_names (old l : list string) : list string :=
  filter (fun n => negb (member n old)) l.

Section Plan.
Context {F : Type} {A : Arith F}.
Local Open Scope string_scope.

Definition entry := (string * bool * indicator F)%type.
Definition fast (n : string) (i : indicator F) : entry := (n, false, i).
Definition slow (n : string) (i : indicator F) : entry := (n, true, i).

Definition volume_columns : list entry :=
  [ fast "volume_adi" Adi; fast "volume_obv" Obv; fast "volume_cmf" (Cmf 20);
    fast "volume_fi" (Fi 13); fast "volume_em" (Eom 14); fast "volume_sma_em" (SmaEom 14);
    fast "volume_vpt" (Vpt None false); fast "volume_vwap" (Vwap 14);
    slow "volume_mfi" (Mfi 14); slow "volume_nvi" Nvi ].

Definition volatility_columns : list entry :=
  let two := fofZ 2 in
  [ fast "volatility_bbm" (BbM 20 two); fast "volatility_bbh" (BbH 20 two);
    fast "volatility_bbl" (BbL 20 two); fast "volatility_bbw" (BbW 20 two);
    fast "volatility_bbp" (BbP 20 two); fast "volatility_bbhi" (BbHI 20 two);
    fast "volatility_bbli" (BbLI 20 two);
    fast "volatility_kcc" (KcM 10 10 true two); fast "volatility_kch" (KcH 10 10 true two);
    fast "volatility_kcl" (KcL 10 10 true two); fast "volatility_kcw" (KcW 10 10 true two);
    fast "volatility_kcp" (KcP 10 10 true two); fast "volatility_kchi" (KcHI 10 10 true two);
    fast "volatility_kcli" (KcLI 10 10 true two);
    fast "volatility_dcl" (DcL 20 0); fast "volatility_dch" (DcH 20 0);
    fast "volatility_dcm" (DcM 20 0); fast "volatility_dcw" (DcW 20 0);
    fast "volatility_dcp" (DcP 20 0);
    slow "volatility_atr" (Atr 10); slow "volatility_ui" (Ulcer 14) ].

(** [int_index]: whether the row labels of the frame are integers *)
Definition trend_columns (int_index : bool) : list entry :=
  let step := fdiv (fofZ 2) (fofZ 100) in
  let max_step := fdiv (fofZ 20) (fofZ 100) in
  [ fast "trend_macd" (Macd 26 12 9); fast "trend_macd_signal" (MacdSignal 26 12 9);
    fast "trend_macd_diff" (MacdDiff 26 12 9);
    fast "trend_sma_fast" (Sma 12); fast "trend_sma_slow" (Sma 26);
    fast "trend_ema_fast" (Ema 12); fast "trend_ema_slow" (Ema 26);
    fast "trend_vortex_ind_pos" (VortexPos 14); fast "trend_vortex_ind_neg" (VortexNeg 14);
    fast "trend_vortex_ind_diff" (VortexDiff 14);
    fast "trend_trix" (Trix 15); fast "trend_mass_index" (Mass 9 25); fast "trend_dpo" (Dpo 20);
    fast "trend_kst" (Kst 10 15 20 30 10 10 10 15 9);
    fast "trend_kst_sig" (KstSig 10 15 20 30 10 10 10 15 9);
    fast "trend_kst_diff" (KstDiff 10 15 20 30 10 10 10 15 9);
    fast "trend_ichimoku_conv" (IchiConv 9 26 52 false);
    fast "trend_ichimoku_base" (IchiBase 9 26 52 false);
    fast "trend_ichimoku_a" (IchiA 9 26 52 false);
    fast "trend_ichimoku_b" (IchiB 9 26 52 false);
    fast "trend_stc" (Stc 50 23 10 3 3);
    slow "trend_adx" (Adx 14); slow "trend_adx_pos" (AdxPos 14); slow "trend_adx_neg" (AdxNeg 14);
    slow "trend_cci" (Cci 20 (fdiv (fofZ 15) (fofZ 1000)));
    slow "trend_visual_ichimoku_a" (IchiA 9 26 52 true);
    slow "trend_visual_ichimoku_b" (IchiB 9 26 52 true);
    slow "trend_aroon_up" (AroonUp 25); slow "trend_aroon_down" (AroonDown 25);
    slow "trend_aroon_ind" (AroonInd 25);
    slow "trend_psar_up" (PsarUp int_index step max_step);
    slow "trend_psar_down" (PsarDown int_index step max_step);
    slow "trend_psar_up_indicator" (PsarUpInd int_index step max_step);
    slow "trend_psar_down_indicator" (PsarDownInd int_index step max_step) ].

Definition momentum_columns : list entry :=
  [ fast "momentum_rsi" (Rsi 14);
    fast "momentum_stoch_rsi" (StochRsi 14 3 3); fast "momentum_stoch_rsi_k" (StochRsiK 14 3 3);
    fast "momentum_stoch_rsi_d" (StochRsiD 14 3 3);
    fast "momentum_tsi" (Tsi 25 13);
    fast "momentum_uo" (UltOsc 7 14 28 (fofZ 4) (fofZ 2) (fofZ 1));
    fast "momentum_stoch" (Stoch 14 3); fast "momentum_stoch_signal" (StochSignal 14 3);
    fast "momentum_wr" (WilliamsR 14); fast "momentum_ao" (AwesomeOsc 5 34);
    fast "momentum_roc" (Roc 12);
    fast "momentum_ppo" (Ppo 26 12 9); fast "momentum_ppo_signal" (PpoSignal 26 12 9);
    fast "momentum_ppo_hist" (PpoHist 26 12 9);
    fast "momentum_pvo" (Pvo 26 12 9); fast "momentum_pvo_signal" (PvoSignal 26 12 9);
    fast "momentum_pvo_hist" (PvoHist 26 12 9);
    slow "momentum_kama" (Kama 10 2 30) ].

Definition others_columns (log : F -> F) : list entry :=
  [ fast "others_dr" DailyReturn; fast "others_dlr" (DailyLogReturn log);
    fast "others_cr" CumReturn ].

Definition all_columns (log : F -> F) (int_index : bool) : list entry :=
  volume_columns ++ volatility_columns ++ trend_columns int_index ++ momentum_columns
    ++ others_columns log.

(** the columns a call with this [vectorized] flag adds *)
Definition selected (vectorized : bool) (p : list entry) : list (string * indicator F) :=
  map (fun e => (fst (fst e), snd e)) (filter (fun e => negb (vectorized && snd (fst e))) p).

(** their names in the frame *)
Definition added (prefix : string) (vectorized : bool) (p : list entry) : list string :=
  map (fun e => prefix ++ fst e) (selected vectorized p).

(** The frame holds the price and volume columns of [rows] under the given
    names. *)
Definition holds (rows : list (bar F)) (high low close volume : string)
    (df : list (string * list F)) : Prop :=
  column high df = Some (map b_high rows) /\ column low df = Some (map b_low rows) /\
  column close df = Some (map b_close rows) /\ column volume df = Some (map b_volume rows).
Definition holds_prices (rows : list (bar F)) (high low close : string)
    (df : list (string * list F)) : Prop :=
  column high df = Some (map b_high rows) /\ column low df = Some (map b_low rows) /\
  column close df = Some (map b_close rows).

(** none of the input columns is overwritten *)
Definition apart (inputs outputs : list string) : Prop :=
  forall n, In n inputs -> ~ In n outputs.

(** [df'] is [df] extended by the columns [cols] of the plan computed on
    [rows]: the new names come after the old ones in the documented order,
    every other column is kept, every added column holds its indicator. *)
Definition extended (prefix : string) (fillna : bool) (rows : list (bar F))
    (cols : list (string * indicator F)) (df df' : list (string * list F)) : Prop :=
  let out := map (fun e => prefix ++ fst e) cols in
  names df' = (names df ++ fresh_names (names df) out)%list /\
  (forall n, ~ In n out -> column n df' = column n df) /\
  (forall n i, In (n, i) cols ->
     exists col, compute i fillna rows = Ok col /\ column (prefix ++ n) df' = Some col).

(** the row labels PSAR sees *)
Definition labels_of (int_index : bool) (rows : list (bar F)) : option (list Z) :=
  if int_index then Some (map b_label rows) else None.

(** dropna keeps a row exactly when every numeric cell is below [big] =
    exp(709) and not zero and no other cell is missing *)
Definition cell_kept (big x : F) : bool := fltb x big && negb (feqb x (fofZ 0)).
Definition row_kept (big : F) (r : frow F) : bool :=
  forallb (cell_kept big) (fcells r) && forallb negb (fother_missing r).

End Plan.

(** On [n] < 28 rows with vectorized=False: how many columns are added before
    the exception, and which exception it is.  (No rows: volume_nvi; fewer than
    10: volatility_atr; fewer than 28: trend_adx.) *)
Definition stop_at (n : nat) : nat := if (n =? 0)%nat then 9 else if (n <? 10)%nat then 29 else 52.
Definition stop_exn (n : nat) : exn :=
  if (10 <=? n)%nat && (n <=? 12)%nat then ValueError else IndexError.
