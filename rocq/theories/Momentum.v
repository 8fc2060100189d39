(** * Momentum: model of /repo/ta/momentum.py

    For a class XIndicator, [X_run] is the body of _run (the attributes it
    stores) and the functions named after the methods (and after the module
    level functions, which only forward their arguments to the class:
    momentum.py:769-1340) give the returned series.  Column names given by
    name=... are not modelled here (see Wrapper.v for the names that reach a
    DataFrame). *)
From Verif Require Export Utils.
Local Open Scope f_scope.

Section Momentum.
Context {F : Type} {A : Arith F}.

(** min_periods = 0 if self._fillna else self._window *)
Definition minp_of (fillna : bool) (window : Z) : Z := if fillna then 0%Z else window.

(** ** RSIIndicator: momentum.py:36-51 (_run).  Series.where(cond, 0.0) keeps
    the value where cond holds; comparisons with NaN are false, so the first
    (missing) change counts as 0. *)
Definition rsi_run (close : list F) (window : Z) (fillna : bool) : result (list F) :=
  let diff := diff1 close in
  let up_direction := map (fun d => if #0 <.? d then d else #0) diff in
  let down_direction := map (fun d => fopp (if d <.? #0 then d else #0)) diff in
  let minp := minp_of fillna window in
  emaup <- ewm_inv_alpha window minp up_direction ;;
  emadn <- ewm_inv_alpha window minp down_direction ;;
  let relative_strength := sdiv emaup emadn in
  Ok (map2 (fun dn rs => if dn =.? #0 then #100 else #100 -. (#100 /. (#1 +. rs)))
           emadn relative_strength).
(** momentum.py:53-60, 769-787 *)
Definition rsi (close : list F) (window : Z) (fillna : bool) : result (list F) :=
  rmap (check_fillna fillna (FillInt 50)) (rsi_run close window fillna).

(** ** TSIIndicator: momentum.py:90-110 *)
Definition tsi_run (close : list F) (window_slow window_fast : Z) (fillna : bool)
  : result (list F) :=
  let diff_close := ssub close (shift 1 close) in
  let minp_r := minp_of fillna window_slow in
  let minp_s := minp_of fillna window_fast in
  s1 <- ewm_span window_slow minp_r diff_close ;;
  smoothed <- ewm_span window_fast minp_s s1 ;;
  a1 <- ewm_span window_slow minp_r (map fabs diff_close) ;;
  smoothed_abs <- ewm_span window_fast minp_s a1 ;;
  Ok (muls (sdiv smoothed smoothed_abs) (#100)).
(** momentum.py:112-119, 790-808 *)
Definition tsi (close : list F) (window_slow window_fast : Z) (fillna : bool) :=
  rmap (check_fillna fillna (FillInt 0)) (tsi_run close window_slow window_fast fillna).

(** ** UltimateOscillator: momentum.py:175-205 *)
Definition uo_run (high low close : list F) (window1 window2 window3 : Z)
    (weight1 weight2 weight3 : F) (fillna : bool) : result (list F) :=
  let close_shift := shift 1 close in
  let tr := true_range high low close_shift in
  let buying_pressure := ssub close (map2 npmin2 low close_shift) in
  let minp_s := minp_of fillna window1 in
  let minp_m := minp_of fillna window2 in
  let minp_l := minp_of fillna window3 in
  bs <- rolling window1 minp_s agg_sum buying_pressure ;;
  ts <- rolling window1 minp_s agg_sum tr ;;
  bm <- rolling window2 minp_m agg_sum buying_pressure ;;
  tm <- rolling window2 minp_m agg_sum tr ;;
  bl <- rolling window3 minp_l agg_sum buying_pressure ;;
  tl <- rolling window3 minp_l agg_sum tr ;;
  let avg_s := sdiv bs ts in
  let avg_m := sdiv bm tm in
  let avg_l := sdiv bl tl in
  Ok (divs (scal (#100) (sadd (sadd (scal weight1 avg_s) (scal weight2 avg_m))
                              (scal weight3 avg_l)))
           (weight1 +. weight2 +. weight3)).
(** momentum.py:207-214, 811-865 *)
Definition ultimate_oscillator (high low close : list F) (window1 window2 window3 : Z)
    (weight1 weight2 weight3 : F) (fillna : bool) :=
  rmap (check_fillna fillna (FillInt 50))
       (uo_run high low close window1 window2 window3 weight1 weight2 weight3 fillna).

(** ** StochasticOscillator: momentum.py:253-257 *)
Definition stoch_run (high low close : list F) (window : Z) (fillna : bool) : result (list F) :=
  let minp := minp_of fillna window in
  smin <- rolling window minp agg_min low ;;
  smax <- rolling window minp agg_max high ;;
  Ok (sdiv (scal (#100) (ssub close smin)) (ssub smax smin)).
(** momentum.py:259-266, 868-897 *)
Definition stoch (high low close : list F) (window smooth_window : Z) (fillna : bool) :=
  rmap (check_fillna fillna (FillInt 50)) (stoch_run high low close window fillna).
(** momentum.py:268-279, 900-927 *)
Definition stoch_signal (high low close : list F) (window smooth_window : Z) (fillna : bool) :=
  k <- stoch_run high low close window fillna ;;
  rmap (check_fillna fillna (FillInt 50))
       (rolling smooth_window (minp_of fillna smooth_window) agg_mean k).

(** ** KAMAIndicator: momentum.py:317-349.  float64 closes are assumed (on an
    int column the code would fail inside np.divide).  2.0/(pow+1) raises
    ZeroDivisionError for pow = -1. *)
Fixpoint kama_go (sc close : list F) (first : bool) (prev : F) : list F :=
  match sc, close with
  | s :: sc', c :: close' =>
      if fisnan s then fnan :: kama_go sc' close' first fnan
      else if first then c :: kama_go sc' close' false c
      else let k := prev +. s **. (c -. prev) in k :: kama_go sc' close' false k
  | _, _ => []
  end.
Definition kama_sc (close : list F) (window pow1 pow2 : Z) (fillna : bool) : result (list F) :=
  let vol := map fabs (ssub close (np_roll 1 close)) in
  let er_num := map fabs (ssub close (np_roll window close)) in
  er_den <- rolling window (minp_of fillna window) agg_sum vol ;;
  let er := map2 (fun n d => if negb (d =.? #0) then n /. d else #0) er_num er_den in
  if (pow1 =? -1)%Z || (pow2 =? -1)%Z then Raise ZeroDivisionError
  else
    let fast := #2 /. fofZ (pow1 + 1) in
    let slow := #2 /. fofZ (pow2 + 1) in
    Ok (map (fun e => let x := e **. (fast -. slow) +. slow in x **. x) er).
Definition kama_run (close : list F) (window pow1 pow2 : Z) (fillna : bool) : result (list F) :=
  sc <- kama_sc close window pow1 pow2 fillna ;;
  Ok (kama_go sc close true (#0)).
(** momentum.py:351-359, 1017-1041; gaps are filled with the close itself *)
Definition kama (close : list F) (window pow1 pow2 : Z) (fillna : bool) :=
  rmap (check_fillna fillna (FillSeries close)) (kama_run close window pow1 pow2 fillna).

(** ** ROCIndicator: momentum.py:392-405, 1044-1071 *)
Definition roc (close : list F) (window : Z) (fillna : bool) : result (list F) :=
  let prev := shift window close in
  Ok (check_fillna fillna (FillInt 0)
        (muls (sdiv (ssub close prev) prev) (#100))).

(** ** AwesomeOscillatorIndicator: momentum.py:457-473, 976-1014 *)
Definition awesome_oscillator (high low : list F) (window1 window2 : Z) (fillna : bool)
  : result (list F) :=
  let median_price := scal fhalf (sadd high low) in
  fast <- rolling window1 (minp_of fillna window1) agg_mean median_price ;;
  slow <- rolling window2 (minp_of fillna window2) agg_mean median_price ;;
  Ok (check_fillna fillna (FillInt 0) (ssub fast slow)).

(** ** WilliamsRIndicator: momentum.py:529-546, 930-973 *)
Definition williams_r (high low close : list F) (lbp : Z) (fillna : bool) : result (list F) :=
  let minp := minp_of fillna lbp in
  highest_high <- rolling lbp minp agg_max high ;;
  lowest_low <- rolling lbp minp agg_min low ;;
  Ok (check_fillna fillna (FillInt (-50))
        (sdiv (scal (#-100) (ssub highest_high close)) (ssub highest_high lowest_low))).

(** ** StochRSIIndicator: momentum.py:583-591; rolling(n) means min_periods=n *)
Definition stochrsi_run (close : list F) (window smooth1 : Z) (fillna : bool)
  : result (list F * list F) :=
  r <- rsi close window fillna ;;
  lowest_low_rsi <- rolling window window agg_min r ;;
  highest <- rolling window window agg_max r ;;
  let srsi := sdiv (ssub r lowest_low_rsi) (ssub highest lowest_low_rsi) in
  k <- rolling smooth1 smooth1 agg_mean srsi ;;
  Ok (srsi, k).
(** momentum.py:593-600, 1074-1101 *)
Definition stochrsi (close : list F) (window smooth1 smooth2 : Z) (fillna : bool) :=
  ' (s, _) <- stochrsi_run close window smooth1 fillna ;;
  Ok (check_fillna fillna (FillInt 0) s).
(** momentum.py:602-609, 1104-1131 *)
Definition stochrsi_k (close : list F) (window smooth1 smooth2 : Z) (fillna : bool) :=
  ' (_, k) <- stochrsi_run close window smooth1 fillna ;;
  Ok (check_fillna fillna (FillInt 0) k).
(** momentum.py:611-619, 1134-1161 *)
Definition stochrsi_d (close : list F) (window smooth1 smooth2 : Z) (fillna : bool) :=
  ' (_, k) <- stochrsi_run close window smooth1 fillna ;;
  d <- rolling smooth2 smooth2 agg_mean k ;;
  Ok (check_fillna fillna (FillInt 0) d).

(** ** PercentagePriceOscillator: momentum.py:652-657 *)
Definition ppo_run (close : list F) (window_slow window_fast window_sign : Z) (fillna : bool)
  : result (list F * list F * list F) :=
  emafast <- ema_ close window_fast fillna ;;
  emaslow <- ema_ close window_slow fillna ;;
  let ppo := muls (sdiv (ssub emafast emaslow) emaslow) (#100) in
  ppo_signal <- ema_ ppo window_sign fillna ;;
  Ok (ppo, ppo_signal, ssub ppo ppo_signal).
(** momentum.py:659-668, 1164-1192 *)
Definition ppo (close : list F) (window_slow window_fast window_sign : Z) (fillna : bool) :=
  ' (p, _, _) <- ppo_run close window_slow window_fast window_sign fillna ;;
  Ok (check_fillna fillna (FillInt 0) p).
(** momentum.py:670-680, 1195-1219 *)
Definition ppo_signal (close : list F) (window_slow window_fast window_sign : Z) (fillna : bool) :=
  ' (_, s, _) <- ppo_run close window_slow window_fast window_sign fillna ;;
  Ok (check_fillna fillna (FillInt 0) s).
(** momentum.py:682-692, 1222-1250 *)
Definition ppo_hist (close : list F) (window_slow window_fast window_sign : Z) (fillna : bool) :=
  ' (_, _, h) <- ppo_run close window_slow window_fast window_sign fillna ;;
  Ok (check_fillna fillna (FillInt 0) h).

(** ** PercentageVolumeOscillator: momentum.py:726-731 *)
Definition pvo_run (volume : list F) (window_slow window_fast window_sign : Z) (fillna : bool)
  : result (list F * list F * list F) :=
  emafast <- ema_ volume window_fast fillna ;;
  emaslow <- ema_ volume window_slow fillna ;;
  let pvo := muls (sdiv (ssub emafast emaslow) emaslow) (#100) in
  pvo_signal <- ema_ pvo window_sign fillna ;;
  Ok (pvo, pvo_signal, ssub pvo pvo_signal).
(** momentum.py:733-742, 1253-1284 *)
Definition pvo (volume : list F) (window_slow window_fast window_sign : Z) (fillna : bool) :=
  ' (p, _, _) <- pvo_run volume window_slow window_fast window_sign fillna ;;
  Ok (check_fillna fillna (FillInt 0) p).
(** momentum.py:744-754, 1287-1318 *)
Definition pvo_signal (volume : list F) (window_slow window_fast window_sign : Z) (fillna : bool) :=
  ' (_, s, _) <- pvo_run volume window_slow window_fast window_sign fillna ;;
  Ok (check_fillna fillna (FillInt 0) s).
(** momentum.py:756-766, 1321-1352 *)
Definition pvo_hist (volume : list F) (window_slow window_fast window_sign : Z) (fillna : bool) :=
  ' (_, _, h) <- pvo_run volume window_slow window_fast window_sign fillna ;;
  Ok (check_fillna fillna (FillInt 0) h).

End Momentum.
