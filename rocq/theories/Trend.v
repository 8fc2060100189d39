(** * Trend: model of /repo/ta/trend.py

    Conventions as in Momentum.v: X_run is the body of X._run, the other
    functions are the methods (and the module level functions of
    trend.py:1159-1900, which forward to them).  Indexing with [nth _ _ fnan]
    is only ever in range (the bounds are the loop bounds of the code). *)
From Verif Require Export Momentum.
Local Open Scope f_scope.

Section Trend.
Context {F : Type} {A : Arith F}.

(** ** AroonIndicator: trend.py:41-53.  The lambdas divide a Python float by
    [window]: window = 0 raises ZeroDivisionError as soon as one window is
    evaluated; window = -1 without fillna evaluates argmax of an empty array
    (ValueError). *)
Definition aroon_run (high low : list F) (window : Z) (fillna : bool)
  : result (list F * list F) :=
  let minp := if fillna then 1%Z else (window + 1)%Z in
  let pct (k : nat) := fofnat k /. fofZ window **. #100 in
  up <- rolling (window + 1) minp (agg_apply (fun x => pct (np_argmax x))) high ;;
  down <- rolling (window + 1) minp (agg_apply (fun x => pct (np_argmin x))) low ;;
  if (window =? 0)%Z && (negb (length (obs (prep high)) =? 0) || negb (length (obs (prep low)) =? 0))
  then Raise ZeroDivisionError
  else if (window =? -1)%Z && (negb (length high =? 0) || negb (length low =? 0))
  then Raise ValueError
  else Ok (up, down).
(** trend.py:55-62 *)
Definition aroon_up (high low : list F) (window : Z) (fillna : bool) :=
  ' (u, _) <- aroon_run high low window fillna ;; Ok (check_fillna fillna (FillInt 0) u).
(** trend.py:64-71 *)
Definition aroon_down (high low : list F) (window : Z) (fillna : bool) :=
  ' (_, d) <- aroon_run high low window fillna ;; Ok (check_fillna fillna (FillInt 0) d).
(** trend.py:73-81 *)
Definition aroon_indicator (high low : list F) (window : Z) (fillna : bool) :=
  ' (u, d) <- aroon_run high low window fillna ;;
  Ok (check_fillna fillna (FillInt 0) (ssub u d)).

(** ** MACD: trend.py:115-120 *)
Definition macd_run (close : list F) (window_slow window_fast window_sign : Z) (fillna : bool)
  : result (list F * list F * list F) :=
  emafast <- ema_ close window_fast fillna ;;
  emaslow <- ema_ close window_slow fillna ;;
  let macd := ssub emafast emaslow in
  macd_signal <- ema_ macd window_sign fillna ;;
  Ok (macd, macd_signal, ssub macd macd_signal).
(** trend.py:122-131 *)
Definition macd (close : list F) (window_slow window_fast window_sign : Z) (fillna : bool) :=
  ' (m, _, _) <- macd_run close window_slow window_fast window_sign fillna ;;
  Ok (check_fillna fillna (FillInt 0) m).
(** trend.py:133-144 *)
Definition macd_signal (close : list F) (window_slow window_fast window_sign : Z) (fillna : bool) :=
  ' (_, s, _) <- macd_run close window_slow window_fast window_sign fillna ;;
  Ok (check_fillna fillna (FillInt 0) s).
(** trend.py:146-155 *)
Definition macd_diff (close : list F) (window_slow window_fast window_sign : Z) (fillna : bool) :=
  ' (_, _, d) <- macd_run close window_slow window_fast window_sign fillna ;;
  Ok (check_fillna fillna (FillInt 0) d).

(** ** EMAIndicator.ema_indicator: trend.py:172-179 (no _check_fillna) *)
Definition ema_indicator (close : list F) (window : Z) (fillna : bool) := ema_ close window fillna.
(** ** SMAIndicator.sma_indicator: trend.py:196-203 (no _check_fillna) *)
Definition sma_indicator (close : list F) (window : Z) (fillna : bool) := sma_ close window fillna.

(** ** WMAIndicator: trend.py:221-246.  (weight * x).sum() is Series.sum, which
    skips NaN. *)
Definition wma_weights (window : Z) : list F :=
  map (fun i => fofZ (Z.of_nat i * 2) /. fofZ (window * (window + 1)))
      (seq 1 (Z.to_nat window)).
Definition wma (close : list F) (window : Z) (fillna : bool) : result (list F) :=
  let weight := wma_weights window in
  w <- rolling window window (agg_apply (fun x => ssum (map2 fmul weight x))) close ;;
  Ok (check_fillna fillna (FillInt 0) w).

(** ** TRIXIndicator: trend.py:269-285 *)
Definition trix (close : list F) (window : Z) (fillna : bool) : result (list F) :=
  ema1 <- ema_ close window fillna ;;
  ema2 <- ema_ ema1 window fillna ;;
  ema3 <- ema_ ema2 window fillna ;;
  let prev := shift_fill 1 (smean ema3) ema3 in
  Ok (check_fillna fillna (FillInt 0) (muls (sdiv (ssub ema3 prev) prev) (#100))).

(** ** MassIndex: trend.py:320-337 *)
Definition mass_index (high low : list F) (window_fast window_slow : Z) (fillna : bool)
  : result (list F) :=
  let minp := minp_of fillna window_slow in
  let amplitude := ssub high low in
  ema1 <- ema_ amplitude window_fast fillna ;;
  ema2 <- ema_ ema1 window_fast fillna ;;
  let mass := sdiv ema1 ema2 in
  m <- rolling window_slow minp agg_sum mass ;;
  Ok (check_fillna fillna (FillInt 0) m).

(** ** IchimokuIndicator: trend.py:374-384 *)
Definition ichimoku_run (high low : list F) (window1 window2 : Z) (fillna : bool)
  : result (list F * list F) :=
  let minp1 := minp_of fillna window1 in
  let minp2 := minp_of fillna window2 in
  h1 <- rolling window1 minp1 agg_max high ;;
  l1 <- rolling window1 minp1 agg_min low ;;
  h2 <- rolling window2 minp2 agg_max high ;;
  l2 <- rolling window2 minp2 agg_min low ;;
  Ok (scal fhalf (sadd h1 l1), scal fhalf (sadd h2 l2)).
(** trend.py:386-395 *)
Definition ichimoku_conversion_line (high low : list F) (window1 window2 window3 : Z)
    (visual fillna : bool) :=
  ' (c, _) <- ichimoku_run high low window1 window2 fillna ;;
  Ok (check_fillna fillna (FillInt (-1)) c).
(** trend.py:397-404 *)
Definition ichimoku_base_line (high low : list F) (window1 window2 window3 : Z)
    (visual fillna : bool) :=
  ' (_, b) <- ichimoku_run high low window1 window2 fillna ;;
  Ok (check_fillna fillna (FillInt (-1)) b).
(** trend.py:406-419 *)
Definition ichimoku_a (high low : list F) (window1 window2 window3 : Z)
    (visual fillna : bool) :=
  ' (c, b) <- ichimoku_run high low window1 window2 fillna ;;
  let spana := scal fhalf (sadd c b) in
  let spana' := if visual then shift_fill window2 (smean spana) spana else spana in
  Ok (check_fillna fillna (FillInt (-1)) spana').
(** trend.py:421-437; the constructor (ichimoku_run) runs first *)
Definition ichimoku_b (high low : list F) (window1 window2 window3 : Z)
    (visual fillna : bool) :=
  _ <- ichimoku_run high low window1 window2 fillna ;;
  h3 <- rolling window3 0 agg_max high ;;
  l3 <- rolling window3 0 agg_min low ;;
  let spanb := scal fhalf (sadd h3 l3) in
  let spanb' := if visual then shift_fill window2 (smean spanb) spanb else spanb in
  Ok (check_fillna fillna (FillInt (-1)) spanb').

(** ** KSTIndicator: trend.py:491-541.  One smoothed rate of change
    (trend.py:496-506 and the three copies below it). *)
Definition kst_rocma (close : list F) (r window : Z) (fillna : bool) : result (list F) :=
  let prev := shift_fill r (smean close) close in
  rolling window (minp_of fillna window) agg_mean (sdiv (ssub close prev) prev).
Definition kst_run (close : list F) (r1 r2 r3 r4 w1 w2 w3 w4 nsig : Z) (fillna : bool)
  : result (list F * list F) :=
  rocma1 <- kst_rocma close r1 w1 fillna ;;
  rocma2 <- kst_rocma close r2 w2 fillna ;;
  rocma3 <- kst_rocma close r3 w3 fillna ;;
  rocma4 <- kst_rocma close r4 w4 fillna ;;
  let kst := scal (#100) (sadd (sadd (sadd rocma1 (scal (#2) rocma2)) (scal (#3) rocma3))
                               (scal (#4) rocma4)) in
  kst_sig <- rolling nsig 0 agg_mean kst ;;
  Ok (kst, kst_sig).
(** trend.py:543-550 *)
Definition kst (close : list F) (r1 r2 r3 r4 w1 w2 w3 w4 nsig : Z) (fillna : bool) :=
  ' (k, _) <- kst_run close r1 r2 r3 r4 w1 w2 w3 w4 nsig fillna ;;
  Ok (check_fillna fillna (FillInt 0) k).
(** trend.py:552-561 *)
Definition kst_sig (close : list F) (r1 r2 r3 r4 w1 w2 w3 w4 nsig : Z) (fillna : bool) :=
  ' (_, s) <- kst_run close r1 r2 r3 r4 w1 w2 w3 w4 nsig fillna ;;
  Ok (check_fillna fillna (FillInt 0) s).
(** trend.py:563-573 *)
Definition kst_diff (close : list F) (r1 r2 r3 r4 w1 w2 w3 w4 nsig : Z) (fillna : bool) :=
  ' (k, s) <- kst_run close r1 r2 r3 r4 w1 w2 w3 w4 nsig fillna ;;
  Ok (check_fillna fillna (FillInt 0) (ssub k s)).

(** ** DPOIndicator: trend.py:596-612; int(0.5*window + 1) truncates toward 0 *)
Definition dpo_shift (window : Z) : Z := Z.quot (window + 2) 2.
Definition dpo (close : list F) (window : Z) (fillna : bool) : result (list F) :=
  m <- rolling window (minp_of fillna window) agg_mean close ;;
  Ok (check_fillna fillna (FillInt 0)
        (ssub (shift_fill (dpo_shift window) (smean close) close) m)).

(** ** CCIIndicator: trend.py:652-675 *)
Definition mad_ (x : list F) : F :=
  let m := npmean x in npmean (map (fun v => fabs (v -. m)) x).
Definition cci (high low close : list F) (window : Z) (constant : F) (fillna : bool)
  : result (list F) :=
  let minp := minp_of fillna window in
  let tp := divs (sadd (sadd high low) close) (#3) in
  m <- rolling window minp agg_mean tp ;;
  d <- rolling window minp (agg_apply mad_) tp ;;
  Ok (check_fillna fillna (FillInt 0) (sdiv (ssub tp m) (scal constant d))).

(** ** ADXIndicator: trend.py:718-769 *)
(** the loops of trend.py:734-739, 752-757, 764-769 *)
Fixpoint adx_smooth_go (w prev : F) (xs : list F) : list F :=
  match xs with
  | [] => []
  | x :: r => let v := prev -. (prev /. w) +. x in v :: adx_smooth_go w v r
  end.
(** np.zeros(m); [0] = sum of the first [w] non-missing; entries 1 .. m-2 by
    the loop, from rows w+1 .. n-1; entry m-1 is left at 0 *)
Definition adx_smooth (w m : nat) (x : list F) : list F :=
  let first := fsum (firstn w (obs x)) in
  if m =? 1 then [first]
  else first :: adx_smooth_go (fofnat w) first (skipn (S w) x) ++ [#0].
Record adx_state := { adx_trs : list F; adx_dip : list F; adx_din : list F }.
Definition adx_run (high low close : list F) (window : Z) : result adx_state :=
  if (window =? 0)%Z then Raise ValueError
  else
    let close_shift := shift 1 close in
    pdm <- get_min_max high close_shift FnMax ;;
    pdn <- get_min_max low close_shift FnMin ;;
    let ddm := ssub pdm pdn in
    let n := Z.of_nat (length close) in
    (* np.zeros of a negative length raises ValueError, [0] on an empty array IndexError *)
    if (window <? 0)%Z || (n - (window - 1) <? 0)%Z then Raise ValueError
    else if (n - (window - 1) =? 0)%Z then Raise IndexError
    else
      let w := Z.to_nat window in
      let m := Z.to_nat (n - (window - 1)) in
      let diff_up := ssub high (shift 1 high) in
      let diff_down := ssub (shift 1 low) low in
      let pos := map2 (fun u d => fabs ((if (d <.? u) && (#0 <.? u) then #1 else #0) **. u))
                      diff_up diff_down in
      let neg := map2 (fun u d => fabs ((if (u <.? d) && (#0 <.? d) then #1 else #0) **. d))
                      diff_up diff_down in
      Ok {| adx_trs := adx_smooth w m ddm; adx_dip := adx_smooth w m pos;
            adx_din := adx_smooth w m neg |}.
(** 100 * (num/den), 0 where den is 0: trend.py:779-793, 829-833, 850-854 *)
Definition adx_pct (num den : F) : F := if negb (den =.? #0) then #100 **. (num /. den) else #0.
(** trend.py:797-804 *)
Definition adx_dx (p q : F) : F :=
  if negb ((p +. q) =.? #0) then #100 **. fabs ((p -. q) /. (p +. q)) else #0.
(** trend.py:809-812 *)
Fixpoint adx_go (w prev : F) (di : list F) : list F :=
  match di with
  | [] => []
  | d :: r => let v := ((prev **. (w -. #1)) +. d) /. w in v :: adx_go w v r
  end.
(** trend.py:771-818 *)
Definition adx (high low close : list F) (window : Z) (fillna : bool) : result (list F) :=
  st <- adx_run high low close window ;;
  let w := Z.to_nat window in
  let m := length (adx_trs st) in
  let dip := map2 adx_pct (adx_dip st) (adx_trs st) in
  let din := map2 adx_pct (adx_din st) (adx_trs st) in
  let di := map2 adx_dx dip din in
  if m <=? w then Raise IndexError
  else
    let first := npmean (firstn w di) in
    let series := repeat (#0) w ++
                  first :: adx_go (fofnat w) first (firstn (m - 1 - w) (skipn w di)) in
    Ok (check_fillna fillna (FillInt 20) (repeat (#0) (w - 1) ++ series)).
(** trend.py:820-839 and 841-860 *)
Definition adx_line (n w : nat) (num trs : list F) : list F :=
  repeat (#0) (Nat.min n (S w)) ++
  firstn (length trs - 2) (skipn 1 (map2 adx_pct num trs)).
Definition adx_pos (high low close : list F) (window : Z) (fillna : bool) : result (list F) :=
  st <- adx_run high low close window ;;
  Ok (check_fillna fillna (FillInt 20)
        (adx_line (length close) (Z.to_nat window) (adx_dip st) (adx_trs st))).
Definition adx_neg (high low close : list F) (window : Z) (fillna : bool) : result (list F) :=
  st <- adx_run high low close window ;;
  Ok (check_fillna fillna (FillInt 20)
        (adx_line (length close) (Z.to_nat window) (adx_din st) (adx_trs st))).

(** ** VortexIndicator: trend.py:895-903 *)
Definition vortex_run (high low close : list F) (window : Z) (fillna : bool)
  : result (list F * list F) :=
  let close_shift := shift_fill 1 (smean close) close in
  let tr := true_range high low close_shift in
  let minp := minp_of fillna window in
  trn <- rolling window minp agg_sum tr ;;
  let vmp := map fabs (ssub high (shift 1 low)) in
  let vmm := map fabs (ssub low (shift 1 high)) in
  vp <- rolling window minp agg_sum vmp ;;
  vm <- rolling window minp agg_sum vmm ;;
  Ok (sdiv vp trn, sdiv vm trn).
(** trend.py:905-912 *)
Definition vortex_indicator_pos (high low close : list F) (window : Z) (fillna : bool) :=
  ' (p, _) <- vortex_run high low close window fillna ;; Ok (check_fillna fillna (FillInt 1) p).
(** trend.py:914-921 *)
Definition vortex_indicator_neg (high low close : list F) (window : Z) (fillna : bool) :=
  ' (_, m) <- vortex_run high low close window fillna ;; Ok (check_fillna fillna (FillInt 1) m).
(** trend.py:923-931 *)
Definition vortex_indicator_diff (high low close : list F) (window : Z) (fillna : bool) :=
  ' (p, m) <- vortex_run high low close window fillna ;;
  Ok (check_fillna fillna (FillInt 0) (ssub p m)).

(** ** PSARIndicator: trend.py:971-1039.
    The row labels matter: trend.py:1030 assigns [self._psar[i]], which pandas
    resolves by label on an integer index (all rows carrying label i are set; a
    missing label is appended) and by position on other indexes.
    [labels = None] is a non-integer index, [Some ls] an integer index with
    labels ls (a default RangeIndex is [0; 1; ...]). *)
Fixpoint upd {B} (n : nat) (v : B) (l : list B) : list B :=
  match l, n with
  | [], _ => []
  | _ :: r, 0 => v :: r
  | x :: r, S n' => x :: upd n' v r
  end.
Definition setitem (labels : option (list Z)) (i : nat) (v : F) (s : list F)
  : option (list Z) * list F :=
  match labels with
  | None => (None, upd i v s)
  | Some ls =>
      let key := Z.of_nat i in
      if existsb (Z.eqb key) ls
      then (Some ls, map2 (fun l x => if (l =? key)%Z then v else x) ls s)
      else (Some (ls ++ [key]), s ++ [v])
  end.
Record psar_state := {
  ps_up_trend : bool; ps_af : F; ps_uth : F; ps_dtl : F;
  ps_labels : option (list Z); ps_psar : list F; ps_up : list F; ps_down : list F }.
Definition psar_init (high low close : list F) (labels : option (list Z)) (step : F) : psar_state :=
  {| ps_up_trend := true; ps_af := step; ps_uth := nth 0 high fnan; ps_dtl := nth 0 low fnan;
     ps_labels := labels; ps_psar := close;
     ps_up := repeat fnan (length close); ps_down := repeat fnan (length close) |}.
(** one iteration of the loop, trend.py:982-1039 *)
Definition psar_step (high low : list F) (step max_step : F) (st : psar_state) (i : nat)
  : psar_state :=
  let max_high := nth i high fnan in
  let min_low := nth i low fnan in
  let af := ps_af st in let uth := ps_uth st in let dtl := ps_dtl st in
  let prev := nth (i - 1) (ps_psar st) fnan in
  let '(reversal, af', uth', dtl', (labels', psar')) :=
    if ps_up_trend st then
      let v := prev +. (af **. (uth -. prev)) in
      if min_low <.? v then
        (true, step, uth, min_low, (ps_labels st, upd i uth (ps_psar st)))
      else
        let '(uth1, af1) :=
          if uth <.? max_high then (max_high, fmin2 (af +. step) max_step) else (uth, af) in
        let low1 := nth (i - 1) low fnan in
        let low2 := nth (i - 2) low fnan in
        let v' := if low2 <.? v then low2 else if low1 <.? v then low1 else v in
        (false, af1, uth1, dtl, (ps_labels st, upd i v' (ps_psar st)))
    else
      let v := prev -. (af **. (prev -. dtl)) in
      if v <.? max_high then
        (true, step, max_high, dtl, (ps_labels st, upd i dtl (ps_psar st)))
      else
        let '(dtl1, af1) :=
          if min_low <.? dtl then (min_low, fmin2 (af +. step) max_step) else (dtl, af) in
        let high1 := nth (i - 1) high fnan in
        let high2 := nth (i - 2) high fnan in
        let p0 := upd i v (ps_psar st) in
        (false, af1, uth, dtl1,
         if v <.? high2 then setitem (ps_labels st) i high2 p0
         else (ps_labels st, if v <.? high1 then upd i high1 p0 else p0)) in
  let up := xorb (ps_up_trend st) reversal in
  let cur := nth i psar' fnan in
  {| ps_up_trend := up; ps_af := af'; ps_uth := uth'; ps_dtl := dtl';
     ps_labels := labels'; ps_psar := psar';
     ps_up := if up then upd i cur (ps_up st) else ps_up st;
     ps_down := if up then ps_down st else upd i cur (ps_down st) |}.
(** high.iloc[0] raises IndexError on an empty column *)
Definition psar_run (high low close : list F) (labels : option (list Z)) (step max_step : F)
  : result psar_state :=
  match high with
  | [] => Raise IndexError
  | _ => Ok (fold_left (psar_step high low step max_step) (seq 2 (length close - 2))
                       (psar_init high low close labels step))
  end.
(** trend.py:1041-1048 *)
Definition psar (high low close : list F) labels (step max_step : F) (fillna : bool) :=
  st <- psar_run high low close labels step max_step ;;
  Ok (check_fillna fillna (FillInt (-1)) (ps_psar st)).
(** trend.py:1050-1057 *)
Definition psar_up (high low close : list F) labels (step max_step : F) (fillna : bool) :=
  st <- psar_run high low close labels step max_step ;;
  Ok (check_fillna fillna (FillInt (-1)) (ps_up st)).
(** trend.py:1059-1066 *)
Definition psar_down (high low close : list F) labels (step max_step : F) (fillna : bool) :=
  st <- psar_run high low close labels step max_step ;;
  Ok (check_fillna fillna (FillInt (-1)) (ps_down st)).
(** trend.py:1074-1077 / 1086-1089: value of psar_up where [s] starts, else 0;
    then everything that is not 0 becomes 1 *)
Definition psar_indicator (up s : list F) : list F :=
  let started := map2 (fun x p => negb (fisnan x) && fisnan p) s (shift 1 s) in
  map (fun x => if x =.? #0 then x else #1)
      (map2 (fun (b : bool) u => if b then u else #0) started up).
Definition psar_up_indicator (high low close : list F) labels (step max_step : F) (fillna : bool) :=
  st <- psar_run high low close labels step max_step ;;
  Ok (psar_indicator (ps_up st) (ps_up st)).
(** trend.py:1080-1090 *)
Definition psar_down_indicator (high low close : list F) labels (step max_step : F) (fillna : bool) :=
  st <- psar_run high low close labels step max_step ;;
  Ok (psar_indicator (ps_up st) (ps_down st)).

(** ** STCIndicator: trend.py:1134-1156 *)
Definition stc_stoch (x : list F) (cycle : Z) : result (list F) :=
  mn <- rolling cycle cycle agg_min x ;;
  mx <- rolling cycle cycle agg_max x ;;
  Ok (sdiv (scal (#100) (ssub x mn)) (ssub mx mn)).
Definition stc (close : list F) (window_slow window_fast cycle smooth1 smooth2 : Z) (fillna : bool)
  : result (list F) :=
  emafast <- ema_ close window_fast fillna ;;
  emaslow <- ema_ close window_slow fillna ;;
  let macd := ssub emafast emaslow in
  stoch_k <- stc_stoch macd cycle ;;
  stoch_d <- ema_ stoch_k smooth1 fillna ;;
  stoch_kd <- stc_stoch stoch_d cycle ;;
  s <- ema_ stoch_kd smooth2 fillna ;;
  Ok (check_fillna fillna (FillInt 0) s).

End Trend.
