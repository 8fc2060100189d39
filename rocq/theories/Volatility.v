(** * Volatility: model of /repo/ta/volatility.py *)
From Verif Require Export Trend.
Local Open Scope f_scope.

Section Volatility.
Context {F : Type} {A : Arith F}.

(** ** AverageTrueRange: volatility.py:46-64.
    [atr_go] is the loop of lines 59-62 for window >= 1, where it only appends. *)
Fixpoint atr_go (w prev : F) (tr : list F) : list F :=
  match tr with
  | [] => []
  | t :: r => let v := (prev **. (w -. #1) +. t) /. w in v :: atr_go w v r
  end.
(** ... and for window <= 0, where numpy (and iloc) count negative positions
    from the end, so the loop overwrites an array of len(close) zeros. *)
Definition from_end (n : nat) (i : Z) : nat := Z.to_nat (if (i <? 0)%Z then Z.of_nat n + i else i).
Definition atr_wrapped (n : nat) (window : Z) (tr : list F) : list F :=
  (* true_range[0:window] *)
  let first := smean (firstn (if (window <? 0)%Z then from_end n window else 0) tr) in
  fold_left (fun atr k =>
      let i := (window + Z.of_nat k)%Z in
      upd (from_end n i)
        ((nth (from_end n (i - 1)) atr fnan **. fofZ (window - 1) +. nth (from_end n i) tr fnan)
           /. fofZ window) atr)
    (seq 0 (Z.to_nat (Z.of_nat n - window)))
    (upd (from_end n (window - 1)) first (repeat (#0) n)).
Definition average_true_range (high low close : list F) (window : Z) (fillna : bool)
  : result (list F) :=
  if (window <=? 0)%Z then
    if (Z.of_nat (length close) <? 1 - window)%Z then Raise IndexError
    else Ok (check_fillna fillna (FillInt 0)
               (atr_wrapped (length close) window (true_range high low (shift 1 close))))
  else
    let w := Z.to_nat window in
    let tr := true_range high low (shift 1 close) in
    (* atr[window-1] = ... on an array of len(close) zeros *)
    if length close <? w then Raise IndexError
    else
      let first := smean (firstn w tr) in
      Ok (check_fillna fillna (FillInt 0)
            (repeat (#0) (w - 1) ++ first :: atr_go (fofnat w) first (skipn w tr))).

(** ** BollingerBands: volatility.py:92-99 *)
Record bb_state := { bb_mavg : list F; bb_hband : list F; bb_lband : list F }.
Definition bollinger_run (close : list F) (window : Z) (window_dev : F) (fillna : bool)
  : result bb_state :=
  let minp := minp_of fillna window in
  mavg <- rolling window minp agg_mean close ;;
  mstd <- rolling window minp agg_std0 close ;;
  Ok {| bb_mavg := mavg; bb_hband := sadd mavg (scal window_dev mstd);
        bb_lband := ssub mavg (scal window_dev mstd) |}.
(** volatility.py:101-108 *)
Definition bollinger_mavg (close : list F) (window : Z) (window_dev : F) (fillna : bool) :=
  st <- bollinger_run close window window_dev fillna ;;
  Ok (check_fillna fillna (FillInt (-1)) (bb_mavg st)).
(** volatility.py:110-117 *)
Definition bollinger_hband (close : list F) (window : Z) (window_dev : F) (fillna : bool) :=
  st <- bollinger_run close window window_dev fillna ;;
  Ok (check_fillna fillna (FillInt (-1)) (bb_hband st)).
(** volatility.py:119-126 *)
Definition bollinger_lband (close : list F) (window : Z) (window_dev : F) (fillna : bool) :=
  st <- bollinger_run close window window_dev fillna ;;
  Ok (check_fillna fillna (FillInt (-1)) (bb_lband st)).
(** volatility.py:128-138 *)
Definition bollinger_wband (close : list F) (window : Z) (window_dev : F) (fillna : bool) :=
  st <- bollinger_run close window window_dev fillna ;;
  Ok (check_fillna fillna (FillInt 0)
        (muls (sdiv (ssub (bb_hband st) (bb_lband st)) (bb_mavg st)) (#100))).
(** volatility.py:140-152 *)
Definition bollinger_pband (close : list F) (window : Z) (window_dev : F) (fillna : bool) :=
  st <- bollinger_run close window window_dev fillna ;;
  let width := map2 (fun h l => if negb (h =.? l) then h -. l else fnan)
                    (bb_hband st) (bb_lband st) in
  Ok (check_fillna fillna (FillInt 0) (sdiv (ssub close (bb_lband st)) width)).
(** volatility.py:154-166 *)
Definition bollinger_hband_indicator (close : list F) (window : Z) (window_dev : F) (fillna : bool) :=
  st <- bollinger_run close window window_dev fillna ;;
  Ok (check_fillna fillna (FillInt 0)
        (map2 (fun c h => if h <.? c then #1 else #0) close (bb_hband st))).
(** volatility.py:168-180 *)
Definition bollinger_lband_indicator (close : list F) (window : Z) (window_dev : F) (fillna : bool) :=
  st <- bollinger_run close window window_dev fillna ;;
  Ok (check_fillna fillna (FillInt 0)
        (map2 (fun c l => if c <.? l then #1 else #0) close (bb_lband st))).

(** ** KeltnerChannel: volatility.py:226-256 *)
Record kc_state := { kc_tp : list F; kc_high : list F; kc_low : list F }.
Definition keltner_run (high low close : list F) (window window_atr : Z) (fillna : bool)
    (original_version : bool) (multiplier : F) : result kc_state :=
  let minp := if fillna then 1%Z else window in
  if original_version then
    tp <- rolling window minp agg_mean (divs (sadd (sadd high low) close) (#3)) ;;
    tph <- rolling window 0 agg_mean
             (divs (sadd (ssub (scal (#4) high) (scal (#2) low)) close) (#3)) ;;
    tpl <- rolling window 0 agg_mean
             (divs (sadd (sadd (scal (#-2) high) (scal (#4) low)) close) (#3)) ;;
    Ok {| kc_tp := tp; kc_high := tph; kc_low := tpl |}
  else
    tp <- ewm_span window minp close ;;
    atr <- average_true_range high low close window_atr fillna ;;
    Ok {| kc_tp := tp; kc_high := sadd tp (scal multiplier atr);
          kc_low := ssub tp (scal multiplier atr) |}.
(** volatility.py:258-265 *)
Definition keltner_channel_mband (high low close : list F) (window window_atr : Z) (fillna : bool)
    (original_version : bool) (multiplier : F) :=
  st <- keltner_run high low close window window_atr fillna original_version multiplier ;;
  Ok (check_fillna fillna (FillInt (-1)) (kc_tp st)).
(** volatility.py:267-274 *)
Definition keltner_channel_hband (high low close : list F) (window window_atr : Z) (fillna : bool)
    (original_version : bool) (multiplier : F) :=
  st <- keltner_run high low close window window_atr fillna original_version multiplier ;;
  Ok (check_fillna fillna (FillInt (-1)) (kc_high st)).
(** volatility.py:276-283 *)
Definition keltner_channel_lband (high low close : list F) (window window_atr : Z) (fillna : bool)
    (original_version : bool) (multiplier : F) :=
  st <- keltner_run high low close window window_atr fillna original_version multiplier ;;
  Ok (check_fillna fillna (FillInt (-1)) (kc_low st)).
(** volatility.py:285-293 *)
Definition keltner_channel_wband (high low close : list F) (window window_atr : Z) (fillna : bool)
    (original_version : bool) (multiplier : F) :=
  st <- keltner_run high low close window window_atr fillna original_version multiplier ;;
  Ok (check_fillna fillna (FillInt 0)
        (muls (sdiv (ssub (kc_high st) (kc_low st)) (kc_tp st)) (#100))).
(** volatility.py:295-303 *)
Definition keltner_channel_pband (high low close : list F) (window window_atr : Z) (fillna : bool)
    (original_version : bool) (multiplier : F) :=
  st <- keltner_run high low close window window_atr fillna original_version multiplier ;;
  Ok (check_fillna fillna (FillInt 0)
        (sdiv (ssub close (kc_low st)) (ssub (kc_high st) (kc_low st)))).
(** volatility.py:305-317 *)
Definition keltner_channel_hband_indicator (high low close : list F) (window window_atr : Z)
    (fillna : bool) (original_version : bool) (multiplier : F) :=
  st <- keltner_run high low close window window_atr fillna original_version multiplier ;;
  Ok (check_fillna fillna (FillInt 0)
        (map2 (fun c h => if h <.? c then #1 else #0) close (kc_high st))).
(** volatility.py:319-331 *)
Definition keltner_channel_lband_indicator (high low close : list F) (window window_atr : Z)
    (fillna : bool) (original_version : bool) (multiplier : F) :=
  st <- keltner_run high low close window window_atr fillna original_version multiplier ;;
  Ok (check_fillna fillna (FillInt 0)
        (map2 (fun c l => if c <.? l then #1 else #0) close (kc_low st))).

(** ** DonchianChannel: volatility.py:364-371 *)
Definition donchian_minp (window : Z) (fillna : bool) : Z := if fillna then 1%Z else window.
Definition donchian_run (high low : list F) (window : Z) (fillna : bool)
  : result (list F * list F) :=
  let minp := donchian_minp window fillna in
  h <- rolling window minp agg_max high ;;
  l <- rolling window minp agg_min low ;;
  Ok (h, l).
(** if self._offset != 0: s.shift(self._offset) *)
Definition donchian_offset (offset : Z) (s : list F) : list F :=
  if negb (offset =? 0)%Z then shift offset s else s.
(** volatility.py:373-382 *)
Definition donchian_channel_hband (high low close : list F) (window offset : Z) (fillna : bool) :=
  ' (h, _) <- donchian_run high low window fillna ;;
  Ok (donchian_offset offset (check_fillna fillna (FillInt (-1)) h)).
(** volatility.py:384-393 *)
Definition donchian_channel_lband (high low close : list F) (window offset : Z) (fillna : bool) :=
  ' (_, l) <- donchian_run high low window fillna ;;
  Ok (donchian_offset offset (check_fillna fillna (FillInt (-1)) l)).
(** volatility.py:395-405 *)
Definition donchian_channel_mband (high low close : list F) (window offset : Z) (fillna : bool) :=
  ' (h, l) <- donchian_run high low window fillna ;;
  Ok (donchian_offset offset (check_fillna fillna (FillInt (-1))
        (sadd (divs (ssub h l) (#2)) l))).
(** volatility.py:407-418 *)
Definition donchian_channel_wband (high low close : list F) (window offset : Z) (fillna : bool) :=
  ' (h, l) <- donchian_run high low window fillna ;;
  mavg <- rolling window (donchian_minp window fillna) agg_mean close ;;
  Ok (donchian_offset offset (check_fillna fillna (FillInt 0)
        (muls (sdiv (ssub h l) mavg) (#100)))).
(** volatility.py:420-430 *)
Definition donchian_channel_pband (high low close : list F) (window offset : Z) (fillna : bool) :=
  ' (h, l) <- donchian_run high low window fillna ;;
  Ok (donchian_offset offset (check_fillna fillna (FillInt 0)
        (sdiv (ssub close l) (ssub h l)))).

(** ** UlcerIndex: volatility.py:450-469 *)
Definition ulcer_index (close : list F) (window : Z) (fillna : bool) : result (list F) :=
  ui_max <- rolling window 1 agg_max close ;;
  let r_i := sdiv (scal (#100) (ssub close ui_max)) ui_max in
  u <- rolling window window
         (agg_apply (fun x => fsqrt (fsum (map (fun v => (v **. v) /. fofZ window) x)))) r_i ;;
  Ok (check_fillna fillna (FillInt 0) u).

End Volatility.
