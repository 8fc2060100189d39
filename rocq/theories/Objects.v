(** * Objects: one indicator object, its stored series and the calls on it.

    An indicator class of /repo/ta is a constructor that runs [_run] and keeps
    the series it computed, plus one method per output.  [Api.compute] models
    "construct, then call one method".  This file splits the two, because a
    caller may keep the object, call several methods in any order, write into
    the series they got back, and write into the columns they passed in.

    Sharing (pandas 1.3.5).  With fillna=False [_check_fillna] (utils.py:19-37)
    returns the stored series itself and [pd.Series(s, name=...)] does not copy,
    so a method that returns a stored series returns a view of the object's own
    buffer.  With fillna=True [replace], [ffill], [bfill] and [fillna] each
    return a new series.  [self._close = close] keeps the caller's column.
    A write is [s.iloc[i] = x] with a float x on a float series. *)
From Verif Require Export Api.
Local Open Scope f_scope.

Section Objects.
Context {F : Type} {A : Arith F}.

(** The class and arguments an output belongs to, named by its first output. *)
Definition object_of (ind : indicator F) : indicator F :=
  match ind with
  | StochSignal w s => Stoch w s
  | StochRsiK w s1 s2 | StochRsiD w s1 s2 => StochRsi w s1 s2
  | PpoSignal s f g | PpoHist s f g => Ppo s f g
  | PvoSignal s f g | PvoHist s f g => Pvo s f g
  | AroonDown w | AroonInd w => AroonUp w
  | MacdSignal s f g | MacdDiff s f g => Macd s f g
  | IchiBase w1 w2 w3 b | IchiA w1 w2 w3 b | IchiB w1 w2 w3 b => IchiConv w1 w2 w3 b
  | KstSig r1 r2 r3 r4 w1 w2 w3 w4 n | KstDiff r1 r2 r3 r4 w1 w2 w3 w4 n =>
      Kst r1 r2 r3 r4 w1 w2 w3 w4 n
  | AdxPos w | AdxNeg w => Adx w
  | VortexNeg w | VortexDiff w => VortexPos w
  | PsarUp b s m | PsarDown b s m | PsarUpInd b s m | PsarDownInd b s m => Psar b s m
  | BbH w d | BbL w d | BbW w d | BbP w d | BbHI w d | BbLI w d => BbM w d
  | KcH w a o m | KcL w a o m | KcW w a o m | KcP w a o m | KcHI w a o m | KcLI w a o m =>
      KcM w a o m
  | DcL w o | DcM w o | DcW w o | DcP w o => DcH w o
  | SmaEom w => Eom w
  | _ => ind
  end.

(** What the constructor stores ([_run]), in this order:
    StochasticOscillator _stoch_k (momentum.py:253-257); StochRSI _stochrsi,
    _stochrsi_k (583-591); PPO _ppo, _ppo_signal, _ppo_hist (652-657); PVO
    likewise (726-731); Aroon _aroon_up, _aroon_down (trend.py:41-53); MACD
    _macd, _macd_signal, _macd_diff (115-120); Ichimoku _conv, _base (374-384);
    KST _kst, _kst_sig (491-541); ADX _trs, _dip, _din (718-769); Vortex _vip,
    _vin (895-903); PSAR _psar, _psar_up, _psar_down (971-1039); Bollinger
    _mavg, _hband, _lband (volatility.py:92-99); Keltner _tp, _tp_high, _tp_low
    (226-256); Donchian _hband, _lband (364-371); EaseOfMovement _emv
    (volume.py:228-234).  EMAIndicator and SMAIndicator have no [_run]
    (trend.py:167-203).  Every other class stores its one output, whose lines
    are cited at the function in Momentum.v, Trend.v, Volatility.v, Volume.v. *)
Definition build (obj : indicator F) (fillna : bool) (rows : list (bar F)) : result (list (list F)) :=
  let h := map b_high rows in
  let l := map b_low rows in
  let c := map b_close rows in
  let v := map b_volume rows in
  let one (r : result (list F)) : result (list (list F)) := rmap (fun s => [s]) r in
  match obj with
  | Rsi w => one (rsi_run c w fillna)
  | Tsi s f => one (tsi_run c s f fillna)
  | UltOsc w1 w2 w3 k1 k2 k3 => one (uo_run h l c w1 w2 w3 k1 k2 k3 fillna)
  | Stoch w _ => one (stoch_run h l c w fillna)
  | Kama w p q => one (kama_run c w p q fillna)
  | Roc w => let prev := shift w c in Ok [muls (sdiv (ssub c prev) prev) (#100)]
  | AwesomeOsc w1 w2 =>
      let median_price := scal fhalf (sadd h l) in
      fast <- rolling w1 (minp_of fillna w1) agg_mean median_price ;;
      slow <- rolling w2 (minp_of fillna w2) agg_mean median_price ;;
      Ok [ssub fast slow]
  | WilliamsR n =>
      let minp := minp_of fillna n in
      hh <- rolling n minp agg_max h ;;
      ll <- rolling n minp agg_min l ;;
      Ok [sdiv (scal (#-100) (ssub hh c)) (ssub hh ll)]
  | StochRsi w s1 _ => ' (s, k) <- stochrsi_run c w s1 fillna ;; Ok [s; k]
  | Ppo s f g => ' (p, sg, hi) <- ppo_run c s f g fillna ;; Ok [p; sg; hi]
  | Pvo s f g => ' (p, sg, hi) <- pvo_run v s f g fillna ;; Ok [p; sg; hi]
  | AroonUp w => ' (u, d) <- aroon_run h l w fillna ;; Ok [u; d]
  | Macd s f g => ' (m, sg, d) <- macd_run c s f g fillna ;; Ok [m; sg; d]
  | Ema _ | Sma _ => Ok []
  | Wma w =>
      one (rolling w w (agg_apply (fun x => ssum (map2 fmul (wma_weights w) x))) c)
  | Trix w =>
      ema1 <- ema_ c w fillna ;;
      ema2 <- ema_ ema1 w fillna ;;
      ema3 <- ema_ ema2 w fillna ;;
      let prev := shift_fill 1 (smean ema3) ema3 in
      Ok [muls (sdiv (ssub ema3 prev) prev) (#100)]
  | Mass wf ws =>
      ema1 <- ema_ (ssub h l) wf fillna ;;
      ema2 <- ema_ ema1 wf fillna ;;
      one (rolling ws (minp_of fillna ws) agg_sum (sdiv ema1 ema2))
  | IchiConv w1 w2 _ _ => ' (cv, bs) <- ichimoku_run h l w1 w2 fillna ;; Ok [cv; bs]
  | Kst r1 r2 r3 r4 w1 w2 w3 w4 n =>
      ' (k, s) <- kst_run c r1 r2 r3 r4 w1 w2 w3 w4 n fillna ;; Ok [k; s]
  | Dpo w =>
      m <- rolling w (minp_of fillna w) agg_mean c ;;
      Ok [ssub (shift_fill (dpo_shift w) (smean c) c) m]
  | Cci w k =>
      let tp := divs (sadd (sadd h l) c) (#3) in
      m <- rolling w (minp_of fillna w) agg_mean tp ;;
      d <- rolling w (minp_of fillna w) (agg_apply mad_) tp ;;
      Ok [sdiv (ssub tp m) (scal k d)]
  | Adx w => st <- adx_run h l c w ;; Ok [adx_trs st; adx_dip st; adx_din st]
  | VortexPos w => ' (p, m) <- vortex_run h l c w fillna ;; Ok [p; m]
  | Psar b s m =>
      st <- psar_run h l c (if b then Some (map b_label rows) else None) s m ;;
      Ok [ps_psar st; ps_up st; ps_down st]
  | Stc ws wf cy s1 s2 =>
      emafast <- ema_ c wf fillna ;;
      emaslow <- ema_ c ws fillna ;;
      stoch_k <- stc_stoch (ssub emafast emaslow) cy ;;
      stoch_d <- ema_ stoch_k s1 fillna ;;
      stoch_kd <- stc_stoch stoch_d cy ;;
      one (ema_ stoch_kd s2 fillna)
  | Atr w =>
      let tr := true_range h l (shift 1 c) in
      if (w <=? 0)%Z then
        if (Z.of_nat (length c) <? 1 - w)%Z then Raise IndexError
        else Ok [atr_wrapped (length c) w tr]
      else
        let k := Z.to_nat w in
        if length c <? k then Raise IndexError
        else
          let first := smean (firstn k tr) in
          Ok [repeat (#0) (k - 1) ++ first :: atr_go (fofnat k) first (skipn k tr)]
  | BbM w d => st <- bollinger_run c w d fillna ;; Ok [bb_mavg st; bb_hband st; bb_lband st]
  | KcM w a o m => st <- keltner_run h l c w a fillna o m ;; Ok [kc_tp st; kc_high st; kc_low st]
  | DcH w _ => ' (hb, lb) <- donchian_run h l w fillna ;; Ok [hb; lb]
  | Ulcer w =>
      ui_max <- rolling w 1 agg_max c ;;
      one (rolling w w
             (agg_apply (fun x => fsqrt (fsum (map (fun v => (v **. v) /. fofZ w) x))))
             (sdiv (scal (#100) (ssub c ui_max)) ui_max))
  | Adi => Ok [cumsum (smul (clv h l c) v)]
  | Obv => Ok [cumsum (map3 (fun c p v => if c <.? p then fopp v else v) c (shift 1 c) v)]
  | Cmf w =>
      a <- rolling w (minp_of fillna w) agg_sum (smul (clv h l c) v) ;;
      b <- rolling w (minp_of fillna w) agg_sum v ;;
      Ok [sdiv a b]
  | Fi w => one (ema_ (smul (ssub c (shift 1 c)) v) w fillna)
  | Eom w => Ok [emv h l v]
  | Vpt sf d =>
      let vpt := cumsum (smul (pct_change c) v) in
      vpt' <- match sf with
              | None => Ok vpt
              | Some k => if (k =? 0)%Z then Ok vpt
                          else rolling k (minp_of fillna k) agg_mean vpt
              end ;;
      Ok [if d then obs vpt' else vpt']
  | Nvi =>
      match c with
      | [] => Raise IndexError
      | _ => Ok [#1000 :: nvi_go (#1000) (tl (pct_change c)) v (tl v)]
      end
  | Mfi w =>
      let tp := divs (sadd (sadd h l) c) (#3) in
      let up_down := map2 (fun t p => if p <.? t then #1 else if t <.? p then #-1 else #0)
                          tp (shift 1 tp) in
      let mfr := smul (smul tp v) up_down in
      pmf <- rolling w (minp_of fillna w)
               (agg_apply (fun x => fsum (map (fun v => if #0 <=.? v then v else #0) x))) mfr ;;
      nmf <- rolling w (minp_of fillna w)
               (agg_apply (fun x => fsum (map (fun v => if v <.? #0 then v else #0) x))) mfr ;;
      Ok [map (fun r => #100 -. (#100 /. (#1 +. r))) (sdiv pmf (map fabs nmf))]
  | Vwap w =>
      let tp := divs (sadd (sadd h l) c) (#3) in
      total_pv <- rolling w (minp_of fillna w) agg_sum (smul tp v) ;;
      total_volume <- rolling w (minp_of fillna w) agg_sum v ;;
      Ok [sdiv total_pv total_volume]
  | DailyReturn => Ok [muls (subs (sdiv c (shift 1 c)) (#1)) (#100)]
  | DailyLogReturn log => Ok [muls (diff1 (map log c)) (#100)]
  | CumReturn =>
      match c with
      | [] => Raise IndexError
      | c0 :: _ => Ok [muls (subs (divs c c0) (#1)) (#100)]
      end
  | _ => Ok []
  end.

(** The k-th stored series. *)
Definition field (k : nat) (fs : list (list F)) : list F := nth k fs [].

(** One method call, from the stored series and from the columns as they are
    when the method is called.  Same lines as the functions of the model that
    carry the method's name. *)
Definition show (ind : indicator F) (fillna : bool) (fs : list (list F)) (rows : list (bar F))
  : result (list F) :=
  let h := map b_high rows in
  let l := map b_low rows in
  let c := map b_close rows in
  let fill (z : Z) (k : nat) : result (list F) := Ok (check_fillna fillna (FillInt z) (field k fs)) in
  match ind with
  | Rsi _ | UltOsc _ _ _ _ _ _ | Stoch _ _ | Mfi _ => fill 50%Z 0%nat
  | StochSignal _ s =>
      rmap (check_fillna fillna (FillInt 50))
           (rolling s (minp_of fillna s) agg_mean (field 0 fs))
  | Kama _ _ _ => Ok (check_fillna fillna (FillSeries c) (field 0 fs))
  | WilliamsR _ => fill (-50)%Z 0%nat
  | StochRsiK _ _ _ => fill 0%Z 1%nat
  | StochRsiD _ _ s2 =>
      d <- rolling s2 s2 agg_mean (field 1 fs) ;; Ok (check_fillna fillna (FillInt 0) d)
  | PpoSignal _ _ _ | PvoSignal _ _ _ | MacdSignal _ _ _ => fill 0%Z 1%nat
  | PpoHist _ _ _ | PvoHist _ _ _ | MacdDiff _ _ _ => fill 0%Z 2%nat
  | AroonDown _ => fill 0%Z 1%nat
  | AroonInd _ => Ok (check_fillna fillna (FillInt 0) (ssub (field 0 fs) (field 1 fs)))
  | Ema w => ema_ c w fillna
  | Sma w => sma_ c w fillna
  | IchiConv _ _ _ _ => fill (-1)%Z 0%nat
  | IchiBase _ _ _ _ => fill (-1)%Z 1%nat
  | IchiA _ w2 _ visual =>
      let spana := scal fhalf (sadd (field 0 fs) (field 1 fs)) in
      let spana' := if visual then shift_fill w2 (smean spana) spana else spana in
      Ok (check_fillna fillna (FillInt (-1)) spana')
  | IchiB _ w2 w3 visual =>
      h3 <- rolling w3 0 agg_max h ;;
      l3 <- rolling w3 0 agg_min l ;;
      let spanb := scal fhalf (sadd h3 l3) in
      let spanb' := if visual then shift_fill w2 (smean spanb) spanb else spanb in
      Ok (check_fillna fillna (FillInt (-1)) spanb')
  | KstSig _ _ _ _ _ _ _ _ _ => fill 0%Z 1%nat
  | KstDiff _ _ _ _ _ _ _ _ _ =>
      Ok (check_fillna fillna (FillInt 0) (ssub (field 0 fs) (field 1 fs)))
  | Adx w =>
      let trs := field 0 fs in
      let w := Z.to_nat w in
      let m := length trs in
      let dip := map2 adx_pct (field 1 fs) trs in
      let din := map2 adx_pct (field 2 fs) trs in
      let di := map2 adx_dx dip din in
      if m <=? w then Raise IndexError
      else
        let first := npmean (firstn w di) in
        let series := repeat (#0) w ++
                      first :: adx_go (fofnat w) first (firstn (m - 1 - w) (skipn w di)) in
        Ok (check_fillna fillna (FillInt 20) (repeat (#0) (w - 1) ++ series))
  | AdxPos w =>
      Ok (check_fillna fillna (FillInt 20)
            (adx_line (length c) (Z.to_nat w) (field 1 fs) (field 0 fs)))
  | AdxNeg w =>
      Ok (check_fillna fillna (FillInt 20)
            (adx_line (length c) (Z.to_nat w) (field 2 fs) (field 0 fs)))
  | VortexPos _ => fill 1%Z 0%nat
  | VortexNeg _ => fill 1%Z 1%nat
  | VortexDiff _ => Ok (check_fillna fillna (FillInt 0) (ssub (field 0 fs) (field 1 fs)))
  | Psar _ _ _ => fill (-1)%Z 0%nat
  | PsarUp _ _ _ => fill (-1)%Z 1%nat
  | PsarDown _ _ _ => fill (-1)%Z 2%nat
  | PsarUpInd _ _ _ => Ok (psar_indicator (field 1 fs) (field 1 fs))
  | PsarDownInd _ _ _ => Ok (psar_indicator (field 1 fs) (field 2 fs))
  | BbM _ _ | KcM _ _ _ _ => fill (-1)%Z 0%nat
  | BbH _ _ | KcH _ _ _ _ => fill (-1)%Z 1%nat
  | BbL _ _ | KcL _ _ _ _ => fill (-1)%Z 2%nat
  | BbW _ _ | KcW _ _ _ _ =>
      Ok (check_fillna fillna (FillInt 0)
            (muls (sdiv (ssub (field 1 fs) (field 2 fs)) (field 0 fs)) (#100)))
  | BbP _ _ =>
      let width := map2 (fun h l => if negb (h =.? l) then h -. l else fnan)
                        (field 1 fs) (field 2 fs) in
      Ok (check_fillna fillna (FillInt 0) (sdiv (ssub c (field 2 fs)) width))
  | KcP _ _ _ _ =>
      Ok (check_fillna fillna (FillInt 0)
            (sdiv (ssub c (field 2 fs)) (ssub (field 1 fs) (field 2 fs))))
  | BbHI _ _ | KcHI _ _ _ _ =>
      Ok (check_fillna fillna (FillInt 0)
            (map2 (fun c h => if h <.? c then #1 else #0) c (field 1 fs)))
  | BbLI _ _ | KcLI _ _ _ _ =>
      Ok (check_fillna fillna (FillInt 0)
            (map2 (fun c l => if c <.? l then #1 else #0) c (field 2 fs)))
  | DcH _ o => Ok (donchian_offset o (check_fillna fillna (FillInt (-1)) (field 0 fs)))
  | DcL _ o => Ok (donchian_offset o (check_fillna fillna (FillInt (-1)) (field 1 fs)))
  | DcM _ o =>
      Ok (donchian_offset o (check_fillna fillna (FillInt (-1))
            (sadd (divs (ssub (field 0 fs) (field 1 fs)) (#2)) (field 1 fs))))
  | DcW w o =>
      mavg <- rolling w (donchian_minp w fillna) agg_mean c ;;
      Ok (donchian_offset o (check_fillna fillna (FillInt 0)
            (muls (sdiv (ssub (field 0 fs) (field 1 fs)) mavg) (#100))))
  | DcP _ o =>
      Ok (donchian_offset o (check_fillna fillna (FillInt 0)
            (sdiv (ssub c (field 1 fs)) (ssub (field 0 fs) (field 1 fs)))))
  | SmaEom w =>
      e <- rolling w (minp_of fillna w) agg_mean (field 0 fs) ;;
      Ok (check_fillna fillna (FillInt 0) e)
  | Nvi => fill 1000%Z 0%nat
  | CumReturn => fill (-1)%Z 0%nat
  | _ => fill 0%Z 0%nat
  end.

(** Which stored series, if any, the method hands out when fillna=False (a
    DonchianChannel with an offset hands out a shifted copy). *)
Definition hands_out (ind : indicator F) : option nat :=
  match ind with
  | Ema _ | Sma _ | StochSignal _ _ | StochRsiD _ _ _ | AroonInd _
  | IchiA _ _ _ _ | IchiB _ _ _ _ | KstDiff _ _ _ _ _ _ _ _ _
  | Adx _ | AdxPos _ | AdxNeg _ | VortexDiff _ | PsarUpInd _ _ _ | PsarDownInd _ _ _
  | BbW _ _ | BbP _ _ | BbHI _ _ | BbLI _ _
  | KcW _ _ _ _ | KcP _ _ _ _ | KcHI _ _ _ _ | KcLI _ _ _ _
  | DcM _ _ | DcW _ _ | DcP _ _ | SmaEom _ => None
  | StochRsiK _ _ _ | PpoSignal _ _ _ | PvoSignal _ _ _ | AroonDown _ | MacdSignal _ _ _
  | IchiBase _ _ _ _ | KstSig _ _ _ _ _ _ _ _ _ | VortexNeg _ | PsarUp _ _ _
  | BbH _ _ | KcH _ _ _ _ => Some 1%nat
  | PpoHist _ _ _ | PvoHist _ _ _ | MacdDiff _ _ _ | PsarDown _ _ _
  | BbL _ _ | KcL _ _ _ _ => Some 2%nat
  | DcH _ o => if (o =? 0)%Z then Some 0%nat else None
  | DcL _ o => if (o =? 0)%Z then Some 1%nat else None
  | _ => Some 0%nat
  end.

(** A series the caller holds: a view of a stored series, or one of its own. *)
Inductive held := Inside (k : nat) | Apart (s : list F).

(** The caller's columns, the object's stored series, and what the caller
    holds, in the order it was returned. *)
Record world := {
  w_rows : list (bar F); w_fields : list (list F); w_held : list held }.

(** What a caller can do: call a method, overwrite entry [i] of the [k]-th
    series they were given, overwrite row [i] of the columns they passed. *)
Inductive op := Ask (ind : indicator F) | Write (k i : nat) (x : F) | Change (i : nat) (b : bar F).

Definition reply (fillna : bool) (w : world) (ind : indicator F) : result (list F) :=
  show ind fillna (w_fields w) (w_rows w).

(** A call that raises gives the caller nothing ([Apart []] keeps the count). *)
Definition given (fillna : bool) (w : world) (ind : indicator F) : held :=
  match reply fillna w ind with
  | Raise _ => Apart []
  | Ok s => match (if fillna then None else hands_out ind) with
            | Some k => Inside k
            | None => Apart s
            end
  end.

Definition step (fillna : bool) (w : world) (o : op) : world :=
  match o with
  | Ask ind => {| w_rows := w_rows w; w_fields := w_fields w;
                  w_held := w_held w ++ [given fillna w ind] |}
  | Write k i x =>
      match nth_error (w_held w) k with
      | None => w
      | Some (Inside f) =>
          {| w_rows := w_rows w; w_fields := upd f (upd i x (field f (w_fields w))) (w_fields w);
             w_held := w_held w |}
      | Some (Apart s) =>
          {| w_rows := w_rows w; w_fields := w_fields w;
             w_held := upd k (Apart (upd i x s)) (w_held w) |}
      end
  | Change i b => {| w_rows := upd i b (w_rows w); w_fields := w_fields w; w_held := w_held w |}
  end.

Definition after (fillna : bool) (w : world) (ops : list op) : world :=
  fold_left (step fillna) ops w.

(** What the caller sees in the k-th series they hold. *)
Definition seen (w : world) (k : nat) : option (list F) :=
  match nth_error (w_held w) k with
  | None => None
  | Some (Inside f) => Some (field f (w_fields w))
  | Some (Apart s) => Some s
  end.

(** The constructor. *)
Definition create (obj : indicator F) (fillna : bool) (rows : list (bar F)) : result world :=
  fs <- build (object_of obj) fillna rows ;;
  Ok {| w_rows := rows; w_fields := fs; w_held := [] |}.

End Objects.
Arguments held : clear implicits.
Arguments world : clear implicits.
Arguments op : clear implicits.
