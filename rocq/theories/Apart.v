(** * Apart: calls whose columns do not share one index.

    A column is a list of labelled rows; labels are compared as integers (they
    stand for row numbers or time stamps).  Everywhere else in the model the
    columns of a call share one index; here each column has its own, and pandas
    1.3.5 matches rows by label in arithmetic and in pd.DataFrame({...}), numpy
    by position.  Labels of a column are assumed to be strictly increasing
    ([ascending], SpecApart.v); then pandas' outer join is the sorted union. *)
From Verif Require Export Api.
Local Open Scope f_scope.

Section Apart.
Context {F : Type} {A : Arith F}.

Definition column : Type := list (Z * F).
Definition labels (a : column) : list Z := map fst a.
Definition values (a : column) : list F := map snd a.
Record columns := { c_high : column; c_low : column; c_close : column; c_volume : column }.

(** ** pandas *)
(** Index.union of increasing indexes *)
Fixpoint insert (t : Z) (ls : list Z) : list Z :=
  match ls with
  | [] => [t]
  | u :: r => if (t <? u)%Z then t :: ls else if (t =? u)%Z then ls else u :: insert t r
  end.
Definition union (ls ms : list Z) : list Z := fold_right insert ls ms.
(** Series.reindex: missing where the column has no such row *)
Fixpoint row (a : column) (t : Z) : F :=
  match a with
  | [] => fnan
  | (u, x) :: r => if (t =? u)%Z then x else row r t
  end.
Definition reindex (ls : list Z) (a : column) : column := map (fun t => (t, row a t)) ls.
(** Series op Series: both sides are aligned first *)
Definition op2 (f : F -> F -> F) (a b : column) : column :=
  map (fun t => (t, f (row a t) (row b t))) (union (labels a) (labels b)).
Definition cadd := op2 fadd.
Definition csub := op2 fsub.
Definition cmul := op2 fmul.
Definition cdiv := op2 fdiv.
(** operations on one column keep its index *)
Definition each (f : list F -> list F) (a : column) : column := combine (labels a) (f (values a)).
Definition eachr (f : list F -> result (list F)) (a : column) : result column :=
  r <- f (values a) ;; Ok (combine (labels a) r).
Definition cmap (f : F -> F) (a : column) : column := map (fun r => (fst r, f (snd r))) a.
(** Series < Series raises unless the indexes are equal *)
Definition same_index (a b : column) : bool := if list_eq_dec Z.eq_dec (labels a) (labels b) then true else false.
(** pd.Series(data, index=...) *)
Definition with_index (ls : list Z) (v : list F) : result column :=
  if length v =? length ls then Ok (combine ls v) else Raise ValueError.
(** utils.py:38-46 *)
Definition ctrue_range (high low prev_close : column) : column :=
  let tr1 := csub high low in
  let tr2 := cmap fabs (csub high prev_close) in
  let tr3 := cmap fabs (csub low prev_close) in
  map (fun t => (t, nanmax [row tr1 t; row tr2 t; row tr3 t])) (union (union (labels tr1) (labels tr2)) (labels tr3)).
(** utils.py:19-36 *)
Definition cfill (fillna : bool) (value : Z) : column -> column := each (check_fillna fillna (FillInt value)).
Definition croll (w minp : Z) (agg : aggregation) : column -> result column := eachr (rolling w minp agg).
Definition cema (w : Z) (fillna : bool) : column -> result column := eachr (fun s => ema_ s w fillna).

(** ** The classes that take more than one column *)
Section Classes.
Variables (h l c v : column).

(** momentum.py:175-205 *)
Definition a_uo (w1 w2 w3 : Z) (k1 k2 k3 : F) (fillna : bool) : result column :=
  let close_shift := each (shift 1) c in
  let tr := ctrue_range h l close_shift in
  let bp := csub c (op2 npmin2 l close_shift) in
  bs <- croll w1 (minp_of fillna w1) agg_sum bp ;; ts <- croll w1 (minp_of fillna w1) agg_sum tr ;;
  bm <- croll w2 (minp_of fillna w2) agg_sum bp ;; tm <- croll w2 (minp_of fillna w2) agg_sum tr ;;
  bl <- croll w3 (minp_of fillna w3) agg_sum bp ;; tl <- croll w3 (minp_of fillna w3) agg_sum tr ;;
  Ok (cfill fillna 50 (cmap (fun x => (#100 **. x) /. (k1 +. k2 +. k3))
        (cadd (cadd (cmap (fmul k1) (cdiv bs ts)) (cmap (fmul k2) (cdiv bm tm))) (cmap (fmul k3) (cdiv bl tl))))).
(** momentum.py:253-257 *)
Definition a_stoch_run (w : Z) (fillna : bool) : result column :=
  smin <- croll w (minp_of fillna w) agg_min l ;;
  smax <- croll w (minp_of fillna w) agg_max h ;;
  Ok (cdiv (cmap (fmul (#100)) (csub c smin)) (csub smax smin)).
Definition a_stoch (w : Z) (fillna : bool) : result column :=
  k <- a_stoch_run w fillna ;; Ok (cfill fillna 50 k).
Definition a_stoch_signal (w s : Z) (fillna : bool) : result column :=
  k <- a_stoch_run w fillna ;; d <- croll s (minp_of fillna s) agg_mean k ;; Ok (cfill fillna 50 d).
(** momentum.py:457-473 *)
Definition a_awesome (w1 w2 : Z) (fillna : bool) : result column :=
  let median := cmap (fmul fhalf) (cadd h l) in
  fast <- croll w1 (minp_of fillna w1) agg_mean median ;;
  slow <- croll w2 (minp_of fillna w2) agg_mean median ;;
  Ok (cfill fillna 0 (csub fast slow)).
(** momentum.py:529-546 *)
Definition a_williams (w : Z) (fillna : bool) : result column :=
  hh <- croll w (minp_of fillna w) agg_max h ;;
  ll <- croll w (minp_of fillna w) agg_min l ;;
  Ok (cfill fillna (-50) (cdiv (cmap (fmul (#-100)) (csub hh c)) (csub hh ll))).
(** trend.py:41-81; both windows are evaluated by the constructor *)
Definition a_aroon (w : Z) (fillna : bool) : result (column * column) :=
  ' (u, d) <- aroon_run (values h) (values l) w fillna ;;
  Ok (combine (labels h) u, combine (labels l) d).
Definition a_aroon_up (w : Z) (fillna : bool) := ' (u, _) <- a_aroon w fillna ;; Ok (cfill fillna 0 u).
Definition a_aroon_down (w : Z) (fillna : bool) := ' (_, d) <- a_aroon w fillna ;; Ok (cfill fillna 0 d).
Definition a_aroon_ind (w : Z) (fillna : bool) := ' (u, d) <- a_aroon w fillna ;; Ok (cfill fillna 0 (csub u d)).
(** trend.py:320-337 *)
Definition a_mass (f s : Z) (fillna : bool) : result column :=
  let amplitude := csub h l in
  ema1 <- cema f fillna amplitude ;; ema2 <- cema f fillna ema1 ;;
  m <- croll s (minp_of fillna s) agg_sum (cdiv ema1 ema2) ;;
  Ok (cfill fillna 0 m).
(** trend.py:374-437 *)
Definition a_mid (w minp : Z) : result column :=
  h1 <- croll w minp agg_max h ;; l1 <- croll w minp agg_min l ;; Ok (cmap (fmul fhalf) (cadd h1 l1)).
Definition a_ichimoku (w1 w2 : Z) (fillna : bool) : result (column * column) :=
  conv <- a_mid w1 (minp_of fillna w1) ;; base <- a_mid w2 (minp_of fillna w2) ;; Ok (conv, base).
Definition a_visual (visual : bool) (w2 : Z) (a : column) : column :=
  if visual then each (fun s => shift_fill w2 (smean s) s) a else a.
Definition a_ichi_conv (w1 w2 : Z) (fillna : bool) := ' (x, _) <- a_ichimoku w1 w2 fillna ;; Ok (cfill fillna (-1) x).
Definition a_ichi_base (w1 w2 : Z) (fillna : bool) := ' (_, x) <- a_ichimoku w1 w2 fillna ;; Ok (cfill fillna (-1) x).
Definition a_ichi_a (w1 w2 : Z) (visual fillna : bool) :=
  ' (x, y) <- a_ichimoku w1 w2 fillna ;;
  Ok (cfill fillna (-1) (a_visual visual w2 (cmap (fmul fhalf) (cadd x y)))).
Definition a_ichi_b (w1 w2 w3 : Z) (visual fillna : bool) :=
  _ <- a_ichimoku w1 w2 fillna ;; x <- a_mid w3 0 ;; Ok (cfill fillna (-1) (a_visual visual w2 x)).
(** trend.py:652-675 *)
Definition a_typical : column := cmap (fun x => x /. #3) (cadd (cadd h l) c).
Definition a_cci (w : Z) (k : F) (fillna : bool) : result column :=
  m <- croll w (minp_of fillna w) agg_mean a_typical ;;
  d <- croll w (minp_of fillna w) (agg_apply mad_) a_typical ;;
  Ok (cfill fillna 0 (cdiv (csub a_typical m) (cmap (fmul k) d))).
(** rows matched by position, up to the rows of the close; labels of the close *)
Fixpoint zip4 (ts : list Z) (hs ls cs vs : list F) : list (bar F) :=
  match ts, hs, ls, cs, vs with
  | t :: ts', x :: hs', y :: ls', z :: cs', u :: vs' => mkbar t x y z u :: zip4 ts' hs' ls' cs' vs'
  | _, _, _, _, _ => []
  end.
(** trend.py:716-860.  np.amax([a, b]) of columns of different length and the
    comparison diff_up > diff_down of differently labelled columns raise
    ValueError (an empty column beside a one-row column is not modelled). *)
Definition a_adx (ind : indicator F) (fillna : bool) : result column :=
  if (length h =? length c) && (length l =? length c) && same_index h l then
    x <- compute ind fillna (zip4 (labels c) (values h) (values l) (values c) (values c)) ;; Ok (combine (labels c) x)
  else Raise ValueError.
(** trend.py:893-931 *)
Definition a_vortex (w : Z) (fillna : bool) : result (column * column) :=
  let close_shift := each (fun s => shift_fill 1 (smean s) s) c in
  let tr := ctrue_range h l close_shift in
  trn <- croll w (minp_of fillna w) agg_sum tr ;;
  vp <- croll w (minp_of fillna w) agg_sum (cmap fabs (csub h (each (shift 1) l))) ;;
  vm <- croll w (minp_of fillna w) agg_sum (cmap fabs (csub l (each (shift 1) h))) ;;
  Ok (cdiv vp trn, cdiv vm trn).
Definition a_vortex_pos (w : Z) (fillna : bool) := ' (x, _) <- a_vortex w fillna ;; Ok (cfill fillna 1 x).
Definition a_vortex_neg (w : Z) (fillna : bool) := ' (_, x) <- a_vortex w fillna ;; Ok (cfill fillna 1 x).
Definition a_vortex_diff (w : Z) (fillna : bool) := ' (x, y) <- a_vortex w fillna ;; Ok (cfill fillna 0 (csub x y)).
(** trend.py:971-1090: high.iloc[i], low.iloc[i] for the rows of the close.
    [labels] of the psar series itself may grow (Trend.v, setitem). *)
Definition a_psar (b : bool) (step max_step : F) : result (psar_state (F := F)) :=
  if (length h =? 0) || (length l =? 0) || ((3 <=? length c) && ((length h <? length c) || (length l <? length c)))
  then Raise IndexError
  else psar_run (values h) (values l) (values c) (if b then Some (labels c) else None) step max_step.
Definition psar_labels (st : psar_state (F := F)) : list Z := match ps_labels st with Some ls => ls | None => labels c end.
(** volatility.py:46-64: the array has the rows of the close, the index those of the true range *)
Definition a_atr (w : Z) (fillna : bool) : result column :=
  let close_shift := each (shift 1) c in
  let tr := ctrue_range h l close_shift in
  let n := length c in
  if (w <=? 0)%Z then
    if (Z.of_nat n <? 1 - w)%Z then Raise IndexError
    else if negb (length tr =? n) then Raise ValueError
    else Ok (cfill fillna 0 (combine (labels tr) (atr_wrapped n w (values tr))))
  else if n <? Z.to_nat w then Raise IndexError
  else
    let first := smean (firstn (Z.to_nat w) (values tr)) in
    atr <- with_index (labels tr) (repeat (#0) (Z.to_nat w - 1) ++
             first :: atr_go (fofnat (Z.to_nat w)) first (firstn (n - Z.to_nat w) (skipn (Z.to_nat w) (values tr)))) ;;
    Ok (cfill fillna 0 atr).
(** volatility.py:226-331 *)
Record akc := { ak_tp : column; ak_high : column; ak_low : column }.
Definition a_keltner (w a : Z) (fillna original : bool) (m : F) : result akc :=
  let minp := if fillna then 1%Z else w in
  if original then
    tp <- croll w minp agg_mean a_typical ;;
    tph <- croll w 0 agg_mean (cmap (fun x => x /. #3) (cadd (csub (cmap (fmul (#4)) h) (cmap (fmul (#2)) l)) c)) ;;
    tpl <- croll w 0 agg_mean (cmap (fun x => x /. #3) (cadd (cadd (cmap (fmul (#-2)) h) (cmap (fmul (#4)) l)) c)) ;;
    Ok {| ak_tp := tp; ak_high := tph; ak_low := tpl |}
  else
    tp <- eachr (ewm_span w minp) c ;;
    atr <- a_atr a fillna ;;
    Ok {| ak_tp := tp; ak_high := cadd tp (cmap (fmul m) atr); ak_low := csub tp (cmap (fmul m) atr) |}.
Definition a_kc_m w a fillna o m := st <- a_keltner w a fillna o m ;; Ok (cfill fillna (-1) (ak_tp st)).
Definition a_kc_h w a fillna o m := st <- a_keltner w a fillna o m ;; Ok (cfill fillna (-1) (ak_high st)).
Definition a_kc_l w a fillna o m := st <- a_keltner w a fillna o m ;; Ok (cfill fillna (-1) (ak_low st)).
Definition a_kc_w w a fillna o m := st <- a_keltner w a fillna o m ;;
  Ok (cfill fillna 0 (cmap (fun x => x **. #100) (cdiv (csub (ak_high st) (ak_low st)) (ak_tp st)))).
Definition a_kc_p w a fillna o m := st <- a_keltner w a fillna o m ;;
  Ok (cfill fillna 0 (cdiv (csub c (ak_low st)) (csub (ak_high st) (ak_low st)))).
Definition a_kc_hi w a fillna o m := st <- a_keltner w a fillna o m ;;
  if same_index c (ak_high st)
  then Ok (cfill fillna 0 (op2 (fun x y => if y <.? x then #1 else #0) c (ak_high st))) else Raise ValueError.
Definition a_kc_li w a fillna o m := st <- a_keltner w a fillna o m ;;
  if same_index c (ak_low st)
  then Ok (cfill fillna 0 (op2 (fun x y => if x <.? y then #1 else #0) c (ak_low st))) else Raise ValueError.
(** volatility.py:364-430 *)
Definition a_donchian (w : Z) (fillna : bool) : result (column * column) :=
  hb <- croll w (donchian_minp w fillna) agg_max h ;;
  lb <- croll w (donchian_minp w fillna) agg_min l ;; Ok (hb, lb).
Definition a_dc_h w o fillna := ' (x, _) <- a_donchian w fillna ;; Ok (each (donchian_offset o) (cfill fillna (-1) x)).
Definition a_dc_l w o fillna := ' (_, y) <- a_donchian w fillna ;; Ok (each (donchian_offset o) (cfill fillna (-1) y)).
Definition a_dc_m w o fillna := ' (x, y) <- a_donchian w fillna ;;
  Ok (each (donchian_offset o) (cfill fillna (-1) (cadd (cmap (fun d => d /. #2) (csub x y)) y))).
Definition a_dc_w w o fillna := ' (x, y) <- a_donchian w fillna ;;
  mavg <- croll w (donchian_minp w fillna) agg_mean c ;;
  Ok (each (donchian_offset o) (cfill fillna 0 (cmap (fun d => d **. #100) (cdiv (csub x y) mavg)))).
Definition a_dc_p w o fillna := ' (x, y) <- a_donchian w fillna ;;
  Ok (each (donchian_offset o) (cfill fillna 0 (cdiv (csub c y) (csub x y)))).
(** volume.py:47-62, 132-136 *)
Definition a_clv : column := each (fillna_const (#0)) (cdiv (csub (csub c l) (csub h c)) (csub h l)).
Definition a_adi (fillna : bool) : result column := Ok (cfill fillna 0 (each cumsum (cmul a_clv v))).
(** volume.py:85-96: np.where broadcasts a one-row volume *)
Definition a_obv (fillna : bool) : result column :=
  let n := length c in
  if negb (length v =? n) && negb (length v =? 1) then Raise ValueError
  else
    let vol := if length v =? n then values v else repeat (nth 0 (values v) fnan) n in
    Ok (cfill fillna 0 (combine (labels c)
          (cumsum (map3 (fun x p u => if x <.? p then fopp u else u) (values c) (shift 1 (values c)) vol)))).
(** volume.py:132-151: "mfv *= volume" keeps the index of mfv (generic.py, _inplace_method) *)
Definition a_cmf (w : Z) (fillna : bool) : result column :=
  let mfv := reindex (labels a_clv) (cmul a_clv v) in
  x <- croll w (minp_of fillna w) agg_sum mfv ;;
  y <- croll w (minp_of fillna w) agg_sum v ;;
  Ok (cfill fillna 0 (cdiv x y)).
(** volume.py:183-194 *)
Definition a_fi (w : Z) (fillna : bool) : result column :=
  x <- cema w fillna (cmul (csub c (each (shift 1) c)) v) ;; Ok (cfill fillna 0 x).
(** volume.py:228-254 *)
Definition a_emv : column :=
  cmap (fun x => x **. #100000000)
    (cdiv (cmul (cadd (each diff1 h) (each diff1 l)) (csub h l)) (cmap (fmul (#2)) v)).
Definition a_eom (fillna : bool) : result column := Ok (cfill fillna 0 a_emv).
Definition a_sma_eom (w : Z) (fillna : bool) : result column :=
  x <- croll w (minp_of fillna w) agg_mean a_emv ;; Ok (cfill fillna 0 x).
(** volume.py:289-306 *)
Definition a_vpt (s : option Z) (dropnans fillna : bool) : result column :=
  let vpt := each cumsum (cmul (each pct_change c) v) in
  x <- match s with
       | None => Ok vpt
       | Some k => if (k =? 0)%Z then Ok vpt else croll k (minp_of fillna k) agg_mean vpt
       end ;;
  Ok (cfill fillna 0 (if dropnans then filter (fun r => negb (fisnan (snd r))) x else x)).
(** volume.py:326-347: volume rows by position *)
Definition a_nvi (fillna : bool) : result column :=
  if (2 <=? length c) && (length v <? length c) then Raise IndexError
  else x <- negative_volume_index (values c) (firstn (length c) (values v)) fillna ;; Ok (combine (labels c) x).
(** volume.py:387-421: the signs are an array with the rows of the typical price *)
Definition a_mfi (w : Z) (fillna : bool) : result column :=
  let tp := values a_typical in
  let up_down := map2 (fun t p => if p <.? t then #1 else if t <.? p then #-1 else #0) tp (shift 1 tp) in
  let flow := cmul a_typical v in
  if negb (length flow =? length tp) && negb (length tp =? 1) then Raise ValueError
  else
    let signs := if length flow =? length tp then up_down else repeat (nth 0 up_down fnan) (length flow) in
    let mfr := combine (labels flow) (smul (values flow) signs) in
    pmf <- croll w (minp_of fillna w) (agg_apply (fun x => fsum (map (fun u => if #0 <=.? u then u else #0) x))) mfr ;;
    nmf <- croll w (minp_of fillna w) (agg_apply (fun x => fsum (map (fun u => if u <.? #0 then u else #0) x))) mfr ;;
    Ok (cfill fillna 50 (cmap (fun r => #100 -. (#100 /. (#1 +. r))) (cdiv pmf (cmap fabs nmf)))).
(** volume.py:464-489 *)
Definition a_vwap (w : Z) (fillna : bool) : result column :=
  x <- croll w (minp_of fillna w) agg_sum (cmul a_typical v) ;;
  y <- croll w (minp_of fillna w) agg_sum v ;;
  Ok (cfill fillna 0 (cdiv x y)).
End Classes.

(** ** Every public series *)
(** a class that takes one column *)
Definition alone (ind : indicator F) (fillna : bool) (a : column) : result column :=
  x <- compute ind fillna (map (fun r => mkbar (fst r) (snd r) (snd r) (snd r) (snd r)) a) ;;
  Ok (combine (labels a) x).
Definition compute_apart (ind : indicator F) (fillna : bool) (k : columns) : result column :=
  let h := c_high k in let l := c_low k in let c := c_close k in let v := c_volume k in
  match ind with
  | UltOsc w1 w2 w3 k1 k2 k3 => a_uo h l c w1 w2 w3 k1 k2 k3 fillna
  | Stoch w _ => a_stoch h l c w fillna
  | StochSignal w s => a_stoch_signal h l c w s fillna
  | AwesomeOsc w1 w2 => a_awesome h l w1 w2 fillna
  | WilliamsR w => a_williams h l c w fillna
  | AroonUp w => a_aroon_up h l w fillna
  | AroonDown w => a_aroon_down h l w fillna
  | AroonInd w => a_aroon_ind h l w fillna
  | Mass f s => a_mass h l f s fillna
  | IchiConv w1 w2 _ _ => a_ichi_conv h l w1 w2 fillna
  | IchiBase w1 w2 _ _ => a_ichi_base h l w1 w2 fillna
  | IchiA w1 w2 _ vis => a_ichi_a h l w1 w2 vis fillna
  | IchiB w1 w2 w3 vis => a_ichi_b h l w1 w2 w3 vis fillna
  | Cci w m => a_cci h l c w m fillna
  | Adx _ | AdxPos _ | AdxNeg _ => a_adx h l c ind fillna
  | VortexPos w => a_vortex_pos h l c w fillna
  | VortexNeg w => a_vortex_neg h l c w fillna
  | VortexDiff w => a_vortex_diff h l c w fillna
  | Psar b s m => st <- a_psar h l c b s m ;; Ok (cfill fillna (-1) (combine (psar_labels c st) (ps_psar st)))
  | PsarUp b s m => st <- a_psar h l c b s m ;; Ok (cfill fillna (-1) (combine (labels c) (ps_up st)))
  | PsarDown b s m => st <- a_psar h l c b s m ;; Ok (cfill fillna (-1) (combine (labels c) (ps_down st)))
  | PsarUpInd b s m => st <- a_psar h l c b s m ;; Ok (combine (labels c) (psar_indicator (ps_up st) (ps_up st)))
  | PsarDownInd b s m => st <- a_psar h l c b s m ;; Ok (combine (labels c) (psar_indicator (ps_up st) (ps_down st)))
  | Atr w => a_atr h l c w fillna
  | KcM w a o m => a_kc_m h l c w a fillna o m
  | KcH w a o m => a_kc_h h l c w a fillna o m
  | KcL w a o m => a_kc_l h l c w a fillna o m
  | KcW w a o m => a_kc_w h l c w a fillna o m
  | KcP w a o m => a_kc_p h l c w a fillna o m
  | KcHI w a o m => a_kc_hi h l c w a fillna o m
  | KcLI w a o m => a_kc_li h l c w a fillna o m
  | DcH w o => a_dc_h h l w o fillna
  | DcL w o => a_dc_l h l w o fillna
  | DcM w o => a_dc_m h l w o fillna
  | DcW w o => a_dc_w h l c w o fillna
  | DcP w o => a_dc_p h l c w o fillna
  | Adi => a_adi h l c v fillna
  | Obv => a_obv c v fillna
  | Cmf w => a_cmf h l c v w fillna
  | Fi w => a_fi c v w fillna
  | Eom _ => a_eom h l v fillna
  | SmaEom w => a_sma_eom h l v w fillna
  | Vpt s d => a_vpt c v s d fillna
  | Nvi => a_nvi c v fillna
  | Mfi w => a_mfi h l c v w fillna
  | Vwap w => a_vwap h l c v w fillna
  | Pvo _ _ _ | PvoSignal _ _ _ | PvoHist _ _ _ => alone ind fillna v
  | _ => alone ind fillna c
  end.
End Apart.
Arguments column F : clear implicits.
Arguments columns F : clear implicits.
