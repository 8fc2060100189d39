(** * Volume: model of /repo/ta/volume.py and /repo/ta/others.py *)
From Verif Require Export Volatility.
Local Open Scope f_scope.

Section Volume.
Context {F : Type} {A : Arith F}.

(** close location value, volume.py:48-51 and 133-136 (missing -> 0.0) *)
Definition clv (high low close : list F) : list F :=
  fillna_const (#0) (sdiv (ssub (ssub close low) (ssub high close)) (ssub high low)).

(** ** AccDistIndexIndicator: volume.py:47-62 *)
Definition acc_dist_index (high low close volume : list F) (fillna : bool) : result (list F) :=
  Ok (check_fillna fillna (FillInt 0) (cumsum (smul (clv high low close) volume))).

(** ** OnBalanceVolumeIndicator: volume.py:85-96 *)
Definition on_balance_volume (close volume : list F) (fillna : bool) : result (list F) :=
  let signed := map3 (fun c p v => if c <.? p then fopp v else v) close (shift 1 close) volume in
  Ok (check_fillna fillna (FillInt 0) (cumsum signed)).

(** ** ChaikinMoneyFlowIndicator: volume.py:132-151 *)
Definition chaikin_money_flow (high low close volume : list F) (window : Z) (fillna : bool)
  : result (list F) :=
  let mfv := smul (clv high low close) volume in
  let minp := minp_of fillna window in
  a <- rolling window minp agg_sum mfv ;;
  b <- rolling window minp agg_sum volume ;;
  Ok (check_fillna fillna (FillInt 0) (sdiv a b)).

(** ** ForceIndexIndicator: volume.py:183-194 *)
Definition force_index (close volume : list F) (window : Z) (fillna : bool) : result (list F) :=
  fi <- ema_ (smul (ssub close (shift 1 close)) volume) window fillna ;;
  Ok (check_fillna fillna (FillInt 0) fi).

(** ** EaseOfMovementIndicator: volume.py:228-234 *)
Definition emv (high low volume : list F) : list F :=
  muls (sdiv (smul (sadd (diff1 high) (diff1 low)) (ssub high low)) (scal (#2) volume))
       (#100000000).
(** volume.py:236-243 *)
Definition ease_of_movement (high low volume : list F) (window : Z) (fillna : bool)
  : result (list F) :=
  Ok (check_fillna fillna (FillInt 0) (emv high low volume)).
(** volume.py:245-254 *)
Definition sma_ease_of_movement (high low volume : list F) (window : Z) (fillna : bool)
  : result (list F) :=
  e <- rolling window (minp_of fillna window) agg_mean (emv high low volume) ;;
  Ok (check_fillna fillna (FillInt 0) e).

(** ** VolumePriceTrendIndicator: volume.py:289-306; None and 0 are falsy *)
Definition volume_price_trend (close volume : list F) (fillna : bool)
    (smoothing_factor : option Z) (dropnans : bool) : result (list F) :=
  let vpt := cumsum (smul (pct_change close) volume) in
  vpt' <- match smoothing_factor with
          | None => Ok vpt
          | Some k => if (k =? 0)%Z then Ok vpt
                      else rolling k (minp_of fillna k) agg_mean vpt
          end ;;
  let vpt'' := if dropnans then obs vpt' else vpt' in
  Ok (check_fillna fillna (FillInt 0) vpt'').

(** ** NegativeVolumeIndexIndicator: volume.py:326-347; iloc[0] on an empty
    series raises IndexError.  A comparison with the missing first value is
    false. *)
Fixpoint nvi_go (prev : F) (change vol_prev vol : list F) : list F :=
  match change, vol_prev, vol with
  | p :: change', vp :: vol_prev', v :: vol' =>
      let x := if v <.? vp then prev **. (#1 +. p) else prev in
      x :: nvi_go x change' vol_prev' vol'
  | _, _, _ => []
  end.
Definition negative_volume_index (close volume : list F) (fillna : bool) : result (list F) :=
  match close with
  | [] => Raise IndexError
  | _ =>
      let price_change := pct_change close in
      Ok (check_fillna fillna (FillInt 1000)
            (#1000 :: nvi_go (#1000) (tl price_change) volume (tl volume)))
  end.

(** ** MFIIndicator: volume.py:387-421 *)
Definition money_flow_index (high low close volume : list F) (window : Z) (fillna : bool)
  : result (list F) :=
  let tp := divs (sadd (sadd high low) close) (#3) in
  let up_down := map2 (fun t p => if p <.? t then #1 else if t <.? p then #-1 else #0)
                      tp (shift 1 tp) in
  let mfr := smul (smul tp volume) up_down in
  let minp := minp_of fillna window in
  pmf <- rolling window minp
           (agg_apply (fun x => fsum (map (fun v => if #0 <=.? v then v else #0) x))) mfr ;;
  nmf <- rolling window minp
           (agg_apply (fun x => fsum (map (fun v => if v <.? #0 then v else #0) x))) mfr ;;
  let mfi := sdiv pmf (map fabs nmf) in
  Ok (check_fillna fillna (FillInt 50)
        (map (fun r => #100 -. (#100 /. (#1 +. r))) mfi)).

(** ** VolumeWeightedAveragePrice: volume.py:464-489 *)
Definition volume_weighted_average_price (high low close volume : list F) (window : Z)
    (fillna : bool) : result (list F) :=
  let tp := divs (sadd (sadd high low) close) (#3) in
  let minp := minp_of fillna window in
  total_pv <- rolling window minp agg_sum (smul tp volume) ;;
  total_volume <- rolling window minp agg_sum volume ;;
  Ok (check_fillna fillna (FillInt 0) (sdiv total_pv total_volume)).

(** ** others.py:27-38 DailyReturnIndicator *)
Definition daily_return (close : list F) (fillna : bool) : result (list F) :=
  Ok (check_fillna fillna (FillInt 0)
        (muls (subs (sdiv close (shift 1 close)) (#1)) (#100))).
(** others.py:56-67 DailyLogReturnIndicator; [log] is np.log *)
Definition daily_log_return (log : F -> F) (close : list F) (fillna : bool) : result (list F) :=
  Ok (check_fillna fillna (FillInt 0) (muls (diff1 (map log close)) (#100))).
(** others.py:83-94 CumulativeReturnIndicator; iloc[0] on an empty series raises IndexError *)
Definition cumulative_return (close : list F) (fillna : bool) : result (list F) :=
  match close with
  | [] => Raise IndexError
  | c0 :: _ => Ok (check_fillna fillna (FillInt (-1))
                     (muls (subs (divs close c0) (#1)) (#100)))
  end.

End Volume.
