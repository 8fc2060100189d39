(** * SpecScale: the same market quoted in other units (C60, C61). *)
From Verif Require Import Api.
Local Open Scope R_scope.

(** a value times k, a value plus a; missing and infinite values stay *)
Definition times (k : R) (x : xr) : xr := match x with Fin r => Fin (k * r) | _ => x end.
Definition plus (a : R) (x : xr) : xr := match x with Fin r => Fin (r + a) | _ => x end.

(** every price times p and every volume times q *)
Definition rescaled (p q : R) (rows : list (bar xr)) : list (bar xr) :=
  map (fun b => mkbar (b_label b) (times p (b_high b)) (times p (b_low b)) (times p (b_close b)) (times q (b_volume b))) rows.
(** every price plus a *)
Definition moved (a : R) (rows : list (bar xr)) : list (bar xr) :=
  map (fun b => mkbar (b_label b) (plus a (b_high b)) (plus a (b_low b)) (plus a (b_close b)) (b_volume b)) rows.

(** the factor by which the indicator changes *)
Definition factor (ind : indicator xr) (p q : R) : R :=
  match ind with
  | Ema _ | Sma _ | Wma _ | Kama _ _ _ | Macd _ _ _ | MacdSignal _ _ _ | MacdDiff _ _ _ | AwesomeOsc _ _ | Dpo _
  | IchiConv _ _ _ _ | IchiBase _ _ _ _ | IchiA _ _ _ _ | IchiB _ _ _ _
  | Psar _ _ _ | PsarUp _ _ _ | PsarDown _ _ _ | Atr _ | BbM _ _ | BbH _ _ | BbL _ _
  | KcM _ _ _ _ | KcH _ _ _ _ | KcL _ _ _ _ | DcH _ _ | DcL _ _ | DcM _ _ | Vwap _ => p
  | Adi | Obv | Vpt _ _ => q
  | Fi _ => p * q
  | Eom _ | SmaEom _ => p * p / q
  | _ => 1
  end.

(** np.log is the only outside function among the arguments *)
Definition log_is_ln (ind : indicator xr) : Prop := match ind with DailyLogReturn log => log = xln | _ => True end.

(** what the indicator does when every price moves by the same amount:
    [Some true]: moves along, [Some false]: stays, [None]: neither in general *)
Definition follows (ind : indicator xr) (fillna : bool) : option bool :=
  match ind with
  | Kama _ _ _ | Ema _ | Sma _ | IchiConv _ _ _ _ | IchiBase _ _ _ _ | IchiA _ _ _ _ | IchiB _ _ _ _
  | Psar _ _ _ | PsarUp _ _ _ | PsarDown _ _ _ | BbM _ _ | BbH _ _ | BbL _ _
  | KcM _ _ _ _ | KcH _ _ _ _ | KcL _ _ _ _ | DcH _ _ | DcL _ _ | DcM _ _ => Some true
  | Wma w => if fillna || (w =? 0)%Z then None else Some true   (* warm-up rows are filled with 0 *)
  | Roc _ | Ppo _ _ _ | PpoSignal _ _ _ | PpoHist _ _ _ | Trix _
  | Kst _ _ _ _ _ _ _ _ _ | KstSig _ _ _ _ _ _ _ _ _ | KstDiff _ _ _ _ _ _ _ _ _
  | PsarUpInd _ _ _ | PsarDownInd _ _ _ | BbW _ _ | KcW _ _ _ _ | DcW _ _ | Ulcer _
  | Vpt _ _ | Nvi | Mfi _ | Vwap _ | DailyReturn | DailyLogReturn _ | CumReturn => None
  | _ => Some false
  end.
