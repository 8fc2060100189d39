(** * SpecMirror: the market turned upside down (C71). *)
From Verif Require Import Api.
Local Open Scope R_scope.

Definition opposite (x : xr) : xr :=
  match x with NaN => NaN | PInf => NInf | NInf => PInf | Fin r => Fin (- r) end.
(** every price negated; the high becomes the (negated) low and vice versa *)
Definition mirrored (rows : list (bar xr)) : list (bar xr) :=
  map (fun b => mkbar (b_label b) (opposite (b_low b)) (opposite (b_high b)) (opposite (b_close b)) (b_volume b)) rows.

(** x, -x and k - x *)
Inductive image := Same | Opposite | Complement (k : R).
Definition seen (im : image) (x : xr) : xr :=
  match im with
  | Same => x
  | Opposite => opposite x
  | Complement k => match x with Fin r => Fin (k - r) | _ => opposite x end
  end.

(** [mirror ind = (ind', im)]: on the mirrored market [ind] shows the image of
    [ind'] *)
Definition mirror (ind : indicator xr) : option (indicator xr * image) :=
  match ind with
  (* up and down trade places *)
  | AroonUp w => Some (AroonDown w, Same)
  | AroonDown w => Some (AroonUp w, Same)
  | AdxPos w => Some (AdxNeg w, Same)
  | AdxNeg w => Some (AdxPos w, Same)
  | VortexPos w => Some (VortexNeg w, Same)
  | VortexNeg w => Some (VortexPos w, Same)
  | BbHI w d => Some (BbLI w d, Same)
  | BbLI w d => Some (BbHI w d, Same)
  | KcHI w a o m => Some (KcLI w a o m, Same)
  | KcLI w a o m => Some (KcHI w a o m, Same)
  | BbH w d => Some (BbL w d, Opposite)
  | BbL w d => Some (BbH w d, Opposite)
  | KcH w a o m => Some (KcL w a o m, Opposite)
  | KcL w a o m => Some (KcH w a o m, Opposite)
  | DcH w o => Some (DcL w o, Opposite)
  | DcL w o => Some (DcH w o, Opposite)
  (* unsigned; money flow is typical price times volume times direction, where
     two signs change *)
  | Adx _ | Mass _ _ | Atr _ | Mfi _ | Pvo _ _ _ | PvoSignal _ _ _ | PvoHist _ _ _ => Some (ind, Same)
  (* signed *)
  | Tsi _ _ | Kama _ _ _ | AwesomeOsc _ _ | AroonInd _ | Macd _ _ _ | MacdSignal _ _ _ | MacdDiff _ _ _
  | Ema _ | Sma _ | Wma _ | IchiConv _ _ _ _ | IchiBase _ _ _ _ | IchiA _ _ _ _ | IchiB _ _ _ _ | Dpo _ | Cci _ _
  | VortexDiff _ | BbM _ _ | KcM _ _ _ _ | DcM _ _ | Adi | Cmf _ | Fi _ | Eom _ | SmaEom _ | Vwap _ => Some (ind, Opposite)
  (* positions in a range *)
  | Stoch _ _ | StochSignal _ _ | Stc _ _ _ _ _ => Some (ind, Complement 100)
  | WilliamsR _ => Some (ind, Complement (-100))
  | BbP _ _ | KcP _ _ _ _ | DcP _ _ => Some (ind, Complement 1)
  | _ => None
  end.
(** with fillna the gaps of the last kind of series are filled with a constant,
    which mirrors to itself only where it is the middle of the range *)
Definition mirrors (ind : indicator xr) (fillna : bool) : option (indicator xr * image) :=
  match ind with
  | Stc _ _ _ _ _ | BbP _ _ | KcP _ _ _ _ | DcP _ _ => if fillna then None else mirror ind
  | _ => mirror ind
  end.
