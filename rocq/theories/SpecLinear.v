(** * SpecLinear: superposition and monotonicity. *)
From Coq Require Export Reals.
From Verif Require Export Api SpecNum.
Local Open Scope R_scope.

(** a times the first result plus b times the second, row by row; a row missing
    in one of them is missing *)
Definition mix1 (a b : R) (x y : xr) : xr := match x, y with Fin p, Fin q => Fin (a * p + b * q) | _, _ => NaN end.
Definition mix (a b : R) (r r' : result (list xr)) : result (list xr) :=
  match r, r' with
  | Ok out, Ok out' => Ok (map2 (mix1 a b) out out')
  | Raise e, _ | _, Raise e => Raise e
  end.

(** Series that are linear in the prices. *)
Definition linear (ind : indicator xr) : bool :=
  let pos := Z.leb 1 in
  match ind with
  | Sma w | Ema w | Wma w | Dpo w | BbM w (Fin _) => pos w
  | KcM w _ true _ | KcH w _ true _ | KcL w _ true _ => pos w
  | Macd s f g | MacdSignal s f g | MacdDiff s f g => pos s && pos f && pos g
  | AwesomeOsc w1 w2 => pos w1 && pos w2
  | _ => false
  end.

(** Series that never fall when prices are raised. *)
Definition monotone (ind : indicator xr) : bool :=
  let pos := Z.leb 1 in
  match ind with
  | Sma w | Ema w | Wma w | BbM w (Fin _) => pos w
  | KcM w _ true _ => pos w
  | DcH w 0 | DcL w 0 | DcM w 0 => pos w
  | IchiConv w1 w2 w3 _ | IchiBase w1 w2 w3 _ | IchiA w1 w2 w3 false | IchiB w1 w2 w3 false => pos w1 && pos w2 && pos w3
  | _ => false
  end.

(** both calls succeed and no row of the first result is above the second;
    missing rows are the same *)
Definition nowhere_above (r r' : result (list xr)) : Prop :=
  exists out out', r = Ok out /\ r' = Ok out' /\
    Forall2 (fun x y => match x, y with Fin p, Fin q => p <= q | NaN, NaN => True | _, _ => False end) out out'.
