(** * SpecBinary64: what the series promise in binary64 (C79-C82).

    Stated with the machine comparisons only (PrimFloat.leb, ltb, is_nan). *)
From Coq Require Import Floats.
From Verif Require Import Api.
Local Open Scope float_scope.

(** missing, or inside [lo, hi] *)
Definition between (lo hi x : float) : Prop :=
  PrimFloat.is_nan x = true \/ (PrimFloat.leb lo x = true /\ PrimFloat.leb x hi = true).
(** never above, where both are present *)
Definition below (x y : float) : Prop :=
  PrimFloat.is_nan x = true \/ PrimFloat.is_nan y = true \/ PrimFloat.leb x y = true.

(** the documented range of a series, with its look-back window *)
Definition machine_range (ind : indicator float) : option (float * float * Z) :=
  match ind with
  | Rsi w | Mfi w | AroonUp w | AroonDown w | Adx w => Some (0, 100, w)
  | StochRsi w _ _ => Some (0, 1, w)
  | AroonInd w => Some (-100, 100, w)
  | AdxPos w | AdxNeg w | Ulcer w => Some (0, infinity, w)
  | _ => None
  end.

(** low <= high where both are present *)
Definition low_high (b : bar float) : Prop := below (b_low b) (b_high b).
(** complete row: 0 <= low <= close <= high, high finite *)
Definition priced (b : bar float) : Prop :=
  PrimFloat.leb 0 (b_low b) = true /\ PrimFloat.leb (b_low b) (b_close b) = true /\
  PrimFloat.leb (b_close b) (b_high b) = true /\ PrimFloat.ltb (b_high b) infinity = true.
(** complete row: low <= close <= high, not beyond 2^1000 *)
Definition bounded_row (b : bar float) : Prop :=
  PrimFloat.leb (- 0x1p1000) (b_low b) = true /\ PrimFloat.leb (b_low b) (b_close b) = true /\
  PrimFloat.leb (b_close b) (b_high b) = true /\ PrimFloat.leb (b_high b) 0x1p1000 = true.
(** the close, where present, is a positive number *)
Definition positive_close (b : bar float) : Prop :=
  PrimFloat.is_nan (b_close b) = true \/ PrimFloat.ltb 0 (b_close b) = true.
Definition nonneg_close (b : bar float) : Prop :=
  PrimFloat.is_nan (b_close b) = true \/ PrimFloat.leb 0 (b_close b) = true.

(** ** an unchanging market (C85) *)
(** prices missing or equal to p *)
Definition still (p : float) (b : bar float) : Prop :=
  let at_p x := PrimFloat.is_nan x = true \/ PrimFloat.eqb x p = true in
  at_p (b_high b) /\ at_p (b_low b) /\ at_p (b_close b).
(** what each series shows on it *)
Definition still_value (p : float) (ind : indicator float) : option float :=
  match ind with
  | Ema _ | DcH _ _ | DcL _ _ | DcM _ _ => Some p
  | Macd _ _ _ | MacdSignal _ _ _ | MacdDiff _ _ _ | Ppo _ _ _ | PpoSignal _ _ _ | PpoHist _ _ _
  | Roc _ | DailyReturn | CumReturn | Atr _ | Fi _ | Eom _ | SmaEom _ | Vpt _ _ => Some 0
  | Rsi _ => Some 100
  | Nvi => Some 1000
  | _ => None
  end.
(** missing, or numerically v (0 and -0 are the same number) *)
Definition shows (v x : float) : Prop := PrimFloat.is_nan x = true \/ PrimFloat.eqb x v = true.
