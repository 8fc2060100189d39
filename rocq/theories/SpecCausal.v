(** * SpecCausal: what "no look-ahead" means, and which indicators claim it. *)
From Verif Require Export Api.

Section SpecCausal.
Context {F : Type} {A : Arith F}.

(** Rows already computed do not change when rows are appended. *)
Definition no_lookahead (f : list (bar F) -> result (list F)) : Prop :=
  forall rows more out out',
    f rows = Ok out -> f (rows ++ more) = Ok out' -> firstn (length rows) out' = out.

(** Gaps are filled backwards when fillna=True ([value=-1] in the code). *)
Definition fills_backward (ind : indicator F) : bool :=
  match ind with
  | IchiConv _ _ _ _ | IchiBase _ _ _ _ | IchiA _ _ _ _ | IchiB _ _ _ _
  | Psar _ _ _ | PsarUp _ _ _ | PsarDown _ _ _
  | BbM _ _ | BbH _ _ | BbL _ _ | KcM _ _ _ _ | KcH _ _ _ _ | KcL _ _ _ _
  | DcH _ _ | DcL _ _ | DcM _ _ | CumReturn => true
  | _ => false
  end.

(** Window-based indicators (C02), with the arguments for which no later row
    is used. *)
Definition window_based (ind : indicator F) : bool :=
  match ind with
  | Sma _ | Wma _ | BbM _ _ | BbH _ _ | BbL _ _ | BbW _ _ | BbP _ _ | BbHI _ _ | BbLI _ _
  | Ulcer _ | Stoch _ _ | StochSignal _ _ | WilliamsR _ | AwesomeOsc _ _
  | UltOsc _ _ _ _ _ _ | Cci _ _ | AroonUp _ | AroonDown _ | AroonInd _
  | Vwap _ | Cmf _ | Mfi _ | Eom _ | SmaEom _ | DailyReturn | DailyLogReturn _ | CumReturn => true
  | KcM _ a o _ | KcH _ a o _ | KcL _ a o _ | KcW _ a o _ | KcP _ a o _ | KcHI _ a o _
  | KcLI _ a o _ => o || (0 <? a)%Z
  | Roc w => (0 <=? w)%Z
  | DcH _ o | DcL _ o | DcM _ o | DcW _ o | DcP _ o => (0 <=? o)%Z
  | IchiConv _ _ _ _ | IchiBase _ _ _ _ => true
  | IchiA _ _ _ visual | IchiB _ _ _ visual => negb visual
  | _ => false
  end.

(** Recursive and cumulative indicators (C03). ADX and PSAR are stated
    separately. *)
Definition recursive_based (ind : indicator F) : bool :=
  match ind with
  | Ema _ | Macd _ _ _ | MacdSignal _ _ _ | MacdDiff _ _ _
  | Ppo _ _ _ | PpoSignal _ _ _ | PpoHist _ _ _ | Pvo _ _ _ | PvoSignal _ _ _ | PvoHist _ _ _
  | Rsi _ | StochRsi _ _ _ | StochRsiK _ _ _ | StochRsiD _ _ _ | Tsi _ _ | Stc _ _ _ _ _
  | Mass _ _ | Fi _ | Obv | Adi | Nvi => true
  | Atr w => (0 <? w)%Z
  | Vpt _ dropnans => negb dropnans
  | _ => false
  end.

Definition psar_based (ind : indicator F) : bool :=
  match ind with
  | Psar _ _ _ | PsarUp _ _ _ | PsarDown _ _ _ | PsarUpInd _ _ _ | PsarDownInd _ _ _ => true
  | _ => false
  end.

(** a frame with the default labels 0, 1, 2, ... *)
Definition default_index (rows : list (bar F)) : Prop :=
  map b_label rows = map Z.of_nat (seq 0 (length rows)).

Definition adx_based (ind : indicator F) : option Z :=
  match ind with Adx w | AdxPos w | AdxNeg w => Some w | _ => None end.

(** The quantities the ADX of [b] after [p] is built from are numbers. *)
Definition dm_numeric (p b : bar F) : Prop :=
  let up := fsub (b_high b) (b_high p) in
  let down := fsub (b_low p) (b_low b) in
  let one (t : bool) := if t then fofZ 1 else fofZ 0 in
  fisnan (fsub (npmax2 (b_high b) (b_close p)) (npmin2 (b_low b) (b_close p))) = false /\
  fisnan (fabs (fmul (one (fltb down up && fltb (fofZ 0) up)) up)) = false /\
  fisnan (fabs (fmul (one (fltb up down && fltb (fofZ 0) down)) down)) = false.
(** ... for the first [w] changes of the frame *)
Definition rows_numeric (w : Z) (rows : list (bar F)) : Prop :=
  forall i p b, i < Z.to_nat w ->
    nth_error rows i = Some p -> nth_error rows (S i) = Some b -> dm_numeric p b.


(** Calls that return one row per input row: volume_price_trend(dropnans=True)
    drops rows on purpose, and psar() on an integer index needs the labels
    0..n-1 to occur (C59). *)
Definition aligned_scope (ind : indicator F) (rows : list (bar F)) : Prop :=
  match ind with
  | Vpt _ true => False
  | Psar true _ _ => forall i, i < length rows -> In (Z.of_nat i) (map b_label rows)
  | _ => True
  end.
End SpecCausal.
