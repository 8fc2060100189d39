(** * SpecFill: what fillna=True means. *)
From Verif Require Export Api.

Section SpecFill.
Context {F : Type} {A : Arith F}.

(** row by row: the raw value if it is a finite number, otherwise the row
    before, and the constant if there is no finite value yet *)
Definition filled_with (v : F) (raw out : list F) : Prop :=
  length out = length raw /\
  forall i, i < length raw ->
    nth i out fnan = if ffinite (nth i raw fnan) then nth i raw fnan
                     else match i with 0 => v | S j => nth j out fnan end.

(** marker -1: leading gaps take the first finite value; nothing can be filled
    when there is none *)
Definition filled_backward (raw out : list F) : Prop :=
  length out = length raw /\
  (forall i, i < length raw -> ffinite (nth i raw fnan) = true -> nth i out fnan = nth i raw fnan) /\
  (forall i j, j < i < length raw -> ffinite (nth j raw fnan) = true ->
     ffinite (nth i raw fnan) = false -> nth i out fnan = nth (i - 1) out fnan) /\
  (forall i j, i < j < length raw -> ffinite (nth j raw fnan) = true ->
     (forall k, k < j -> ffinite (nth k raw fnan) = false) -> nth i out fnan = nth j raw fnan) /\
  ((forall k, k < length raw -> ffinite (nth k raw fnan) = false) ->
     forall i, i < length raw -> nth i out fnan = fnan).

(** The constant documented for the gaps of each series ([None]: filled
    backward, not filled, or filled from the closes). *)
Definition fill_value (ind : indicator F) : option Z :=
  match ind with
  | Rsi _ | UltOsc _ _ _ _ _ _ | Stoch _ _ | StochSignal _ _ | Mfi _ => Some 50
  | WilliamsR _ => Some (-50)
  | Adx _ | AdxPos _ | AdxNeg _ => Some 20
  | VortexPos _ | VortexNeg _ => Some 1
  | Nvi => Some 1000
  | DcW _ o | DcP _ o => if (o =? 0)%Z then Some 0 else None
  | Tsi _ _ | Roc _ | AwesomeOsc _ _ | StochRsi _ _ _ | StochRsiK _ _ _ | StochRsiD _ _ _
  | Ppo _ _ _ | PpoSignal _ _ _ | PpoHist _ _ _ | Pvo _ _ _ | PvoSignal _ _ _ | PvoHist _ _ _
  | AroonUp _ | AroonDown _ | AroonInd _ | Macd _ _ _ | MacdSignal _ _ _ | MacdDiff _ _ _
  | Wma _ | Trix _ | Mass _ _ | Kst _ _ _ _ _ _ _ _ _ | KstSig _ _ _ _ _ _ _ _ _
  | KstDiff _ _ _ _ _ _ _ _ _ | Dpo _ | Cci _ _ | VortexDiff _ | Stc _ _ _ _ _ | Atr _
  | BbW _ _ | BbP _ _ | BbHI _ _ | BbLI _ _ | KcW _ _ _ _ | KcP _ _ _ _ | KcHI _ _ _ _
  | KcLI _ _ _ _ | Ulcer _ | Adi | Obv | Cmf _ | Fi _ | Eom _ | SmaEom _ | Vpt _ _ | Vwap _
  | DailyReturn | DailyLogReturn _ => Some 0
  | _ => None
  end%Z.

(** Series whose computation before filling does not look at fillna. *)
Definition flag_free (ind : indicator F) : bool :=
  match ind with
  | Roc _ | Wma _ | Adx _ | AdxPos _ | AdxNeg _ | Atr _ | Ulcer _ | Adi | Obv | Eom _ | Nvi
  | DailyReturn | DailyLogReturn _ | CumReturn
  | Psar _ _ _ | PsarUp _ _ _ | PsarDown _ _ _ => true
  | Vpt s _ => match s with None => true | Some z => (z =? 0)%Z end
  | IchiB w1 w2 _ _ => (0 <=? w1)%Z && (0 <=? w2)%Z
  | _ => false
  end.

(** rows finite in the first result are the same in the second *)
Definition stable (out out' : list F) : Prop :=
  forall i, i < length out -> ffinite (nth i out fnan) = true -> nth i out' fnan = nth i out fnan.

(** Series for which fillna=True never changes a row that is finite without
    it (C08). *)
Definition fill_stable (ind : indicator F) : bool :=
  match ind with
  | Sma _ | Ema _ | Wma _ | Rsi _ | UltOsc _ _ _ _ _ _ | Stoch _ _ | Roc _
  | AwesomeOsc _ _ | WilliamsR _ | StochRsi _ _ _
  | Ppo _ _ _ | Pvo _ _ _ | AroonUp _ | AroonDown _ | AroonInd _ | Macd _ _ _
  | Kst _ _ _ _ _ _ _ _ _ | Dpo _ | Cci _ _ | Adx _ | AdxPos _ | AdxNeg _
  | VortexPos _ | VortexNeg _ | VortexDiff _
  | Psar _ _ _ | PsarUp _ _ _ | PsarDown _ _ _ | PsarUpInd _ _ _ | PsarDownInd _ _ _ | Atr _
  | BbM _ _ | BbH _ _ | BbL _ _ | BbW _ _ | BbP _ _
  | KcM _ _ _ _ | KcH _ _ true _ | KcL _ _ true _ | KcW _ _ true _ | KcP _ _ true _
  | KcHI _ _ true _ | KcLI _ _ true _
  | DcH _ _ | DcL _ _ | DcM _ _ | DcW _ _ | DcP _ _
  | Ulcer _ | Adi | Obv | Cmf _ | Fi _ | Eom _ | SmaEom _ | Vpt _ false | Nvi | Mfi _ | Vwap _
  | DailyReturn | DailyLogReturn _ | CumReturn => true
  | IchiConv _ _ _ _ | IchiBase _ _ _ _ | IchiB _ _ _ _ => true
  | IchiA _ _ _ visual => negb visual
  | _ => false
  end.

(** The same up to rounding only: averages of a series whose warm-up rows
    fillna=True completes. *)
Definition fill_stable_exact (ind : indicator F) : bool :=
  match ind with
  | StochSignal _ _ | StochRsiK _ _ _ | StochRsiD _ _ _ => true
  | _ => false
  end.
End SpecFill.
