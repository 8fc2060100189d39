(** * SpecQuiet: rows on which a series cannot show a number (C10). *)
From Verif Require Import Api.

Section Spec.
Context {F : Type} {A : Arith F}.

(** rows 0..k-1 are missing *)
Definition quiet (k : nat) (out : list F) : Prop := forall i, (i < k)%nat -> fisnan (nth i out fnan) = true.

Definition atleast1 (ws : list Z) : Prop := Forall (fun w => (1 <= w)%Z) ws.

(** [silent ind k]: with fillna=False [ind] shows nothing before row k, whatever
    the data.  0 (False here) for the series that show their first row. *)
Definition silent (ind : indicator F) (k : nat) : Prop :=
  match ind with
  | Rsi w | Stoch w _ | WilliamsR w | Kama w _ _ | Ema w | Sma w | Wma w | Dpo w | Cci w _ | Ulcer w | Cmf w | Vwap w | Mfi w
  | BbM w _ | BbH w _ | BbL w _ | BbW w _ | BbP w _ =>
      atleast1 [w] /\ Z.of_nat k = (w - 1)%Z
  | KcM w _ _ _ | KcW w _ _ _ | KcH w _ false _ | KcL w _ false _ | KcP w _ false _ =>
      atleast1 [w] /\ Z.of_nat k = (w - 1)%Z
  | StochSignal w s => atleast1 [w; s] /\ Z.of_nat k = (w - 1 + (s - 1))%Z
  | Tsi s f => atleast1 [s; f] /\ Z.of_nat k = (s + f - 1)%Z
  | StochRsi w _ _ => atleast1 [w] /\ Z.of_nat k = (2 * (w - 1))%Z
  | StochRsiK w s1 _ => atleast1 [w; s1] /\ Z.of_nat k = (2 * (w - 1) + (s1 - 1))%Z
  | StochRsiD w s1 s2 => atleast1 [w; s1; s2] /\ Z.of_nat k = (2 * (w - 1) + (s1 - 1) + (s2 - 1))%Z
  | UltOsc w1 w2 w3 _ _ _ => atleast1 [w1; w2; w3] /\ Z.of_nat k = Z.max w1 (Z.max w2 w3)
  | Roc w | AroonUp w | AroonDown w | AroonInd w | VortexPos w | VortexNeg w | VortexDiff w | Fi w | SmaEom w =>
      atleast1 [w] /\ Z.of_nat k = w
  | AwesomeOsc w1 w2 => atleast1 [w1; w2] /\ Z.of_nat k = (Z.max w1 w2 - 1)%Z
  | Ppo s f _ | Pvo s f _ | Macd s f _ => atleast1 [s; f] /\ Z.of_nat k = (Z.max s f - 1)%Z
  | PpoSignal s f g | PpoHist s f g | PvoSignal s f g | PvoHist s f g | MacdSignal s f g | MacdDiff s f g =>
      atleast1 [s; f; g] /\ Z.of_nat k = (Z.max s f - 1 + (g - 1))%Z
  | Trix w => atleast1 [w] /\ Z.of_nat k = (if (w =? 1)%Z then 0 else 3 * (w - 1) + 1)%Z
  | Mass f s => atleast1 [f; s] /\ Z.of_nat k = (2 * (f - 1) + (s - 1))%Z
  | IchiConv w1 _ _ _ => atleast1 [w1] /\ Z.of_nat k = (w1 - 1)%Z
  | IchiBase _ w2 _ _ => atleast1 [w2] /\ Z.of_nat k = (w2 - 1)%Z
  | IchiA w1 w2 _ false => atleast1 [w1; w2] /\ Z.of_nat k = (Z.max w1 w2 - 1)%Z
  | Kst _ _ _ _ w1 w2 w3 w4 _ | KstSig _ _ _ _ w1 w2 w3 w4 _ | KstDiff _ _ _ _ w1 w2 w3 w4 _ =>
      atleast1 [w1; w2; w3; w4] /\ Z.of_nat k = (Z.max (Z.max w1 w2) (Z.max w3 w4) - 1)%Z
  | Stc s f cy s1 s2 =>
      atleast1 [s; f; cy; s1; s2] /\ Z.of_nat k = (Z.max s f - 1 + 2 * (cy - 1) + (s1 - 1) + (s2 - 1))%Z
  | DcH w o | DcL w o | DcM w o | DcW w o | DcP w o =>
      atleast1 [w] /\ (0 <= o)%Z /\ Z.of_nat k = (w - 1 + o)%Z
  | Eom _ | Vpt None false | DailyReturn | DailyLogReturn _ => k = 1%nat
  | Vpt (Some s) false => atleast1 [s] /\ Z.of_nat k = s
  | PsarUp _ _ _ | PsarDown _ _ _ => k = 2%nat
  | _ => False
  end.
End Spec.
