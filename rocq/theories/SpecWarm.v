(** * SpecWarm: how many rows each indicator needs before its first number
    (C10).  Vocabulary: SpecNum.v. *)
From Verif Require Import Api SpecNum.
Local Open Scope R_scope.

(** n bars with positive prices and volume, the close between low and high,
    and a positive range *)
Definition lively (n : nat) (h l c v : nat -> R) : Prop :=
  forall i, (i < n)%nat -> 0 < l i /\ l i <= c i <= h i /\ l i < h i /\ 0 < v i.

(** NaN on rows 0..k-1, numbers on rows k..n-1 *)
Definition begins (k n : nat) (out : list xr) : Prop :=
  length out = n /\
  forall i, (i < n)%nat -> if (i <? k)%nat then nth i out NaN = NaN else exists r, nth i out NaN = Fin r.

(** window lengths are at least 1 *)
Definition okw (ws : list Z) : Prop := Forall (fun w => (1 <= w)%Z) ws.

Definition is_fin (x : xr) : Prop := match x with Fin _ => True | _ => False end.

(** [warms_up ind k]: on lively data [ind] shows k missing rows.  Left out
    (False): StochRSI, TSI, CCI, MFI, STC and the Bollinger percentage, which
    can also be missing later (a flat window), and the one-sided PSAR lines. *)
Definition warms_up (ind : indicator xr) (k : nat) : Prop :=
  match ind with
  | Rsi w | Stoch w _ | WilliamsR w | Ema w | Sma w | Wma w
  | Dpo w | Ulcer w | Cmf w | Vwap w | KcM w _ true _ => okw [w] /\ Z.of_nat k = (w - 1)%Z
  | Kama w p q => okw [w] /\ (0 <= p)%Z /\ (0 <= q)%Z /\ Z.of_nat k = (w - 1)%Z
  | BbM w d | BbH w d | BbL w d | BbW w d => okw [w] /\ is_fin d /\ Z.of_nat k = (w - 1)%Z
  | StochSignal w s => okw [w; s] /\ Z.of_nat k = (w - 1 + (s - 1))%Z
  | UltOsc w1 w2 w3 (Fin a) (Fin b) (Fin d) =>
      okw [w1; w2; w3] /\ a + b + d <> 0 /\ Z.of_nat k = Z.max w1 (Z.max w2 w3)
  | Roc w | AroonUp w | AroonDown w | AroonInd w | VortexPos w | VortexNeg w | VortexDiff w | Fi w | SmaEom w =>
      okw [w] /\ Z.of_nat k = w
  | AwesomeOsc w1 w2 => okw [w1; w2] /\ Z.of_nat k = (Z.max w1 w2 - 1)%Z
  | Ppo s f g | Pvo s f g | Macd s f g => okw [s; f; g] /\ Z.of_nat k = (Z.max s f - 1)%Z
  | PpoSignal s f g | PpoHist s f g | PvoSignal s f g | PvoHist s f g | MacdSignal s f g | MacdDiff s f g =>
      okw [s; f; g] /\ Z.of_nat k = (Z.max s f - 1 + (g - 1))%Z
  | Trix w => okw [w] /\ Z.of_nat k = (if (w =? 1)%Z then 0 else 3 * (w - 1) + 1)%Z
  | Mass f s => okw [f; s] /\ Z.of_nat k = (2 * (f - 1) + (s - 1))%Z
  | IchiConv w1 w2 w3 _ => okw [w1; w2; w3] /\ Z.of_nat k = (w1 - 1)%Z
  | IchiBase w1 w2 w3 _ => okw [w1; w2; w3] /\ Z.of_nat k = (w2 - 1)%Z
  | IchiA w1 w2 w3 false => okw [w1; w2; w3] /\ Z.of_nat k = (Z.max w1 w2 - 1)%Z
  | Kst r1 r2 r3 r4 w1 w2 w3 w4 s | KstSig r1 r2 r3 r4 w1 w2 w3 w4 s | KstDiff r1 r2 r3 r4 w1 w2 w3 w4 s =>
      okw [r1; r2; r3; r4; w1; w2; w3; w4; s] /\ Z.of_nat k = (Z.max (Z.max w1 w2) (Z.max w3 w4) - 1)%Z
  | KcM w a false m | KcH w a false m | KcL w a false m | KcW w a false m => okw [w; a] /\ is_fin m /\ Z.of_nat k = (w - 1)%Z
  | KcW w _ true _ => okw [w] /\ Z.of_nat k = (w - 1)%Z
  | KcH w _ true _ | KcL w _ true _ | KcP w _ true _ => okw [w] /\ k = 0%nat
  | KcP w a false (Fin m) => okw [w; a] /\ m <> 0 /\ (a <= w)%Z /\ Z.of_nat k = (w - 1)%Z
  | KcHI w a o m | KcLI w a o m => okw [w; a] /\ is_fin m /\ k = 0%nat
  | BbHI w d | BbLI w d => okw [w] /\ is_fin d /\ k = 0%nat
  | DcH w o | DcL w o | DcM w o | DcW w o | DcP w o =>
      okw [w] /\ (0 <= o)%Z /\ Z.of_nat k = (w - 1 + o)%Z
  | Eom _ | Vpt None false | DailyReturn => k = 1%nat
  | DailyLogReturn log => log = xln /\ k = 1%nat
  | Vpt (Some s) false => okw [s] /\ Z.of_nat k = s
  | IchiB w1 w2 w3 _ => okw [w1; w2; w3] /\ k = 0%nat
  | Adx w | AdxPos w | AdxNeg w | Atr w => okw [w] /\ k = 0%nat
  | Psar _ s m => is_fin s /\ is_fin m /\ k = 0%nat
  | Adi | Obv | Nvi | CumReturn => k = 0%nat
  | _ => False
  end.
