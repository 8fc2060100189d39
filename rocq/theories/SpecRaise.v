(** * SpecRaise: which calls raise, and with which exception (C11).

    Written from the documentation of the Python library, not from the model:
    a call is described by the checks it meets, in order; the first failing
    one decides the exception. *)
From Verif Require Import Api.

(** the first failing check *)
Fixpoint first_failure (checks : list (bool * exn)) : option exn :=
  match checks with
  | [] => None
  | (failed, e) :: r => if failed then Some e else first_failure r
  end.

(** a rolling window: pandas rejects negative windows *)
Definition roll_bad (w : Z) : bool * exn := ((w <? 0)%Z, ValueError).
(** a rolling window of which one observation is required (fillna) *)
Definition roll1_bad (fillna : bool) (w : Z) : bool * exn :=
  ((w <? (if fillna then 1 else 0))%Z, ValueError).
(** an exponential window: span >= 1 *)
Definition span_bad (w : Z) : bool * exn := ((w <? 1)%Z, ValueError).
Definition empty_bad (n : nat) : bool * exn := ((n =? 0)%nat, IndexError).

Section Raises.
Context {F : Type} {A : Arith F}.

Definition is_number (x : F) : bool := negb (fisnan x) && negb (fisinf x).

Definition failing_check (ind : indicator F) (fillna : bool) (rows : list (bar F)) : option exn :=
  let n := length rows in
  let rsi w := [((w =? 0)%Z, ZeroDivisionError); ((w <? 0)%Z, ValueError)] in
  let aroon w :=
    [((w <? -1)%Z || ((w =? -1)%Z && (fillna || negb (n =? 0)%nat)), ValueError);
     ((w =? 0)%Z && (existsb is_number (map b_high rows) || existsb is_number (map b_low rows)),
      ZeroDivisionError)] in
  let keltner (w a : Z) (original : bool) :=
    if original then [roll1_bad fillna w]
    else [span_bad w; ((Z.of_nat n <? Z.max a (1 - a))%Z, IndexError)] in
  let adx (w : Z) := [((w <=? 0)%Z, ValueError); ((Z.of_nat n <? w - 1)%Z, ValueError);
                ((Z.of_nat n =? w - 1)%Z, IndexError)] in
  first_failure
  match ind with
  | Rsi w => rsi w
  | Tsi s f => [span_bad s; span_bad f]
  | UltOsc w1 w2 w3 _ _ _ => [roll_bad w1; roll_bad w2; roll_bad w3]
  | Stoch w _ => [roll_bad w]
  | StochSignal w s => [roll_bad w; roll_bad s]
  | Kama w p q => [roll_bad w; ((p =? -1)%Z || (q =? -1)%Z, ZeroDivisionError)]
  | Roc _ => []
  | AwesomeOsc w1 w2 => [roll_bad w1; roll_bad w2]
  | WilliamsR w => [roll_bad w]
  | StochRsi w s1 _ | StochRsiK w s1 _ => rsi w ++ [roll_bad s1]
  | StochRsiD w s1 s2 => rsi w ++ [roll_bad s1; roll_bad s2]
  | Ppo s f g | PpoSignal s f g | PpoHist s f g
  | Pvo s f g | PvoSignal s f g | PvoHist s f g
  | Macd s f g | MacdSignal s f g | MacdDiff s f g => [span_bad f; span_bad s; span_bad g]
  | AroonUp w | AroonDown w | AroonInd w => aroon w
  | Ema w => [span_bad w]
  | Sma w => [roll_bad w]
  | Wma w => [roll_bad w]
  | Trix w => [span_bad w]
  | Mass wf ws => [span_bad wf; roll_bad ws]
  | IchiConv w1 w2 _ _ | IchiBase w1 w2 _ _ | IchiA w1 w2 _ _ => [roll_bad w1; roll_bad w2]
  | IchiB w1 w2 w3 _ => [roll_bad w1; roll_bad w2; roll_bad w3]
  | Kst _ _ _ _ w1 w2 w3 w4 s | KstSig _ _ _ _ w1 w2 w3 w4 s | KstDiff _ _ _ _ w1 w2 w3 w4 s =>
      [roll_bad w1; roll_bad w2; roll_bad w3; roll_bad w4; roll_bad s]
  | Dpo w => [roll_bad w]
  | Cci w _ => [roll_bad w]
  | Adx w => adx w ++ [((Z.of_nat n <? 2 * w)%Z, IndexError)]
  | AdxPos w | AdxNeg w => adx w
  | VortexPos w | VortexNeg w | VortexDiff w => [roll_bad w]
  | Psar _ _ _ | PsarUp _ _ _ | PsarDown _ _ _ | PsarUpInd _ _ _ | PsarDownInd _ _ _ => [empty_bad n]
  | Stc ws wf cy s1 s2 => [span_bad wf; span_bad ws; roll_bad cy; span_bad s1; span_bad s2]
  | Atr w => [((Z.of_nat n <? Z.max w (1 - w))%Z, IndexError)]
  | BbM w _ | BbH w _ | BbL w _ | BbW w _ | BbP w _ | BbHI w _ | BbLI w _ => [roll_bad w]
  | KcM w a o _ | KcH w a o _ | KcL w a o _ | KcW w a o _ | KcP w a o _ | KcHI w a o _
  | KcLI w a o _ => keltner w a o
  | DcH w _ | DcL w _ | DcM w _ | DcW w _ | DcP w _ => [roll1_bad fillna w]
  | Ulcer w => [((w <? 1)%Z, ValueError)]
  | Adi | Obv | Eom _ | DailyReturn | DailyLogReturn _ => []
  | Cmf w => [roll_bad w]
  | Fi w => [span_bad w]
  | SmaEom w => [roll_bad w]
  | Vpt None _ => []
  | Vpt (Some k) _ => [roll_bad k]
  | Nvi => [empty_bad n]
  | Mfi w => [roll_bad w]
  | Vwap w => [roll_bad w]
  | CumReturn => [empty_bad n]
  end.

End Raises.
