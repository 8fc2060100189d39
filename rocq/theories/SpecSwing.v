(** * SpecSwing: oscillators that swing from end to end however little the
    price moves (C99). *)
From Verif Require Export Api SpecNum SpecSteady.
Local Open Scope R_scope.

(** [swings ind m hi lo]: from row m on, hi in a market that rises and lo in one
    that falls, however slowly *)
Definition swings (ind : indicator xr) (m : nat) (hi lo : R) : Prop :=
  match ind with
  | Rsi w => (1 <= w)%Z /\ m = Nat.max 1 (Z.to_nat (w - 1)) /\ hi = 100 /\ lo = 0
  | Tsi s f => (1 <= s)%Z /\ (1 <= f)%Z /\ m = Z.to_nat (s + f - 1) /\ hi = 100 /\ lo = -100
  | Stoch w _ => (2 <= w)%Z /\ m = Z.to_nat (w - 1) /\ hi = 100 /\ lo = 0
  | WilliamsR w => (2 <= w)%Z /\ m = Z.to_nat (w - 1) /\ hi = 0 /\ lo = -100
  | UltOsc w1 w2 w3 (Fin k1) (Fin k2) (Fin k3) => (1 <= w1)%Z /\ (1 <= w2)%Z /\ (1 <= w3)%Z /\ k1 + k2 + k3 <> 0 /\
      m = Z.to_nat (Z.max w1 (Z.max w2 w3)) /\ hi = 100 /\ lo = 0
  | AroonUp w => (1 <= w)%Z /\ m = Z.to_nat w /\ hi = 100 /\ lo = 0
  | AroonDown w => (1 <= w)%Z /\ m = Z.to_nat w /\ hi = 0 /\ lo = 100
  | AroonInd w => (1 <= w)%Z /\ m = Z.to_nat w /\ hi = 100 /\ lo = -100
  | Cci w (Fin k) => (2 <= w)%Z /\ k <> 0 /\ m = Z.to_nat (w - 1) /\
      hi = (IZR w - 1) / 2 / (k * mad w) /\ lo = - ((IZR w - 1) / 2 / (k * mad w))
  | Mfi w => (1 <= w)%Z /\ m = Z.to_nat w /\ hi = 100 /\ lo = 0
  | BbP w (Fin k) => (2 <= w)%Z /\ k <> 0 /\ m = Z.to_nat (w - 1) /\
      hi = 1 / 2 + (IZR w - 1) / 2 / (2 * k * dev (IZR w)) /\ lo = 1 / 2 - (IZR w - 1) / 2 / (2 * k * dev (IZR w))
  | DcP w 0 => (2 <= w)%Z /\ m = Z.to_nat (w - 1) /\ hi = 1 /\ lo = 0
  | _ => False
  end.
