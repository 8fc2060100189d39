(** * SpecOneWay: a market that never turns. *)
From Verif Require Export SpecNum.
Local Open Scope R_scope.

(** s = 1: the numbers f 0, ..., f (n-1) never fall; s = -1: they never rise *)
Definition one_way (s : R) (n : nat) (f : nat -> R) : Prop := forall j, (S j < n)%nat -> 0 <= s * (f (S j) - f j).
Definition all_positive (n : nat) (f : nat -> R) : Prop := forall j, (j < n)%nat -> 0 < f j.

(** series with the sign of the direction *)
Definition leans (s : R) (n : nat) (h l c v : nat -> R) (ind : indicator xr) : Prop :=
  match ind with
  | Tsi slow fast => (1 <= slow)%Z /\ (1 <= fast)%Z /\ one_way s n c
  | Macd slow fast sign | MacdSignal slow fast sign => (1 <= fast <= slow)%Z /\ (1 <= sign)%Z /\ one_way s n c
  | Ppo slow fast sign | PpoSignal slow fast sign => (1 <= fast <= slow)%Z /\ (1 <= sign)%Z /\ one_way s n c /\ all_positive n c
  | Roc w => (0 <= w)%Z /\ one_way s n c /\ all_positive n c
  | DailyReturn | CumReturn => one_way s n c /\ all_positive n c
  | Trix w => (2 <= w)%Z /\ one_way s n c /\ all_positive n c
  | AwesomeOsc w1 w2 => (1 <= w1 <= w2)%Z /\ one_way s n (fun i => h i + l i)
  | Cci w (Fin k) => (1 <= w)%Z /\ 0 < k /\ one_way s n (typical h l c)
  | Fi w => (1 <= w)%Z /\ one_way s n c /\ forall j, (j < n)%nat -> 0 <= v j
  | Vpt None false => one_way s n c /\ all_positive n c /\ forall j, (j < n)%nat -> 0 <= v j
  | Eom _ => one_way s n (fun i => h i + l i) /\ all_positive n v /\ forall j, (j < n)%nat -> l j <= h j
  | SmaEom w => (1 <= w)%Z /\ one_way s n (fun i => h i + l i) /\ all_positive n v /\ forall j, (j < n)%nat -> l j <= h j
  | _ => False
  end.

(** averages of the close *)
Definition trails (ind : indicator xr) : Prop :=
  match ind with
  | Sma w | Ema w | Wma w | BbM w (Fin _) => (1 <= w)%Z
  | Kama w p q => (1 <= w)%Z /\ (1 <= p)%Z /\ (1 <= q)%Z
  | _ => False
  end.
