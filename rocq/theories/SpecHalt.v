(** * SpecHalt: what the series show once trading has stopped. *)
From Verif Require Export SpecNum SpecMemory.
Local Open Scope R_scope.

(** a bar on which nothing moved: all prices p, some volume *)
Definition halted (p : R) (b : bar xr) : Prop :=
  b_high b = Fin p /\ b_low b = Fin p /\ b_close b = Fin p /\ exists v, b_volume b = Fin v /\ 0 < v.

(** [rests_at p ind x]: after the last move has left the windows of [ind], the
    series stays at [x] as long as the price stays at [p]: at the price itself,
    at a neutral number, or at NaN (0/0) where the series divides by a range. *)
Definition rests_at (p : R) (ind : indicator xr) (x : xr) : Prop :=
  match ind with
  (* the price *)
  | Sma w | Wma w | Vwap w | KcM w _ true _ | KcH w _ true _ | KcL w _ true _ => (1 <= w)%Z /\ x = Fin p
  | BbM w d | BbH w d | BbL w d => (1 <= w)%Z /\ finite d = true /\ x = Fin p
  | IchiConv w1 w2 w3 _ | IchiBase w1 w2 w3 _ | IchiA w1 w2 w3 _ | IchiB w1 w2 w3 _ =>
      (1 <= w1)%Z /\ (1 <= w2)%Z /\ (1 <= w3)%Z /\ x = Fin p
  | DcH w o | DcL w o | DcM w o => (1 <= w)%Z /\ (0 <= o)%Z /\ x = Fin p
  (* nothing *)
  | AwesomeOsc w1 w2 => (1 <= w1)%Z /\ (1 <= w2)%Z /\ x = Fin 0
  | Roc w => (0 <= w)%Z /\ x = Fin 0
  | Kst r1 r2 r3 r4 w1 w2 w3 w4 s | KstSig r1 r2 r3 r4 w1 w2 w3 w4 s | KstDiff r1 r2 r3 r4 w1 w2 w3 w4 s =>
      (1 <= w1)%Z /\ (1 <= w2)%Z /\ (1 <= w3)%Z /\ (1 <= w4)%Z /\ (1 <= s)%Z /\ x = Fin 0
  | Dpo w | SmaEom w | Ulcer w | Cmf w => (1 <= w)%Z /\ x = Fin 0
  | Eom _ | DailyReturn => x = Fin 0
  | DailyLogReturn log => log = xln /\ x = Fin 0
  | BbW w d | BbHI w d | BbLI w d => (1 <= w)%Z /\ finite d = true /\ x = Fin 0
  | KcW w _ true _ | KcHI w _ true _ | KcLI w _ true _ => (1 <= w)%Z /\ x = Fin 0
  | DcW w o => (1 <= w)%Z /\ (0 <= o)%Z /\ x = Fin 0
  (* the first of the equal highs (lows) is the oldest row of the window *)
  | AroonUp w | AroonDown w | AroonInd w => (1 <= w)%Z /\ x = Fin 0
  (* 0/0 *)
  | Stoch w _ | WilliamsR w | Mfi w | VortexPos w | VortexNeg w | VortexDiff w | KcP w _ true _ => (1 <= w)%Z /\ x = NaN
  | StochSignal w s => (1 <= w)%Z /\ (1 <= s)%Z /\ x = NaN
  | BbP w d | Cci w d => (1 <= w)%Z /\ finite d = true /\ x = NaN
  | DcP w o => (1 <= w)%Z /\ (0 <= o)%Z /\ x = NaN
  | UltOsc w1 w2 w3 k1 k2 k3 => (1 <= w1)%Z /\ (1 <= w2)%Z /\ (1 <= w3)%Z /\
      (exists a b c, k1 = Fin a /\ k2 = Fin b /\ k3 = Fin c /\ a + b + c <> 0) /\ x = NaN
  | _ => False
  end.
