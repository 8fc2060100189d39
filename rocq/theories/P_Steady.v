(** * P_Steady: property C91, what the series show in a steady trend. *)
From Coq Require Import Reals Lra.
From Verif Require Import Api SpecNum SpecMemory SpecSteady Halt Steady.
Local Open Scope R_scope.

(** C91.  After any history ([past]: gaps and infinities included) the close
    moves by b per row, the bars keep their shape.  Once the trend covers the
    rows a series looks at (SpecMemory.memory), the series shows the value of
    SpecSteady.trend_shows: averages lag by (w-1)/2 rows, the weighted one by
    (w-1)/3, and the oscillators stand still. *)
Theorem C91_steady_trend : forall a b u d ind m past rows out x i, 0 <= u -> 0 <= d -> steady a b u d rows -> memory ind = Some m ->
  compute ind false (past ++ rows) = Ok out -> (m <= i < length rows)%nat -> trend_shows b u d (a + b * INR i) ind x ->
  nth (length past + i) out NaN = x.
Proof. exact steady_table. Qed.
Print Assumptions C91_steady_trend.

(** The EMA approaches the same lag: its distance from it shrinks by the factor
    (w-1)/(w+1) per row. *)
Theorem C91_ema_lag : forall w n h l c v p q k i out, (1 <= w)%nat -> (w - 1 <= k <= i)%nat -> (i < n)%nat -> (forall j, (k <= j < n)%nat -> c j = p + q * INR j) ->
  compute (Ema (Z.of_nat w)) false (frame n h l c v) = Ok out ->
  exists e f, nth k out NaN = Fin e /\ nth i out NaN = Fin f /\
    f - (c i - q * ((INR w - 1) / 2)) = ((INR w - 1) / (INR w + 1)) ^ (i - k) * (e - (c k - q * ((INR w - 1) / 2))).
Proof. exact ema_lag. Qed.
Print Assumptions C91_ema_lag.

(** closes 5, 8, 11, ... with bars from 2 below to 1 above, after a bad row *)
Definition trend (n : nat) : list (bar xr) :=
  frame n (fun j => 5 + 3 * INR j + 1) (fun j => 5 + 3 * INR j - 2) (fun j => 5 + 3 * INR j) (fun _ => 1).
Example C91_applies : steady 5 3 1 2 (trend 30) /\ (exists out, compute (Sma 4 : indicator xr) false (mkbar 0 NaN NaN NaN NaN :: trend 30) = Ok out) /\
  memory (Sma 4 : indicator xr) = Some 3%nat /\ (3 <= 10 < length (trend 30))%nat /\
  trend_shows 3 1 2 (5 + 3 * INR 10) (Sma 4) (Fin (5 + 3 * INR 10 - 3 * (4 - 1) / 2)).
Proof.
  split; [exists (fun _ => 1); split; [intros; lra|]|].
  - unfold same_values, trend. assert (L : length (frame 30 (fun j => 5 + 3 * INR j + 1) (fun j => 5 + 3 * INR j - 2) (fun j => 5 + 3 * INR j) (fun _ => 1)) = 30%nat) by (unfold frame, tab; now rewrite map_length, seq_length).
    rewrite L. clear L. induction (frame _ _ _ _ _); constructor; auto.
  - split; [eexists; cbn [compute]; reflexivity|]. split; [reflexivity|].
    split; [unfold trend, frame, tab; rewrite map_length, seq_length; lia|]. cbn. split; [lia|reflexivity].
Qed.
(** the signs and sizes in one case: window 20, two deviations.  A steady rise
    never breaks out of the default Bollinger bands; with one deviation every
    row does. *)
Example C91_bollinger : forall b u d c, 0 < b ->
  trend_shows b u d c (BbHI 20 (Fin 2)) (Fin 0) /\ trend_shows b u d c (BbHI 20 (Fin 1)) (Fin 1) /\
  trend_shows b u d c (Cci 20 (Fin (15 / 1000))) (Fin (b * (20 - 1) / 2 / (15 / 1000 * (Rabs b * mad 20)))).
Proof.
  intros b u d c B. cbn. split; [|split].
  - split; [lia|]. split; [lra|]. right. split; [right; lra|reflexivity].
  - split; [lia|]. split; [lra|]. left. split; [lra|]. split; [lra|reflexivity].
  - split; [lia|]. split; [lra|]. split; [lra|reflexivity].
Qed.
