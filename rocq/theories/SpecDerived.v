(** * SpecDerived: series that are functions of other published series. *)
From Verif Require Export Api.

Section SpecDerived.
Context {F : Type} {A : Arith F}.
Local Open Scope f_scope.

(** a frame all of whose columns hold the series s *)
Definition column (s : list F) : list (bar F) := map (fun x => mkbar 0 x x x x) s.

(** first = second - third, row by row *)
Inductive difference : indicator F -> indicator F -> indicator F -> Prop :=
| diff_macd s f g : difference (MacdDiff s f g) (Macd s f g) (MacdSignal s f g)
| diff_ppo s f g : difference (PpoHist s f g) (Ppo s f g) (PpoSignal s f g)
| diff_pvo s f g : difference (PvoHist s f g) (Pvo s f g) (PvoSignal s f g)
| diff_kst r1 r2 r3 r4 w1 w2 w3 w4 s :
    difference (KstDiff r1 r2 r3 r4 w1 w2 w3 w4 s) (Kst r1 r2 r3 r4 w1 w2 w3 w4 s) (KstSig r1 r2 r3 r4 w1 w2 w3 w4 s)
| diff_aroon w : difference (AroonInd w) (AroonUp w) (AroonDown w)
| diff_vortex w : difference (VortexDiff w) (VortexPos w) (VortexNeg w).

(** first = the average [smooth] of the series second *)
Inductive smoothing : indicator F -> indicator F -> indicator F -> Prop :=
| sm_stoch w s : smoothing (StochSignal w s) (Sma s) (Stoch w s)
| sm_k w s1 s2 : smoothing (StochRsiK w s1 s2) (Sma s1) (StochRsi w s1 s2)
| sm_d w s1 s2 : smoothing (StochRsiD w s1 s2) (Sma s2) (StochRsiK w s1 s2)
| sm_eom w : smoothing (SmaEom w) (Sma w) (Eom w)
| sm_vpt w : w <> 0%Z -> smoothing (Vpt (Some w) false) (Sma w) (Vpt None false)
| sm_macd s f g : smoothing (MacdSignal s f g) (Ema g) (Macd s f g)
| sm_ppo s f g : smoothing (PpoSignal s f g) (Ema g) (Ppo s f g)
| sm_pvo s f g : smoothing (PvoSignal s f g) (Ema g) (Pvo s f g).

(** lower, middle and upper line of a channel; its width, position, and the two
    break-out signals *)
Record channel := { lower : indicator F; middle : indicator F; upper : indicator F;
                    width : indicator F; place : indicator F; over : indicator F; under : indicator F }.
Definition bollinger (w : Z) (d : F) : channel := {| lower := BbL w d; middle := BbM w d; upper := BbH w d;
  width := BbW w d; place := BbP w d; over := BbHI w d; under := BbLI w d |}.
Definition keltner (w a : Z) (o : bool) (m : F) : channel := {| lower := KcL w a o m; middle := KcM w a o m; upper := KcH w a o m;
  width := KcW w a o m; place := KcP w a o m; over := KcHI w a o m; under := KcLI w a o m |}.
Definition a_channel (ch : channel) : Prop := (exists w d, ch = bollinger w d) \/ (exists w a o m, ch = keltner w a o m).

(** row i of a series *)
Definition cell (s : list F) (i : nat) : F := nth i s fnan.
Definition signal (b : bool) : F := if b then #1 else #0.

(** the same rows with the volume in the place of the close *)
Definition volume_as_close (rows : list (bar F)) : list (bar F) :=
  map (fun b => mkbar (b_label b) (b_high b) (b_low b) (b_volume b) (b_volume b)) rows.
(** typical and median price, in the order the code adds them *)
Definition typical_prices (rows : list (bar F)) : list F := map (fun b => (b_high b +. b_low b +. b_close b) /. #3) rows.
Definition median_prices (rows : list (bar F)) : list F := map (fun b => fhalf **. (b_high b +. b_low b)) rows.
End SpecDerived.
