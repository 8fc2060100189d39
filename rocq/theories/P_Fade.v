(** * P_Fade: C105, what is left on later rows of fillna=True. *)
From Coq Require Import Reals Lra.
From Verif Require Import Lists Api SpecNum SpecFade Fade.
Local Open Scope R_scope.

(** C105.  Signal lines and histograms: the gap shrinks by exactly
    1 - 2/(window_sign+1) per row; signal and histogram are off by the same
    amount in opposite directions. *)
Theorem C105_macd : forall n h l c v s f g lo hi, (1 <= s)%nat -> (1 <= f)%nat -> (1 <= g)%nat -> (Nat.max f s <= n)%nat -> inside lo hi n c ->
  let plain ind := compute ind false (frame n h l c v) in let filled ind := compute ind true (frame n h l c v) in
  let K := (Nat.max f s - 1)%nat in
  exists d, Rabs d <= 2 * (hi - lo) /\
    apart (fun i => (1 - 2 / (INR g + 1)) ^ (i - K) * d) (K + (g - 1)) n
      (plain (MacdSignal (Z.of_nat s) (Z.of_nat f) (Z.of_nat g))) (filled (MacdSignal (Z.of_nat s) (Z.of_nat f) (Z.of_nat g))) /\
    apart (fun i => - ((1 - 2 / (INR g + 1)) ^ (i - K) * d)) (K + (g - 1)) n
      (plain (MacdDiff (Z.of_nat s) (Z.of_nat f) (Z.of_nat g))) (filled (MacdDiff (Z.of_nat s) (Z.of_nat f) (Z.of_nat g))).
Proof. exact macd_fill. Qed.
Print Assumptions C105_macd.
Theorem C105_ppo : forall n h l c v s f g lo hi, (1 <= s)%nat -> (1 <= f)%nat -> (1 <= g)%nat -> (Nat.max f s <= n)%nat -> 0 < lo -> inside lo hi n c ->
  let plain ind := compute ind false (frame n h l c v) in let filled ind := compute ind true (frame n h l c v) in
  let K := (Nat.max f s - 1)%nat in
  exists d, Rabs d <= 200 * (hi - lo) / lo /\
    apart (fun i => (1 - 2 / (INR g + 1)) ^ (i - K) * d) (K + (g - 1)) n
      (plain (PpoSignal (Z.of_nat s) (Z.of_nat f) (Z.of_nat g))) (filled (PpoSignal (Z.of_nat s) (Z.of_nat f) (Z.of_nat g))) /\
    apart (fun i => - ((1 - 2 / (INR g + 1)) ^ (i - K) * d)) (K + (g - 1)) n
      (plain (PpoHist (Z.of_nat s) (Z.of_nat f) (Z.of_nat g))) (filled (PpoHist (Z.of_nat s) (Z.of_nat f) (Z.of_nat g))).
Proof. exact ppo_fill. Qed.
Print Assumptions C105_ppo.
Theorem C105_pvo : forall n h l c v s f g lo hi, (1 <= s)%nat -> (1 <= f)%nat -> (1 <= g)%nat -> (Nat.max f s <= n)%nat -> 0 < lo -> inside lo hi n v ->
  let plain ind := compute ind false (frame n h l c v) in let filled ind := compute ind true (frame n h l c v) in
  let K := (Nat.max f s - 1)%nat in
  exists d, Rabs d <= 200 * (hi - lo) / lo /\
    apart (fun i => (1 - 2 / (INR g + 1)) ^ (i - K) * d) (K + (g - 1)) n
      (plain (PvoSignal (Z.of_nat s) (Z.of_nat f) (Z.of_nat g))) (filled (PvoSignal (Z.of_nat s) (Z.of_nat f) (Z.of_nat g))) /\
    apart (fun i => - ((1 - 2 / (INR g + 1)) ^ (i - K) * d)) (K + (g - 1)) n
      (plain (PvoHist (Z.of_nat s) (Z.of_nat f) (Z.of_nat g))) (filled (PvoHist (Z.of_nat s) (Z.of_nat f) (Z.of_nat g))).
Proof. exact pvo_fill. Qed.
Print Assumptions C105_pvo.

(** C105.  TSI (at rows where the price has moved), TRIX, mass index: bounds
    that fall geometrically, for TRIX up to a factor linear in the row. *)
Theorem C105_tsi : forall n h l c v s f lo hi i, (1 <= s)%nat -> (1 <= f)%nat -> inside lo hi n c -> (s + (f - 1) <= i < n)%nat ->
  let plain ind := compute ind false (frame n h l c v) in let filled ind := compute ind true (frame n h l c v) in
  let size := ema f (ema s (fun t => Rabs (delta c t)) 1) s i in 0 < size ->
  exists out out' x x', plain (Tsi (Z.of_nat s) (Z.of_nat f)) = Ok out /\ filled (Tsi (Z.of_nat s) (Z.of_nat f)) = Ok out' /\
    nth i out NaN = Fin x /\ nth i out' NaN = Fin x' /\ Rabs (x' - x) <= 100 * ((1 - 2 / (INR f + 1)) ^ (i - s) * (3 * (hi - lo)) / size).
Proof. exact tsi_fill. Qed.
Print Assumptions C105_tsi.
Theorem C105_trix : forall n h l c v w lo hi, (1 <= w)%nat -> 0 < lo -> inside lo hi n c ->
  let plain ind := compute ind false (frame n h l c v) in let filled ind := compute ind true (frame n h l c v) in
  let k := (3 * (w - 1) + 1)%nat in let a := 2 / (INR w + 1) in
  fades (fun i => 100 * ((1 + hi / lo) * ((hi - lo) / lo) * ((1 - a) ^ (i - k) * (1 + a * INR (i - 2 * (w - 1)))))) k n
    (plain (Trix (Z.of_nat w))) (filled (Trix (Z.of_nat w))).
Proof. exact trix_fill. Qed.
Print Assumptions C105_trix.
Theorem C105_mass_index : forall n h l c v wf ws lo hi, (1 <= wf)%nat -> (1 <= ws)%nat -> 0 < lo -> inside lo hi n (fun i => h i - l i) ->
  let plain ind := compute ind false (frame n h l c v) in let filled ind := compute ind true (frame n h l c v) in
  let k := (2 * (wf - 1) + (ws - 1))%nat in
  fades (fun i => INR ws * (hi * (hi - lo) / Rsqr lo * (1 - 2 / (INR wf + 1)) ^ (i - k))) k n
    (plain (Mass (Z.of_nat wf) (Z.of_nat ws))) (filled (Mass (Z.of_nat wf) (Z.of_nat ws))).
Proof. exact mass_fill. Qed.
Print Assumptions C105_mass_index.

(** C105.  KAMA: however far apart the two start, each row takes away at least
    the share (2/(pow2+1))^2 of the gap, and the gap keeps its sign. *)
Theorem C105_kama : forall n h l c v w p q, (1 <= w <= n)%nat -> (1 <= p <= q)%Z ->
  let plain ind := compute ind false (frame n h l c v) in let filled ind := compute ind true (frame n h l c v) in
  exists gap, apart gap (w - 1) n (plain (Kama (Z.of_nat w) p q)) (filled (Kama (Z.of_nat w) p q)) /\
    forall i, (w - 1 <= i)%nat -> (S i < n)%nat -> Rabs (gap (S i)) <= (1 - Rsqr (2 / IZR (q + 1))) * Rabs (gap i) /\ 0 <= gap (S i) * gap i.
Proof. exact kama_fill. Qed.
Print Assumptions C105_kama.

(** C105.  KST signal, Ichimoku A shifted ahead, the indicators of the bands:
    nothing is left once the windows are full. *)
Theorem C105_kst : forall n h l c v r1 r2 r3 r4 w1 w2 w3 w4 s, (1 <= w1)%nat -> (1 <= w2)%nat -> (1 <= w3)%nat -> (1 <= w4)%nat -> (1 <= s)%nat ->
  (forall i, (i < n)%nat -> 0 < c i) ->
  let plain ind := compute ind false (frame n h l c v) in let filled ind := compute ind true (frame n h l c v) in
  let k := (Nat.max (Nat.max w1 w2) (Nat.max w3 w4) - 1 + (s - 1))%nat in
  let with_windows ind := ind (Z.of_nat r1) (Z.of_nat r2) (Z.of_nat r3) (Z.of_nat r4) (Z.of_nat w1) (Z.of_nat w2) (Z.of_nat w3) (Z.of_nat w4) (Z.of_nat s) in
  agree k n (plain (with_windows KstSig)) (filled (with_windows KstSig)) /\ agree k n (plain (with_windows KstDiff)) (filled (with_windows KstDiff)).
Proof. exact kst_fill. Qed.
Print Assumptions C105_kst.
Theorem C105_ichimoku : forall n h l c v w1 w2 w3, (1 <= w1)%nat -> (1 <= w2)%nat -> (1 <= w3)%nat ->
  let plain ind := compute ind false (frame n h l c v) in let filled ind := compute ind true (frame n h l c v) in
  agree (w2 + (Nat.max w1 w2 - 1)) n (plain (IchiA (Z.of_nat w1) (Z.of_nat w2) (Z.of_nat w3) true)) (filled (IchiA (Z.of_nat w1) (Z.of_nat w2) (Z.of_nat w3) true)).
Proof. exact ichimoku_fill. Qed.
Print Assumptions C105_ichimoku.
Theorem C105_band_indicators : forall n h l c v w d a m, (1 <= w)%nat ->
  let plain ind := compute ind false (frame n h l c v) in let filled ind := compute ind true (frame n h l c v) in
  agree (w - 1) n (plain (BbHI (Z.of_nat w) (Fin d))) (filled (BbHI (Z.of_nat w) (Fin d))) /\ agree (w - 1) n (plain (BbLI (Z.of_nat w) (Fin d))) (filled (BbLI (Z.of_nat w) (Fin d))) /\
  ((1 <= a <= n)%nat -> agree (w - 1) n (plain (KcHI (Z.of_nat w) (Z.of_nat a) false (Fin m))) (filled (KcHI (Z.of_nat w) (Z.of_nat a) false (Fin m))) /\
    agree (w - 1) n (plain (KcLI (Z.of_nat w) (Z.of_nat a) false (Fin m))) (filled (KcLI (Z.of_nat w) (Z.of_nat a) false (Fin m)))).
Proof. exact bands_fill. Qed.
Print Assumptions C105_band_indicators.

(** ** the hypotheses can be met *)
(** closes 10, 12, 10, 12, ... with a range of 2 or 4 *)
Definition seesaw (i : nat) : R := if Nat.even i then 10 else 12.
Definition top (i : nat) : R := seesaw i + (if Nat.even i then 1 else 2).
Definition bottom (i : nat) : R := seesaw i - (if Nat.even i then 1 else 2).
Example C105_market : inside 10 12 40 seesaw /\ inside 2 4 40 (fun i => top i - bottom i) /\ (forall i, (i < 40)%nat -> 0 < seesaw i) /\ (Nat.max 12 26 <= 40)%nat.
Proof. repeat split; intros; unfold top, bottom, seesaw; try (destruct Nat.even; lra). lia. Qed.
Example C105_size : 0 < ema 2 (ema 2 (fun t => Rabs (delta seesaw t)) 1) 2 3.
Proof. unfold ema, expavg, delta, seesaw. cbn. unfold Rabs. repeat destruct Rcase_abs; lra. Qed.
(** the gap need not be zero: MACD(2, 1) of the seesaw with a signal over two rows *)
Example C105_gap : ema 2 (fun i => ema 1 seesaw 0 i - ema 2 seesaw 0 i) 0 1 - (ema 1 seesaw 0 1 - ema 2 seesaw 0 1) <> 0.
Proof. unfold ema, expavg, seesaw. cbn. lra. Qed.
