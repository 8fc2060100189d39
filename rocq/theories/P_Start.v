(** * P_Start: property C104, how much history a recursive indicator needs.

    Exact arithmetic.  [frame (k + n) h l c v] is the whole history,
    [frame n (skip k h) ...] the same market from row k on, as a user has it who
    loads only the last n rows.  [start_matters bound k j0 n full tail]
    (SpecStart.v): from row j0 of the tail on both results are numbers and
    differ by at most [bound j] on its row j.  Prices lie between lo and hi. *)
From Coq Require Import Reals Lra.
From Verif Require Import Api SpecNum SpecStart Start.
Local Open Scope R_scope.

(** C104. *)
Theorem C104_ema : forall k n h l c v lo hi, inside lo hi (k + n) c -> forall fillna w, (1 <= w)%nat ->
  start_matters (fun j => (1 - 2 / (INR w + 1)) ^ j * (hi - lo)) k (warm fillna w) n
    (compute (Ema (Z.of_nat w)) fillna (frame (k + n) h l c v)) (compute (Ema (Z.of_nat w)) fillna (frame n (skip k h) (skip k l) (skip k c) (skip k v))).
Proof. exact ema_start. Qed.
Print Assumptions C104_ema.
(** q: the slowest of the three averages *)
Theorem C104_macd : forall k n h l c v lo hi, inside lo hi (k + n) c -> forall fillna s f g, (1 <= s)%nat -> (1 <= f)%nat -> (1 <= g)%nat ->
  forall q, 1 - 2 / (INR s + 1) <= q -> 1 - 2 / (INR f + 1) <= q -> 1 - 2 / (INR g + 1) <= q -> q <= 1 ->
  let full ind := compute ind fillna (frame (k + n) h l c v) in
  let tail ind := compute ind fillna (frame n (skip k h) (skip k l) (skip k c) (skip k v)) in
  let with_windows ind := ind (Z.of_nat s) (Z.of_nat f) (Z.of_nat g) in
  let K := warm fillna (Nat.max f s) in
  start_matters (fun j => 2 * (hi - lo) * q ^ j) k K n (full (with_windows Macd)) (tail (with_windows Macd)) /\
  start_matters (fun j => 2 * (hi - lo) * q ^ (j - K) * (1 + 2 / (INR g + 1) * INR (j - K))) k (K + warm fillna g) n
    (full (with_windows MacdSignal)) (tail (with_windows MacdSignal)) /\
  start_matters (fun j => 2 * (hi - lo) * q ^ (j - K) * (2 + 2 / (INR g + 1) * INR (j - K))) k (K + warm fillna g) n
    (full (with_windows MacdDiff)) (tail (with_windows MacdDiff)).
Proof. exact macd_start. Qed.
Print Assumptions C104_macd.
(** RSI, at rows of the tail whose average gain or loss is not 0 *)
Theorem C104_rsi : forall k n h l c v lo hi, inside lo hi (k + n) c -> forall fillna w j, (1 <= w)%nat -> (warm fillna w <= j < n)%nat ->
  let up := wilder w (gain (skip k c)) 0 j in let down := wilder w (loss (skip k c)) 0 j in 0 < up + down ->
  exists out out' x x', compute (Rsi (Z.of_nat w)) fillna (frame (k + n) h l c v) = Ok out /\
    compute (Rsi (Z.of_nat w)) fillna (frame n (skip k h) (skip k l) (skip k c) (skip k v)) = Ok out' /\
    nth (k + j) out NaN = Fin x /\ nth j out' NaN = Fin x' /\ Rabs (x - x') <= 100 * ((1 - 1 / INR w) ^ j * (hi - lo) / (up + down)).
Proof. exact rsi_start. Qed.
Print Assumptions C104_rsi.
(** TSI, at rows of the tail whose averaged price change is not 0 *)
Theorem C104_tsi : forall k n h l c v lo hi, inside lo hi (k + n) c -> forall fillna s f q j, (1 <= s)%nat -> (1 <= f)%nat ->
  1 - 2 / (INR s + 1) <= q -> 1 - 2 / (INR f + 1) <= q -> q <= 1 ->
  let K := (1 + warm fillna s)%nat in (K + warm fillna f <= j < n)%nat ->
  let size := ema f (ema s (fun t => Rabs (delta (skip k c) t)) 1) K j in 0 < size ->
  exists out out' x x', compute (Tsi (Z.of_nat s) (Z.of_nat f)) fillna (frame (k + n) h l c v) = Ok out /\
    compute (Tsi (Z.of_nat s) (Z.of_nat f)) fillna (frame n (skip k h) (skip k l) (skip k c) (skip k v)) = Ok out' /\
    nth (k + j) out NaN = Fin x /\ nth j out' NaN = Fin x' /\
    Rabs (x - x') <= 100 * (3 * (hi - lo) * q ^ (j - K) * (1 + 2 / (INR f + 1) * INR (j - K)) / size).
Proof. exact tsi_start. Qed.
Print Assumptions C104_tsi.
(** KAMA, slow period q *)
Theorem C104_kama : forall k n h l c v lo hi, inside lo hi (k + n) c -> forall w p q, (1 <= w)%nat -> (1 <= p <= q)%Z ->
  start_matters (fun j => (1 - Rsqr (2 / IZR (q + 1))) ^ (j - (w - 1)) * (hi - lo)) k (w - 1) n
    (compute (Kama (Z.of_nat w) p q) false (frame (k + n) h l c v)) (compute (Kama (Z.of_nat w) p q) false (frame n (skip k h) (skip k l) (skip k c) (skip k v))).
Proof. exact kama_start. Qed.
Print Assumptions C104_kama.
Theorem C104_atr : forall k n h l c v lo hi, inside lo hi (k + n) h -> inside lo hi (k + n) l -> inside lo hi (k + n) c -> sane (k + n) h l c ->
  forall fillna w, (1 <= w <= n)%nat ->
  start_matters (fun j => (1 - 1 / INR w) ^ (j - (w - 1)) * (hi - lo)) k (w - 1) n
    (compute (Atr (Z.of_nat w)) fillna (frame (k + n) h l c v)) (compute (Atr (Z.of_nat w)) fillna (frame n (skip k h) (skip k l) (skip k c) (skip k v))).
Proof. exact atr_start. Qed.
Print Assumptions C104_atr.
Theorem C104_keltner : forall k n h l c v lo hi, inside lo hi (k + n) h -> inside lo hi (k + n) l -> inside lo hi (k + n) c -> sane (k + n) h l c ->
  forall fillna w a m q, (1 <= w)%nat -> (1 <= a <= n)%nat -> 1 - 2 / (INR w + 1) <= q -> 1 - 1 / INR a <= q -> q <= 1 ->
  let b := fun j => (1 + Rabs m) * (hi - lo) * q ^ (j - (a - 1)) in let s := Nat.max (warm fillna w) (a - 1) in
  let full ind := compute ind fillna (frame (k + n) h l c v) in
  let tail ind := compute ind fillna (frame n (skip k h) (skip k l) (skip k c) (skip k v)) in
  start_matters b k s n (full (KcH (Z.of_nat w) (Z.of_nat a) false (Fin m))) (tail (KcH (Z.of_nat w) (Z.of_nat a) false (Fin m))) /\
  start_matters b k s n (full (KcL (Z.of_nat w) (Z.of_nat a) false (Fin m))) (tail (KcL (Z.of_nat w) (Z.of_nat a) false (Fin m))).
Proof. exact keltner_start. Qed.
Print Assumptions C104_keltner.
(** +DI and -DI, at rows of the tail with a range *)
Theorem C104_directional : forall k n h l c v lo hi, inside lo hi (k + n) h -> inside lo hi (k + n) l -> inside lo hi (k + n) c -> sane (k + n) h l c ->
  forall fillna w j, (1 <= w)%nat -> (w < j < n)%nat ->
  let size := wilder_sum w (dm_range (skip k h) (skip k l) (skip k c)) (j - w) in 0 < size ->
  let b := 100 * (2 * INR w * (hi - lo) * (1 - 1 / INR w) ^ (j - w) / size) in
  let full ind := compute ind fillna (frame (k + n) h l c v) in
  let tail ind := compute ind fillna (frame n (skip k h) (skip k l) (skip k c) (skip k v)) in
  (exists out out' x x', full (AdxPos (Z.of_nat w)) = Ok out /\ tail (AdxPos (Z.of_nat w)) = Ok out' /\ nth (k + j) out NaN = Fin x /\ nth j out' NaN = Fin x' /\ Rabs (x - x') <= b) /\
  (exists out out' x x', full (AdxNeg (Z.of_nat w)) = Ok out /\ tail (AdxNeg (Z.of_nat w)) = Ok out' /\ nth (k + j) out NaN = Fin x /\ nth j out' NaN = Fin x' /\ Rabs (x - x') <= b).
Proof. exact di_start. Qed.
Print Assumptions C104_directional.

(** C104.  Running totals keep a constant distance, the negative volume index a
    constant proportion. *)
Theorem C104_totals : forall k n h l c v fillna, 
  let full ind := compute ind fillna (frame (k + n) h l c v) in
  let tail ind := compute ind fillna (frame n (skip k h) (skip k l) (skip k c) (skip k v)) in
  (1 <= n)%nat -> sane (k + n) h l c -> (forall i, (i < k + n)%nat -> c i <> 0) ->
  constant_gap k 0 n (full Obv) (tail Obv) /\ constant_gap k 0 n (full Adi) (tail Adi) /\
  constant_gap k 1 n (full (Vpt None false)) (tail (Vpt None false)) /\ constant_factor k n (full Nvi) (tail Nvi).
Proof. exact totals_start. Qed.
Print Assumptions C104_totals.

(** C104.  How many rows suffice for a factor 1 - a per row: ln (D/e) / a. *)
Theorem C104_rows_needed : forall a D e j, 0 < a <= 1 -> 0 < D -> 0 < e -> ln (D / e) <= a * INR j -> (1 - a) ^ j * D <= e.
Proof. exact enough_rows. Qed.
Print Assumptions C104_rows_needed.

(** ** the hypotheses can be met *)
(** closes 10, 12, 10, 12, ... between lows and highs, two of five rows skipped *)
Definition zigzag (i : nat) : R := if Nat.even i then 10 else 12.
Example C104_market : inside 9 13 5 zigzag /\ inside 9 13 5 (fun i => zigzag i + 1) /\ inside 9 13 5 (fun i => zigzag i - 1) /\
  sane 5 (fun i => zigzag i + 1) (fun i => zigzag i - 1) zigzag /\ (forall i, zigzag i <> 0).
Proof.
  assert (Z : forall i, 10 <= zigzag i <= 12) by (intros i; unfold zigzag; destruct Nat.even; lra).
  repeat split; intros; specialize (Z i); lra.
Qed.
Example C104_windows : 1 - 2 / (INR 26 + 1) <= 25 / 27 /\ 1 - 2 / (INR 12 + 1) <= 25 / 27 /\ 1 - 2 / (INR 9 + 1) <= 25 / 27 <= 1.
Proof. rewrite !INR_IZR_INZ. cbn [Z.of_nat Pos.of_succ_nat Pos.succ]. lra. Qed.
(** window 2, row 2 of the tail: the average gain, change and range are positive *)
Example C104_sizes : 0 < wilder 2 (gain (skip 2 zigzag)) 0 2 + wilder 2 (loss (skip 2 zigzag)) 0 2 /\
  0 < ema 1 (ema 1 (fun t => Rabs (delta (skip 2 zigzag) t)) 1) 1 2 /\
  0 < wilder_sum 1 (dm_range (skip 2 (fun i => zigzag i + 1)) (skip 2 (fun i => zigzag i - 1)) (skip 2 zigzag)) 1.
Proof.
  split; [|split].
  - unfold wilder, expavg, gain, loss, delta, skip, zigzag, Rmax. cbn. repeat destruct Rle_dec; lra.
  - unfold ema, expavg, delta, skip, zigzag. cbn. unfold Rabs. repeat destruct Rcase_abs; lra.
  - unfold dm_range, skip, zigzag, Rmax, Rmin. cbn. repeat destruct Rle_dec; lra.
Qed.
(** an EMA of 12 rows: 7 rows reduce the influence of the start by a factor e *)
Example C104_seven_rows : 0 < 2 / (INR 12 + 1) <= 1 /\ ln (exp 1 / 1) <= 2 / (INR 12 + 1) * INR 7.
Proof. unfold Rdiv at 3. rewrite Rinv_1, Rmult_1_r, ln_exp. rewrite !INR_IZR_INZ. cbn. lra. Qed.
