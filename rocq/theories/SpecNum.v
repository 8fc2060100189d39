(** * SpecNum: vocabulary of the numeric specifications.

    Series of numbers are functions from row numbers to reals; nothing here
    mentions the model except the input frame and the extended reals. *)
From Verif Require Export Api SpecFill.
Local Open Scope R_scope.

(** the list f 0, ..., f (n-1) *)
Definition tab {B} (n : nat) (f : nat -> B) : list B := map f (seq 0 n).

(** a frame of n rows of finite numbers with the default index *)
Definition frame (n : nat) (h l c v : nat -> R) : list (bar xr) :=
  tab n (fun i => mkbar (Z.of_nat i) (Fin (h i)) (Fin (l i)) (Fin (c i)) (Fin (v i))).

(** missing on the first k rows, then g *)
Definition fromx (k : nat) (g : nat -> xr) (i : nat) : xr := if (i <? k)%nat then NaN else g i.
Definition from (k : nat) (g : nat -> R) : nat -> xr := fromx k (fun i => Fin (g i)).

(** a/b in float arithmetic: +inf, -inf or NaN (by the sign of a) when b = 0 *)
Definition ratio (a b : R) : xr :=
  if Req_EM_T b 0 then
    if Rlt_dec 0 a then PInf else if Rlt_dec a 0 then NInf else NaN
  else Fin (a / b).

(** f a + f (a+1) + ... (k terms) *)
Fixpoint rsum (f : nat -> R) (a k : nat) : R :=
  match k with O => 0 | S k' => rsum f a k' + f (a + k')%nat end.
(** largest / smallest of f a, ..., f (a+k) *)
Fixpoint rmax (f : nat -> R) (a k : nat) : R :=
  match k with O => f a | S k' => Rmax (rmax f a k') (f (a + k)%nat) end.
Fixpoint rmin (f : nat -> R) (a k : nat) : R :=
  match k with O => f a | S k' => Rmin (rmin f a k') (f (a + k)%nat) end.

(** The rows seen by a window of w rows ending at row i: from [wlo w i] on,
    [wlen w i] of them (fewer than w at the beginning of the series). *)
Definition wlo (w i : nat) : nat := (S i - w)%nat.
Definition wlen (w i : nat) : nat := Nat.min w (S i).
Definition wsum (w : nat) (f : nat -> R) (i : nat) : R := rsum f (wlo w i) (wlen w i).
Definition wmean (w : nat) (f : nat -> R) (i : nat) : R := wsum w f i / INR (wlen w i).
Definition wmax (w : nat) (f : nat -> R) (i : nat) : R := rmax f (wlo w i) (wlen w i - 1).
Definition wmin (w : nat) (f : nat -> R) (i : nat) : R := rmin f (wlo w i) (wlen w i - 1).
(** population standard deviation and mean absolute deviation of the window *)
Definition wstd (w : nat) (f : nat -> R) (i : nat) : R :=
  sqrt (wmean w (fun j => (f j - wmean w f i) * (f j - wmean w f i)) i).
Definition wmad (w : nat) (f : nat -> R) (i : nat) : R :=
  wmean w (fun j => Rabs (f j - wmean w f i)) i.

(** exponential average with smoothing a started at row k:
    e_k = f k, e_i = (1-a) e_{i-1} + a f i *)
Fixpoint exp_go (a : R) (f : nat -> R) (k j : nat) : R :=
  match j with O => f k | S j' => (1 - a) * exp_go a f k j' + a * f (k + j)%nat end.
Definition expavg (a : R) (f : nat -> R) (k i : nat) : R := exp_go a f k (i - k).
(** the EMA of span w, and Wilder's average of length w *)
Definition ema (w : nat) (f : nat -> R) (k i : nat) : R := expavg (2 / (INR w + 1)) f k i.
Definition wilder (w : nat) (f : nat -> R) (k i : nat) : R := expavg (1 / INR w) f k i.

(** linearly weighted mean of w rows, weights 1 (oldest) .. w (newest) *)
Definition wma_value (w : nat) (c : nat -> R) (i : nat) : R :=
  rsum (fun j => INR (S j) * c (S i - w + j)%nat) 0 w / (INR w * (INR w + 1) / 2).

(** change since the row before *)
Definition delta (f : nat -> R) (i : nat) : R := f i - f (i - 1)%nat.
Definition typical (h l c : nat -> R) (i : nat) : R := (h i + l i + c i) / 3.

(** a bar whose low, close and high are in order *)
Definition sane (n : nat) (h l c : nat -> R) : Prop :=
  forall i, (i < n)%nat -> l i <= c i <= h i.

(** rows lost to a window of w rows; none with fillna=True *)
Definition warm (fillna : bool) (w : nat) : nat := if fillna then 0%nat else (w - 1)%nat.
(** the first k rows hold NaN, or the constant z with fillna=True; then g *)
Definition gaps (fillna : bool) (z : Z) (k : nat) (g : nat -> R) (i : nat) : xr :=
  if (i <? k)%nat then (if fillna then Fin (IZR z) else NaN) else Fin (g i).

(** a series with missing rows *)
Definition series_of (x : nat -> option R) (i : nat) : xr :=
  match x i with Some r => Fin r | None => NaN end.
(** rows present among 0..i *)
Fixpoint present (x : nat -> option R) (i : nat) : nat :=
  ((match x i with Some _ => 1 | None => 0 end) + match i with O => 0 | S j => present x j end)%nat.
(** EMA over gaps (pandas adjust=False, ignore_na=False): the value and the
    number of missing rows since the last observation.  A missing row keeps the
    value; an observation after g missing rows meets the old value with weight
    (1-a)^(g+1). *)
Fixpoint gap_ema (a : R) (x : nat -> option R) (i : nat) : option (R * nat) :=
  match match i with O => None | S j => gap_ema a x j end, x i with
  | None, None => None
  | None, Some r => Some (r, O)
  | Some (e, g), None => Some (e, S g)
  | Some (e, g), Some r => Some (((1 - a) ^ S g * e + a * r) / ((1 - a) ^ S g + a), O)
  end.

(** missing, or a number between lo and hi *)
Definition within (lo hi : R) (x : xr) : Prop :=
  match x with NaN => True | Fin r => lo <= r <= hi | _ => False end.

(** The call returns the column [raw]; with fillna=True its gaps are filled
    with the constant z (SpecFill.filled_with) or, marker -1, backward. *)
Definition shows (fillna : bool) (z : Z) (raw : list xr) (res : result (list xr)) : Prop :=
  exists out, res = Ok out /\ if fillna then filled_with (Fin (IZR z)) raw out else out = raw.
Definition shows_back (fillna : bool) (raw : list xr) (res : result (list xr)) : Prop :=
  exists out, res = Ok out /\ if fillna then filled_backward raw out else out = raw.

(** mean of the last w rows of a series with gaps: missing when one of them is *)
Definition finite (x : xr) : bool := match x with Fin _ => true | _ => false end.
Definition value (x : xr) : R := match x with Fin r => r | _ => 0 end.
Definition wmeanx (w : nat) (g : nat -> xr) (i : nat) : xr :=
  if forallb (fun j => finite (g j)) (seq (wlo w i) (wlen w i)) then Fin (wmean w (fun j => value (g j)) i) else NaN.

(** Wilder's gain and loss of a row; the first row has no change *)
Definition gain (f : nat -> R) (i : nat) : R := if (i =? 0)%nat then 0 else Rmax 0 (delta f i).
Definition loss (f : nat -> R) (i : nat) : R := if (i =? 0)%nat then 0 else Rmax 0 (- delta f i).
Definition rsi_value (up down : R) : R :=
  if Req_EM_T down 0 then 100 else 100 - 100 / (1 + up / down).

(** f a * f (a+1) * ... (k factors) *)
Fixpoint rprod (f : nat -> R) (a k : nat) : R :=
  match k with O => 1 | S k' => rprod f a k' * f (a + k')%nat end.

(** KAMA.  Efficiency ratio: change over the last w steps divided by the sum
    of the one-step changes, 0 if nothing moved *)
Definition efficiency (w : nat) (c : nat -> R) (i : nat) : R :=
  let path := rsum (fun j => Rabs (delta c j)) (S i - w) w in
  if Req_EM_T path 0 then 0 else Rabs (c i - c (i - w)%nat) / path.
Definition kama_sc_value (fast slow er : R) : R := Rsqr (er * (fast - slow) + slow).
(** k_j at row j, then k_i = k_{i-1} + sc_i (c_i - k_{i-1}) *)
Fixpoint kama_val (sc c : nat -> R) (k j : nat) : R :=
  match j with O => c k | S j' => let p := kama_val sc c k j' in p + sc (k + j)%nat * (c (k + j)%nat - p) end.

(** true range; the first row has no previous close *)
Definition trange (h l c : nat -> R) (i : nat) : R :=
  match i with
  | O => h 0%nat - l 0%nat
  | S j => Rmax (h i - l i) (Rmax (Rabs (h i - c j)) (Rabs (l i - c j)))
  end.
(** buying pressure of the ultimate oscillator *)
Definition pressure (l c : nat -> R) (i : nat) : R :=
  match i with O => 0 | S j => c i - Rmin (l i) (c j) end.
(** ultimate oscillator: weighted mean of the three ratios of window sums;
    undefined when a window has no range *)
Definition uo_row (h l c : nat -> R) (w1 w2 w3 : nat) (k1 k2 k3 : R) (i : nat) : xr :=
  let t w := wsum w (trange h l c) i in let b w := wsum w (pressure l c) i in
  if Req_EM_T (t w1) 0 then NaN else if Req_EM_T (t w2) 0 then NaN else if Req_EM_T (t w3) 0 then NaN else
  Fin (100 * (k1 * (b w1 / t w1) + k2 * (b w2 / t w2) + k3 * (b w3 / t w3)) / (k1 + k2 + k3)).

(** Wilder's ATR, j rows after its first row w-1 *)
Fixpoint atr_at (w : nat) (tr : nat -> R) (j : nat) : R :=
  match j with
  | O => rsum tr 0 w / INR w
  | S j' => (atr_at w tr j' * (INR w - 1) + tr (w - 1 + j)%nat) / INR w
  end.
Definition atr_value (w : nat) (tr : nat -> R) (i : nat) : R :=
  if (i <? w - 1)%nat then 0 else atr_at w tr (i - (w - 1)).
(** percentage below the highest close of the window *)
Definition drawdown (w : nat) (c : nat -> R) (i : nat) : R := 100 * (c i - wmax w c i) / wmax w c i.
(** 1 where a row lies beyond a line that exists from row k on *)
Definition above (k : nat) (c line : nat -> R) (i : nat) : R :=
  if (i <? k)%nat then 0 else if Rlt_dec (line i) (c i) then 1 else 0.
Definition below (k : nat) (c line : nat -> R) (i : nat) : R :=
  if (i <? k)%nat then 0 else if Rlt_dec (c i) (line i) then 1 else 0.
(** position inside a band: 0 at the lower line, 1 at the upper *)
Definition position (lo hi x : R) : xr := if Req_EM_T hi lo then NaN else Fin ((x - lo) / (hi - lo)).

(** close location value: -1 at the low, 1 at the high; 0 for a bar without range *)
Definition location (h l c : nat -> R) (i : nat) : R :=
  if Req_EM_T (h i) (l i) then 0 else ((c i - l i) - (h i - c i)) / (h i - l i).
(** volume counted negative when the close fell *)
Definition signed_volume (c v : nat -> R) (i : nat) : R :=
  match i with O => v i | S j => if Rlt_dec (c i) (c j) then - v i else v i end.
(** mean of the window, looking at rows k and later only *)
Definition wmean_from (k w : nat) (f : nat -> R) (i : nat) : R :=
  rsum f (Nat.max k (wlo w i)) (S i - Nat.max k (wlo w i)) / INR (S i - Nat.max k (wlo w i)).
(** signed money flow: typical price * volume, with the sign of the change of
    the typical price; its positive and negative parts over a window *)
Definition money_flow (h l c v : nat -> R) (i : nat) : R :=
  let t := typical h l c in
  match i with
  | O => 0
  | S j => if Rlt_dec (t j) (t i) then t i * v i else if Rlt_dec (t i) (t j) then - (t i * v i) else 0
  end.
Definition mfi_value (pos neg : R) : xr :=
  if Req_EM_T neg 0 then (if Req_EM_T pos 0 then NaN else Fin 100) else Fin (100 - 100 / (1 + pos / neg)).
(** factor of the negative volume index on row j *)
Definition nvi_factor (c v : nat -> R) (j : nat) : R := if Rlt_dec (v j) (v (j - 1)%nat) then c j / c (j - 1)%nat else 1.
Definition emv_value (h l v : nat -> R) (i : nat) : R := (delta h i + delta l i) * (h i - l i) / (2 * v i) * 100000000.
Definition vpt_value (c v : nat -> R) (i : nat) : R := rsum (fun j => (c j / c (j - 1)%nat - 1) * v j) 1 i.
(** row by row not above, where both rows are numbers *)
Definition rows_le (a b : list xr) : Prop :=
  Forall2 (fun x y => match x, y with Fin r, Fin s => r <= s | PInf, _ | NInf, _ | _, PInf | _, NInf => False | _, _ => True end) a b.
(** the same column k rows later: k missing rows, then row i shows row i-k *)
Definition delayed {F} {A : Arith F} (k : nat) (r0 r : result (list F)) : Prop :=
  match r0 with
  | Raise e => r = Raise e
  | Ok out0 => exists out, r = Ok out /\ length out = length out0 /\
      forall i, (i < length out0)%nat -> nth i out fnan = if (i <? k)%nat then fnan else nth (i - k)%nat out0 fnan
  end.
(** the first of the rows a, ..., a+k with the largest / smallest value *)
Fixpoint first_max (f : nat -> R) (a k : nat) : nat :=
  match k with O => a | S k' => let j := first_max f a k' in if Rlt_dec (f j) (f (a + k)%nat) then (a + k)%nat else j end.
Definition first_min (f : nat -> R) (a k : nat) : nat := first_max (fun i => - f i) a k.
(** upward swing: distance of the high (of h) from the previous low (of l) *)
Definition swing (h l : nat -> R) (i : nat) : R := match i with O => 0 | S j => Rabs (h i - l j) end.
(** true range whose first row uses p as previous close *)
Definition trange_after (p : R) (h l c : nat -> R) (i : nat) : R :=
  let q := match i with O => p | S j => c j end in Rmax (h i - l i) (Rmax (Rabs (h i - q)) (Rabs (l i - q))).
(** mean of rows k .. n-1 *)
Definition mean_of (k n : nat) (f : nat -> R) : R := rsum f k (n - k) / INR (n - k).
(** the value r rows before; x where there is none *)
Definition back (r : nat) (x : R) (f : nat -> R) (i : nat) : R := if (i <? r)%nat then x else f (i - r)%nat.
(** Aroon: how far the first extreme of the last w+1 rows (fewer at the
    beginning of the series) lies from the first of them, in % of w *)
Definition aroon_up_value (h : nat -> R) (w i : nat) : R := 100 * INR (first_max h (i - w) (Nat.min w i) - (i - w)) / INR w.
Definition aroon_down_value (l : nat -> R) (w i : nat) : R := 100 * INR (first_min l (i - w) (Nat.min w i) - (i - w)) / INR w.
(** Ichimoku: middle of the highest high and the lowest low of w rows *)
Definition midrange (w : nat) (h l : nat -> R) (i : nat) : R := (wmax w h i + wmin w l i) / 2.
(** KST: mean over w rows of the relative change since r rows before (since
    the mean of the whole column on the first r rows) *)
Definition roc_mean (r w n : nat) (c : nat -> R) : nat -> R :=
  let prev := back r (mean_of 0 n c) c in wmean w (fun i => (c i - prev i) / prev i).
(** TRIX: relative change of the triple EMA; k is the warm-up of one EMA *)
Definition ema3 (w k : nat) (c : nat -> R) : nat -> R := ema w (ema w (ema w c 0) k) (k + k).
Definition trix_value (w k n : nat) (c : nat -> R) (i : nat) : R :=
  let e := ema3 w k c in let p := back 1 (mean_of (k + k + k) n e) e i in (e i - p) / p * 100.
(** mass index: EMA of the amplitude over the EMA of that EMA *)
Definition mass_ratio (w k : nat) (h l : nat -> R) (i : nat) : R :=
  let e := ema w (fun i => h i - l i) 0 in e i / ema w e k i.
(** STC: position in the range of the last w rows, in % *)
Definition range_pos (w : nat) (f : nat -> R) (i : nat) : R := 100 * (f i - wmin w f i) / (wmax w f i - wmin w f i).
(** ADX: directional movement and the range including the previous close (rows >= 1) *)
Definition dm_plus (h l : nat -> R) (j : nat) : R :=
  let up := h j - h (j - 1)%nat in let down := l (j - 1)%nat - l j in
  if Rlt_dec down up then Rmax 0 up else 0.
Definition dm_minus (h l : nat -> R) (j : nat) : R :=
  let up := h j - h (j - 1)%nat in let down := l (j - 1)%nat - l j in
  if Rlt_dec up down then Rmax 0 down else 0.
Definition dm_range (h l c : nat -> R) (j : nat) : R := Rmax (h j) (c (j - 1)%nat) - Rmin (l j) (c (j - 1)%nat).
(** Wilder's running sum, t rows after row w: starts with rows 1..w *)
Fixpoint wilder_sum (w : nat) (x : nat -> R) (t : nat) : R :=
  match t with
  | O => rsum x 1 w
  | S t' => let p := wilder_sum w x t' in p - p / INR w + x (w + t)%nat
  end.
(** +DI / -DI at row i >= w *)
Definition di_value (w : nat) (x tr : nat -> R) (i : nat) : R :=
  if Req_EM_T (wilder_sum w tr (i - w)) 0 then 0 else 100 * (wilder_sum w x (i - w) / wilder_sum w tr (i - w)).
Definition dx_value (p q : R) : R := if Req_EM_T (p + q) 0 then 0 else 100 * Rabs ((p - q) / (p + q)).
(** ADX, s rows after row 2w-1: starts with the mean of DX on rows w..2w-1 *)
Fixpoint adx_at (w : nat) (dx : nat -> R) (s : nat) : R :=
  match s with
  | O => rsum dx w w / INR w
  | S s' => (adx_at w dx s' * (INR w - 1) + dx (2 * w - 1 + s)%nat) / INR w
  end.
(** Parabolic SAR (C37-C42, C68): direction of the trend, acceleration factor,
    highest high and lowest low of the trend, stop *)
Record sar := mksar { sar_up : bool; sar_af : R; sar_high : R; sar_low : R; sar_val : R }.
(** the stop moves towards the extreme by the factor af *)
Definition sar_move (s : sar) : R :=
  if sar_up s then sar_val s + sar_af s * (sar_high s - sar_val s) else sar_val s - sar_af s * (sar_val s - sar_low s).
Definition sar_next (step mx : R) (h l : nat -> R) (s : sar) (i : nat) : sar :=
  let v := sar_move s in
  let faster := Rmin (sar_af s + step) mx in
  if sar_up s then
    if Rlt_dec (l i) v then mksar false step (sar_high s) (l i) (sar_high s)  (* the bar crosses the stop: reversal *)
    else mksar true (if Rlt_dec (sar_high s) (h i) then faster else sar_af s) (Rmax (sar_high s) (h i)) (sar_low s)
           (if Rlt_dec (l (i - 2)%nat) v then l (i - 2)%nat else Rmin v (l (i - 1)%nat))
  else
    if Rlt_dec v (h i) then mksar true step (h i) (sar_low s) (sar_low s)
    else mksar false (if Rlt_dec (l i) (sar_low s) then faster else sar_af s) (sar_high s) (Rmin (sar_low s) (l i))
           (if Rlt_dec v (h (i - 2)%nat) then h (i - 2)%nat else Rmax v (h (i - 1)%nat)).
(** rows 0 and 1: an up trend starts at the close *)
Fixpoint sar_at (step mx : R) (h l c : nat -> R) (i : nat) : sar :=
  match i with
  | O => mksar true step (h O) (l O) (c O)
  | S O => mksar true step (h O) (l O) (c 1%nat)
  | S i' => sar_next step mx h l (sar_at step mx h l c i') i
  end.
(** row i of a column is a number and the row before is not *)
Definition starts (s : list xr) (i : nat) : bool :=
  negb (xisnan (nth i s NaN)) && match i with O => true | S j => xisnan (nth j s NaN) end.
Definition nonneg (x : xr) : Prop := match x with Fin r => 0 <= r | NInf => False | _ => True end.
(** the same prices and volumes, whatever the labels *)
Definition same_values {F} (rows rows' : list (bar F)) : Prop :=
  Forall2 (fun a b => b_high a = b_high b /\ b_low a = b_low b /\ b_close a = b_close b /\ b_volume a = b_volume b) rows rows'.
