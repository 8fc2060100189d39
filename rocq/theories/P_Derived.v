(** * P_Derived: property C90, series that can be rebuilt from other published
    series. *)
From Coq Require Import Reals Floats Lra.
From Verif Require Import Api FloatArith Samples SpecNum SpecDerived Derived.

(** C90.  The lines published as a difference are the difference, row by row, of
    the two lines published beside them; in every arithmetic, binary64 included. *)
Theorem C90_differences : forall F (A : Arith F) d a b (rows : list (bar F)) x y, difference d a b ->
  compute a false rows = Ok x -> compute b false rows = Ok y -> compute d false rows = Ok (map2 fsub x y).
Proof. intros F A. exact differences. Qed.
Print Assumptions C90_differences.

(** Signal lines are the published average of the published line; the KST
    signal is the one that averages whatever is there (the fillna=True average)
    even when fillna is false. *)
Theorem C90_signal_lines : forall F (A : Arith F) d smooth base (rows : list (bar F)), smoothing d smooth base ->
  compute d false rows = bind (compute base false rows) (fun s => compute smooth false (column s)).
Proof. intros F A. exact smoothings. Qed.
Print Assumptions C90_signal_lines.
Theorem C90_kst_signal : forall F (A : Arith F) r1 r2 r3 r4 w1 w2 w3 w4 s (rows : list (bar F)),
  compute (KstSig r1 r2 r3 r4 w1 w2 w3 w4 s) false rows =
  bind (compute (Kst r1 r2 r3 r4 w1 w2 w3 w4 s) false rows) (fun k => compute (Sma s) true (column k)).
Proof. intros F A. exact kst_signal. Qed.
Print Assumptions C90_kst_signal.
(** StochRSI is where the RSI stands in the Donchian channel of the RSI. *)
Theorem C90_stochrsi : forall F (A : Arith F) w s1 s2 (rows : list (bar F)) out r,
  compute (StochRsi w s1 s2) false rows = Ok out -> compute (Rsi w) false rows = Ok r -> compute (DcP w 0) false (column r) = Ok out.
Proof. intros F A. exact stochrsi_of_rsi. Qed.
Print Assumptions C90_stochrsi.

(** Bollinger and Keltner: width, position and both break-out signals follow
    from the three published lines and the close. *)
Theorem C90_channels : forall F (A : Arith F) ch (rows : list (bar F)) lo mid up w p o u, a_channel ch ->
  compute (lower ch) false rows = Ok lo -> compute (middle ch) false rows = Ok mid -> compute (upper ch) false rows = Ok up ->
  compute (width ch) false rows = Ok w -> compute (place ch) false rows = Ok p ->
  compute (over ch) false rows = Ok o -> compute (under ch) false rows = Ok u ->
  forall i, (i < length rows)%nat ->
    let c := cell (map b_close rows) i in
    (cell w i = (cell up i -. cell lo i) /. cell mid i **. #100 /\
    ((cell up i =.? cell lo i) = false -> cell p i = (c -. cell lo i) /. (cell up i -. cell lo i)) /\
    cell o i = signal (cell up i <.? c) /\ cell u i = signal (c <.? cell lo i))%F.
Proof. intros F A. exact channels. Qed.
Print Assumptions C90_channels.
Theorem C90_donchian : forall F (A : Arith F) w (rows : list (bar F)) up lo mid wd p s,
  compute (DcH w 0) false rows = Ok up -> compute (DcL w 0) false rows = Ok lo -> compute (DcM w 0) false rows = Ok mid ->
  compute (DcW w 0) false rows = Ok wd -> compute (DcP w 0) false rows = Ok p -> compute (Sma w) false rows = Ok s ->
  forall i, (i < length rows)%nat ->
    let c := cell (map b_close rows) i in
    (cell mid i = (cell up i -. cell lo i) /. #2 +. cell lo i /\
    cell wd i = (cell up i -. cell lo i) /. cell s i **. #100 /\
    cell p i = (c -. cell lo i) /. (cell up i -. cell lo i))%F.
Proof. intros F A. exact dc_lines. Qed.
Print Assumptions C90_donchian.
(** middle lines are the published averages; the Keltner lines of the new
    formula are the published EMA plus and minus the published ATR *)
Theorem C90_middle_lines : forall F (A : Arith F) (rows : list (bar F)) out,
  (forall w d, compute (BbM w d) false rows = Ok out -> compute (Sma w) false rows = Ok out) /\
  (forall w a m, compute (KcM w a false m) false rows = Ok out -> compute (Ema w) false rows = Ok out) /\
  (forall w a m, compute (KcM w a true m) false rows = Ok out -> compute (Sma w) false (column (typical_prices rows)) = Ok out).
Proof. intros F A rows out. exact (conj (fun w d => bb_is_sma w d rows out) (conj (fun w a m => kc_is_ema w a m rows out) (fun w a m => kc_is_sma w a m rows out))). Qed.
Print Assumptions C90_middle_lines.
Theorem C90_keltner_lines : forall F (A : Arith F) w a m (rows : list (bar F)) up lo e t,
  compute (KcH w a false m) false rows = Ok up -> compute (KcL w a false m) false rows = Ok lo ->
  compute (Ema w) false rows = Ok e -> compute (Atr a) false rows = Ok t ->
  (up = map2 (fun x y => x +. m **. y) e t /\ lo = map2 (fun x y => x -. m **. y) e t)%F.
Proof. intros F A. exact kc_lines. Qed.
Print Assumptions C90_keltner_lines.

(** The base line is the conversion line of the other window (whatever the
    remaining arguments), and span A is half the sum of the two. *)
Theorem C90_ichimoku : forall F (A : Arith F) w1 w2 w3 (rows : list (bar F)),
  (forall v v' w3' fl out, compute (IchiBase w1 w2 w3 v) fl rows = Ok out -> compute (IchiConv w2 w1 w3' v') fl rows = Ok out) /\
  (forall v a c b, compute (IchiA w1 w2 w3 false) false rows = Ok a ->
     compute (IchiConv w1 w2 w3 v) false rows = Ok c -> compute (IchiBase w1 w2 w3 v) false rows = Ok b ->
     (a = map2 (fun x y => fhalf **. (x +. y)) c b)%F).
Proof.
  intros F A w1 w2 w3 rows.
  exact (conj (fun v v' w3' fl out => ichi_base w1 w2 w3 v v' w3' fl rows out) (fun v a c b => ichi_span w1 w2 w3 v rows a c b)).
Qed.
Print Assumptions C90_ichimoku.
(** The awesome oscillator is the difference of two published SMAs of the median
    price; the PVO is the PPO of the volume, for either fillna. *)
Theorem C90_awesome : forall F (A : Arith F) w1 w2 (rows : list (bar F)) out a b, compute (AwesomeOsc w1 w2) false rows = Ok out ->
  compute (Sma w1) false (column (median_prices rows)) = Ok a -> compute (Sma w2) false (column (median_prices rows)) = Ok b ->
  out = map2 fsub a b.
Proof. intros F A. exact ao_is_sma. Qed.
Print Assumptions C90_awesome.
Theorem C90_pvo : forall F (A : Arith F) s f g fl (rows : list (bar F)),
  compute (Pvo s f g) fl rows = compute (Ppo s f g) fl (volume_as_close rows) /\
  compute (PvoSignal s f g) fl rows = compute (PpoSignal s f g) fl (volume_as_close rows) /\
  compute (PvoHist s f g) fl rows = compute (PpoHist s f g) fl (volume_as_close rows).
Proof. intros F A. exact pvo_is_ppo. Qed.
Print Assumptions C90_pvo.

(** Identities of exact arithmetic: the conversion line is the middle of the
    Donchian channel, %K is a hundred times the position in it, and with a
    constant volume the VWAP is the SMA of the typical price. *)
Theorem C90_exact : forall w n h l c v, (1 <= w)%nat ->
  (forall w2 w3 vis fl, (1 <= w2)%nat -> (1 <= w3)%nat ->
     compute (IchiConv (Z.of_nat w) (Z.of_nat w2) (Z.of_nat w3) vis) fl (frame n h l c v) = compute (DcM (Z.of_nat w) 0) fl (frame n h l c v)) /\
  (forall s, compute (Stoch (Z.of_nat w) s) false (frame n h l c v) =
     rmap (map (fun x => fmul (Fin 100) x)) (compute (DcP (Z.of_nat w) 0) false (frame n h l c v))) /\
  (forall q, q <> 0%R -> (forall i, (i < n)%nat -> v i = q) ->
     compute (Vwap (Z.of_nat w)) false (frame n h l c v) = compute (Sma (Z.of_nat w)) false (frame n h l (typical h l c) v)).
Proof.
  intros w n h l c v H.
  exact (conj (fun w2 w3 vis fl => conv_is_mid w w2 w3 vis fl n h l c v H) (conj (fun s => stoch_is_place w s n h l c v H) (fun q => vwap_is_sma w n h l c v q H))).
Qed.
Print Assumptions C90_exact.

(** In binary64 the first two, and the identities Williams %R = %K - 100 and
    ROC(1) = daily return of exact arithmetic, hold only up to rounding. *)
Definition thirteen64 : list (bar float) := bars_from 0 [(11/10, 3/10, 7/10, 1); (13/10, 7/10, 6/10, 1); (17/10, 1/10, 13/10, 1)]%float.
Definition out64 (ind : indicator float) : list float := match compute ind false thirteen64 with Ok o => o | _ => [] end.
Definition same64 (a b : list float) : bool := forallb (fun p => PrimFloat.eqb (fst p) (snd p) || (is_nan (fst p) && is_nan (snd p)))%bool (combine a b).
Theorem C90_exact_in_binary64_refuted :
  ~ (forall rows a b, compute (IchiConv 1 1 1 false) false rows = Ok a -> compute (DcM 1 0) false rows = Ok b -> same64 a b = true) /\
  ~ (forall rows a b, compute (Stoch 1 1) false rows = Ok a -> compute (DcP 1 0) false rows = Ok b -> same64 a (map (PrimFloat.mul 100) b) = true) /\
  ~ (forall rows a b, compute (WilliamsR 1) false rows = Ok a -> compute (Stoch 1 1) false rows = Ok b -> same64 a (map (fun x => PrimFloat.sub x 100) b) = true) /\
  ~ (forall rows a b, compute (Roc 1) false rows = Ok a -> compute DailyReturn false rows = Ok b -> same64 a b = true).
Proof.
  repeat split; intros H.
  - specialize (H thirteen64 (out64 (IchiConv 1 1 1 false)) (out64 (DcM 1 0)) ltac:(vm_compute; reflexivity) ltac:(vm_compute; reflexivity)). vm_compute in H. discriminate.
  - specialize (H thirteen64 (out64 (Stoch 1 1)) (out64 (DcP 1 0)) ltac:(vm_compute; reflexivity) ltac:(vm_compute; reflexivity)). vm_compute in H. discriminate.
  - specialize (H thirteen64 (out64 (WilliamsR 1)) (out64 (Stoch 1 1)) ltac:(vm_compute; reflexivity) ltac:(vm_compute; reflexivity)). vm_compute in H. discriminate.
  - specialize (H thirteen64 (out64 (Roc 1)) (out64 DailyReturn) ltac:(vm_compute; reflexivity) ltac:(vm_compute; reflexivity)). vm_compute in H. discriminate.
Qed.
Print Assumptions C90_exact_in_binary64_refuted.

(** the hypotheses are met in binary64: every series involved is computed on a
    frame of six rows and is not all missing *)
Definition six64 : list (bar float) :=
  bars_from 0 [(11, 9, 10, 5); (12, 10, 11, 7); (13, 10, 12, 6); (12, 9, 9, 8); (11, 8, 10, 9); (14, 10, 13, 5)]%float.
Definition shown64 (ind : indicator float) : bool :=
  match compute ind false six64 with Ok o => negb (is_nan (last o nan)) | _ => false end.
Example C90_applies :
  difference (MacdDiff 3 2 2 : indicator float) (Macd 3 2 2) (MacdSignal 3 2 2) /\
  smoothing (StochSignal 3 2 : indicator float) (Sma 2) (Stoch 3 2) /\
  a_channel (bollinger 3 2%float) /\ a_channel (keltner 3 2 false 2%float) /\
  forallb shown64 [MacdDiff 3 2 2; Macd 3 2 2; MacdSignal 3 2 2; StochSignal 3 2; Stoch 3 2; StochRsi 3 2 2; Rsi 3;
    BbL 3 2; BbM 3 2; BbH 3 2; BbW 3 2; BbP 3 2; BbHI 3 2; BbLI 3 2; KcL 3 2 false 2; KcM 3 2 false 2; KcH 3 2 false 2;
    KcW 3 2 false 2; KcP 3 2 false 2; KcHI 3 2 false 2; KcLI 3 2 false 2; KcM 3 2 true 2; Ema 3; Atr 2; DcH 3 0; DcL 3 0; DcM 3 0; DcW 3 0; DcP 3 0; Sma 3;
    IchiA 2 3 4 false; IchiConv 2 3 4 false; IchiBase 2 3 4 false; AwesomeOsc 2 3; Pvo 3 2 2; PvoSignal 3 2 2; PvoHist 3 2 2;
    Kst 1 1 2 2 1 2 1 2 2; KstSig 1 1 2 2 1 2 1 2 2]%float = true.
Proof.
  split; [constructor|]. split; [constructor|].
  split; [left; exists 3%Z, 2%float; reflexivity|].
  split; [right; exists 3%Z, 2%Z, false, 2%float; reflexivity|].
  vm_compute. reflexivity.
Qed.
