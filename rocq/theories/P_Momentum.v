(** * P_Momentum: properties C19-C31, C55, C66.

    Exact arithmetic (extended reals) unless a binary64 witness is named.
    Range theorems hold for arbitrary rows, missing and infinite cells
    included, unless they mention [frame] (n finite rows).  Vocabulary:
    SpecNum.v. *)
From Coq Require Import Floats.
From Verif Require Import Api SpecNum FloatArith Samples Tab Averages Range Oscillators Returns Kama TrueRange StochRsi.
Local Open Scope R_scope.

(** C19. *)
Theorem C19_rsi_in_0_100 : forall w fillna rows out,
  compute (Rsi w) fillna rows = Ok out -> Forall (within 0 100) out.
Proof. exact rsi_range. Qed.
Print Assumptions C19_rsi_in_0_100.

(** C20. *)
Theorem C20_rsi_formula : forall fillna w n h l c v, (1 <= w)%nat ->
  compute (Rsi (Z.of_nat w)) fillna (frame n h l c v) =
  Ok (tab n (from (warm fillna w) (fun i => rsi_value (wilder w (gain c) 0 i) (wilder w (loss c) 0 i)))).
Proof. exact rsi_formula. Qed.
Print Assumptions C20_rsi_formula.
(** up 2, down 1, window 2: averages 1/2 and 1/2 *)
Example C20_value :
  let c := fun i => nth i [1; 3; 2] 0 in
  rsi_value (wilder 2 (gain c) 0 2) (wilder 2 (loss c) 0 2) = 50.
Proof.
  assert (M : Rmax 0 2 = 2) by (apply Rmax_right; lra). assert (M' : Rmax 0 (-1) = 0) by (apply Rmax_left; lra).
  assert (M1 : Rmax 0 1 = 1) by (apply Rmax_right; lra). assert (M2 : Rmax 0 (-2) = 0) by (apply Rmax_left; lra).
  unfold wilder, expavg, gain, loss, delta. cbn. 
  replace (3 - 1) with 2 by lra. replace (2 - 3) with (-1) by lra. replace (- (2)) with (-2) by lra. replace (- (-1)) with 1 by lra.
  rewrite M, M', M1, M2. unfold rsi_value. destruct (Req_EM_T _ 0); lra.
Qed.

(** C21. *)
Theorem C21_rsi_100_when_never_falling : forall fillna w n h l c v i out, (1 <= w)%nat ->
  (warm fillna w <= i < n)%nat -> (forall j, (1 <= j <= i)%nat -> c (j - 1)%nat <= c j) ->
  compute (Rsi (Z.of_nat w)) fillna (frame n h l c v) = Ok out -> nth i out NaN = Fin 100.
Proof. exact rsi_rising. Qed.
Print Assumptions C21_rsi_100_when_never_falling.
Theorem C21_rsi_0_when_never_rising : forall fillna w n h l c v i t out, (1 <= w)%nat ->
  (warm fillna w <= i < n)%nat -> (forall j, (1 <= j <= i)%nat -> c j <= c (j - 1)%nat) ->
  (1 <= t <= i)%nat -> c t < c (t - 1)%nat -> (2 <= w)%nat \/ t = i ->
  compute (Rsi (Z.of_nat w)) fillna (frame n h l c v) = Ok out -> nth i out NaN = Fin 0.
Proof. exact rsi_falling. Qed.
Print Assumptions C21_rsi_0_when_never_rising.
Example C21_applies : let c := fun i => - INR i in
  (exists out, compute (Rsi (Z.of_nat 2)) false (frame 5 c c c c) = Ok out) /\
  (forall j, (1 <= j <= 3)%nat -> c j <= c (j - 1)%nat) /\ c 1%nat < c 0%nat.
Proof.
  split; [eexists; apply rsi_formula; lia|]. split; [|cbn; lra].
  intros j Hj. destruct j; [lia|]. rewrite S_INR. cbn [Nat.sub]. rewrite Nat.sub_0_r. lra.
Qed.

(** C22. *)
Theorem C22_stochastic_in_0_100 : forall fillna w s n h l c v, (1 <= w)%nat -> sane n h l c ->
  (forall out, compute (Stoch (Z.of_nat w) s) fillna (frame n h l c v) = Ok out -> Forall (within 0 100) out) /\
  (forall out, compute (StochSignal (Z.of_nat w) s) fillna (frame n h l c v) = Ok out -> Forall (within 0 100) out).
Proof. exact stoch_range. Qed.
Print Assumptions C22_stochastic_in_0_100.
Example C22_applies : sane 9 (fun i => INR i + 2) INR (fun i => INR i + 1).
Proof. intros i _. lra. Qed.

(** C23. *)
Theorem C23_stochastic_formula : forall fillna w s n h l c v, (1 <= w)%nat ->
  shows fillna 50
    (tab n (fromx (warm fillna w) (fun i => ratio (100 * (c i - wmin w l i)) (wmax w h i - wmin w l i))))
    (compute (Stoch (Z.of_nat w) s) fillna (frame n h l c v)).
Proof. exact stoch_formula. Qed.
Print Assumptions C23_stochastic_formula.
Theorem C23_signal_is_moving_average : forall fillna w s n h l c v, (1 <= w)%nat -> (1 <= s)%nat ->
  (forall i, (i < n)%nat -> wmin w l i <> wmax w h i) ->
  let k := fun i => 100 * (c i - wmin w l i) / (wmax w h i - wmin w l i) in
  compute (StochSignal (Z.of_nat w) (Z.of_nat s)) fillna (frame n h l c v) =
  Ok (tab n (from (warm fillna w + warm fillna s) (wmean s k))).
Proof. exact stoch_signal_formula. Qed.
Print Assumptions C23_signal_is_moving_average.
(** bars with a positive range meet the hypothesis *)
Example C23_applies : forall w h l i, (1 <= w)%nat -> l i < h i -> wmin w l i <> wmax w h i.
Proof.
  intros w h l i Hw H. pose proof (wmax_ge w h i i Hw ltac:(unfold wlo; lia)).
  pose proof (wmin_le w l i i Hw ltac:(unfold wlo; lia)). lra.
Qed.

(** C24. *)
Theorem C24_williams_is_stochastic_minus_100 : forall w s fillna rows,
  compute (WilliamsR w) fillna rows =
  rmap (map (fun x => fsub x (Fin 100))) (compute (Stoch w s) fillna rows).
Proof. exact wr_stoch. Qed.
Print Assumptions C24_williams_is_stochastic_minus_100.
Theorem C24_williams_in_range : forall fillna w n h l c v out, (1 <= w)%nat -> sane n h l c ->
  compute (WilliamsR (Z.of_nat w)) fillna (frame n h l c v) = Ok out -> Forall (within (-100) 0) out.
Proof. exact wr_range. Qed.
Print Assumptions C24_williams_in_range.

(** C25. *)
Theorem C25_stochrsi_in_0_1 : forall w s1 s2 fillna rows,
  (forall out, compute (StochRsi w s1 s2) fillna rows = Ok out -> Forall (within 0 1) out) /\
  (forall out, compute (StochRsiK w s1 s2) fillna rows = Ok out -> Forall (within 0 1) out) /\
  (forall out, compute (StochRsiD w s1 s2) fillna rows = Ok out -> Forall (within 0 1) out).
Proof. exact stochrsi_range. Qed.
Print Assumptions C25_stochrsi_in_0_1.

(** C75: StochRSI places the RSI within its own range of the last w rows; the k
    line averages it, the d line averages k.  A flat RSI window gives no value,
    nor do the averages over it. *)
Theorem C75_stochrsi_formula : forall fillna w s1 s2 n h l c v, (1 <= w)%nat -> (1 <= s1)%nat -> (1 <= s2)%nat ->
  let r i := rsi_value (wilder w (gain c) 0 i) (wilder w (loss c) 0 i) in
  let k := (warm fillna w + (w - 1))%nat in
  let s i := ratio (r i - wmin w r i) (wmax w r i - wmin w r i) in
  let call ind := compute ind fillna (frame n h l c v) in
  shows fillna 0 (tab n (fromx k s)) (call (StochRsi (Z.of_nat w) (Z.of_nat s1) (Z.of_nat s2))) /\
  shows fillna 0 (tab n (fromx (k + (s1 - 1)) (wmeanx s1 s))) (call (StochRsiK (Z.of_nat w) (Z.of_nat s1) (Z.of_nat s2))) /\
  shows fillna 0 (tab n (fromx (k + (s1 - 1) + (s2 - 1)) (wmeanx s2 (wmeanx s1 s))))
    (call (StochRsiD (Z.of_nat w) (Z.of_nat s1) (Z.of_nat s2))).
Proof. exact stochrsi_formula. Qed.
Print Assumptions C75_stochrsi_formula.
(** a window with a gap, and one without *)
Example C75_mean : wmeanx 2 (fun j => match j with O => NaN | _ => Fin (INR j) end) 1 = NaN /\
                   wmeanx 2 (fun j => match j with O => NaN | _ => Fin (INR j) end) 2 = Fin (3 / 2).
Proof. split; [reflexivity|]. unfold wmeanx, wmean, wsum. cbn. f_equal. lra. Qed.

(** C26. *)
Theorem C26_tsi_in_range : forall s f fillna rows out,
  compute (Tsi s f) fillna rows = Ok out -> Forall (within (-100) 100) out.
Proof. exact tsi_range. Qed.
Print Assumptions C26_tsi_in_range.
Theorem C26_tsi_formula : forall fillna s f n h l c v, (1 <= s)%nat -> (1 <= f)%nat ->
  let k := (1 + warm fillna s)%nat in
  shows fillna 0 (tab n (fromx (k + warm fillna f)
      (fun i => fmul (ratio (ema f (ema s (delta c) 1) k i) (ema f (ema s (fun t => Rabs (delta c t)) 1) k i)) (Fin 100))))
    (compute (Tsi (Z.of_nat s) (Z.of_nat f)) fillna (frame n h l c v)).
Proof. exact tsi_formula. Qed.
Print Assumptions C26_tsi_formula.
Theorem C26_tsi_rising : forall fillna s f n h l c v out i, (1 <= s)%nat -> (1 <= f)%nat ->
  (1 + warm fillna s + warm fillna f <= i < n)%nat -> (forall j, (1 <= j <= i)%nat -> c (j - 1)%nat < c j) ->
  compute (Tsi (Z.of_nat s) (Z.of_nat f)) fillna (frame n h l c v) = Ok out -> nth i out NaN = Fin 100.
Proof. exact tsi_rising. Qed.
Print Assumptions C26_tsi_rising.
Theorem C26_tsi_falling : forall fillna s f n h l c v out i, (1 <= s)%nat -> (1 <= f)%nat ->
  (1 + warm fillna s + warm fillna f <= i < n)%nat -> (forall j, (1 <= j <= i)%nat -> c j < c (j - 1)%nat) ->
  compute (Tsi (Z.of_nat s) (Z.of_nat f)) fillna (frame n h l c v) = Ok out -> nth i out NaN = Fin (-100).
Proof. exact tsi_falling. Qed.
Print Assumptions C26_tsi_falling.
Example C26_applies :
  (exists out, compute (Tsi (Z.of_nat 3) (Z.of_nat 2)) false (frame 9 INR INR INR INR) = Ok out) /\
  (1 + warm false 3 + warm false 2 <= 5 < 9)%nat /\ forall j, (1 <= j <= 5)%nat -> INR (j - 1) < INR j.
Proof.
  split; [|split; [cbn; lia|intros; apply lt_INR; lia]].
  destruct (tsi_formula false 3 2 9 INR INR INR INR) as (out & E & _); [lia|lia|]. now exists out.
Qed.

(** C27. *)
Theorem C27_ultimate_oscillator_formula : forall fillna w1 w2 w3 k1 k2 k3 n h l c v,
  (1 <= w1)%nat -> (1 <= w2)%nat -> (1 <= w3)%nat -> sane n h l c -> k1 + k2 + k3 <> 0 ->
  shows fillna 50 (tab n (fromx (if fillna then 0 else Nat.max w1 (Nat.max w2 w3)) (uo_row h l c w1 w2 w3 k1 k2 k3)))
   (compute (UltOsc (Z.of_nat w1) (Z.of_nat w2) (Z.of_nat w3) (Fin k1) (Fin k2) (Fin k3)) fillna (frame n h l c v)).
Proof. exact uo_formula. Qed.
Print Assumptions C27_ultimate_oscillator_formula.
Theorem C27_ultimate_oscillator_in_0_100 : forall fillna w1 w2 w3 k1 k2 k3 n h l c v out,
  (1 <= w1)%nat -> (1 <= w2)%nat -> (1 <= w3)%nat ->
  sane n h l c -> 0 <= k1 -> 0 <= k2 -> 0 <= k3 -> 0 < k1 + k2 + k3 ->
  compute (UltOsc (Z.of_nat w1) (Z.of_nat w2) (Z.of_nat w3) (Fin k1) (Fin k2) (Fin k3)) fillna (frame n h l c v) = Ok out ->
  Forall (within 0 100) out.
Proof. exact uo_range. Qed.
Print Assumptions C27_ultimate_oscillator_in_0_100.

(** C28. *)
Theorem C28_kama_formula : forall w p q n h l c v, (1 <= w)%nat -> (0 <= p)%Z -> (0 <= q)%Z ->
  compute (Kama (Z.of_nat w) p q) false (frame n h l c v) =
  Ok (tab n (from (w - 1) (fun i =>
    kama_val (fun j => kama_sc_value (2 / IZR (p + 1)) (2 / IZR (q + 1)) (efficiency w c j)) c (w - 1) (i - (w - 1))))).
Proof. exact kama_formula. Qed.
Print Assumptions C28_kama_formula.
Theorem C28_kama_in_price_range : forall w p q n h l c v i x out, (1 <= w)%nat -> (1 <= p)%Z -> (1 <= q)%Z ->
  compute (Kama (Z.of_nat w) p q) false (frame n h l c v) = Ok out -> (i < n)%nat -> nth i out NaN = x ->
  within (rmin c 0 i) (rmax c 0 i) x.
Proof. exact kama_range. Qed.
Print Assumptions C28_kama_in_price_range.
Example C28_applies : exists out x, compute (Kama (Z.of_nat 3) 2 30) false (frame 9 INR INR INR INR) = Ok out /\
  nth 4 out NaN = Fin x.
Proof. do 2 eexists. split; [apply kama_formula; lia|reflexivity]. Qed.

(** C29: refuted with fillna=True.  All closes lie in [10, 200]; row 1 of the
    result is above 200. *)
Theorem C29_kama_filled_in_price_range_refuted :
  ~ forall (rows : list (bar float)) out lo hi,
      (forall b, In b rows -> PrimFloat.leb lo (b_close b) = true /\ PrimFloat.leb (b_close b) hi = true) ->
      compute (Kama 3 2 30) true rows = Ok out ->
      forall x, In x out -> PrimFloat.leb lo x = true /\ PrimFloat.leb x hi = true.
Proof.
  intros H.
  specialize (H (bars_from 0 [(10, 10, 10, 1); (11, 11, 11, 1); (100, 100, 100, 1); (200, 200, 200, 1); (10, 10, 10, 1)]%float)).
  set (r := compute _ _ _) in H. vm_compute in r. subst r. 
  specialize (H _ 10%float 200%float ltac:(cbn; intros b Hb; repeat destruct Hb as [<-|Hb]; try easy) eq_refl _ (or_intror (or_introl eq_refl))).
  destruct H as [_ H]. vm_compute in H. discriminate.
Qed.
Print Assumptions C29_kama_filled_in_price_range_refuted.

(** C30. *)
Theorem C30_roc_1_is_daily_return : forall fillna n h l c v,
  compute (Roc 1) fillna (frame n h l c v) = compute DailyReturn fillna (frame n h l c v).
Proof. exact roc1_daily. Qed.
Print Assumptions C30_roc_1_is_daily_return.
Theorem C30_roc_formula : forall fillna w n h l c v, (forall i, (i < n)%nat -> c i <> 0) ->
  compute (Roc (Z.of_nat w)) fillna (frame n h l c v) =
  Ok (tab n (gaps fillna 0 w (fun i => (c i - c (i - w)%nat) / c (i - w)%nat * 100))).
Proof. exact roc_formula. Qed.
Print Assumptions C30_roc_formula.
Theorem C30_returns_compound : forall n h l c v, (1 <= n)%nat -> (forall i, (i < n)%nat -> c i <> 0) ->
  exists d u, compute DailyReturn false (frame n h l c v) = Ok (tab n (from 1 d)) /\
    compute CumReturn false (frame n h l c v) = Ok (tab n (from 0 u)) /\
    forall i, (i < n)%nat -> 1 + u i / 100 = rprod (fun j => 1 + d j / 100) 1 i.
Proof. exact returns_compound. Qed.
Print Assumptions C30_returns_compound.
Theorem C30_cumulative_return_formula : forall fillna n h l c v, (1 <= n)%nat -> c 0%nat <> 0 ->
  compute CumReturn fillna (frame n h l c v) = Ok (tab n (from 0 (fun i => (c i / c 0%nat - 1) * 100))).
Proof. exact cum_formula. Qed.
Print Assumptions C30_cumulative_return_formula.
Theorem C30_log_returns_add_up : forall n h l c v, (1 <= n)%nat -> (forall i, (i < n)%nat -> 0 < c i) ->
  exists g, compute (DailyLogReturn xln) false (frame n h l c v) = Ok (tab n (from 1 g)) /\
    forall i, (i < n)%nat -> rsum g 1 i = 100 * ln (c i / c 0%nat).
Proof. exact log_returns_add. Qed.
Print Assumptions C30_log_returns_add_up.

(** C31. *)
Theorem C31_awesome_oscillator_formula : forall fillna w1 w2 n h l c v, (1 <= w1)%nat -> (1 <= w2)%nat ->
  let m := fun i => (h i + l i) / 2 in
  compute (AwesomeOsc (Z.of_nat w1) (Z.of_nat w2)) fillna (frame n h l c v) =
  Ok (tab n (from (warm fillna (Nat.max w1 w2)) (fun i => wmean w1 m i - wmean w2 m i))).
Proof. exact ao_formula. Qed.
Print Assumptions C31_awesome_oscillator_formula.

(** C55. *)
Theorem C55_mfi_in_0_100 : forall w fillna rows out,
  compute (Mfi w) fillna rows = Ok out -> Forall (within 0 100) out.
Proof. exact mfi_range. Qed.
Print Assumptions C55_mfi_in_0_100.

(** C66: in binary64 the bound of C22 fails by one rounding; low 1, high and
    close 1.11, window 1. *)
Theorem C66_stochastic_bound_in_binary64_refuted :
  ~ forall (rows : list (bar float)) out,
      (forall b, In b rows -> PrimFloat.leb (b_low b) (b_close b) = true /\ PrimFloat.leb (b_close b) (b_high b) = true) ->
      compute (Stoch 1 1) false rows = Ok out ->
      forall x, In x out -> PrimFloat.leb x 100 = true.
Proof.
  intros H.
  specialize (H (bars_from 0 [(0x1.1c28f5c28f5c3p+0, 1, 0x1.1c28f5c28f5c3p+0, 1)]%float)).
  set (r := compute _ _ _) in H. vm_compute in r. subst r.
  specialize (H _ ltac:(cbn; intros b Hb; repeat destruct Hb as [<-|Hb]; try easy) eq_refl _ (or_introl eq_refl)).
  vm_compute in H. discriminate.
Qed.
Print Assumptions C66_stochastic_bound_in_binary64_refuted.
