(** * P_Trend: properties C32-C44, C59, C68.

    Unless said otherwise: exact arithmetic (extended reals), frames of n rows
    of finite numbers labelled 0..n-1, windows w >= 1.  Vocabulary: SpecNum.v. *)
From Coq Require Import Floats.
From Verif Require Import Api FloatArith SpecCausal SpecNum Samples Tab Averages Range Lines Cycles Directional Sar.
Local Open Scope R_scope.

(** C32. *)
Theorem C32_aroon_formula : forall fillna w n h l c v, (1 <= w)%nat ->
  compute (AroonUp (Z.of_nat w)) fillna (frame n h l c v) = Ok (tab n (from (if fillna then 0 else w) (aroon_up_value h w))) /\
  compute (AroonDown (Z.of_nat w)) fillna (frame n h l c v) = Ok (tab n (from (if fillna then 0 else w) (aroon_down_value l w))) /\
  compute (AroonInd (Z.of_nat w)) fillna (frame n h l c v) =
    Ok (tab n (from (if fillna then 0 else w) (fun i => aroon_up_value h w i - aroon_down_value l w i))).
Proof. exact aroon_formula. Qed.
Print Assumptions C32_aroon_formula.
Theorem C32_aroon_up_meaning : forall h w i j, (1 <= w <= i)%nat -> (i - w <= j <= i)%nat ->
  (forall t, (i - w <= t <= i)%nat -> h t <= h j) -> (forall t, (i - w <= t < j)%nat -> h t < h j) ->
  aroon_up_value h w i = 100 * (INR w - INR (i - j)) / INR w.
Proof. exact aroon_up_meaning. Qed.
Print Assumptions C32_aroon_up_meaning.
Theorem C32_aroon_down_meaning : forall l w i j, (1 <= w <= i)%nat -> (i - w <= j <= i)%nat ->
  (forall t, (i - w <= t <= i)%nat -> l j <= l t) -> (forall t, (i - w <= t < j)%nat -> l j < l t) ->
  aroon_down_value l w i = 100 * (INR w - INR (i - j)) / INR w.
Proof. exact aroon_down_meaning. Qed.
Print Assumptions C32_aroon_down_meaning.
Theorem C32_aroon_range : forall fillna w n h l c v, (1 <= w)%nat ->
  (forall out, compute (AroonUp (Z.of_nat w)) fillna (frame n h l c v) = Ok out -> Forall (within 0 100) out) /\
  (forall out, compute (AroonDown (Z.of_nat w)) fillna (frame n h l c v) = Ok out -> Forall (within 0 100) out) /\
  (forall out, compute (AroonInd (Z.of_nat w)) fillna (frame n h l c v) = Ok out -> Forall (within (-100) 100) out).
Proof. exact aroon_range. Qed.
Print Assumptions C32_aroon_range.
(** the highest of the last 3 highs is one row old *)
Example C32_value : aroon_up_value (fun i => nth i [3; 9; 4; 5; 5; 2] 0) 2 5 = 0 /\ aroon_up_value (fun i => nth i [3; 9; 4; 5; 5; 2] 0) 2 4 = 50.
Proof.
  split.
  - rewrite (aroon_up_meaning _ 2 5 3); cbn; try lia; try lra; intros t Ht; do 6 (destruct t; try lia; cbn; try lra).
  - rewrite (aroon_up_meaning _ 2 4 3); cbn; try lia; try lra; intros t Ht; do 6 (destruct t; try lia; cbn; try lra).
Qed.

(** C33. *)
Theorem C33_cci_formula : forall fillna w k n h l c v, (1 <= w)%nat ->
  let tp := typical h l c in
  shows fillna 0 (tab n (fromx (warm fillna w) (fun i => ratio (tp i - wmean w tp i) (k * wmad w tp i))))
    (compute (Cci (Z.of_nat w) (Fin k)) fillna (frame n h l c v)).
Proof. exact cci_formula. Qed.
Print Assumptions C33_cci_formula.
Theorem C33_cci_bound : forall fillna w k n h l c v out, (1 <= w)%nat -> 0 < k ->
  compute (Cci (Z.of_nat w) (Fin k)) fillna (frame n h l c v) = Ok out -> Forall (within (- (INR w / (2 * k))) (INR w / (2 * k))) out.
Proof. exact cci_range. Qed.
Print Assumptions C33_cci_bound.
Example C33_value : wmad 2 (fun i => nth i [1; 3] 0) 1 = 1 /\ wmean 2 (fun i => nth i [1; 3] 0) 1 = 2.
Proof.
  assert (E : wmean 2 (fun i => nth i [1; 3] 0) 1 = 2) by (unfold wmean, wsum; cbn; lra).
  split; auto. unfold wmad. rewrite E. unfold wmean, wsum. cbn.
  rewrite (Rabs_left1 (1 - 2)), (Rabs_pos_eq (3 - 2)) by lra. lra.
Qed.

(** C34. *)
Theorem C34_adx_in_0_100 : forall fillna w n h l c v out, (1 <= w)%nat -> sane n h l c ->
  compute (Adx (Z.of_nat w)) fillna (frame n h l c v) = Ok out ->
  forall i, (i < n)%nat -> exists a, nth i out NaN = Fin a /\ 0 <= a <= 100.
Proof. exact adx_range. Qed.
Print Assumptions C34_adx_in_0_100.
Theorem C34_di_in_0_100 : forall fillna w n h l c v p q, (1 <= w)%nat -> sane n h l c ->
  compute (AdxPos (Z.of_nat w)) fillna (frame n h l c v) = Ok p -> compute (AdxNeg (Z.of_nat w)) fillna (frame n h l c v) = Ok q ->
  forall i, (i < n)%nat -> exists a b, nth i p NaN = Fin a /\ nth i q NaN = Fin b /\ 0 <= a <= 100 /\ 0 <= b <= 100 /\ a + b <= 100.
Proof. exact di_range. Qed.
Print Assumptions C34_di_in_0_100.
Example C34_applies : sane 40 (fun i => INR i + 2) INR (fun i => INR i + 1) /\
  (exists out, compute (Adx (Z.of_nat 14)) false (frame 40 (fun i => INR i + 2) INR (fun i => INR i + 1) INR) = Ok out) /\
  (exists out, compute (AdxPos (Z.of_nat 14)) false (frame 40 (fun i => INR i + 2) INR (fun i => INR i + 1) INR) = Ok out).
Proof.
  split; [intros i _; lra|]. split; eexists; [apply adx_formula; lia|apply di_formula; lia].
Qed.

(** C35. *)
Theorem C35_directional_indicators : forall fillna w n h l c v, (1 <= w <= n)%nat ->
  compute (AdxPos (Z.of_nat w)) fillna (frame n h l c v) =
    Ok (tab n (fun i => Fin (if (i <=? w)%nat then 0 else di_value w (dm_plus h l) (dm_range h l c) i))) /\
  compute (AdxNeg (Z.of_nat w)) fillna (frame n h l c v) =
    Ok (tab n (fun i => Fin (if (i <=? w)%nat then 0 else di_value w (dm_minus h l) (dm_range h l c) i))).
Proof. exact di_formula. Qed.
Print Assumptions C35_directional_indicators.
Theorem C35_adx_smoothing : forall fillna w n h l c v, (1 <= w)%nat -> (2 * w <= n)%nat ->
  let dx i := dx_value (di_value w (dm_plus h l) (dm_range h l c) i) (di_value w (dm_minus h l) (dm_range h l c) i) in
  compute (Adx (Z.of_nat w)) fillna (frame n h l c v) =
    Ok (tab n (fun i => Fin (if (i <? 2 * w - 1)%nat then 0 else adx_at w dx (i - (2 * w - 1))))).
Proof. exact adx_formula. Qed.
Print Assumptions C35_adx_smoothing.
(** highs 2, 4, 5 and lows 1, 2, 4: all movement is upward *)
Example C35_value : let h := fun i => nth i [2; 4; 5] 0 in let l := fun i => nth i [1; 2; 4] 0 in let c := fun i => nth i [2; 4; 5] 0 in
  di_value 1 (dm_plus h l) (dm_range h l c) 2 = 100 * (1 / 1) /\ di_value 1 (dm_minus h l) (dm_range h l c) 2 = 0 /\
  dx_value 100 0 = 100.
Proof.
  cbv zeta. unfold di_value. cbn [Nat.sub wilder_sum rsum Nat.add INR].
  unfold dm_range, dm_plus, dm_minus. cbn [nth Nat.sub].
  destruct (Rlt_dec (1 - 2) (4 - 2)); [|lra]. destruct (Rlt_dec (2 - 4) (5 - 4)); [|lra].
  destruct (Rlt_dec (4 - 2) (1 - 2)); [lra|]. destruct (Rlt_dec (5 - 4) (2 - 4)); [lra|].
  rewrite (Rmax_right 0 (4 - 2)), (Rmax_right 0 (5 - 4)), (Rmax_left 4 2), (Rmax_left 5 4), (Rmin_left 2 2), (Rmin_left 4 4) by lra.
  destruct (Req_EM_T _ 0); [lra|]. refine (conj _ (conj _ _)); [lra|lra|].
  unfold dx_value. destruct (Req_EM_T (100 + 0) 0); [lra|]. rewrite Rabs_pos_eq; lra.
Qed.

(** C36. *)
Theorem C36_vortex_formula : forall (fillna : bool) w n h l c v, (1 <= w)%nat ->
  let tr := trange_after (mean_of 0 n c) h l c in let k := if fillna then 0%nat else w in
  shows fillna 1 (tab n (fromx k (fun i => ratio (wsum w (swing h l) i) (wsum w tr i))))
    (compute (VortexPos (Z.of_nat w)) fillna (frame n h l c v)) /\
  shows fillna 1 (tab n (fromx k (fun i => ratio (wsum w (swing l h) i) (wsum w tr i))))
    (compute (VortexNeg (Z.of_nat w)) fillna (frame n h l c v)).
Proof. exact vortex_formula. Qed.
Print Assumptions C36_vortex_formula.
Theorem C36_vortex_true_range : forall w p h l c i, (1 <= w <= i)%nat -> wsum w (trange_after p h l c) i = wsum w (trange h l c) i.
Proof. exact wsum_after. Qed.
Print Assumptions C36_vortex_true_range.
Theorem C36_vortex_positive_ranges : forall (fillna : bool) w n h l c v, (1 <= w)%nat -> (forall i, (i < n)%nat -> l i < h i) ->
  let tr := trange_after (mean_of 0 n c) h l c in let k := if fillna then 0%nat else w in
  compute (VortexPos (Z.of_nat w)) fillna (frame n h l c v) = Ok (tab n (from k (fun i => wsum w (swing h l) i / wsum w tr i))) /\
  compute (VortexNeg (Z.of_nat w)) fillna (frame n h l c v) = Ok (tab n (from k (fun i => wsum w (swing l h) i / wsum w tr i))) /\
  compute (VortexDiff (Z.of_nat w)) fillna (frame n h l c v) =
    Ok (tab n (from k (fun i => wsum w (swing h l) i / wsum w tr i - wsum w (swing l h) i / wsum w tr i))).
Proof. exact vortex_defined. Qed.
Print Assumptions C36_vortex_positive_ranges.
Theorem C36_vortex_nonnegative : forall fillna w n h l c v, (1 <= w)%nat ->
  (forall out, compute (VortexPos (Z.of_nat w)) fillna (frame n h l c v) = Ok out -> Forall nonneg out) /\
  (forall out, compute (VortexNeg (Z.of_nat w)) fillna (frame n h l c v) = Ok out -> Forall nonneg out).
Proof. exact vortex_nonneg. Qed.
Print Assumptions C36_vortex_nonnegative.
Example C36_applies : (forall i, (i < 9)%nat -> (fun i => INR i) i < (fun i => INR i + 2) i) /\
  wsum 2 (swing (fun i => nth i [4; 6; 5] 0) (fun i => nth i [1; 3; 2] 0)) 2 = 7.
Proof. split; [intros; lra|]. unfold wsum. cbn. rewrite !Rabs_pos_eq by lra. lra. Qed.

(** C37. Every arithmetic, arbitrary rows. *)
Theorem C37_psar_one_side_per_row : forall F (A : Arith F) b step mx (rows : list (bar F)) ps up dn,
  b = false \/ default_index rows ->
  compute (Psar b step mx) false rows = Ok ps -> compute (PsarUp b step mx) false rows = Ok up ->
  compute (PsarDown b step mx) false rows = Ok dn ->
  forall i, (i < length rows)%nat ->
    ((i < 2)%nat -> nth i up fnan = fnan /\ nth i dn fnan = fnan /\ nth i ps fnan = nth i (map b_close rows) fnan) /\
    ((2 <= i)%nat -> (nth i up fnan = nth i ps fnan /\ nth i dn fnan = fnan) \/ (nth i dn fnan = nth i ps fnan /\ nth i up fnan = fnan)).
Proof. exact @psar_one_side. Qed.
Print Assumptions C37_psar_one_side_per_row.
Example C37_applies : default_index sample /\ exists ps up dn,
  compute (Psar true step02 step2) false sample = Ok ps /\ compute (PsarUp true step02 step2) false sample = Ok up /\
  compute (PsarDown true step02 step2) false sample = Ok dn /\
  PrimFloat.is_nan (nth 4 up nan) = false /\ PrimFloat.is_nan (nth 8 dn nan) = false.
Proof. split; [reflexivity|]. do 3 eexists. do 3 (split; [vm_compute; reflexivity|]). split; vm_compute; reflexivity. Qed.

(** C68. PSAR is Wilder's recursion; the rows 2.. of psar_up / psar_down show
    the stop while the trend is up / down. *)
Theorem C68_psar_recursion : forall b step mx n h l c v, (1 <= n)%nat ->
  let trace := sar_at step mx h l c in
  compute (Psar b (Fin step) (Fin mx)) false (frame n h l c v) = Ok (tab n (fun i => Fin (sar_val (trace i)))) /\
  compute (PsarUp b (Fin step) (Fin mx)) false (frame n h l c v) =
    Ok (tab n (fun i => if (i <? 2)%nat then NaN else if sar_up (trace i) then Fin (sar_val (trace i)) else NaN)) /\
  compute (PsarDown b (Fin step) (Fin mx)) false (frame n h l c v) =
    Ok (tab n (fun i => if (i <? 2)%nat then NaN else if sar_up (trace i) then NaN else Fin (sar_val (trace i)))).
Proof. exact psar_formula. Qed.
Print Assumptions C68_psar_recursion.
(** C38. *)
Theorem C38_psar_stop_side : forall b step mx n h l c v up dn,
  compute (PsarUp b (Fin step) (Fin mx)) false (frame n h l c v) = Ok up ->
  compute (PsarDown b (Fin step) (Fin mx)) false (frame n h l c v) = Ok dn ->
  forall i p, (2 <= i < n)%nat ->
    ((i = 2%nat \/ nth (i - 1) up NaN <> NaN) -> nth i up NaN = Fin p -> p <= l i /\ p <= l (i - 2)%nat) /\
    (nth (i - 1) dn NaN <> NaN -> nth i dn NaN = Fin p -> h i <= p /\ h (i - 2)%nat <= p).
Proof. exact psar_right_side. Qed.
Print Assumptions C38_psar_stop_side.
(** the trend reverses when the bar crosses the stop: an example for both cases *)
Example C38_applies : exists up dn,
  compute (PsarUp true step02 step2) false sample = Ok up /\ compute (PsarDown true step02 step2) false sample = Ok dn /\
  PrimFloat.is_nan (nth 3 up nan) = false /\ PrimFloat.is_nan (nth 4 up nan) = false /\
  PrimFloat.is_nan (nth 7 dn nan) = false /\ PrimFloat.is_nan (nth 8 dn nan) = false.
Proof. do 2 eexists. do 2 (split; [vm_compute; reflexivity|]). repeat split; vm_compute; reflexivity. Qed.
(** the same in exact arithmetic *)
Example C38_applies_exact : let h := fun i => INR i + 2 in let l := INR in let c := fun i => INR i + 1 in
  sar_up (sar_at (1/50) (1/5) h l c 2) = true /\ sar_val (sar_at (1/50) (1/5) h l c 2) = 0.
Proof.
  cbv zeta. cbn [sar_at]. unfold sar_next, sar_move. cbn [sar_up sar_val sar_af sar_high sar_low INR Nat.sub].
  destruct (Rlt_dec _ _); [lra|]. cbn [sar_up sar_val]. destruct (Rlt_dec _ _); [|lra]. auto.
Qed.

(** C39. The stop may lie inside the bar on reversal rows, and above the low of
    the row before on continuing rows: two bars with low <= close <= high. *)
Definition reversal_bars : list (bar float) := bars_from 0 [(10, 8, 9, 1); (10, 8, 9, 1); (9, 5, 6, 1); (12, 4, 11, 1)]%float.
Definition clamp_bars : list (bar float) :=
  bars_from 0 [(20, 8, 9, 1); (20, 8, 8, 1); (20, 9, 10, 1); (100, 0x1.0999999999999p+3, 50, 1); (100, 12, 50, 1)]%float.
Definition sane_bars (rows : list (bar float)) : Prop :=
  Forall (fun b => (b_low b <=? b_close b)%float = true /\ (b_close b <=? b_high b)%float = true) rows.
Theorem C39_psar_stop_side_refuted :
  ~ (forall rows up i, sane_bars rows -> compute (PsarUp true step02 step2) false rows = Ok up -> (i < length rows)%nat ->
       (nth i (map b_low rows) nan <? nth i up nan)%float = false) /\
  ~ (forall rows up i, sane_bars rows -> compute (PsarUp true step02 step2) false rows = Ok up -> (1 <= i < length rows)%nat ->
       (nth i up nan =? nth i up nan)%float = true -> (nth (i - 1) up nan =? nth (i - 1) up nan)%float = true ->
       (nth (i - 1) (map b_low rows) nan <? nth i up nan)%float = false).
Proof.
  split; intros H.
  - specialize (H reversal_bars _ 3%nat ltac:(repeat constructor) eq_refl ltac:(cbn; lia)). vm_compute in H. discriminate.
  - specialize (H clamp_bars _ 4%nat ltac:(repeat constructor) eq_refl ltac:(cbn; lia) ltac:(vm_compute; reflexivity) ltac:(vm_compute; reflexivity)).
    vm_compute in H. discriminate.
Qed.
Print Assumptions C39_psar_stop_side_refuted.

(** C40. *)
Theorem C40_psar_inside_prices : forall b step mx n h l c v out, 0 <= step <= mx -> mx <= 1 -> sane n h l c ->
  compute (Psar b (Fin step) (Fin mx)) false (frame n h l c v) = Ok out ->
  forall i lo hi, (i < n)%nat -> (forall j, (j <= i)%nat -> lo <= l j /\ h j <= hi) ->
  exists p, nth i out NaN = Fin p /\ lo <= p <= hi.
Proof. exact psar_inside. Qed.
Print Assumptions C40_psar_inside_prices.
Example C40_applies : 0 <= 1/50 <= 1/5 /\ 1/5 <= 1 /\ sane 9 (fun i => INR i + 2) INR (fun i => INR i + 1) /\
  exists out, compute (Psar true (Fin (1/50)) (Fin (1/5))) false (frame 9 (fun i => INR i + 2) INR (fun i => INR i + 1) INR) = Ok out.
Proof. split; [lra|]. split; [lra|]. split; [intros i _; lra|]. eexists. apply psar_formula. lia. Qed.
(** steps above 1 overshoot: the bound on the steps is needed *)
Example C40_needs_bound : sar_val (sar_at 2 2 (fun i => nth i [9; 9; 30] 0) (fun i => nth i [7; 7; 20] 0) (fun i => nth i [8; 8; 25] 0) 2) = 7 /\
  sar_move (sar_at 2 2 (fun i => nth i [9; 9] 0) (fun i => nth i [7; 7] 0) (fun i => nth i [8; 8] 0) 1) = 10.
Proof.
  cbn [sar_at]. unfold sar_next, sar_move. cbn [sar_up sar_val sar_af sar_high sar_low nth Nat.sub]. split; [|lra].
  destruct (Rlt_dec 20 _); [lra|]. cbn [sar_val]. destruct (Rlt_dec 7 _); lra.
Qed.

(** C41. Exact arithmetic, arbitrary rows. *)
Theorem C41_psar_reversal_indicators : forall b step mx rows up dn ui di, b = false \/ default_index rows ->
  compute (PsarUp b step mx) false rows = Ok up -> compute (PsarDown b step mx) false rows = Ok dn ->
  forall fillna, compute (PsarUpInd b step mx) fillna rows = Ok ui -> compute (PsarDownInd b step mx) fillna rows = Ok di ->
  forall i, (i < length rows)%nat ->
    nth i di NaN = (if starts dn i then Fin 1 else Fin 0) /\
    (nth i up NaN <> Fin 0 -> nth i ui NaN = if starts up i then Fin 1 else Fin 0) /\
    (nth i up NaN = Fin 0 -> nth i ui NaN = Fin 0) /\
    ~ (nth i ui NaN = Fin 1 /\ nth i di NaN = Fin 1).
Proof. exact psar_reversals. Qed.
Print Assumptions C41_psar_reversal_indicators.
Example C41_applies : default_index (frame 3 (fun i => INR i + 2) INR (fun i => INR i + 1) INR) /\
  starts [NaN; NaN; Fin 5; Fin 6] 2 = true /\ starts [NaN; NaN; Fin 5; Fin 6] 3 = false /\
  exists out, compute (PsarUpInd true step02 step2) false sample = Ok out /\ (nth 3 out nan =? 1)%float = true.
Proof. split; [apply frame_default|]. split; [reflexivity|]. split; [reflexivity|]. eexists. split; vm_compute; reflexivity. Qed.

(** C42. A trend starting at price 0 is not reported by psar_up_indicator
    (see C41 for the exact condition). *)
Definition zero_bars : list (bar float) := bars_from 0 [(10, 8, 9, 1); (10, 8, 9, 1); (9, 0, 5, 1); (12, 1, 11, 1)]%float.
Theorem C42_up_indicator_reports_start_refuted :
  ~ (forall rows up ind i, sane_bars rows -> compute (PsarUp true step02 step2) false rows = Ok up ->
       compute (PsarUpInd true step02 step2) false rows = Ok ind -> (1 <= i < length rows)%nat ->
       fisnan (nth i up nan) = false -> fisnan (nth (i - 1) up nan) = true -> (nth i ind nan =? 1)%float = true).
Proof.
  intros H. specialize (H zero_bars _ _ 3%nat ltac:(repeat constructor) eq_refl eq_refl ltac:(cbn; lia)
    ltac:(vm_compute; reflexivity) ltac:(vm_compute; reflexivity)). vm_compute in H. discriminate.
Qed.
Print Assumptions C42_up_indicator_reports_start_refuted.

(** C43. *)
Theorem C43_ichimoku_lines : forall fillna w1 w2 w3 vis n h l c v, (1 <= w1)%nat -> (1 <= w2)%nat -> (1 <= w3)%nat ->
  let spana := fun i => (midrange w1 h l i + midrange w2 h l i) / 2 in let spanb := midrange w3 h l in
  compute (IchiConv (Z.of_nat w1) (Z.of_nat w2) (Z.of_nat w3) vis) fillna (frame n h l c v) = Ok (tab n (from (warm fillna w1) (midrange w1 h l))) /\
  compute (IchiBase (Z.of_nat w1) (Z.of_nat w2) (Z.of_nat w3) vis) fillna (frame n h l c v) = Ok (tab n (from (warm fillna w2) (midrange w2 h l))) /\
  compute (IchiA (Z.of_nat w1) (Z.of_nat w2) (Z.of_nat w3) false) fillna (frame n h l c v) = Ok (tab n (from (warm fillna (Nat.max w1 w2)) spana)) /\
  compute (IchiB (Z.of_nat w1) (Z.of_nat w2) (Z.of_nat w3) false) fillna (frame n h l c v) = Ok (tab n (from 0 spanb)).
Proof. exact ichi_formula. Qed.
Print Assumptions C43_ichimoku_lines.
Theorem C43_ichimoku_visual : forall fillna w1 w2 w3 n h l c v, (1 <= w1)%nat -> (1 <= w2)%nat -> (1 <= w3)%nat ->
  let spana := fun i => (midrange w1 h l i + midrange w2 h l i) / 2 in let spanb := midrange w3 h l in
  let k := warm fillna (Nat.max w1 w2) in
  shows_back fillna (tab n (fun i => if (i <? w2)%nat then (if (k <? n)%nat then Fin (mean_of k n spana) else NaN) else from k spana (i - w2)%nat))
    (compute (IchiA (Z.of_nat w1) (Z.of_nat w2) (Z.of_nat w3) true) fillna (frame n h l c v)) /\
  compute (IchiB (Z.of_nat w1) (Z.of_nat w2) (Z.of_nat w3) true) fillna (frame n h l c v) =
    Ok (tab n (from 0 (back w2 (mean_of 0 n spanb) spanb))).
Proof. exact ichi_visual. Qed.
Print Assumptions C43_ichimoku_visual.
Theorem C43_midrange_in_range : forall w h l i, (1 <= w)%nat -> l i <= h i -> wmin w l i <= midrange w h l i <= wmax w h i.
Proof. exact midrange_range. Qed.
Print Assumptions C43_midrange_in_range.
Example C43_value : midrange 2 (fun i => nth i [4; 6; 5] 0) (fun i => nth i [1; 3; 2] 0) 2 = 4.
Proof. unfold midrange, wmax, wmin. cbn. rewrite Rmax_left, Rmin_right by lra. lra. Qed.

(** C44. *)
Theorem C44_dpo_formula : forall fillna w n h l c v, (1 <= w)%nat ->
  compute (Dpo (Z.of_nat w)) fillna (frame n h l c v) =
  Ok (tab n (from (warm fillna w) (fun i => back (S (w / 2)) (mean_of 0 n c) c i - wmean w c i))).
Proof. exact dpo_formula. Qed.
Print Assumptions C44_dpo_formula.
Theorem C44_kst_formula : forall fillna r1 r2 r3 r4 w1 w2 w3 w4 s n h l c v,
  (1 <= w1)%nat -> (1 <= w2)%nat -> (1 <= w3)%nat -> (1 <= w4)%nat -> (1 <= s)%nat -> (forall i, (i < n)%nat -> 0 < c i) ->
  let k := warm fillna (Nat.max (Nat.max w1 w2) (Nat.max w3 w4)) in
  let line i := 100 * (roc_mean r1 w1 n c i + 2 * roc_mean r2 w2 n c i + 3 * roc_mean r3 w3 n c i + 4 * roc_mean r4 w4 n c i) in
  compute (Kst (Z.of_nat r1) (Z.of_nat r2) (Z.of_nat r3) (Z.of_nat r4) (Z.of_nat w1) (Z.of_nat w2) (Z.of_nat w3) (Z.of_nat w4) (Z.of_nat s)) fillna (frame n h l c v) = Ok (tab n (from k line)) /\
  compute (KstSig (Z.of_nat r1) (Z.of_nat r2) (Z.of_nat r3) (Z.of_nat r4) (Z.of_nat w1) (Z.of_nat w2) (Z.of_nat w3) (Z.of_nat w4) (Z.of_nat s)) fillna (frame n h l c v) = Ok (tab n (from k (wmean_from k s line))) /\
  compute (KstDiff (Z.of_nat r1) (Z.of_nat r2) (Z.of_nat r3) (Z.of_nat r4) (Z.of_nat w1) (Z.of_nat w2) (Z.of_nat w3) (Z.of_nat w4) (Z.of_nat s)) fillna (frame n h l c v) = Ok (tab n (from k (fun i => line i - wmean_from k s line i))).
Proof. exact kst_formula. Qed.
Print Assumptions C44_kst_formula.
Theorem C44_trix_formula : forall fillna w n h l c v, (1 <= w)%nat -> (forall i, (i < n)%nat -> 0 < c i) ->
  let k := warm fillna w in
  compute (Trix (Z.of_nat w)) fillna (frame n h l c v) =
  Ok (tab n (gaps fillna 0 (if (k =? 0)%nat then 0 else k + k + k + 1) (trix_value w k n c))).
Proof. exact trix_formula. Qed.
Print Assumptions C44_trix_formula.
Theorem C44_mass_index_formula : forall fillna wf ws n h l c v, (1 <= wf)%nat -> (1 <= ws)%nat -> (forall i, (i < n)%nat -> l i < h i) ->
  let k := warm fillna wf in
  compute (Mass (Z.of_nat wf) (Z.of_nat ws)) fillna (frame n h l c v) =
  Ok (tab n (from (k + k + warm fillna ws) (wsum ws (mass_ratio wf k h l)))).
Proof. exact mass_formula. Qed.
Print Assumptions C44_mass_index_formula.
Theorem C44_stc_formula : forall fillna ws wf cy s1 s2 n h l c v,
  (1 <= ws)%nat -> (1 <= wf)%nat -> (1 <= cy)%nat -> (1 <= s1)%nat -> (1 <= s2)%nat ->
  let k := warm fillna (Nat.max wf ws) in let m := fun i => ema wf c 0 i - ema ws c 0 i in
  let k1 := (k + cy - 1)%nat in let d := ema s1 (range_pos cy m) k1 in
  let k2 := (k1 + warm fillna s1 + cy - 1)%nat in
  (forall i, (k1 <= i < n)%nat -> wmin cy m i <> wmax cy m i) ->
  (forall i, (k2 <= i < n)%nat -> wmin cy d i <> wmax cy d i) ->
  compute (Stc (Z.of_nat ws) (Z.of_nat wf) (Z.of_nat cy) (Z.of_nat s1) (Z.of_nat s2)) fillna (frame n h l c v) =
  Ok (tab n (gaps fillna 0 (k2 + warm fillna s2) (ema s2 (range_pos cy d) k2))).
Proof. exact stc_formula. Qed.
Print Assumptions C44_stc_formula.
Theorem C44_dpo_constant_close : forall fillna w n h l c v p, (1 <= w)%nat -> (forall i, (i < n)%nat -> c i = p) ->
  compute (Dpo (Z.of_nat w)) fillna (frame n h l c v) = Ok (tab n (from (warm fillna w) (fun _ => 0))).
Proof. exact dpo_const. Qed.
Print Assumptions C44_dpo_constant_close.
Theorem C44_kst_constant_close : forall fillna r1 r2 r3 r4 w1 w2 w3 w4 s n h l c v p,
  (1 <= w1)%nat -> (1 <= w2)%nat -> (1 <= w3)%nat -> (1 <= w4)%nat -> (1 <= s)%nat -> 0 < p ->
  (forall i, (i < n)%nat -> c i = p) ->
  let k := warm fillna (Nat.max (Nat.max w1 w2) (Nat.max w3 w4)) in
  compute (Kst (Z.of_nat r1) (Z.of_nat r2) (Z.of_nat r3) (Z.of_nat r4) (Z.of_nat w1) (Z.of_nat w2) (Z.of_nat w3) (Z.of_nat w4) (Z.of_nat s)) fillna (frame n h l c v) =
    Ok (tab n (from k (fun _ => 0))) /\
  compute (KstSig (Z.of_nat r1) (Z.of_nat r2) (Z.of_nat r3) (Z.of_nat r4) (Z.of_nat w1) (Z.of_nat w2) (Z.of_nat w3) (Z.of_nat w4) (Z.of_nat s)) fillna (frame n h l c v) =
    Ok (tab n (from k (fun _ => 0))).
Proof. exact kst_const. Qed.
Print Assumptions C44_kst_constant_close.
Theorem C44_trix_constant_close : forall fillna w n h l c v p, (1 <= w)%nat -> 0 < p -> (forall i, (i < n)%nat -> c i = p) ->
  let k := warm fillna w in
  compute (Trix (Z.of_nat w)) fillna (frame n h l c v) =
  Ok (tab n (gaps fillna 0 (if (k =? 0)%nat then 0 else k + k + k + 1) (fun _ => 0))).
Proof. exact trix_const. Qed.
Print Assumptions C44_trix_constant_close.
Theorem C44_mass_index_constant_range : forall fillna wf ws n h l c v d, (1 <= wf)%nat -> (1 <= ws)%nat -> 0 < d -> (forall i, (i < n)%nat -> h i - l i = d) ->
  let k := warm fillna wf in
  compute (Mass (Z.of_nat wf) (Z.of_nat ws)) fillna (frame n h l c v) =
  Ok (tab n (from (k + k + warm fillna ws) (fun i => INR (wlen ws i)))).
Proof. exact mass_const. Qed.
Print Assumptions C44_mass_index_constant_range.
Theorem C44_stc_in_0_100 : forall ws wf cy s1 s2 fillna rows out,
  compute (Stc ws wf cy s1 s2) fillna rows = Ok out -> Forall (within 0 100) out.
Proof. exact stc_range. Qed.
Print Assumptions C44_stc_in_0_100.
Example C44_applies : (forall i, (i < 9)%nat -> 0 < (fun i => INR i + 1) i) /\ (forall i, (i < 9)%nat -> INR i < (fun i => INR i + 2) i) /\
  (forall i, (i < 9)%nat -> (fun _ => 5) i = 5) /\ (forall i, (i < 9)%nat -> (fun i => INR i + 2) i - INR i = 2).
Proof. split; [intros; pose proof (pos_INR i); lra|]. repeat split; intros; lra. Qed.
(** the hypotheses of the STC formula: a close that keeps moving the MACD line *)
Example C44_stc_applies : let c := fun i => nth i [1; 2; 4] 0 in let m := fun i => ema 1 c 0 i - ema 2 c 0 i in
  (forall i, (1 <= i < 3)%nat -> wmin 2 m i <> wmax 2 m i).
Proof.
  cbv zeta. intros i Hi. assert (E0 : ema 1 (fun i => nth i [1; 2; 4] 0) 0 0 - ema 2 (fun i => nth i [1; 2; 4] 0) 0 0 = 0) by (unfold ema; cbn; lra).
  assert (E1 : ema 1 (fun i => nth i [1; 2; 4] 0) 0 1 - ema 2 (fun i => nth i [1; 2; 4] 0) 0 1 = 1 / 3) by (unfold ema; cbn; lra).
  assert (E2 : ema 1 (fun i => nth i [1; 2; 4] 0) 0 2 - ema 2 (fun i => nth i [1; 2; 4] 0) 0 2 = 7 / 9) by (unfold ema; cbn; lra).
  destruct i as [|[|[|i]]]; try lia; unfold wmin, wmax, wlo, wlen; cbn [Nat.sub Nat.min rmin rmax Nat.add]; rewrite ?E0, ?E1, ?E2.
  - rewrite Rmin_left, Rmax_right by lra. lra.
  - rewrite Rmin_left, Rmax_right by lra. lra.
Qed.

(** C59. Labels matter to PSAR on an integer index only, and not for the labels
    0..n-1 (C59_psar_default_labels); with other integer labels, such as those
    left by dropna, psar differs and may even have more rows than the frame. *)
Theorem C59_labels_irrelevant : forall F (A : Arith F) (ind : indicator F) fillna rows rows',
  label_dependent ind = false -> same_values rows rows' -> compute ind fillna rows = compute ind fillna rows'.
Proof. exact @labels_irrelevant. Qed.
Print Assumptions C59_labels_irrelevant.
Definition falling_bars : list (float * float * float * float) :=
  [(10, 8, 9, 1); (10, 8, 9, 1); (9, 5, 5, 1); (8, 4, 4, 1); (6, 3, 4, 1); (5, 2, 4, 1)]%float.
Definition with_labels (labels : list Z) : list (bar float) :=
  map2 (fun z b => mkbar z (b_high b) (b_low b) (b_close b) (b_volume b)) labels (bars_from 0 falling_bars).
Theorem C59_psar_labels_refuted :
  ~ (forall rows rows' : list (bar float), same_values rows rows' ->
       compute (Psar true step02 step2) false rows = compute (Psar true step02 step2) false rows') /\
  ~ (forall rows rows' : list (bar float), same_values rows rows' ->
       compute (PsarDown true step02 step2) false rows = compute (PsarDown true step02 step2) false rows') /\
  ~ (forall (rows : list (bar float)) out, compute (Psar true step02 step2) false rows = Ok out -> length out = length rows).
Proof.
  assert (V : same_values (with_labels [0; 1; 2; 3; 4; 5]%Z) (with_labels [0; 1; 2; 4; 5; 6]%Z)) by (repeat constructor).
  refine (conj _ (conj _ _)).
  - intros H. specialize (H _ _ V). apply (f_equal (fun r => match r with Ok o => (nth 3 o nan =? 10)%float | Raise _ => false end)) in H.
    vm_compute in H. discriminate.
  - intros H. specialize (H _ _ V). apply (f_equal (fun r => match r with Ok o => (nth 3 o nan =? 10)%float | Raise _ => false end)) in H.
    vm_compute in H. discriminate.
  - intros H. specialize (H (with_labels [10; 11; 12; 14; 15; 16]%Z) _ eq_refl). vm_compute in H. discriminate.
Qed.
Print Assumptions C59_psar_labels_refuted.
