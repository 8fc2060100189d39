(** * P_Volatility: properties C45-C50, C52.

    Exact arithmetic (extended reals), frames of n rows of finite numbers,
    windows w >= 1.  Vocabulary: SpecNum.v. *)
From Verif Require Import Api SpecNum SpecWrapped Tab Averages Bands Channels Wrapped.
Local Open Scope R_scope.

(** C45. *)
Theorem C45_atr_formula : forall fillna w n h l c v, (1 <= w)%nat -> (w <= n)%nat ->
  compute (Atr (Z.of_nat w)) fillna (frame n h l c v) = Ok (tab n (from 0 (atr_value w (trange h l c)))).
Proof. exact atr_formula. Qed.
Print Assumptions C45_atr_formula.
Theorem C45_atr_needs_window_rows : forall fillna w n h l c v, (1 <= w)%nat -> (n < w)%nat ->
  compute (Atr (Z.of_nat w)) fillna (frame n h l c v) = Raise IndexError.
Proof. exact atr_short. Qed.
Print Assumptions C45_atr_needs_window_rows.
Theorem C45_atr_bounds : forall w h l c i, (1 <= w)%nat -> (forall j, (j <= i)%nat -> l j <= h j) ->
  0 <= atr_value w (trange h l c) i <= rmax (trange h l c) 0 i.
Proof. exact atr_bounds. Qed.
Print Assumptions C45_atr_bounds.
(** ranges 2, 4, 9 with window 2: 0, 3, (3*1+9)/2 = 6 *)
Example C45_value : let tr := fun i => nth i [2; 4; 9] 0 in
  atr_value 2 tr 0 = 0 /\ atr_value 2 tr 1 = 3 /\ atr_value 2 tr 2 = 6.
Proof. cbn. repeat split; lra. Qed.
(** a gap up: high 12, low 11 after a close of 5 has true range 7 *)
Example C45_gap : trange (fun i => nth i [6; 12] 0) (fun i => nth i [4; 11] 0) (fun i => nth i [5; 12] 0) 1 = 7.
Proof.
  cbn. rewrite !Rabs_pos_eq by lra. rewrite (Rmax_left (12 - 5)) by lra. rewrite Rmax_right by lra. lra.
Qed.

(** Windows below 1. *)
Theorem C45_atr_window_zero : forall fillna n h l c v, (1 <= n)%nat ->
  compute (Atr 0) fillna (frame n h l c v) = Ok (tab n (fun _ => if fillna then Fin 0 else NaN)).
Proof. exact atr_zero_formula. Qed.
Print Assumptions C45_atr_window_zero.
Theorem C45_atr_negative_window : forall fillna k n h l c v, (1 <= k)%nat -> (k < n)%nat ->
  compute (Atr (- Z.of_nat k)) fillna (frame n h l c v) = Ok (tab n (from 0 (wrapped_value k n (trange h l c)))).
Proof. exact atr_wrapped_formula. Qed.
Print Assumptions C45_atr_negative_window.
Theorem C45_atr_negative_window_needs_rows : forall fillna k n h l c v, (n <= k)%nat ->
  compute (Atr (- Z.of_nat k)) fillna (frame n h l c v) = Raise IndexError.
Proof. exact atr_wrapped_short. Qed.
Print Assumptions C45_atr_negative_window_needs_rows.
(** window -1, ranges 2, 5: the first row is 3*2 - 2*5 = -4, a negative
    "range" that depends on a later row *)
Example C45_wrapped : let tr := fun i => nth i [2; 5] 0 in
  wrapped_value 1 2 tr 0 = -4 /\ wrapped_value 1 2 tr 1 = -13.
Proof. cbn. unfold mean_of. cbn. split; lra. Qed.

(** C46. *)
Theorem C46_bollinger_bands : forall fillna w d n h l c v, (1 <= w)%nat ->
  compute (BbM (Z.of_nat w) (Fin d)) fillna (frame n h l c v) = Ok (tab n (from (warm fillna w) (wmean w c))) /\
  compute (BbH (Z.of_nat w) (Fin d)) fillna (frame n h l c v) = Ok (tab n (from (warm fillna w) (fun i => wmean w c i + d * wstd w c i))) /\
  compute (BbL (Z.of_nat w) (Fin d)) fillna (frame n h l c v) = Ok (tab n (from (warm fillna w) (fun i => wmean w c i - d * wstd w c i))).
Proof. exact bb_formula. Qed.
Print Assumptions C46_bollinger_bands.
Theorem C46_bollinger_ordered : forall fillna w d n h l c v ml hl ll, (1 <= w)%nat -> 0 <= d ->
  compute (BbM (Z.of_nat w) (Fin d)) fillna (frame n h l c v) = Ok ml ->
  compute (BbH (Z.of_nat w) (Fin d)) fillna (frame n h l c v) = Ok hl ->
  compute (BbL (Z.of_nat w) (Fin d)) fillna (frame n h l c v) = Ok ll -> rows_le ll ml /\ rows_le ml hl.
Proof. exact bb_ordered. Qed.
Print Assumptions C46_bollinger_ordered.
Theorem C46_bollinger_width : forall fillna w d n h l c v, (1 <= w)%nat ->
  shows fillna 0 (tab n (fromx (warm fillna w) (fun i => ratio (100 * (2 * d * wstd w c i)) (wmean w c i))))
    (compute (BbW (Z.of_nat w) (Fin d)) fillna (frame n h l c v)).
Proof. exact bb_width_formula. Qed.
Print Assumptions C46_bollinger_width.
Theorem C46_bollinger_pband : forall fillna w d n h l c v, (1 <= w)%nat ->
  shows fillna 0 (tab n (fromx (warm fillna w) (fun i => position (wmean w c i - d * wstd w c i) (wmean w c i + d * wstd w c i) (c i))))
    (compute (BbP (Z.of_nat w) (Fin d)) fillna (frame n h l c v)).
Proof. exact bb_pband_formula. Qed.
Print Assumptions C46_bollinger_pband.
(** closes 1 and 3: mean 2, deviation 1, bands 0 and 4 for window_dev 2 *)
Example C46_value : let c := fun i => nth i [1; 3] 0 in
  wmean 2 c 1 = 2 /\ wstd 2 c 1 = 1 /\ position (2 - 2 * 1) (2 + 2 * 1) 3 = Fin (3 / 4).
Proof.
  assert (M : wmean 2 (fun i => nth i [1; 3] 0) 1 = 2) by (unfold wmean, wsum; cbn; lra).
  cbv zeta. split; [exact M|]. split.
  - unfold wstd. rewrite M. replace (wmean 2 (fun j => (nth j [1; 3] 0 - 2) * (nth j [1; 3] 0 - 2)) 1) with 1 by (unfold wmean, wsum; cbn; lra). apply sqrt_1.
  - unfold position. destruct (Req_EM_T _ _); [lra|]. f_equal. lra.
Qed.

(** C47. *)
Theorem C47_bollinger_indicators : forall fillna w d n h l c v, (1 <= w)%nat ->
  compute (BbHI (Z.of_nat w) (Fin d)) fillna (frame n h l c v) =
    Ok (tab n (from 0 (above (warm fillna w) c (fun i => wmean w c i + d * wstd w c i)))) /\
  compute (BbLI (Z.of_nat w) (Fin d)) fillna (frame n h l c v) =
    Ok (tab n (from 0 (below (warm fillna w) c (fun i => wmean w c i - d * wstd w c i)))).
Proof. exact bb_indicators. Qed.
Print Assumptions C47_bollinger_indicators.
Theorem C47_indicators_agree_with_pband : forall w d n h l c v i p po ho lo, (1 <= w)%nat -> 0 <= d -> (i < n)%nat ->
  compute (BbP (Z.of_nat w) (Fin d)) false (frame n h l c v) = Ok po -> nth i po NaN = Fin p ->
  compute (BbHI (Z.of_nat w) (Fin d)) false (frame n h l c v) = Ok ho ->
  compute (BbLI (Z.of_nat w) (Fin d)) false (frame n h l c v) = Ok lo ->
  (nth i ho NaN = Fin 1 <-> 1 < p) /\ (nth i lo NaN = Fin 1 <-> p < 0).
Proof. exact bb_indicators_pband. Qed.
Print Assumptions C47_indicators_agree_with_pband.
(** a close above the band exists: three closes 0, 0, 9 with window_dev 1 *)
Example C47_fires : let c := fun i => nth i [0; 0; 9] 0 in
  above (warm false 3) c (fun i => wmean 3 c i + 1 * wstd 3 c i) 2 = 1 /\
  exists p po, compute (BbP (Z.of_nat 3) (Fin 1)) false (frame 3 c c c c) = Ok po /\ nth 2 po NaN = Fin p.
Proof.
  assert (M : wmean 3 (fun i => nth i [0; 0; 9] 0) 2 = 3) by (unfold wmean, wsum; cbn; lra).
  assert (D : wstd 3 (fun i => nth i [0; 0; 9] 0) 2 = sqrt 18).
  { unfold wstd. rewrite M. f_equal. unfold wmean, wsum. cbn. lra. }
  assert (S0 : 0 < sqrt 18) by (apply sqrt_lt_R0; lra).
  assert (S1 : sqrt 18 < 6) by (replace 6 with (sqrt 36) by (replace 36 with (6 * 6) by lra; apply sqrt_square; lra); apply sqrt_lt_1; lra).
  assert (C2 : (fun i => nth i [0; 0; 9] 0) 2%nat = 9) by reflexivity.
  cbv zeta. generalize dependent (fun i => nth i [0; 0; 9] 0). intros c M D C2. split.
  - unfold above. change (2 <? warm false 3)%nat with false. cbv iota. rewrite M, D, C2. destruct (Rlt_dec _ _) as [|N]; [reflexivity|]. lra.
  - destruct (bb_pband_formula false 3 1 3 c c c c ltac:(lia)) as (po & E & R). rewrite R in E. clear R.
    exists ((c 2%nat - (3 - 1 * sqrt 18)) / (3 + 1 * sqrt 18 - (3 - 1 * sqrt 18))). eexists.
    split; [exact E|]. rewrite nth_tab by lia. unfold fromx. 
    destruct (Nat.ltb_spec 2 (warm false 3)); [cbn in *; lia|]. unfold position. rewrite M, D.
    destruct (Req_EM_T _ _); [lra|]. reflexivity.
Qed.

(** C48. *)
Theorem C48_wide_bands_never_fire : forall fillna w d n h l c v, (1 <= w)%nat -> 0 <= d -> INR w - 1 <= d * d ->
  compute (BbHI (Z.of_nat w) (Fin d)) fillna (frame n h l c v) = Ok (tab n (fun _ => Fin 0)) /\
  compute (BbLI (Z.of_nat w) (Fin d)) fillna (frame n h l c v) = Ok (tab n (fun _ => Fin 0)).
Proof. exact bb_never_fires. Qed.
Print Assumptions C48_wide_bands_never_fire.
(** window 5 and the default window_dev 2 meet the hypothesis; window 20 does not *)
Example C48_applies : INR 5 - 1 <= 2 * 2 /\ ~ INR 20 - 1 <= 2 * 2.
Proof. cbn. lra. Qed.

(** C49. *)
Theorem C49_keltner_original : forall fillna w a m n h l c v, (1 <= w)%nat ->
  let mid := wmean w (typical h l c) in let rng := wmean w (fun i => h i - l i) in
  compute (KcM (Z.of_nat w) a true m) fillna (frame n h l c v) = Ok (tab n (from (warm fillna w) mid)) /\
  compute (KcH (Z.of_nat w) a true m) fillna (frame n h l c v) = Ok (tab n (from 0 (fun i => mid i + rng i))) /\
  compute (KcL (Z.of_nat w) a true m) fillna (frame n h l c v) = Ok (tab n (from 0 (fun i => mid i - rng i))) /\
  compute (KcHI (Z.of_nat w) a true m) fillna (frame n h l c v) = Ok (tab n (from 0 (above 0 c (fun i => mid i + rng i)))) /\
  compute (KcLI (Z.of_nat w) a true m) fillna (frame n h l c v) = Ok (tab n (from 0 (below 0 c (fun i => mid i - rng i)))).
Proof. exact kc_bands_original. Qed.
Print Assumptions C49_keltner_original.
Theorem C49_keltner_ema : forall fillna w a m n h l c v, (1 <= w)%nat -> (1 <= a <= n)%nat ->
  let mid := ema w c 0 in let atr := atr_value a (trange h l c) in
  compute (KcM (Z.of_nat w) (Z.of_nat a) false (Fin m)) fillna (frame n h l c v) = Ok (tab n (from (warm fillna w) mid)) /\
  compute (KcH (Z.of_nat w) (Z.of_nat a) false (Fin m)) fillna (frame n h l c v) = Ok (tab n (from (warm fillna w) (fun i => mid i + m * atr i))) /\
  compute (KcL (Z.of_nat w) (Z.of_nat a) false (Fin m)) fillna (frame n h l c v) = Ok (tab n (from (warm fillna w) (fun i => mid i - m * atr i))) /\
  compute (KcHI (Z.of_nat w) (Z.of_nat a) false (Fin m)) fillna (frame n h l c v) =
    Ok (tab n (from 0 (above (warm fillna w) c (fun i => mid i + m * atr i)))) /\
  compute (KcLI (Z.of_nat w) (Z.of_nat a) false (Fin m)) fillna (frame n h l c v) =
    Ok (tab n (from 0 (below (warm fillna w) c (fun i => mid i - m * atr i)))).
Proof. exact kc_bands_ema. Qed.
Print Assumptions C49_keltner_ema.
Theorem C49_keltner_ordered : forall fillna w a orig m n h l c v ml hl ll, (1 <= w)%nat -> (1 <= a <= n)%nat -> 0 <= m ->
  (forall i, (i < n)%nat -> l i <= h i) ->
  compute (KcM (Z.of_nat w) (Z.of_nat a) orig (Fin m)) fillna (frame n h l c v) = Ok ml ->
  compute (KcH (Z.of_nat w) (Z.of_nat a) orig (Fin m)) fillna (frame n h l c v) = Ok hl ->
  compute (KcL (Z.of_nat w) (Z.of_nat a) orig (Fin m)) fillna (frame n h l c v) = Ok ll -> rows_le ll ml /\ rows_le ml hl.
Proof. exact kc_ordered. Qed.
Print Assumptions C49_keltner_ordered.
Theorem C49_keltner_original_width : forall fillna w a m n h l c v, (1 <= w)%nat ->
  let mid := wmean w (typical h l c) in let rng := wmean w (fun i => h i - l i) in
  shows fillna 0 (tab n (fromx (warm fillna w) (fun i => ratio (100 * (2 * rng i)) (mid i))))
    (compute (KcW (Z.of_nat w) a true m) fillna (frame n h l c v)) /\
  shows fillna 0 (tab n (fromx 0 (fun i => ratio (c i - (mid i - rng i)) (2 * rng i))))
    (compute (KcP (Z.of_nat w) a true m) fillna (frame n h l c v)).
Proof. exact kc_width. Qed.
Print Assumptions C49_keltner_original_width.
Theorem C49_keltner_ema_width : forall fillna w a m n h l c v, (1 <= w)%nat -> (1 <= a <= n)%nat ->
  let mid := ema w c 0 in let atr := atr_value a (trange h l c) in
  shows fillna 0 (tab n (fromx (warm fillna w) (fun i => ratio (100 * (2 * m * atr i)) (mid i))))
    (compute (KcW (Z.of_nat w) (Z.of_nat a) false (Fin m)) fillna (frame n h l c v)) /\
  shows fillna 0 (tab n (fromx (warm fillna w) (fun i => ratio (c i - (mid i - m * atr i)) (2 * m * atr i))))
    (compute (KcP (Z.of_nat w) (Z.of_nat a) false (Fin m)) fillna (frame n h l c v)).
Proof. exact kc_width_ema. Qed.
Print Assumptions C49_keltner_ema_width.
Example C49_applies : let h := fun i => INR i + 2 in let l := INR in
  (forall i, (i < 30)%nat -> l i <= h i) /\ (1 <= 10 <= 30)%nat.
Proof. cbv zeta. split; [intros; lra|lia]. Qed.

(** C50. *)
Theorem C50_donchian_bands : forall fillna w n h l c v, (1 <= w)%nat ->
  compute (DcH (Z.of_nat w) 0) fillna (frame n h l c v) = Ok (tab n (from (warm fillna w) (wmax w h))) /\
  compute (DcL (Z.of_nat w) 0) fillna (frame n h l c v) = Ok (tab n (from (warm fillna w) (wmin w l))) /\
  compute (DcM (Z.of_nat w) 0) fillna (frame n h l c v) = Ok (tab n (from (warm fillna w) (fun i => (wmax w h i + wmin w l i) / 2))).
Proof. exact dc_bands. Qed.
Print Assumptions C50_donchian_bands.
Theorem C50_highest_is_attained : forall w f i, (1 <= w)%nat ->
  (exists j, (wlo w i <= j <= i)%nat /\ wmax w f i = f j) /\ (forall j, (wlo w i <= j <= i)%nat -> f j <= wmax w f i).
Proof. exact wmax_is. Qed.
Print Assumptions C50_highest_is_attained.
Theorem C50_lowest_is_attained : forall w f i, (1 <= w)%nat ->
  (exists j, (wlo w i <= j <= i)%nat /\ wmin w f i = f j) /\ (forall j, (wlo w i <= j <= i)%nat -> wmin w f i <= f j).
Proof. exact wmin_is. Qed.
Print Assumptions C50_lowest_is_attained.
Theorem C50_donchian_width_pband : forall fillna w n h l c v, (1 <= w)%nat ->
  shows fillna 0 (tab n (fromx (warm fillna w) (fun i => ratio (100 * (wmax w h i - wmin w l i)) (wmean w c i))))
    (compute (DcW (Z.of_nat w) 0) fillna (frame n h l c v)) /\
  shows fillna 0 (tab n (fromx (warm fillna w) (fun i => ratio (c i - wmin w l i) (wmax w h i - wmin w l i))))
    (compute (DcP (Z.of_nat w) 0) fillna (frame n h l c v)).
Proof. exact dc_width. Qed.
Print Assumptions C50_donchian_width_pband.
Theorem C50_donchian_pband_in_0_1 : forall fillna w n h l c v out, (1 <= w)%nat -> sane n h l c ->
  compute (DcP (Z.of_nat w) 0) fillna (frame n h l c v) = Ok out -> Forall (within 0 1) out.
Proof. exact dc_pband_range. Qed.
Print Assumptions C50_donchian_pband_in_0_1.
Theorem C50_donchian_offset : forall {F} {A : Arith F} w k fillna (rows : list (bar F)), (1 <= k)%nat ->
  delayed k (compute (DcH w 0) fillna rows) (compute (DcH w (Z.of_nat k)) fillna rows) /\
  delayed k (compute (DcL w 0) fillna rows) (compute (DcL w (Z.of_nat k)) fillna rows) /\
  delayed k (compute (DcM w 0) fillna rows) (compute (DcM w (Z.of_nat k)) fillna rows) /\
  delayed k (compute (DcW w 0) fillna rows) (compute (DcW w (Z.of_nat k)) fillna rows) /\
  delayed k (compute (DcP w 0) fillna rows) (compute (DcP w (Z.of_nat k)) fillna rows).
Proof. exact (@dc_delayed). Qed.
Print Assumptions C50_donchian_offset.
Example C50_applies : sane 9 (fun i => INR i + 2) INR (fun i => INR i + 1) /\
  compute (DcH (Z.of_nat 2) 1) false (frame 2 INR INR INR INR) = Ok [NaN; NaN].
Proof.
  split; [intros i _; lra|].
  pose proof (proj1 (dc_delayed (Z.of_nat 2) 1 false (frame 2 INR INR INR INR) (le_n 1))) as D.
  rewrite (proj1 (dc_bands false 2 2 INR INR INR INR ltac:(lia))) in D. destruct D as (out & E & L & V).
  change (Z.of_nat 1) with 1%Z in E. rewrite E. f_equal. cbn in L. destruct out as [|a [|b [|]]]; try discriminate.
  pose proof (V 0%nat ltac:(cbn; lia)) as V0. pose proof (V 1%nat ltac:(cbn; lia)) as V1. cbn in V0, V1. now subst.
Qed.

(** C52. *)
Theorem C52_ulcer_formula : forall fillna w n h l c v, (1 <= w)%nat -> (forall i, (i < n)%nat -> wmax w c i <> 0) ->
  compute (Ulcer (Z.of_nat w)) fillna (frame n h l c v) =
  Ok (tab n (gaps fillna 0 (w - 1) (fun i => sqrt (wmean w (fun j => drawdown w c j * drawdown w c j) i)))).
Proof. exact ulcer_formula. Qed.
Print Assumptions C52_ulcer_formula.
Theorem C52_ulcer_in_0_100 : forall w c i, (1 <= w)%nat -> (forall j, (j <= i)%nat -> 0 < c j) ->
  0 <= sqrt (wmean w (fun j => drawdown w c j * drawdown w c j) i) <= 100.
Proof. exact ulcer_range. Qed.
Print Assumptions C52_ulcer_in_0_100.
Theorem C52_ulcer_0_when_never_falling : forall w c i, (1 <= w)%nat -> (forall j, (1 <= j <= i)%nat -> c (j - 1)%nat <= c j) ->
  sqrt (wmean w (fun j => drawdown w c j * drawdown w c j) i) = 0.
Proof. exact ulcer_rising. Qed.
Print Assumptions C52_ulcer_0_when_never_falling.
(** positive closes meet the hypothesis of the formula *)
Example C52_applies : forall w c i, (1 <= w)%nat -> (forall j, 0 < c j) -> wmax w c i <> 0.
Proof. intros w c i Hw H. destruct (proj1 (wmax_is w c i Hw)) as (j & _ & E). rewrite E. specialize (H j). lra. Qed.
(** a fall from 10 to 5 is a drawdown of 50 % *)
Example C52_value : drawdown 2 (fun i => nth i [10; 5] 0) 1 = -50.
Proof. unfold drawdown. cbn. rewrite Rmax_left by lra. lra. Qed.
