(** * Channels: Keltner, Donchian and Ulcer on finite data (C49, C50, C52). *)
From Verif Require Import Lists Api SpecNum Align Rows Fill Tab Averages Range Oscillators Returns TrueRange Bands.
Local Open Scope R_scope.

(** ** C49 *)
Lemma rsum_lin : forall f g x y a k, rsum (fun j => x * f j + y * g j) a k = x * rsum f a k + y * rsum g a k.
Proof. induction k; cbn [rsum]; [lra|]. rewrite IHk. lra. Qed.
Lemma wmean_lin : forall w f g x y i, (1 <= w)%nat ->
  wmean w (fun j => x * f j + y * g j) i = x * wmean w f i + y * wmean w g i.
Proof.
  intros. unfold wmean, wsum. rewrite rsum_lin. field. apply not_0_INR. pose proof (wlen_pos w i H). lia.
Qed.
Lemma wmean_ext : forall w f g i, (forall j, (j <= i)%nat -> f j = g j) -> wmean w f i = wmean w g i.
Proof. intros. unfold wmean, wsum. f_equal. apply rsum_ext. intros. apply H. unfold wlo, wlen in *. lia. Qed.
Lemma mean_tab1 : forall (fl : bool) w n g, (1 <= w)%nat ->
  rolling (Z.of_nat w) (if fl then 1 else Z.of_nat w)%Z agg_mean (tab n (from 0 g)) = Ok (tab n (from (warm fl w) (wmean w g))).
Proof. intros. destruct fl; [apply (mean_part w 1)|apply mean_full]; lia. Qed.
Lemma ema_tab1 : forall (fl : bool) w n g, (1 <= w)%nat ->
  ewm_span (Z.of_nat w) (if fl then 1 else Z.of_nat w)%Z (tab n (from 0 g)) = Ok (tab n (from (warm fl w) (ema w g 0))).
Proof.
  intros. destruct fl; unfold warm.
  - rewrite (ema_from w 1) by auto. do 3 f_equal.
  - rewrite (ema_from w w) by auto. do 3 f_equal. lia.
Qed.
Lemma divs3 : forall n g, divs (tab n (from 0 g)) (Fin 3) = tab n (from 0 (fun i => g i / 3)).
Proof. intros. apply divs_from. lra. Qed.
Lemma kc_original : forall fl w a m n h l c, (1 <= w)%nat ->
  let mid := wmean w (typical h l c) in let rng := wmean w (fun i => h i - l i) in
  keltner_run (tab n (from 0 h)) (tab n (from 0 l)) (tab n (from 0 c)) (Z.of_nat w) a fl true m =
  Ok {| kc_tp := tab n (from (warm fl w) mid); kc_high := tab n (from 0 (fun i => mid i + rng i));
        kc_low := tab n (from 0 (fun i => mid i - rng i)) |}.
Proof.
  intros fl w a m n h l c Hw mid rng. unfold keltner_run. cbn [fofZ XR].
  rewrite !scal_from, !sadd_from, ssub_from, !sadd_from. cbn [Nat.max]. rewrite !divs3.
  rewrite mean_tab1 by auto. cbn [bind].
  change 0%Z with (Z.of_nat 0). rewrite !(mean_part w 0) by lia. cbn [bind]. f_equal. f_equal; apply from_ext; intros i Hi.
  - unfold mid, rng. rewrite <- (Rmult_1_l (wmean w (typical h l c) i)), <- (Rmult_1_l (wmean w (fun i => h i - l i) i)), <- wmean_lin by auto.
    apply wmean_ext. intros. unfold typical. lra.
  - unfold mid, rng. replace (wmean w (typical h l c) i - wmean w (fun i => h i - l i) i) with
      (1 * wmean w (typical h l c) i + (-1) * wmean w (fun i => h i - l i) i) by lra. rewrite <- wmean_lin by auto.
    apply wmean_ext. intros. unfold typical. lra.
Qed.
Lemma kc_ema : forall fl w a m n h l c, (1 <= w)%nat -> (1 <= a <= n)%nat ->
  let mid := ema w c 0 in let atr := atr_value a (trange h l c) in
  keltner_run (tab n (from 0 h)) (tab n (from 0 l)) (tab n (from 0 c)) (Z.of_nat w) (Z.of_nat a) fl false (Fin m) =
  Ok {| kc_tp := tab n (from (warm fl w) mid); kc_high := tab n (from (warm fl w) (fun i => mid i + m * atr i));
        kc_low := tab n (from (warm fl w) (fun i => mid i - m * atr i)) |}.
Proof.
  intros fl w a m n h l c Hw Ha mid atr. unfold keltner_run. rewrite ema_tab1 by auto. cbn [bind].
  rewrite atr_formula_raw by lia. cbn [bind]. rewrite scal_from, sadd_from, ssub_from, Nat.max_0_r. reflexivity.
Qed.
Lemma kc_bands_original : forall fl w a m n h l c v, (1 <= w)%nat ->
  let mid := wmean w (typical h l c) in let rng := wmean w (fun i => h i - l i) in
  compute (KcM (Z.of_nat w) a true m) fl (frame n h l c v) = Ok (tab n (from (warm fl w) mid)) /\
  compute (KcH (Z.of_nat w) a true m) fl (frame n h l c v) = Ok (tab n (from 0 (fun i => mid i + rng i))) /\
  compute (KcL (Z.of_nat w) a true m) fl (frame n h l c v) = Ok (tab n (from 0 (fun i => mid i - rng i))) /\
  compute (KcHI (Z.of_nat w) a true m) fl (frame n h l c v) = Ok (tab n (from 0 (above 0 c (fun i => mid i + rng i)))) /\
  compute (KcLI (Z.of_nat w) a true m) fl (frame n h l c v) = Ok (tab n (from 0 (below 0 c (fun i => mid i - rng i)))).
Proof.
  intros. cbn [compute]. cols. unfold keltner_channel_mband, keltner_channel_hband, keltner_channel_lband,
    keltner_channel_hband_indicator, keltner_channel_lband_indicator.
  rewrite kc_original by auto. cbn [bind kc_tp kc_high kc_low]. rewrite above_tab, below_tab.
  now rewrite check_back_warm, !back_finite', !check_fin by (reflexivity || lia).
Qed.
Lemma kc_bands_ema : forall fl w a m n h l c v, (1 <= w)%nat -> (1 <= a <= n)%nat ->
  let mid := ema w c 0 in let atr := atr_value a (trange h l c) in
  compute (KcM (Z.of_nat w) (Z.of_nat a) false (Fin m)) fl (frame n h l c v) = Ok (tab n (from (warm fl w) mid)) /\
  compute (KcH (Z.of_nat w) (Z.of_nat a) false (Fin m)) fl (frame n h l c v) = Ok (tab n (from (warm fl w) (fun i => mid i + m * atr i))) /\
  compute (KcL (Z.of_nat w) (Z.of_nat a) false (Fin m)) fl (frame n h l c v) = Ok (tab n (from (warm fl w) (fun i => mid i - m * atr i))) /\
  compute (KcHI (Z.of_nat w) (Z.of_nat a) false (Fin m)) fl (frame n h l c v) =
    Ok (tab n (from 0 (above (warm fl w) c (fun i => mid i + m * atr i)))) /\
  compute (KcLI (Z.of_nat w) (Z.of_nat a) false (Fin m)) fl (frame n h l c v) =
    Ok (tab n (from 0 (below (warm fl w) c (fun i => mid i - m * atr i)))).
Proof.
  intros. cbn [compute]. cols. unfold keltner_channel_mband, keltner_channel_hband, keltner_channel_lband,
    keltner_channel_hband_indicator, keltner_channel_lband_indicator.
  rewrite kc_ema by auto. cbn [bind kc_tp kc_high kc_low]. rewrite above_tab, below_tab.
  now rewrite !check_back_warm, !check_fin by (reflexivity || lia).
Qed.
Lemma kc_width : forall fl w a m n h l c v, (1 <= w)%nat ->
  let mid := wmean w (typical h l c) in let rng := wmean w (fun i => h i - l i) in
  shows fl 0 (tab n (fromx (warm fl w) (fun i => ratio (100 * (2 * rng i)) (mid i))))
    (compute (KcW (Z.of_nat w) a true m) fl (frame n h l c v)) /\
  shows fl 0 (tab n (fromx 0 (fun i => ratio (c i - (mid i - rng i)) (2 * rng i))))
    (compute (KcP (Z.of_nat w) a true m) fl (frame n h l c v)).
Proof.
  intros. cbn [compute]. cols. unfold keltner_channel_wband, keltner_channel_pband.
  rewrite kc_original by auto. cbn [bind kc_tp kc_high kc_low]. rewrite !ssub_from, !sdiv_from. cbn [fofZ XR Nat.max].
  rewrite muls_ratio by lra. split.
  - replace (tab n (fromx (warm fl w) (fun i => ratio (100 * (2 * rng i)) (mid i)))) with
      (tab n (fromx (warm fl w) (fun i => ratio (100 * (mid i + rng i - (mid i - rng i))) (mid i)))) by
      (apply fromx_ext; intros; f_equal; ring).
    apply shows_check; (reflexivity || lia).
  - replace (tab n (fromx 0 (fun i => ratio (c i - (mid i - rng i)) (2 * rng i)))) with
      (tab n (fromx 0 (fun i => ratio (c i - (mid i - rng i)) (mid i + rng i - (mid i - rng i))))) by
      (apply fromx_ext; intros; f_equal; ring).
    apply shows_check; (reflexivity || lia).
Qed.
Lemma kc_width_ema : forall fl w a m n h l c v, (1 <= w)%nat -> (1 <= a <= n)%nat ->
  let mid := ema w c 0 in let atr := atr_value a (trange h l c) in
  shows fl 0 (tab n (fromx (warm fl w) (fun i => ratio (100 * (2 * m * atr i)) (mid i))))
    (compute (KcW (Z.of_nat w) (Z.of_nat a) false (Fin m)) fl (frame n h l c v)) /\
  shows fl 0 (tab n (fromx (warm fl w) (fun i => ratio (c i - (mid i - m * atr i)) (2 * m * atr i))))
    (compute (KcP (Z.of_nat w) (Z.of_nat a) false (Fin m)) fl (frame n h l c v)).
Proof.
  intros. cbn [compute]. cols. unfold keltner_channel_wband, keltner_channel_pband.
  rewrite kc_ema by auto. cbn [bind kc_tp kc_high kc_low]. rewrite !ssub_from, !sdiv_from, !Nat.max_id. cbn [fofZ XR Nat.max].
  rewrite muls_ratio by lra. split.
  - replace (tab n (fromx (warm fl w) (fun i => ratio (100 * (2 * m * atr i)) (mid i)))) with
      (tab n (fromx (warm fl w) (fun i => ratio (100 * (mid i + m * atr i - (mid i - m * atr i))) (mid i)))) by
      (apply fromx_ext; intros; f_equal; ring).
    apply shows_check; (reflexivity || lia).
  - replace (tab n (fromx (warm fl w) (fun i => ratio (c i - (mid i - m * atr i)) (2 * m * atr i)))) with
      (tab n (fromx (warm fl w) (fun i => ratio (c i - (mid i - m * atr i)) (mid i + m * atr i - (mid i - m * atr i))))) by
      (apply fromx_ext; intros; f_equal; ring).
    apply shows_check; (reflexivity || lia).
Qed.
Lemma wmean_nonneg : forall w f i, (1 <= w)%nat -> (forall j, (j <= i)%nat -> 0 <= f j) -> 0 <= wmean w f i.
Proof.
  intros. unfold wmean, wsum. apply Rmult_le_pos.
  - apply rsum_nonneg. intros. apply H0. unfold wlo, wlen in *. lia.
  - apply Rlt_le, Rinv_0_lt_compat, lt_0_INR. pose proof (wlen_pos w i H). lia.
Qed.

(** ** C50 *)
Lemma max_tab1 : forall fl w n g, (1 <= w)%nat ->
  rolling (Z.of_nat w) (donchian_minp (Z.of_nat w) fl) agg_max (tab n (from 0 g)) = Ok (tab n (from (warm fl w) (wmax w g))).
Proof. intros. destruct fl; [apply (max_part w 1)|apply max_full]; lia. Qed.
Lemma min_tab1 : forall fl w n g, (1 <= w)%nat ->
  rolling (Z.of_nat w) (donchian_minp (Z.of_nat w) fl) agg_min (tab n (from 0 g)) = Ok (tab n (from (warm fl w) (wmin w g))).
Proof. intros. destruct fl; [apply (min_part w 1)|apply min_full]; lia. Qed.
Lemma dc_run : forall fl w n h l, (1 <= w)%nat ->
  donchian_run (tab n (from 0 h)) (tab n (from 0 l)) (Z.of_nat w) fl =
  Ok (tab n (from (warm fl w) (wmax w h)), tab n (from (warm fl w) (wmin w l))).
Proof. intros. unfold donchian_run. rewrite max_tab1, min_tab1 by auto. reflexivity. Qed.
Lemma dc_bands : forall fl w n h l c v, (1 <= w)%nat ->
  compute (DcH (Z.of_nat w) 0) fl (frame n h l c v) = Ok (tab n (from (warm fl w) (wmax w h))) /\
  compute (DcL (Z.of_nat w) 0) fl (frame n h l c v) = Ok (tab n (from (warm fl w) (wmin w l))) /\
  compute (DcM (Z.of_nat w) 0) fl (frame n h l c v) = Ok (tab n (from (warm fl w) (fun i => (wmax w h i + wmin w l i) / 2))).
Proof.
  intros. cbn [compute]. cols. unfold donchian_channel_hband, donchian_channel_lband, donchian_channel_mband, donchian_offset.
  rewrite dc_run by auto. cbn [bind Z.eqb negb]. rewrite ssub_from. cbn [fofZ XR]. rewrite divs_from, sadd_from by lra.
  rewrite !Nat.max_id, !check_back_warm. refine (conj eq_refl (conj eq_refl _)). f_equal. apply from_ext. intros. lra.
Qed.
Lemma dc_width : forall fl w n h l c v, (1 <= w)%nat ->
  shows fl 0 (tab n (fromx (warm fl w) (fun i => ratio (100 * (wmax w h i - wmin w l i)) (wmean w c i))))
    (compute (DcW (Z.of_nat w) 0) fl (frame n h l c v)) /\
  shows fl 0 (tab n (fromx (warm fl w) (fun i => ratio (c i - wmin w l i) (wmax w h i - wmin w l i))))
    (compute (DcP (Z.of_nat w) 0) fl (frame n h l c v)).
Proof.
  intros. cbn [compute]. cols. unfold donchian_channel_wband, donchian_channel_pband, donchian_offset.
  rewrite dc_run by auto. cbn [bind Z.eqb negb].
  replace (donchian_minp (Z.of_nat w) fl) with (if fl then 1 else Z.of_nat w)%Z by reflexivity.
  rewrite mean_tab1 by auto. cbn [bind]. rewrite !ssub_from, !sdiv_from. cbn [fofZ XR Nat.max]. rewrite !Nat.max_id.
  rewrite muls_ratio by lra. split; apply shows_check; (reflexivity || lia).
Qed.
Lemma dc_pband_range : forall fl w n h l c v out, (1 <= w)%nat -> sane n h l c ->
  compute (DcP (Z.of_nat w) 0) fl (frame n h l c v) = Ok out -> Forall (within 0 1) out.
Proof.
  intros fl w n h l c v out Hw HS E. eapply shows_within; [|apply (dc_width fl w n h l c v Hw)| |exact E]; [lra|].
  apply Forall_nth_xr. rewrite len_tab. intros i Hi. rewrite nth_tab by auto. unfold fromx. destruct (_ <? _)%nat; [exact I|].
  rewrite <- xdiv_ratio. apply unit_ratio. specialize (HS i Hi).
  pose proof (wmax_ge w h i i Hw ltac:(unfold wlo; lia)). pose proof (wmin_le w l i i Hw ltac:(unfold wlo; lia)). lra.
Qed.
Lemma wmax_is : forall w f i, (1 <= w)%nat ->
  (exists j, (wlo w i <= j <= i)%nat /\ wmax w f i = f j) /\ (forall j, (wlo w i <= j <= i)%nat -> f j <= wmax w f i).
Proof. intros. split; [now apply wmax_att|]. intros. now apply wmax_ge. Qed.
Lemma wmin_is : forall w f i, (1 <= w)%nat ->
  (exists j, (wlo w i <= j <= i)%nat /\ wmin w f i = f j) /\ (forall j, (wlo w i <= j <= i)%nat -> wmin w f i <= f j).
Proof. intros. split; [now apply wmin_att|]. intros. now apply wmin_le. Qed.
Lemma dc_offset : forall {F} {A : Arith F} (w o : Z) fl (rows : list (bar F)), o <> 0%Z ->
  compute (DcH w o) fl rows = rmap (shift o) (compute (DcH w 0) fl rows) /\
  compute (DcL w o) fl rows = rmap (shift o) (compute (DcL w 0) fl rows) /\
  compute (DcM w o) fl rows = rmap (shift o) (compute (DcM w 0) fl rows) /\
  compute (DcW w o) fl rows = rmap (shift o) (compute (DcW w 0) fl rows) /\
  compute (DcP w o) fl rows = rmap (shift o) (compute (DcP w 0) fl rows).
Proof.
  intros. cbn [compute]. unfold donchian_channel_hband, donchian_channel_lband, donchian_channel_mband,
    donchian_channel_wband, donchian_channel_pband, donchian_offset. rewrite (proj2 (Z.eqb_neq o 0)) by auto.
  change (0 =? 0)%Z with true. cbn [negb].
  destruct (donchian_run _ _ _ _) as [[a b]|]; cbn [bind rmap]; [|repeat split].
  destruct (rolling _ _ _ _); cbn [bind rmap]; repeat split.
Qed.
Lemma shift_row : forall {F} {A : Arith F} (k : nat) (s : list F) i, (i < length s)%nat ->
  nth i (shift (Z.of_nat k) s) fnan = if (i <? k)%nat then fnan else nth (i - k)%nat s fnan.
Proof.
  intros. unfold shift. destruct (Nat.ltb_spec i k).
  - apply nth_shift_fill_lt; lia.
  - rewrite nth_shift_fill_ge by lia. now rewrite Nat2Z.id.
Qed.
Lemma delayed_shift : forall {F} {A : Arith F} k (r : result (list F)), delayed k r (rmap (shift (Z.of_nat k)) r).
Proof.
  intros. destruct r as [s|]; cbn; [|reflexivity]. eexists. split; [reflexivity|]. split; [apply len_shift|].
  intros. now apply shift_row.
Qed.
Lemma dc_delayed : forall {F} {A : Arith F} w k fl (rows : list (bar F)), (1 <= k)%nat ->
  delayed k (compute (DcH w 0) fl rows) (compute (DcH w (Z.of_nat k)) fl rows) /\
  delayed k (compute (DcL w 0) fl rows) (compute (DcL w (Z.of_nat k)) fl rows) /\
  delayed k (compute (DcM w 0) fl rows) (compute (DcM w (Z.of_nat k)) fl rows) /\
  delayed k (compute (DcW w 0) fl rows) (compute (DcW w (Z.of_nat k)) fl rows) /\
  delayed k (compute (DcP w 0) fl rows) (compute (DcP w (Z.of_nat k)) fl rows).
Proof.
  intros. destruct (dc_offset w (Z.of_nat k) fl rows) as (E1 & E2 & E3 & E4 & E5); [lia|].
  rewrite E1, E2, E3, E4, E5. repeat (split; [apply delayed_shift|]). apply delayed_shift.
Qed.

(** ** C52 *)
Lemma rsum_div : forall f x a k, rsum (fun j => f j / x) a k = rsum f a k / x.
Proof. induction k; cbn [rsum]; [unfold Rdiv; ring|]. rewrite IHk. unfold Rdiv. ring. Qed.
Lemma ulcer_formula : forall fl w n h l c v, (1 <= w)%nat -> (forall i, (i < n)%nat -> wmax w c i <> 0) ->
  compute (Ulcer (Z.of_nat w)) fl (frame n h l c v) =
  Ok (tab n (gaps fl 0 (w - 1) (fun i => sqrt (wmean w (fun j => drawdown w c j * drawdown w c j) i)))).
Proof.
  intros fl w n h l c v Hw H. assert (W : INR w <> 0) by (apply not_0_INR; lia). assert (WP : 0 < INR w) by (apply lt_0_INR; lia).
  cbn [compute]. cols. unfold ulcer_index. change 1%Z with (Z.of_nat 1). rewrite (max_part w 1) by lia. cbn [bind].
  rewrite ssub_from. cbn [fofZ XR Nat.max]. rewrite scal_from, sdiv_from_fin by (intros; apply H; lia). cbn [Nat.max].
  change (tab n (from 0 (fun i => 100 * (c i - wmax w c i) / wmax w c i))) with (tab n (fromx 0 (fun i => Fin (drawdown w c i)))).
  rewrite rolling_full by (apply std_apply || auto).
  cbn [bind]. rewrite <- check_from by (reflexivity || lia). do 2 f_equal. apply fromx_ext. intros i Hi.
  rewrite wlen_full by lia. cbn [xprep xisinf].
  change (map (fun j => xprep (Fin (drawdown w c j))) (seq (wlo w i) w)) with (map (fun j => Fin (drawdown w c j)) (seq (wlo w i) w)).
  unfold win_agg, agg_apply, agg_max, agg_min, win_apply. rewrite obs_tab, map_length, seq_length, Nat.leb_refl, map_map.
  rewrite (map_ext _ (fun j => Fin (drawdown w c j * drawdown w c j / INR w))).
  - rewrite fsum_tab. cbn [fsqrt XR xsqrt]. unfold wmean, wsum. rewrite wlen_full by lia.
    replace (rsum (fun j => drawdown w c j * drawdown w c j / INR w) (wlo w i) w) with
      (rsum (fun j => drawdown w c j * drawdown w c j) (wlo w i) w / INR w).
    + destruct (Rlt_dec _ 0) as [N|]; [exfalso|reflexivity].
      assert (0 <= rsum (fun j => drawdown w c j * drawdown w c j) (wlo w i) w / INR w); [|lra].
      apply Rmult_le_pos; [apply rsum_nonneg; intros; apply Rle_0_sqr|]. now apply Rlt_le, Rinv_0_lt_compat.
    + now rewrite rsum_div.
  - intros j. rewrite <- INR_IZR_INZ. cbn [fmul XR xmul].
    change (@fdiv xr XR) with xdiv. now rewrite xdiv_fin.
Qed.
Lemma drawdown_range : forall w c i, (1 <= w)%nat -> (forall j, (j <= i)%nat -> 0 < c j) -> -100 <= drawdown w c i <= 0.
Proof.
  intros w c i Hw H. destruct (wmax_att w c i Hw) as (j & Hj & E). pose proof (wmax_ge w c i i Hw ltac:(unfold wlo; lia)).
  unfold drawdown. assert (0 < wmax w c i) by (rewrite E; apply H; lia). specialize (H i ltac:(lia)).
  split; apply Rmult_le_reg_r with (wmax w c i); auto; unfold Rdiv; rewrite Rmult_assoc, Rinv_l by lra; lra.
Qed.
Lemma ulcer_range : forall w c i, (1 <= w)%nat -> (forall j, (j <= i)%nat -> 0 < c j) ->
  0 <= sqrt (wmean w (fun j => drawdown w c j * drawdown w c j) i) <= 100.
Proof.
  intros w c i Hw H. split; [apply sqrt_pos|].
  replace 100 with (sqrt (100 * 100)) by (apply sqrt_square; lra). apply sqrt_le_1_alt.
  apply (wmean_bounds w _ i 0 (100 * 100) Hw). intros j Hj.
  pose proof (drawdown_range w c j Hw ltac:(intros; apply H; lia)). nra.
Qed.
Lemma drawdown_rising : forall w c i, (1 <= w)%nat -> (forall j, (1 <= j <= i)%nat -> c (j - 1)%nat <= c j) -> drawdown w c i = 0.
Proof.
  intros w c i Hw H. unfold drawdown. replace (wmax w c i) with (c i); [unfold Rdiv; ring|].
  apply Rle_antisym; [apply wmax_ge; auto; unfold wlo; lia|].
  destruct (wmax_att w c i Hw) as (j & Hj & ->).
  assert (M : forall k, (j + k <= i)%nat -> c j <= c (j + k)%nat).
  { induction k; intros; [rewrite Nat.add_0_r; lra|]. specialize (H (j + S k)%nat ltac:(lia)).
    replace (j + S k - 1)%nat with (j + k)%nat in H by lia. specialize (IHk ltac:(lia)). lra. }
  specialize (M (i - j)%nat ltac:(lia)). now replace (j + (i - j))%nat with i in M by lia.
Qed.
Lemma ulcer_rising : forall w c i, (1 <= w)%nat -> (forall j, (1 <= j <= i)%nat -> c (j - 1)%nat <= c j) ->
  sqrt (wmean w (fun j => drawdown w c j * drawdown w c j) i) = 0.
Proof.
  intros w c i Hw H. rewrite <- sqrt_0. f_equal. apply Rle_antisym; apply (wmean_bounds w _ i 0 0 Hw); intros j Hj;
    rewrite drawdown_rising by (auto; intros; apply H; lia); lra.
Qed.

Lemma rows_le_tab : forall n k k' f g, (forall i, (i < n)%nat -> f i <= g i) -> rows_le (tab n (from k f)) (tab n (from k' g)).
Proof.
  intros n k k' f g H. unfold rows_le, tab.
  assert (G : forall l, (forall i, In i l -> (i < n)%nat) -> Forall2 (fun x y => match x, y with Fin r, Fin s => r <= s | PInf, _ | NInf, _ | _, PInf | _, NInf => False | _, _ => True end) (map (from k f) l) (map (from k' g) l)).
  { induction l; intros L; [constructor|]. constructor; [|apply IHl; intros; apply L; now right]. unfold from, fromx.
    destruct (_ <? _)%nat, (_ <? _)%nat; auto. apply H, L. now left. }
  apply G. intros i Hi. apply in_seq in Hi. lia.
Qed.
Lemma bb_ordered : forall fl w d n h l c v ml hl ll, (1 <= w)%nat -> 0 <= d ->
  compute (BbM (Z.of_nat w) (Fin d)) fl (frame n h l c v) = Ok ml ->
  compute (BbH (Z.of_nat w) (Fin d)) fl (frame n h l c v) = Ok hl ->
  compute (BbL (Z.of_nat w) (Fin d)) fl (frame n h l c v) = Ok ll -> rows_le ll ml /\ rows_le ml hl.
Proof.
  intros fl w d n h l c v ml hl ll Hw Hd M H L. destruct (bb_formula fl w d n h l c v Hw) as (M' & H' & L').
  rewrite M' in M. rewrite H' in H. rewrite L' in L. injection M as <-. injection H as <-. injection L as <-.
  assert (P : forall i, 0 <= d * wstd w c i) by (intros; apply Rmult_le_pos; auto; apply sqrt_pos).
  split; apply rows_le_tab; intros i _; specialize (P i); lra.
Qed.
Lemma kc_ordered : forall fl w a orig m n h l c v ml hl ll, (1 <= w)%nat -> (1 <= a <= n)%nat -> 0 <= m ->
  (forall i, (i < n)%nat -> l i <= h i) ->
  compute (KcM (Z.of_nat w) (Z.of_nat a) orig (Fin m)) fl (frame n h l c v) = Ok ml ->
  compute (KcH (Z.of_nat w) (Z.of_nat a) orig (Fin m)) fl (frame n h l c v) = Ok hl ->
  compute (KcL (Z.of_nat w) (Z.of_nat a) orig (Fin m)) fl (frame n h l c v) = Ok ll -> rows_le ll ml /\ rows_le ml hl.
Proof.
  intros fl w a orig m n h l c v ml hl ll Hw Ha Hm HL M H L. destruct orig.
  - destruct (kc_bands_original fl w (Z.of_nat a) (Fin m) n h l c v Hw) as (M' & H' & L' & _).
    rewrite M' in M. rewrite H' in H. rewrite L' in L. injection M as <-. injection H as <-. injection L as <-.
    split; apply rows_le_tab; intros i Hi.
    + assert (0 <= wmean w (fun j => h j - l j) i) by (apply wmean_nonneg; auto; intros; specialize (HL j ltac:(lia)); lra). lra.
    + assert (0 <= wmean w (fun j => h j - l j) i) by (apply wmean_nonneg; auto; intros; specialize (HL j ltac:(lia)); lra). lra.
  - destruct (kc_bands_ema fl w a m n h l c v Hw Ha) as (M' & H' & L' & _).
    rewrite M' in M. rewrite H' in H. rewrite L' in L. injection M as <-. injection H as <-. injection L as <-.
    split; apply rows_le_tab; intros i Hi.
    + assert (0 <= m * atr_value a (trange h l c) i) by (apply Rmult_le_pos; auto; apply atr_bounds; [lia|]; intros; apply HL; lia). lra.
    + assert (0 <= m * atr_value a (trange h l c) i) by (apply Rmult_le_pos; auto; apply atr_bounds; [lia|]; intros; apply HL; lia). lra.
Qed.
