(** * Bands: ATR, Bollinger, Keltner, Donchian, Ulcer on finite data (C45-C50, C52). *)
From Verif Require Import Lists Api SpecNum Align Rows Fill Tab Averages Range Oscillators Returns TrueRange.
Local Open Scope R_scope.

(** ** C45 *)
Lemma firstn_tab : forall {B} k n (f : nat -> B), (k <= n)%nat -> firstn k (tab n f) = tab k f.
Proof. intros. unfold tab. rewrite firstn_map, firstn_seq. do 2 f_equal. lia. Qed.
Lemma skipn_tab : forall {B} k n (f : nat -> B), (k <= n)%nat -> skipn k (tab n f) = tab (n - k) (fun i => f (k + i)%nat).
Proof.
  intros. unfold tab. rewrite skipn_map, skipn_seq. cbn [Nat.add].
  revert f. clear H. induction (n - k)%nat as [|m]; intros f; [reflexivity|].
  rewrite seq_S, seq_S, !map_app, IHm. reflexivity.
Qed.
Lemma smean_tab : forall n g, (1 <= n)%nat -> smean (tab n (from 0 g)) = Fin (rsum g 0 n / INR n).
Proof.
  intros n g Hn. rewrite smean_obs. unfold tab. change (map (from 0 g) (seq 0 n)) with (map (fun j => Fin (g j)) (seq 0 n)).
  rewrite obs_tab. assert (INR n <> 0) by (apply not_0_INR; lia).
  destruct n; [lia|]. cbn [seq map]. change (Fin (g 0%nat) :: map (fun j => Fin (g j)) (seq 1 n)) with (map (fun j => Fin (g j)) (seq 0 (S n))).
  rewrite fsum_tab, map_length, seq_length, fofnat_INR. change (@fdiv xr XR) with xdiv. now rewrite xdiv_fin.
Qed.
Lemma atr_go_tab : forall w tr m j, (1 <= w)%nat ->
  atr_go (fofnat w) (Fin (atr_at w tr j)) (tab m (fun i => Fin (tr (w + j + i)%nat))) =
  tab m (fun i => Fin (atr_at w tr (S (j + i)))).
Proof.
  intros w tr m j Hw. assert (W : INR w <> 0) by (apply not_0_INR; lia).
  revert j. induction m; intros j; [reflexivity|].
  assert (C : forall f : nat -> xr, tab (S m) f = f 0%nat :: tab m (fun i => f (S i))).
  { intros. unfold tab. cbn [seq map]. now rewrite <- seq_shift, map_map. }
  rewrite !C. cbn [atr_go]. rewrite fofnat_INR.
  assert (E : ((Fin (atr_at w tr j) **. (Fin (INR w) -. #1) +. Fin (tr (w + j + 0)%nat)) /. Fin (INR w))%F = Fin (atr_at w tr (S j))).
  { cbn [fmul fsub fadd fdiv XR xmul xsub xadd xopp fofZ]. rewrite xdiv_fin by auto. cbn [atr_at].
    replace (w + j + 0)%nat with (w - 1 + S j)%nat by lia. reflexivity. }
  rewrite E. rewrite Nat.add_0_r. f_equal.
  specialize (IHm (S j)). rewrite fofnat_INR in IHm.
  replace (tab m (fun i => Fin (tr (w + j + S i)%nat))) with (tab m (fun i => Fin (tr (w + S j + i)%nat))) by
    (apply tab_ext; intros; do 2 f_equal; lia).
  rewrite IHm. apply tab_ext. intros. do 3 f_equal. lia.
Qed.
Lemma check_fin : forall fl z n g, (z =? -1)%Z = false -> (-1000 <= z <= 1000)%Z ->
  check_fillna fl (FillInt z) (tab n (from 0 g)) = tab n (from 0 g).
Proof. intros. now rewrite check_from. Qed.
Lemma atr_list : forall w n tr, (1 <= w)%nat -> (w <= n)%nat ->
  repeat (#0)%F (w - 1) ++ Fin (atr_at w tr 0) :: atr_go (fofnat w) (Fin (atr_at w tr 0)) (skipn w (tab n (from 0 tr))) =
  tab n (from 0 (atr_value w tr)).
Proof.
  intros w n tr Hw Hn. rewrite skipn_tab by auto.
  pose proof (atr_go_tab w tr (n - w) 0 Hw) as G. rewrite Nat.add_0_r in G.
  change (tab (n - w) (fun i => from 0 tr (w + i)%nat)) with (tab (n - w) (fun i => Fin (tr (w + i)%nat))). rewrite G.
  apply list_tab with NaN.
  - rewrite app_length, repeat_length. cbn [length]. rewrite len_tab. lia.
  - intros i Hi. unfold from, fromx. change (i <? 0)%nat with false. cbv iota. unfold atr_value.
    destruct (Nat.ltb_spec i (w - 1)).
    + rewrite app_nth1 by (rewrite repeat_length; lia). rewrite nth_repeat_lt by lia. reflexivity.
    + rewrite app_nth2 by (rewrite repeat_length; lia). rewrite repeat_length.
      destruct (i - (w - 1))%nat as [|j] eqn:E; [reflexivity|]. cbn [nth]. rewrite nth_tab by lia. reflexivity.
Qed.
Lemma atr_formula_raw : forall fl w n h l c, (1 <= w)%nat -> (w <= n)%nat ->
  average_true_range (tab n (from 0 h)) (tab n (from 0 l)) (tab n (from 0 c)) (Z.of_nat w) fl =
  Ok (tab n (from 0 (atr_value w (trange h l c)))).
Proof.
  intros fl w n h l c Hw Hn. unfold average_true_range. destruct (Z.leb_spec (Z.of_nat w) 0); [lia|].
  rewrite Nat2Z.id, len_tab. destruct (Nat.ltb_spec n w); [lia|]. rewrite true_range_tab, firstn_tab by auto.
  rewrite smean_tab by auto. change (rsum (trange h l c) 0 w / INR w) with (atr_at w (trange h l c) 0).
  rewrite atr_list by auto. now rewrite check_fin by (reflexivity || lia).
Qed.
Lemma atr_formula : forall fl w n h l c v, (1 <= w)%nat -> (w <= n)%nat ->
  compute (Atr (Z.of_nat w)) fl (frame n h l c v) = Ok (tab n (from 0 (atr_value w (trange h l c)))).
Proof. intros. cbn [compute]. cols. now apply atr_formula_raw. Qed.
Lemma atr_short : forall fl w n h l c v, (1 <= w)%nat -> (n < w)%nat ->
  compute (Atr (Z.of_nat w)) fl (frame n h l c v) = Raise IndexError.
Proof.
  intros. cbn [compute]. cols. unfold average_true_range. destruct (Z.leb_spec (Z.of_nat w) 0); [lia|].
  rewrite Nat2Z.id, len_tab. destruct (Nat.ltb_spec n w); [reflexivity|lia].
Qed.
Lemma atr_at_bounds : forall w tr j m M, (1 <= w)%nat -> (forall i, (i <= w - 1 + j)%nat -> m <= tr i <= M) -> m <= atr_at w tr j <= M.
Proof.
  intros w tr j m M Hw. assert (W : 1 <= INR w) by (apply (le_INR 1); lia).
  induction j; intros H; cbn [atr_at].
  - apply mean_bounds; auto. intros; apply H; lia.
  - assert (B : m <= atr_at w tr j <= M) by (apply IHj; intros; apply H; lia).
    pose proof (H (w - 1 + S j)%nat ltac:(lia)).
    split; apply Rmult_le_reg_r with (INR w); try lra; unfold Rdiv; rewrite Rmult_assoc, Rinv_l by lra; nra.
Qed.
Lemma trange_nonneg : forall h l c i, l i <= h i -> 0 <= trange h l c i.
Proof. intros. pose proof (trange_ge h l c i). lra. Qed.
Lemma atr_bounds : forall w h l c i, (1 <= w)%nat -> (forall j, (j <= i)%nat -> l j <= h j) ->
  0 <= atr_value w (trange h l c) i <= rmax (trange h l c) 0 i.
Proof.
  intros w h l c i Hw H. unfold atr_value. destruct (Nat.ltb_spec i (w - 1)).
  - split; [lra|]. eapply Rle_trans; [apply (trange_nonneg h l c 0), H; lia|apply rmax_ge; lia].
  - apply atr_at_bounds; auto. intros j Hj. split; [apply trange_nonneg, H; lia|apply rmax_ge; lia].
Qed.

(** ** C46-C48: Bollinger bands *)
Lemma bb_run_formula : forall fl w d n c, (1 <= w)%nat ->
  bollinger_run (tab n (from 0 c)) (Z.of_nat w) (Fin d) fl =
  Ok {| bb_mavg := tab n (from (warm fl w) (wmean w c));
        bb_hband := tab n (from (warm fl w) (fun i => wmean w c i + d * wstd w c i));
        bb_lband := tab n (from (warm fl w) (fun i => wmean w c i - d * wstd w c i)) |}.
Proof.
  intros. unfold bollinger_run. rewrite mean_tab, std_tab by auto. cbn [bind].
  rewrite scal_from, sadd_from, ssub_from, Nat.max_id. reflexivity.
Qed.
Lemma check_back_warm : forall fl n w g,
  check_fillna fl (FillInt (-1)) (tab n (from (warm fl w) g)) = tab n (from (warm fl w) g).
Proof. intros [|] n w g; [apply back_finite|reflexivity]. Qed.
Lemma bb_formula : forall fl w d n h l c v, (1 <= w)%nat ->
  compute (BbM (Z.of_nat w) (Fin d)) fl (frame n h l c v) = Ok (tab n (from (warm fl w) (wmean w c))) /\
  compute (BbH (Z.of_nat w) (Fin d)) fl (frame n h l c v) = Ok (tab n (from (warm fl w) (fun i => wmean w c i + d * wstd w c i))) /\
  compute (BbL (Z.of_nat w) (Fin d)) fl (frame n h l c v) = Ok (tab n (from (warm fl w) (fun i => wmean w c i - d * wstd w c i))).
Proof.
  intros. cbn [compute]. cols. unfold bollinger_mavg, bollinger_hband, bollinger_lband.
  rewrite bb_run_formula by auto. cbn [bind bb_mavg bb_hband bb_lband]. now rewrite !check_back_warm.
Qed.
Lemma ratio_scale : forall a b k, 0 < k -> fmul (ratio a b) (Fin k) = ratio (k * a) b.
Proof.
  intros. unfold ratio. destruct (Req_EM_T b 0).
  - destruct (Rlt_dec 0 a), (Rlt_dec 0 (k * a)); try nra.
    + cbn. unfold rsign, xinf. destruct (Rlt_dec 0 k); [reflexivity|lra].
    + destruct (Rlt_dec a 0), (Rlt_dec (k * a) 0); try nra; auto.
      cbn. unfold rsign, xinf. destruct (Rlt_dec 0 k); [reflexivity|lra].
  - cbn. f_equal. field. auto.
Qed.
Lemma muls_ratio : forall n k a b x, 0 < x ->
  muls (tab n (fromx k (fun i => ratio (a i) (b i)))) (Fin x) = tab n (fromx k (fun i => ratio (x * a i) (b i))).
Proof.
  intros. unfold muls. rewrite map_tab. apply tab_ext. intros i _. unfold fromx. destruct (_ <? _)%nat; [reflexivity|].
  now apply ratio_scale.
Qed.
Lemma bb_width_formula : forall fl w d n h l c v, (1 <= w)%nat ->
  shows fl 0 (tab n (fromx (warm fl w) (fun i => ratio (100 * (2 * d * wstd w c i)) (wmean w c i))))
    (compute (BbW (Z.of_nat w) (Fin d)) fl (frame n h l c v)).
Proof.
  intros. cbn [compute]. cols. unfold bollinger_wband. rewrite bb_run_formula by auto. cbn [bind bb_mavg bb_hband bb_lband].
  rewrite ssub_from, sdiv_from, !Nat.max_id. cbn [fofZ XR]. rewrite muls_ratio by lra.
  replace (tab n (fromx (warm fl w) (fun i => ratio (100 * (2 * d * wstd w c i)) (wmean w c i)))) with
    (tab n (fromx (warm fl w) (fun i => ratio (100 * (wmean w c i + d * wstd w c i - (wmean w c i - d * wstd w c i))) (wmean w c i)))).
  - apply shows_check; (reflexivity || lia).
  - apply fromx_ext. intros. f_equal. ring.
Qed.
Lemma bb_pband_formula : forall fl w d n h l c v, (1 <= w)%nat ->
  shows fl 0 (tab n (fromx (warm fl w) (fun i => position (wmean w c i - d * wstd w c i) (wmean w c i + d * wstd w c i) (c i))))
    (compute (BbP (Z.of_nat w) (Fin d)) fl (frame n h l c v)).
Proof.
  intros. cbn [compute]. cols. unfold bollinger_pband. rewrite bb_run_formula by auto. cbn [bind bb_mavg bb_hband bb_lband].
  match goal with |- context [check_fillna _ _ ?L] => replace L with
   (tab n (fromx (warm fl w) (fun i => position (wmean w c i - d * wstd w c i) (wmean w c i + d * wstd w c i) (c i)))) end.
  - apply shows_check; (reflexivity || lia).
  - rewrite ssub_from, map2_tab. unfold sdiv. rewrite map2_tab. apply tab_ext. intros i _. cbn [Nat.max].
    unfold from, fromx, position. destruct (Nat.ltb_spec i (warm fl w)); [reflexivity|].
    set (hb := wmean w c i + _). set (lb := wmean w c i - _). cbn.
    destruct (Req_EM_T hb lb); cbn; [reflexivity|]. destruct (Req_EM_T (hb + - lb) 0); [lra|reflexivity].
Qed.
Lemma above_tab : forall n k c g, map2 (fun x y : xr => if (y <.? x)%F then (#1)%F else (#0)%F) (tab n (from 0 c)) (tab n (from k g)) =
  tab n (from 0 (above k c g)).
Proof.
  intros. rewrite map2_tab. apply tab_ext. intros i _. unfold from, fromx, above. change (i <? 0)%nat with false. cbv iota.
  destruct (i <? k)%nat; cbn; [reflexivity|]. destruct (Rlt_dec _ _); reflexivity.
Qed.
Lemma below_tab : forall n k c g, map2 (fun x y : xr => if (x <.? y)%F then (#1)%F else (#0)%F) (tab n (from 0 c)) (tab n (from k g)) =
  tab n (from 0 (below k c g)).
Proof.
  intros. rewrite map2_tab. apply tab_ext. intros i _. unfold from, fromx, below. change (i <? 0)%nat with false. cbv iota.
  destruct (i <? k)%nat; cbn; [reflexivity|]. destruct (Rlt_dec _ _); reflexivity.
Qed.
Lemma bb_indicators : forall fl w d n h l c v, (1 <= w)%nat ->
  compute (BbHI (Z.of_nat w) (Fin d)) fl (frame n h l c v) =
    Ok (tab n (from 0 (above (warm fl w) c (fun i => wmean w c i + d * wstd w c i)))) /\
  compute (BbLI (Z.of_nat w) (Fin d)) fl (frame n h l c v) =
    Ok (tab n (from 0 (below (warm fl w) c (fun i => wmean w c i - d * wstd w c i)))).
Proof.
  intros. cbn [compute]. cols. unfold bollinger_hband_indicator, bollinger_lband_indicator.
  rewrite bb_run_formula by auto. cbn [bind bb_mavg bb_hband bb_lband]. rewrite above_tab, below_tab.
  now rewrite !check_fin by (reflexivity || lia).
Qed.
Lemma wstd_nonneg : forall w c i, 0 <= wstd w c i.
Proof. intros. apply sqrt_pos. Qed.
Lemma position_beyond : forall lo hi x p, lo <= hi -> position lo hi x = Fin p ->
  (hi < x <-> 1 < p) /\ (x < lo <-> p < 0).
Proof.
  intros lo hi x p H E. unfold position in E. destruct (Req_EM_T hi lo); [discriminate|]. injection E as <-.
  assert (0 < hi - lo) by lra. assert (I : 0 < / (hi - lo)) by now apply Rinv_0_lt_compat.
  assert (X : x = (x - lo) / (hi - lo) * (hi - lo) + lo) by (field; lra).
  set (q := (x - lo) / (hi - lo)) in *. split; split; intros; nra.
Qed.
Lemma bb_indicators_pband : forall w d n h l c v i p po ho lo, (1 <= w)%nat -> 0 <= d -> (i < n)%nat ->
  compute (BbP (Z.of_nat w) (Fin d)) false (frame n h l c v) = Ok po -> nth i po NaN = Fin p ->
  compute (BbHI (Z.of_nat w) (Fin d)) false (frame n h l c v) = Ok ho ->
  compute (BbLI (Z.of_nat w) (Fin d)) false (frame n h l c v) = Ok lo ->
  (nth i ho NaN = Fin 1 <-> 1 < p) /\ (nth i lo NaN = Fin 1 <-> p < 0).
Proof.
  intros w d n h l c v i p po ho lo Hw Hd Hi E1 Ep E2 E3.
  destruct (bb_pband_formula false w d n h l c v Hw) as (o & Eo & ->). rewrite Eo in E1. injection E1 as <-.
  destruct (bb_indicators false w d n h l c v Hw) as (F1 & F2). rewrite F1 in E2. rewrite F2 in E3.
  injection E2 as <-. injection E3 as <-. rewrite !nth_tab in * by auto. unfold from, fromx, above, below in *.
  change (i <? 0)%nat with false. cbv iota. cbn [warm] in *. destruct (i <? w - 1)%nat; [discriminate|].
  pose proof (wstd_nonneg w c i). apply position_beyond in Ep; [|nra]. destruct Ep as [P1 P2].
  assert (J : forall a b : R, Fin a = Fin b -> a = b) by (now intros a b [= ->]).
  destruct (Rlt_dec _ _), (Rlt_dec _ _); split; split; intros Q; try tauto; try reflexivity; try (apply J in Q; lra); lra.
Qed.
(** Samuelson: the newest of k+1 numbers is within sqrt k deviations of their mean *)
Lemma cauchy_sum : forall f a k, rsum f a k * rsum f a k <= INR k * rsum (fun j => f j * f j) a k.
Proof.
  induction k; [cbn; lra|]. rewrite S_INR. cbn [rsum]. set (s := rsum f a k) in *. set (q := rsum (fun j => f j * f j) a k) in *.
  set (x := f (a + k)%nat). pose proof (pos_INR k).
  assert (2 * s * x <= INR k * (x * x) + q).
  { destruct k; [subst s q; cbn; lra|]. assert (0 < INR (S k)) by (apply lt_0_INR; lia). set (m := INR (S k)) in *.
    assert (0 <= (s - m * x) * (s - m * x)) by apply Rle_0_sqr.
    apply Rmult_le_reg_l with m; auto. nra. }
  nra.
Qed.
Lemma rsum_sub_const : forall f a k x, rsum (fun j => f j - x) a k = rsum f a k - INR k * x.
Proof. induction k; intros; cbn [rsum]; [cbn; lra|]. rewrite IHk, S_INR. lra. Qed.
Lemma samuelson : forall w c i d, (1 <= w)%nat -> 0 <= d -> INR w - 1 <= d * d ->
  Rabs (c i - wmean w c i) <= d * wstd w c i.
Proof.
  intros w c i d Hw Hd H. unfold wstd. set (mu := wmean w c i). set (V := wmean w (fun j => (c j - mu) * (c j - mu)) i).
  set (k := (wlen w i - 1)%nat). assert (K : wlen w i = S k) by (unfold k, wlen; lia).
  assert (KW : INR k <= INR w - 1).
  { replace (INR w - 1) with (INR (w - 1)) by (rewrite minus_INR; [cbn; lra|lia]). apply le_INR. unfold k, wlen. lia. }
  assert (Ki : (wlo w i + k = i)%nat) by (unfold k, wlo, wlen; lia).
  set (g := fun j => c j - mu).
  assert (Z : rsum g (wlo w i) k = - g i).
  { assert (T : rsum g (wlo w i) (S k) = 0).
    { unfold g. rewrite rsum_sub_const. unfold mu, wmean, wsum. rewrite K. field. apply not_0_INR. lia. }
    cbn [rsum] in T. rewrite Ki in T. lra. }
  assert (VV : INR (S k) * V = rsum (fun j => g j * g j) (wlo w i) k + g i * g i).
  { unfold V, wmean, wsum. rewrite K. cbn [rsum]. rewrite Ki. unfold g. field. apply not_0_INR. lia. }
  pose proof (cauchy_sum g (wlo w i) k) as C. rewrite Z in C. rewrite S_INR in VV.
  set (q := rsum (fun j => g j * g j) _ _) in *. pose proof (pos_INR k).
  assert (V0 : g i * g i <= INR k * V) by nra.
  assert (VP : 0 <= V).
  { assert (0 <= q) by (apply rsum_nonneg; intros; apply Rle_0_sqr). assert (0 <= g i * g i) by apply Rle_0_sqr. nra. }
  apply Rsqr_incr_0_var; [|apply Rmult_le_pos; auto; apply sqrt_pos].
  rewrite <- Rsqr_abs. fold (g i). rewrite Rsqr_mult, Rsqr_sqrt by auto. unfold Rsqr. nra.
Qed.
Lemma bb_never_fires : forall fl w d n h l c v, (1 <= w)%nat -> 0 <= d -> INR w - 1 <= d * d ->
  compute (BbHI (Z.of_nat w) (Fin d)) fl (frame n h l c v) = Ok (tab n (fun _ => Fin 0)) /\
  compute (BbLI (Z.of_nat w) (Fin d)) fl (frame n h l c v) = Ok (tab n (fun _ => Fin 0)).
Proof.
  intros fl w d n h l c v Hw Hd H. destruct (bb_indicators fl w d n h l c v Hw) as (E1 & E2). rewrite E1, E2.
  split; f_equal; apply tab_ext; intros i _; unfold from, fromx, above, below; change (i <? 0)%nat with false; cbv iota;
    destruct (_ <? _)%nat; auto; pose proof (samuelson w c i d Hw Hd H) as S;
    pose proof (Rle_abs (c i - wmean w c i)); pose proof (Rle_abs (- (c i - wmean w c i))) as A; rewrite Rabs_Ropp in A;
    destruct (Rlt_dec _ _); auto; lra.
Qed.
