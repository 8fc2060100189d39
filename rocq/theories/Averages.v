(** * Averages: moving averages, MACD, PPO, PVO on finite data (C12-C18). *)
From Verif Require Import Lists Api SpecNum Rows Fill Tab.
Local Open Scope R_scope.

(** ** real-number facts *)
Lemma rsum_bounds : forall f a k m M, (forall j, (a <= j < a + k)%nat -> m <= f j <= M) ->
  INR k * m <= rsum f a k <= INR k * M.
Proof.
  induction k; intros m M H; [cbn; lra|]. rewrite S_INR. cbn [rsum].
  assert (INR k * m <= rsum f a k <= INR k * M) by (apply IHk; intros; apply H; lia).
  pose proof (H (a + k)%nat ltac:(lia)). lra.
Qed.
Lemma mean_bounds : forall f a k m M, (1 <= k)%nat -> (forall j, (a <= j < a + k)%nat -> m <= f j <= M) ->
  m <= rsum f a k / INR k <= M.
Proof.
  intros. assert (0 < INR k) by (apply lt_0_INR; lia). pose proof (rsum_bounds f a k m M H0).
  split; apply Rmult_le_reg_r with (INR k); auto; unfold Rdiv; rewrite Rmult_assoc, Rinv_l by lra; lra.
Qed.
Lemma wmean_bounds : forall w f i m M, (1 <= w)%nat ->
  (forall j, (wlo w i <= j <= i)%nat -> m <= f j <= M) -> m <= wmean w f i <= M.
Proof.
  intros. apply mean_bounds; [now apply wlen_pos|]. intros j Hj. apply H0.
  unfold wlo, wlen in *. lia.
Qed.
Lemma exp_bounds : forall a f k j m M, 0 < a <= 1 -> (forall t, (k <= t <= k + j)%nat -> m <= f t <= M) ->
  m <= exp_go a f k j <= M.
Proof.
  induction j; intros m M Ha H; cbn [exp_go]; [apply H; lia|].
  assert (m <= exp_go a f k j <= M) by (apply IHj; auto; intros; apply H; lia).
  pose proof (H (k + S j)%nat ltac:(lia)). nra.
Qed.
Lemma span_range : forall w, (1 <= w)%nat -> 0 < 2 / (INR w + 1) <= 1.
Proof.
  intros. assert (1 <= INR w) by (apply (le_INR 1); lia). split.
  - apply Rdiv_lt_0_compat; lra.
  - apply Rmult_le_reg_r with (INR w + 1); [lra|]. unfold Rdiv. rewrite Rmult_assoc, Rinv_l; lra.
Qed.
Lemma wilder_range : forall w, (1 <= w)%nat -> 0 < 1 / INR w <= 1.
Proof.
  intros. assert (1 <= INR w) by (apply (le_INR 1); lia). split.
  - apply Rdiv_lt_0_compat; lra.
  - apply Rmult_le_reg_r with (INR w); [lra|]. unfold Rdiv. rewrite Rmult_assoc, Rinv_l; lra.
Qed.
Lemma ema_bounds : forall w f k i m M, (1 <= w)%nat -> (forall t, (k <= t <= Nat.max k i)%nat -> m <= f t <= M) ->
  m <= ema w f k i <= M.
Proof.
  intros. apply exp_bounds; [now apply span_range|]. intros. apply H0. lia.
Qed.
Lemma exp_const : forall a f k j x, (forall t, (k <= t <= k + j)%nat -> f t = x) -> exp_go a f k j = x.
Proof. induction j; intros; cbn [exp_go]; [apply H; lia|]. rewrite (IHj x), H; try lia; [ring|]. intros. apply H. lia. Qed.
Lemma ema_const : forall w f k i x, (k <= i)%nat -> (forall t, (k <= t <= i)%nat -> f t = x) -> ema w f k i = x.
Proof. intros. apply exp_const. intros. apply H0. lia. Qed.
Lemma exp_ext : forall a f g k j, (forall t, (k <= t <= k + j)%nat -> f t = g t) -> exp_go a f k j = exp_go a g k j.
Proof. induction j; intros; cbn [exp_go]; [apply H; lia|]. rewrite IHj, H; auto; try lia. intros. apply H. lia. Qed.
Lemma ema_ext : forall w f g k i, (k <= i)%nat -> (forall t, (k <= t <= i)%nat -> f t = g t) -> ema w f k i = ema w g k i.
Proof. intros. apply exp_ext. intros. apply H0. lia. Qed.
Lemma exp_unroll : forall a f j,
  exp_go a f 0 j = rsum (fun k => a * (1 - a) ^ k * f (j - k)%nat) 0 j + (1 - a) ^ j * f 0%nat.
Proof.
  assert (R1 : forall f k, rsum f 0 (S k) = f 0%nat + rsum (fun j => f (S j)) 0 k).
  { induction k; cbn [rsum] in *; [cbn; lra|]. rewrite IHk. cbn. lra. }
  assert (RM : forall c f a k, rsum (fun j => c * f j) a k = c * rsum f a k).
  { induction k; cbn [rsum]; [lra|]. rewrite IHk. ring. }
  intros a f. induction j; [cbn; lra|]. cbn [exp_go]. rewrite IHj, R1. cbn [pow Nat.sub Nat.add].
  rewrite (rsum_ext (fun k => a * ((1 - a) * (1 - a) ^ k) * f (j - k)%nat)
                    (fun k => (1 - a) * (a * (1 - a) ^ k * f (j - k)%nat))) by (intros; ring).
  rewrite RM. ring.
Qed.

(** ** C12, C13 *)
Lemma sma_formula : forall fl w n h l c v, (1 <= w)%nat ->
  compute (Sma (Z.of_nat w)) fl (frame n h l c v) = Ok (tab n (from (warm fl w) (wmean w c))).
Proof. intros. cbn [compute]. rewrite close_tab, tab_from0. exact (mean_tab fl w n c H). Qed.
Lemma ema_formula : forall fl w n h l c v, (1 <= w)%nat ->
  compute (Ema (Z.of_nat w)) fl (frame n h l c v) = Ok (tab n (from (warm fl w) (ema w c 0))).
Proof. intros. cbn [compute]. rewrite close_tab, tab_from0. exact (ema_tab fl w n 0 c H). Qed.

(** ** C15 *)
Lemma wma_sum : forall w (c : nat -> R) a k, (1 <= w)%nat ->
  map2 fmul (map (fun i => fofZ (Z.of_nat i * 2) /. fofZ (Z.of_nat w * (Z.of_nat w + 1)))%F (seq 1 k))
       (map (fun j => Fin (c j)) (seq a k)) =
  map (fun j => Fin (INR (S (j - a)) * c j * 2 / (INR w * (INR w + 1)))) (seq a k).
Proof.
  intros w c a k Hw. assert (1 <= INR w) by (apply (le_INR 1); lia).
  apply list_eq_nth with NaN; [rewrite length_map2, !map_length, !seq_length; lia|].
  rewrite length_map2, !map_length, !seq_length. intros i Hi.
  rewrite nth_map2 with (da := NaN) (db := NaN) by (rewrite map_length, seq_length; lia).
  rewrite !nth_map_seq by lia.
  change (@fdiv xr XR) with xdiv. change (@fmul xr XR) with xmul. cbn [fofZ XR].
  rewrite !mult_IZR, plus_IZR, <- !INR_IZR_INZ. rewrite xdiv_fin by nra. cbn [xmul]. f_equal.
  replace (a + i - a)%nat with i by lia. change (1 + i)%nat with (S i). field. nra.
Qed.
Lemma rsum_shift : forall f a k, rsum f a k = rsum (fun j => f (a + j)%nat) 0 k.
Proof. induction k; cbn [rsum]; auto. rewrite IHk. reflexivity. Qed.
Lemma rsum_scal : forall c f a k, rsum (fun j => c * f j) a k = c * rsum f a k.
Proof. induction k; cbn [rsum]; [lra|]. rewrite IHk. ring. Qed.
Lemma rsum_plus : forall f g a k, rsum (fun j => f j + g j) a k = rsum f a k + rsum g a k.
Proof. induction k; cbn [rsum]; [lra|]. rewrite IHk. ring. Qed.
Lemma rsum_const : forall x a k, rsum (fun _ => x) a k = INR k * x.
Proof. induction k; [cbn; lra|]. rewrite S_INR. cbn [rsum]. rewrite IHk. ring. Qed.

Lemma wma_formula : forall fl w n h l c v, (1 <= w)%nat ->
  compute (Wma (Z.of_nat w)) fl (frame n h l c v) = Ok (tab n (gaps fl 0 (w - 1) (wma_value w c))).
Proof.
  intros fl w n h l c v Hw. cbn [compute]. rewrite close_tab, tab_from0. unfold wma, from.
  rewrite rolling_full by auto using std_apply. cbn [bind]. rewrite <- check_from by (reflexivity || lia).
  do 2 f_equal. replace (0 + w - 1)%nat with (w - 1)%nat by lia. apply fromx_ext. intros i Hi.
  rewrite wlen_full by lia. cbn [xprep xisinf]. unfold win_agg, agg_apply, agg_max, agg_min, win_apply.
  rewrite obs_tab, map_length, seq_length, Nat.leb_refl. unfold wma_weights. rewrite Nat2Z.id.
  rewrite wma_sum by auto. rewrite ssum_obs, obs_tab, fsum_tab. f_equal. unfold wma_value.
  rewrite rsum_shift. set (D := INR w * (INR w + 1) / 2). set (f := fun j => INR (S j) * c (S i - w + j)%nat).
  replace (rsum f 0 w / D) with (/ D * rsum f 0 w) by (unfold Rdiv; ring). rewrite <- rsum_scal. subst f D.
  apply rsum_ext. intros j Hj. unfold wlo. replace (S i - w + j - (S i - w))%nat with j by lia.
  assert (1 <= INR w) by (apply (le_INR 1); lia). field. lra.
Qed.

Lemma wma_bounds : forall w c i m M, (1 <= w)%nat -> (w <= S i)%nat ->
  (forall j, (S i - w <= j <= i)%nat -> m <= c j <= M) -> m <= wma_value w c i <= M.
Proof.
  intros w c i m M Hw Hi H. unfold wma_value. assert (1 <= INR w) by (apply (le_INR 1); lia).
  assert (T : forall k, rsum (fun j => INR (S j)) 0 k = INR k * (INR k + 1) / 2).
  { induction k; [cbn; lra|]. cbn [rsum]. rewrite IHk. cbn [Nat.add]. rewrite S_INR. field. }
  assert (B : forall k, (k <= w)%nat ->
    m * rsum (fun j => INR (S j)) 0 k <= rsum (fun j => INR (S j) * c (S i - w + j)%nat) 0 k
      <= M * rsum (fun j => INR (S j)) 0 k).
  { induction k; intros Hk; [cbn; lra|]. cbn [rsum Nat.add]. specialize (IHk ltac:(lia)).
    pose proof (H (S i - w + k)%nat ltac:(lia)). pose proof (pos_INR (S k)). nra. }
  specialize (B w ltac:(lia)). rewrite T in B. set (D := INR w * (INR w + 1) / 2) in *.
  assert (0 < D) by (unfold D; nra).
  split; apply Rmult_le_reg_r with D; auto; unfold Rdiv; rewrite Rmult_assoc, Rinv_l by lra; lra.
Qed.

(** ** C17 *)
Ltac cols := rewrite ?close_tab, ?high_tab, ?low_tab, ?volume_tab, ?tab_from0.

Lemma macd_run_formula : forall fl s f g n c, (1 <= s)%nat -> (1 <= f)%nat -> (1 <= g)%nat ->
  let k := warm fl (Nat.max f s) in
  let line := fun i => ema f c 0 i - ema s c 0 i in
  macd_run (tab n (from 0 c)) (Z.of_nat s) (Z.of_nat f) (Z.of_nat g) fl =
  Ok (tab n (from k line), tab n (from (k + warm fl g) (ema g line k)),
      tab n (from (k + warm fl g) (fun i => line i - ema g line k i))).
Proof.
  intros. unfold macd_run. rewrite !ema_tab by auto. cbn [bind]. rewrite ssub_from. cbn [Nat.add].
  rewrite warm_max by auto. fold k. fold line. rewrite ema_tab by auto. cbn [bind].
  rewrite ssub_from. rewrite Nat.max_r by lia. reflexivity.
Qed.
Lemma macd_formula : forall fl s f g n h l c v, (1 <= s)%nat -> (1 <= f)%nat -> (1 <= g)%nat ->
  let k := warm fl (Nat.max f s) in
  let line := fun i => ema f c 0 i - ema s c 0 i in
  compute (Macd (Z.of_nat s) (Z.of_nat f) (Z.of_nat g)) fl (frame n h l c v) =
    Ok (tab n (gaps fl 0 k line)) /\
  compute (MacdSignal (Z.of_nat s) (Z.of_nat f) (Z.of_nat g)) fl (frame n h l c v) =
    Ok (tab n (gaps fl 0 (k + warm fl g) (ema g line k))) /\
  compute (MacdDiff (Z.of_nat s) (Z.of_nat f) (Z.of_nat g)) fl (frame n h l c v) =
    Ok (tab n (gaps fl 0 (k + warm fl g) (fun i => line i - ema g line k i))).
Proof.
  intros. cbn [compute]. cols. unfold macd, macd_signal, macd_diff.
  rewrite macd_run_formula by auto. cbn [bind]. rewrite !check_from by (reflexivity || lia). auto.
Qed.

(** ** C18 *)
Lemma ppo_run_formula : forall fl s f g n c, (1 <= s)%nat -> (1 <= f)%nat -> (1 <= g)%nat ->
  (forall i, (i < n)%nat -> ema s c 0 i <> 0) ->
  let k := warm fl (Nat.max f s) in
  let line := fun i => (ema f c 0 i - ema s c 0 i) / ema s c 0 i * 100 in
  ppo_run (tab n (from 0 c)) (Z.of_nat s) (Z.of_nat f) (Z.of_nat g) fl =
  Ok (tab n (from k line), tab n (from (k + warm fl g) (ema g line k)),
      tab n (from (k + warm fl g) (fun i => line i - ema g line k i))).
Proof.
  intros. unfold ppo_run. rewrite !ema_tab by auto. cbn [bind]. rewrite ssub_from. cbn [Nat.add].
  rewrite warm_max by auto. rewrite sdiv_from_fin by (intros; apply H2; lia).
  cbn [fofZ XR]. rewrite muls_from. replace (Nat.max (warm fl (Nat.max f s)) (warm fl s)) with k by (unfold k, warm; destruct fl; lia).
  fold line. rewrite ema_tab by auto. cbn [bind]. rewrite ssub_from. rewrite Nat.max_r by lia. reflexivity.
Qed.
Lemma ppo_formula : forall fl s f g n h l c v, (1 <= s)%nat -> (1 <= f)%nat -> (1 <= g)%nat ->
  (forall i, (i < n)%nat -> ema s c 0 i <> 0) ->
  let k := warm fl (Nat.max f s) in
  let line := fun i => (ema f c 0 i - ema s c 0 i) / ema s c 0 i * 100 in
  compute (Ppo (Z.of_nat s) (Z.of_nat f) (Z.of_nat g)) fl (frame n h l c v) =
    Ok (tab n (gaps fl 0 k line)) /\
  compute (PpoSignal (Z.of_nat s) (Z.of_nat f) (Z.of_nat g)) fl (frame n h l c v) =
    Ok (tab n (gaps fl 0 (k + warm fl g) (ema g line k))) /\
  compute (PpoHist (Z.of_nat s) (Z.of_nat f) (Z.of_nat g)) fl (frame n h l c v) =
    Ok (tab n (gaps fl 0 (k + warm fl g) (fun i => line i - ema g line k i))).
Proof.
  intros. cbn [compute]. cols. unfold ppo, ppo_signal, ppo_hist.
  rewrite ppo_run_formula by auto. cbn [bind]. rewrite !check_from by (reflexivity || lia). auto.
Qed.
Lemma pvo_ppo : forall h l c v h' l' v' n s f g fl,
  compute (Pvo s f g) fl (frame n h l c v) = compute (Ppo s f g) fl (frame n h' l' v v') /\
  compute (PvoSignal s f g) fl (frame n h l c v) = compute (PpoSignal s f g) fl (frame n h' l' v v') /\
  compute (PvoHist s f g) fl (frame n h l c v) = compute (PpoHist s f g) fl (frame n h' l' v v').
Proof. intros. cbn [compute]. cols. auto. Qed.
Lemma ema_pos : forall w f i, (1 <= w)%nat -> (forall t, (t <= i)%nat -> 0 < f t) -> 0 < ema w f 0 i.
Proof.
  intros w f i Hw H. unfold ema, expavg. pose proof (span_range w Hw) as Ha. rewrite Nat.sub_0_r.
  revert H. generalize (2 / (INR w + 1)) Ha. clear. intros a Ha. induction i; intros H; cbn [exp_go]; [apply H; lia|].
  pose proof (H (0 + S i)%nat ltac:(lia)). assert (0 < exp_go a f 0 i) by (apply IHi; intros; apply H; lia). nra.
Qed.

(** ** C16 *)
Lemma row_from : forall n k g i x, (i < n)%nat -> nth i (tab n (from k g)) NaN = Fin x -> (k <= i)%nat /\ x = g i.
Proof.
  intros n k g i x Hi H. rewrite nth_tab in H by auto. unfold from, fromx in H.
  destruct (Nat.ltb_spec i k); [discriminate|]. injection H as <-. auto.
Qed.
Lemma sma_in_range : forall fl w n h l c v out i x m M, (1 <= w)%nat -> (i < n)%nat ->
  compute (Sma (Z.of_nat w)) fl (frame n h l c v) = Ok out -> nth i out NaN = Fin x ->
  (forall j, (i < j + w)%nat -> (j <= i)%nat -> m <= c j <= M) -> m <= x <= M.
Proof.
  intros fl w n h l c v out i x m M Hw Hi H Hx B. rewrite sma_formula in H by auto. injection H as <-.
  apply row_from in Hx; auto. destruct Hx as [_ ->]. apply wmean_bounds; auto.
  intros. apply B; unfold wlo in *; lia.
Qed.
Lemma ema_in_range : forall fl w n h l c v out i x m M, (1 <= w)%nat -> (i < n)%nat ->
  compute (Ema (Z.of_nat w)) fl (frame n h l c v) = Ok out -> nth i out NaN = Fin x ->
  (forall j, (j <= i)%nat -> m <= c j <= M) -> m <= x <= M.
Proof.
  intros fl w n h l c v out i x m M Hw Hi H Hx B. rewrite ema_formula in H by auto. injection H as <-.
  apply row_from in Hx; auto. destruct Hx as [_ ->]. apply ema_bounds; auto.
  intros. apply B; lia.
Qed.
Lemma wma_in_range : forall fl w n h l c v out i x m M, (1 <= w)%nat -> (w - 1 <= i < n)%nat ->
  compute (Wma (Z.of_nat w)) fl (frame n h l c v) = Ok out -> nth i out NaN = Fin x ->
  (forall j, (i < j + w)%nat -> (j <= i)%nat -> m <= c j <= M) -> m <= x <= M.
Proof.
  intros fl w n h l c v out i x m M Hw Hi H Hx B. rewrite wma_formula in H by auto. injection H as <-.
  rewrite nth_tab in Hx by lia. unfold gaps in Hx. destruct (Nat.ltb_spec i (w - 1)); [lia|]. injection Hx as <-.
  apply wma_bounds; try lia. intros. apply B; lia.
Qed.
Lemma macd_const : forall fl s f g n h l c v p, (1 <= s)%nat -> (1 <= f)%nat -> (1 <= g)%nat ->
  (forall i, (i < n)%nat -> c i = p) ->
  let k := warm fl (Nat.max f s) in
  compute (Macd (Z.of_nat s) (Z.of_nat f) (Z.of_nat g)) fl (frame n h l c v) =
    Ok (tab n (gaps fl 0 k (fun _ => 0))) /\
  compute (MacdSignal (Z.of_nat s) (Z.of_nat f) (Z.of_nat g)) fl (frame n h l c v) =
    Ok (tab n (gaps fl 0 (k + warm fl g) (fun _ => 0))) /\
  compute (MacdDiff (Z.of_nat s) (Z.of_nat f) (Z.of_nat g)) fl (frame n h l c v) =
    Ok (tab n (gaps fl 0 (k + warm fl g) (fun _ => 0))).
Proof.
  intros fl s f g n h l c v p Hs Hf Hg Hc k.
  destruct (macd_formula fl s f g n h l c v Hs Hf Hg) as (E1 & E2 & E3). cbv zeta in E1, E2, E3. fold k in E1, E2, E3.
  assert (L0 : forall i, (i < n)%nat -> ema f c 0 i - ema s c 0 i = 0).
  { intros i Hi. rewrite !(ema_const _ c 0 i p); [lra|lia| |lia|]; intros; apply Hc; lia. }
  assert (S0 : forall i, (k <= i < n)%nat -> ema g (fun i => ema f c 0 i - ema s c 0 i) k i = 0).
  { intros i Hi. apply ema_const; [lia|]. intros. apply L0. lia. }
  rewrite E1, E2, E3. repeat split; f_equal; apply tab_ext; intros i Hi; unfold gaps;
    destruct (Nat.ltb_spec i (k + warm fl g)); destruct (Nat.ltb_spec i k); auto; try lia;
    rewrite ?L0, ?S0 by lia; auto; f_equal; lra.
Qed.
