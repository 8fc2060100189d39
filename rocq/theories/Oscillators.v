(** * Oscillators: momentum formulas on finite data (C20-C24, C26, C30, C31). *)
From Coq Require Import FunctionalExtensionality.
From Verif Require Import Lists Api SpecNum Align Rows Fill Tab Averages Range.
Local Open Scope R_scope.

Lemma shows_check : forall fl z raw, (z =? -1)%Z = false -> (-1000 <= z <= 1000)%Z ->
  shows fl z raw (Ok (check_fillna fl (FillInt z) raw)).
Proof.
  intros [|] z raw H1 H2; eexists; (split; [reflexivity|]); [|reflexivity]. exact (check_const_filled z raw H1 H2).
Qed.
Lemma shows_check_back : forall fl raw, shows_back fl raw (Ok (check_fillna fl (FillInt (-1)) raw)).
Proof. intros [|] raw; eexists; (split; [reflexivity|]); [|reflexivity]. apply back_filled. Qed.
Lemma gaps_warm : forall fl z w n g, tab n (gaps fl z (warm fl w) g) = tab n (from (warm fl w) g).
Proof. intros. apply tab_ext. intros i _. unfold gaps, from, fromx, warm. destruct fl; [reflexivity|]. now destruct (_ <? _)%nat. Qed.

(** ** C20 *)
Lemma gain_tab : forall n c, map (fun d => if (#0 <.? d)%F then d else (#0)%F) (tab n (from 1 (delta c))) =
  tab n (from 0 (gain c)).
Proof.
  intros. rewrite map_tab. apply tab_ext. intros i _. unfold from, fromx, gain. destruct i; cbn; auto.
  destruct (Rlt_dec 0 (delta c (S i))); f_equal; unfold Rmax; destruct (Rle_dec _ _); lra.
Qed.
Lemma loss_tab : forall n c, map (fun d => fopp (if (d <.? #0)%F then d else (#0)%F)) (tab n (from 1 (delta c))) =
  tab n (from 0 (loss c)).
Proof.
  intros. rewrite map_tab. apply tab_ext. intros i _. unfold from, fromx, loss. destruct i; cbn; [f_equal; lra|].
  destruct (Rlt_dec (delta c (S i)) 0); cbn; f_equal; unfold Rmax; destruct (Rle_dec _ _); lra.
Qed.
Lemma wilder_tab : forall fl w n k g, (1 <= w)%nat ->
  ewm_inv_alpha (Z.of_nat w) (minp_of fl (Z.of_nat w)) (tab n (from k g)) =
  Ok (tab n (from (k + warm fl w) (wilder w g k))).
Proof.
  intros. unfold minp_of, warm. destruct fl.
  - rewrite (wilder_from w 0) by auto. do 3 f_equal. lia.
  - rewrite (wilder_from w w) by auto. do 3 f_equal. lia.
Qed.
Lemma exp_nonneg : forall a f k j, 0 < a <= 1 -> (forall t, (k <= t <= k + j)%nat -> 0 <= f t) -> 0 <= exp_go a f k j.
Proof.
  induction j; intros Ha H; cbn [exp_go]; [apply H; lia|].
  assert (0 <= exp_go a f k j) by (apply IHj; auto; intros; apply H; lia).
  pose proof (H (k + S j)%nat ltac:(lia)). nra.
Qed.
Lemma gain_nonneg : forall c i, 0 <= gain c i.
Proof. intros. unfold gain. destruct (_ =? _); [lra|]. apply Rmax_l. Qed.
Lemma loss_nonneg : forall c i, 0 <= loss c i.
Proof. intros. unfold loss. destruct (_ =? _); [lra|]. apply Rmax_l. Qed.
Lemma wilder_nonneg : forall w f k i, (1 <= w)%nat -> (forall t, 0 <= f t) -> 0 <= wilder w f k i.
Proof. intros. unfold wilder, expavg. apply exp_nonneg; auto using wilder_range. Qed.
Lemma rsi_formula : forall fl w n h l c v, (1 <= w)%nat ->
  compute (Rsi (Z.of_nat w)) fl (frame n h l c v) =
  Ok (tab n (from (warm fl w) (fun i => rsi_value (wilder w (gain c) 0 i) (wilder w (loss c) 0 i)))).
Proof.
  intros. cbn [compute]. cols. unfold rsi, rsi_run. rewrite diff1_from, gain_tab, loss_tab.
  rewrite !wilder_tab by auto. cbn [bind rmap Nat.add]. unfold sdiv. rewrite map2_tab, map2_tab.
  etransitivity; [|rewrite <- gaps_warm with (z := 50%Z), <- check_from by (reflexivity || lia); reflexivity].
  do 2 f_equal. apply tab_ext. intros i _. unfold from, fromx. destruct (Nat.ltb_spec i (warm fl w)); [reflexivity|].
  pose proof (wilder_nonneg w (gain c) 0 i H (gain_nonneg c)).
  pose proof (wilder_nonneg w (loss c) 0 i H (loss_nonneg c)).
  generalize dependent (wilder w (gain c) 0 i). generalize dependent (wilder w (loss c) 0 i). intros b Hb a Ha.
  unfold rsi_value. cbn. destruct (Req_EM_T b 0); auto. cbn.
  assert (0 <= a / b) by (apply Rmult_le_pos; auto; apply Rlt_le, Rinv_0_lt_compat; lra).
  destruct (Req_EM_T (1 + a / b) 0); [exfalso; lra|]. reflexivity.
Qed.

(** ** C21 *)
Lemma exp_zero : forall a f k j, (forall t, (k <= t <= k + j)%nat -> f t = 0) -> exp_go a f k j = 0.
Proof.
  induction j; intros H; cbn [exp_go]; [apply H; lia|].
  rewrite IHj by (intros; apply H; lia). rewrite H by lia. ring.
Qed.
Lemma exp_positive : forall a f j t, 0 < a < 1 -> (forall t, 0 <= f t) -> (t <= j)%nat -> 0 < f t -> 0 < exp_go a f 0 j.
Proof.
  intros a f j t Ha H Ht Hp. induction j.
  - replace t with 0%nat in Hp by lia. exact Hp.
  - cbn [exp_go]. destruct (Nat.eq_dec t (S j)) as [->|].
    + assert (0 <= exp_go a f 0 j) by (apply exp_nonneg; [lra|auto]). cbn [Nat.add]. nra.
    + specialize (IHj ltac:(lia)). pose proof (H (0 + S j)%nat). nra.
Qed.
Lemma row_rsi : forall fl w n h l c v i d, (1 <= w)%nat -> (warm fl w <= i < n)%nat ->
  nth i (tab n (from (warm fl w) (fun i => rsi_value (wilder w (gain c) 0 i) (wilder w (loss c) 0 i)))) d =
  nth i (match compute (Rsi (Z.of_nat w)) fl (frame n h l c v) with Ok o => o | Raise _ => [] end) NaN.
Proof. intros. rewrite rsi_formula by auto. apply nth_indep. rewrite len_tab. lia. Qed.
Lemma rsi_rising : forall fl w n h l c v i out, (1 <= w)%nat -> (warm fl w <= i < n)%nat ->
  (forall j, (1 <= j <= i)%nat -> c (j - 1)%nat <= c j) ->
  compute (Rsi (Z.of_nat w)) fl (frame n h l c v) = Ok out -> nth i out NaN = Fin 100.
Proof.
  intros fl w n h l c v i out Hw Hi H E. rewrite rsi_formula in E by auto. injection E as <-.
  rewrite nth_tab by lia. unfold from, fromx. destruct (Nat.ltb_spec i (warm fl w)); [lia|].
  replace (wilder w (loss c) 0 i) with 0.
  - unfold rsi_value. destruct (Req_EM_T 0 0); [reflexivity|lra].
  - symmetry. unfold wilder, expavg. apply exp_zero. intros t Ht. unfold loss.
    destruct (Nat.eqb_spec t 0); auto. unfold delta. specialize (H t ltac:(lia)).
    unfold Rmax. destruct (Rle_dec _ _); lra.
Qed.
Lemma rsi_falling : forall fl w n h l c v i t out, (1 <= w)%nat -> (warm fl w <= i < n)%nat ->
  (forall j, (1 <= j <= i)%nat -> c j <= c (j - 1)%nat) ->
  (1 <= t <= i)%nat -> c t < c (t - 1)%nat -> (2 <= w)%nat \/ t = i ->
  compute (Rsi (Z.of_nat w)) fl (frame n h l c v) = Ok out -> nth i out NaN = Fin 0.
Proof.
  intros fl w n h l c v i t out Hw Hi H Ht Hf Hd E. rewrite rsi_formula in E by auto. injection E as <-.
  rewrite nth_tab by lia. unfold from, fromx. destruct (Nat.ltb_spec i (warm fl w)); [lia|].
  replace (wilder w (gain c) 0 i) with 0.
  - assert (P : 0 < wilder w (loss c) 0 i).
    { assert (L : 0 < loss c t).
      { unfold loss. destruct (Nat.eqb_spec t 0); [lia|]. unfold delta, Rmax. destruct (Rle_dec _ _); lra. }
      unfold wilder, expavg. rewrite Nat.sub_0_r. destruct (Nat.eq_dec t i) as [->|N].
      - destruct i as [|i]; [lia|]. cbn [exp_go]. pose proof (wilder_range w Hw).
        assert (0 <= exp_go (1 / INR w) (loss c) 0 i) by (apply exp_nonneg; auto using loss_nonneg).
        cbn [Nat.add]. nra.
      - apply exp_positive with t; auto using loss_nonneg; [|lia].
        assert (2 <= INR w) by (apply (le_INR 2); destruct Hd; [auto|lia]).
        split; [apply Rdiv_lt_0_compat; lra|]. apply Rmult_lt_reg_r with (INR w); [lra|].
        unfold Rdiv. rewrite Rmult_assoc, Rinv_l; lra. }
    unfold rsi_value. destruct (Req_EM_T _ 0); [lra|]. f_equal. field. lra.
  - symmetry. unfold wilder, expavg. apply exp_zero. intros j Hj. unfold gain.
    destruct (Nat.eqb_spec j 0); auto. unfold delta. specialize (H j ltac:(lia)).
    unfold Rmax. destruct (Rle_dec _ _); lra.
Qed.

(** ** C23 *)
Lemma map2_fromx : forall (g : xr -> xr -> xr) n k k' f f', (forall x, g NaN x = NaN) -> (forall x, g x NaN = NaN) ->
  map2 g (tab n (fromx k f)) (tab n (fromx k' f')) = tab n (fromx (Nat.max k k') (fun i => g (f i) (f' i))).
Proof.
  intros. rewrite map2_tab. apply tab_ext. intros i _. unfold fromx.
  destruct (Nat.ltb_spec i k), (Nat.ltb_spec i k'), (Nat.ltb_spec i (Nat.max k k')); try lia; auto.
Qed.
Lemma stoch_run_formula : forall fl w n h l c, (1 <= w)%nat ->
  stoch_run (tab n (from 0 h)) (tab n (from 0 l)) (tab n (from 0 c)) (Z.of_nat w) fl =
  Ok (tab n (fromx (warm fl w) (fun i => ratio (100 * (c i - wmin w l i)) (wmax w h i - wmin w l i)))).
Proof.
  intros. unfold stoch_run. rewrite min_tab, max_tab by auto. cbn [bind].
  rewrite !ssub_from. cbn [fofZ XR]. rewrite scal_from, sdiv_from. do 3 f_equal. lia.
Qed.
Lemma stoch_formula : forall fl w s n h l c v, (1 <= w)%nat ->
  shows fl 50 (tab n (fromx (warm fl w) (fun i => ratio (100 * (c i - wmin w l i)) (wmax w h i - wmin w l i))))
    (compute (Stoch (Z.of_nat w) s) fl (frame n h l c v)).
Proof.
  intros. cbn [compute]. cols. unfold stoch. rewrite stoch_run_formula by auto. cbn [rmap].
  apply shows_check; (reflexivity || lia).
Qed.

(** ** C22 *)
Lemma rmax_ge : forall f a k j, (a <= j <= a + k)%nat -> f j <= rmax f a k.
Proof.
  induction k; intros j Hj; cbn [rmax]; [replace j with a by lia; lra|].
  destruct (Nat.eq_dec j (a + S k)) as [->|]; [apply Rmax_r|].
  eapply Rle_trans; [apply IHk; lia|apply Rmax_l].
Qed.
Lemma rmin_le : forall f a k j, (a <= j <= a + k)%nat -> rmin f a k <= f j.
Proof.
  induction k; intros j Hj; cbn [rmin]; [replace j with a by lia; lra|].
  destruct (Nat.eq_dec j (a + S k)) as [->|]; [apply Rmin_r|].
  eapply Rle_trans; [apply Rmin_l|apply IHk; lia].
Qed.
Lemma wmax_ge : forall w f i j, (1 <= w)%nat -> (wlo w i <= j <= i)%nat -> f j <= wmax w f i.
Proof. intros. apply rmax_ge. unfold wlo, wlen in *. lia. Qed.
Lemma wmin_le : forall w f i j, (1 <= w)%nat -> (wlo w i <= j <= i)%nat -> wmin w f i <= f j.
Proof. intros. apply rmin_le. unfold wlo, wlen in *. lia. Qed.
Lemma rmax_att : forall f a k, exists j, (a <= j <= a + k)%nat /\ rmax f a k = f j.
Proof.
  induction k; cbn [rmax]; [exists a; split; [lia|auto]|].
  destruct IHk as (j & Hj & E). destruct (Rle_dec (rmax f a k) (f (a + S k)%nat)).
  - exists (a + S k)%nat. split; [lia|]. now rewrite Rmax_right.
  - exists j. split; [lia|]. rewrite Rmax_left by lra. auto.
Qed.
Lemma rmin_att : forall f a k, exists j, (a <= j <= a + k)%nat /\ rmin f a k = f j.
Proof.
  induction k; cbn [rmin]; [exists a; split; [lia|auto]|].
  destruct IHk as (j & Hj & E). destruct (Rle_dec (f (a + S k)%nat) (rmin f a k)).
  - exists (a + S k)%nat. split; [lia|]. now rewrite Rmin_right.
  - exists j. split; [lia|]. rewrite Rmin_left by lra. auto.
Qed.
Lemma wmax_att : forall w f i, (1 <= w)%nat -> exists j, (wlo w i <= j <= i)%nat /\ wmax w f i = f j.
Proof. intros. destruct (rmax_att f (wlo w i) (wlen w i - 1)) as (j & Hj & E). exists j. split; auto. unfold wlo, wlen in *; lia. Qed.
Lemma wmin_att : forall w f i, (1 <= w)%nat -> exists j, (wlo w i <= j <= i)%nat /\ wmin w f i = f j.
Proof. intros. destruct (rmin_att f (wlo w i) (wlen w i - 1)) as (j & Hj & E). exists j. split; auto. unfold wlo, wlen in *; lia. Qed.

Lemma stoch_run_within : forall fl w n h l c, (1 <= w)%nat -> sane n h l c ->
  Forall (within 0 100) (tab n (fromx (warm fl w) (fun i => ratio (100 * (c i - wmin w l i)) (wmax w h i - wmin w l i)))).
Proof.
  intros fl w n h l c Hw S. apply Forall_nth_xr. rewrite len_tab. intros i Hi. rewrite nth_tab by auto.
  unfold fromx. destruct (_ <? _)%nat; [exact I|].
  rewrite <- xdiv_ratio. apply pct_ratio. specialize (S i Hi).
  pose proof (wmax_ge w h i i Hw ltac:(unfold wlo; lia)). pose proof (wmin_le w l i i Hw ltac:(unfold wlo; lia)). lra.
Qed.
Lemma stoch_range : forall fl w s n h l c v, (1 <= w)%nat -> sane n h l c ->
  (forall out, compute (Stoch (Z.of_nat w) s) fl (frame n h l c v) = Ok out -> Forall (within 0 100) out) /\
  (forall out, compute (StochSignal (Z.of_nat w) s) fl (frame n h l c v) = Ok out -> Forall (within 0 100) out).
Proof.
  intros fl w s n h l c v Hw S. cbn [compute]. cols. unfold stoch, stoch_signal.
  rewrite stoch_run_formula by auto. cbn [rmap bind].
  pose proof (stoch_run_within fl w n h l c Hw S). split; intros out E; inv_ok;
    apply check_within; try (reflexivity || lia || lra); auto.
  eapply rolling_mean_within; eauto.
Qed.

(** ** C24, arbitrary data *)
Lemma wr_row : forall HH LL cl : xr, fpred (fun _ => True) HH -> fpred (fun _ => True) LL ->
  (((#-100) **. (HH -. cl)) /. (HH -. LL) = ((#100) **. (cl -. LL)) /. (HH -. LL) -. #100)%F.
Proof.
  intros HH LL cl H1 H2.
  destruct HH as [| | |H]; cbn in H1; try easy; destruct LL as [| | |L]; cbn in H2; try easy.
  - change NaN with (@fnan xr XR). now rewrite !sub_nan_l', !div_nan_r', !sub_nan_l'.
  - change NaN with (@fnan xr XR). now rewrite !sub_nan_l', !div_nan_r', sub_nan_l'.
  - change NaN with (@fnan xr XR). now rewrite !sub_nan_r', !div_nan_r', sub_nan_l'.
  - destruct cl as [| | |c]; cbn; try reflexivity.
    + unfold rsign. destruct (Rlt_dec 0 (-100)); [lra|]. destruct (Rlt_dec (-100) 0); [|lra].
      destruct (Rlt_dec 0 100); [|lra]. cbn. destruct (Rlt_dec (H + - L) 0); reflexivity.
    + unfold rsign. destruct (Rlt_dec 0 (-100)); [lra|]. destruct (Rlt_dec (-100) 0); [|lra].
      destruct (Rlt_dec 0 100); [|lra]. cbn. destruct (Rlt_dec (H + - L) 0); reflexivity.
    + destruct (Req_EM_T (H + - L) 0).
      * assert (H = L) by lra. subst.
        replace (rsign (-100 * (L + - c))) with (rsign (100 * (c + - L))).
        -- unfold rsign. destruct (Rlt_dec 0 _); [reflexivity|]. destruct (Rlt_dec _ 0); reflexivity.
        -- f_equal. lra.
      * cbn. f_equal. field. lra.
Qed.
Lemma fill_minus : forall z z' s, fill_go (Fin (z - z')) (map (fun x => fsub x (Fin z')) s) =
  map (fun x => fsub x (Fin z')) (fill_go (Fin z) s).
Proof.
  intros z z' s. change (Fin (z - z')) with ((Fin z -. Fin z')%F). generalize (Fin z). clear z.
  induction s as [|x s IH]; intros v; cbn [map fill_go]; auto.
  replace (ffinite (fsub x (Fin z'))) with (ffinite x) by (destruct x; reflexivity).
  destruct (ffinite x); f_equal; auto.
Qed.
Lemma agg_max_any : forall m l, Forall (fpred (fun _ => True)) l -> fpred (fun _ => True) (win_max m l).
Proof.
  intros m l H. destruct (obs_pred _ _ H) as (rs & E & _). unfold win_max, nanmax. rewrite E.
  destruct (_ <? _); [exact I|]. destruct rs as [|y rs]; [exact I|]. cbn [map].
  destruct (fold_max_ge rs y) as (M & -> & _). exact I.
Qed.
Lemma agg_min_any : forall m l, Forall (fpred (fun _ => True)) l -> fpred (fun _ => True) (win_min m l).
Proof.
  intros m l H. destruct (obs_pred _ _ H) as (rs & E & _). unfold win_min, nanmin. rewrite E.
  destruct (_ <? _); [exact I|]. destruct rs as [|y rs]; [exact I|]. cbn [map].
  destruct (fold_min_le rs y) as (M & -> & _). exact I.
Qed.
Lemma wr_list : forall hh ll (c : list xr), Forall (fpred (fun _ => True)) hh -> Forall (fpred (fun _ => True)) ll ->
  sdiv (scal (#-100)%F (ssub hh c)) (ssub hh ll) =
  map (fun x => fsub x (Fin 100)) (sdiv (scal (#100)%F (ssub c ll)) (ssub hh ll)).
Proof.
  unfold sdiv, scal, ssub. induction hh as [|x hh IH]; intros [|y ll] [|z c] H1 H2; try reflexivity.
  inversion H1; inversion H2; subst. cbn [map map2]. f_equal; auto. now apply wr_row.
Qed.
Lemma wr_stoch : forall w s fl rows,
  compute (WilliamsR w) fl rows = rmap (map (fun x => fsub x (Fin 100))) (compute (Stoch w s) fl rows).
Proof.
  intros w s fl rows. cbn [compute]. unfold williams_r, stoch, stoch_run.
  destruct (rolling w (minp_of fl w) agg_max (map b_high rows)) as [hh|] eqn:E1.
  2:{ unfold rolling in *. destruct (_ || _); [|discriminate]. cbn. now injection E1 as <-. }
  destruct (rolling w (minp_of fl w) agg_min (map b_low rows)) as [ll|] eqn:E2.
  2:{ unfold rolling in *. destruct (_ || _); discriminate. }
  cbn [bind rmap]. f_equal. rewrite wr_list.
  - destruct fl; [|reflexivity]. rewrite !check_const by (reflexivity || lia).
    cbn [fofZ XR]. rewrite <- fill_minus. f_equal. f_equal. lra.
  - eapply rolling_pred; [|apply prep_any|exact E1]. intros. now apply agg_max_any.
  - eapply rolling_pred; [|apply prep_any|exact E2]. intros. now apply agg_min_any.
Qed.
Lemma wr_range : forall fl w n h l c v out, (1 <= w)%nat -> sane n h l c ->
  compute (WilliamsR (Z.of_nat w)) fl (frame n h l c v) = Ok out -> Forall (within (-100) 0) out.
Proof.
  intros fl w n h l c v out Hw S E. rewrite wr_stoch with (s := 1%Z) in E.
  destruct (compute (Stoch _ _) _ _) as [o|] eqn:E'; [|discriminate]. injection E as <-.
  destruct (stoch_range fl w 1%Z n h l c v Hw S) as [R _]. apply R in E'.
  eapply Forall_map_i; [|exact E']. intros [| | |a] Ha; cbn in *; auto. lra.
Qed.

(** ** C26: extremes *)
Lemma exp_pos : forall a f k j, 0 < a <= 1 -> (forall t, (k <= t <= k + j)%nat -> 0 < f t) -> 0 < exp_go a f k j.
Proof.
  induction j; intros Ha H; cbn [exp_go]; [apply H; lia|].
  assert (0 < exp_go a f k j) by (apply IHj; auto; intros; apply H; lia).
  pose proof (H (k + S j)%nat ltac:(lia)). nra.
Qed.
Lemma exp_opp : forall a f k j, exp_go a (fun t => - f t) k j = - exp_go a f k j.
Proof. induction j; cbn [exp_go]; [reflexivity|]. rewrite IHj. ring. Qed.
Lemma tsi_formula : forall fl s f n h l c v, (1 <= s)%nat -> (1 <= f)%nat ->
  let k := (1 + warm fl s)%nat in
  shows fl 0 (tab n (fromx (k + warm fl f)
      (fun i => fmul (ratio (ema f (ema s (delta c) 1) k i) (ema f (ema s (fun t => Rabs (delta c t)) 1) k i)) (Fin 100))))
    (compute (Tsi (Z.of_nat s) (Z.of_nat f)) fl (frame n h l c v)).
Proof.
  intros fl s f n h l c v Hs Hf k. cbn [compute]. cols. unfold tsi, tsi_run.
  change (ssub (tab n (from 0 c)) (shift 1 (tab n (from 0 c)))) with (diff1 (tab n (from 0 c))).
  rewrite diff1_from, abs_from. change (fun fl w s0 => ewm_span w (minp_of fl w) s0) with (fun fl w s0 => ema_ s0 w fl).
  assert (E : forall q w k g, (1 <= w)%nat -> ewm_span (Z.of_nat w) (minp_of fl (Z.of_nat w)) (tab q (from k g)) =
     Ok (tab q (from (k + warm fl w) (ema w g k)))) by (intros; now apply ema_tab).
  repeat (rewrite E by auto; cbn [bind]). cbn [rmap]. fold k. rewrite sdiv_from, Nat.max_id.
  unfold muls. rewrite map_tab.
  assert (X : forall A B B', B = B' -> shows fl 0 B' A -> shows fl 0 B A) by (intros; now subst).
  match goal with |- shows _ _ ?r (Ok (check_fillna _ _ ?r')) => replace r' with r; [apply shows_check; (reflexivity || lia)|] end.
  apply tab_ext. intros i _. unfold fromx. now destruct (_ <? _)%nat.
Qed.
Lemma tsi_row : forall fl s f n h l c v out i A B, (1 <= s)%nat -> (1 <= f)%nat ->
  let k := (1 + warm fl s)%nat in (k + warm fl f <= i < n)%nat ->
  compute (Tsi (Z.of_nat s) (Z.of_nat f)) fl (frame n h l c v) = Ok out ->
  ema f (ema s (delta c) 1) k i = A -> ema f (ema s (fun t => Rabs (delta c t)) 1) k i = B -> B <> 0 ->
  nth i out NaN = Fin (A / B * 100).
Proof.
  intros fl s f n h l c v out i A B Hs Hf k Hi E HA HB N.
  destruct (tsi_formula fl s f n h l c v Hs Hf) as (o & E' & Sh). fold k in Sh. rewrite E in E'. injection E' as <-.
  assert (R : nth i (tab n (fromx (k + warm fl f)
      (fun i => fmul (ratio (ema f (ema s (delta c) 1) k i) (ema f (ema s (fun t => Rabs (delta c t)) 1) k i)) (Fin 100)))) NaN
     = Fin (A / B * 100)).
  { rewrite nth_tab by lia. unfold fromx. destruct (Nat.ltb_spec i (k + warm fl f)); [lia|].
    rewrite HA, HB, ratio_fin by auto. reflexivity. }
  destruct fl; [|now subst]. destruct Sh as [L Sh]. rewrite len_tab in Sh.
  change NaN with (@fnan xr XR) in *. rewrite Sh by lia. rewrite R. reflexivity.
Qed.
Lemma ema_ext' : forall w f g k i, (forall t, (k <= t <= Nat.max k i)%nat -> f t = g t) -> ema w f k i = ema w g k i.
Proof. intros. unfold ema, expavg. apply exp_ext. intros. apply H. lia. Qed.
Lemma ema_posk : forall w f k i, (1 <= w)%nat -> (forall t, (k <= t <= Nat.max k i)%nat -> 0 < f t) -> 0 < ema w f k i.
Proof. intros. unfold ema, expavg. apply exp_pos; [now apply span_range|]. intros. apply H0. lia. Qed.
Lemma ema_opp : forall w f k i, ema w (fun t => - f t) k i = - ema w f k i.
Proof. intros. apply exp_opp. Qed.
Lemma tsi_rising : forall fl s f n h l c v out i, (1 <= s)%nat -> (1 <= f)%nat ->
  (1 + warm fl s + warm fl f <= i < n)%nat -> (forall j, (1 <= j <= i)%nat -> c (j - 1)%nat < c j) ->
  compute (Tsi (Z.of_nat s) (Z.of_nat f)) fl (frame n h l c v) = Ok out -> nth i out NaN = Fin 100.
Proof.
  intros fl s f n h l c v out i Hs Hf Hi H E.
  assert (D : forall t, (1 <= t <= i)%nat -> 0 < delta c t) by (intros t Ht; unfold delta; specialize (H t Ht); lra).
  assert (P1 : forall t, (1 + warm fl s <= t <= i)%nat -> 0 < ema s (delta c) 1 t).
  { intros t Ht. apply ema_posk; auto. intros. apply D. lia. }
  assert (P : 0 < ema f (ema s (delta c) 1) (1 + warm fl s) i).
  { apply ema_posk; auto. intros. apply P1. lia. }
  rewrite (tsi_row fl s f n h l c v out i _ (ema f (ema s (delta c) 1) (1 + warm fl s) i) Hs Hf Hi E eq_refl).
  - f_equal. field. lra.
  - apply ema_ext'. intros t Ht. apply ema_ext'. intros u Hu. apply Rabs_pos_eq. specialize (D u ltac:(lia)). lra.
  - lra.
Qed.
Lemma tsi_falling : forall fl s f n h l c v out i, (1 <= s)%nat -> (1 <= f)%nat ->
  (1 + warm fl s + warm fl f <= i < n)%nat -> (forall j, (1 <= j <= i)%nat -> c j < c (j - 1)%nat) ->
  compute (Tsi (Z.of_nat s) (Z.of_nat f)) fl (frame n h l c v) = Ok out -> nth i out NaN = Fin (-100).
Proof.
  intros fl s f n h l c v out i Hs Hf Hi H E. set (d := fun t => - delta c t).
  assert (D : forall t, (1 <= t <= i)%nat -> 0 < d t) by (intros t Ht; unfold d, delta; specialize (H t Ht); lra).
  assert (P1 : forall t, (1 + warm fl s <= t <= i)%nat -> 0 < ema s d 1 t).
  { intros t Ht. apply ema_posk; auto. intros. apply D. lia. }
  assert (P : 0 < ema f (ema s d 1) (1 + warm fl s) i).
  { apply ema_posk; auto. intros. apply P1. lia. }
  rewrite (tsi_row fl s f n h l c v out i (- ema f (ema s d 1) (1 + warm fl s) i) (ema f (ema s d 1) (1 + warm fl s) i) Hs Hf Hi E).
  - f_equal. field. lra.
  - rewrite <- ema_opp. apply ema_ext'. intros t Ht. rewrite <- ema_opp. apply ema_ext'. intros u Hu. unfold d. ring.
  - apply ema_ext'. intros t Ht. apply ema_ext'. intros u Hu. unfold d. specialize (D u ltac:(lia)). unfold d in D.
    rewrite Rabs_left by lra. reflexivity.
  - lra.
Qed.

(** ** C31 *)
Lemma half_fin : fhalf = Fin (1 / 2).
Proof. unfold fhalf. cbn. destruct (Req_EM_T 2 0); [lra|reflexivity]. Qed.
Lemma ao_formula : forall fl w1 w2 n h l c v, (1 <= w1)%nat -> (1 <= w2)%nat ->
  let m := fun i => (h i + l i) / 2 in
  compute (AwesomeOsc (Z.of_nat w1) (Z.of_nat w2)) fl (frame n h l c v) =
  Ok (tab n (from (warm fl (Nat.max w1 w2)) (fun i => wmean w1 m i - wmean w2 m i))).
Proof.
  intros. cbn [compute]. cols. unfold awesome_oscillator. rewrite sadd_from, half_fin, scal_from.
  rewrite !mean_tab by auto. cbn [bind]. rewrite ssub_from, warm_max by auto.
  rewrite check_from, gaps_warm by (reflexivity || lia). do 2 f_equal. f_equal. apply functional_extensionality. intros i.
  f_equal; unfold wmean, wsum; f_equal; apply rsum_ext; intros; unfold m; lra.
Qed.
Lemma stoch_signal_formula : forall fl w s n h l c v, (1 <= w)%nat -> (1 <= s)%nat ->
  (forall i, (i < n)%nat -> wmin w l i <> wmax w h i) ->
  let k := fun i => 100 * (c i - wmin w l i) / (wmax w h i - wmin w l i) in
  compute (StochSignal (Z.of_nat w) (Z.of_nat s)) fl (frame n h l c v) =
  Ok (tab n (from (warm fl w + warm fl s) (wmean s k))).
Proof.
  intros fl w s n h l c v Hw Hs H k. cbn [compute]. cols. unfold stoch_signal. rewrite stoch_run_formula by auto. cbn [bind].
  replace (tab n (fromx (warm fl w) (fun i => ratio (100 * (c i - wmin w l i)) (wmax w h i - wmin w l i))))
    with (tab n (from (warm fl w) k)).
  - destruct fl; cbn [minp_of rmap].
    + rewrite (mean_part s 0) by lia. cbn [rmap]. rewrite check_from by (reflexivity || lia). reflexivity.
    + rewrite mean_full by lia. cbn [rmap check_fillna warm]. do 3 f_equal. lia.
  - apply fromx_ext. intros i Hi. rewrite ratio_fin; [reflexivity|]. specialize (H i ltac:(lia)). lra.
Qed.
