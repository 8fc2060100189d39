(** * Flows: volume indicators on finite data (C53, C54, C56-C58). *)
From Verif Require Import Lists Api SpecNum Align Rows Fill Tab Averages Range Oscillators Returns TrueRange Bands Channels.
Local Open Scope R_scope.

Lemma cumsum_seq : forall g m a x, cumsum_go (Fin x) (map (fun i => Fin (g i)) (seq a m)) =
  map (fun i => Fin (x + rsum g a (S i - a))) (seq a m).
Proof.
  induction m; intros a x; [reflexivity|]. cbn [seq map cumsum_go fisnan XR xisnan fadd xadd].
  replace (S a - a)%nat with 1%nat by lia. cbn [rsum]. rewrite Nat.add_0_r, Rplus_0_l. f_equal.
  rewrite IHm. apply map_ext_seq. intros i Hi. f_equal.
  assert (S1 : forall k b, rsum g b (S k) = g b + rsum g (S b) k).
  { induction k; intros b; [cbn [rsum]; rewrite Nat.add_0_r; lra|]. cbn [rsum] in *. rewrite IHk.
    replace (S b + k)%nat with (b + S k)%nat by lia. lra. }
  replace (S i - a)%nat with (S (S i - S a)) by lia. rewrite S1. lra.
Qed.
Lemma cumsum_from : forall k n g, cumsum (tab n (from k g)) = tab n (from k (fun i => rsum g k (S i - k))).
Proof.
  intros. unfold cumsum. cbn [fofZ XR]. unfold tab.
  cut (forall m a, (a <= k)%nat -> cumsum_go (Fin 0) (map (from k g) (seq a m)) = map (from k (fun i => rsum g k (S i - k))) (seq a m)).
  { intros H. apply H. lia. }
  induction m; intros a Ha; [reflexivity|]. destruct (Nat.eq_dec a k) as [->|N].
  - transitivity (cumsum_go (Fin 0) (map (fun i => Fin (g i)) (seq k (S m)))).
    + f_equal. apply map_ext_seq. intros i Hi. unfold from, fromx. destruct (Nat.ltb_spec i k); [lia|reflexivity].
    + rewrite cumsum_seq. apply map_ext_seq. intros i Hi. unfold from, fromx. destruct (Nat.ltb_spec i k); [lia|]. f_equal. lra.
  - cbn [seq map]. unfold from at 1 3, fromx. destruct (Nat.ltb_spec a k); [|lia]. cbn [cumsum_go fisnan XR xisnan fnan].
    f_equal. apply IHm. lia.
Qed.

Lemma fin_inj : forall a b, Fin a = Fin b -> a = b.
Proof. intros a b H. congruence. Qed.

(** ** C53 *)
Lemma signed_tab : forall n c v, map3 (fun x p y : xr => if (x <.? p)%F then fopp y else y) (tab n (from 0 c)) (shift 1 (tab n (from 0 c)))
  (tab n (from 0 v)) = tab n (from 0 (signed_volume c v)).
Proof.
  intros. rewrite shift1_from, map3_tab. apply tab_ext. intros i _. unfold from, fromx. change (i <? 0)%nat with false. cbv iota.
  destruct i as [|i]; [reflexivity|]. cbn [Nat.ltb Nat.leb signed_volume]. replace (S i - 1)%nat with i by lia.
  cbn. destruct (Rlt_dec _ _); reflexivity.
Qed.
Lemma obv_formula : forall fl n h l c v,
  compute Obv fl (frame n h l c v) = Ok (tab n (from 0 (fun i => rsum (signed_volume c v) 0 (S i)))).
Proof.
  intros. cbn [compute]. cols. unfold on_balance_volume. rewrite signed_tab, cumsum_from.
  now rewrite check_fin by (reflexivity || lia).
Qed.
Lemma clv_tab : forall n h l c, sane n h l c ->
  clv (tab n (from 0 h)) (tab n (from 0 l)) (tab n (from 0 c)) = tab n (from 0 (location h l c)).
Proof.
  intros n h l c HS. unfold clv. rewrite !ssub_from, sdiv_from. unfold fillna_const. rewrite map_tab. apply tab_ext. intros i Hi.
  specialize (HS i Hi). unfold from, fromx. cbn [Nat.max]. change (i <? 0)%nat with false. cbv iota. unfold location, ratio.
  destruct (Req_EM_T (h i) (l i)), (Req_EM_T (h i - l i) 0); try lra; [|reflexivity].
  destruct (Rlt_dec _ _); [lra|]. destruct (Rlt_dec _ _); [lra|]. reflexivity.
Qed.
Lemma adi_formula : forall fl n h l c v, sane n h l c ->
  compute Adi fl (frame n h l c v) = Ok (tab n (from 0 (fun i => rsum (fun j => location h l c j * v j) 0 (S i)))).
Proof.
  intros. cbn [compute]. cols. unfold acc_dist_index. rewrite clv_tab by auto. rewrite smul_from, cumsum_from.
  now rewrite check_fin by (reflexivity || lia).
Qed.
Lemma location_range : forall h l c i, l i <= c i <= h i -> -1 <= location h l c i <= 1.
Proof.
  intros. unfold location. destruct (Req_EM_T _ _); [lra|].
  split; apply Rmult_le_reg_r with (h i - l i); try lra; unfold Rdiv; rewrite Rmult_assoc, Rinv_l by lra; lra.
Qed.
Lemma adi_step : forall fl n h l c v out i x y, sane n h l c -> (S i < n)%nat ->
  compute Adi fl (frame n h l c v) = Ok out -> nth i out NaN = Fin x -> nth (S i) out NaN = Fin y ->
  Rabs (y - x) <= Rabs (v (S i)).
Proof.
  intros fl n h l c v out i x y HS Hi E Ex Ey. rewrite adi_formula in E by auto. injection E as <-.
  rewrite nth_tab in Ex, Ey by lia. unfold from, fromx in *. change (i <? 0)%nat with false in Ex. change (S i <? 0)%nat with false in Ey.
  cbv iota in *. assert (X : x = rsum (fun j => location h l c j * v j) 0 (S i)) by (symmetry; now apply fin_inj).
  assert (Y : y = rsum (fun j => location h l c j * v j) 0 (S (S i))) by (symmetry; now apply fin_inj).
  cbn [rsum] in X, Y. rewrite <- X in Y. cbn [Nat.add] in Y. replace (y - x) with (location h l c (S i) * v (S i)) by lra.
  rewrite Rabs_mult. pose proof (location_range h l c (S i) (HS (S i) Hi)). pose proof (Rabs_pos (v (S i))).
  assert (Rabs (location h l c (S i)) <= 1) by (apply Rabs_le; lra). nra.
Qed.

(** ** C54 *)
Lemma cmf_formula : forall fl w n h l c v, (1 <= w)%nat -> sane n h l c ->
  shows fl 0 (tab n (fromx (warm fl w) (fun i => ratio (wsum w (fun j => location h l c j * v j) i) (wsum w v i))))
    (compute (Cmf (Z.of_nat w)) fl (frame n h l c v)).
Proof.
  intros. cbn [compute]. cols. unfold chaikin_money_flow. rewrite clv_tab by auto. rewrite smul_from. cbn [Nat.max].
  rewrite !sum_tab by auto. cbn [bind]. rewrite sdiv_from, Nat.max_id. apply shows_check; (reflexivity || lia).
Qed.
Lemma ratio_within_pm : forall a b, - b <= a <= b -> within (-1) 1 (ratio a b).
Proof.
  intros a b H. unfold ratio. destruct (Req_EM_T b 0).
  - destruct (Rlt_dec 0 a); [lra|]. destruct (Rlt_dec a 0); [lra|]. exact I.
  - cbn. split; apply Rmult_le_reg_r with b; try lra; unfold Rdiv; rewrite Rmult_assoc, Rinv_l by lra; lra.
Qed.
Lemma cmf_range : forall fl w n h l c v out, (1 <= w)%nat -> sane n h l c -> (forall i, (i < n)%nat -> 0 <= v i) ->
  compute (Cmf (Z.of_nat w)) fl (frame n h l c v) = Ok out -> Forall (within (-1) 1) out.
Proof.
  intros fl w n h l c v out Hw HS HV E. eapply shows_within; [|apply (cmf_formula fl w n h l c v Hw HS)| |exact E]; [lra|].
  apply Forall_nth_xr. rewrite len_tab. intros i Hi. rewrite nth_tab by auto. unfold fromx. destruct (_ <? _)%nat; [exact I|].
  apply ratio_within_pm. unfold wsum.
  assert (B : forall j, (wlo w i <= j < wlo w i + wlen w i)%nat -> -1 * v j <= location h l c j * v j <= v j).
  { intros j Hj. assert (j < n)%nat by (unfold wlo, wlen in Hj; lia). pose proof (location_range h l c j (HS j H)). specialize (HV j H). nra. }
  split.
  - replace (- rsum v (wlo w i) (wlen w i)) with (rsum (fun j => -1 * v j) (wlo w i) (wlen w i)).
    + apply rsum_le. intros. apply B. auto.
    + generalize (wlen w i). intros k. induction k; cbn [rsum]; [lra|]. rewrite IHk. lra.
  - apply rsum_le. intros. apply B. auto.
Qed.

(** ** C56 *)
Lemma typical_tab : forall n h l c, divs (sadd (sadd (tab n (from 0 h)) (tab n (from 0 l))) (tab n (from 0 c))) (Fin 3) =
  tab n (from 0 (typical h l c)).
Proof. intros. rewrite !sadd_from. cbn [Nat.max]. rewrite divs3. reflexivity. Qed.
Lemma vwap_formula : forall fl w n h l c v, (1 <= w)%nat ->
  shows fl 0 (tab n (fromx (warm fl w) (fun i => ratio (wsum w (fun j => typical h l c j * v j) i) (wsum w v i))))
    (compute (Vwap (Z.of_nat w)) fl (frame n h l c v)).
Proof.
  intros. cbn [compute]. cols. unfold volume_weighted_average_price. cbn [fofZ XR]. rewrite typical_tab, smul_from. cbn [Nat.max].
  rewrite !sum_tab by auto. cbn [bind]. rewrite sdiv_from, Nat.max_id. apply shows_check; (reflexivity || lia).
Qed.
Lemma shows_row : forall fl z n f res out i r, shows fl z (tab n f) res -> res = Ok out -> (i < n)%nat -> f i = Fin r ->
  nth i out NaN = Fin r.
Proof.
  intros fl z n f res out i r (o & E & H) E' Hi Hf. rewrite E in E'. injection E' as <-. destruct fl.
  - destruct H as (L & H). rewrite len_tab in *. change NaN with (@fnan xr XR). rewrite H by auto. rewrite nth_tab by auto. now rewrite Hf.
  - subst. now rewrite nth_tab.
Qed.
Lemma vwap_range : forall fl w n h l c v out i, (1 <= w)%nat -> sane n h l c -> (forall i, (i < n)%nat -> 0 <= v i) ->
  compute (Vwap (Z.of_nat w)) fl (frame n h l c v) = Ok out -> (warm fl w <= i < n)%nat -> wsum w v i <> 0 ->
  exists x, nth i out NaN = Fin x /\ wmin w l i <= x <= wmax w h i.
Proof.
  intros fl w n h l c v out i Hw HS HV E Hi N. eexists. split.
  - eapply shows_row; [apply (vwap_formula fl w n h l c v Hw)|exact E|lia|]. unfold fromx.
    destruct (Nat.ltb_spec i (warm fl w)); [lia|]. now apply ratio_fin.
  - assert (P : 0 < wsum w v i).
    { assert (0 <= wsum w v i); [|lra]. apply rsum_nonneg. intros. apply HV. unfold wlo, wlen in *. lia. }
    assert (B : forall j, (wlo w i <= j < wlo w i + wlen w i)%nat -> wmin w l i * v j <= typical h l c j * v j <= wmax w h i * v j).
    { intros j Hj. assert (Hj' : (wlo w i <= j <= i)%nat) by (unfold wlo, wlen in *; lia).
      pose proof (wmax_ge w h i j Hw Hj'). pose proof (wmin_le w l i j Hw Hj'). specialize (HS j ltac:(lia)). specialize (HV j ltac:(lia)).
      unfold typical. nra. }
    assert (S1 : forall x a k, rsum (fun j => x * v j) a k = x * rsum v a k) by (induction k; cbn [rsum]; [lra|]; rewrite IHk; lra).
    split; apply Rmult_le_reg_r with (wsum w v i); auto; unfold Rdiv; rewrite Rmult_assoc, Rinv_l, Rmult_1_r by lra;
      unfold wsum; rewrite <- S1; apply rsum_le; intros; apply B; auto.
Qed.

(** ** C57 *)
Lemma ffill_fin : forall m a x g, ffill_go x (map (fun i => Fin (g i)) (seq a m)) = map (fun i => Fin (g i)) (seq a m).
Proof. induction m; intros; [reflexivity|]. cbn [seq map ffill_go fisnan XR xisnan]. f_equal. apply IHm. Qed.
Lemma pct_from : forall n c, (forall i, (i < n)%nat -> c i <> 0) ->
  pct_change (tab n (from 0 c)) = tab n (from 1 (fun i => c i / c (i - 1)%nat - 1)).
Proof.
  intros n c H. unfold pct_change. replace (ffill (tab n (from 0 c))) with (tab n (from 0 c)) by (symmetry; apply ffill_fin).
  rewrite shift1_from, sdiv_from_fin by (intros; apply H; lia). cbn [fofZ XR]. now rewrite subs_from.
Qed.
Lemma nvi_go_seq : forall c v m a x,
  nvi_go (Fin x) (map (from 1 (fun i => c i / c (i - 1)%nat - 1)) (seq (S a) m))
    (map (fun i => Fin (v i)) (seq a m)) (map (fun i => Fin (v i)) (seq (S a) m)) =
  map (fun i => Fin (x * rprod (nvi_factor c v) (S a) (i - a))) (seq (S a) m).
Proof.
  induction m; intros a x; [reflexivity|]. cbn [seq map nvi_go].
  assert (E : (if Fin (v (S a)) <.? Fin (v a) then Fin x **. (#1 +. from 1 (fun i => c i / c (i - 1)%nat - 1) (S a)) else Fin x)%F =
    Fin (x * nvi_factor c v (S a))).
  { unfold from, fromx, nvi_factor. cbn [Nat.ltb Nat.leb]. replace (S a - 1)%nat with a by lia. cbn.
    destruct (Rlt_dec _ _); cbn; f_equal; lra. }
  rewrite E. replace (S a - a)%nat with 1%nat by lia. cbn [rprod]. rewrite Nat.add_0_r, Rmult_1_l. f_equal.
  specialize (IHm (S a) (x * nvi_factor c v (S a))). cbn [seq map] in IHm |- *. rewrite IHm. apply map_ext_seq. intros i Hi. f_equal.
  assert (P1 : forall f k b, rprod f b (S k) = f b * rprod f (S b) k).
  { intros f. induction k; intros b; [cbn [rprod]; rewrite Nat.add_0_r; lra|]. cbn [rprod] in *. rewrite IHk.
    replace (S b + k)%nat with (b + S k)%nat by lia. lra. }
  replace (i - a)%nat with (S (i - S a)) by lia. rewrite P1. lra.
Qed.
Lemma seq_tl : forall {B} n (f : nat -> B), tl (tab (S n) f) = map f (seq 1 n).
Proof. reflexivity. Qed.
Lemma nvi_formula : forall fl n h l c v, (1 <= n)%nat -> (forall i, (i < n)%nat -> c i <> 0) ->
  compute Nvi fl (frame n h l c v) = Ok (tab n (from 0 (fun i => 1000 * rprod (nvi_factor c v) 1 i))).
Proof.
  intros fl n h l c v Hn H. cbn [compute]. cols. unfold negative_volume_index. rewrite pct_from by auto.
  destruct n as [|n]; [lia|]. rewrite !seq_tl.
  assert (E : exists r, tab (S n) (from 0 c) = Fin (c 0%nat) :: r) by (eexists; reflexivity).
  destruct E as (r & E). rewrite E. f_equal. cbn [fofZ XR].
  assert (G : nvi_go (Fin 1000) (map (from 1 (fun i => c i / c (i - 1)%nat - 1)) (seq 1 n)) (tab (S n) (from 0 v)) (map (from 0 v) (seq 1 n)) =
    map (fun i => Fin (1000 * rprod (nvi_factor c v) 1 (i - 0))) (seq 1 n)).
  { rewrite <- nvi_go_seq. unfold tab. rewrite seq_S, map_app. 
    assert (T : forall x y z a b, length y = length a -> nvi_go x a (y ++ z) b = nvi_go x a y b).
    { clear. intros x y z a. revert x y z. induction a; intros x y z b L; destruct y; try discriminate; [reflexivity|]. 
      cbn [app nvi_go]. destruct b; auto. f_equal. apply IHa. auto. }
    apply T. now rewrite !map_length, !seq_length. }
  rewrite G. replace (Fin 1000 :: map (fun i => Fin (1000 * rprod (nvi_factor c v) 1 (i - 0))) (seq 1 n)) with
    (tab (S n) (from 0 (fun i => 1000 * rprod (nvi_factor c v) 1 i))).
  - now rewrite check_fin by (reflexivity || lia).
  - unfold tab. cbn [seq map]. unfold from at 1, fromx. cbn [Nat.ltb Nat.leb rprod]. f_equal; [f_equal; lra|].
    apply map_ext_seq. intros i Hi. unfold from, fromx. cbn [Nat.ltb Nat.leb]. now rewrite Nat.sub_0_r.
Qed.
Lemma rprod_pos : forall f a k, (forall j, (a <= j < a + k)%nat -> 0 < f j) -> 0 < rprod f a k.
Proof. induction k; intros H; cbn [rprod]; [lra|]. apply Rmult_lt_0_compat; [apply IHk; intros|]; apply H; lia. Qed.
Lemma nvi_pos : forall n c v i, (forall j, (j < n)%nat -> 0 < c j) -> (i < n)%nat -> 0 < 1000 * rprod (nvi_factor c v) 1 i.
Proof.
  intros n c v i H Hi. apply Rmult_lt_0_compat; [lra|]. apply rprod_pos. intros j Hj. unfold nvi_factor.
  destruct (Rlt_dec _ _); [|lra]. apply Rdiv_lt_0_compat; apply H; lia.
Qed.
Lemma nvi_step : forall c v i, 1000 * rprod (nvi_factor c v) 1 (S i) =
  (if Rlt_dec (v (S i)) (v i) then 1000 * rprod (nvi_factor c v) 1 i * (c (S i) / c i) else 1000 * rprod (nvi_factor c v) 1 i).
Proof.
  intros. cbn [rprod]. unfold nvi_factor at 2. cbn [Nat.add Nat.sub]. rewrite Nat.sub_0_r. destruct (Rlt_dec _ _); lra.
Qed.

(** ** C58 *)
Lemma fi_formula : forall fl w n h l c v, (1 <= w)%nat ->
  compute (Fi (Z.of_nat w)) fl (frame n h l c v) =
  Ok (tab n (gaps fl 0 (1 + warm fl w) (ema w (fun i => delta c i * v i) 1))).
Proof.
  intros. cbn [compute]. cols. unfold force_index. change (ssub (tab n (from 0 c)) (shift 1 (tab n (from 0 c)))) with (diff1 (tab n (from 0 c))).
  rewrite diff1_from, smul_from, ema_tab by auto. cbn [bind]. now rewrite check_from by (reflexivity || lia).
Qed.
Lemma emv_tab : forall n h l v, (forall i, (i < n)%nat -> v i <> 0) ->
  emv (tab n (from 0 h)) (tab n (from 0 l)) (tab n (from 0 v)) = tab n (from 1 (emv_value h l v)).
Proof.
  intros n h l v H. unfold emv. rewrite !diff1_from, sadd_from, ssub_from, smul_from. cbn [fofZ XR].
  rewrite scal_from, sdiv_from_fin, muls_from; [reflexivity|]. intros i Hi. specialize (H i ltac:(lia)). lra.
Qed.
Lemma eom_formula : forall fl w n h l c v, (forall i, (i < n)%nat -> v i <> 0) ->
  compute (Eom w) fl (frame n h l c v) = Ok (tab n (gaps fl 0 1 (emv_value h l v))).
Proof.
  intros. cbn [compute]. cols. unfold ease_of_movement. rewrite emv_tab by auto. now rewrite check_from by (reflexivity || lia).
Qed.
Lemma mean_part_from : forall w m k n g, (m <= 1)%nat -> (1 <= w)%nat ->
  rolling (Z.of_nat w) (Z.of_nat m) agg_mean (tab n (from k g)) = Ok (tab n (from k (wmean_from k w g))).
Proof.
  intros w m k n g Hm Hw. rewrite rolling_tab by lia. f_equal. apply tab_ext. intros i Hi.
  assert (O : obs (map (fun j => xprep (from k g j)) (seq (wlo w i) (wlen w i))) =
              map (fun j => Fin (g j)) (seq (Nat.max k (wlo w i)) (S i - Nat.max k (wlo w i)))).
  { replace (wlen w i) with (S i - wlo w i)%nat by (unfold wlo, wlen; lia). generalize (wlo w i). clear.
    intros a. remember (S i - a)%nat as m eqn:Em. revert a Em. induction m; intros a Em.
    - replace (S i - Nat.max k a)%nat with 0%nat by lia. reflexivity.
    - cbn [seq map]. unfold from at 1, fromx at 1. destruct (Nat.ltb_spec a k).
      + change (obs (xprep NaN :: ?x)) with (obs x). cbn [xprep xisinf].
        transitivity (obs (map (fun j => xprep (from k g j)) (seq (S a) m))); [reflexivity|].
        rewrite IHm by lia. replace (Nat.max k (S a)) with (Nat.max k a) by lia. reflexivity.
      + transitivity (Fin (g a) :: obs (map (fun j => xprep (from k g j)) (seq (S a) m))); [reflexivity|].
        rewrite IHm by lia. replace (Nat.max k (S a)) with (S a) by lia. replace (Nat.max k a) with a by lia.
        replace (S i - a)%nat with (S (S i - S a)) by lia. reflexivity. }
  unfold win_agg, agg_apply, agg_max, agg_min, win_mean. rewrite O, map_length, seq_length. unfold from, fromx.
  destruct (Nat.ltb_spec i k).
  - replace (S i - Nat.max k (wlo w i))%nat with 0%nat by lia. rewrite Bool.orb_true_r. reflexivity.
  - assert (P : (1 <= S i - Nat.max k (wlo w i))%nat) by (unfold wlo; lia).
    destruct (Nat.ltb_spec (S i - Nat.max k (wlo w i)) m); [lia|]. destruct (Nat.eqb_spec (S i - Nat.max k (wlo w i)) 0); [lia|].
    cbn [orb]. rewrite fsum_tab, fofnat_INR. change (@fdiv xr XR) with xdiv. rewrite xdiv_fin by (apply not_0_INR; lia). reflexivity.
Qed.
Lemma wmean_from_full : forall k w f i, (1 <= w)%nat -> (k + w - 1 <= i)%nat -> wmean_from k w f i = wmean w f i.
Proof.
  intros. unfold wmean_from, wmean, wsum. rewrite wlen_full by lia. unfold wlo. replace (Nat.max k (S i - w)) with (S i - w)%nat by lia.
  now replace (S i - (S i - w))%nat with w by lia.
Qed.
Lemma mean_from_tab : forall fl w k n g, (1 <= w)%nat ->
  rolling (Z.of_nat w) (minp_of fl (Z.of_nat w)) agg_mean (tab n (from k g)) =
  Ok (tab n (from (k + warm fl w) (wmean_from k w g))).
Proof.
  intros [|] w k n g Hw; cbn [minp_of warm].
  - rewrite (mean_part_from w 0) by lia. now rewrite Nat.add_0_r.
  - rewrite mean_full by auto. f_equal. replace (k + (w - 1))%nat with (k + w - 1)%nat by lia. apply from_ext. intros. symmetry. apply wmean_from_full; lia.
Qed.
Lemma sma_eom_formula : forall fl w n h l c v, (1 <= w)%nat -> (forall i, (i < n)%nat -> v i <> 0) ->
  compute (SmaEom (Z.of_nat w)) fl (frame n h l c v) =
  Ok (tab n (gaps fl 0 (1 + warm fl w) (wmean_from 1 w (emv_value h l v)))).
Proof.
  intros. cbn [compute]. cols. unfold sma_ease_of_movement. rewrite emv_tab by auto. rewrite mean_from_tab by auto. cbn [bind].
  now rewrite check_from by (reflexivity || lia).
Qed.
Lemma vpt_raw : forall n c v, (forall i, (i < n)%nat -> c i <> 0) ->
  cumsum (smul (pct_change (tab n (from 0 c))) (tab n (from 0 v))) = tab n (from 1 (vpt_value c v)).
Proof.
  intros. rewrite pct_from by auto. rewrite smul_from, cumsum_from. apply from_ext. intros i Hi. unfold vpt_value. f_equal. lia.
Qed.
Lemma vpt_formula : forall fl n h l c v, (forall i, (i < n)%nat -> c i <> 0) ->
  compute (Vpt None false) fl (frame n h l c v) = Ok (tab n (gaps fl 0 1 (vpt_value c v))).
Proof.
  intros. cbn [compute]. cols. unfold volume_price_trend. rewrite vpt_raw by auto. cbn [bind]. now rewrite check_from by (reflexivity || lia).
Qed.
Lemma vpt_smooth_formula : forall fl w n h l c v, (1 <= w)%nat -> (forall i, (i < n)%nat -> c i <> 0) ->
  compute (Vpt (Some (Z.of_nat w)) false) fl (frame n h l c v) =
  Ok (tab n (gaps fl 0 (1 + warm fl w) (wmean_from 1 w (vpt_value c v)))).
Proof.
  intros. cbn [compute]. cols. unfold volume_price_trend. rewrite vpt_raw by auto.
  destruct (Z.eqb_spec (Z.of_nat w) 0); [lia|]. rewrite mean_from_tab by auto. cbn [bind]. now rewrite check_from by (reflexivity || lia).
Qed.
Lemma obs_from : forall k n g, obs (tab n (from k g)) = tab (n - k) (fun i => Fin (g (k + i)%nat)).
Proof.
  intros k n g. unfold tab. cut (forall m a, obs (map (from k g) (seq a m)) = map (fun i => Fin (g (Nat.max k a + i)%nat)) (seq 0 (m - (k - a)))).
  { intros C. rewrite C. rewrite Nat.sub_0_r, Nat.max_0_r. reflexivity. }
  induction m; intros a; [reflexivity|]. cbn [seq map]. unfold from at 1, fromx. destruct (Nat.ltb_spec a k).
  - change (obs (NaN :: map (from k g) (seq (S a) m))) with (obs (map (from k g) (seq (S a) m))). rewrite IHm.
    replace (Nat.max k (S a)) with (Nat.max k a) by lia. do 2 f_equal. lia.
  - change (obs (Fin (g a) :: map (from k g) (seq (S a) m))) with (Fin (g a) :: obs (map (from k g) (seq (S a) m))). rewrite IHm.
    replace (S m - (k - a))%nat with (S (m - (k - S a))) by lia. cbn [seq map]. f_equal; [do 2 f_equal; lia|].
    rewrite <- seq_shift, map_map. apply map_ext. intros. do 2 f_equal. lia.
Qed.
Lemma vpt_dropped : forall fl w n h l c v, (1 <= w)%nat -> (forall i, (i < n)%nat -> c i <> 0) ->
  compute (Vpt None true) fl (frame n h l c v) = Ok (tab (n - 1) (fun i => Fin (vpt_value c v (1 + i)))) /\
  compute (Vpt (Some (Z.of_nat w)) true) fl (frame n h l c v) =
    Ok (tab (n - (1 + warm fl w)) (fun i => Fin (wmean_from 1 w (vpt_value c v) (1 + warm fl w + i)))).
Proof.
  intros. cbn [compute]. cols. unfold volume_price_trend. rewrite vpt_raw by auto.
  destruct (Z.eqb_spec (Z.of_nat w) 0); [lia|]. rewrite mean_from_tab by auto. cbn [bind]. rewrite !obs_from.
  split; f_equal; apply check_fin; (reflexivity || lia).
Qed.

(** ** money flow index *)
Lemma flow_tab : forall n h l c v,
  smul (smul (tab n (from 0 (typical h l c))) (tab n (from 0 v)))
    (map2 (fun t p : xr => if (p <.? t)%F then (#1)%F else if (t <.? p)%F then (#-1)%F else (#0)%F)
          (tab n (from 0 (typical h l c))) (shift 1 (tab n (from 0 (typical h l c))))) = tab n (from 0 (money_flow h l c v)).
Proof.
  intros. rewrite smul_from, shift1_from, map2_tab. unfold smul. rewrite map2_tab. apply tab_ext. intros i _.
  unfold from, fromx. cbn [Nat.max]. change (i <? 0)%nat with false. cbv iota. unfold money_flow. destruct i as [|i].
  - cbn. f_equal. lra.
  - cbn [Nat.ltb Nat.leb]. replace (S i - 1)%nat with i by lia. cbn.
    destruct (Rlt_dec _ _); cbn; [f_equal; lra|]. destruct (Rlt_dec _ _); cbn; f_equal; lra.
Qed.
Lemma mfi_sum : forall fl w n g (q : xr -> xr) (p : R -> R), (1 <= w)%nat -> (forall x, q (Fin x) = Fin (p x)) ->
  rolling (Z.of_nat w) (minp_of fl (Z.of_nat w)) (agg_apply (fun x => fsum (map q x))) (tab n (from 0 g)) =
  Ok (tab n (from (warm fl w) (wsum w (fun j => p (g j))))).
Proof.
  intros fl w n g q p Hw Hq.
  assert (E : forall m i, (m <= wlen w i)%nat -> win_agg (agg_apply (fun x => fsum (map q x))) m (map (fun j => xprep (Fin (g j))) (seq (wlo w i) (wlen w i))) =
    Fin (wsum w (fun j => p (g j)) i)).
  { intros m i Hm. unfold win_agg, agg_apply, agg_max, agg_min, win_apply. change (map (fun j => xprep (Fin (g j))) (seq (wlo w i) (wlen w i))) with (map (fun j => Fin (g j)) (seq (wlo w i) (wlen w i))).
    rewrite obs_tab, map_length, seq_length. destruct (Nat.leb_spec m (wlen w i)); [|lia]. rewrite map_map.
    rewrite (map_ext _ (fun j => Fin (p (g j)))) by (intros; apply Hq). now rewrite fsum_tab. }
  destruct fl; cbn [minp_of warm].
  - change 0%Z with (Z.of_nat 0). rewrite rolling_tab by lia. f_equal. apply tab_ext. intros i _. apply E. lia.
  - change (tab n (from 0 g)) with (tab n (fromx 0 (fun i => Fin (g i)))). rewrite rolling_full by (apply std_apply || auto).
    f_equal. cbn [Nat.add]. apply fromx_ext. intros i Hi. apply E. rewrite wlen_full; lia.
Qed.
Lemma mfi_formula : forall fl w n h l c v, (1 <= w)%nat ->
  let mf := money_flow h l c v in
  shows fl 50 (tab n (fromx (warm fl w) (fun i => mfi_value (wsum w (fun j => Rmax 0 (mf j)) i) (wsum w (fun j => Rmax 0 (- mf j)) i))))
    (compute (Mfi (Z.of_nat w)) fl (frame n h l c v)).
Proof.
  intros fl w n h l c v Hw mf. cbn [compute]. cols. unfold money_flow_index. change (#3)%F with (Fin 3). rewrite typical_tab, flow_tab.
  assert (Q1 : forall x : R, (if (#0 <=.? Fin x)%F then Fin x else (#0)%F) = Fin (Rmax 0 x)).
  { intros x. cbn. unfold xleb, Rmax. cbn. destruct (Rle_dec 0 x), (Rlt_dec 0 x), (Req_EM_T 0 x); cbn; f_equal; lra. }
  assert (Q2 : forall x : R, (if (Fin x <.? #0)%F then Fin x else (#0)%F) = Fin (- Rmax 0 (- x))).
  { intros x. cbn. unfold xltb, Rmax. destruct (Rlt_dec x 0), (Rle_dec 0 (- x)); f_equal; lra. }
  rewrite (mfi_sum fl w n _ _ _ Hw Q1), (mfi_sum fl w n _ _ _ Hw Q2).
  cbn [bind]. rewrite abs_from, sdiv_from, Nat.max_id, map_tab.
  match goal with |- context [check_fillna _ _ ?L] => replace L with
   (tab n (fromx (warm fl w) (fun i => mfi_value (wsum w (fun j => Rmax 0 (mf j)) i) (wsum w (fun j => Rmax 0 (- mf j)) i)))) end.
  { apply shows_check; (reflexivity || lia). }
  apply tab_ext. intros i _. unfold fromx. destruct (_ <? _)%nat; [reflexivity|]. fold mf.
  set (P := wsum w (fun j => Rmax 0 (mf j)) i).
  assert (N : Rabs (wsum w (fun j => - Rmax 0 (- mf j)) i) = wsum w (fun j => Rmax 0 (- mf j)) i).
  { replace (wsum w (fun j => - Rmax 0 (- mf j)) i) with (- wsum w (fun j => Rmax 0 (- mf j)) i).
    - rewrite Rabs_Ropp. apply Rabs_pos_eq. apply rsum_nonneg. intros. apply Rmax_l.
    - unfold wsum. generalize (wlen w i). intros k. induction k; cbn [rsum]; [lra|]. rewrite <- IHk. lra. }
  rewrite N. set (Q := wsum w (fun j => Rmax 0 (- mf j)) i).
  assert (P0 : 0 <= P) by (apply rsum_nonneg; intros; apply Rmax_l). assert (Q0 : 0 <= Q) by (apply rsum_nonneg; intros; apply Rmax_l).
  unfold mfi_value, ratio. destruct (Req_EM_T Q 0).
  - destruct (Req_EM_T P 0).
    + destruct (Rlt_dec 0 P); [lra|]. destruct (Rlt_dec P 0); [lra|]. reflexivity.
    + destruct (Rlt_dec 0 P); [|lra]. cbn. f_equal. lra.
  - assert (0 <= P / Q) by (apply Rmult_le_pos; auto; apply Rlt_le, Rinv_0_lt_compat; lra).
    cbn. destruct (Req_EM_T (1 + P / Q) 0); [lra|]. cbn. f_equal.
Qed.
