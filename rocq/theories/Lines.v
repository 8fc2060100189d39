(** * Lines: Aroon, CCI, Vortex, Ichimoku, DPO, KST, TRIX, mass index, STC on finite data (C32, C33, C36, C43, C44). *)
From Verif Require Import Lists Api SpecNum Align Rows Fill Tab Averages Range Oscillators Returns TrueRange Bands Channels Flows.
Local Open Scope R_scope.

(** ** C32: Aroon *)
Lemma argbest_max : forall g a k j, (j <= k)%nat ->
  argbest_go (fun x y : xr => (y <.? x)%F) (S j) (first_max g a j - a) (Fin (g (first_max g a j))) (map (fun i => Fin (g i)) (seq (a + S j) (k - j))) =
  (first_max g a k - a)%nat.
Proof.
  intros g a k j H. remember (k - j)%nat as m eqn:Em. revert j H Em. induction m; intros j H Em.
  - cbn. now replace k with j by lia.
  - cbn [seq map argbest_go fisnan XR xisnan]. cbn [fltb XR xltb].
    specialize (IHm (S j) ltac:(lia) ltac:(lia)). cbn [first_max] in IHm. cbn [Nat.add].
    destruct (Rlt_dec (g (first_max g a j)) (g (a + S j)%nat)).
    + replace (S (a + S j)) with (a + S (S j))%nat by lia. replace (a + S j - a)%nat with (S j) in IHm by lia. exact IHm.
    + replace (S (a + S j)) with (a + S (S j))%nat by lia. exact IHm.
Qed.
Lemma argmax_tab : forall g a k, np_argmax (map (fun i => Fin (g i)) (seq a (S k))) = (first_max g a k - a)%nat.
Proof.
  intros. unfold np_argmax. cbn [seq map]. pose proof (argbest_max g a k 0 ltac:(lia)) as H. cbn [first_max] in H.
  rewrite Nat.sub_diag, Nat.sub_0_r in H. replace (a + 1)%nat with (S a) in H by lia. exact H.
Qed.
Lemma argbest_ext : forall (b b' : xr -> xr -> bool) (f f' : nat -> R), (forall i j, b (Fin (f i)) (Fin (f j)) = b' (Fin (f' i)) (Fin (f' j))) ->
  forall l i bi j, argbest_go b i bi (Fin (f j)) (map (fun i => Fin (f i)) l) = argbest_go b' i bi (Fin (f' j)) (map (fun i => Fin (f' i)) l).
Proof.
  intros b b' f f' H. induction l; intros i bi j; [reflexivity|]. cbn [map argbest_go fisnan XR xisnan]. rewrite (H a j).
  destruct (b' _ _); apply IHl.
Qed.
Lemma argmin_tab : forall g a k, np_argmin (map (fun i => Fin (g i)) (seq a (S k))) = (first_min g a k - a)%nat.
Proof.
  intros. unfold first_min. rewrite <- argmax_tab. unfold np_argmin, np_argmax. cbn [seq map].
  apply (argbest_ext _ _ g (fun i => - g i)). intros i j. cbn. destruct (Rlt_dec _ _), (Rlt_dec _ _); auto; lra.
Qed.
Lemma first_max_spec : forall f a k, (a <= first_max f a k <= a + k)%nat /\
  (forall j, (a <= j <= a + k)%nat -> f j <= f (first_max f a k)) /\
  (forall j, (a <= j < first_max f a k)%nat -> f j < f (first_max f a k)).
Proof.
  intros f a. induction k as [|k IH]; cbn [first_max].
  - refine (conj _ (conj _ _)); [lia| |]; intros j Hj; [replace j with a by lia; lra|lia].
  - destruct IH as (B & M & E). destruct (Rlt_dec _ _).
    + refine (conj _ (conj _ _)); [lia| |]; intros j Hj.
      * destruct (Nat.eq_dec j (a + S k)); [subst; lra|]. specialize (M j ltac:(lia)). lra.
      * specialize (M j ltac:(lia)). lra.
    + refine (conj _ (conj _ _)); [lia| |]; intros j Hj.
      * destruct (Nat.eq_dec j (a + S k)); [subst; lra|]. apply M. lia.
      * now apply E.
Qed.
Lemma first_min_spec : forall f a k, (a <= first_min f a k <= a + k)%nat /\
  (forall j, (a <= j <= a + k)%nat -> f (first_min f a k) <= f j) /\
  (forall j, (a <= j < first_min f a k)%nat -> f (first_min f a k) < f j).
Proof.
  intros. destruct (first_max_spec (fun i => - f i) a k) as (B & M & E). unfold first_min. refine (conj _ (conj _ _)); [lia| |]; intros j Hj.
  - specialize (M j Hj). lra.
  - specialize (E j Hj). lra.
Qed.
Lemma aroon_roll : forall (fl : bool) w n g (arg : list xr -> nat) (best : (nat -> R) -> nat -> nat -> nat), (1 <= w)%nat ->
  (forall g a k, arg (map (fun i => Fin (g i)) (seq a (S k))) = (best g a k - a)%nat) ->
  (forall g a k, (a <= best g a k)%nat) ->
  rolling (Z.of_nat w + 1) (if fl then 1 else Z.of_nat w + 1)%Z
    (agg_apply (fun x => (fofnat (arg x) /. fofZ (Z.of_nat w) **. #100)%F)) (tab n (from 0 g)) =
  Ok (tab n (from (if fl then 0 else w) (fun i => 100 * INR (best g (i - w)%nat (Nat.min w i) - (i - w)) / INR w))).
Proof.
  intros fl w n g arg best Hw Ha Hb. replace (Z.of_nat w + 1)%Z with (Z.of_nat (S w)) by lia.
  assert (E : forall m i, (m <= wlen (S w) i)%nat -> win_agg (agg_apply (fun x => (fofnat (arg x) /. fofZ (Z.of_nat w) **. #100)%F)) m
     (map (fun j => xprep (Fin (g j))) (seq (wlo (S w) i) (wlen (S w) i))) =
     Fin (100 * INR (best g (i - w)%nat (Nat.min w i) - (i - w)) / INR w)).
  { intros m i Hm. unfold win_agg, agg_apply, agg_max, agg_min, win_apply. change (map (fun j => xprep (Fin (g j))) (seq (wlo (S w) i) (wlen (S w) i))) with (map (fun j => Fin (g j)) (seq (wlo (S w) i) (wlen (S w) i))).
    rewrite obs_tab, map_length, seq_length. destruct (Nat.leb_spec m (wlen (S w) i)); [|lia].
    assert (L : wlen (S w) i = S (Nat.min w i)) by (unfold wlen; lia). rewrite L, Ha. replace (wlo (S w) i) with (i - w)%nat by (unfold wlo; lia).
    rewrite fofnat_INR. cbn. rewrite <- INR_IZR_INZ. destruct (Req_EM_T (INR w) 0) as [Z0|]; [apply INR_eq with (m := 0%nat) in Z0; lia|]. cbn.
    f_equal. field. auto. }
  destruct fl.
  - change 1%Z with (Z.of_nat 1). rewrite rolling_tab by lia. f_equal. apply tab_ext. intros i _. apply E. unfold wlen. lia.
  - change (tab n (from 0 g)) with (tab n (fromx 0 (fun i => Fin (g i)))). rewrite rolling_full by (apply std_apply || lia).
    f_equal. replace (0 + S w - 1)%nat with w by lia. apply fromx_ext. intros i Hi. apply E. unfold wlen. lia.
Qed.
Lemma aroon_run_formula : forall fl w n h l, (1 <= w)%nat ->
  aroon_run (tab n (from 0 h)) (tab n (from 0 l)) (Z.of_nat w) fl =
  Ok (tab n (from (if fl then 0 else w) (aroon_up_value h w)), tab n (from (if fl then 0 else w) (aroon_down_value l w))).
Proof.
  intros. unfold aroon_run.
  rewrite (aroon_roll fl w n h np_argmax first_max) by (auto using argmax_tab; intros; apply first_max_spec). cbn [bind].
  rewrite (aroon_roll fl w n l np_argmin first_min) by (auto using argmin_tab; intros; apply first_min_spec). cbn [bind].
  destruct (Z.eqb_spec (Z.of_nat w) 0); [lia|]. destruct (Z.eqb_spec (Z.of_nat w) (-1)); [lia|]. reflexivity.
Qed.
Lemma aroon_formula : forall fl w n h l c v, (1 <= w)%nat ->
  compute (AroonUp (Z.of_nat w)) fl (frame n h l c v) = Ok (tab n (from (if fl then 0 else w) (aroon_up_value h w))) /\
  compute (AroonDown (Z.of_nat w)) fl (frame n h l c v) = Ok (tab n (from (if fl then 0 else w) (aroon_down_value l w))) /\
  compute (AroonInd (Z.of_nat w)) fl (frame n h l c v) =
    Ok (tab n (from (if fl then 0 else w) (fun i => aroon_up_value h w i - aroon_down_value l w i))).
Proof.
  intros. cbn [compute]. cols. unfold aroon_up, aroon_down, aroon_indicator. rewrite aroon_run_formula by auto. cbn [bind].
  rewrite ssub_from, Nat.max_id. rewrite !check_from by (reflexivity || lia).
  assert (G : forall g, tab n (gaps fl 0 (if fl then 0 else w) g) = tab n (from (if fl then 0 else w) g)).
  { intros. destruct fl; [reflexivity|]. apply tab_ext. intros. apply gaps_false. }
  rewrite !G. auto.
Qed.
(** the position counts back from the row: w - d with d rows since the extreme *)
Lemma aroon_up_meaning : forall h w i j, (1 <= w <= i)%nat -> (i - w <= j <= i)%nat ->
  (forall t, (i - w <= t <= i)%nat -> h t <= h j) -> (forall t, (i - w <= t < j)%nat -> h t < h j) ->
  aroon_up_value h w i = 100 * (INR w - INR (i - j)) / INR w.
Proof.
  intros h w i j Hw Hj M E. unfold aroon_up_value. replace (Nat.min w i) with w by lia.
  destruct (first_max_spec h (i - w) w) as (B & M' & E'). replace (i - w + w)%nat with i in * by lia.
  set (q := first_max h (i - w) w) in *. assert (q = j).
  { destruct (Nat.lt_trichotomy q j) as [L|[L|L]]; auto; exfalso.
    - specialize (E q ltac:(lia)). specialize (M' j ltac:(lia)). lra.
    - specialize (E' j ltac:(lia)). specialize (M q ltac:(lia)). lra. }
  subst q. rewrite H. rewrite <- minus_INR by lia. do 3 f_equal. lia.
Qed.
Lemma aroon_down_meaning : forall l w i j, (1 <= w <= i)%nat -> (i - w <= j <= i)%nat ->
  (forall t, (i - w <= t <= i)%nat -> l j <= l t) -> (forall t, (i - w <= t < j)%nat -> l j < l t) ->
  aroon_down_value l w i = 100 * (INR w - INR (i - j)) / INR w.
Proof.
  intros l w i j Hw Hj M E. apply (aroon_up_meaning (fun i => - l i)); auto; intros t Ht.
  - specialize (M t Ht). lra.
  - specialize (E t Ht). lra.
Qed.
Lemma aroon_value_range : forall h w i, (1 <= w)%nat -> 0 <= aroon_up_value h w i <= 100.
Proof.
  intros h w i Hw. unfold aroon_up_value. destruct (first_max_spec h (i - w) (Nat.min w i)) as (B & _).
  assert (P : 0 < INR w) by (apply lt_0_INR; lia).
  assert (Q : 0 <= INR (first_max h (i - w) (Nat.min w i) - (i - w)) <= INR w) by (split; [apply pos_INR|apply le_INR; lia]).
  split; [apply Rmult_le_pos; [lra|]; left; now apply Rinv_0_lt_compat|].
  apply Rmult_le_reg_r with (INR w); auto. unfold Rdiv. rewrite Rmult_assoc, Rinv_l by lra. lra.
Qed.
Lemma Forall_tab : forall {B} (P : B -> Prop) n f, (forall i, (i < n)%nat -> P (f i)) -> Forall P (tab n f).
Proof. intros B P n f H. apply Forall_forall. intros x Hx. apply in_map_iff in Hx. destruct Hx as (i & <- & Hi). apply in_seq in Hi. apply H. lia. Qed.
Lemma aroon_range : forall fl w n h l c v, (1 <= w)%nat ->
  (forall out, compute (AroonUp (Z.of_nat w)) fl (frame n h l c v) = Ok out -> Forall (within 0 100) out) /\
  (forall out, compute (AroonDown (Z.of_nat w)) fl (frame n h l c v) = Ok out -> Forall (within 0 100) out) /\
  (forall out, compute (AroonInd (Z.of_nat w)) fl (frame n h l c v) = Ok out -> Forall (within (-100) 100) out).
Proof.
  intros fl w n h l c v Hw. destruct (aroon_formula fl w n h l c v Hw) as (U & D & I). rewrite U, D, I.
  split; [|split]; intros out [= <-]; apply Forall_tab; intros i _; unfold from, fromx; (destruct (_ <? _)%nat; [exact Logic.I|]); cbn.
  - now apply aroon_value_range.
  - apply (aroon_value_range (fun i => - l i)); auto.
  - pose proof (aroon_value_range h w i Hw). pose proof (aroon_value_range (fun i => - l i) w i Hw).
    change (aroon_up_value (fun i => - l i) w i) with (aroon_down_value l w i) in *. lra.
Qed.
(** ** C33: CCI *)
Lemma mad_tab : forall m g a k, (m <= k)%nat -> (1 <= k)%nat ->
  win_apply mad_ m (map (fun j => Fin (g j)) (seq a k)) =
  Fin (rsum (fun j => Rabs (g j - rsum g a k / INR k)) a k / INR k).
Proof.
  intros. assert (K : INR k <> 0) by (apply not_0_INR; lia).
  unfold win_agg, agg_apply, agg_max, agg_min, win_apply. rewrite obs_tab, map_length, seq_length. destruct (Nat.leb_spec m k); [|lia].
  unfold mad_, npmean. rewrite fsum_tab, !map_length, seq_length, fofnat_INR. change (@fdiv xr XR) with xdiv. rewrite (xdiv_fin _ _ K).
  rewrite map_map.
  change (fun x => fabs (Fin (g x) -. Fin (rsum g a k / INR k))%F) with (fun x => Fin (Rabs (g x + - (rsum g a k / INR k)))).
  rewrite fsum_tab. now rewrite (xdiv_fin _ _ K).
Qed.
Lemma mad_roll : forall fl w n g, (1 <= w)%nat ->
  rolling (Z.of_nat w) (minp_of fl (Z.of_nat w)) (agg_apply mad_) (tab n (from 0 g)) = Ok (tab n (from (warm fl w) (wmad w g))).
Proof.
  intros [|] w n g Hw; cbn [minp_of warm].
  - change 0%Z with (Z.of_nat 0). rewrite rolling_tab by lia. f_equal. apply tab_ext. intros i _. apply mad_tab; unfold wlen; lia.
  - change (tab n (from 0 g)) with (tab n (fromx 0 (fun i => Fin (g i)))). rewrite rolling_full by (apply std_apply || auto).
    f_equal. cbn [Nat.add]. apply fromx_ext. intros i Hi. apply mad_tab; unfold wlen; lia.
Qed.
Lemma cci_formula : forall fl w k n h l c v, (1 <= w)%nat ->
  let tp := typical h l c in
  shows fl 0 (tab n (fromx (warm fl w) (fun i => ratio (tp i - wmean w tp i) (k * wmad w tp i))))
    (compute (Cci (Z.of_nat w) (Fin k)) fl (frame n h l c v)).
Proof.
  intros fl w k n h l c v Hw tp. cbn [compute]. cols. unfold cci. cbn [fofZ XR]. rewrite typical_tab. fold tp.
  rewrite mean_tab by auto. cbn [bind]. rewrite mad_roll by auto. cbn [bind].
  rewrite scal_from, ssub_from, sdiv_from. cbn [Nat.max]. rewrite Nat.max_id. apply shows_check; (reflexivity || lia).
Qed.
Lemma rsum_split : forall f a k j, (a <= j < a + k)%nat -> exists r, rsum f a k = f j + r /\
  Rabs r <= rsum (fun t => Rabs (f t)) a k - Rabs (f j).
Proof.
  intros f a. induction k; intros j Hj; [lia|]. cbn [rsum]. destruct (Nat.eq_dec j (a + k)) as [->|].
  - exists (rsum f a k). split; [lra|]. assert (Rabs (rsum f a k) <= rsum (fun t => Rabs (f t)) a k); [|lra].
    clear. induction k; cbn [rsum]; [rewrite Rabs_R0; lra|]. eapply Rle_trans; [apply Rabs_triang|]. lra.
  - destruct (IHk j ltac:(lia)) as (r & E & B). exists (r + f (a + k)%nat). split; [lra|].
    eapply Rle_trans; [apply Rabs_triang|]. lra.
Qed.
Lemma mad_dominates : forall w f i, (1 <= w)%nat -> 2 * Rabs (f i - wmean w f i) <= INR (wlen w i) * wmad w f i.
Proof.
  intros w f i Hw. set (m := wmean w f i). assert (P : 0 < INR (wlen w i)) by (apply lt_0_INR; pose proof (wlen_pos w i Hw); lia).
  assert (Z0 : rsum (fun j => f j - m) (wlo w i) (wlen w i) = 0).
  { rewrite rsum_sub_const. unfold m, wmean, wsum. field. lra. }
  destruct (rsum_split (fun j => f j - m) (wlo w i) (wlen w i) i) as (r & E & B). { unfold wlo, wlen. lia. }
  rewrite Z0 in E. assert (ER : r = - (f i - m)) by lra. rewrite ER, Rabs_Ropp in B.
  unfold wmad. fold m. unfold wmean, wsum. 
  replace (INR (wlen w i) * (rsum (fun j => Rabs (f j - m)) (wlo w i) (wlen w i) / INR (wlen w i))) with (rsum (fun j => Rabs (f j - m)) (wlo w i) (wlen w i)) by (field; lra).
  lra.
Qed.
Lemma wmad_nonneg : forall w f i, (1 <= w)%nat -> 0 <= wmad w f i.
Proof. intros. apply wmean_nonneg; auto. intros. apply Rabs_pos. Qed.
Lemma cci_ratio : forall w f i k, (1 <= w)%nat -> 0 < k ->
  within (- (INR w / (2 * k))) (INR w / (2 * k)) (ratio (f i - wmean w f i) (k * wmad w f i)).
Proof.
  intros w f i k Hw Hk. pose proof (mad_dominates w f i Hw) as D. pose proof (wmad_nonneg w f i Hw) as N.
  assert (L : INR (wlen w i) <= INR w) by (apply le_INR; unfold wlen; lia).
  set (x := f i - wmean w f i) in *. set (d := wmad w f i) in *. unfold ratio. destruct (Req_EM_T (k * d) 0) as [Z0|Z0].
  - assert (d = 0) by (destruct (Rmult_integral _ _ Z0); lra). rewrite H, Rmult_0_r in D.
    assert (Rabs x = 0) by (pose proof (Rabs_pos x); lra). assert (x = 0) by (destruct (Req_dec x 0); auto; pose proof (Rabs_pos_lt x H1); lra).
    destruct (Rlt_dec _ _); [lra|]. destruct (Rlt_dec _ _); [lra|]. exact Logic.I.
  - assert (Pd : 0 < d) by (destruct (Req_dec d 0) as [E|]; [rewrite E in Z0; lra|lra]).
    assert (Pk : 0 < k * d) by now apply Rmult_lt_0_compat.
    assert (B : Rabs x <= INR w / (2 * k) * (k * d)).
    { replace (INR w / (2 * k) * (k * d)) with (INR w * d / 2) by (field; lra).
      assert (INR (wlen w i) * d <= INR w * d) by (apply Rmult_le_compat_r; lra). lra. }
    cbn. assert (Q : forall y, y <= INR w / (2 * k) * (k * d) -> y / (k * d) <= INR w / (2 * k)).
    { intros y Hy. apply Rmult_le_reg_r with (k * d); auto. unfold Rdiv at 1. rewrite Rmult_assoc, Rinv_l by lra. lra. }
    pose proof (Rle_abs x). pose proof (Rle_abs (- x)). rewrite Rabs_Ropp in *. split; [|apply Q; lra].
    specialize (Q (- x) ltac:(lra)). unfold Rdiv in *. lra.
Qed.
Lemma cci_range : forall fl w k n h l c v out, (1 <= w)%nat -> 0 < k ->
  compute (Cci (Z.of_nat w) (Fin k)) fl (frame n h l c v) = Ok out -> Forall (within (- (INR w / (2 * k))) (INR w / (2 * k))) out.
Proof.
  intros fl w k n h l c v out Hw Hk H.
  assert (P : 0 < INR w / (2 * k)) by (apply Rdiv_lt_0_compat; [apply lt_0_INR; lia|lra]).
  eapply shows_within; [|apply (cci_formula fl w k n h l c v Hw)| |exact H]; [lra|].
  apply Forall_tab. intros i _. unfold fromx. destruct (_ <? _)%nat; [exact Logic.I|]. now apply cci_ratio.
Qed.

(** ** C36: Vortex *)
Lemma smean_from : forall n k g, (k < n)%nat -> smean (tab n (from k g)) = Fin (mean_of k n g).
Proof.
  intros. rewrite smean_obs, obs_from. unfold tab.
  assert (L : length (map (fun i => Fin (g (k + i)%nat)) (seq 0 (n - k))) = (n - k)%nat) by now rewrite map_length, seq_length.
  destruct (map (fun i => Fin (g (k + i)%nat)) (seq 0 (n - k))) eqn:E; [cbn in L; lia|]. rewrite <- E in *.
  rewrite L, (fsum_tab (fun i => g (k + i)%nat)), fofnat_INR. change (@fdiv xr XR) with xdiv. rewrite xdiv_fin by (apply not_0_INR; lia).
  unfold mean_of. now rewrite (rsum_shift g).
Qed.
Lemma shift_fill_from : forall (r : nat) x n g, shift_fill (Z.of_nat r) (Fin x) (tab n (from 0 g)) = tab n (from 0 (back r x g)).
Proof. intros. rewrite shift_fill_tab. apply tab_ext. intros i _. unfold back, from, fromx. change (i - r <? 0)%nat with false. change (i <? 0)%nat with false. cbv iota. now destruct (i <? r)%nat. Qed.
Lemma shift_mean : forall (r : nat) n g, shift_fill (Z.of_nat r) (smean (tab n (from 0 g))) (tab n (from 0 g)) = tab n (from 0 (back r (mean_of 0 n g) g)).
Proof. intros. destruct n; [rewrite shift_fill_tab; reflexivity|]. rewrite smean_from by lia. apply shift_fill_from. Qed.
Lemma true_range_after : forall n h l c p,
  true_range (tab n (from 0 h)) (tab n (from 0 l)) (tab n (from 0 (back 1 p c))) = tab n (from 0 (trange_after p h l c)).
Proof.
  intros. unfold true_range. rewrite !ssub_from, !abs_from, map3_tab. apply tab_ext. intros i _.
  unfold from, fromx. cbn [Nat.max]. change (i <? 0)%nat with false. cbv iota. rewrite nanmax3_fin. unfold trange_after, back.
  destruct i as [|i]; cbn [Nat.ltb Nat.leb]; [reflexivity|]. cbn [Nat.sub]. now rewrite Nat.sub_0_r.
Qed.
Lemma swing_tab : forall n h l, map (@fabs xr XR) (ssub (tab n (from 0 h)) (shift 1 (tab n (from 0 l)))) = tab n (from 1 (swing h l)).
Proof.
  intros. rewrite shift1_from, ssub_from, abs_from. apply from_ext. intros i Hi. destruct i; [cbn in Hi; lia|]. cbn. now rewrite Nat.sub_0_r.
Qed.
Lemma swing_sums : forall fl w n h l, (1 <= w)%nat ->
  rolling (Z.of_nat w) (minp_of fl (Z.of_nat w)) agg_sum (tab n (from 1 (swing h l))) =
  Ok (tab n (from (if fl then 0 else w) (wsum w (swing h l)))).
Proof.
  intros [|] w n h l Hw; [apply sum_part1; auto|]. cbn [minp_of]. rewrite sum_full by auto. do 3 f_equal. lia.
Qed.
Lemma vortex_run_formula : forall (fl : bool) w n h l c, (1 <= w)%nat ->
  let tr := trange_after (mean_of 0 n c) h l c in let k := if fl then 0%nat else w in
  vortex_run (tab n (from 0 h)) (tab n (from 0 l)) (tab n (from 0 c)) (Z.of_nat w) fl =
  Ok (tab n (fromx k (fun i => ratio (wsum w (swing h l) i) (wsum w tr i))),
      tab n (fromx k (fun i => ratio (wsum w (swing l h) i) (wsum w tr i)))).
Proof.
  intros fl w n h l c Hw tr k. unfold vortex_run. change 1%Z with (Z.of_nat 1) at 1. rewrite shift_mean, true_range_after. fold tr.
  rewrite sum_tab by auto. cbn [bind]. rewrite !swing_tab, !swing_sums by auto. cbn [bind]. rewrite !sdiv_from.
  assert (K : Nat.max (if fl then 0 else w) (warm fl w) = k) by (unfold k; destruct fl; cbn [warm]; lia). rewrite K. reflexivity.
Qed.
Lemma vortex_formula : forall (fl : bool) w n h l c v, (1 <= w)%nat ->
  let tr := trange_after (mean_of 0 n c) h l c in let k := if fl then 0%nat else w in
  shows fl 1 (tab n (fromx k (fun i => ratio (wsum w (swing h l) i) (wsum w tr i))))
    (compute (VortexPos (Z.of_nat w)) fl (frame n h l c v)) /\
  shows fl 1 (tab n (fromx k (fun i => ratio (wsum w (swing l h) i) (wsum w tr i))))
    (compute (VortexNeg (Z.of_nat w)) fl (frame n h l c v)).
Proof.
  intros fl w n h l c v Hw tr k. cbn [compute]. cols. unfold vortex_indicator_pos, vortex_indicator_neg.
  rewrite vortex_run_formula by auto. cbn [bind]. split; apply shows_check; (reflexivity || lia).
Qed.
(** rows w and later do not see the substitute for the missing previous close *)
Lemma wsum_after : forall w p h l c i, (1 <= w <= i)%nat -> wsum w (trange_after p h l c) i = wsum w (trange h l c) i.
Proof.
  intros. unfold wsum. apply rsum_ext. intros j Hj. destruct j; [unfold wlo in Hj; lia|]. reflexivity.
Qed.
Lemma trange_after_nonneg : forall p h l c i, 0 <= trange_after p h l c i.
Proof. intros. unfold trange_after. eapply Rle_trans; [|apply Rmax_r]. eapply Rle_trans; [|apply Rmax_l]. apply Rabs_pos. Qed.
Lemma ratio_nonneg : forall a b r, 0 <= a -> 0 <= b -> ratio a b = Fin r -> 0 <= r.
Proof.
  intros a b r Ha Hb H. unfold ratio in H. destruct (Req_EM_T b 0).
  - destruct (Rlt_dec _ _); [discriminate|]. destruct (Rlt_dec _ _); discriminate.
  - apply fin_inj in H. subst r. apply Rmult_le_pos; auto. left. apply Rinv_0_lt_compat. lra.
Qed.
Lemma swing_nonneg : forall h l i, 0 <= swing h l i.
Proof. intros. destruct i; cbn; [lra|apply Rabs_pos]. Qed.
Lemma vortex_defined : forall (fl : bool) w n h l c v, (1 <= w)%nat -> (forall i, (i < n)%nat -> l i < h i) ->
  let tr := trange_after (mean_of 0 n c) h l c in let k := if fl then 0%nat else w in
  compute (VortexPos (Z.of_nat w)) fl (frame n h l c v) = Ok (tab n (from k (fun i => wsum w (swing h l) i / wsum w tr i))) /\
  compute (VortexNeg (Z.of_nat w)) fl (frame n h l c v) = Ok (tab n (from k (fun i => wsum w (swing l h) i / wsum w tr i))) /\
  compute (VortexDiff (Z.of_nat w)) fl (frame n h l c v) =
    Ok (tab n (from k (fun i => wsum w (swing h l) i / wsum w tr i - wsum w (swing l h) i / wsum w tr i))).
Proof.
  intros fl w n h l c v Hw HL tr k.
  assert (T : forall i, (i < n)%nat -> wsum w tr i <> 0).
  { intros i Hi. assert (0 < wsum w tr i); [|lra]. unfold wsum.
    pose proof (wlen_pos w i Hw). destruct (wlen w i) eqn:E; [lia|]. cbn [rsum].
    assert (0 <= rsum tr (wlo w i) n0) by (apply rsum_nonneg; intros; apply trange_after_nonneg).
    assert (0 < tr (wlo w i + n0)%nat).
    { unfold tr, trange_after. eapply Rlt_le_trans; [|apply Rmax_l]. specialize (HL (wlo w i + n0)%nat). unfold wlo, wlen in *.
      assert (S i - w + n0 < n)%nat by lia. specialize (HL H1). lra. }
    lra. }
  cbn [compute]. cols. unfold vortex_indicator_pos, vortex_indicator_neg, vortex_indicator_diff. rewrite vortex_run_formula by auto. cbn [bind].
  assert (G : forall z g, tab n (gaps fl z k g) = tab n (from k g)).
  { intros. unfold k. destruct fl; [reflexivity|]. apply tab_ext. intros. apply gaps_false. }
  fold tr. fold k.
  assert (E : forall a, tab n (fromx k (fun i => ratio (a i) (wsum w tr i))) = tab n (from k (fun i => a i / wsum w tr i))).
  { intros a. apply fromx_ext. intros i Hi. apply ratio_fin. apply T. lia. }
  rewrite !E, ssub_from, Nat.max_id, !check_from by (reflexivity || lia). rewrite !G. auto.
Qed.
Lemma shows_pred : forall (P : xr -> Prop) fl z raw res out, P (Fin (IZR z)) ->
  shows fl z raw res -> Forall P raw -> res = Ok out -> Forall P out.
Proof.
  intros P fl z raw res out Hz (o & E & H) R E'. rewrite E in E'. injection E' as <-.
  destruct fl; [|now subst]. destruct H as (L & H). apply Forall_nth_xr. intros i. induction i; intros Hi.
  - change NaN with (@fnan xr XR). rewrite H by lia. rewrite Forall_forall in R.
    specialize (R (nth 0 raw fnan) ltac:(apply nth_In; lia)). destruct (nth 0 raw fnan); cbn in *; auto.
  - change NaN with (@fnan xr XR). rewrite H by lia. rewrite Forall_forall in R.
    specialize (R (nth (S i) raw fnan) ltac:(apply nth_In; lia)). destruct (nth (S i) raw fnan); cbn in *; auto; apply IHi; lia.
Qed.
Lemma vortex_nonneg : forall fl w n h l c v, (1 <= w)%nat ->
  (forall out, compute (VortexPos (Z.of_nat w)) fl (frame n h l c v) = Ok out -> Forall nonneg out) /\
  (forall out, compute (VortexNeg (Z.of_nat w)) fl (frame n h l c v) = Ok out -> Forall nonneg out).
Proof.
  intros fl w n h l c v Hw. destruct (vortex_formula fl w n h l c v Hw) as [P Q].
  assert (G : forall k a b, (forall j, 0 <= a j) -> (forall j, 0 <= b j) -> Forall nonneg (tab n (fromx k (fun i => ratio (wsum w a i) (wsum w b i))))).
  { intros k a b Ha Hb. apply Forall_tab. intros i _. unfold fromx. destruct (i <? k)%nat; [exact I|].
    assert (0 <= wsum w a i) by (apply rsum_nonneg; auto). assert (0 <= wsum w b i) by (apply rsum_nonneg; auto).
    destruct (ratio (wsum w a i) (wsum w b i)) eqn:E; cbn; auto.
    - unfold ratio in E. destruct (Req_EM_T _ _); [|discriminate]. destruct (Rlt_dec _ _); [discriminate|]. destruct (Rlt_dec (wsum w a i) 0); [lra|discriminate].
    - eapply ratio_nonneg; [| |exact E]; auto. }
  split; intros out E; (eapply (shows_pred nonneg _ 1); [cbn; lra| | |exact E]; [first [exact P|exact Q]|]); apply G; intros;
    first [apply swing_nonneg|apply trange_after_nonneg].
Qed.
