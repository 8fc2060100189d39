(** * Cycles: Ichimoku, DPO, KST, TRIX, mass index and STC on finite data (C43, C44). *)
From Verif Require Import Lists Api SpecNum Align Rows Fill Tab Averages Range Oscillators Returns TrueRange Bands Channels Flows Lines.
Local Open Scope R_scope.

(** ** C43 *)
Lemma warm_back : forall fl n w g, check_fillna fl (FillInt (-1)) (tab n (from (warm fl w) g)) = tab n (from (warm fl w) g).
Proof. exact check_back_warm. Qed.
Lemma half_from : forall n k g, scal (@fhalf xr XR) (tab n (from k g)) = tab n (from k (fun i => g i / 2)).
Proof. intros. rewrite half_fin, scal_from. apply from_ext. intros. lra. Qed.
Lemma ichi_run : forall fl w1 w2 n h l, (1 <= w1)%nat -> (1 <= w2)%nat ->
  ichimoku_run (tab n (from 0 h)) (tab n (from 0 l)) (Z.of_nat w1) (Z.of_nat w2) fl =
  Ok (tab n (from (warm fl w1) (midrange w1 h l)), tab n (from (warm fl w2) (midrange w2 h l))).
Proof.
  intros. unfold ichimoku_run. rewrite !max_tab by auto. cbn [bind]. repeat (rewrite ?max_tab, ?min_tab by auto; cbn [bind]).
  rewrite !sadd_from, !half_from, !Nat.max_id. reflexivity.
Qed.
Lemma ichi_formula : forall fl w1 w2 w3 vis n h l c v, (1 <= w1)%nat -> (1 <= w2)%nat -> (1 <= w3)%nat ->
  let spana := fun i => (midrange w1 h l i + midrange w2 h l i) / 2 in let spanb := midrange w3 h l in
  compute (IchiConv (Z.of_nat w1) (Z.of_nat w2) (Z.of_nat w3) vis) fl (frame n h l c v) = Ok (tab n (from (warm fl w1) (midrange w1 h l))) /\
  compute (IchiBase (Z.of_nat w1) (Z.of_nat w2) (Z.of_nat w3) vis) fl (frame n h l c v) = Ok (tab n (from (warm fl w2) (midrange w2 h l))) /\
  compute (IchiA (Z.of_nat w1) (Z.of_nat w2) (Z.of_nat w3) false) fl (frame n h l c v) = Ok (tab n (from (warm fl (Nat.max w1 w2)) spana)) /\
  compute (IchiB (Z.of_nat w1) (Z.of_nat w2) (Z.of_nat w3) false) fl (frame n h l c v) = Ok (tab n (from 0 spanb)).
Proof.
  intros fl w1 w2 w3 vis n h l c v H1 H2 H3 spana spanb. cbn [compute]. cols.
  unfold ichimoku_conversion_line, ichimoku_base_line, ichimoku_a, ichimoku_b. rewrite ichi_run by auto. cbn [bind].
  rewrite sadd_from, half_from, warm_max by auto. rewrite !warm_back.
  rewrite (max_part w3 0), (min_part w3 0) by lia. cbn [bind]. rewrite sadd_from, half_from. cbn [Nat.max]. rewrite back_finite'. auto.
Qed.
(** visual=True: moved window2 rows down *)
Lemma ichi_visual : forall fl w1 w2 w3 n h l c v, (1 <= w1)%nat -> (1 <= w2)%nat -> (1 <= w3)%nat ->
  let spana := fun i => (midrange w1 h l i + midrange w2 h l i) / 2 in let spanb := midrange w3 h l in
  let k := warm fl (Nat.max w1 w2) in
  shows_back fl (tab n (fun i => if (i <? w2)%nat then (if (k <? n)%nat then Fin (mean_of k n spana) else NaN) else from k spana (i - w2)%nat))
    (compute (IchiA (Z.of_nat w1) (Z.of_nat w2) (Z.of_nat w3) true) fl (frame n h l c v)) /\
  compute (IchiB (Z.of_nat w1) (Z.of_nat w2) (Z.of_nat w3) true) fl (frame n h l c v) =
    Ok (tab n (from 0 (back w2 (mean_of 0 n spanb) spanb))).
Proof.
  intros fl w1 w2 w3 n h l c v H1 H2 H3 spana spanb k. cbn [compute]. cols.
  unfold ichimoku_a, ichimoku_b. rewrite ichi_run by auto. cbn [bind].
  rewrite sadd_from, half_from, warm_max by auto. fold k. fold spana.
  rewrite (max_part w3 0), (min_part w3 0) by lia. cbn [bind]. rewrite sadd_from, half_from. cbn [Nat.max]. fold (midrange w3 h l). fold spanb.
  split.
  - rewrite shift_fill_tab. destruct (Nat.ltb_spec k n).
    + rewrite smean_from by auto. apply shows_check_back.
    + replace (smean (tab n (from k spana))) with NaN; [apply shows_check_back|].
      unfold smean. rewrite obs_from. now replace (n - k)%nat with 0%nat by lia.
  - rewrite shift_mean. now rewrite back_finite'.
Qed.
Lemma midrange_range : forall w h l i, (1 <= w)%nat -> l i <= h i -> wmin w l i <= midrange w h l i <= wmax w h i.
Proof.
  intros. pose proof (wmax_ge w h i i H ltac:(unfold wlo; lia)). pose proof (wmin_le w l i i H ltac:(unfold wlo; lia)). unfold midrange. lra.
Qed.

(** ** C44: DPO *)
Lemma dpo_shift_nat : forall w, dpo_shift (Z.of_nat w) = Z.of_nat (S (w / 2)).
Proof.
  intros. unfold dpo_shift. rewrite Z.quot_div_nonneg by lia. rewrite Nat2Z.inj_succ, Nat2Z.inj_div.
  replace (Z.of_nat w + 2)%Z with (Z.of_nat w + 1 * 2)%Z by lia. rewrite Z.div_add by lia. change (Z.of_nat 2) with 2%Z. lia.
Qed.
Lemma dpo_formula : forall fl w n h l c v, (1 <= w)%nat ->
  compute (Dpo (Z.of_nat w)) fl (frame n h l c v) =
  Ok (tab n (from (warm fl w) (fun i => back (S (w / 2)) (mean_of 0 n c) c i - wmean w c i))).
Proof.
  intros. cbn [compute]. cols. unfold dpo. rewrite mean_tab by auto. cbn [bind]. rewrite dpo_shift_nat, shift_mean, ssub_from. cbn [Nat.max].
  rewrite check_from by (reflexivity || lia). now rewrite gaps_warm.
Qed.

(** ** KST *)
Lemma back_pos : forall r n c i, (forall i, (i < n)%nat -> 0 < c i) -> (i < n)%nat -> 0 < back r (mean_of 0 n c) c i.
Proof.
  intros r n c i H Hi. unfold back. destruct (i <? r)%nat; [|apply H; lia]. unfold mean_of. rewrite Nat.sub_0_r.
  apply Rdiv_lt_0_compat; [|apply lt_0_INR; lia]. destruct n; [lia|]. cbn [rsum].
  assert (0 <= rsum c 0 n) by (apply rsum_nonneg; intros; left; apply H; lia). specialize (H n ltac:(lia)). cbn [Nat.add]. lra.
Qed.
Lemma rocma_formula : forall fl r w n c, (1 <= w)%nat -> (forall i, (i < n)%nat -> 0 < c i) ->
  kst_rocma (tab n (from 0 c)) (Z.of_nat r) (Z.of_nat w) fl = Ok (tab n (from (warm fl w) (roc_mean r w n c))).
Proof.
  intros fl r w n c Hw H. unfold kst_rocma. rewrite shift_mean, ssub_from. rewrite sdiv_from_fin.
  - apply mean_tab. auto.
  - intros i Hi. pose proof (back_pos r n c i H ltac:(lia)). lra.
Qed.
Section KST.
Variables (fl : bool) (r1 r2 r3 r4 w1 w2 w3 w4 s n : nat) (h l c v : nat -> R).
Let k := warm fl (Nat.max (Nat.max w1 w2) (Nat.max w3 w4)).
Let line i := 100 * (roc_mean r1 w1 n c i + 2 * roc_mean r2 w2 n c i + 3 * roc_mean r3 w3 n c i + 4 * roc_mean r4 w4 n c i).
Lemma kst_run_formula : (1 <= w1)%nat -> (1 <= w2)%nat -> (1 <= w3)%nat -> (1 <= w4)%nat -> (1 <= s)%nat ->
  (forall i, (i < n)%nat -> 0 < c i) ->
  kst_run (tab n (from 0 c)) (Z.of_nat r1) (Z.of_nat r2) (Z.of_nat r3) (Z.of_nat r4) (Z.of_nat w1) (Z.of_nat w2) (Z.of_nat w3) (Z.of_nat w4) (Z.of_nat s) fl =
  Ok (tab n (from k line), tab n (from k (wmean_from k s line))).
Proof.
  intros H1 H2 H3 H4 Hs H. unfold kst_run. rewrite !rocma_formula by auto. cbn [bind]. cbn [fofZ XR].
  rewrite !scal_from, !sadd_from, scal_from, !warm_max by lia.
  replace (Nat.max (Nat.max (Nat.max w1 w2) w3) w4) with (Nat.max (Nat.max w1 w2) (Nat.max w3 w4)) by lia. fold k.
  change (fun i => 100 * (roc_mean r1 w1 n c i + 2 * roc_mean r2 w2 n c i + 3 * roc_mean r3 w3 n c i + 4 * roc_mean r4 w4 n c i)) with line.
  rewrite (mean_part_from s 0) by lia. reflexivity.
Qed.
Lemma kst_formula : (1 <= w1)%nat -> (1 <= w2)%nat -> (1 <= w3)%nat -> (1 <= w4)%nat -> (1 <= s)%nat ->
  (forall i, (i < n)%nat -> 0 < c i) ->
  compute (Kst (Z.of_nat r1) (Z.of_nat r2) (Z.of_nat r3) (Z.of_nat r4) (Z.of_nat w1) (Z.of_nat w2) (Z.of_nat w3) (Z.of_nat w4) (Z.of_nat s)) fl (frame n h l c v) =
    Ok (tab n (from k line)) /\
  compute (KstSig (Z.of_nat r1) (Z.of_nat r2) (Z.of_nat r3) (Z.of_nat r4) (Z.of_nat w1) (Z.of_nat w2) (Z.of_nat w3) (Z.of_nat w4) (Z.of_nat s)) fl (frame n h l c v) =
    Ok (tab n (from k (wmean_from k s line))) /\
  compute (KstDiff (Z.of_nat r1) (Z.of_nat r2) (Z.of_nat r3) (Z.of_nat r4) (Z.of_nat w1) (Z.of_nat w2) (Z.of_nat w3) (Z.of_nat w4) (Z.of_nat s)) fl (frame n h l c v) =
    Ok (tab n (from k (fun i => line i - wmean_from k s line i))).
Proof.
  intros. cbn [compute]. cols. unfold kst, kst_sig, kst_diff. rewrite kst_run_formula by auto. cbn [bind]. rewrite ssub_from, Nat.max_id.
  rewrite !check_from by (reflexivity || lia). unfold k. rewrite !gaps_warm. auto.
Qed.
End KST.

(** ** TRIX *)
Lemma ema3_pos : forall w k c i n, (1 <= w)%nat -> (forall i, (i < n)%nat -> 0 < c i) -> (k + k <= i < n)%nat -> 0 < ema3 w k c i.
Proof.
  intros w k c i n Hw H Hi. unfold ema3. apply ema_posk; auto. intros t Ht. apply ema_posk; auto. intros t' Ht'. apply ema_posk; auto.
  intros t'' Ht''. apply H. lia.
Qed.
Lemma trix_formula : forall fl w n h l c v, (1 <= w)%nat -> (forall i, (i < n)%nat -> 0 < c i) ->
  let k := warm fl w in
  compute (Trix (Z.of_nat w)) fl (frame n h l c v) =
  Ok (tab n (gaps fl 0 (if (k =? 0)%nat then 0 else k + k + k + 1) (trix_value w k n c))).
Proof.
  intros fl w n h l c v Hw H k. cbn [compute]. cols. unfold trix. rewrite ema_tab by auto. cbn [bind]. rewrite ema_tab by auto. cbn [bind].
  rewrite ema_tab by auto. cbn [bind]. fold k. cbn [Nat.add]. fold (ema3 w k c). set (e := ema3 w k c).
  rewrite <- check_from by (reflexivity || lia). do 2 f_equal. change 1%Z with (Z.of_nat 1).
  assert (SM : (k + k + k < n)%nat -> smean (tab n (from (k + k + k) e)) = Fin (mean_of (k + k + k) n e)) by (apply smean_from).
  generalize dependent (smean (tab n (from (k + k + k) e))). intros M SM.
  rewrite shift_fill_tab. unfold ssub, sdiv, muls. rewrite !map2_tab, map_tab. apply tab_ext. intros i Hi.
  assert (X : forall a p, p <> 0 -> (((Fin a -. Fin p) /. Fin p) **. #100)%F = Fin ((a - p) / p * 100)).
  { intros a p Hp. cbn. destruct (Req_EM_T p 0); [contradiction|]. reflexivity. }
  assert (P : forall j, (k + k <= j < n)%nat -> 0 < e j) by (intros; apply ema3_pos with n; auto).
  unfold trix_value. fold e. unfold from, fromx, back.
  destruct (Nat.ltb_spec i (k + k + k)) as [L|L].
  - destruct (Nat.eqb_spec k 0); [lia|]. destruct (Nat.ltb_spec i (k + k + k + 1)); [|lia].
    destruct (Nat.ltb_spec i 1); [|destruct (Nat.ltb_spec (i - 1) (k + k + k)); [|lia]]; reflexivity.
  - destruct (Nat.ltb_spec i 1).
    + destruct (Nat.eqb_spec k 0) as [K|K]; [|lia]. change (i <? 0)%nat with false. cbv iota.
      rewrite SM by lia. apply X.
      assert (0 < mean_of (k + k + k) n e); [|lra]. unfold mean_of. apply Rdiv_lt_0_compat; [|apply lt_0_INR; lia].
      destruct (n - (k + k + k))%nat as [|m] eqn:E; [lia|]. cbn [rsum].
      assert (0 <= rsum e (k + k + k) m) by (apply rsum_nonneg; intros j Hj; left; apply P; lia).
      specialize (P (k + k + k + m)%nat ltac:(lia)). lra.
    + destruct (Nat.ltb_spec (i - 1) (k + k + k)).
      * destruct (Nat.eqb_spec k 0); [lia|]. destruct (Nat.ltb_spec i (k + k + k + 1)); [reflexivity|lia].
      * assert (Q : (i <? (if (k =? 0)%nat then 0 else k + k + k + 1))%nat = false).
        { destruct (Nat.eqb_spec k 0); [reflexivity|]. apply Nat.ltb_ge. lia. }
        rewrite Q. apply X. specialize (P (i - 1)%nat ltac:(lia)). lra.
Qed.

(** ** mass index *)
Lemma mass_formula : forall fl wf ws n h l c v, (1 <= wf)%nat -> (1 <= ws)%nat -> (forall i, (i < n)%nat -> l i < h i) ->
  let k := warm fl wf in
  compute (Mass (Z.of_nat wf) (Z.of_nat ws)) fl (frame n h l c v) =
  Ok (tab n (from (k + k + warm fl ws) (wsum ws (mass_ratio wf k h l)))).
Proof.
  intros fl wf ws n h l c v Hf Hs H k. cbn [compute]. cols. unfold mass_index. rewrite ssub_from. cbn [Nat.max]. rewrite ema_tab by auto. cbn [bind].
  rewrite ema_tab by auto. cbn [bind]. fold k. rewrite sdiv_from_fin.
  - cbn [Nat.add]. rewrite Nat.max_r by lia.
    assert (E : rolling (Z.of_nat ws) (minp_of fl (Z.of_nat ws)) agg_sum (tab n (from (k + k) (mass_ratio wf k h l))) =
      Ok (tab n (from (k + k + warm fl ws) (wsum ws (mass_ratio wf k h l))))).
    { unfold k. destruct fl; cbn [minp_of warm].
      - apply (sum_part ws 0); lia.
      - rewrite sum_full by auto. do 3 f_equal. lia. }
    unfold mass_ratio in E at 1. rewrite E. cbn [bind]. rewrite check_from by (reflexivity || lia). f_equal.
    unfold k. destruct fl; [reflexivity|]. apply tab_ext. intros. apply gaps_false.
  - cbn [Nat.add]. intros i Hi. assert (0 < ema wf (ema wf (fun i => h i - l i) 0) k i); [|lra].
    apply ema_posk; auto. intros t Ht. apply ema_posk; auto. intros t' Ht'. specialize (H t' ltac:(lia)). lra.
Qed.

(** ** STC *)
Lemma stc_stoch_formula : forall cy n k g, (1 <= cy)%nat ->
  (forall i, (k + cy - 1 <= i < n)%nat -> wmin cy g i <> wmax cy g i) ->
  stc_stoch (tab n (from k g)) (Z.of_nat cy) = Ok (tab n (from (k + cy - 1) (range_pos cy g))).
Proof.
  intros cy n k g Hc H. unfold stc_stoch. rewrite min_full, max_full by auto. cbn [bind]. cbn [fofZ XR]. rewrite !ssub_from, scal_from.
  rewrite Nat.max_id, Nat.max_r by lia. rewrite sdiv_from_fin by (intros i Hi; specialize (H i ltac:(lia)); lra). now rewrite Nat.max_id.
Qed.
Lemma stc_formula : forall fl ws wf cy s1 s2 n h l c v,
  (1 <= ws)%nat -> (1 <= wf)%nat -> (1 <= cy)%nat -> (1 <= s1)%nat -> (1 <= s2)%nat ->
  let k := warm fl (Nat.max wf ws) in let m := fun i => ema wf c 0 i - ema ws c 0 i in
  let k1 := (k + cy - 1)%nat in let d := ema s1 (range_pos cy m) k1 in
  let k2 := (k1 + warm fl s1 + cy - 1)%nat in
  (forall i, (k1 <= i < n)%nat -> wmin cy m i <> wmax cy m i) ->
  (forall i, (k2 <= i < n)%nat -> wmin cy d i <> wmax cy d i) ->
  compute (Stc (Z.of_nat ws) (Z.of_nat wf) (Z.of_nat cy) (Z.of_nat s1) (Z.of_nat s2)) fl (frame n h l c v) =
  Ok (tab n (gaps fl 0 (k2 + warm fl s2) (ema s2 (range_pos cy d) k2))).
Proof.
  intros fl ws wf cy s1 s2 n h l c v H1 H2 H3 H4 H5 k m k1 d k2 N1 N2. cbn [compute]. cols. unfold stc.
  rewrite !ema_tab by auto. cbn [bind]. rewrite ssub_from. cbn [Nat.add]. rewrite warm_max by auto. fold k. fold m.
  rewrite stc_stoch_formula by auto. cbn [bind]. fold k1. rewrite ema_tab by auto. cbn [bind]. fold d.
  rewrite stc_stoch_formula by auto. cbn [bind]. fold k2. rewrite ema_tab by auto. cbn [bind]. now rewrite check_from by (reflexivity || lia).
Qed.

(** ** neutral values *)
Lemma rsum_const' : forall f a k x, (forall j, (a <= j < a + k)%nat -> f j = x) -> rsum f a k = INR k * x.
Proof. intros. rewrite (rsum_ext f (fun _ => x)) by auto. apply rsum_const. Qed.
Lemma wmean_const : forall w f i x, (1 <= w)%nat -> (forall j, (j <= i)%nat -> f j = x) -> wmean w f i = x.
Proof.
  intros. unfold wmean, wsum. rewrite (rsum_const' _ _ _ x) by (intros j Hj; apply H0; unfold wlo, wlen in Hj; lia).
  field. apply not_0_INR. pose proof (wlen_pos w i H). lia.
Qed.
Lemma mean_of_const : forall k n f x, (k < n)%nat -> (forall j, (k <= j < n)%nat -> f j = x) -> mean_of k n f = x.
Proof. intros. unfold mean_of. rewrite (rsum_const' _ _ _ x) by (intros; apply H0; lia). field. apply not_0_INR. lia. Qed.
Lemma back_const : forall r k n f x i, (k < n)%nat -> (forall j, (k <= j < n)%nat -> f j = x) -> (k + r <= i < n)%nat \/ (i < r)%nat -> back r (mean_of k n f) f i = x.
Proof. intros. unfold back. destruct (Nat.ltb_spec i r); [now apply mean_of_const|]. apply H0. lia. Qed.
Lemma wmean_from_const : forall k w f i x, (1 <= w)%nat -> (k <= i)%nat -> (forall j, (k <= j <= i)%nat -> f j = x) -> wmean_from k w f i = x.
Proof.
  intros. unfold wmean_from. rewrite (rsum_const' _ _ _ x) by (intros j Hj; apply H1; lia). field. apply not_0_INR. unfold wlo. lia.
Qed.
Lemma dpo_const : forall fl w n h l c v p, (1 <= w)%nat -> (forall i, (i < n)%nat -> c i = p) ->
  compute (Dpo (Z.of_nat w)) fl (frame n h l c v) = Ok (tab n (from (warm fl w) (fun _ => 0))).
Proof.
  intros. rewrite dpo_formula by auto. f_equal. apply from_ext. intros i Hi.
  rewrite (back_const _ 0 n c p) by (try lia; intros; apply H0; lia). rewrite (wmean_const w c i p); [lra|auto|]. intros. apply H0. lia.
Qed.
Lemma roc_mean_const : forall r w n c p i, (1 <= w)%nat -> (i < n)%nat -> (forall i, (i < n)%nat -> c i = p) -> roc_mean r w n c i = 0.
Proof.
  intros r w n c p i Hw Hi H. unfold roc_mean. apply wmean_const; auto. intros j Hj.
  rewrite (back_const _ 0 n c p) by (try lia; intros; apply H; lia). rewrite H by lia. unfold Rdiv. lra.
Qed.
Lemma kst_const : forall fl r1 r2 r3 r4 w1 w2 w3 w4 s n h l c v p,
  (1 <= w1)%nat -> (1 <= w2)%nat -> (1 <= w3)%nat -> (1 <= w4)%nat -> (1 <= s)%nat -> 0 < p ->
  (forall i, (i < n)%nat -> c i = p) ->
  let k := warm fl (Nat.max (Nat.max w1 w2) (Nat.max w3 w4)) in
  compute (Kst (Z.of_nat r1) (Z.of_nat r2) (Z.of_nat r3) (Z.of_nat r4) (Z.of_nat w1) (Z.of_nat w2) (Z.of_nat w3) (Z.of_nat w4) (Z.of_nat s)) fl (frame n h l c v) =
    Ok (tab n (from k (fun _ => 0))) /\
  compute (KstSig (Z.of_nat r1) (Z.of_nat r2) (Z.of_nat r3) (Z.of_nat r4) (Z.of_nat w1) (Z.of_nat w2) (Z.of_nat w3) (Z.of_nat w4) (Z.of_nat s)) fl (frame n h l c v) =
    Ok (tab n (from k (fun _ => 0))).
Proof.
  intros fl r1 r2 r3 r4 w1 w2 w3 w4 s n h l c v p H1 H2 H3 H4 H5 Hp H k.
  assert (HP : forall i, (i < n)%nat -> 0 < c i) by (intros; rewrite H by auto; auto).
  destruct (kst_formula fl r1 r2 r3 r4 w1 w2 w3 w4 s n h l c v H1 H2 H3 H4 H5 HP) as (K & S' & _).
  rewrite K, S'. fold k.
  assert (L : forall i, (i < n)%nat -> 100 * (roc_mean r1 w1 n c i + 2 * roc_mean r2 w2 n c i + 3 * roc_mean r3 w3 n c i + 4 * roc_mean r4 w4 n c i) = 0).
  { intros i Hi. rewrite !(roc_mean_const _ _ n c p i) by auto. lra. }
  split; f_equal; apply from_ext; intros i Hi; [apply L; lia|]. apply wmean_from_const; [auto|lia|]. intros. apply L. lia.
Qed.
Lemma ema3_const : forall w k c i n p, (forall i, (i < n)%nat -> c i = p) -> (k + k <= i < n)%nat -> ema3 w k c i = p.
Proof.
  intros w k c i n p H Hi. unfold ema3. apply ema_const; [lia|]. intros t Ht. apply ema_const; [lia|]. intros t' Ht'. apply ema_const; [lia|].
  intros. apply H. lia.
Qed.
Lemma trix_const : forall fl w n h l c v p, (1 <= w)%nat -> 0 < p -> (forall i, (i < n)%nat -> c i = p) ->
  let k := warm fl w in
  compute (Trix (Z.of_nat w)) fl (frame n h l c v) =
  Ok (tab n (gaps fl 0 (if (k =? 0)%nat then 0 else k + k + k + 1) (fun _ => 0))).
Proof.
  intros fl w n h l c v p Hw Hp H k. rewrite trix_formula; [|auto|intros; rewrite H; auto]. fold k. f_equal. apply tab_ext. intros i Hi. unfold gaps.
  destruct (Nat.ltb_spec i (if (k =? 0)%nat then 0 else k + k + k + 1)); [reflexivity|]. f_equal. unfold trix_value.
  assert (B : (k + k + k <= i)%nat) by (destruct (Nat.eqb_spec k 0); lia).
  assert (B' : (k + k + k + 1 <= i < n)%nat \/ (i < 1)%nat) by (destruct (Nat.eqb_spec k 0); lia).
  rewrite (back_const 1 (k + k + k) n (ema3 w k c) p i) by (try lia; intros; apply ema3_const with n; auto; lia).
  rewrite (ema3_const w k c i n p) by (auto; lia). unfold Rdiv. lra.
Qed.
Lemma mass_const : forall fl wf ws n h l c v d, (1 <= wf)%nat -> (1 <= ws)%nat -> 0 < d -> (forall i, (i < n)%nat -> h i - l i = d) ->
  let k := warm fl wf in
  compute (Mass (Z.of_nat wf) (Z.of_nat ws)) fl (frame n h l c v) =
  Ok (tab n (from (k + k + warm fl ws) (fun i => INR (wlen ws i)))).
Proof.
  intros fl wf ws n h l c v d Hf Hs Hd H k. rewrite mass_formula by (auto; intros i Hi; specialize (H i Hi); lra). fold k. f_equal.
  apply from_ext. intros i Hi. unfold wsum. rewrite (rsum_const' _ _ _ 1); [lra|]. intros j Hj.
  assert (J : (k + k <= j < n)%nat).
  { unfold wlo, wlen in Hj. unfold k in *. destruct fl; cbn [warm] in *; lia. }
  unfold mass_ratio. 
  assert (E : forall t, (t < n)%nat -> ema wf (fun i => h i - l i) 0 t = d) by (intros; apply ema_const; [lia|]; intros; apply H; lia).
  rewrite E by lia. rewrite (ema_const wf (ema wf (fun i => h i - l i) 0) k j d) by (try lia; intros; apply E; lia). field. lra.
Qed.
