(** * TrueRange: true range and the ultimate oscillator (C27, C45). *)
From Verif Require Import Lists Api SpecNum Align Rows Fill Tab Averages Range Oscillators.
Local Open Scope R_scope.

Lemma nanmax3_fin : forall a b c, nanmax [Fin a; Fin b; Fin c] = Fin (Rmax a (Rmax b c)).
Proof. intros. unfold nanmax. cbn [obs filter fisnan XR xisnan negb fold_left]. now rewrite !fmax2_fin, Rmax_assoc. Qed.
Lemma true_range_tab : forall n h l c,
  true_range (tab n (from 0 h)) (tab n (from 0 l)) (shift 1 (tab n (from 0 c))) = tab n (from 0 (trange h l c)).
Proof.
  intros. unfold true_range. rewrite shift1_from, !ssub_from, !abs_from, map3_tab. apply tab_ext. intros i _.
  unfold from, fromx. cbn [Nat.max Nat.ltb Nat.leb]. destruct i as [|i].
  - reflexivity.
  - cbn [Nat.ltb Nat.leb]. rewrite nanmax3_fin. cbn [trange Nat.sub]. now rewrite Nat.sub_0_r.
Qed.
Lemma trange_ge : forall h l c i, h i - l i <= trange h l c i.
Proof. intros. destruct i; cbn; [lra|apply Rmax_l]. Qed.
Lemma pressure_tab : forall n l c, (forall x y : R, npmin2 (Fin x) (Fin y) = Fin (Rmin x y)) ->
  ssub (tab n (from 0 c)) (map2 npmin2 (tab n (from 0 l)) (shift 1 (tab n (from 0 c)))) = tab n (from 1 (pressure l c)).
Proof.
  intros n l c Hm. rewrite shift1_from. unfold ssub. rewrite !map2_tab. apply tab_ext. intros i _.
  unfold from, fromx. cbn [Nat.ltb Nat.leb]. destruct i as [|i]; [reflexivity|]. cbn [Nat.ltb Nat.leb].
  rewrite Hm. cbn. now rewrite Nat.sub_0_r.
Qed.
Lemma npmin2_fin : forall x y : R, npmin2 (Fin x) (Fin y) = Fin (Rmin x y).
Proof. intros. unfold npmin2. cbn [fisnan XR xisnan]. apply fmin2_fin. Qed.

Definition nan0 (x : xr) : xr := match x with NaN => Fin 0 | _ => x end.
Lemma fold_obs_zero : forall l y, Forall (fpred (fun _ => True)) l ->
  fold_left (@fadd xr XR) (obs l) (Fin y) = fold_left (@fadd xr XR) (map nan0 l) (Fin y).
Proof.
  induction l; intros y H; [reflexivity|]. inversion H; subst. destruct a; cbn in H2; try easy.
  - change (obs (NaN :: l)) with (obs l). cbn [map nan0 fold_left]. rewrite IHl by auto. cbn [fadd XR xadd]. now rewrite Rplus_0_r.
  - change (obs (Fin r :: l)) with (Fin r :: obs l). cbn [map nan0 fold_left fadd XR xadd]. now apply IHl.
Qed.
Lemma sum_part1 : forall w n g, (1 <= w)%nat -> g 0%nat = 0 ->
  rolling (Z.of_nat w) 0 agg_sum (tab n (from 1 g)) = Ok (tab n (from 0 (wsum w g))).
Proof.
  intros w n g Hw H0. change 0%Z with (Z.of_nat 0). rewrite rolling_tab by lia. f_equal. apply tab_ext. intros i _.
  unfold from at 2, fromx. cbn [Nat.ltb Nat.leb]. unfold wsum, win_agg, win_sum. cbn [Nat.ltb Nat.leb].
  rewrite <- fsum_tab. rewrite !fsum_left. cbn [fofZ XR]. rewrite fold_obs_zero.
  - f_equal. rewrite map_map. apply map_ext. intros j. unfold from, fromx. destruct j; cbn; congruence.
  - apply Forall_forall. intros x Hx. apply in_map_iff in Hx. destruct Hx as (j & <- & _).
    unfold from, fromx. now destruct (j <? 1)%nat.
Qed.
Lemma pressure_sums : forall fl w n l c, (1 <= w)%nat ->
  rolling (Z.of_nat w) (minp_of fl (Z.of_nat w)) agg_sum (tab n (from 1 (pressure l c))) =
  Ok (tab n (from (if fl then 0 else w) (wsum w (pressure l c)))).
Proof.
  intros [|] w n l c Hw; [apply sum_part1; auto|]. cbn [minp_of]. rewrite sum_full by auto. do 3 f_equal. lia.
Qed.
Lemma pressure_range : forall n h l c i, sane n h l c -> (i < n)%nat -> 0 <= pressure l c i <= trange h l c i.
Proof.
  intros n h l c i HS Hi. pose proof (HS i Hi). destruct i as [|i]; cbn [pressure trange].
  - lra.
  - pose proof (Rmin_l (l (1 + i)%nat) (c i)). pose proof (Rmin_r (l (1 + i)%nat) (c i)). cbn [Nat.add] in *. split; [lra|].
    unfold Rmin. destruct (Rle_dec _ _); eapply Rle_trans; [|apply Rmax_l| |apply Rmax_r]; [lra|].
    eapply Rle_trans; [|apply Rmax_l]. pose proof (Rle_abs (h (S i) - c i)). lra.
Qed.
Lemma rsum_le : forall f g a k, (forall j, (a <= j < a + k)%nat -> f j <= g j) -> rsum f a k <= rsum g a k.
Proof. induction k; intros H; cbn [rsum]; [lra|]. pose proof (H (a + k)%nat ltac:(lia)). assert (rsum f a k <= rsum g a k) by (apply IHk; intros; apply H; lia). lra. Qed.
Lemma pressure_sum_range : forall n h l c w i, sane n h l c -> (i < n)%nat ->
  0 <= wsum w (pressure l c) i <= wsum w (trange h l c) i.
Proof.
  intros n h l c w i HS Hi. unfold wsum. split; [apply rsum_nonneg|apply rsum_le]; intros j Hj;
    apply (pressure_range n h l c j HS); unfold wlo, wlen in Hj; lia.
Qed.
Lemma ratio_within01 : forall a b, 0 <= a <= b -> within 0 1 (ratio a b).
Proof. intros. pose proof (unit_ratio a 0 b H). rewrite !Rminus_0_r in H0. now rewrite <- xdiv_ratio. Qed.

Lemma ratio_zero : forall a b, 0 <= a <= b -> b = 0 -> ratio a b = NaN.
Proof.
  intros a b H ->. unfold ratio. destruct (Req_EM_T 0 0); [|lra]. destruct (Rlt_dec 0 a); [lra|]. destruct (Rlt_dec a 0); [lra|]. auto.
Qed.
Lemma uo_formula : forall fl w1 w2 w3 k1 k2 k3 n h l c v, (1 <= w1)%nat -> (1 <= w2)%nat -> (1 <= w3)%nat ->
  sane n h l c -> k1 + k2 + k3 <> 0 ->
  shows fl 50 (tab n (fromx (if fl then 0 else Nat.max w1 (Nat.max w2 w3)) (uo_row h l c w1 w2 w3 k1 k2 k3)))
   (compute (UltOsc (Z.of_nat w1) (Z.of_nat w2) (Z.of_nat w3) (Fin k1) (Fin k2) (Fin k3)) fl (frame n h l c v)).
Proof.
  intros fl w1 w2 w3 k1 k2 k3 n h l c v H1 H2 H3 HS K. cbn [compute]. cols. unfold ultimate_oscillator, uo_run.
  rewrite true_range_tab, pressure_tab by (intros; apply npmin2_fin).
  rewrite !pressure_sums, !sum_tab by auto. cbn [bind rmap].
  match goal with |- context [check_fillna _ _ ?L] => 
    replace L with (tab n (fromx (if fl then 0 else Nat.max w1 (Nat.max w2 w3)) (uo_row h l c w1 w2 w3 k1 k2 k3))) end.
  { apply shows_check; (reflexivity || lia). }
  rewrite !sdiv_from. unfold divs, scal, sadd. rewrite !map_tab, !map2_tab, !map_tab. apply tab_ext. intros i Hi.
  pose proof (pressure_sum_range n h l c w1 i HS Hi) as B1. pose proof (pressure_sum_range n h l c w2 i HS Hi) as B2.
  pose proof (pressure_sum_range n h l c w3 i HS Hi) as B3.
  assert (E : forall w, (1 <= w)%nat -> Nat.max (if fl then 0 else w) (warm fl w) = if fl then 0%nat else w)
    by (intros; unfold warm; destruct fl; lia).
  rewrite !E by auto. unfold uo_row. clear E.
  assert (N : forall x : xr, (Fin k3 **. NaN = NaN /\ x +. NaN = NaN /\ NaN +. x = NaN)%F) by (intros []; cbn; auto).
  unfold fromx.
  destruct (Nat.ltb_spec i (if fl then 0 else Nat.max w1 (Nat.max w2 w3))).
  - destruct fl; [lia|]. 
    destruct (Nat.ltb_spec i w1), (Nat.ltb_spec i w2), (Nat.ltb_spec i w3); try lia;
    repeat match goal with |- context [ratio ?a ?b] => destruct (ratio a b) end; cbn; try reflexivity;
    repeat (destruct (Req_EM_T _ _); cbn; try reflexivity); unfold rsign, xinf; repeat (destruct (Rlt_dec _ _); cbn; try reflexivity).
  - destruct (Nat.ltb_spec i (if fl then 0 else w1)); [destruct fl; lia|].
    destruct (Nat.ltb_spec i (if fl then 0 else w2)); [destruct fl; lia|].
    destruct (Nat.ltb_spec i (if fl then 0 else w3)); [destruct fl; lia|].
    assert (NA : forall x : xr, xadd NaN x = NaN /\ xadd x NaN = NaN) by (intros []; auto).
    destruct (Req_EM_T (wsum w1 (trange h l c) i) 0) as [Z1|Z1].
    { rewrite (ratio_zero _ _ B1 Z1). cbn. reflexivity. }
    rewrite (ratio_fin _ _ Z1).
    destruct (Req_EM_T (wsum w2 (trange h l c) i) 0) as [Z2|Z2].
    { rewrite (ratio_zero _ _ B2 Z2). cbn. reflexivity. }
    rewrite (ratio_fin _ _ Z2).
    destruct (Req_EM_T (wsum w3 (trange h l c) i) 0) as [Z3|Z3].
    { rewrite (ratio_zero _ _ B3 Z3). cbn. reflexivity. }
    rewrite (ratio_fin _ _ Z3). cbn. destruct (Req_EM_T _ 0); [contradiction|]. reflexivity.
Qed.
Lemma shows_within : forall lo hi fl z raw res out, (lo <= IZR z <= hi) ->
  shows fl z raw res -> Forall (within lo hi) raw -> res = Ok out -> Forall (within lo hi) out.
Proof.
  intros lo hi fl z raw res out Hz (o & E & H) R E'. rewrite E in E'. injection E' as <-.
  destruct fl; [|now subst]. destruct H as (L & H). apply Forall_nth_xr. intros i. induction i; intros Hi.
  - change NaN with (@fnan xr XR). rewrite H by lia. rewrite Forall_forall in R.
    specialize (R (nth 0 raw fnan) ltac:(apply nth_In; lia)). destruct (nth 0 raw fnan); cbn in *; auto.
  - change NaN with (@fnan xr XR). rewrite H by lia. rewrite Forall_forall in R.
    specialize (R (nth (S i) raw fnan) ltac:(apply nth_In; lia)). destruct (nth (S i) raw fnan); cbn in *; auto; apply IHi; lia.
Qed.
Lemma uo_range : forall fl w1 w2 w3 k1 k2 k3 n h l c v out, (1 <= w1)%nat -> (1 <= w2)%nat -> (1 <= w3)%nat ->
  sane n h l c -> 0 <= k1 -> 0 <= k2 -> 0 <= k3 -> 0 < k1 + k2 + k3 ->
  compute (UltOsc (Z.of_nat w1) (Z.of_nat w2) (Z.of_nat w3) (Fin k1) (Fin k2) (Fin k3)) fl (frame n h l c v) = Ok out ->
  Forall (within 0 100) out.
Proof.
  intros fl w1 w2 w3 k1 k2 k3 n h l c v out H1 H2 H3 HS K1 K2 K3 K E.
  eapply shows_within; [|apply (uo_formula fl w1 w2 w3 k1 k2 k3 n h l c v); auto; lra| |exact E]; [lra|].
  apply Forall_nth_xr. rewrite len_tab. intros i Hi. rewrite nth_tab by auto. unfold fromx.
  destruct (_ <? _)%nat; [exact I|]. unfold uo_row.
  assert (B : forall w, wsum w (trange h l c) i <> 0 -> 0 <= wsum w (pressure l c) i / wsum w (trange h l c) i <= 1).
  { intros w N. pose proof (ratio_within01 _ _ (pressure_sum_range n h l c w i HS Hi)). rewrite ratio_fin in H by auto. exact H. }
  destruct (Req_EM_T _ 0); [exact I|]. destruct (Req_EM_T _ 0); [exact I|]. destruct (Req_EM_T _ 0); [exact I|].
  pose proof (B w1 n0). pose proof (B w2 n1). pose proof (B w3 n2). cbn [within].
  set (x1 := wsum w1 _ _ / _) in *. set (x2 := wsum w2 _ _ / _) in *. set (x3 := wsum w3 _ _ / _) in *.
  assert (0 <= k1 * x1 + k2 * x2 + k3 * x3 <= k1 + k2 + k3) by nra.
  split; [apply Rmult_le_pos; [lra|apply Rlt_le, Rinv_0_lt_compat; lra]|].
  apply Rmult_le_reg_r with (k1 + k2 + k3); [lra|]. unfold Rdiv. rewrite (Rmult_assoc _ (/ _)), Rinv_l; lra.
Qed.
