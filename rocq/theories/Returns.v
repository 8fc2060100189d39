(** * Returns: rate of change and the return series (C30). *)
From Verif Require Import Lists Api SpecNum Align Rows Fill Tab Averages Range Oscillators.
Local Open Scope R_scope.

Lemma roc_row : forall c p : R, ((Fin c -. Fin p) /. Fin p **. #100 = (Fin c /. Fin p -. #1) **. #100)%F.
Proof.
  intros. cbn. destruct (Req_EM_T p 0) as [->|].
  - replace (c + - 0) with c by lra. unfold rsign, xinf.
    destruct (Rlt_dec 0 c); [reflexivity|]. destruct (Rlt_dec c 0); reflexivity.
  - cbn. f_equal. field. auto.
Qed.
Lemma roc1_daily : forall fl n h l c v,
  compute (Roc 1) fl (frame n h l c v) = compute DailyReturn fl (frame n h l c v).
Proof.
  intros. cbn [compute]. cols. unfold roc, daily_return. do 2 f_equal. unfold muls, subs, sdiv, ssub.
  rewrite shift1_from, !map2_tab, !map_tab. apply tab_ext. intros i _. unfold from, fromx.
  destruct i; [reflexivity|]. cbn [Nat.ltb Nat.leb]. apply roc_row.
Qed.
Lemma roc_formula : forall fl w n h l c v, (forall i, (i < n)%nat -> c i <> 0) ->
  compute (Roc (Z.of_nat w)) fl (frame n h l c v) =
  Ok (tab n (gaps fl 0 w (fun i => (c i - c (i - w)%nat) / c (i - w)%nat * 100))).
Proof.
  intros. cbn [compute]. cols. unfold roc. rewrite shift_from, ssub_from.
  rewrite sdiv_from_fin by (intros; apply H; lia). cbn [fofZ XR]. rewrite muls_from, check_from by (reflexivity || lia).
  do 3 f_equal. lia.
Qed.
Lemma daily_formula : forall fl n h l c v, (forall i, (i < n)%nat -> c i <> 0) ->
  compute DailyReturn fl (frame n h l c v) =
  Ok (tab n (gaps fl 0 1 (fun i => (c i / c (i - 1)%nat - 1) * 100))).
Proof.
  intros. cbn [compute]. cols. unfold daily_return. rewrite shift1_from.
  rewrite sdiv_from_fin by (intros; apply H; lia). cbn [fofZ XR].
  rewrite subs_from, muls_from, check_from by (reflexivity || lia). reflexivity.
Qed.
Lemma back_finite : forall n g, check_fillna true (FillInt (-1)) (tab n (from 0 g)) = tab n (from 0 g).
Proof.
  intros. destruct (back_filled (tab n (from 0 g))) as (L & H & _). rewrite len_tab in *.
  apply list_tab with NaN; auto. intros i Hi. change NaN with (@fnan xr XR). rewrite H by (rewrite ?nth_tab; auto).
  now rewrite nth_tab.
Qed.
Lemma back_finite' : forall fl n g, check_fillna fl (FillInt (-1)) (tab n (from 0 g)) = tab n (from 0 g).
Proof. intros [|] n g; [apply back_finite|reflexivity]. Qed.
Lemma cum_formula : forall fl n h l c v, (1 <= n)%nat -> c 0%nat <> 0 ->
  compute CumReturn fl (frame n h l c v) = Ok (tab n (from 0 (fun i => (c i / c 0%nat - 1) * 100))).
Proof.
  intros fl n h l c v Hn H. cbn [compute]. cols. unfold cumulative_return.
  assert (E : exists r, tab n (from 0 c) = Fin (c 0%nat) :: r) by (destruct n; [lia|]; eexists; reflexivity).
  destruct E as (r & E). rewrite E. rewrite <- E. f_equal. rewrite divs_from by auto. cbn [fofZ XR].
  rewrite subs_from, muls_from. apply back_finite'.
Qed.
Lemma rprod_ext : forall f g a k, (forall j, (a <= j < a + k)%nat -> f j = g j) -> rprod f a k = rprod g a k.
Proof. induction k; intros H; cbn [rprod]; auto. rewrite IHk, H by (intros; try apply H; lia). auto. Qed.
Lemma rprod_ratio : forall c i, (forall j, (j <= i)%nat -> c j <> 0) ->
  rprod (fun j => c j / c (j - 1)%nat) 1 i = c i / c 0%nat.
Proof.
  induction i; intros H; cbn [rprod]; [field; apply H; lia|].
  rewrite IHi by (intros; apply H; lia). cbn [Nat.add]. replace (S i - 1)%nat with i by lia.
  field. split; apply H; lia.
Qed.
(** the finite rows of a column of n rows, as a function *)
Lemma returns_compound : forall n h l c v, (1 <= n)%nat -> (forall i, (i < n)%nat -> c i <> 0) ->
  exists d u, compute DailyReturn false (frame n h l c v) = Ok (tab n (from 1 d)) /\
    compute CumReturn false (frame n h l c v) = Ok (tab n (from 0 u)) /\
    forall i, (i < n)%nat -> 1 + u i / 100 = rprod (fun j => 1 + d j / 100) 1 i.
Proof.
  intros n h l c v Hn H. do 2 eexists. split; [|split].
  - rewrite daily_formula by auto. f_equal.
  - apply cum_formula; auto.
  - intros i Hi. rewrite rprod_ext with (g := fun j => c j / c (j - 1)%nat) by (intros; lra).
    rewrite rprod_ratio by (intros; apply H; lia). lra.
Qed.
Lemma log_returns_add : forall n h l c v, (1 <= n)%nat -> (forall i, (i < n)%nat -> 0 < c i) ->
  exists g, compute (DailyLogReturn xln) false (frame n h l c v) = Ok (tab n (from 1 g)) /\
    forall i, (i < n)%nat -> rsum g 1 i = 100 * ln (c i / c 0%nat).
Proof.
  intros n h l c v Hn H. exists (fun i => (ln (c i) - ln (c (i - 1)%nat)) * 100). split.
  - cbn [compute]. cols. unfold daily_log_return.
    replace (map xln (tab n (from 0 c))) with (tab n (from 0 (fun i => ln (c i)))).
    + rewrite diff1_from. cbn [fofZ XR]. rewrite muls_from. reflexivity.
    + rewrite map_tab. apply tab_ext. intros i Hi. unfold from, fromx. cbn.
      destruct (Rlt_dec 0 (c i)); [reflexivity|]. specialize (H i Hi). lra.
  - intros i Hi. assert (rsum (fun i => (ln (c i) - ln (c (i - 1)%nat)) * 100) 1 i = 100 * (ln (c i) - ln (c 0%nat))).
    { clear Hi. induction i; cbn [rsum]; [lra|]. rewrite IHi. cbn [Nat.add]. replace (S i - 1)%nat with i by lia. lra. }
    rewrite H0. unfold Rdiv. rewrite ln_mult, ln_Rinv by (try apply Rinv_0_lt_compat; apply H; lia). lra.
Qed.
