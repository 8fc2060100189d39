(** * P_Ratio: property C103, ratios and percentages in binary64.

    [within e x y] and [part k M] = k * 2^-50 * M are those of SpecTracking.v;
    [close_to k x r] (SpecRatio.v): x is off by at most k * 2^-50 of |r|, and
    2^-150.  The closes (highs, lows) are the reals c i (h i, l i). *)
From Flocq Require Import Core BinarySingleNaN.
From Coq Require Import Reals Lra Floats.
From Verif Require Import Api FloatArith FloatReal FloatPct SpecNum SpecTracking SpecRatio RsiError RatioError PpoError.
Local Open Scope R_scope.

(** C103.  A quotient of differences keeps almost all its digits. *)
Theorem C103_roc : forall rows c M, closes rows c M -> M <= IZR (2 ^ 990) ->
  forall fillna w out i x, compute (Roc (Z.of_nat w)) fillna rows = Ok out -> nth_error out i = Some x -> (w <= i)%nat ->
  / IZR (2 ^ 900) <= Rabs (c (i - w)%nat) ->
  let r := (c i - c (i - w)%nat) / c (i - w)%nat * 100 in Rabs r <= IZR (2 ^ 990) -> close_to 1 x r.
Proof. exact roc_row. Qed.
Print Assumptions C103_roc.
Theorem C103_stochastic : forall rows h l c M, closes rows c M -> ranges rows h l M -> M <= IZR (2 ^ 990) ->
  forall fillna w smooth out i x, (1 <= w)%nat -> compute (Stoch (Z.of_nat w) smooth) fillna rows = Ok out -> nth_error out i = Some x -> (warm fillna w <= i)%nat ->
  let d := wmax w h i - wmin w l i in / IZR (2 ^ 900) <= Rabs d ->
  let r := 100 * (c i - wmin w l i) / d in Rabs r <= IZR (2 ^ 990) -> close_to 1 x r.
Proof. exact stoch_row. Qed.
Print Assumptions C103_stochastic.
Theorem C103_williams : forall rows h l c M, closes rows c M -> ranges rows h l M -> M <= IZR (2 ^ 990) ->
  forall fillna w out i x, (1 <= w)%nat -> compute (WilliamsR (Z.of_nat w)) fillna rows = Ok out -> nth_error out i = Some x -> (warm fillna w <= i)%nat ->
  let d := wmax w h i - wmin w l i in / IZR (2 ^ 900) <= Rabs d ->
  let r := -100 * (wmax w h i - c i) / d in Rabs r <= IZR (2 ^ 990) -> close_to 1 x r.
Proof. exact williams_row. Qed.
Print Assumptions C103_williams.

(** C103.  The returns divide first and subtract 1 afterwards: their error is
    relative to the ratio of the closes, not to the return. *)
Theorem C103_daily_return : forall rows c M, closes rows c M -> M <= IZR (2 ^ 990) ->
  forall fillna out i x, compute DailyReturn fillna rows = Ok out -> nth_error out (S i) = Some x -> c i <> 0 ->
  let g := c (S i) / c i in Rabs g <= IZR (2 ^ 990) -> within (part 40 (Rabs g + 1)) x (Fin ((g - 1) * 100)).
Proof. exact daily_row. Qed.
Print Assumptions C103_daily_return.
Theorem C103_cumulative_return : forall rows c M, closes rows c M -> M <= IZR (2 ^ 990) ->
  forall fillna out i x, compute CumReturn fillna rows = Ok out -> nth_error out i = Some x -> c 0%nat <> 0 ->
  let g := c i / c 0%nat in Rabs g <= IZR (2 ^ 990) -> within (part 40 (Rabs g + 1)) x (Fin ((g - 1) * 100)).
Proof. exact cumulative_row. Qed.
Print Assumptions C103_cumulative_return.

(** C103.  RSI: a row's error is that of the two averages, relative to their sum. *)
Theorem C103_rsi : forall fillna w rows c M, closes rows c M -> ordinary M -> (1 <= w)%nat -> (200 * Z.of_nat w <= 2 ^ 53)%Z ->
  exists out, compute (Rsi (Z.of_nat w)) fillna rows = Ok out /\ length out = length rows /\
    forall i x, nth_error out i = Some x -> let up := wilder w (gain c) 0 i in let down := wilder w (loss c) 0 i in
      ((warm fillna w <= i)%nat -> 0 < up + down) ->
      within (part (1500 * INR w + 900) (M / (up + down)) + / IZR (2 ^ 44)) x
        (from (warm fillna w) (fun j => rsi_value (wilder w (gain c) 0 j) (wilder w (loss c) 0 j)) i).
Proof. exact rsi_tracks. Qed.
Print Assumptions C103_rsi.

(** C103.  PPO on closes and PVO on volumes between m and M. *)
Theorem C103_ppo : forall fillna s f g rows c m M, rows <> [] -> levels b_close rows c m M -> 0 < m -> ordinary M ->
  (1 <= s)%nat -> (1 <= f)%nat -> (1 <= g)%nat -> (100 * Z.of_nat s <= 2 ^ 53)%Z -> (100 * Z.of_nat f <= 2 ^ 53)%Z -> (100 * Z.of_nat g <= 2 ^ 53)%Z ->
  part (INR s + 1) M <= m / 2 ->
  let k := warm fillna (Nat.max f s) in let line := fun i => (ema f c 0 i - ema s c 0 i) / ema s c 0 i * 100 in
  exists p q d, compute (Ppo (Z.of_nat s) (Z.of_nat f) (Z.of_nat g)) fillna rows = Ok p /\
    compute (PpoSignal (Z.of_nat s) (Z.of_nat f) (Z.of_nat g)) fillna rows = Ok q /\
    compute (PpoHist (Z.of_nat s) (Z.of_nat f) (Z.of_nat g)) fillna rows = Ok d /\
    Forall2 (within (ppo_error (INR f) (INR s) m M)) p (tab (length rows) (gaps fillna 0 k line)) /\
    Forall2 (within (ppo_signal_error (INR f) (INR s) (INR g) m M)) q (tab (length rows) (gaps fillna 0 (k + warm fillna g) (ema g line k))) /\
    Forall2 (within (ppo_hist_error (INR f) (INR s) (INR g) m M)) d (tab (length rows) (gaps fillna 0 (k + warm fillna g) (fun i => line i - ema g line k i))).
Proof. exact ppo_tracks. Qed.
Print Assumptions C103_ppo.
Theorem C103_pvo : forall fillna s f g rows v m M, rows <> [] -> levels b_volume rows v m M -> 0 < m -> ordinary M ->
  (1 <= s)%nat -> (1 <= f)%nat -> (1 <= g)%nat -> (100 * Z.of_nat s <= 2 ^ 53)%Z -> (100 * Z.of_nat f <= 2 ^ 53)%Z -> (100 * Z.of_nat g <= 2 ^ 53)%Z ->
  part (INR s + 1) M <= m / 2 ->
  let k := warm fillna (Nat.max f s) in let line := fun i => (ema f v 0 i - ema s v 0 i) / ema s v 0 i * 100 in
  exists p q d, compute (Pvo (Z.of_nat s) (Z.of_nat f) (Z.of_nat g)) fillna rows = Ok p /\
    compute (PvoSignal (Z.of_nat s) (Z.of_nat f) (Z.of_nat g)) fillna rows = Ok q /\
    compute (PvoHist (Z.of_nat s) (Z.of_nat f) (Z.of_nat g)) fillna rows = Ok d /\
    Forall2 (within (ppo_error (INR f) (INR s) m M)) p (tab (length rows) (gaps fillna 0 k line)) /\
    Forall2 (within (ppo_signal_error (INR f) (INR s) (INR g) m M)) q (tab (length rows) (gaps fillna 0 (k + warm fillna g) (ema g line k))) /\
    Forall2 (within (ppo_hist_error (INR f) (INR s) (INR g) m M)) d (tab (length rows) (gaps fillna 0 (k + warm fillna g) (fun i => line i - ema g line k i))).
Proof. exact pvo_tracks. Qed.
Print Assumptions C103_pvo.

(** C103.  The daily return does not meet the bound of the rate of change:
    from 3 to the double two steps above it, the return is half as large again. *)
Definition small_step : list (bar float) := map (fun x => mkbar 0%Z x x x x) [3; 0x1.8000000000001p+1]%float.
Definition small_reals (i : nat) : R := match i with 0%nat => 3 | _ => 3 + 1 / 2251799813685248 end.
Ltac floats := rewrite val_SF;
  match goal with |- context [valSF (FloatOps.Prim2SF ?x)] => let y := eval vm_compute in (FloatOps.Prim2SF x) in change (FloatOps.Prim2SF x) with y end;
  unfold valSF, SF2R, F2R; cbn; f_equal; lra.
Lemma small_closes : closes small_step small_reals 4.
Proof.
  intros i b E. destruct i as [|[|i]]; cbn in E; [injection E as <-..|destruct i; discriminate]; cbn [b_close small_reals]; (split; [floats|apply Rabs_le; lra]).
Qed.
Lemma tiny_one : forall k, (0 <= k)%Z -> / IZR (2 ^ k) <= 1.
Proof. intros k H. rewrite <- Rinv_1. apply Rinv_le_contravar; [lra|]. apply IZR_le. pose proof (Z.pow_pos_nonneg 2 k). lia. Qed.
Theorem C103_daily_return_relative_refuted : ~ (forall rows c M, closes rows c M -> M <= IZR (2 ^ 990) ->
  forall fillna out i x, compute DailyReturn fillna rows = Ok out -> nth_error out (S i) = Some x -> / IZR (2 ^ 900) <= Rabs (c i) ->
  let r := (c (S i) - c i) / c i * 100 in Rabs r <= IZR (2 ^ 990) -> close_to (IZR (2 ^ 45)) x r).
Proof.
  intros H. specialize (H small_step small_reals 4 small_closes ltac:(apply IZR_le; discriminate) false). cbv zeta in H.
  assert (E : exists out, compute DailyReturn false small_step = Ok out /\ nth_error out 1 = Some 0x1.9p-46%float) by (vm_compute; eexists; split; reflexivity).
  destruct E as (out & E & N). specialize (H out 0%nat _ E N). cbn [small_reals] in H. specialize (H ltac:(rewrite Rabs_pos_eq by lra; apply Rle_trans with 1; [apply tiny_one; lia|lra])).
  assert (R1 : (3 + 1 / 2251799813685248 - 3) / 3 * 100 = 25 / 1688849860263936) by lra. rewrite R1 in H. clear R1. rewrite (Rabs_pos_eq (25 / _)) in H by lra.
  specialize (H ltac:(apply Rle_trans with 1; [lra|apply IZR_le; discriminate])). destruct H as (q & V & Q).
  assert (V2 : val 0x1.9p-46%float = Fin (25 / 1125899906842624)) by floats. rewrite V2 in V. injection V as <-.
  unfold part in Q. rewrite (Rabs_pos_eq (25 / _ - _)) in Q by lra. rewrite (Rabs_pos_eq (25 / _)) in Q by lra. change (IZR (2 ^ 50)) with 1125899906842624 in Q. change (IZR (2 ^ 45)) with 35184372088832 in Q.
  assert (/ IZR (2 ^ 150) <= / IZR (2 ^ 60)) by (apply Rinv_le_contravar; [lra|apply IZR_le; discriminate]). change (IZR (2 ^ 60)) with 1152921504606846976 in *. lra.
Qed.
Print Assumptions C103_daily_return_relative_refuted.

(** ** the hypotheses can be met *)
Definition four : list (bar float) := [mkbar 0 12 9 10 100; mkbar 1 13 10 12 80; mkbar 2 14 11 11 120; mkbar 3 15 12 14 90]%float.
Definition four_h (i : nat) : R := match i with 0%nat => 12 | 1%nat => 13 | 2%nat => 14 | _ => 15 end.
Definition four_l (i : nat) : R := match i with 0%nat => 9 | 1%nat => 10 | 2%nat => 11 | _ => 12 end.
Definition four_c (i : nat) : R := match i with 0%nat => 10 | 1%nat => 12 | 2%nat => 11 | _ => 14 end.
Definition four_v (i : nat) : R := match i with 0%nat => 100 | 1%nat => 80 | 2%nat => 120 | _ => 90 end.
Ltac four_rows := intros i b E; destruct i as [|[|[|[|i]]]]; cbn in E; [injection E as <-..|destruct i; discriminate];
  cbn [b_close b_high b_low b_volume four_h four_l four_c four_v]; repeat split; try floats; try (apply Rabs_le; lra); lra.
Example C103_data : closes four four_c 16 /\ ranges four four_h four_l 16 /\ levels b_close four four_c 10 16 /\ levels b_volume four four_v 80 128 /\
  ordinary 16 /\ ordinary 128 /\ 16 <= IZR (2 ^ 990).
Proof.
  assert (O : forall z, (1 <= z <= 2 ^ 990)%Z -> ordinary (IZR z)) by (intros z H; split; [apply Rle_trans with 1; [apply tiny_one; lia|apply IZR_le; lia]|apply IZR_le; lia]).
  split; [four_rows|]. split; [four_rows|]. split; [four_rows|]. split; [four_rows|]. split; [apply O; split; [lia|discriminate]|]. split; [apply O; split; [lia|discriminate]|]. apply IZR_le. discriminate.
Qed.
(** ROC over 2 rows at row 3 and the stochastic over 2 rows at row 3 *)
Example C103_roc_applies : exists out x, compute (Roc 2) false four = Ok out /\ nth_error out 3 = Some x /\ / IZR (2 ^ 900) <= Rabs (four_c 1) /\
  Rabs ((four_c 3 - four_c 1) / four_c 1 * 100) <= IZR (2 ^ 990).
Proof.
  eexists. eexists. split; [vm_compute; reflexivity|]. split; [reflexivity|]. cbn [four_c]. rewrite !Rabs_pos_eq by lra. split; [apply Rle_trans with 1; [apply tiny_one; lia|lra]|].
  apply Rle_trans with 100; [lra|apply IZR_le; discriminate].
Qed.
Example C103_stochastic_applies : exists out x, compute (Stoch 2 1) false four = Ok out /\ nth_error out 3 = Some x /\
  / IZR (2 ^ 900) <= Rabs (wmax 2 four_h 3 - wmin 2 four_l 3) /\ Rabs (100 * (four_c 3 - wmin 2 four_l 3) / (wmax 2 four_h 3 - wmin 2 four_l 3)) <= IZR (2 ^ 990).
Proof.
  eexists. eexists. split; [vm_compute; reflexivity|]. split; [reflexivity|].
  assert (A : wmax 2 four_h 3 = 15) by (cbn; unfold Rmax; repeat destruct Rle_dec; lra). assert (B : wmin 2 four_l 3 = 11) by (cbn; unfold Rmin; repeat destruct Rle_dec; lra).
  rewrite A, B. cbn [four_c]. rewrite !Rabs_pos_eq by lra. split; [apply Rle_trans with 1; [apply tiny_one; lia|lra]|]. apply Rle_trans with 100; [lra|apply IZR_le; discriminate].
Qed.
(** RSI of window 2 at row 1: the average gain is positive *)
Example C103_rsi_applies : (200 * Z.of_nat 2 <= 2 ^ 53)%Z /\ 0 < wilder 2 (gain four_c) 0 1 + wilder 2 (loss four_c) 0 1.
Proof. split; [discriminate|]. unfold wilder, expavg, gain, loss, delta, Rmax. cbn. repeat destruct Rle_dec; lra. Qed.
(** PPO with the default windows 26, 12, 9 *)
Example C103_ppo_applies : (100 * Z.of_nat 26 <= 2 ^ 53)%Z /\ part (INR 26 + 1) 16 <= 10 / 2 /\ part (INR 26 + 1) 128 <= 80 / 2.
Proof. split; [discriminate|]. rewrite INR_IZR_INZ. cbn [Z.of_nat]. unfold part. change (IZR (2 ^ 50)) with 1125899906842624. cbn. lra. Qed.
