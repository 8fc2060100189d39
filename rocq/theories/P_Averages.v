(** * P_Averages: properties C12-C18, exact arithmetic, finite data.

    [frame n h l c v] is a frame of n finite rows; [tab n f] is the column
    f 0, ..., f (n-1); [from k g] is NaN on the first k rows, then g;
    [warm fillna w] is w-1, or 0 with fillna=True (SpecNum.v). *)
From Verif Require Import Api SpecNum Averages EwmGaps.
Local Open Scope R_scope.

(** C12. *)
Theorem C12_sma_is_window_mean : forall fillna w n h l c v, (1 <= w)%nat ->
  compute (Sma (Z.of_nat w)) fillna (frame n h l c v) = Ok (tab n (from (warm fillna w) (wmean w c))).
Proof. exact sma_formula. Qed.
Print Assumptions C12_sma_is_window_mean.
Example C12_value : nth 2 (tab 4 (from (warm false 3) (wmean 3 INR))) NaN = Fin 1.
Proof. vm_compute wlo. cbn. f_equal. unfold wmean, wsum. cbn. lra. Qed.

(** C13. *)
Theorem C13_ema_recursion : forall fillna w n h l c v, (1 <= w)%nat ->
  compute (Ema (Z.of_nat w)) fillna (frame n h l c v) = Ok (tab n (from (warm fillna w) (ema w c 0))).
Proof. exact ema_formula. Qed.
Print Assumptions C13_ema_recursion.
Theorem C13_ema_weights : forall w c i, let a := 2 / (INR w + 1) in
  ema w c 0 i = rsum (fun k => a * (1 - a) ^ k * c (i - k)%nat) 0 i + (1 - a) ^ i * c 0%nat.
Proof. exact (fun w c i => eq_trans (f_equal _ (Nat.sub_0_r i)) (exp_unroll (2 / (INR w + 1)) c i)). Qed.
Print Assumptions C13_ema_weights.

(** C14. *)
Theorem C14_ema_over_gaps : forall fillna w n x rows, (1 <= w)%nat ->
  map b_close rows = tab n (series_of x) ->
  compute (Ema (Z.of_nat w)) fillna rows =
  Ok (tab n (fun i => if (present x i <? (if fillna then 1 else w))%nat then NaN
                      else match gap_ema (2 / (INR w + 1)) x i with Some (e, _) => Fin e | None => NaN end)).
Proof. exact ema_gap_formula. Qed.
Print Assumptions C14_ema_over_gaps.
(** 4, missing, 8 with span 3 (a = 1/2): the last row is (4/4 + 8/2)/(1/4 + 1/2) *)
Example C14_applies :
  let x := fun i => match i with 0%nat => Some 4 | 2%nat => Some 8 | _ => None end in
  exists rows, map b_close rows = tab 3 (series_of x) /\
    gap_ema (2 / (INR 3 + 1)) x 2 = Some (20 / 3, 0%nat) /\ present x 2 = 2%nat.
Proof.
  exists [mkbar 0%Z NaN NaN (Fin 4) NaN; mkbar 1%Z NaN NaN NaN NaN; mkbar 2%Z NaN NaN (Fin 8) NaN].
  repeat split. cbn. do 2 f_equal. field.
Qed.

(** C15. *)
Theorem C15_wma_weights : forall fillna w n h l c v, (1 <= w)%nat ->
  compute (Wma (Z.of_nat w)) fillna (frame n h l c v) = Ok (tab n (gaps fillna 0 (w - 1) (wma_value w c))).
Proof. exact wma_formula. Qed.
Print Assumptions C15_wma_weights.

(** C16. *)
Theorem C16_sma_in_range : forall fillna w n h l c v out i x m M, (1 <= w)%nat -> (i < n)%nat ->
  compute (Sma (Z.of_nat w)) fillna (frame n h l c v) = Ok out -> nth i out NaN = Fin x ->
  (forall j, (i < j + w)%nat -> (j <= i)%nat -> m <= c j <= M) -> m <= x <= M.
Proof. exact sma_in_range. Qed.
Print Assumptions C16_sma_in_range.
Theorem C16_ema_in_range : forall fillna w n h l c v out i x m M, (1 <= w)%nat -> (i < n)%nat ->
  compute (Ema (Z.of_nat w)) fillna (frame n h l c v) = Ok out -> nth i out NaN = Fin x ->
  (forall j, (j <= i)%nat -> m <= c j <= M) -> m <= x <= M.
Proof. exact ema_in_range. Qed.
Print Assumptions C16_ema_in_range.
Theorem C16_wma_in_range : forall fillna w n h l c v out i x m M, (1 <= w)%nat -> (w - 1 <= i < n)%nat ->
  compute (Wma (Z.of_nat w)) fillna (frame n h l c v) = Ok out -> nth i out NaN = Fin x ->
  (forall j, (i < j + w)%nat -> (j <= i)%nat -> m <= c j <= M) -> m <= x <= M.
Proof. exact wma_in_range. Qed.
Print Assumptions C16_wma_in_range.
Example C16_applies : exists out x,
  compute (Ema (Z.of_nat 3)) false (frame 9 INR INR INR INR) = Ok out /\ nth 4 out NaN = Fin x /\
  (forall j, (j <= 4)%nat -> 0 <= INR j <= 4).
Proof.
  do 2 eexists. split; [apply ema_formula; lia|]. split; [reflexivity|].
  intros j Hj. split; [apply pos_INR|]. apply (le_INR j 4) in Hj. cbn in Hj. lra.
Qed.

(** C17. *)
Theorem C17_macd_structure : forall fillna s f g n h l c v, (1 <= s)%nat -> (1 <= f)%nat -> (1 <= g)%nat ->
  let k := warm fillna (Nat.max f s) in
  let line := fun i => ema f c 0 i - ema s c 0 i in
  compute (Macd (Z.of_nat s) (Z.of_nat f) (Z.of_nat g)) fillna (frame n h l c v) =
    Ok (tab n (gaps fillna 0 k line)) /\
  compute (MacdSignal (Z.of_nat s) (Z.of_nat f) (Z.of_nat g)) fillna (frame n h l c v) =
    Ok (tab n (gaps fillna 0 (k + warm fillna g) (ema g line k))) /\
  compute (MacdDiff (Z.of_nat s) (Z.of_nat f) (Z.of_nat g)) fillna (frame n h l c v) =
    Ok (tab n (gaps fillna 0 (k + warm fillna g) (fun i => line i - ema g line k i))).
Proof. exact macd_formula. Qed.
Print Assumptions C17_macd_structure.
Theorem C17_macd_constant_series : forall fillna s f g n h l c v p, (1 <= s)%nat -> (1 <= f)%nat -> (1 <= g)%nat ->
  (forall i, (i < n)%nat -> c i = p) ->
  let k := warm fillna (Nat.max f s) in
  compute (Macd (Z.of_nat s) (Z.of_nat f) (Z.of_nat g)) fillna (frame n h l c v) =
    Ok (tab n (gaps fillna 0 k (fun _ => 0))) /\
  compute (MacdSignal (Z.of_nat s) (Z.of_nat f) (Z.of_nat g)) fillna (frame n h l c v) =
    Ok (tab n (gaps fillna 0 (k + warm fillna g) (fun _ => 0))) /\
  compute (MacdDiff (Z.of_nat s) (Z.of_nat f) (Z.of_nat g)) fillna (frame n h l c v) =
    Ok (tab n (gaps fillna 0 (k + warm fillna g) (fun _ => 0))).
Proof. exact macd_const. Qed.
Print Assumptions C17_macd_constant_series.

(** C18. *)
Theorem C18_ppo_structure : forall fillna s f g n h l c v, (1 <= s)%nat -> (1 <= f)%nat -> (1 <= g)%nat ->
  (forall i, (i < n)%nat -> ema s c 0 i <> 0) ->
  let k := warm fillna (Nat.max f s) in
  let line := fun i => (ema f c 0 i - ema s c 0 i) / ema s c 0 i * 100 in
  compute (Ppo (Z.of_nat s) (Z.of_nat f) (Z.of_nat g)) fillna (frame n h l c v) =
    Ok (tab n (gaps fillna 0 k line)) /\
  compute (PpoSignal (Z.of_nat s) (Z.of_nat f) (Z.of_nat g)) fillna (frame n h l c v) =
    Ok (tab n (gaps fillna 0 (k + warm fillna g) (ema g line k))) /\
  compute (PpoHist (Z.of_nat s) (Z.of_nat f) (Z.of_nat g)) fillna (frame n h l c v) =
    Ok (tab n (gaps fillna 0 (k + warm fillna g) (fun i => line i - ema g line k i))).
Proof. exact ppo_formula. Qed.
Print Assumptions C18_ppo_structure.
(** PVO is PPO of the volume column. *)
Theorem C18_pvo_is_ppo_of_volume : forall h l c v h' l' v' n s f g fillna,
  compute (Pvo s f g) fillna (frame n h l c v) = compute (Ppo s f g) fillna (frame n h' l' v v') /\
  compute (PvoSignal s f g) fillna (frame n h l c v) = compute (PpoSignal s f g) fillna (frame n h' l' v v') /\
  compute (PvoHist s f g) fillna (frame n h l c v) = compute (PpoHist s f g) fillna (frame n h' l' v v').
Proof. exact pvo_ppo. Qed.
Print Assumptions C18_pvo_is_ppo_of_volume.
(** positive prices meet the hypothesis *)
Example C18_applies : forall n s c, (1 <= s)%nat -> (forall i, 0 < c i) ->
  forall i, (i < n)%nat -> ema s c 0 i <> 0.
Proof. intros n s c Hs H i Hi. pose proof (ema_pos s c i Hs ltac:(intros; apply H)). lra. Qed.
