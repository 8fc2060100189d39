(** * P_Volume: properties C53, C54, C56-C58, C67.

    Exact arithmetic (extended reals), frames of n rows of finite numbers,
    windows w >= 1.  Vocabulary: SpecNum.v. *)
From Verif Require Import Api SpecNum Tab Averages Flows.
Local Open Scope R_scope.

(** C53. *)
Theorem C53_obv_accumulates : forall fillna n h l c v,
  compute Obv fillna (frame n h l c v) = Ok (tab n (from 0 (fun i => rsum (signed_volume c v) 0 (S i)))).
Proof. exact obv_formula. Qed.
Print Assumptions C53_obv_accumulates.
Theorem C53_adi_accumulates : forall fillna n h l c v, sane n h l c ->
  compute Adi fillna (frame n h l c v) = Ok (tab n (from 0 (fun i => rsum (fun j => location h l c j * v j) 0 (S i)))).
Proof. exact adi_formula. Qed.
Print Assumptions C53_adi_accumulates.
Theorem C53_adi_step_bounded : forall fillna n h l c v out i x y, sane n h l c -> (S i < n)%nat ->
  compute Adi fillna (frame n h l c v) = Ok out -> nth i out NaN = Fin x -> nth (S i) out NaN = Fin y ->
  Rabs (y - x) <= Rabs (v (S i)).
Proof. exact adi_step. Qed.
Print Assumptions C53_adi_step_bounded.
(** closes 5, 5, 4: the unchanged close counts as a rise *)
Example C53_value : let c := fun i => nth i [5; 5; 4] 0 in let v := fun i => nth i [10; 20; 40] 0 in
  rsum (signed_volume c v) 0 3 = -10.
Proof. cbn. destruct (Rlt_dec 5 5); [lra|]. destruct (Rlt_dec 4 5); lra. Qed.
Example C53_location : location (fun _ => 4) (fun _ => 0) (fun _ => 3) 0 = 1 / 2 /\ location (fun _ => 4) (fun _ => 4) (fun _ => 4) 0 = 0.
Proof. unfold location. split; destruct (Req_EM_T _ _); lra. Qed.

(** C54. *)
Theorem C54_cmf_formula : forall fillna w n h l c v, (1 <= w)%nat -> sane n h l c ->
  shows fillna 0 (tab n (fromx (warm fillna w) (fun i => ratio (wsum w (fun j => location h l c j * v j) i) (wsum w v i))))
    (compute (Cmf (Z.of_nat w)) fillna (frame n h l c v)).
Proof. exact cmf_formula. Qed.
Print Assumptions C54_cmf_formula.
Theorem C54_cmf_in_range : forall fillna w n h l c v out, (1 <= w)%nat -> sane n h l c -> (forall i, (i < n)%nat -> 0 <= v i) ->
  compute (Cmf (Z.of_nat w)) fillna (frame n h l c v) = Ok out -> Forall (within (-1) 1) out.
Proof. exact cmf_range. Qed.
Print Assumptions C54_cmf_in_range.
Example C54_applies : sane 9 (fun i => INR i + 2) INR (fun i => INR i + 1) /\ forall i, (i < 9)%nat -> 0 <= INR i.
Proof. split; [intros i _; lra|intros; apply pos_INR]. Qed.

(** C56. *)
Theorem C56_vwap_formula : forall fillna w n h l c v, (1 <= w)%nat ->
  shows fillna 0 (tab n (fromx (warm fillna w) (fun i => ratio (wsum w (fun j => typical h l c j * v j) i) (wsum w v i))))
    (compute (Vwap (Z.of_nat w)) fillna (frame n h l c v)).
Proof. exact vwap_formula. Qed.
Print Assumptions C56_vwap_formula.
Theorem C56_vwap_in_range : forall fillna w n h l c v out i, (1 <= w)%nat -> sane n h l c -> (forall i, (i < n)%nat -> 0 <= v i) ->
  compute (Vwap (Z.of_nat w)) fillna (frame n h l c v) = Ok out -> (warm fillna w <= i < n)%nat -> wsum w v i <> 0 ->
  exists x, nth i out NaN = Fin x /\ wmin w l i <= x <= wmax w h i.
Proof. exact vwap_range. Qed.
Print Assumptions C56_vwap_in_range.
Example C56_applies : sane 9 (fun i => INR i + 2) INR (fun i => INR i + 1) /\ wsum 3 (fun _ => 1) 5 <> 0.
Proof. split; [intros i _; lra|]. unfold wsum. cbn. lra. Qed.

(** C57. *)
Theorem C57_nvi_formula : forall fillna n h l c v, (1 <= n)%nat -> (forall i, (i < n)%nat -> c i <> 0) ->
  compute Nvi fillna (frame n h l c v) = Ok (tab n (from 0 (fun i => 1000 * rprod (nvi_factor c v) 1 i))).
Proof. exact nvi_formula. Qed.
Print Assumptions C57_nvi_formula.
Theorem C57_nvi_positive : forall n c v i, (forall j, (j < n)%nat -> 0 < c j) -> (i < n)%nat -> 0 < 1000 * rprod (nvi_factor c v) 1 i.
Proof. exact nvi_pos. Qed.
Print Assumptions C57_nvi_positive.
Theorem C57_nvi_recursion : forall c v i, 1000 * rprod (nvi_factor c v) 1 (S i) =
  (if Rlt_dec (v (S i)) (v i) then 1000 * rprod (nvi_factor c v) 1 i * (c (S i) / c i) else 1000 * rprod (nvi_factor c v) 1 i).
Proof. exact nvi_step. Qed.
Print Assumptions C57_nvi_recursion.
(** volume 3, 2, 2 and closes 10, 11, 12: only the first change counts *)
Example C57_value : let c := fun i => nth i [10; 11; 12] 0 in let v := fun i => nth i [3; 2; 2] 0 in
  1000 * rprod (nvi_factor c v) 1 2 = 1100.
Proof. cbn. unfold nvi_factor. cbn. destruct (Rlt_dec 2 3); [|lra]. destruct (Rlt_dec 2 2); lra. Qed.

(** C58. *)
Theorem C58_force_index : forall fillna w n h l c v, (1 <= w)%nat ->
  compute (Fi (Z.of_nat w)) fillna (frame n h l c v) =
  Ok (tab n (gaps fillna 0 (1 + warm fillna w) (ema w (fun i => delta c i * v i) 1))).
Proof. exact fi_formula. Qed.
Print Assumptions C58_force_index.
Theorem C58_ease_of_movement : forall fillna w n h l c v, (forall i, (i < n)%nat -> v i <> 0) ->
  compute (Eom w) fillna (frame n h l c v) = Ok (tab n (gaps fillna 0 1 (emv_value h l v))).
Proof. exact eom_formula. Qed.
Print Assumptions C58_ease_of_movement.
Theorem C58_sma_ease_of_movement : forall fillna w n h l c v, (1 <= w)%nat -> (forall i, (i < n)%nat -> v i <> 0) ->
  compute (SmaEom (Z.of_nat w)) fillna (frame n h l c v) =
  Ok (tab n (gaps fillna 0 (1 + warm fillna w) (wmean_from 1 w (emv_value h l v)))).
Proof. exact sma_eom_formula. Qed.
Print Assumptions C58_sma_ease_of_movement.
Theorem C58_full_window_mean : forall k w f i, (1 <= w)%nat -> (k + w - 1 <= i)%nat -> wmean_from k w f i = wmean w f i.
Proof. exact wmean_from_full. Qed.
Print Assumptions C58_full_window_mean.
Theorem C58_volume_price_trend : forall fillna n h l c v, (forall i, (i < n)%nat -> c i <> 0) ->
  compute (Vpt None false) fillna (frame n h l c v) = Ok (tab n (gaps fillna 0 1 (vpt_value c v))).
Proof. exact vpt_formula. Qed.
Print Assumptions C58_volume_price_trend.
Theorem C58_smoothed_volume_price_trend : forall fillna w n h l c v, (1 <= w)%nat -> (forall i, (i < n)%nat -> c i <> 0) ->
  compute (Vpt (Some (Z.of_nat w)) false) fillna (frame n h l c v) =
  Ok (tab n (gaps fillna 0 (1 + warm fillna w) (wmean_from 1 w (vpt_value c v)))).
Proof. exact vpt_smooth_formula. Qed.
Print Assumptions C58_smoothed_volume_price_trend.
Theorem C58_volume_price_trend_dropnans : forall fillna w n h l c v, (1 <= w)%nat -> (forall i, (i < n)%nat -> c i <> 0) ->
  compute (Vpt None true) fillna (frame n h l c v) = Ok (tab (n - 1) (fun i => Fin (vpt_value c v (1 + i)))) /\
  compute (Vpt (Some (Z.of_nat w)) true) fillna (frame n h l c v) =
    Ok (tab (n - (1 + warm fillna w)) (fun i => Fin (wmean_from 1 w (vpt_value c v) (1 + warm fillna w + i)))).
Proof. exact vpt_dropped. Qed.
Print Assumptions C58_volume_price_trend_dropnans.
Example C58_applies : (forall i, (i < 9)%nat -> (fun i => INR i + 1) i <> 0) /\
  vpt_value (fun i => nth i [10; 11; 22] 0) (fun i => nth i [7; 10; 5] 0) 2 = 6.
Proof. split; [intros; pose proof (pos_INR i); lra|]. unfold vpt_value. cbn. lra. Qed.

(** C67. *)
Theorem C67_mfi_formula : forall fillna w n h l c v, (1 <= w)%nat ->
  let mf := money_flow h l c v in
  shows fillna 50 (tab n (fromx (warm fillna w) (fun i => mfi_value (wsum w (fun j => Rmax 0 (mf j)) i) (wsum w (fun j => Rmax 0 (- mf j)) i))))
    (compute (Mfi (Z.of_nat w)) fillna (frame n h l c v)).
Proof. exact mfi_formula. Qed.
Print Assumptions C67_mfi_formula.
(** flows 0, 30, -10: 100 - 100/(1+3) = 75 *)
Example C67_value : mfi_value 30 10 = Fin 75 /\ mfi_value 0 0 = NaN /\ mfi_value 1 0 = Fin 100.
Proof.
  unfold mfi_value. repeat split; destruct (Req_EM_T _ _); try lra; try destruct (Req_EM_T _ _); try lra; try reflexivity; f_equal; lra.
Qed.
