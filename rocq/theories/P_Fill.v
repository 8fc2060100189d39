(** * P_Fill: properties C06-C09 (what fillna=True does).

    C06-C08 hold for every arithmetic satisfying [ArithLaws], in particular for
    binary64. *)
From Coq Require Import Floats.
From Verif Require Import Api FloatArith SpecFill Rows Running Fill FillStable Samples SpecResidue.

(** C06. A series filled with a constant has no NaN and no infinity. *)
Theorem C06_no_gaps : forall F (A : Arith F), ArithLaws F ->
  forall (ind : indicator F) v rows out, fill_value ind = Some v ->
  compute ind true rows = Ok out -> Forall (fun x => ffinite x = true) out.
Proof. exact @fill_const_finite. Qed.
Print Assumptions C06_no_gaps.

(** closes 0, 0, 1, NaN, inf: the rate of change has every kind of gap *)
Definition gappy : list (bar float) := bars_from 0
  [(1, 0, 0, 1); (1, 0, 0, 0); (2, 0, 1, 0); (nan, 1, nan, 5); (3, infinity, infinity, nan); (3, 1, 2, 2)]%float.
Example C06_applies :
  fill_value (Roc 1 : indicator float) = Some 0%Z /\
  compute (Roc 1) false gappy = Ok [nan; nan; infinity; nan; nan; nan] /\
  compute (Roc 1) true gappy = Ok [0; 0; 0; 0; 0; 0]%float.
Proof. repeat split. Qed.

(** C07. [_check_fillna] itself: with a constant ... *)
Theorem C07_constant_fill : forall F (A : Arith F), ArithLaws F ->
  forall z (raw : list F), (z =? -1)%Z = false -> (-1000 <= z <= 1000)%Z ->
  filled_with (fofZ z) raw (check_fillna true (FillInt z) raw).
Proof. exact @check_const_filled. Qed.
Print Assumptions C07_constant_fill.
(** ... and with the marker -1; nothing happens without fillna. *)
Theorem C07_backward_fill : forall F (A : Arith F), ArithLaws F -> forall raw : list F,
  filled_backward raw (check_fillna true (FillInt (-1)) raw).
Proof. exact @back_filled. Qed.
Print Assumptions C07_backward_fill.

(** The same seen from the API: series whose computation does not depend on
    the flag return, with fillna=True, the filled fillna=False result. *)
Theorem C07_public_series_filled : forall F (A : Arith F), ArithLaws F ->
  forall (ind : indicator F) rows raw, flag_free ind = true ->
  compute ind false rows = Ok raw ->
  exists out, compute ind true rows = Ok out /\
    match fill_value ind with
    | Some v => filled_with (fofZ v) raw out
    | None => filled_backward raw out
    end.
Proof. exact @flag_free_filled. Qed.
Print Assumptions C07_public_series_filled.

Example C07_applies :
  flag_free (Roc 1 : indicator float) = true /\ flag_free (CumReturn : indicator float) = true /\
  compute CumReturn false (skipn 2 gappy) = Ok [0; nan; infinity; 100]%float /\
  compute CumReturn true (skipn 2 gappy) = Ok [0; 0; 0; 100]%float /\
  fill_value (PsarUp true step02 step2) = None /\
  exists out out', compute (PsarUp true step02 step2) false sample = Ok out /\
    compute (PsarUp true step02 step2) true sample = Ok out' /\
    PrimFloat.is_nan (nth 0 out 0%float) = true /\ ffinite (nth 0 out' nan) = true.
Proof. do 5 (split; [reflexivity|]). do 2 eexists. repeat split; vm_compute; reflexivity. Qed.

(** C08. Rows that are finite without fillna are the same with it. *)
Theorem C08_finite_rows_kept : forall F (A : Arith F), ArithLaws F ->
  forall (ind : indicator F) rows out out', fill_stable ind = true ->
  compute ind false rows = Ok out -> compute ind true rows = Ok out' ->
  forall i, i < length out -> ffinite (nth i out fnan) = true -> nth i out' fnan = nth i out fnan.
Proof. exact (fun F A L ind rows out out' H => fill_stable_ok ind rows out out' (or_introl H)). Qed.
Print Assumptions C08_finite_rows_kept.

(** The StochRSI lines and the stochastic signal are running means over rows that
    fillna fills in: in exact arithmetic, their finite rows are kept as well. *)
Theorem C08_finite_rows_kept_exact :
  forall (ind : indicator xr) rows out out', fill_stable_exact ind = true ->
  compute ind false rows = Ok out -> compute ind true rows = Ok out' ->
  forall i, i < length out -> ffinite (nth i out fnan) = true -> nth i out' fnan = nth i out fnan.
Proof. exact (fun ind rows out out' H => fill_stable_ok ind rows out out' (or_intror (conj windowed_xr H))). Qed.
Print Assumptions C08_finite_rows_kept_exact.

Example C08_applies : fill_stable (Rsi 4 : indicator float) = true /\
  exists out out', compute (Rsi 4) false sample = Ok out /\ compute (Rsi 4) true sample = Ok out' /\
    PrimFloat.is_nan (nth 2 out 0%float) = true /\ PrimFloat.is_nan (nth 2 out' 0%float) = false /\
    ffinite (nth 3 out nan) = true.
Proof. split; [reflexivity|]. do 2 eexists. repeat split; vm_compute; reflexivity. Qed.

(** C09. Refuted for the multi-stage smoothers, KAMA and the band indicators
    (binary64 witnesses). *)
Definition fillna_keeps_finite_rows (ind : indicator float) : Prop :=
  forall rows out out', compute ind false rows = Ok out -> compute ind true rows = Ok out' ->
  forall i, i < length out -> ffinite (nth i out nan) = true -> nth i out' nan = nth i out nan.

Lemma fill_changes_refutes : forall ind rows, fill_changes ind rows = true -> ~ fillna_keeps_finite_rows ind.
Proof.
  intros ind rows H N. unfold fill_changes in H.
  destruct (compute ind false rows) as [out|] eqn:E; [|discriminate].
  destruct (compute ind true rows) as [out'|] eqn:E'; [|discriminate].
  specialize (N rows out out' E E'). clear E E'. revert out' H N.
  induction out as [|x out IH]; intros [|y out'] H N; try discriminate.
  cbn [differs] in H. apply Bool.orb_true_iff in H. destruct H as [H|H].
  - apply andb_prop in H. destruct H as [H1 H2]. specialize (N 0 ltac:(cbn; lia) H1). cbn in N. subst y.
    assert (Hx : fisnan x = false).
    { unfold ffinite in H1. apply andb_prop in H1. destruct H1 as [H1 _]. now apply Bool.negb_true_iff in H1. }
    cbn in Hx. unfold PrimFloat.is_nan in Hx. rewrite H2 in Hx. discriminate.
  - apply (IH out' H). intros i Hi. exact (N (S i) ltac:(cbn; lia)).
Qed.

Theorem C09_finite_rows_kept_refuted :
  ~ fillna_keeps_finite_rows (Tsi 4 3) /\
  ~ fillna_keeps_finite_rows (PpoSignal 2 3 3) /\ ~ fillna_keeps_finite_rows (PpoHist 2 3 3) /\
  ~ fillna_keeps_finite_rows (PvoSignal 2 3 3) /\ ~ fillna_keeps_finite_rows (PvoHist 2 3 3) /\
  ~ fillna_keeps_finite_rows (MacdSignal 2 3 3) /\ ~ fillna_keeps_finite_rows (MacdDiff 2 3 3) /\
  ~ fillna_keeps_finite_rows (Mass 3 4) /\ ~ fillna_keeps_finite_rows (Trix 3) /\
  ~ fillna_keeps_finite_rows (KstSig 2 3 4 5 2 2 2 3 2) /\
  ~ fillna_keeps_finite_rows (KstDiff 2 3 4 5 2 2 2 3 2) /\
  ~ fillna_keeps_finite_rows (Stc 4 2 3 2 2) /\ ~ fillna_keeps_finite_rows (Kama 4 2 30) /\
  ~ fillna_keeps_finite_rows (IchiA 2 4 6 true) /\
  ~ fillna_keeps_finite_rows (BbHI 5 0.5%float) /\ ~ fillna_keeps_finite_rows (BbLI 5 0.5%float) /\
  ~ fillna_keeps_finite_rows (KcHI 5 3 false 0.5%float) /\ ~ fillna_keeps_finite_rows (KcLI 5 3 false 0.5%float) /\
  ~ fillna_keeps_finite_rows (Vpt (Some 3%Z) true).
Proof.
  repeat split; first
    [ apply (fill_changes_refutes _ (sample ++ later)); vm_compute; reflexivity
    | apply (fill_changes_refutes _ (skipn 3 (sample ++ later))); vm_compute; reflexivity ].
Qed.
Print Assumptions C09_finite_rows_kept_refuted.

(** C08, binary64: the means of the stochastic signal and of the StochRSI lines
    run over the rows that fillna fills in, and the last digit of later rows
    shows it. *)
Definition stoch_rows : list (bar float) := tenths
  [(52, 38, 45); (33, 25, 26); (52, 30, 30); (46, 31, 46); (52, 32, 46); (43, 34, 37); (54, 32, 43); (53, 33, 49); (40, 28, 30);
   (37, 22, 36); (45, 35, 39); (61, 41, 48); (32, 20, 30); (33, 23, 24)]%Z.
Theorem C08_running_means_binary64_refuted :
  ~ fillna_keeps_finite_rows (StochSignal 3 3) /\ ~ fillna_keeps_finite_rows (StochRsiK 3 3 3) /\ ~ fillna_keeps_finite_rows (StochRsiD 3 3 3).
Proof. repeat split; apply (fill_changes_refutes _ stoch_rows); vm_compute; reflexivity. Qed.
Print Assumptions C08_running_means_binary64_refuted.
