(** * P_Drift: property C94, averages kept by running sums.

    pandas adds the new value to the sum of the window and takes out the old
    one, so every row may add a rounding error.  [drifts k M n out exact]: [out]
    has n rows, missing exactly where [exact] is, and row i (from 0) is within
    (i + 1) * k * 2^-50 * M of it; M is the largest price of the whole column
    (SpecTracking.v). *)
From Flocq Require Import Core BinarySingleNaN.
From Coq Require Import Reals Lra Floats.
From Verif Require Import Api FloatArith FloatReal FloatPct SpecNum SpecTracking RunningError P_Tracking.
Local Open Scope R_scope.

(** C94. *)
Theorem C94_sma_drift : forall w rows M, (1 <= w)%nat -> (Z.of_nat w <= 2 ^ 28)%Z -> (1000 * Z.of_nat (length rows) <= 2 ^ 53)%Z -> ordinary M ->
  forall fillna c, closes rows c M ->
  exists out, compute (Sma (Z.of_nat w)) fillna rows = Ok out /\ drifts 2 M (length rows) out (from (warm fillna w) (wmean w c)).
Proof. exact sma_drifts. Qed.
Print Assumptions C94_sma_drift.
Theorem C94_bollinger_middle_drift : forall w rows M, (1 <= w)%nat -> (Z.of_nat w <= 2 ^ 28)%Z -> (1000 * Z.of_nat (length rows) <= 2 ^ 53)%Z -> ordinary M ->
  forall fillna c d, closes rows c M ->
  exists out, compute (BbM (Z.of_nat w) d) fillna rows = Ok out /\ drifts 2 M (length rows) out (from (warm fillna w) (wmean w c)).
Proof. exact bb_middle_drifts. Qed.
Print Assumptions C94_bollinger_middle_drift.
Theorem C94_awesome_drift : forall rows h l M, ranges rows h l M -> ordinary M ->
  forall w1 w2 fillna, (1 <= w1)%nat -> (1 <= w2)%nat -> (Z.of_nat w1 <= 2 ^ 28)%Z -> (Z.of_nat w2 <= 2 ^ 28)%Z ->
  (1000 * Z.of_nat (length rows) <= 2 ^ 53)%Z -> ordinary (2 * M) ->
  let m := fun i => (h i + l i) / 2 in
  exists out, compute (AwesomeOsc (Z.of_nat w1) (Z.of_nat w2)) fillna rows = Ok out /\
    drifts 6 M (length rows) out (from (warm fillna (Nat.max w1 w2)) (fun i => wmean w1 m i - wmean w2 m i)).
Proof. exact ao_drifts. Qed.
Print Assumptions C94_awesome_drift.
(** the rows of C83, with window 20 *)
Example C94_applies : closes three_rows three_reals 8 /\ ordinary 8 /\ ordinary (2 * 8) /\ ranges three_rows three_reals three_reals 8 /\
  (Z.of_nat 20 <= 2 ^ 28)%Z /\ (1000 * Z.of_nat (length three_rows) <= 2 ^ 53)%Z.
Proof.
  destruct C83_applies as (A & B & _). repeat match goal with |- _ /\ _ => split end; auto; try discriminate.
  - destruct B as [B1 B2]. split; [lra|]. apply Rle_trans with (IZR 16); [lra|apply IZR_le; discriminate].
  - intros i b E. destruct (A i b E) as [V S]. assert (Q : b_high b = b_close b /\ b_low b = b_close b).
    { destruct i as [|[|[|i]]]; cbn in E; [injection E as <-..|destruct i; discriminate]; split; reflexivity. }
    destruct Q as [-> ->]. auto.
Qed.
