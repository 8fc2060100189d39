(** * P_Settled: property C97, averages whose rounding error does not grow with the rows.

    [within e x y]: x is missing exactly where y is, and otherwise finite and
    within e of it; [part k M] is k * 2^-50 * M; [closes rows c M], [ranges rows
    h l M], [volumes rows v V]: the cells of [rows] are those reals, of size at
    most M or V (SpecTracking.v).  The errors depend on the window and the
    largest cell only. *)
From Flocq Require Import Core BinarySingleNaN.
From Coq Require Import Reals Lra Floats.
From Verif Require Import Api FloatArith FloatReal FloatPct SpecNum SpecTracking WilderError BandError P_Tracking.
Local Open Scope R_scope.

(** C97. *)
Theorem C97_wma_rounding : forall fillna w rows c M, (1 <= w)%nat -> (Z.of_nat w <= 2 ^ 25)%Z -> closes rows c M -> ordinary M ->
  exists out, compute (Wma (Z.of_nat w)) fillna rows = Ok out /\
    Forall2 (within (part ((INR w + 2) / 6) M)) out (tab (length rows) (gaps fillna 0 (w - 1) (wma_value w c))).
Proof. exact wma_tracks. Qed.
Print Assumptions C97_wma_rounding.
Theorem C97_atr_rounding : forall rows h l c M, ordinary M -> ranges rows h l M -> closes rows c M ->
  forall fillna w, (1 <= w)%nat -> (Z.of_nat w <= 2 ^ 25)%Z -> (w <= length rows)%nat ->
  exists out, compute (Atr (Z.of_nat w)) fillna rows = Ok out /\
    Forall2 (within (part (5 / 4 * INR w) M)) out (tab (length rows) (from 0 (atr_value w (trange h l c)))).
Proof. exact atr_tracks. Qed.
Print Assumptions C97_atr_rounding.
Theorem C97_keltner_rounding : forall rows h l c M, ordinary M -> ordinary (10000 * M) -> ranges rows h l M -> closes rows c M ->
  forall mult m, val mult = Fin m -> Rabs m <= 1000 ->
  forall w a, (1 <= w)%nat -> (100 * Z.of_nat w <= 2 ^ 53)%Z -> (1 <= a <= length rows)%nat -> (Z.of_nat a <= 2 ^ 25)%Z ->
  forall fillna,
  let mid := ema w c 0 in
  let atr := atr_value a (trange h l c) in
  let err := part (INR w + 2 + Rabs m * (5 / 4 * INR a + 2)) M in
  exists o1 o2 o3,
    compute (KcM (Z.of_nat w) (Z.of_nat a) false mult) fillna rows = Ok o1 /\
    compute (KcH (Z.of_nat w) (Z.of_nat a) false mult) fillna rows = Ok o2 /\
    compute (KcL (Z.of_nat w) (Z.of_nat a) false mult) fillna rows = Ok o3 /\
    Forall2 (within (part (INR w + 1) M)) o1 (tab (length rows) (from (warm fillna w) mid)) /\
    Forall2 (within err) o2 (tab (length rows) (from (warm fillna w) (fun i => mid i + m * atr i))) /\
    Forall2 (within err) o3 (tab (length rows) (from (warm fillna w) (fun i => mid i - m * atr i))).
Proof. exact keltner_tracks. Qed.
Print Assumptions C97_keltner_rounding.
Theorem C97_force_index_rounding : forall rows c v M V, ordinary M -> ordinary V -> ordinary (2 * M * V) -> closes rows c M -> volumes rows v V ->
  forall fillna w, (1 <= w)%nat -> (100 * Z.of_nat w <= 2 ^ 53)%Z ->
  exists out, compute (Fi (Z.of_nat w)) fillna rows = Ok out /\
    Forall2 (within (part (INR w + 2) (2 * M * V))) out (tab (length rows) (gaps fillna 0 (1 + warm fillna w) (ema w (fun i => delta c i * v i) 1))).
Proof. exact force_tracks. Qed.
Print Assumptions C97_force_index_rounding.
(** the rows of C83: every cell at most 8; the multiplier 2 *)
Lemma ordinary_int : forall z, (1 <= z <= 2 ^ 30)%Z -> ordinary (IZR z).
Proof.
  intros z Hz. split.
  - apply Rle_trans with 1; [|apply IZR_le; lia]. rewrite <- Rinv_1. apply Rinv_le_contravar; [lra|]. apply IZR_le. discriminate.
  - apply IZR_le. apply Z.le_trans with (2 ^ 30)%Z; [lia|discriminate].
Qed.
Example C97_applies : closes three_rows three_reals 8 /\ ranges three_rows three_reals three_reals 8 /\ volumes three_rows three_reals 8 /\
  ordinary 8 /\ ordinary (10000 * 8) /\ ordinary (2 * 8 * 8) /\ val 2%float = Fin 2 /\ (Z.of_nat 20 <= 2 ^ 25)%Z /\ (2 <= length three_rows)%nat.
Proof.
  destruct C83_applies as (A & _).
  assert (Q : forall i b, nth_error three_rows i = Some b -> b_high b = b_close b /\ b_low b = b_close b /\ b_volume b = b_close b).
  { intros i b E. destruct i as [|[|[|i]]]; cbn in E; [injection E as <-..|destruct i; discriminate]; repeat split; reflexivity. }
  repeat match goal with |- _ /\ _ => split end; auto; try discriminate.
  - intros i b E. destruct (Q i b E) as (-> & -> & _). split; exact (A i b E).
  - intros i b E. destruct (Q i b E) as (_ & _ & ->). exact (A i b E).
  - now apply ordinary_int.
  - replace (10000 * 8) with (IZR 80000) by lra. now apply ordinary_int.
  - replace (2 * 8 * 8) with (IZR 128) by lra. now apply ordinary_int.
  - exact (val_small 2 ltac:(discriminate)).
  - cbn. lia.
Qed.
