(** * P_Cci: property C108, the commodity channel index in binary64.

    [within e x y], [part k M] = k * 2^-50 * M, [closes], [ranges] and
    [ordinary] are those of SpecTracking.v, [wmean] and [wmad] the exact mean
    and mean absolute deviation of a window (SpecNum.v). *)
From Flocq Require Import Core BinarySingleNaN.
From Coq Require Import Reals Lra Floats.
From Verif Require Import Api FloatArith FloatReal FloatPct SpecNum SpecTracking Halt CciError.
Local Open Scope R_scope.

(** C108.  Prices up to M, constant k.  Row i is as good as the mean absolute
    deviation B of its window is large. *)
Theorem C108_cci : forall rows h l c M, closes rows c M -> ranges rows h l M -> (1000 * Z.of_nat (length rows) <= 2 ^ 53)%Z ->
  ordinary M -> ordinary (101 / 100 * M) ->
  forall fillna w kf k out i x, (1 <= w)%nat -> (Z.of_nat w <= 2 ^ 25)%Z -> val kf = Fin k -> ordinary k -> ordinary (k * M) ->
  compute (Cci (Z.of_nat w) kf) fillna rows = Ok out -> nth_error out i = Some x -> (warm fillna w <= i)%nat ->
  let t := typical h l c in let B := wmad w t i in part (7 * INR w) M <= B ->
  within (part (9 * INR (S i) + 4 * (INR w * INR w)) (M / (k * B))) x (Fin ((t i - wmean w t i) / (k * B))).
Proof. exact cci_row. Qed.
Print Assumptions C108_cci.

(** ** the hypotheses can be met *)
Ltac floats := rewrite val_SF;
  match goal with |- context [valSF (FloatOps.Prim2SF ?x)] => let y := eval vm_compute in (FloatOps.Prim2SF x) in change (FloatOps.Prim2SF x) with y end;
  unfold valSF, SF2R, F2R; cbn; f_equal; lra.
Definition trio : list (bar float) := [mkbar 0 12 9 9 100; mkbar 1 14 11 11 80; mkbar 2 16 13 13 120]%float.
Definition up_to (a : R) (i : nat) : R := match i with 0%nat => a | 1%nat => a + 2 | _ => a + 4 end.
Lemma tiny_one : forall k, (0 <= k)%Z -> / IZR (2 ^ k) <= 1.
Proof. intros k H. rewrite <- Rinv_1. apply Rinv_le_contravar; [lra|]. apply IZR_le. pose proof (Z.pow_pos_nonneg 2 k). lia. Qed.
Ltac three_rows := intros i b E; destruct i as [|[|[|i]]]; cbn in E; [injection E as <-..|destruct i; discriminate];
  cbn [b_close b_high b_low up_to]; repeat split; try floats; try (apply Rabs_le; lra); lra.
Example C108_applies : closes trio (up_to 9) 16 /\ ranges trio (up_to 12) (up_to 9) 16 /\ ordinary 16 /\ ordinary (101 / 100 * 16) /\ ordinary (/ 64) /\ ordinary (/ 64 * 16) /\
  val 0.015625%float = Fin (/ 64) /\ part (7 * INR 2) 16 <= wmad 2 (typical (up_to 12) (up_to 9) (up_to 9)) 2 /\ (warm false 2 <= 2)%nat /\
  exists out x, compute (Cci 2 0.015625%float) false trio = Ok out /\ nth_error out 2 = Some x.
Proof.
  pose proof (tiny_one 900 ltac:(lia)) as T.
  assert (O : forall r, / 64 <= r <= 100 -> ordinary r).
  { intros r H. split; [|apply Rle_trans with 100; [lra|apply IZR_le; discriminate]]. apply Rle_trans with (/ 64); [|lra]. apply Rinv_le_contravar; [lra|]. apply IZR_le. discriminate. }
  split; [three_rows|]. split; [three_rows|]. do 4 (split; [apply O; lra|]). split; [floats|]. split.
  - unfold wmad, wmean, wsum, typical. cbn. unfold part. change (IZR (2 ^ 50)) with 1125899906842624.
    repeat match goal with |- context [Rabs ?x] => unfold Rabs at 1; destruct (Rcase_abs x) end; lra.
  - split; [cbn; lia|]. eexists. eexists. split; [vm_compute; reflexivity|reflexivity].
Qed.

(** C108.  Where the deviation is lost in rounding the index is arbitrary, and
    not even within its range of +-w/(2k) = +-66.7 (C33): two bars of prices in
    cents, [twins], with one typical price; the second shows -133.3. *)
Definition twins : list (bar float) := [mkbar 0 10.93 10 10.77 1; mkbar 1 10.91 10.17 10.62 1]%float.
Definition fixed (z : Z) : R := IZR z * / IZR (2 ^ 49).
Definition pick (x y : Z) (i : nat) : R := fixed (match i with 0%nat => x | _ => y end).
Definition twins_h := pick 6153042990894940 6141783991826514.
Definition twins_l := pick 5629499534213120 5725201026294743.
Definition twins_c := pick 6062970998347530 5978528505334333.
Ltac twin_rows := intros i b E; destruct i as [|[|i]]; cbn in E; [injection E as <-..|destruct i; discriminate];
  cbn [b_close b_high b_low]; repeat split; unfold twins_h, twins_l, twins_c, pick, fixed; change (IZR (2 ^ 49)) with 562949953421312; try floats; try (apply Rabs_le; lra).
Theorem C108_lost_deviation_refuted :
  closes twins twins_c 11 /\ ranges twins twins_h twins_l 11 /\ (forall i, twins_l i <= twins_c i <= twins_h i) /\
  wmad 2 (typical twins_h twins_l twins_c) 1 = 0 /\
  exists out x r, compute (Cci 2 0.015%float) false twins = Ok out /\ nth_error out 1 = Some x /\ val x = Fin r /\ r < -133.
Proof.
  split; [twin_rows|]. split; [twin_rows|]. unfold twins_h, twins_l, twins_c, pick, fixed; change (IZR (2 ^ 49)) with 562949953421312. split; [intros [|i]; lra|]. split.
  - assert (E : forall j, typical twins_h twins_l twins_c j = typical twins_h twins_l twins_c 0).
    { intros [|j]; [reflexivity|]. unfold typical, twins_h, twins_l, twins_c, pick, fixed. change (IZR (2 ^ 49)) with 562949953421312. lra. }
    exact (Halt.wmad_eq 2 _ 1 _ ltac:(lia) E).
  - eexists. eexists. eexists. split; [vm_compute; reflexivity|]. split; [reflexivity|]. split.
    + rewrite val_SF. match goal with |- context [valSF (FloatOps.Prim2SF ?x)] => let y := eval vm_compute in (FloatOps.Prim2SF x) in change (FloatOps.Prim2SF x) with y end. reflexivity.
    + unfold SF2R, F2R. cbn. lra.
Qed.
Print Assumptions C108_lost_deviation_refuted.
