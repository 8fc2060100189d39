(** * P_Roll: property C107, volume-weighted averages in binary64.

    pandas keeps the sums of a window up to date by adding the new row and
    subtracting the one that leaves, so errors of rows long gone stay in them
    (C93).  [within e x y], [part k M] = k * 2^-50 * M, [closes], [ranges],
    [volumes] and [ordinary] are those of SpecTracking.v. *)
From Flocq Require Import Core BinarySingleNaN.
From Coq Require Import Reals Lra Floats.
From Verif Require Import Api FloatArith FloatReal FloatPct SpecNum SpecTracking RollError.
Local Open Scope R_scope.

(** C107.  Prices up to M, volumes from 0 to V.  Row i is as good as the volume
    B of its window is large: the error allowed is 9*2^-50 of M*V/B for each
    row so far and each row of the window. *)
Theorem C107_vwap : forall rows h l c v M V, closes rows c M -> ranges rows h l M -> volumes rows v V ->
  (forall i, (i < length rows)%nat -> 0 <= v i) -> ordinary V -> (1000 * Z.of_nat (length rows) <= 2 ^ 53)%Z ->
  ordinary M -> / IZR (2 ^ 900) <= M * V <= IZR (2 ^ 980) ->
  forall fillna w out i x, (1 <= w)%nat -> (Z.of_nat w <= 2 ^ 28)%Z -> compute (Vwap (Z.of_nat w)) fillna rows = Ok out -> nth_error out i = Some x -> (warm fillna w <= i)%nat ->
  let B := wsum w v i in 0 < B -> part (3 * (INR (S i) * INR w)) V <= B ->
  within (part (9 * (INR (S i) * INR w)) (M * V / B)) x (Fin (wsum w (fun j => typical h l c j * v j) i / B)).
Proof. exact vwap_row. Qed.
Print Assumptions C107_vwap.
(** C107.  Chaikin money flow: bars with low <= close <= high whose height is 0
    or not below 2^-900. *)
Theorem C107_cmf : forall rows h l c v M V, closes rows c M -> ranges rows h l M -> volumes rows v V ->
  (forall i, (i < length rows)%nat -> 0 <= v i) -> ordinary V -> (1000 * Z.of_nat (length rows) <= 2 ^ 53)%Z ->
  M <= IZR (2 ^ 990) -> (forall i, (i < length rows)%nat -> l i <= c i <= h i /\ (h i = l i \/ / IZR (2 ^ 900) <= h i - l i)) -> V <= IZR (2 ^ 980) ->
  forall fillna w out i x, (1 <= w)%nat -> (Z.of_nat w <= 2 ^ 28)%Z -> compute (Cmf (Z.of_nat w)) fillna rows = Ok out -> nth_error out i = Some x -> (warm fillna w <= i)%nat ->
  let B := wsum w v i in 0 < B -> part (3 * (INR (S i) * INR w)) V <= B ->
  within (part (9 * (INR (S i) * INR w)) (V / B)) x (Fin (wsum w (fun j => location h l c j * v j) i / B)).
Proof. exact cmf_row. Qed.
Print Assumptions C107_cmf.

(** ** the hypotheses can be met: four rows, the third a single trade (high = low) *)
Definition four : list (bar float) := [mkbar 0 12 9 10 100; mkbar 1 13 10 12 80; mkbar 2 11 11 11 120; mkbar 3 15 12 14 90]%float.
Definition four_h (i : nat) : R := match i with 0%nat => 12 | 1%nat => 13 | 2%nat => 11 | _ => 15 end.
Definition four_l (i : nat) : R := match i with 0%nat => 9 | 1%nat => 10 | 2%nat => 11 | _ => 12 end.
Definition four_c (i : nat) : R := match i with 0%nat => 10 | 1%nat => 12 | 2%nat => 11 | _ => 14 end.
Definition four_v (i : nat) : R := match i with 0%nat => 100 | 1%nat => 80 | 2%nat => 120 | _ => 90 end.
Ltac floats := rewrite val_SF;
  match goal with |- context [valSF (FloatOps.Prim2SF ?x)] => let y := eval vm_compute in (FloatOps.Prim2SF x) in change (FloatOps.Prim2SF x) with y end;
  unfold valSF, SF2R, F2R; cbn; f_equal; lra.
Ltac four_rows := intros i b E; destruct i as [|[|[|[|i]]]]; cbn in E; [injection E as <-..|destruct i; discriminate];
  cbn [b_close b_high b_low b_volume four_h four_l four_c four_v]; repeat split; try floats; try (apply Rabs_le; lra); lra.
Lemma tiny_one : forall k, (0 <= k)%Z -> / IZR (2 ^ k) <= 1.
Proof. intros k H. rewrite <- Rinv_1. apply Rinv_le_contravar; [lra|]. apply IZR_le. pose proof (Z.pow_pos_nonneg 2 k). lia. Qed.
Example C107_data : closes four four_c 16 /\ ranges four four_h four_l 16 /\ volumes four four_v 128 /\
  (forall i, (i < length four)%nat -> 0 <= four_v i) /\ ordinary 128 /\ (1000 * Z.of_nat (length four) <= 2 ^ 53)%Z /\ ordinary 16 /\
  / IZR (2 ^ 900) <= 16 * 128 <= IZR (2 ^ 980) /\ 16 <= IZR (2 ^ 990) /\ 128 <= IZR (2 ^ 980) /\
  (forall i, (i < length four)%nat -> four_l i <= four_c i <= four_h i /\ (four_h i = four_l i \/ / IZR (2 ^ 900) <= four_h i - four_l i)).
Proof.
  assert (O : forall z, (1 <= z <= 2 ^ 990)%Z -> ordinary (IZR z)) by (intros z H; split; [apply Rle_trans with 1; [apply tiny_one; lia|apply IZR_le; lia]|apply IZR_le; lia]).
  pose proof (tiny_one 900 ltac:(lia)) as T.
  split; [four_rows|]. split; [four_rows|]. split; [four_rows|]. split; [intros i _; unfold four_v; do 3 (destruct i; [lra|]); lra|].
  split; [apply O; split; [lia|discriminate]|]. split; [discriminate|]. split; [apply O; split; [lia|discriminate]|].
  split; [split; [lra|rewrite <- mult_IZR; apply IZR_le; discriminate]|]. split; [apply IZR_le; discriminate|]. split; [apply IZR_le; discriminate|].
  intros i _. unfold four_h, four_l, four_c. destruct i as [|[|[|i]]]; (split; [lra|]); [right; lra|right; lra|left; lra|right; lra].
Qed.
Example C107_applies : 0 < wsum 2 four_v 3 /\ part (3 * (INR 4 * INR 2)) 128 <= wsum 2 four_v 3 /\
  exists out x, compute (Vwap 2) false four = Ok out /\ nth_error out 3 = Some x /\ (warm false 2 <= 3)%nat.
Proof.
  assert (E : wsum 2 four_v 3 = 210) by (unfold wsum; cbn; lra). rewrite E. split; [lra|]. split.
  - rewrite !INR_IZR_INZ. unfold part. change (IZR (2 ^ 50)) with 1125899906842624. cbn. lra.
  - eexists. eexists. split; [vm_compute; reflexivity|]. split; [reflexivity|]. cbn. lia.
Qed.
