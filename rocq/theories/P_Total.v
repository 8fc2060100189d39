(** * P_Total: property C112, running totals of volume in binary64.

    [within e x y], [part k M] = k * 2^-50 * M, [closes], [ranges] and
    [volumes] are those of SpecTracking.v; [signed_volume] is the volume of a
    row, negative if its close fell, and [location] where the close lies
    between low and high, from -1 to 1 (SpecNum.v). *)
From Flocq Require Import Core BinarySingleNaN.
From Coq Require Import Reals Lra Floats.
From Verif Require Import Api FloatArith FloatReal FloatPct SpecNum SpecTracking TotalError P_Roll.
Local Open Scope R_scope.

(** C112.  On-balance volume: the error is measured against the volume T traded
    so far. *)
Theorem C112_obv : forall rows c v,
  (forall i b, nth_error rows i = Some b -> val (b_close b) = Fin (c i) /\ val (b_volume b) = Fin (v i) /\ 0 <= v i) ->
  forall fillna out i x, compute Obv fillna rows = Ok out -> nth_error out i = Some x -> (1000 * Z.of_nat (S i) <= 2 ^ 53)%Z ->
  let T := rsum v 0 (S i) in / IZR (2 ^ 900) <= T <= IZR (2 ^ 980) ->
  within (part (INR (S i) / 7) T) x (Fin (rsum (signed_volume c v) 0 (S i))).
Proof. exact obv_row. Qed.
Print Assumptions C112_obv.
(** C112.  Accumulation/distribution: bars with low <= close <= high whose
    height is 0 or not below 2^-900. *)
Theorem C112_adi : forall rows h l c v M V, closes rows c M -> ranges rows h l M -> volumes rows v V ->
  (forall i, (i < length rows)%nat -> 0 <= v i) -> M <= IZR (2 ^ 990) ->
  (forall i, (i < length rows)%nat -> l i <= c i <= h i /\ (h i = l i \/ / IZR (2 ^ 900) <= h i - l i)) ->
  forall fillna out i x, compute Adi fillna rows = Ok out -> nth_error out i = Some x -> (1000 * Z.of_nat (S i) <= 2 ^ 53)%Z ->
  let T := rsum v 0 (S i) in / IZR (2 ^ 900) <= T <= IZR (2 ^ 980) ->
  within (part (INR (S i) / 7 + 2) T) x (Fin (rsum (fun j => location h l c j * v j) 0 (S i))).
Proof. exact adi_row. Qed.
Print Assumptions C112_adi.

(** ** the hypotheses can be met: the four rows of C107 *)
Example C112_applies : closes four four_c 16 /\ ranges four four_h four_l 16 /\ volumes four four_v 128 /\
  (forall i, (i < length four)%nat -> 0 <= four_v i) /\ 16 <= IZR (2 ^ 990) /\
  (forall i, (i < length four)%nat -> four_l i <= four_c i <= four_h i /\ (four_h i = four_l i \/ / IZR (2 ^ 900) <= four_h i - four_l i)) /\
  (forall i b, nth_error four i = Some b -> val (b_close b) = Fin (four_c i) /\ val (b_volume b) = Fin (four_v i) /\ 0 <= four_v i) /\
  rsum four_v 0 4 = 390 /\ / IZR (2 ^ 900) <= rsum four_v 0 4 <= IZR (2 ^ 980) /\ rsum (signed_volume four_c four_v) 0 4 = 150 /\
  (exists out x, compute Adi false four = Ok out /\ nth_error out 3 = Some x) /\
  exists out x, compute Obv false four = Ok out /\ nth_error out 3 = Some x.
Proof.
  destruct C107_data as (A & B & C & D & _ & _ & _ & _ & F & _ & G). assert (T : rsum four_v 0 4 = 390) by (cbn; lra).
  split; [exact A|]. split; [exact B|]. split; [exact C|]. split; [exact D|]. split; [exact F|]. split; [exact G|]. split; [|split; [exact T|split; [|split; [|split]]]].
  - intros i b E. destruct (A i b E) as [V1 _]. destruct (C i b E) as [V2 _]. split; [exact V1|]. split; [exact V2|]. apply D. apply nth_error_Some. congruence.
  - rewrite T. split; [|apply IZR_le; discriminate]. pose proof (tiny_one 900 ltac:(lia)). lra.
  - cbn [rsum Nat.add signed_volume four_c four_v]. repeat (destruct Rlt_dec; try lra).
  - eexists. eexists. split; [vm_compute; reflexivity|reflexivity].
  - eexists. eexists. split; [vm_compute; reflexivity|reflexivity].
Qed.

(** C112.  Against the total itself no bound holds: a small volume between two
    large ones that cancel is lost, and on-balance volume shows 0 instead of 1. *)
Definition swamped : list (bar float) := [mkbar 0 1 1 1 9007199254740992; mkbar 1 2 2 2 1; mkbar 2 1 1 1 9007199254740992]%float.
Definition swamped_c (i : nat) : R := match i with 1%nat => 2 | _ => 1 end.
Definition swamped_v (i : nat) : R := match i with 1%nat => 1 | _ => 9007199254740992 end.
Theorem C112_lost_volume_refuted :
  (forall i b, nth_error swamped i = Some b -> val (b_close b) = Fin (swamped_c i) /\ val (b_volume b) = Fin (swamped_v i)) /\
  rsum (signed_volume swamped_c swamped_v) 0 3 = 1 /\
  exists out x, compute Obv false swamped = Ok out /\ nth_error out 2 = Some x /\ val x = Fin 0.
Proof.
  split; [|split].
  - intros i b E; destruct i as [|[|[|i]]]; cbn in E; [injection E as <-..|destruct i; discriminate]; cbn [b_close b_volume swamped_c swamped_v]; split; floats.
  - cbn [rsum Nat.add signed_volume swamped_c swamped_v]. repeat (destruct Rlt_dec; try lra).
  - eexists. eexists. split; [vm_compute; reflexivity|]. split; [reflexivity|]. rewrite val_SF. reflexivity.
Qed.
Print Assumptions C112_lost_volume_refuted.
