(** * P_Force: property C113, the sign of the force index in binary64.

    [part k M] = k * 2^-50 * M, [closes], [volumes] and [ordinary] are those of
    SpecTracking.v; [delta c i] is the change of close on row i and [ema] the
    exponential average (SpecNum.v).  The error of the cells themselves is
    bounded in C97. *)
From Flocq Require Import Core BinarySingleNaN.
From Coq Require Import Reals Lra Floats.
From Verif Require Import Api FloatArith FloatReal FloatPct SpecNum SpecTracking FiError P_Roll.
Local Open Scope R_scope.

(** C113.  M bounds the closes and V the volumes; an index larger than
    (2 w + 3) * 2^-50 * M * V is shown with the right sign. *)
Theorem C113_force_index_sign : forall fillna w rows c v M V, (1 <= w)%nat -> (100 * Z.of_nat w <= 2 ^ 53)%Z -> closes rows c M -> volumes rows v V ->
  ordinary M -> ordinary (M * V) ->
  forall out i x, compute (Fi (Z.of_nat w)) fillna rows = Ok out -> nth_error out i = Some x -> (1 + warm fillna w <= i)%nat ->
  let f := ema w (fun j => delta c j * v j) 1 i in part (2 * INR w + 3) (M * V) < Rabs f ->
  exists q, val x = Fin q /\ (0 < q <-> 0 < f) /\ (q < 0 <-> f < 0).
Proof. exact fi_sign. Qed.
Print Assumptions C113_force_index_sign.

(** ** the hypotheses can be met: the four rows of C107, window 2 *)
Example C113_applies : closes four four_c 16 /\ volumes four four_v 128 /\ ordinary 16 /\ ordinary (16 * 128) /\
  part (2 * INR 2 + 3) (16 * 128) < Rabs (ema 2 (fun j => delta four_c j * four_v j) 1 3) /\ (1 + warm false 2 <= 3)%nat /\
  exists out x, compute (Fi (Z.of_nat 2)) false four = Ok out /\ nth_error out 3 = Some x.
Proof.
  destruct C107_data as (A & _ & C & _ & _ & _ & F & _).
  split; [exact A|]. split; [exact C|]. split; [exact F|]. split.
  { split; [apply Rle_trans with 1; [apply tiny_one; lia|lra]|rewrite <- mult_IZR; apply IZR_le; discriminate]. }
  split; [|split; [unfold warm; lia|]].
  - unfold part. change (IZR (2 ^ 50)) with 1125899906842624. cbn. unfold delta. cbn. unfold Rabs. destruct Rcase_abs; lra.
  - eexists. eexists. split; [vm_compute; reflexivity|reflexivity].
Qed.

(** C113.  Without that condition the sign can be wrong: with closes 1, 6, 3 and
    these volumes the exact index of window 2 is -7/3, and 2 is shown. *)
Definition torn : list (bar float) := [mkbar 0 1 1 1 1; mkbar 1 6 6 6 9007199254740985; mkbar 2 3 3 3 7505999378950822]%float.
Definition torn_c (i : nat) : R := match i with 0%nat => 1 | 1%nat => 6 | _ => 3 end.
Definition torn_v (i : nat) : R := match i with 0%nat => 1 | 1%nat => 9007199254740985 | _ => 7505999378950822 end.
Theorem C113_wrong_sign_refuted :
  (forall i b, nth_error torn i = Some b -> val (b_close b) = Fin (torn_c i) /\ val (b_volume b) = Fin (torn_v i)) /\
  ema 2 (fun j => delta torn_c j * torn_v j) 1 2 = - 7 / 3 /\
  exists out x, compute (Fi 2) false torn = Ok out /\ nth_error out 2 = Some x /\ val x = Fin 2.
Proof.
  split; [|split].
  - intros i b E; destruct i as [|[|[|i]]]; cbn in E; [injection E as <-..|destruct i; discriminate]; cbn [b_close b_volume torn_c torn_v]; split; floats.
  - unfold ema. cbn. unfold delta. cbn. lra.
  - eexists. eexists. split; [vm_compute; reflexivity|]. split; [reflexivity|]. floats.
Qed.
Print Assumptions C113_wrong_sign_refuted.
