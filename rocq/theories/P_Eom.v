(** * P_Eom: property C114, ease of movement in binary64.

    [within e x y] and [part k M] = k * 2^-50 * M are those of SpecTracking.v,
    [priced] (prices from 2^-200 to 2^200) that of SpecFlow.v; [delta h i] is the
    change of the high on row i and [emv_value] the exact value
    (delta h + delta l) * (h - l) / (2 v) * 10^8 (SpecNum.v). *)
From Flocq Require Import Core BinarySingleNaN.
From Coq Require Import Reals Lra Floats.
From Verif Require Import Api FloatArith FloatReal FloatPct SpecNum SpecTracking SpecFlow EomError P_Roll.
Local Open Scope R_scope.

(** C114.  Any row with a volume: the error is measured against the value the
    row would have if high and low moved the same way. *)
Theorem C114_ease_of_movement : forall rows h l c v, priced rows h l c v ->
  forall w fillna out i x, compute (Eom w) fillna rows = Ok out -> nth_error out i = Some x -> (1 <= i)%nat -> 0 < v i ->
  within (part 1 ((Rabs (delta h i) + Rabs (delta l i)) * Rabs (h i - l i) / (2 * v i) * 100000000)) x (Fin (emv_value h l v i)).
Proof. exact eom_row. Qed.
Print Assumptions C114_ease_of_movement.
(** C114.  If they do, the value is right to 2^-50 of itself, however small. *)
Theorem C114_ease_of_movement_same_way : forall rows h l c v, priced rows h l c v ->
  forall w fillna out i x, compute (Eom w) fillna rows = Ok out -> nth_error out i = Some x -> (1 <= i)%nat -> 0 < v i ->
  0 <= delta h i * delta l i ->
  within (part 1 (Rabs (emv_value h l v i))) x (Fin (emv_value h l v i)).
Proof. exact eom_same_way. Qed.
Print Assumptions C114_ease_of_movement_same_way.

(** ** the hypotheses can be met: row 1 of the rows of C107 *)
Ltac tames := split; [apply Rle_trans with 1; [apply tiny_one; lia|lra]|apply Rle_trans with 1000000000000000000; [lra|apply IZR_le; discriminate]].
Example C114_applies : priced four four_h four_l four_c four_v /\ 0 < four_v 1 /\ 0 <= delta four_h 1 * delta four_l 1 /\
  emv_value four_h four_l four_v 1 = 3750000 /\
  exists out x, compute (Eom 14) false four = Ok out /\ nth_error out 1 = Some x.
Proof.
  split; [|split; [cbn; lra|split; [unfold delta; cbn; lra|split; [unfold emv_value, delta; cbn; lra|]]]].
  - intros i b E. destruct i as [|[|[|[|i]]]]; cbn in E; [injection E as <-..|destruct i; discriminate];
      cbn [b_close b_high b_low b_volume four_h four_l four_c four_v];
      (split; [split; [floats|tames]|]; split; [split; [floats|tames]|]; split; [split; [floats|tames]|]; split; [floats|right; tames]).
  - eexists. eexists. split; [vm_compute; reflexivity|reflexivity].
Qed.

(** C114.  Where high and low move against each other no bound relative to the
    value holds: here the high rises by 2^53 and the low falls by 2^53 + 1, and 0
    is shown although the exact value is below -10^24. *)
Definition against : list (bar float) := [mkbar 0 18014398509481984 9007199254740994 9007199254740994 1; mkbar 1 27021597764222976 1 1 1]%float.
Definition against_h (i : nat) : R := match i with 0%nat => 18014398509481984 | _ => 27021597764222976 end.
Definition against_l (i : nat) : R := match i with 0%nat => 9007199254740994 | _ => 1 end.
Definition against_v (i : nat) : R := 1.
Theorem C114_against_refuted : priced against against_h against_l against_l against_v /\
  emv_value against_h against_l against_v 1 < - 1000000000000000000000000 /\
  exists out x, compute (Eom 14) false against = Ok out /\ nth_error out 1 = Some x /\ val x = Fin 0.
Proof.
  split; [|split].
  - intros i b E. destruct i as [|[|i]]; cbn in E; [injection E as <-..|destruct i; discriminate];
      cbn [b_close b_high b_low b_volume against_h against_l against_v]; unfold against_v;
      (split; [split; [floats|tames]|]; split; [split; [floats|tames]|]; split; [split; [floats|tames]|]; split; [floats|right; tames]).
  - unfold emv_value, delta, against_v. cbn. lra.
  - eexists. eexists. split; [vm_compute; reflexivity|]. split; [reflexivity|]. rewrite val_SF. reflexivity.
Qed.
Print Assumptions C114_against_refuted.
