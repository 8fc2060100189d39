(** * P_Ulcer: property C110, the ulcer index in binary64.

    [within e x y] and [part k M] = k * 2^-50 * M are those of SpecTracking.v,
    [tame] (2^-200 to 2^200) that of SpecFlow.v, [drawdown] the exact fall in
    percent from the peak of a window and [wmean] its exact mean (SpecNum.v). *)
From Flocq Require Import Core BinarySingleNaN.
From Coq Require Import Reals Lra Floats.
From Verif Require Import Api FloatArith FloatReal FloatPct SpecNum SpecTracking SpecFlow UlcerError.
Local Open Scope R_scope.

(** C110.  The error is relative to the exact index V, however small V is. *)
Theorem C110_ulcer : forall rows c, (forall i b, nth_error rows i = Some b -> val (b_close b) = Fin (c i) /\ tame (c i)) ->
  forall w fillna out i x, (1 <= w)%nat -> (Z.of_nat w <= 2 ^ 25)%Z ->
  compute (Ulcer (Z.of_nat w)) fillna rows = Ok out -> nth_error out i = Some x -> (w - 1 <= i)%nat ->
  let V := sqrt (wmean w (fun j => drawdown w c j * drawdown w c j) i) in
  within (part (INR w / 10 + 1) V) x (Fin V).
Proof. exact ulcer_row. Qed.
Print Assumptions C110_ulcer.

(** C110.  It shows 0 if and only if every close of the window is the highest
    of the w closes up to it. *)
Theorem C110_zero : forall rows c, (forall i b, nth_error rows i = Some b -> val (b_close b) = Fin (c i) /\ tame (c i)) ->
  forall w fillna out i x, (1 <= w)%nat -> (Z.of_nat w <= 2 ^ 25)%Z ->
  compute (Ulcer (Z.of_nat w)) fillna rows = Ok out -> nth_error out i = Some x -> (w - 1 <= i)%nat ->
  (val x = Fin 0 <-> forall j, (wlo w i <= j <= i)%nat -> c j = wmax w c j).
Proof. exact ulcer_zero. Qed.
Print Assumptions C110_zero.

(** ** the hypotheses can be met, by a market that falls and one that does not *)
Ltac floats := rewrite val_SF;
  match goal with |- context [valSF (FloatOps.Prim2SF ?x)] => let y := eval vm_compute in (FloatOps.Prim2SF x) in change (FloatOps.Prim2SF x) with y end;
  unfold valSF, SF2R, F2R; cbn; f_equal; lra.
Lemma tame_small : forall r, 1 <= r <= 1000000 -> tame r.
Proof.
  intros r H. split; [|apply Rle_trans with 1000000; [lra|apply IZR_le; discriminate]].
  apply Rle_trans with 1; [|lra]. rewrite <- Rinv_1. apply Rinv_le_contravar; [lra|]. apply IZR_le. discriminate.
Qed.
Definition dip : list (bar float) := [mkbar 0 12 9 10 100; mkbar 1 15 12 8 80; mkbar 2 12 9 12 50]%float.
Definition dip_c (i : nat) : R := match i with 0%nat => 10 | 1%nat => 8 | _ => 12 end.
Example C110_applies : (forall i b, nth_error dip i = Some b -> val (b_close b) = Fin (dip_c i) /\ tame (dip_c i)) /\
  wmean 2 (fun j => drawdown 2 dip_c j * drawdown 2 dip_c j) 1 = 200 /\ dip_c 1 <> wmax 2 dip_c 1 /\
  (forall j, (wlo 1 2 <= j <= 2)%nat -> dip_c j = wmax 1 dip_c j) /\
  (exists out x, compute (Ulcer 2) false dip = Ok out /\ nth_error out 1 = Some x) /\
  exists out x, compute (Ulcer 1) false dip = Ok out /\ nth_error out 2 = Some x.
Proof.
  assert (P : wmax 2 dip_c 1 = 10) by (unfold wmax; cbn; apply Rmax_left; lra).
  assert (P0 : wmax 2 dip_c 0 = 10) by reflexivity.
  split; [|split; [|split; [|split]]].
  - intros i b E; destruct i as [|[|[|i]]]; cbn in E; [injection E as <-..|destruct i; discriminate];
      cbn [b_close dip_c]; split; first [apply tame_small; lra|floats].
  - unfold wmean, wsum, drawdown. change (wlo 2 1) with 0%nat. change (wlen 2 1) with 2%nat. cbn [rsum Nat.add]. rewrite P, P0. cbn [dip_c INR]. field.
  - rewrite P. cbn. lra.
  - intros j Hj. unfold wmax. replace (wlen 1 j - 1)%nat with 0%nat by (unfold wlen; lia). cbn [rmax]. f_equal. unfold wlo. lia.
  - split; eexists; eexists; (split; [vm_compute; reflexivity|reflexivity]).
Qed.
