(** * P_Nvi: property C111, the negative volume index in binary64.

    [within e x y] and [part k M] = k * 2^-50 * M are those of SpecTracking.v,
    [tame] (2^-200 to 2^200) that of SpecFlow.v; [nvi_factor] is the exact
    growth of a row, 1 unless its volume is below the one before (SpecNum.v). *)
From Flocq Require Import Core BinarySingleNaN.
From Coq Require Import Reals Lra Floats.
From Verif Require Import Api FloatArith FloatReal FloatPct SpecNum SpecTracking SpecFlow NviError.
Local Open Scope R_scope.

(** C111.  The relative error grows by no more than 2^-50 a row, as long as
    the close never halves on a row that counts. *)
Theorem C111_nvi : forall rows c v,
  (forall i b, nth_error rows i = Some b -> (val (b_close b) = Fin (c i) /\ tame (c i)) /\ val (b_volume b) = Fin (v i)) ->
  let N i := 1000 * rprod (nvi_factor c v) 1 i in
  forall fillna out i x, compute Nvi fillna rows = Ok out -> nth_error out i = Some x -> (Z.of_nat i <= 2 ^ 30)%Z ->
  (forall j, (j <= i)%nat -> tame (N j)) ->
  (forall j, (1 <= j <= i)%nat -> v j < v (j - 1)%nat -> / 2 <= c j / c (j - 1)%nat) ->
  within (part (INR i) (N i)) x (Fin (N i)).
Proof. exact nvi_row. Qed.
Print Assumptions C111_nvi.

(** ** the hypotheses can be met *)
Ltac floats := rewrite val_SF;
  match goal with |- context [valSF (FloatOps.Prim2SF ?x)] => let y := eval vm_compute in (FloatOps.Prim2SF x) in change (FloatOps.Prim2SF x) with y end;
  unfold valSF, SF2R, F2R; cbn; f_equal; lra.
Lemma tame_small : forall r, / IZR (2 ^ 70) <= r <= 1000000 -> tame r.
Proof.
  intros r H. split; [|apply Rle_trans with 1000000; [lra|apply IZR_le; discriminate]].
  eapply Rle_trans; [|apply H]. apply Rinv_le_contravar; [apply IZR_lt; reflexivity|]. apply IZR_le. discriminate.
Qed.
Lemma small70 : / IZR (2 ^ 70) <= / 1152921504606846976.
Proof. apply Rinv_le_contravar; [lra|]. apply IZR_le. discriminate. Qed.
Definition one_of (x y z : R) (i : nat) : R := match i with 0%nat => x | 1%nat => y | _ => z end.
Definition quiet3 : list (bar float) := [mkbar 0 12 9 10 100; mkbar 1 15 12 12 80; mkbar 2 12 9 9 60]%float.
Ltac three := intros i b E; destruct i as [|[|[|i]]]; cbn in E; [injection E as <-..|destruct i; discriminate];
  cbn [b_close b_volume one_of]; refine (conj (conj _ _) _); first [apply tame_small; pose proof small70; lra|floats].
Example C111_applies : let c := one_of 10 12 9 in let v := one_of 100 80 60 in
  (forall i b, nth_error quiet3 i = Some b -> (val (b_close b) = Fin (c i) /\ tame (c i)) /\ val (b_volume b) = Fin (v i)) /\
  1000 * rprod (nvi_factor c v) 1 1 = 1200 /\ 1000 * rprod (nvi_factor c v) 1 2 = 900 /\
  (forall j, (j <= 2)%nat -> tame (1000 * rprod (nvi_factor c v) 1 j)) /\
  (forall j, (1 <= j <= 2)%nat -> v j < v (j - 1)%nat -> / 2 <= c j / c (j - 1)%nat) /\
  exists out x, compute Nvi false quiet3 = Ok out /\ nth_error out 2 = Some x.
Proof.
  intros c v. assert (N1 : 1000 * rprod (nvi_factor c v) 1 1 = 1200) by (unfold nvi_factor; cbn; destruct Rlt_dec; lra).
  assert (N2 : 1000 * rprod (nvi_factor c v) 1 2 = 900) by (unfold nvi_factor; cbn; destruct Rlt_dec; [|lra]; destruct Rlt_dec; lra).
  split; [unfold c, v; three|]. split; [exact N1|]. split; [exact N2|]. split; [|split].
  - intros j Hj. pose proof small70. assert (J : j = 0%nat \/ j = 1%nat \/ j = 2%nat) by lia. apply tame_small. destruct J as [-> | [-> | ->]]; [cbn [rprod]; lra|rewrite N1; lra|rewrite N2; lra].
  - intros j Hj _. assert (J : j = 1%nat \/ j = 2%nat) by lia. destruct J as [-> | ->]; cbn; lra.
  - eexists. eexists. split; [vm_compute; reflexivity|reflexivity].
Qed.

(** C111.  Without that the index can be lost for good: the close falls to
    2^-60 of itself and comes back, on falling volume.  1 + (2^-60 - 1) is 0 in
    binary64, so the index stays at 0; exactly it is back at 1000. *)
Definition crash : list (bar float) := [mkbar 0 1 1 1 3; mkbar 1 1 1 0x1p-60 2; mkbar 2 1 1 1 1]%float.
Theorem C111_crash_refuted : let c := one_of 1 (/ 1152921504606846976) 1 in let v := one_of 3 2 1 in
  (forall i b, nth_error crash i = Some b -> (val (b_close b) = Fin (c i) /\ tame (c i)) /\ val (b_volume b) = Fin (v i)) /\
  1000 * rprod (nvi_factor c v) 1 2 = 1000 /\
  exists out x, compute Nvi false crash = Ok out /\ nth_error out 2 = Some x /\ val x = Fin 0.
Proof.
  intros c v. split; [unfold c, v; three|]. split.
  - unfold nvi_factor; cbn; destruct Rlt_dec; [|lra]; destruct Rlt_dec; lra.
  - eexists. eexists. split; [vm_compute; reflexivity|]. split; [reflexivity|]. rewrite val_SF. reflexivity.
Qed.
Print Assumptions C111_crash_refuted.
