(** * P_Mfi: property C109, the money flow index in binary64.

    [within e x y] and [part k M] = k * 2^-50 * M are those of SpecTracking.v,
    [priced] and [clear] those of SpecFlow.v, [typical], [money_flow] and
    [mfi_value] those of SpecNum.v: the exact signed flow of a row and
    100 - 100/(1 + P/N), 100 where only N is 0, NaN where both are. *)
From Flocq Require Import Core BinarySingleNaN.
From Coq Require Import Reals Lra Floats.
From Verif Require Import Api FloatArith FloatReal FloatPct SpecNum SpecTracking SpecFlow MfiError.
Local Open Scope R_scope.

(** C109.  Row i of the index, if no row of its window has a typical price too
    close to the one before to be told apart from it. *)
Theorem C109_mfi : forall rows h l c v, priced rows h l c v ->
  forall w fillna out i x, (1 <= w)%nat -> (Z.of_nat w <= 2 ^ 25)%Z ->
  compute (Mfi (Z.of_nat w)) fillna rows = Ok out -> nth_error out i = Some x -> (warm fillna w <= i)%nat ->
  (forall j, (wlo w i <= j <= i)%nat -> j = 0%nat \/ clear h l c v j) ->
  let f := money_flow h l c v in let P := wsum w (fun j => Rmax 0 (f j)) i in let N := wsum w (fun j => Rmax 0 (- f j)) i in
  (fillna = false \/ mfi_value P N <> NaN) ->
  within (part (31 * INR w + 200) 1) x (mfi_value P N).
Proof. exact mfi_row. Qed.
Print Assumptions C109_mfi.

(** ** the hypotheses can be met *)
Ltac floats := rewrite val_SF;
  match goal with |- context [valSF (FloatOps.Prim2SF ?x)] => let y := eval vm_compute in (FloatOps.Prim2SF x) in change (FloatOps.Prim2SF x) with y end;
  unfold valSF, SF2R, F2R; cbn; f_equal; lra.
Lemma tame_small : forall r, 1 <= r <= 1000000 -> tame r.
Proof.
  intros r H. split; [|apply Rle_trans with 1000000; [lra|apply IZR_le; discriminate]].
  apply Rle_trans with 1; [|lra]. rewrite <- Rinv_1. apply Rinv_le_contravar; [lra|]. apply IZR_le. discriminate.
Qed.
Definition one_of (x y z : R) (i : nat) : R := match i with 0%nat => x | 1%nat => y | _ => z end.
Definition swing : list (bar float) := [mkbar 0 12 9 9 100; mkbar 1 15 12 12 80; mkbar 2 12 9 9 50]%float.
Definition swing_h := one_of 12 15 12.
Definition swing_l := one_of 9 12 9.
Definition swing_v := one_of 100 80 50.
Ltac three := intros i b E; destruct i as [|[|[|i]]]; cbn in E; [injection E as <-..|destruct i; discriminate];
  cbn [b_close b_high b_low b_volume]; unfold swing_h, swing_l, swing_v; cbn [one_of];
  refine (conj (conj _ _) (conj (conj _ _) (conj (conj _ _) (conj _ (or_intror _))))); first [apply tame_small; lra|floats].
Example C109_applies : priced swing swing_h swing_l swing_l swing_v /\
  (forall j, (wlo 2 2 <= j <= 2)%nat -> j = 0%nat \/ clear swing_h swing_l swing_l swing_v j) /\
  wsum 2 (fun j => Rmax 0 (money_flow swing_h swing_l swing_l swing_v j)) 2 = 1040 /\
  wsum 2 (fun j => Rmax 0 (- money_flow swing_h swing_l swing_l swing_v j)) 2 = 500 /\
  (warm false 2 <= 2)%nat /\ exists out x, compute (Mfi 2) false swing = Ok out /\ nth_error out 2 = Some x.
Proof.
  assert (M1 : money_flow swing_h swing_l swing_l swing_v 1 = 1040).
  { unfold money_flow, typical. cbn. destruct Rlt_dec; [|lra]. lra. }
  assert (M2 : money_flow swing_h swing_l swing_l swing_v 2 = -500).
  { unfold money_flow, typical. cbn. destruct Rlt_dec; [lra|]. destruct Rlt_dec; lra. }
  split; [three|]. split.
  { intros j Hj. right. right. right. assert (J : j = 1%nat \/ j = 2%nat) by (unfold wlo in Hj; lia). unfold part. change (IZR (2 ^ 50)) with 1125899906842624.
    destruct J as [-> | ->]; unfold typical; cbn [Nat.sub swing_h swing_l one_of]; unfold Rabs; destruct Rcase_abs; lra. }
  split; [|split].
  - unfold wsum. change (wlo 2 2) with 1%nat. change (wlen 2 2) with 2%nat. cbn [rsum Nat.add]. rewrite M1, M2, Rmax_right, Rmax_left by lra. lra.
  - unfold wsum. change (wlo 2 2) with 1%nat. change (wlen 2 2) with 2%nat. cbn [rsum Nat.add]. rewrite M1, M2, Rmax_left, Rmax_right by lra. lra.
  - split; [cbn; lia|]. eexists. eexists. split; [vm_compute; reflexivity|reflexivity].
Qed.

(** C109.  [clear] is needed: of three bars of prices in cents the second has
    the typical price of the first, so its large volume is no flow, and the
    index is 100.  Rounded, the second typical price is the lower one and its
    volume counts as outflow: the index shows less than 0.001. *)
Definition tied : list (bar float) := [mkbar 0 10.93 10 10.77 1; mkbar 1 10.91 10.17 10.62 1000000; mkbar 2 12 11 11 1]%float.
Definition fixed (z : Z) : R := IZR z * / 562949953421312.
Definition tied_h := one_of (fixed 6153042990894940) (fixed 6141783991826514) 12.
Definition tied_l := one_of (fixed 5629499534213120) (fixed 5725201026294743) 11.
Definition tied_c := one_of (fixed 6062970998347530) (fixed 5978528505334333) 11.
Definition tied_v := one_of 1 1000000 1.
Theorem C109_tie_refuted :
  priced tied tied_h tied_l tied_c tied_v /\
  (let f := money_flow tied_h tied_l tied_c tied_v in mfi_value (wsum 2 (fun j => Rmax 0 (f j)) 2) (wsum 2 (fun j => Rmax 0 (- f j)) 2) = Fin 100) /\
  exists out x r, compute (Mfi 2) false tied = Ok out /\ nth_error out 2 = Some x /\ val x = Fin r /\ r < / 1000.
Proof.
  unfold tied_h, tied_l, tied_c, tied_v, fixed. split; [three|]. split.
  - set (f := money_flow _ _ _ _). assert (F1 : f 1%nat = 0).
    { unfold f, money_flow, typical. cbn [one_of]. destruct Rlt_dec; [lra|]. destruct Rlt_dec; lra. }
    assert (F2 : 11 < f 2%nat < 12) by (unfold f, money_flow, typical; cbn [one_of]; destruct Rlt_dec; lra).
    unfold wsum. change (wlo 2 2) with 1%nat. change (wlen 2 2) with 2%nat. cbn [rsum Nat.add]. rewrite F1, Ropp_0, (Rmax_left 0 0), (Rmax_right 0 (f 2%nat)), (Rmax_left 0 (- f 2%nat)) by lra.
    unfold mfi_value. destruct Req_EM_T; [|lra]. destruct Req_EM_T; [lra|reflexivity].
  - eexists. eexists. eexists. split; [vm_compute; reflexivity|]. split; [reflexivity|]. split.
    + rewrite val_SF. match goal with |- context [valSF (FloatOps.Prim2SF ?x)] => let y := eval vm_compute in (FloatOps.Prim2SF x) in change (FloatOps.Prim2SF x) with y end. reflexivity.
    + unfold SF2R, F2R. cbn. lra.
Qed.
Print Assumptions C109_tie_refuted.
