(** * P_Tracking: property C83, binary64 against real arithmetic.

    [within e x y]: x is missing exactly where y is, and otherwise finite and
    within e of it; [part k M] is k * 2^-50 * M; [closes rows c M]: the closes
    of [rows] are the reals c 0, c 1, ..., of size at most M (SpecTracking.v).
    The error does not depend on the number of rows. *)
From Flocq Require Import Core BinarySingleNaN.
From Coq Require Import Reals Lra Floats.
From Verif Require Import Api FloatArith FloatReal FloatPct SpecNum SpecTracking Tracking.
Local Open Scope R_scope.

(** C83. *)
Theorem C83_ema_rounding_does_not_accumulate : forall fillna w rows c M, (1 <= w)%nat -> (100 * Z.of_nat w <= 2 ^ 53)%Z -> closes rows c M -> ordinary M ->
  exists out, compute (Ema (Z.of_nat w)) fillna rows = Ok out /\
    Forall2 (within (part (INR w + 1) M)) out (tab (length rows) (from (warm fillna w) (ema w c 0))).
Proof. exact ema_tracks. Qed.
Print Assumptions C83_ema_rounding_does_not_accumulate.
Theorem C83_macd_rounding_does_not_accumulate : forall fillna s f g rows c M, (1 <= s)%nat -> (1 <= f)%nat -> (1 <= g)%nat ->
  (100 * Z.of_nat s <= 2 ^ 53)%Z -> (100 * Z.of_nat f <= 2 ^ 53)%Z -> (100 * Z.of_nat g <= 2 ^ 53)%Z -> closes rows c M -> ordinary M ->
  let k := warm fillna (Nat.max f s) in
  let line := fun i => ema f c 0 i - ema s c 0 i in
  exists m sg d, compute (Macd (Z.of_nat s) (Z.of_nat f) (Z.of_nat g)) fillna rows = Ok m /\
    compute (MacdSignal (Z.of_nat s) (Z.of_nat f) (Z.of_nat g)) fillna rows = Ok sg /\
    compute (MacdDiff (Z.of_nat s) (Z.of_nat f) (Z.of_nat g)) fillna rows = Ok d /\
    Forall2 (within (part (INR f + INR s + 3) M)) m (tab (length rows) (gaps fillna 0 k line)) /\
    Forall2 (within (part (INR f + INR s + 3 * INR g + 6) M)) sg (tab (length rows) (gaps fillna 0 (k + warm fillna g) (ema g line k))) /\
    Forall2 (within (part (2 * (INR f + INR s) + 3 * INR g + 10) M)) d (tab (length rows) (gaps fillna 0 (k + warm fillna g) (fun i => line i - ema g line k i))).
Proof. exact macd_tracks. Qed.
Print Assumptions C83_macd_rounding_does_not_accumulate.
(** closes 1.5, 0.1 (the nearest double), 7; no size above 8 *)
Definition three_rows : list (bar float) :=
  map (fun x => mkbar 0%Z x x x x) [0x1.8p+0; 0x1.999999999999ap-4; 0x1.cp+2]%float.
Definition three_reals (i : nat) : R :=
  match i with 0%nat => 3 / 2 | 1%nat => 7205759403792794 / 72057594037927936 | _ => 7 end.
Example C83_applies : closes three_rows three_reals 8 /\ ordinary 8 /\ (100 * Z.of_nat 26 <= 2 ^ 53)%Z.
Proof.
  split; [|split; [split|discriminate]].
  - intros i b E. destruct i as [|[|[|i]]]; cbn in E; [injection E as <-..|destruct i; discriminate]; cbn [b_close three_reals];
      rewrite val_SF; (split; [|apply Rabs_le; lra]);
      match goal with |- valSF (FloatOps.Prim2SF ?x) = _ => let y := eval vm_compute in (FloatOps.Prim2SF x) in change (FloatOps.Prim2SF x) with y end;
      unfold valSF, SF2R, F2R; cbn; f_equal; lra.
  - apply Rle_trans with 1; [|lra]. rewrite <- Rinv_1. apply Rinv_le_contravar; [lra|]. apply IZR_le. discriminate.
  - apply IZR_le. discriminate.
Qed.
