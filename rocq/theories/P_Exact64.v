(** * P_Exact64: properties C84 and C85, binary64 without rounding error.

    [real_bar] reads a row of floats as a row of (extended) reals, [val] one
    cell; [rx] rounds a real to the nearest double, ties to even.
    [on_grid e k x]: x is k * 2^e (SpecTracking.v, SpecBinary64.v). *)
From Flocq Require Import Core BinarySingleNaN.
From Coq Require Import Reals Lra Floats Permutation.
From Verif Require Import Api FloatArith FloatReal FloatPct SpecNum SpecTracking SpecBinary64 FloatExact FlatTable.

(** C84. *)
Theorem C84_donchian_bands_exact : forall w o fillna rows,
  compute (DcH w o) fillna (map real_bar rows) = rmap (map val) (compute (DcH w o) fillna rows) /\
  compute (DcL w o) fillna (map real_bar rows) = rmap (map val) (compute (DcL w o) fillna rows).
Proof. exact donchian_exact. Qed.
Print Assumptions C84_donchian_bands_exact.
Theorem C84_obv_exact : forall e, (-1074 <= e)%Z -> (e <= 900)%Z -> forall fillna rows ks,
  Forall2 (lot e) ks (map b_volume rows) -> (total ks <= 2 ^ 53)%Z ->
  compute Obv fillna (map real_bar rows) = rmap (map val) (compute Obv fillna rows).
Proof. exact obv_exact. Qed.
Print Assumptions C84_obv_exact.
Theorem C84_sma_correctly_rounded : forall e, (-1074 <= e)%Z -> (e <= 900)%Z -> forall w N, (1 <= N)%Z -> (Z.of_nat w * N <= 2 ^ 53)%Z ->
  forall fillna rows, Forall (fun b => quoted e N (b_close b)) rows ->
  rmap (map rx) (compute (Sma (Z.of_nat w)) fillna (map real_bar rows)) = rmap (map val) (compute (Sma (Z.of_nat w)) fillna rows).
Proof. exact sma_one_rounding. Qed.
Print Assumptions C84_sma_correctly_rounded.
Theorem C84_any_order_of_additions : forall e, (-1074 <= e)%Z -> (e <= 900)%Z -> forall s t ks,
  Forall2 (on_grid e) ks (terms s) -> (total ks <= 2 ^ 53)%Z -> Permutation (terms s) (terms t) ->
  PrimFloat.eqb (added s) (added t) = true.
Proof. exact adding_order. Qed.
Print Assumptions C84_any_order_of_additions.
(** quotes in quarters: 2.75, missing, -1, infinity; volumes 3, 5, missing, 4 *)
Definition quarters : list (bar float) :=
  [mkbar 0%Z nan nan 0x1.6p+1 3; mkbar 1%Z nan nan nan 5; mkbar 2%Z nan nan (-1) nan; mkbar 3%Z nan nan infinity 4]%float.
Lemma at_grid : forall x e k, match Prim2SF x with S754_zero _ => k = 0%Z | S754_finite s m f => (e <= f)%Z /\ k = ((if s then Z.neg m else Z.pos m) * 2 ^ (f - e))%Z
  | _ => False end \/ match Prim2SF x with S754_finite s m f => (f <= e)%Z /\ (if s then Z.neg m else Z.pos m) = (k * 2 ^ (e - f))%Z | _ => False end -> on_grid e k x.
Proof.
  intros x e k H. unfold on_grid. rewrite val_SF. destruct (Prim2SF x) as [s| | |s m f]; cbn [valSF SF2R]; try (destruct H as [H|H]; destruct H; fail).
  - destruct H as [->|[]]. f_equal. ring.
  - f_equal. unfold F2R. cbn [Fnum Fexp cond_Zopp]. replace (cond_Zopp s (Z.pos m)) with (if s then Z.neg m else Z.pos m) by now destruct s.
    destruct H as [[L ->]|[L ->]].
    + rewrite mult_IZR, (IZR_Zpower radix2) by lia. rewrite Rmult_assoc, <- bpow_plus. f_equal. f_equal. lia.
    + rewrite mult_IZR, (IZR_Zpower radix2) by lia. rewrite Rmult_assoc, <- bpow_plus. f_equal. f_equal. lia.
Qed.
Example C84_applies : Forall (fun b => quoted (-2) 11 (b_close b)) quarters /\ Forall2 (lot 0) [3; 5; 0; 4]%Z (map b_volume quarters).
Proof.
  split.
  - unfold quarters. repeat (apply Forall_cons; [cbn [b_close]; unfold quoted|]); [right; right; exists 11%Z|now left|right; right; exists (-4)%Z|right; now left|constructor].
    + split; [|lia]. apply at_grid. right. vm_compute. split; [discriminate|reflexivity].
    + split; [|lia]. apply at_grid. right. vm_compute. split; [discriminate|reflexivity].
  - unfold quarters. cbn [map b_volume]. repeat apply Forall2_cons; [right|right|now left|right|constructor]; apply at_grid; right; vm_compute; (split; [discriminate|reflexivity]).
Qed.

(** C85. *)
Theorem C85_still_market : forall p ind fillna rows v out, PrimFloat.ltb (PrimFloat.abs p) infinity = true -> PrimFloat.eqb p 0 = false ->
  Forall (still p) rows -> still_value p ind = Some v -> compute ind fillna rows = Ok out -> Forall (shows v) out.
Proof. exact still_market. Qed.
Print Assumptions C85_still_market.
(** price 0.1, one row missing *)
Definition dime : list (bar float) := let b x := mkbar 0%Z x x x 7%float in map b [0.1; 0.1; nan; 0.1; 0.1]%float.
Example C85_applies : Forall (still 0.1%float) dime /\
  compute (Ema 3) false dime = Ok [nan; nan; nan; 0.1; 0.1]%float /\ compute (Macd 3 2 2) false dime = Ok [nan; nan; nan; 0; 0]%float /\
  compute (Rsi 2) false dime = Ok [nan; 100; 100; 100; 100]%float.
Proof.
  split; [unfold dime; repeat (apply Forall_cons; [repeat split; try (right; reflexivity); left; reflexivity|]); constructor|].
  repeat split; vm_compute; reflexivity.
Qed.
