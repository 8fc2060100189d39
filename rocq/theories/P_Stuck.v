(** * P_Stuck: property C86 (what one bad row does to the rows after it). *)
From Coq Require Import Reals Floats Lra.
From Verif Require Import Api FloatArith Samples SpecNum SpecMemory SpecStuck Rows Running Stuck.

(** C86.  A series with a finite memory recovers: [memory] rows after the last
    bad row it is what it would have been without the bad rows. *)
Theorem C86_recovers : forall (ind : indicator xr) m,
  memory ind = Some m -> washes_out m (compute ind false).
Proof. exact (fun ind m => wash_out ind m (or_introl windowed_xr)). Qed.
Print Assumptions C86_recovers.
Theorem C86_recovers_anew : forall F (A : Arith F) (L : ArithLaws F) (ind : indicator F) m,
  each_window_anew ind = true -> memory ind = Some m -> washes_out m (compute ind false).
Proof. exact (fun F A L ind m H => wash_out ind m (or_intror H)). Qed.
Print Assumptions C86_recovers_anew.

(** C86.  KAMA does not: after one missing close it is missing for ever. *)
Theorem C86_kama_lost : forall F (A : Arith F) (L : ArithLaws F) w p q (rows : list (bar F)) out j k,
  (1 <= w)%Z -> compute (Kama w p q) false rows = Ok out ->
  missing_cell b_close rows j -> (k < j)%nat -> fisnan (nth k out fnan) = false -> missing_from j out.
Proof. exact @kama_stuck. Qed.
Print Assumptions C86_kama_lost.

(** C86.  ATR: one row without high and low. *)
Theorem C86_atr_lost : forall F (A : Arith F) (L : ArithLaws F) w (rows : list (bar F)) j,
  (1 <= w)%Z -> (w <= Z.of_nat j)%Z -> missing_cell b_high rows j -> missing_cell b_low rows j ->
  stuck_from j (fun fillna => compute (Atr w) fillna rows).
Proof. exact @atr_stuck. Qed.
Print Assumptions C86_atr_lost.

(** C86.  ADX and the directional lines: one missing high or low, or the close
    of the row before. *)
Theorem C86_directional_lost : forall F (A : Arith F) (L : ArithLaws F) w (rows : list (bar F)) j,
  (w < Z.of_nat j)%Z -> (j < length rows)%nat -> range_gap rows j ->
  stuck_from j (fun fillna => compute (AdxPos w) fillna rows) /\
  stuck_from j (fun fillna => compute (AdxNeg w) fillna rows).
Proof. exact @di_stuck. Qed.
Print Assumptions C86_directional_lost.
Theorem C86_adx_lost : forall F (A : Arith F) (L : ArithLaws F) w (rows : list (bar F)) j,
  (w < Z.of_nat j)%Z -> (j < length rows)%nat -> range_gap rows j ->
  stuck_from (Nat.max j (2 * Z.to_nat w - 1)) (fun fillna => compute (Adx w) fillna rows).
Proof. exact @adx_stuck. Qed.
Print Assumptions C86_adx_lost.

(** C86.  PSAR: a missing first high. *)
Theorem C86_psar_lost : forall F (A : Arith F) (L : ArithLaws F) b step mx (rows : list (bar F)),
  missing_cell b_high rows 0 ->
  stuck_from 2 (fun fillna => compute (Psar b step mx) fillna rows) /\
  (forall out, compute (PsarUp b step mx) false rows = Ok out -> missing_from 0 out) /\
  (forall out, compute (PsarDown b step mx) false rows = Ok out -> missing_from 0 out).
Proof. exact @psar_stuck. Qed.
Print Assumptions C86_psar_lost.

(** C86.  NVI: once missing, missing for ever. *)
Theorem C86_nvi_lost : forall F (A : Arith F) (L : ArithLaws F) (rows : list (bar F)) out j,
  compute Nvi false rows = Ok out -> fisnan (nth j out fnan) = true ->
  stuck_from j (fun fillna => compute Nvi fillna rows).
Proof. exact @nvi_stuck. Qed.
Print Assumptions C86_nvi_lost.

(** C86.  OBV takes a missing close for a rise, on its own row and on the next. *)
Theorem C86_obv_counts_gap_as_rise : forall F (A : Arith F) (L : ArithLaws F) (rows : list (bar F)) out j,
  compute Obv false rows = Ok out -> missing_cell b_close rows j ->
  forall i, (i = j \/ i = S j) -> (1 <= i < length rows)%nat ->
  fisnan (nth (i - 1) (map b_volume rows) fnan) = false -> fisnan (nth i (map b_volume rows) fnan) = false ->
  nth i out fnan = fadd (nth (i - 1) out fnan) (nth i (map b_volume rows) fnan).
Proof. exact @obv_rise. Qed.
Print Assumptions C86_obv_counts_gap_as_rise.

(** C86.  One zero price (exact arithmetic): volume-price trend is never a
    number again; NVI is 0 or missing for ever when the volume fell that day. *)
Theorem C86_vpt_zero_price : forall n h l c v j,
  (S j < n)%nat -> c j = 0%R -> c (S j) <> 0%R -> v (S j) <> 0%R ->
  (forall out, compute (Vpt None false) false (frame n h l c v) = Ok out ->
    forall i, (j < i)%nat -> forall r, nth i out NaN <> Fin r) /\
  (forall out, compute (Vpt None false) true (frame n h l c v) = Ok out -> frozen_from (S j) out).
Proof. exact vpt_zero. Qed.
Print Assumptions C86_vpt_zero_price.
Theorem C86_nvi_zero_price : forall n h l c v j out,
  (1 <= j < n)%nat -> c j = 0%R -> (v j < v (j - 1)%nat)%R ->
  compute Nvi false (frame n h l c v) = Ok out ->
  forall i, (j <= i)%nat -> nth i out NaN = Fin 0 \/ nth i out NaN = NaN.
Proof. exact nvi_zero. Qed.
Print Assumptions C86_nvi_zero_price.

(** The hypotheses are met: the sample with row 7 blanked out. *)
Definition blank : list (bar float) :=
  firstn 7 sample ++ [mkbar 7 nan nan nan nan] ++ skipn 8 sample ++ later.
Definition blanked (f : list (bar float) -> result (list float)) (k j : nat) : bool :=
  match f blank, f (sample ++ later) with
  | Ok out, Ok out' => negb (PrimFloat.is_nan (nth k out nan)) && forallb PrimFloat.is_nan (skipn j out) &&
      negb (existsb PrimFloat.is_nan (skipn j out'))
  | _, _ => false
  end.
Example C86_blank_row :
  missing_cell b_close blank 7 /\ missing_cell b_high blank 7 /\ missing_cell b_low blank 7 /\ range_gap blank 7 /\
  blanked (compute (Kama 2 2 5) false) 6 7 = true /\ blanked (compute (Atr 3) false) 6 7 = true /\
  blanked (compute (AdxPos 3) false) 6 7 = true /\ blanked (compute (AdxNeg 3) false) 6 7 = true /\
  blanked (compute (Adx 3) false) 6 7 = true /\
  (match compute (Sma 3) false blank, compute (Sma 3) false (sample ++ later) with
   | Ok out, Ok out' => same (skipn 10 out) (skipn 10 out') && negb (same (skipn 9 out) (skipn 9 out'))
   | _, _ => false end = true) /\
  (match compute (Psar false step02 step2) false (bars_from 0 [(nan, 9, 10, 100)]%float ++ skipn 1 sample) with
   | Ok out => forallb PrimFloat.is_nan (skipn 2 out) | _ => false end = true) /\
  (match compute Nvi false (bars_from 0 [(12, 9, 10, 100); (12, 9, 0, 90); (12, 9, 10, 80); (12, 9, 11, 120); (12, 9, 12, 110)]%float) with
   | Ok out => same out [1000; 0; nan; nan; nan]%float | _ => false end = true).
Proof.
  repeat match goal with |- _ /\ _ => split end; try (vm_compute; reflexivity); try (eexists; split; vm_compute; reflexivity).
  left. eexists; split; vm_compute; reflexivity.
Qed.
Example C86_zero_price_met : exists c v : nat -> R,
  c 1%nat = 0%R /\ c 2%nat <> 0%R /\ v 2%nat <> 0%R /\ (v 1%nat < v (1 - 1)%nat)%R.
Proof. exists (fun i => if Nat.eqb i 1 then 0 else 2)%R, (fun i => 5 - INR i)%R. cbn. repeat split; lra. Qed.
