(** * P_Structure: properties C01-C05 and the positive part of C59.

    Unless said otherwise the theorems hold for every arithmetic [Arith F], in
    particular for binary64. *)
From Coq Require Import Floats.
From Verif Require Import Api FloatArith SpecCausal Align Rows Running Causal CausalPsar CausalAdx CausalMasked CausalBack
  Samples SpecResidue.

(** C01. One output row per input row. *)
Theorem C01_one_row_per_row : forall F (A : Arith F) (ind : indicator F) fillna rows out,
  aligned_scope ind rows -> compute ind fillna rows = Ok out -> length out = length rows.
Proof. exact @compute_length. Qed.
Print Assumptions C01_one_row_per_row.

Example C01_applies : aligned_scope (Psar true step02 step2) sample /\
  exists out, compute (Psar true step02 step2) false sample = Ok out /\ length out = 12.
Proof. split; [intros i Hi; cbn in *; lia|]. eexists. split; reflexivity. Qed.

(** C02. No look-ahead, window based indicators. *)
Theorem C02_window_no_lookahead : forall F (A : Arith F) (ind : indicator F) fillna,
  window_based ind = true -> fillna = false \/ fills_backward ind = false ->
  no_lookahead (compute ind fillna).
Proof. exact (fun F A ind fl H1 H2 => prefix_ok_no_lookahead ind fl (window_based_prefix_ok ind fl H1 H2)). Qed.
Print Assumptions C02_window_no_lookahead.

(** The backward-filled series with fillna=True: once one row is a number,
    appended rows change nothing. *)
Theorem C02_backfilled_no_lookahead :
  forall F (A : Arith F) (ind : indicator F) rows more out out' i, fisnan (fnan : F) = true ->
  window_based ind = true -> fills_backward ind = true ->
  compute ind true rows = Ok out -> compute ind true (rows ++ more) = Ok out' ->
  i < length out -> fisnan (nth i out fnan) = false ->
  firstn (length rows) out' = out.
Proof. exact @window_based_back. Qed.
Print Assumptions C02_backfilled_no_lookahead.

Example C02_applies :
  window_based (Stoch 5 3 : indicator float) = true /\ fills_backward (Stoch 5 3 : indicator float) = false /\
  (exists out out', compute (Stoch 5 3) true sample = Ok out /\
                    compute (Stoch 5 3) true (sample ++ later) = Ok out') /\
  window_based (BbH 5 2%float) = true /\ fills_backward (BbH 5 2%float) = true /\
  (exists out, compute (BbH 5 2%float) true sample = Ok out /\ PrimFloat.is_nan (nth 0 out nan) = false).
Proof. repeat split; repeat eexists. Qed.

(** C03. No look-ahead, recursive and cumulative indicators. *)
Theorem C03_recursive_no_lookahead : forall F (A : Arith F) (ind : indicator F) fillna,
  recursive_based ind = true -> no_lookahead (compute ind fillna).
Proof. exact (fun F A ind fl H => prefix_ok_no_lookahead ind fl (recursive_based_prefix_ok ind fl H)). Qed.
Print Assumptions C03_recursive_no_lookahead.

Theorem C03_adx_no_lookahead : forall F (A : Arith F) (ind : indicator F) w fillna rows more out out',
  adx_based ind = Some w -> rows_numeric w rows ->
  compute ind fillna rows = Ok out -> compute ind fillna (rows ++ more) = Ok out' ->
  firstn (length rows) out' = out.
Proof. exact @adx_no_lookahead. Qed.
Print Assumptions C03_adx_no_lookahead.

Theorem C03_psar_no_lookahead : forall F (A : Arith F) (ind : indicator F) fillna rows more out out',
  psar_based ind = true -> fillna = false \/ fills_backward ind = false ->
  label_dependent ind = false \/ default_index (rows ++ more) ->
  compute ind fillna rows = Ok out -> compute ind fillna (rows ++ more) = Ok out' ->
  firstn (length rows) out' = out.
Proof. exact @psar_no_lookahead. Qed.
Print Assumptions C03_psar_no_lookahead.

Theorem C03_psar_backfilled_no_lookahead :
  forall F (A : Arith F) (ind : indicator F) rows more out out' i, fisnan (fnan : F) = true ->
  psar_based ind = true -> fills_backward ind = true ->
  label_dependent ind = false \/ default_index (rows ++ more) ->
  compute ind true rows = Ok out -> compute ind true (rows ++ more) = Ok out' ->
  i < length out -> fisnan (nth i out fnan) = false ->
  firstn (length rows) out' = out.
Proof. exact @psar_based_back. Qed.
Print Assumptions C03_psar_backfilled_no_lookahead.

Example C03_applies :
  recursive_based (Rsi 5 : indicator float) = true /\
  (exists o o', compute (Rsi 5) false sample = Ok o /\ compute (Rsi 5) false (sample ++ later) = Ok o') /\
  adx_based (Adx 4 : indicator float) = Some 4%Z /\ rows_numeric 4 sample /\
  (exists o o', compute (Adx 4) false sample = Ok o /\ compute (Adx 4) false (sample ++ later) = Ok o') /\
  default_index (sample ++ later) /\
  (exists o, compute (PsarUp true step02 step2) true sample = Ok o /\
             PrimFloat.is_nan (nth 0 o nan) = false).
Proof.
  refine (conj eq_refl (conj _ (conj eq_refl (conj sample_numeric (conj _ (conj eq_refl _))))));
    repeat eexists.
Qed.

(** C04. fillna=False: the whole-sample mean and the wrap-around are masked by
    the warm-up rows. *)
Theorem C04_dpo_no_lookahead : forall F (A : Arith F), ArithLaws F ->
  forall w, (3 <= w)%Z -> no_lookahead (compute (Dpo w) false).
Proof. exact @dpo_no_lookahead. Qed.
Print Assumptions C04_dpo_no_lookahead.

Theorem C04_trix_no_lookahead : forall F (A : Arith F), ArithLaws F ->
  forall w, (2 <= w)%Z -> no_lookahead (compute (Trix w) false).
Proof. exact @trix_no_lookahead. Qed.
Print Assumptions C04_trix_no_lookahead.

(** Vortex and KAMA keep running sums over rows that are masked later on, so the
    theorems are about exact arithmetic. *)
Theorem C04_vortex_no_lookahead : forall w,
  no_lookahead (@compute xr _ (VortexPos w) false) /\ no_lookahead (@compute xr _ (VortexNeg w) false) /\
  no_lookahead (@compute xr _ (VortexDiff w) false).
Proof. exact (vortex_no_lookahead windowed_xr). Qed.
Print Assumptions C04_vortex_no_lookahead.

(** KAMA: provided its first row (row w-1) is a number in both results. *)
Theorem C04_kama_no_lookahead :
  forall w p1 p2 (rows more : list (bar xr)) out out', (1 <= w)%Z ->
  compute (Kama w p1 p2) false rows = Ok out -> compute (Kama w p1 p2) false (rows ++ more) = Ok out' ->
  (Z.to_nat w <= length rows -> fisnan (nth (Z.to_nat w - 1) out fnan) = false /\
                                fisnan (nth (Z.to_nat w - 1) out' fnan) = false) ->
  firstn (length rows) out' = out.
Proof. exact (kama_no_lookahead windowed_xr). Qed.
Print Assumptions C04_kama_no_lookahead.

(** C04, binary64: ordinary prices; the rows masked at the start leave rounding
    errors in the running sums, which reach the published rows. *)
Definition vortex_rows : list (bar float) := tenths
  [(34, 29, 33); (58, 48, 57); (46, 27, 32); (57, 38, 51); (39, 23, 29); (66, 47, 51); (33, 21, 29); (59, 40, 45); (54, 41, 54)]%Z.
Definition kama_rows : list (bar float) := tenths
  [(34, 20, 24); (66, 45, 50); (35, 30, 34); (48, 44, 48); (52, 43, 48); (37, 28, 29); (25, 20, 25); (39, 34, 39); (54, 32, 35)]%Z.
Theorem C04_vortex_kama_binary64_refuted :
  ~ no_lookahead (compute (VortexPos 3) false : list (bar float) -> _) /\
  ~ no_lookahead (compute (VortexNeg 3) false : list (bar float) -> _) /\
  ~ no_lookahead (compute (VortexDiff 3) false : list (bar float) -> _) /\
  ~ no_lookahead (compute (Kama 3 2 30) false : list (bar float) -> _).
Proof.
  repeat split; [apply (changes_refutes _ (firstn 8 vortex_rows) (skipn 8 vortex_rows))
   |apply (changes_refutes _ (firstn 8 vortex_rows) (skipn 8 vortex_rows))
   |apply (changes_refutes _ (firstn 8 vortex_rows) (skipn 8 vortex_rows))
   |apply (changes_refutes _ (firstn 8 kama_rows) (skipn 8 kama_rows))]; vm_compute; reflexivity.
Qed.
Print Assumptions C04_vortex_kama_binary64_refuted.
(** the first row of KAMA is a number in both results *)
Example C04_kama_first_row : forall k, k = 8 \/ k = 9 -> exists o, compute (Kama 3 2 30) false (firstn k kama_rows) = Ok o /\
  PrimFloat.is_nan (nth 2 o nan) = false.
Proof. intros k [-> | ->]; eexists; (split; [reflexivity|vm_compute; reflexivity]). Qed.

(** the laws hold of exact arithmetic and of binary64 *)
Example C04_laws : ArithLaws xr /\ ArithLaws float.
Proof. split; [exact XR_laws|exact Float_laws]. Qed.
Example C04_applies :
  (exists o o', compute (Dpo 4) false sample = Ok o /\ compute (Dpo 4) false (sample ++ later) = Ok o') /\
  (exists o o', compute (Trix 3) false sample = Ok o /\ compute (Trix 3) false (sample ++ later) = Ok o') /\
  (exists o o', compute (VortexPos 3) false sample = Ok o /\
                compute (VortexPos 3) false (sample ++ later) = Ok o') /\
  (exists o o', compute (Kama 4 2 30) false sample = Ok o /\
                compute (Kama 4 2 30) false (sample ++ later) = Ok o' /\
                PrimFloat.is_nan (nth 3 o nan) = false /\ PrimFloat.is_nan (nth 3 o' nan) = false).
Proof. repeat split; repeat eexists. Qed.

(** C05. The remaining series do look ahead (binary64 witnesses). *)
Theorem C05_lookahead_refuted :
  ~ no_lookahead (compute (Kst 2 3 4 5 2 2 2 3 2) false : list (bar float) -> _) /\
  ~ no_lookahead (compute (Kst 2 3 4 5 2 2 2 3 2) true : list (bar float) -> _) /\
  ~ no_lookahead (compute (KstSig 2 3 4 5 2 2 2 3 2) false : list (bar float) -> _) /\
  ~ no_lookahead (compute (KstDiff 2 3 4 5 2 2 2 3 2) false : list (bar float) -> _) /\
  ~ no_lookahead (compute (IchiA 2 4 6 true) false : list (bar float) -> _) /\
  ~ no_lookahead (compute (IchiB 2 4 6 true) false : list (bar float) -> _) /\
  ~ no_lookahead (compute (Dpo 4) true : list (bar float) -> _) /\
  ~ no_lookahead (compute (Dpo 2) false : list (bar float) -> _) /\
  ~ no_lookahead (compute (Trix 3) true : list (bar float) -> _) /\
  ~ no_lookahead (compute (Trix 1) false : list (bar float) -> _) /\
  ~ no_lookahead (compute (VortexPos 3) true : list (bar float) -> _) /\
  ~ no_lookahead (compute (VortexNeg 3) true : list (bar float) -> _) /\
  ~ no_lookahead (compute (VortexDiff 3) true : list (bar float) -> _) /\
  ~ no_lookahead (compute (Kama 4 2 30) true : list (bar float) -> _) /\
  ~ no_lookahead (compute (PsarUp false step02 step2) true) /\
  ~ no_lookahead (compute (PsarDown false step02 step2) true) /\
  ~ no_lookahead (compute (DcH 3 (-1)) false : list (bar float) -> _) /\
  ~ no_lookahead (compute (Atr (-1)) false : list (bar float) -> _) /\
  ~ no_lookahead (compute (KcH 3 (-1) false 2%float) false : list (bar float) -> _).
Proof.
  repeat split; first
  [ apply (changes_refutes _ sample later); vm_compute; reflexivity
  | apply (changes_refutes _ (firstn 2 sample) (skipn 2 sample)); vm_compute; reflexivity ].
Qed.
Print Assumptions C05_lookahead_refuted.

(** C59, positive part: with the default labels 0..n-1 PSAR is the positional
    computation. *)
Theorem C59_psar_default_labels : forall F (A : Arith F) (ind : indicator F) fillna rows,
  default_index rows -> compute ind fillna rows = compute (positional ind) fillna rows.
Proof. exact @psar_default_index. Qed.
Print Assumptions C59_psar_default_labels.
